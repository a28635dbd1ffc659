(** The colour loops of the red-black trees, continued: the whole of RB_INSERT_COLOR, and RB_REMOVE_COLOR. *)
From Verif Require Import BaseLemmas TreeModel TreeMem TreeBal.
From Coq Require Import Permutation.
Import ListNotations.

Lemma root_black m t : Rep m t -> t <> E -> (exists n, bal t n) -> nored t ->
  exists m' t', set_color (root m) BLACK m = Ok m' /\ ends m m' t t' /\ rbok t'.
Proof.
  intros H N (n & B) R. destruct t as [|c l x r]; [congruence|]. rewrite (proj1 H). cbn [ptr].
  destruct (color_ends m [] true c l x r false H) as (m' & E1 & C1). cbn [col] in E1.
  exists m', (T false l x r). split; [exact E1|]. split; [exact C1|].
  split; [|split; [|reflexivity]].
  - destruct c; [exists (S n)|exists n]; exact B.
  - cbn in R |- *. intuition congruence.
Qed.
Lemma insert_color_ok f k x n m : Rep m (plug k (T true E x E)) -> okc k n -> n = 0%nat -> (length k < f)%nat ->
  exists m' t', insert_color f x m = Ok m' /\ ends m m' (plug k (T true E x E)) t' /\ rbok t'.
Proof.
  intros H O -> L. destruct (insert_loop_ok f k E x E 0%nat m H O) as (m1 & t1 & E1 & C1 & N1 & B1 & R1); try reflexivity; try exact I; auto.
  unfold insert_color. rewrite E1. cbn [bind].
  destruct (root_black m1 t1 (proj1 C1) N1 B1 R1) as (m2 & t2 & E2 & C2 & K). exists m2, t2. split; [auto|]. split; [|auto]. eapply chain; eauto.
Qed.

(** RB_REMOVE_COLOR: the two halves are mirror images. *)
Definition rfix (d : bool) (par tmp : Z) (m : tmem) : out (Z * tmem) :=
  let* to := child (negb d) tmp m in let* bo := is_black to m in
  let* (tmp, m) := (if bo : bool then
      let* o := child d tmp m in let* m := (if o =? 0 then Ok m else set_color o BLACK m) in
      let* m := set_color tmp RED m in let* (_, m) := rot (negb d) tmp m in let* tmp := child (negb d) par m in Ok (tmp, m)
    else Ok (tmp, m)) in
  let* c := color par m in let* m := set_color tmp c m in
  let* m := set_color par BLACK m in
  let* r := child (negb d) tmp m in let* m := (if r =? 0 then Ok m else set_color r BLACK m) in
  let* (_, m) := rot d par m in Ok (root m, m).
Definition rbody2 (d : bool) (f : nat) (par tmp : Z) (m : tmem) : out (Z * tmem) :=
  let* tl := left tmp m in let* bl := is_black tl m in
  let* both := (if bl : bool then let* tr := right tmp m in is_black tr m else Ok false) in
  if both : bool then let* m := set_color tmp RED m in let* p := parent par m in remove_loop f p par m
  else rfix d par tmp m.
Definition rbody (d : bool) (f : nat) (par : Z) (m : tmem) : out (Z * tmem) :=
  let* tmp := child (negb d) par m in
  let* c := color tmp m in
  let* (tmp, m) := (if c =? RED then let* m := set_blackred tmp par m in let* (_, m) := rot d par m in let* tmp := child (negb d) par m in Ok (tmp, m) else Ok (tmp, m)) in
  rbody2 d f par tmp m.
Lemma remove_loop_S f par elm m : remove_loop (S f) par elm m =
  let* b := is_black elm m in
  if negb (b && negb (elm =? root m)) then Ok (elm, m) else let* l := left par m in rbody (l =? elm) f par m.
Proof.
  cbn [remove_loop]. destruct (is_black elm m); cbn [bind]; auto. destruct (negb _); auto.
  destruct (left par m) eqn:EL; cbn [bind]; auto. destruct (_ =? _).
  - unfold rbody. cbn [negb child]. reflexivity.
  - unfold rbody. cbn [negb child]. rewrite EL. cbn [bind]. reflexivity.
Qed.

Lemma refocus d c t p s k : plug k (mk d c t p s) = plug (Fr (negb d) c p t :: k) s.
Proof. cbn [plug f_d f_c f_x f_t]. rewrite mk_negb. reflexivity. Qed.
Lemma refocus' d c t p s k : plug k (mk d c t p s) = plug (Fr d c p s :: k) t.
Proof. reflexivity. Qed.
Lemma red_parts d t n : redt t = true -> bal t n -> nored t ->
  exists a v b, t = mk d true a v b /\ bal a n /\ bal b n /\ nored a /\ nored b /\ redt a = false /\ redt b = false.
Proof.
  intros R B N. destruct (mk_any d t) as (c & a & v & b & ->); [intros ->; discriminate|]. rewrite redt_mk in R. subst c.
  apply bal_mk in B. apply nored_mk in N. exists a, v, b. intuition.
Qed.

Lemma rfix_ok d m k c t p s1 y s2 n : Rep m (plug k (mk d c t p (mk d false s1 y s2))) ->
  okc k (if c then S n else S (S n)) -> (c = true -> hred k = false) -> bal t n -> nored t -> redt t = false ->
  bal s1 n -> bal s2 n -> nored s1 -> nored s2 -> redt s1 = true \/ redt s2 = true ->
  exists m' t', rfix d p y m = Ok (root m', m') /\ ends m m' (plug k (mk d c t p (mk d false s1 y s2))) t' /\ rbok t'.
Proof.
  intros H O HC Bt Nt Rt B1 B2 N1 N2 RR. unfold rfix.
  set (t0 := plug k (mk d c t p (mk d false s1 y s2))) in *.
  assert (Hy : Rep m (plug (Fr (negb d) c p t :: k) (mk d false s1 y s2))) by (rewrite <- refocus; exact H).
  destruct (this_node _ _ _ _ _ _ _ Hy) as (Ky & Y0).
  destruct (this_node _ _ _ _ _ _ _ H) as (Kp & P0).
  rewrite (other_k _ _ _ _ _ _ _ Ky Y0). cbn [bind].
  assert (H2 : Rep m (plug (Fr (negb d) false y s1 :: Fr (negb d) c p t :: k) s2)) by (rewrite <- refocus; exact Hy).
  rewrite (proj2 (red_ok _ _ _ H2)). cbn [bind].
  assert (Mid : exists m1 y' s1' a v b, (if negb (redt s2)
     then let* o := child d y m in let* m0 := (if o =? 0 then Ok m else set_color o BLACK m) in
          let* m1 := set_color y RED m0 in let* (_, m2) := rot (negb d) y m1 in let* tmp := child (negb d) p m2 in Ok (tmp, m2)
     else Ok (y, m)) = Ok (y', m1) /\ ends m m1 t0 (plug k (mk d c t p (mk d false s1' y' (mk d true a v b)))) /\
     bal s1' n /\ nored s1' /\ bal a n /\ bal b n /\ nored a /\ nored b /\ redt a = false /\ redt b = false).
  { destruct (redt s2) eqn:R2; cbn [negb].
    - destruct (red_parts d s2 n R2 B2 N2) as (a & v & b & -> & Q). exists m, y, s1, a, v, b. split; [reflexivity|]. split; [apply ends_refl; exact H|]. intuition.
    - destruct RR as [R1|]; [|congruence].
      destruct (red_parts d s1 n R1 B1 N1) as (a & z & b & -> & Q1 & Q2 & Q3 & Q4 & Q5 & Q6).
      rewrite (child_k _ _ _ _ _ _ _ Ky Y0). cbn [bind]. rewrite ptr_mk.
      assert (Hz : Rep m (plug (Fr d false y s2 :: Fr (negb d) c p t :: k) (mk d true a z b))) by exact Hy.
      destruct (this_node _ _ _ _ _ _ _ Hz) as (Kz & Z0). destruct (Z.eqb_spec z 0); [congruence|].
      scol Hz (Fr d false y s2 :: Fr (negb d) c p t :: k) d true a z b false m1 H1 C1.
      assert (H1' : Rep m1 (plug (Fr (negb d) c p t :: k) (mk d false (mk d false a z b) y s2))) by exact H1.
      scol H1' (Fr (negb d) c p t :: k) d false (mk d false a z b) y s2 true m2 Hm2 C2.
      assert (H2' : Rep m2 (plug (Fr (negb d) c p t :: k) (mk (negb d) true s2 y (mk (negb d) false b z a)))) by (rewrite !mk_negb; exact Hm2).
      destruct (rot_ends _ _ _ _ _ _ _ _ _ _ H2') as (m3 & Er & C3). rewrite Er. cbn [bind].
      assert (C3' : ends m2 m3 (plug (Fr (negb d) c p t :: k) (mk d true (mk d false a z b) y s2)) (plug k (mk d c t p (mk d false a z (mk d true b y s2))))).
      { rewrite (refocus d c t p). rewrite !mk_negb in C3. exact C3. }
      pose proof (proj1 C3') as H3. destruct (this_node _ _ _ _ _ _ _ H3) as (Kp3 & _). rewrite (other_k _ _ _ _ _ _ _ Kp3 P0). rewrite ptr_mk. cbn [bind].
      exists m3, z, a, b, y, s2. split; [reflexivity|]. split; [|auto 10].
      unfold t0. rewrite (refocus d c t p). eapply chain; [exact C1|]. eapply chain; [exact C2|]. exact C3'. }
  destruct Mid as (m1 & y' & s1' & a & v & b & EM & C1 & Q1 & Q2 & Q3 & Q4 & Q5 & Q6 & Q7 & Q8).
  rewrite EM. cbn [bind]. clear EM Hy H2 Ky Y0 Kp. pose proof (proj1 C1) as H1.
  destruct (this_node _ _ _ _ _ _ _ H1) as (Kp & _). rewrite (col_k _ _ _ _ _ _ _ Kp P0). cbn [bind].
  assert (H1' : Rep m1 (plug (Fr (negb d) c p t :: k) (mk d false s1' y' (mk d true a v b)))) by (rewrite <- refocus; exact H1).
  destruct (color_ends _ _ _ _ _ _ _ c H1') as (m2 & E2 & C2). rewrite E2. cbn [bind]. rewrite <- !refocus in C2.
  pose proof (proj1 C2) as H2.
  scol H2 k d c t p (mk d c s1' y' (mk d true a v b)) false m3 H3 C3.
  assert (H3' : Rep m3 (plug (Fr (negb d) false p t :: k) (mk d c s1' y' (mk d true a v b)))) by (rewrite <- refocus; exact H3).
  destruct (this_node _ _ _ _ _ _ _ H3') as (Ky & Y0). rewrite (other_k _ _ _ _ _ _ _ Ky Y0). rewrite ptr_mk. cbn [bind].
  rewrite refocus in H3'. destruct (this_node _ _ _ _ _ _ _ H3') as (Kv & V0). destruct (Z.eqb_spec v 0); [congruence|].
  scol H3' (Fr (negb d) c y' s1' :: Fr (negb d) false p t :: k) d true a v b false m4 H4 C4.
  repeat rewrite <- refocus in C4. repeat rewrite <- refocus in H4.
  destruct (rot_ends _ _ _ _ _ _ _ _ _ _ H4) as (m5 & Er & C5). rewrite Er. cbn [bind].
  set (t5 := plug k (mk d c (mk d false t p s1') y' (mk d false a v b))) in *.
  exists m5, t5. split; [reflexivity|]. split.
  { eapply chain; [exact C1|]. eapply chain; [exact C2|]. eapply chain; [exact C3|]. eapply chain; [exact C4|]. exact C5. }
  apply (plug_okc _ _ _ O).
  - apply bal_mk. destruct c; rewrite !bal_mk; auto.
  - rewrite !nored_mk, !redt_mk. intuition congruence.
  - rewrite redt_mk. intros J. destruct c; auto. rewrite HC in J; auto.
Qed.

Definition blk (t : tree) : tree := match t with E => E | T _ l x r => T false l x r end.
Definition finish (r : out (Z * tmem)) : out tmem := let* (e, m) := r in if e =? 0 then Ok m else set_color e BLACK m.
Lemma both_ok m k d c s1 y s2 : Rep m (plug k (mk d c s1 y s2)) ->
  (let* tl := left y m in let* bl := is_black tl m in if bl : bool then let* tr := right y m in is_black tr m else Ok false) = Ok (negb (redt s1) && negb (redt s2)).
Proof.
  intros H. destruct (this_node _ _ _ _ _ _ _ H) as (K & Y0).
  assert (A : is_black (ptr s1) m = Ok (negb (redt s1))) by (rewrite refocus' in H; apply (red_ok _ _ _ H)).
  assert (B : is_black (ptr s2) m = Ok (negb (redt s2))) by (rewrite refocus in H; apply (red_ok _ _ _ H)).
  destruct d; rewrite (left_k _ _ _ K Y0), (right_k _ _ _ K Y0); cbn [bind ent e_left e_right]; rewrite ?A, ?B; cbn [bind]; destruct (redt s1), (redt s2); cbn [negb andb]; rewrite ?A, ?B; reflexivity.
Qed.
Definition removes (f : nat) : Prop := forall k t n m, Rep m (plug k t) -> okc k (S n) -> bal t n -> nored (blk t) -> ((if redt t then 1 else S (length k)) <= f)%nat ->
  exists m' t', finish (remove_loop f (top k) (ptr t) m) = Ok m' /\ ends m m' (plug k t) t' /\ rbok t'.

Lemma finish_root m t : Rep m t -> t <> E -> rbok t -> exists m' t', finish (Ok (root m, m)) = Ok m' /\ ends m m' t t' /\ rbok t'.
Proof.
  intros H N (B & R & _). cbn [finish bind]. destruct (Z.eqb_spec (root m) 0) as [J|J].
  - exfalso. destruct H as (Q & _ & _ & I). destruct t as [|c l x r]; [congruence|]. cbn in Q. apply I. rewrite <- J, Q. cbn. rewrite in_app_iff. cbn. auto.
  - apply root_black; auto.
Qed.

Lemma rbody2_ok f d m k c t p s1 y s2 n : removes f -> Rep m (plug k (mk d c t p (mk d false s1 y s2))) ->
  okc k (if c then S n else S (S n)) -> (c = true -> hred k = false) -> bal t n -> nored t -> redt t = false ->
  bal s1 n -> bal s2 n -> nored s1 -> nored s2 -> ((if c then 1 else S (length k)) <= f)%nat ->
  exists m' t', finish (rbody2 d f p y m) = Ok m' /\ ends m m' (plug k (mk d c t p (mk d false s1 y s2))) t' /\ rbok t'.
Proof.
  intros IH H O HC Bt Nt Rt B1 B2 N1 N2 L.
  set (t0 := plug k (mk d c t p (mk d false s1 y s2))) in *.
  assert (Hy : Rep m (plug (Fr (negb d) c p t :: k) (mk d false s1 y s2))) by (rewrite <- refocus; exact H).
  assert (EB : rbody2 d f p y m = if negb (redt s1) && negb (redt s2) then let* m := set_color y RED m in let* p0 := parent p m in remove_loop f p0 p m else rfix d p y m).
  { pose proof (both_ok _ _ _ _ _ _ _ Hy) as EB. unfold rbody2. destruct (left y m); cbn [bind] in *; try discriminate.
    destruct (is_black _ m); cbn [bind] in *; try discriminate. rewrite EB. reflexivity. }
  rewrite EB. clear EB. destruct (negb (redt s1) && negb (redt s2)) eqn:BB.
  - apply andb_true_iff in BB. destruct BB as (R1 & R2). apply negb_true_iff in R1, R2.
    scol Hy (Fr (negb d) c p t :: k) d false s1 y s2 true m1 H1 C1.
    rewrite <- refocus in H1. destruct (this_node _ _ _ _ _ _ _ H1) as (Kp & P0). rewrite (par_k _ _ _ _ _ _ _ Kp P0). cbn [bind].
    destruct (IH k (mk d c t p (mk d true s1 y s2)) (if c then n else S n) m1 H1) as (m' & t' & E' & C' & K).
    + destruct c; exact O.
    + apply bal_mk. destruct c; rewrite bal_mk; auto.
    + assert (Q : nored (mk d false t p (mk d true s1 y s2))) by (rewrite !nored_mk; intuition congruence). destruct d; exact Q.
    + rewrite redt_mk. destruct c; exact L.
    + rewrite ptr_mk in E'. exists m', t'. split; [exact E'|]. split; [|exact K].
      rewrite <- !refocus in C1. eapply chain; [exact C1|exact C'].
  - destruct (rfix_ok d m k c t p s1 y s2 n H) as (m1 & t1 & E1 & C1 & K1); auto.
    { apply andb_false_iff in BB. rewrite !negb_false_iff in BB. exact BB. }
    rewrite E1. destruct (finish_root m1 t1) as (m2 & t2 & E2 & C2 & K2); auto.
    { apply C1. }
    { apply (ends_nE _ _ k _ _ C1). apply mkE. }
    exists m2, t2. split; [auto|]. split; [eapply chain; eauto|auto].
Qed.

Lemma root_ne m f k t : Rep m (plug (f :: k) t) -> ptr t <> root m.
Proof.
  intros H J. rewrite <- at_rep in H. destruct H as (R & _ & _ & N & I).
  assert (In (root m) (celems (f :: k))).
  { rewrite R. clear. cbn [rootp]. assert (G : forall k (x : Z), In x (celems k) \/ True -> forall f, In (rootp k (f_x f)) (celems (f :: k))).
    { clear. induction k as [|g k IH]; intros x _ f; cbn [rootp]; [cbn; auto|]. specialize (IH 0 (or_intror I) g). cbn [celems] in *. cbn in IH |- *. rewrite in_app_iff. cbn. tauto. }
    apply (G k 0). auto. }
  apply nd_app in N. destruct N as (_ & _ & D). apply (D (ptr t)); [|congruence]. apply ptr_in. intros Q.
  apply I. rewrite in_app_iff. right. congruence.
Qed.

Lemma remove_loop_ok : forall f, removes f.
Proof.
  induction f as [|f IH]; intros k t n m H O B N L; [destruct (redt t); lia|].
  rewrite remove_loop_S. rewrite (proj2 (red_ok _ _ _ H)). cbn [bind].
  destruct (redt t) eqn:RT; cbn [negb andb].
  { (* red: made black *)
    destruct t as [|c l x r]; [discriminate|]. destruct c; [|discriminate]. cbn [finish bind ptr].
    destruct (this_node _ _ true _ _ _ _ H) as (K & X0). destruct (Z.eqb_spec x 0); [congruence|].
    destruct (color_ends _ k true true l x r false H) as (m1 & E1 & C1). exists m1, (plug k (T false l x r)).
    split; [exact E1|]. split; [exact C1|]. apply (plug_okc _ _ _ O); [exact B|exact N|auto]. }
  assert (Nt : nored t) by (destruct t as [|[] ? ? ?]; [exact I|discriminate|exact N]).
  destruct k as [|[d c p s] k].
  { pose proof (proj1 H) as Q. cbn [plug] in Q. rewrite Q, Z.eqb_refl. cbn [negb]. cbn [finish bind].
    destruct t as [|c l x r]; [exists m, E; split; [reflexivity|]; split; [apply ends_refl; exact H|]; repeat split; exists n; exact B|].
    rewrite <- Q. apply finish_root; [exact H|discriminate|]. split; [exists n; exact B|]. split; [exact Nt|exact RT]. }
  pose proof (root_ne _ _ _ _ H) as RN. destruct (Z.eqb_spec (ptr t) (root m)); [congruence|]. cbn [negb]. cbn [top f_x].
  cbn [okc f_t f_c f_d f_x] in O. destruct O as (Bs & Ns & Rs & O).
  assert (Hp : Rep m (plug k (mk d c t p s))) by exact H.
  assert (SE : s <> E) by (intros ->; discriminate).
  destruct (left_side _ _ _ _ _ _ _ Hp) as (l & El & _ & Dl); [auto|]. rewrite El. cbn [bind]. rewrite Dl.
  destruct (this_node _ _ _ _ _ _ _ Hp) as (Kp & P0).
  unfold rbody. rewrite (other_k _ _ _ _ _ _ _ Kp P0). cbn [bind].
  destruct (mk_any d s SE) as (cs & s1 & y & s2 & Qs). subst s. rewrite ptr_mk in *.
  assert (Hy : Rep m (plug (Fr (negb d) c p t :: k) (mk d cs s1 y s2))) by (rewrite <- refocus; exact Hp).
  destruct (this_node _ _ _ _ _ _ _ Hy) as (Ky & Y0). rewrite (col_k _ _ _ _ _ _ _ Ky Y0). cbn [bind].
  apply bal_mk in Bs. apply nored_mk in Ns. destruct Ns as (N1 & N2 & NR).
  destruct cs; cbn [col].
  - (* red sibling *)
    rewrite Z.eqb_refl. destruct (NR eq_refl) as (R1 & R2). destruct Bs as (B1 & B2).
    assert (c = false) as -> by (destruct c; auto; destruct Rs as (Rs & _); auto; rewrite redt_mk in Rs; discriminate).
    unfold set_blackred.
    scol Hy (Fr (negb d) false p t :: k) d true s1 y s2 false m1 H1 C1.
    rewrite <- refocus in H1.
    scol H1 k d false t p (mk d false s1 y s2) true m2 H2 C2.
    destruct (rot_ends _ _ _ _ _ _ _ _ _ _ H2) as (m3 & Er & C3). rewrite Er. cbn [bind].
    pose proof (proj1 C3) as H3. rewrite refocus' in H3. destruct (this_node _ _ _ _ _ _ _ H3) as (Kp3 & _).
    rewrite (other_k _ _ _ _ _ _ _ Kp3 P0). cbn [bind].
    assert (S1E : s1 <> E) by (intros ->; discriminate).
    destruct (mk_any d s1 S1E) as (c1 & a & z & b & Q1). subst s1. rewrite redt_mk in R1. subst c1. rewrite ptr_mk.
    apply bal_mk in B1. apply nored_mk in N1. destruct N1 as (N11 & N12 & _). destruct B1 as (B11 & B12).
    destruct (rbody2_ok f d m3 (Fr d false y s2 :: k) true t p a z b n IH H3) as (m' & t' & E' & C' & K); auto.
    { cbn [okc f_t f_c]. repeat split; auto; discriminate. }
    { cbn in L. lia. }
    exists m', t'. split; [exact E'|]. split; [|exact K].
    assert (C1' : ends m m1 (plug k (mk d false t p (mk d true (mk d false a z b) y s2))) (plug k (mk d false t p (mk d false (mk d false a z b) y s2)))).
    { rewrite !(refocus d false t p). exact C1. }
    eapply chain; [exact C1'|]. eapply chain; [exact C2|]. eapply chain; [exact C3|]. exact C'.
  - (* black sibling *)
    destruct Bs as (B1 & B2).
    apply (rbody2_ok f d m k c t p s1 y s2 n); auto.
    { intros ->. apply Rs. reflexivity. }
    { destruct c; cbn in L; lia. }
Qed.
Lemma remove_color_ok f k t n m : Rep m (plug k t) -> okc k (S n) -> bal t n -> nored t -> (length k < f)%nat ->
  exists m' t', remove_color f (top k) (ptr t) m = Ok m' /\ ends m m' (plug k t) t' /\ rbok t'.
Proof.
  intros H O B N L. apply (remove_loop_ok f k t n m H O B).
  - destruct t as [|c l x r]; [exact N|]. cbn in N |- *. intuition congruence.
  - destruct (redt t); lia.
Qed.
