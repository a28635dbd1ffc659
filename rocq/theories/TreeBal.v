(** The colour loops of the red-black trees: the tree stays balanced and its elements stay in order. *)
From Verif Require Import BaseLemmas TreeModel TreeMem.
From Coq Require Import Permutation.
Import ListNotations.

(** [n] black elements on every way down. *)
Fixpoint bal (t : tree) (n : nat) : Prop :=
  match t with
  | E => n = 0%nat
  | T true l _ r => bal l n /\ bal r n
  | T false l _ r => match n with O => False | S n => bal l n /\ bal r n end
  end.
Definition redt (t : tree) : bool := match t with T true _ _ _ => true | _ => false end.
Fixpoint nored (t : tree) : Prop :=
  match t with E => True | T c l _ r => nored l /\ nored r /\ (c = true -> redt l = false /\ redt r = false) end.
Definition rbok (t : tree) : Prop := (exists n, bal t n) /\ nored t /\ redt t = false.
Definition hred (k : list frame) : bool := match k with [] => true | f :: _ => f_c f end.
Fixpoint okc (k : list frame) (n : nat) : Prop :=
  match k with
  | [] => True
  | f :: k => bal (f_t f) n /\ nored (f_t f) /\ (f_c f = true -> redt (f_t f) = false /\ hred k = false) /\ okc k (if f_c f then n else S n)
  end.

Lemma bal_mk d c a x b n : bal (mk d c a x b) n <-> (if c then bal a n /\ bal b n else match n with O => False | S n => bal a n /\ bal b n end).
Proof. destruct d, c; cbn; try tauto; destruct n; tauto. Qed.
Lemma nored_mk d c a x b : nored (mk d c a x b) <-> nored a /\ nored b /\ (c = true -> redt a = false /\ redt b = false).
Proof. destruct d; cbn; tauto. Qed.
Lemma redt_mk d c a x b : redt (mk d c a x b) = c.
Proof. destruct d, c; reflexivity. Qed.
Lemma mk_negb d c a x b : mk (negb d) c b x a = mk d c a x b.
Proof. destruct d; reflexivity. Qed.
Lemma mk_any d t : t <> E -> exists c a x b, t = mk d c a x b.
Proof. destruct t as [|c l x r]; [congruence|]. intros _. destruct d; [exists c, l, x, r|exists c, r, x, l]; reflexivity. Qed.
Lemma plug_okc k : forall n t, okc k n -> bal t n -> nored t -> (hred k = true -> redt t = false) -> rbok (plug k t).
Proof.
  induction k as [|f k IH]; intros n t O B N R; cbn [plug].
  - unfold rbok. repeat split; eauto.
  - cbn in O. destruct O as (O1 & O2 & O3 & O4). eapply IH; [exact O4|..].
    + apply bal_mk. destruct (f_c f); auto.
    + apply nored_mk. split; [auto|]. split; [auto|]. intros C. destruct (O3 C). split; auto.
    + rewrite redt_mk. intros H. destruct (f_c f); [|auto]. destruct O3; auto. congruence.
Qed.
Lemma elems_plug_eq k : forall t t', elems t = elems t' -> elems (plug k t) = elems (plug k t').
Proof.
  induction k as [|f k IH]; intros t t' H; cbn [plug]; auto.
  apply IH. destruct (f_d f); cbn [mk elems]; rewrite H; reflexivity.
Qed.
Lemma elems_rot d c q a x b y w : elems (mk d c a x (mk d q b y w)) = elems (mk d q (mk d c a x b) y w).
Proof. destruct d; cbn [mk elems]; rewrite <- app_assoc; reflexivity. Qed.
Lemma elems_col d c c' a x b : elems (mk d c a x b) = elems (mk d c' a x b).
Proof. destruct d; reflexivity. Qed.
Lemma elems_mk_eq d c c' a a' x b b' : elems a = elems a' -> elems b = elems b' -> elems (mk d c a x b) = elems (mk d c' a' x b').
Proof. intros A B. destruct d; cbn; rewrite A, B; reflexivity. Qed.

Lemma red_ok m k t : Rep m (plug k t) -> is_red (ptr t) m = Ok (redt t) /\ is_black (ptr t) m = Ok (negb (redt t)).
Proof.
  intros H. destruct t as [|c l x r]; [split; reflexivity|]. rewrite <- at_rep in H.
  change (T c l x r) with (mk true c l x r) in H. destruct (at_node _ _ _ _ _ _ _ H) as (K & X0). cbn [ptr]. unfold is_red, is_black.
  destruct (Z.eqb_spec x 0); [congruence|]. rewrite (color_k _ _ _ K X0). destruct c; split; reflexivity.
Qed.
Lemma frame_node m d c x s k t : Rep m (plug (Fr d c x s :: k) t) -> nodes m x = Some (ent d (ptr t) (ptr s) (top k) (col c)) /\ x <> 0.
Proof. cbn [plug f_d f_c f_x f_t]. rewrite <- at_rep. intros H. apply at_node in H. exact H. Qed.
Lemma this_node m k d c a x b : Rep m (plug k (mk d c a x b)) -> nodes m x = Some (ent d (ptr a) (ptr b) (top k) (col c)) /\ x <> 0.
Proof. rewrite <- at_rep. apply at_node. Qed.
Lemma sides m k d c a x b : Rep m (plug k (mk d c a x b)) -> ptr a = ptr b -> a = E /\ b = E.
Proof.
  rewrite <- at_rep. intros (_ & _ & _ & N & I) H. apply (nd_perm _ _ (perm1 _ _ _ _ _ _)) in N. apply (nin_perm _ _ 0 (perm1 _ _ _ _ _ _)) in I.
  destruct a as [|ca la xa ra], b as [|cb lb xb rb]; auto; cbn [ptr] in H; subst; exfalso.
  - apply I. cbn. rewrite !in_app_iff. cbn. auto.
  - apply I. cbn. rewrite !in_app_iff. cbn. auto.
  - nds. match goal with D : forall z, In z (elems (T ca _ _ _)) -> ~ In z (elems (T cb _ _ _)) |- _ => apply (D xb) end; cbn; rewrite in_app_iff; cbn; auto.
Qed.
Lemma left_side m k d c a x b : Rep m (plug k (mk d c a x b)) -> a <> E \/ b <> E ->
  exists l, left x m = Ok l /\ (ptr a =? l) = d /\ (l =? ptr a) = d.
Proof.
  intros H N. destruct (this_node _ _ _ _ _ _ _ H) as (K & X0). rewrite (left_k _ _ _ K X0).
  eexists. split; [reflexivity|]. destruct d; cbn [ent e_left]; [rewrite Z.eqb_refl; auto|].
  split; apply Z.eqb_neq; intros J; [|symmetry in J]; apply (sides _ _ _ _ _ _ _ H) in J; destruct J, N; auto.
Qed.
Lemma nE t x : ptr t = x -> x <> 0 -> t <> E.
Proof. destruct t; cbn; congruence. Qed.
Lemma mkE d c a x b : mk d c a x b <> E.
Proof. destruct d; discriminate. Qed.

(** RB_INSERT_COLOR: the two halves are mirror images. *)
Definition ibody (d : bool) (f : nat) (elm par gpar : Z) (m : tmem) : out tmem :=
  let* tmp := child (negb d) gpar m in
  let* r := is_red tmp m in
  if r : bool then
    let* m := set_color tmp BLACK m in let* m := set_blackred par gpar m in insert_loop f gpar m
  else
    let* pr := child (negb d) par m in
    let* (elm', par', m) := (if pr =? elm then let* (_, m) := rot d par m in Ok (par, elm, m) else Ok (elm, par, m)) in
    let* m := set_blackred par' gpar m in
    let* (_, m) := rot (negb d) gpar m in insert_loop f elm' m.
Lemma insert_loop_S f elm m : insert_loop (S f) elm m =
  let* par := parent elm m in
  let* go := is_red par m in
  if negb go then Ok m else let* gpar := parent par m in let* l := left gpar m in ibody (par =? l) f elm par gpar m.
Proof.
  cbn [insert_loop]. destruct (parent elm m); cbn [bind]; auto. destruct (is_red _ m) as [[]| | |]; cbn [bind negb]; auto.
  destruct (parent _ m); cbn [bind]; auto. destruct (left _ m) eqn:EL; cbn [bind]; auto.
  destruct (_ =? _); [reflexivity|]. unfold ibody. cbn [negb child]. rewrite EL. reflexivity.
Qed.

Lemma insert_stops m k t f : Rep m (plug k t) -> t <> E -> hred k = false -> insert_loop (S f) (ptr t) m = Ok m.
Proof.
  intros H N R. rewrite insert_loop_S. destruct t as [|c l x r]; [congruence|]. cbn [ptr].
  destruct (this_node _ _ true _ _ _ _ H) as (K & X0). rewrite (par_k _ _ _ _ _ _ _ K X0). cbn [bind].
  destruct k as [|[d c' p s] k]; [reflexivity|]. cbn in R. subst c'. cbn [top f_x].
  destruct (frame_node _ _ _ _ _ _ _ H) as (K' & P0). unfold is_red.
  destruct (Z.eqb_spec p 0); [congruence|]. rewrite (col_k _ _ _ _ _ _ _ K' P0). reflexivity.
Qed.

(** What a colour loop ends with. *)
Definition ends (m m' : tmem) (t t' : tree) : Prop :=
  Rep m' t' /\ elems t' = elems t /\ stays m m' (elems t).

Lemma chain m m1 m2 t t1 t2 : ends m m1 t t1 -> ends m1 m2 t1 t2 -> ends m m2 t t2.
Proof.
  intros (A & B & C) (A' & B' & C'). split; [auto|]. split; [congruence|]. rewrite B in C'. eapply stays_trans; eauto.
Qed.
Lemma color_ends m k d c a x b c' : Rep m (plug k (mk d c a x b)) ->
  exists m', set_color x (col c') m = Ok m' /\ ends m m' (plug k (mk d c a x b)) (plug k (mk d c' a x b)).
Proof.
  intros H. destruct (set_color_ok _ _ _ _ _ _ _ c' H) as (m' & E1 & R & S1). exists m'.
  assert (Q : elems (plug k (mk d c' a x b)) = elems (plug k (mk d c a x b))) by (apply elems_plug_eq, elems_col).
  split; [auto|]. split; [auto|]. split; [auto|]. rewrite <- Q. auto.
Qed.
Lemma rot_ends m k d c q a x b y w : Rep m (plug k (mk d c a x (mk d q b y w))) ->
  exists m', rot d x m = Ok (y, m') /\ ends m m' (plug k (mk d c a x (mk d q b y w))) (plug k (mk d q (mk d c a x b) y w)).
Proof.
  intros H. destruct (rot_ok _ _ _ _ _ _ _ _ _ _ H) as (m' & E1 & R & S1). exists m'.
  assert (Q : elems (plug k (mk d q (mk d c a x b) y w)) = elems (plug k (mk d c a x (mk d q b y w)))) by (apply elems_plug_eq; symmetry; apply elems_rot).
  split; [auto|]. split; [auto|]. split; [auto|]. rewrite <- Q. auto.
Qed.

Lemma ends_nE m m' k t t' : ends m m' (plug k t) t' -> t <> E -> t' <> E.
Proof.
  intros (_ & Q & _) N ->. cbn in Q. symmetry in Q. pose proof (elems_plug k t) as P. rewrite Q in P. apply Permutation_nil in P.
  apply app_eq_nil in P. destruct P as (P & _). destruct t as [|c l x r]; [congruence|]. cbn in P. apply app_eq_nil in P. destruct P; discriminate.
Qed.
Lemma ends_refl m t : Rep m t -> ends m m t t.
Proof. intros H. split; [auto|]. split; [auto|]. intros z _. auto. Qed.

(** One elementary step: run it, give names to the result. *)
Ltac scol H k d c a x b c' m1 H1 C1 :=
  let e := fresh in
  destruct (color_ends _ k d c a x b c' H) as (m1 & e & C1);
  pose proof (proj1 C1) as H1; cbn [col] in e; rewrite e; clear e; cbn [bind].

Lemma insert_loop_ok : forall f k a x b n m,
  Rep m (plug k (T true a x b)) -> okc k n -> bal a n -> bal b n -> nored a -> nored b -> redt a = false -> redt b = false -> (length k < f)%nat ->
  exists m' t', insert_loop f x m = Ok m' /\ ends m m' (plug k (T true a x b)) t' /\ t' <> E /\ (exists N, bal t' N) /\ nored t'.
Proof.
  induction f as [|f IH]; intros k a x b n m H O Ba Bb Na Nb Ra Rb L; [lia|].
  destruct k as [|[d1 c1 p s] k].
  { exists m, (T true a x b). rewrite insert_loop_S. destruct (this_node _ [] true _ _ _ _ H) as (K & X0). rewrite (par_k _ _ _ _ _ _ _ K X0). cbn [bind top].
    split; [reflexivity|]. split; [split; [auto|]; split; [auto|]; intros z _; auto|]. split; [discriminate|]. split; [exists n; cbn; auto|cbn; auto]. }
  destruct c1.
  2:{ exists m, (plug (Fr d1 false p s :: k) (T true a x b)). split; [apply (insert_stops m (Fr d1 false p s :: k) (T true a x b)); [auto|discriminate|reflexivity]|].
      pose proof (ends_refl _ _ H) as ER. split; [exact ER|]. split; [apply (ends_nE _ _ (Fr d1 false p s :: k) (T true a x b) _ ER); discriminate|].
      destruct (plug_okc (Fr d1 false p s :: k) n (T true a x b) O) as (P1 & P2 & _); [cbn; auto|cbn; auto|cbn; congruence|]. split; auto. }
  cbn [okc f_t f_c f_d f_x] in O. destruct O as (Bs & Ns & Rs & O). destruct (Rs eq_refl) as (Rs' & Hk). clear Rs.
  destruct k as [|[d cg g u] k]; cbn [hred f_c] in Hk; [discriminate|]. subst cg.
  cbn [okc f_t f_c f_d f_x] in O. destruct O as (Bu & Nu & _ & O).
  rewrite insert_loop_S.
  pose proof H as Hx. destruct (this_node _ _ true _ _ _ _ Hx) as (Kx & X0). rewrite (par_k _ _ _ _ _ _ _ Kx X0). cbn [bind top f_x].
  destruct (frame_node _ _ _ _ _ _ _ H) as (Kp & P0). cbn [top f_x] in Kp.
  unfold is_red at 1. destruct (Z.eqb_spec p 0); [congruence|]. rewrite (col_k _ _ _ _ _ _ _ Kp P0). cbn [bind col]. rewrite Z.eqb_refl. cbn [negb].
  rewrite (par_k _ _ _ _ _ _ _ Kp P0). cbn [bind].
  assert (Hg : Rep m (plug k (mk d false (mk d1 true (T true a x b) p s) g u))) by exact H.
  destruct (left_side _ _ _ _ _ _ _ Hg) as (l & El & Dl & _); [left; apply mkE|]. rewrite ptr_mk in Dl. rewrite El. cbn [bind]. rewrite Dl.
  unfold ibody. destruct (this_node _ _ _ _ _ _ _ Hg) as (Kg & G0). rewrite (other_k _ _ _ _ _ _ _ Kg G0). cbn [bind].
  assert (Hu : Rep m (plug (Fr (negb d) false g (mk d1 true (T true a x b) p s) :: k) u)) by (cbn [plug f_d f_c f_x f_t]; rewrite mk_negb; exact Hg).
  destruct (red_ok _ _ _ Hu) as (Eu & _). rewrite Eu. cbn [bind].
  set (t0 := plug (Fr d1 true p s :: Fr d false g u :: k) (T true a x b)) in *.
  destruct (redt u) eqn:RU.
  - (* red uncle *)
    destruct u as [|cu u1 v u2]; [discriminate|]. destruct cu; [|discriminate]. cbn [ptr].
    scol Hu (Fr (negb d) false g (mk d1 true (T true a x b) p s) :: k) true true u1 v u2 false m1 H1 C1.
    unfold set_blackred.
    assert (H1' : Rep m1 (plug (Fr d false g (T false u1 v u2) :: k) (mk d1 true (T true a x b) p s))) by (cbn [plug f_d f_c f_x f_t] in *; rewrite mk_negb in H1; exact H1).
    scol H1' (Fr d false g (T false u1 v u2) :: k) d1 true (T true a x b) p s false m2 H2 C2.
    assert (H2' : Rep m2 (plug k (mk d false (mk d1 false (T true a x b) p s) g (T false u1 v u2)))) by exact H2.
    scol H2' k d false (mk d1 false (T true a x b) p s) g (T false u1 v u2) true m3 H3 C3.
    assert (Q : exists a' b', mk d true (mk d1 false (T true a x b) p s) g (T false u1 v u2) = T true a' g b' /\
       bal a' (S n) /\ bal b' (S n) /\ nored a' /\ nored b' /\ redt a' = false /\ redt b' = false).
    { assert (A1 : bal (mk d1 false (T true a x b) p s) (S n)) by (apply bal_mk; cbn; auto).
      assert (A2 : bal (T false u1 v u2) (S n)) by exact Bu.
      assert (A3 : nored (mk d1 false (T true a x b) p s)) by (apply nored_mk; cbn; repeat split; auto; congruence).
      assert (A4 : nored (T false u1 v u2)) by (cbn in Nu |- *; intuition congruence).
      destruct d; cbn [mk]; eexists _, _; (split; [reflexivity|]); rewrite ?redt_mk; auto 10. }
    destruct Q as (a' & b' & Q & Q1 & Q2 & Q3 & Q4 & Q5 & Q6). rewrite Q in H3, C3.
    destruct (IH k a' g b' (S n) m3 H3) as (m' & t' & E' & C' & R'); auto.
    { cbn in L. lia. }
    exists m', t'. split; [auto|]. split; [|auto].
    assert (Z1 : ends m m1 t0 (plug (Fr d false g (T false u1 v u2) :: k) (mk d1 true (T true a x b) p s))).
    { destruct C1 as (I1 & I2 & I3). cbn [plug f_d f_c f_x f_t] in *. rewrite !mk_negb in *. split; [auto|split; auto]. }
    eapply chain; [exact Z1|]. eapply chain; [exact C2|]. eapply chain; [exact C3|]. exact C'.
  - (* black uncle *)
    assert (Mid : exists m1 e' p' Y w, (let* pr := child (negb d) p m in if pr =? x then let* (_, m0) := rot d p m in Ok (p, x, m0) else Ok (x, p, m)) = Ok (e', p', m1) /\
      ends m m1 t0 (plug (Fr d false g u :: k) (mk d true Y p' w)) /\ ptr Y = e' /\ Y <> E /\ bal Y n /\ nored Y /\ redt Y = true /\ bal w n /\ nored w /\ redt w = false).
    { destruct (Bool.bool_dec d1 d) as [ED|ED].
      - subst d1. exists m, x, p, (T true a x b), s. rewrite (other_k _ _ _ _ _ _ _ Kp P0). cbn [bind].
        assert (Hp : Rep m (plug (Fr d false g u :: k) (mk d true (T true a x b) p s))) by exact H.
        destruct (Z.eqb_spec (ptr s) x) as [J|J].
        { exfalso. destruct (sides _ _ _ _ _ _ _ Hp) as (J1 & _); [cbn; auto|discriminate]. }
        split; [reflexivity|]. split; [split; [exact Hp|split; [auto|intros z _; auto]]|]. cbn. intuition congruence.
      - assert (D1 : d1 = negb d) by (destruct d, d1; auto; congruence). subst d1.
        rewrite (child_k _ _ _ _ _ _ _ Kp P0). cbn [bind ptr]. rewrite Z.eqb_refl.
        destruct (mk_any d (T true a x b)) as (c0 & a' & x0 & b' & Q); [discriminate|].
        assert (c0 = true /\ x0 = x /\ bal a' n /\ bal b' n /\ nored a' /\ nored b' /\ redt a' = false /\ redt b' = false) as (-> & -> & Q1 & Q2 & Q3 & Q4 & Q5 & Q6)
          by (destruct d; cbn in Q; injection Q; intros; subst; auto 10).
        assert (Hp : Rep m (plug (Fr d false g u :: k) (mk d true s p (mk d true a' x b')))) by (rewrite <- Q; rewrite <- (mk_negb d true s p); exact H).
        destruct (rot_ends _ _ _ _ _ _ _ _ _ _ Hp) as (m1 & Er & C1). rewrite Er. cbn [bind].
        exists m1, p, x, (mk d true s p a'), b'. split; [reflexivity|]. split.
        { unfold t0. rewrite <- Q in C1. rewrite <- (mk_negb d true s p) in C1. exact C1. }
        rewrite ptr_mk, redt_mk, bal_mk, nored_mk. split; [auto|]. split; [apply mkE|]. auto 10. }
    destruct Mid as (m1 & e' & p' & Y & w & EM & C1 & PY & YE & Q1 & Q2 & Q3 & Q4 & Q5 & Q6).
    destruct (child (negb d) p m) as [pr| | |] eqn:EC; try discriminate. cbn [bind] in EM |- *. rewrite EM. cbn [bind]. unfold set_blackred.
    pose proof (proj1 C1) as H1.
    scol H1 (Fr d false g u :: k) d true Y p' w false m2 H2 C2.
    assert (H2' : Rep m2 (plug k (mk d false (mk d false Y p' w) g u))) by exact H2.
    scol H2' k d false (mk d false Y p' w) g u true m3 H3 C3.
    assert (H3' : Rep m3 (plug k (mk (negb d) true u g (mk (negb d) false w p' Y)))) by (rewrite !mk_negb; exact H3).
    destruct (rot_ends _ _ _ _ _ _ _ _ _ _ H3') as (m4 & Er & C4). rewrite Er. cbn [bind].
    pose proof (proj1 C4) as H4.
    set (t4 := plug k (mk (negb d) false (mk (negb d) true u g w) p' Y)) in *.
    exists m4, t4. split.
    { destruct f as [|f]; [cbn in L; lia|]. rewrite <- PY. apply (insert_stops m4 (Fr d false p' (mk (negb d) true u g w) :: k)); [|auto|reflexivity].
      unfold t4 in H4. rewrite mk_negb in H4. exact H4. }
    assert (CC : ends m m4 t0 t4).
    { rewrite !mk_negb in C4. unfold t4. eapply chain; [exact C1|]. eapply chain; [exact C2|]. eapply chain; [exact C3|]. exact C4. }
    split; [exact CC|].
    assert (OK : rbok t4).
    { unfold t4. apply (plug_okc _ (S n)); auto.
      - apply bal_mk. split; [apply bal_mk; auto|auto].
      - apply nored_mk. split; [apply nored_mk; auto|]. split; [auto|congruence].
      - intros _. apply redt_mk. }
    destruct OK as (O1 & O2 & _). split; [|auto]. apply (ends_nE _ _ (Fr d1 true p s :: Fr d false g u :: k) (T true a x b) _ CC). discriminate.
Qed.
