(** The calls on red-black trees: searching, inserting, removing, walking. *)
From Verif Require Import BaseLemmas TreeModel SpecTree TreeMem TreeBal TreeDel.
From Coq Require Import Permutation.
Import ListNotations.

(** Heights. *)
Fixpoint height (t : tree) : nat := match t with E => 0%nat | T _ l _ r => S (Nat.max (height l) (height r)) end.
Lemma height_mk d c a x b : height (mk d c a x b) = S (Nat.max (height a) (height b)).
Proof. destruct d; cbn; [|rewrite Nat.max_comm]; reflexivity. Qed.
Lemma height_plug k : forall t, (length k + height t <= height (plug k t))%nat.
Proof.
  induction k as [|f k IH]; intros t; cbn [plug length]; [lia|].
  specialize (IH (mk (f_d f) (f_c f) t (f_x f) (f_t f))). rewrite height_mk in IH. lia.
Qed.
Lemma height_bal t : forall n, bal t n -> nored t -> (height t <= 2 * n + (if redt t then 1 else 0))%nat.
Proof.
  induction t as [|c l IHl x r IHr]; intros n B N; [cbn; lia|].
  cbn [nored] in N. destruct N as (Nl & Nr & R). destruct c; cbn [bal redt height] in *.
  - destruct B as (Bl & Br). destruct (R eq_refl) as (Rl & Rr). specialize (IHl n Bl Nl). specialize (IHr n Br Nr). rewrite Rl in IHl. rewrite Rr in IHr. lia.
  - destruct n as [|n]; [tauto|]. destruct B as (Bl & Br). specialize (IHl n Bl Nl). specialize (IHr n Br Nr). destruct (redt l), (redt r); lia.
Qed.
Lemma size_bal t : forall n, bal t n -> (2 ^ n <= length (elems t) + 1)%nat.
Proof.
  induction t as [|c l IHl x r IHr]; intros n B; [cbn in B; subst; cbn; lia|].
  cbn [elems]. rewrite app_length. cbn [length]. destruct c; cbn [bal] in B.
  - destruct B as (Bl & Br). specialize (IHl n Bl). lia.
  - destruct n as [|n]; [tauto|]. destruct B as (Bl & Br). specialize (IHl n Bl). specialize (IHr n Br). cbn [Nat.pow]. lia.
Qed.
Lemma height_rb t : rbok t -> (height t <= rounds (length (elems t)))%nat.
Proof.
  intros ((n & B) & N & R). pose proof (height_bal t n B N) as H. rewrite R in H. pose proof (size_bal t n B) as L.
  apply Nat.log2_le_mono in L. rewrite Nat.log2_pow2 in L by lia. unfold rounds. lia.
Qed.

(** What is before and after a subtree. *)
Fixpoint before (k : list frame) : list Z :=
  match k with [] => [] | f :: k => if f_d f then before k else before k ++ elems (f_t f) ++ [f_x f] end.
Fixpoint after (k : list frame) : list Z :=
  match k with [] => [] | f :: k => if f_d f then f_x f :: elems (f_t f) ++ after k else after k end.
Lemma elems_around k : forall t, elems (plug k t) = before k ++ elems t ++ after k.
Proof.
  induction k as [|f k IH]; intros t; cbn [plug before after]; [rewrite app_nil_r; reflexivity|].
  rewrite IH. destruct (f_d f); cbn [mk elems]; rewrite <- !app_assoc; reflexivity.
Qed.
Lemma in_plug t x : In x (elems t) -> exists k c l r, t = plug k (T c l x r).
Proof.
  assert (G : forall k, In x (elems t) -> exists k' c l r, plug k t = plug k' (T c l x r)).
  { induction t as [|c l IHl y r IHr]; intros k; cbn [elems]; [intros []|]. rewrite in_app_iff. cbn [In]. intros [J|[->|J]].
    - apply (IHl (Fr true c y r :: k) J).
    - exists k, c, l, r. reflexivity.
    - apply (IHr (Fr false c y l :: k) J). }
  intros J. apply (G [] J).
Qed.
(** Contexts of a good tree. *)
Lemma okc_plug k : forall t, rbok (plug k t) -> exists n, okc k n /\ bal t n /\ nored t /\ (hred k = true -> redt t = false).
Proof.
  induction k as [|f k IH]; intros t H; cbn [plug] in H.
  - destruct H as ((n & B) & N & R). exists n. cbn. auto.
  - destruct (IH _ H) as (n & O & B & N & R). apply bal_mk in B. apply nored_mk in N. rewrite redt_mk in R. destruct N as (N1 & N2 & N3).
    cbn [okc hred]. destruct (f_c f) eqn:C.
    + exists n. destruct B. destruct N3; auto. repeat split; auto. destruct (hred k); [discriminate R; auto|auto].
    + destruct n as [|n]; [tauto|]. exists n. destruct B. repeat split; auto; discriminate.
Qed.

(** Order. *)
Section Key.
Variables (cmp : Z -> Z -> Z) (key : Z -> Z).
Hypothesis CMP : compares cmp key.
Lemma ordered_app a b : ordered key (a ++ b) <-> ordered key a /\ ordered key b /\ (forall x y, In x a -> In y b -> key x < key y).
Proof.
  induction a as [|x a IH]; cbn [app ordered].
  - split; [intros; repeat split; auto; intros ? ? []|tauto].
  - rewrite IH. unfold higher. split.
    + intros (P & Q & R & U). repeat split; auto.
      * intros y J. apply P. rewrite in_app_iff. auto.
      * intros y z [->|J] K; [apply P; rewrite in_app_iff; auto|auto].
    + intros ((P & Q) & R & U). repeat split; auto.
      * intros y J. apply in_app_iff in J. destruct J; [auto|apply U; cbn; auto].
      * intros. apply U; cbn; auto.
Qed.
Lemma cmp_cases e f : (cmp e f <? 0) = (key e <? key f) /\ (0 <? cmp e f) = (key f <? key e).
Proof. destruct (CMP e f) as (A & B). split; apply Bool.eq_true_iff_eq; rewrite !Z.ltb_lt; lia. Qed.

Lemma sub_left m k c l y r : Rep m (plug k (T c l y r)) -> Rep m (plug (Fr true c y r :: k) l).
Proof. auto. Qed.
Lemma sub_right m k c l y r : Rep m (plug k (T c l y r)) -> Rep m (plug (Fr false c y l :: k) r).
Proof. auto. Qed.
Lemma t_node m k c l y r : Rep m (plug k (T c l y r)) -> nodes m y = Some (Entry (ptr l) (ptr r) (top k) (col c)) /\ y <> 0.
Proof. intros H. apply (this_node _ _ true) in H. exact H. Qed.

Lemma descend_ok t : forall fuel k e comp m, Rep m (plug k t) -> ordered key (elems (plug k t)) -> lower key (before k) e -> higher key e (after k) ->
  (height t < fuel)%nat -> (match k with [] => True | f :: _ => f_d f = (comp <? 0) end) ->
  (exists x, In x (elems t) /\ key x = key e /\ x <> 0 /\ exists p c, descend cmp fuel e (ptr t) (top k) comp m = Ok (x, p, c)) \/
  (exists k' comp', descend cmp fuel e (ptr t) (top k) comp m = Ok (0, top k', comp') /\ plug k' E = plug k t /\
     lower key (before k') e /\ higher key e (after k') /\ (match k' with [] => True | f :: _ => f_d f = (comp' <? 0) end)).
Proof.
  induction t as [|c l IHl y r IHr]; intros fuel k e comp m H O B A L D; (destruct fuel as [|fuel]; [cbn in L; lia|]).
  - right. exists k, comp. cbn. auto.
  - destruct (t_node _ _ _ _ _ _ H) as (K & Y0). cbn [descend ptr height] in *. destruct (Z.eqb_spec y 0); [congruence|].
    destruct (cmp_cases e y) as (E1 & E2).
    pose proof O as O'. rewrite elems_around in O'. apply ordered_app in O'. destruct O' as (_ & O' & O1). apply ordered_app in O'. destruct O' as (O2 & _ & O3).
    cbn [elems] in O2. apply ordered_app in O2. destruct O2 as (_ & (O4 & _) & O5).
    destruct (cmp e y <? 0) eqn:C1.
    + symmetry in E1. apply Z.ltb_lt in E1. rewrite (left_k _ _ _ K Y0). cbn [bind e_left].
      destruct (IHl fuel (Fr true c y r :: k) e (cmp e y) m) as [(x & J1 & J2 & J3 & p & cc & J4)|(k' & c' & J1 & J2 & J3)]; auto.
      { intros x. cbn [after f_d f_x f_t]. intros [<- |J]; [auto|]. apply in_app_iff in J. destruct J as [J|J]; [apply O4 in J; lia|auto]. }
      { lia. }
      { left. exists x. split; [cbn; rewrite in_app_iff; auto|]. repeat split; auto. exists p, cc. exact J4. }
      { right. exists k', c'. split; [exact J1|]. split; [exact J2|exact J3]. }
    + destruct (0 <? cmp e y) eqn:C2.
      * symmetry in E2. apply Z.ltb_lt in E2. rewrite (right_k _ _ _ K Y0). cbn [bind e_right].
        destruct (IHr fuel (Fr false c y l :: k) e (cmp e y) m) as [(x & J1 & J2 & J3 & p & cc & J4)|(k' & c' & J1 & J2 & J3)]; auto.
        { intros x. cbn [before f_d f_x f_t]. rewrite !in_app_iff. cbn [In]. intros [J|[J|[<- |[]]]]; auto.
          apply (Z.lt_trans _ (key y)); auto. apply O5; cbn; auto. }
        { lia. }
        { left. exists x. split; [cbn; rewrite in_app_iff; cbn; auto|]. repeat split; auto. exists p, cc. exact J4. }
        { right. exists k', c'. split; [exact J1|]. split; [exact J2|exact J3]. }
      * left. exists y. split; [cbn; rewrite in_app_iff; cbn; auto|]. symmetry in E1, E2. apply Z.ltb_ge in E1, E2. repeat split; auto; [lia|]. eauto.
Qed.

(** A tree that holds [l]. *)
Definition holds (m : tmem) (l : list Z) : Prop := exists t, Rep m t /\ rbok t /\ elems t = l /\ ordered key l.

Lemma insert_new m a e b fuel n : holds m (a ++ b) -> lower key a e -> higher key e b -> e <> 0 -> nodes m e = Some n -> (rounds (length (a ++ b)) < fuel)%nat ->
  exists m', rb_insert cmp fuel e m = Ok (0, m') /\ holds m' (a ++ e :: b) /\ stays m m' (a ++ e :: b).
Proof.
  intros (t & R & K & Q & O) A B E0 N L. pose proof (height_rb t K) as Hh. rewrite Q in Hh. unfold rb_insert.
  rewrite <- Q in O.
  destruct (descend_ok t fuel [] e 0 m R O) as [(x & J1 & J2 & _)|(k & comp & J1 & J2 & J3 & J4 & J5)]; try (intros ? []); [lia|exact I|..].
  { exfalso. rewrite Q in J1. apply in_app_iff in J1. destruct J1 as [J|J]; [apply A in J|apply B in J]; lia. }
  rewrite (proj1 R). cbn [top] in J1. rewrite J1. cbn [bind Z.eqb negb].
  cbn [plug] in J2. rewrite <- J2 in *.
  assert (NI : ~ In e (elems (plug k E))). { rewrite Q. rewrite in_app_iff. intros [J|J]; [apply A in J|apply B in J]; lia. }
  destruct (attach_ok m k e n comp R N E0 NI J5) as (m1 & E1 & R1 & S1).
  destruct (rb_set e (top k) m) as [ms| | |] eqn:ES; try discriminate. cbn [bind] in E1 |- *. rewrite E1. cbn [bind].
  destruct (okc_plug k E K) as (n0 & OC & BE & _ & _). cbn in BE.
  destruct (insert_color_ok fuel k e n0 m1 R1 OC BE) as (m2 & t2 & E2 & C2 & K2).
  { pose proof (height_plug k E). lia. }
  rewrite E2. cbn [bind]. exists m2. split; [reflexivity|].
  destruct C2 as (R2 & Q2 & S2).
  assert (QQ : elems (plug k (T true E e E)) = a ++ e :: b).
  { rewrite elems_around in Q |- *. cbn [elems app] in *.
    assert (G : forall x y u v, x ++ y = u ++ v -> lower key x e -> higher key e y -> lower key u e -> higher key e v -> x = u /\ y = v).
    { clear. induction x as [|x1 x IH]; intros y u v H A B A' B'.
      - destruct u as [|u1 u]; [auto|]. exfalso. cbn in H. subst y. specialize (B u1 (or_introl eq_refl)). specialize (A' u1 (or_introl eq_refl)). lia.
      - destruct u as [|u1 u]; cbn in H.
        + exfalso. subst v. specialize (A x1 (or_introl eq_refl)). specialize (B' x1 (or_introl eq_refl)). lia.
        + injection H as -> H. destruct (IH y u v H) as (-> & ->); auto; intros z J; [apply A|apply A']; cbn; auto. }
    destruct (G _ _ _ _ Q) as (-> & ->); auto. }
  split.
  - exists t2. split; [auto|]. split; [auto|]. split; [congruence|].
    rewrite Q in O. apply ordered_app in O. destruct O as (O1 & O2 & O3). apply ordered_app. cbn [ordered]. repeat split; auto.
    intros x y J [<- |J']; auto.
  - rewrite <- QQ. eapply stays_trans; [exact S1|exact S2].
Qed.
Lemma insert_dup m l e x fuel : holds m l -> In x l -> key x = key e -> (rounds (length l) < fuel)%nat -> rb_insert cmp fuel e m = Ok (x, m).
Proof.
  intros (t & R & K & Q & O) J1 J2 L. pose proof (height_rb t K) as Hh. rewrite Q in Hh. unfold rb_insert. rewrite <- Q in *. clear Q.
  assert (U : forall y, In y (elems t) -> key y = key e -> y = x).
  { intros y Y1 Y2. apply in_split in J1. destruct J1 as (a & b & Q). rewrite Q in O, Y1. apply ordered_app in O. destruct O as (_ & (O1 & _) & O2).
    apply in_app_iff in Y1. destruct Y1 as [Y|[Y|Y]]; auto; [pose proof (O2 y x Y (or_introl eq_refl)); lia|pose proof (O1 y Y); lia]. }
  destruct (descend_ok t fuel [] e 0 m R O) as [(y & Y1 & Y2 & Y0 & p & c & Y3)|(k & comp & Y1 & Y2 & Y3 & Y4 & Y5)]; try (intros ? []); [lia|exact I|..].
  - rewrite (proj1 R). cbn [top] in Y3. rewrite Y3. cbn [bind]. destruct (Z.eqb_spec y 0); [congruence|]. cbn [negb]. rewrite (U y); auto.
  - exfalso. cbn [plug] in Y2. rewrite <- Y2, elems_around in J1. apply in_app_iff in J1. cbn in J1. destruct J1 as [J|J]; [apply Y3 in J|apply Y4 in J]; lia.
Qed.

Lemma find_ok t : forall fuel k e m, Rep m (plug k t) -> ordered key (elems t) -> (height t < fuel)%nat ->
  (forall x, In x (elems t) -> key x = key e -> find_loop cmp fuel e (ptr t) m = Ok x) /\
  ((forall x, In x (elems t) -> key x <> key e) -> find_loop cmp fuel e (ptr t) m = Ok 0).
Proof.
  induction t as [|c l IHl y r IHr]; intros fuel k e m H O L; (destruct fuel as [|fuel]; [cbn in L; lia|]).
  - split; [intros x []|reflexivity].
  - destruct (t_node _ _ _ _ _ _ H) as (K & Y0). cbn [find_loop ptr height] in *. destruct (Z.eqb_spec y 0); [congruence|].
    destruct (cmp_cases e y) as (E1 & E2). cbn [elems] in *. apply ordered_app in O. destruct O as (O1 & (O2 & O3) & O4).
    destruct (cmp e y <? 0) eqn:C1.
    + symmetry in E1. apply Z.ltb_lt in E1. rewrite (left_k _ _ _ K Y0). cbn [bind e_left].
      destruct (IHl fuel (Fr true c y r :: k) e m) as (I1 & I2); auto; [lia|]. split.
      * intros x J Q. apply in_app_iff in J. destruct J as [J|[<- |J]]; [auto|lia|apply O2 in J; lia].
      * intros N. apply I2. intros x J. apply N. rewrite in_app_iff; auto.
    + destruct (0 <? cmp e y) eqn:C2.
      * symmetry in E2. apply Z.ltb_lt in E2. rewrite (right_k _ _ _ K Y0). cbn [bind e_right].
        destruct (IHr fuel (Fr false c y l :: k) e m) as (I1 & I2); auto; [lia|]. split.
        -- intros x J Q. apply in_app_iff in J. destruct J as [J|[<- |J]]; [|lia|auto]. pose proof (O4 x y J (or_introl eq_refl)). lia.
        -- intros N. apply I2. intros x J. apply N. rewrite in_app_iff; cbn; auto.
      * symmetry in E1, E2. apply Z.ltb_ge in E1, E2. split.
        -- intros x J Q. apply in_app_iff in J. destruct J as [J|[<- |J]]; auto; [pose proof (O4 x y J (or_introl eq_refl)); lia|apply O2 in J; lia].
        -- intros N. exfalso. apply (N y); [rewrite in_app_iff; cbn; auto|lia].
Qed.
Lemma nfind_ok t : forall fuel k e res m, Rep m (plug k t) -> ordered key (elems t) -> (height t < fuel)%nat ->
  forall a b, elems t = a ++ b -> lower key a e -> (forall x, In x b -> key e <= key x) ->
  nfind_loop cmp fuel e (ptr t) res m = Ok (match b with [] => res | x :: _ => x end).
Proof.
  induction t as [|c l IHl y r IHr]; intros fuel k e res m H O L a b Q A B; (destruct fuel as [|fuel]; [cbn in L; lia|]).
  - cbn in Q. symmetry in Q. apply app_eq_nil in Q. destruct Q as (-> & ->). reflexivity.
  - destruct (t_node _ _ _ _ _ _ H) as (K & Y0). cbn [nfind_loop ptr height] in *. destruct (Z.eqb_spec y 0); [congruence|].
    destruct (cmp_cases e y) as (E1 & E2). cbn [elems] in *. apply ordered_app in O. destruct O as (O1 & (O2 & O3) & O4).
    (* where y is *)
    assert (S : (exists b', elems l = a ++ b' /\ b = b' ++ y :: elems r) \/ (exists a', a = elems l ++ y :: a' /\ elems r = a' ++ b)).
    { clear -Q. revert a Q. generalize (elems l) as u. induction u as [|u1 u IH]; intros a Q.
      - destruct a as [|a1 a]; cbn in Q; [left; exists []; auto|]. injection Q as -> Q. right. exists a. auto.
      - destruct a as [|a1 a]; cbn in Q; [left; exists (u1 :: u); auto|]. injection Q as -> Q. destruct (IH a Q) as [(b' & -> & ->)|(a' & -> & Q')]; [left; exists b'; auto|right; exists a'; auto]. }
    destruct (cmp e y <? 0) eqn:C1.
    + symmetry in E1. apply Z.ltb_lt in E1. rewrite (left_k _ _ _ K Y0). cbn [bind e_left].
      destruct S as [(b' & Q1 & ->)|(a' & -> & Q1)].
      * rewrite (IHl fuel (Fr true c y r :: k) e y m H O1 ltac:(lia) a b' Q1); [destruct b'; reflexivity|auto|]. intros x J. apply B. rewrite in_app_iff; auto.
      * exfalso. pose proof (A y). rewrite in_app_iff in H0. specialize (H0 (or_intror (or_introl eq_refl))). lia.
    + destruct (0 <? cmp e y) eqn:C2.
      * symmetry in E2. apply Z.ltb_lt in E2. rewrite (right_k _ _ _ K Y0). cbn [bind e_right].
        destruct S as [(b' & Q1 & ->)|(a' & -> & Q1)].
        -- exfalso. pose proof (B y). rewrite in_app_iff in H0. specialize (H0 (or_intror (or_introl eq_refl))). lia.
        -- apply (IHr fuel (Fr false c y l :: k) e res m H O3 ltac:(lia) a' b Q1); auto. intros x J. apply A. rewrite in_app_iff; cbn; auto.
      * symmetry in E1, E2. apply Z.ltb_ge in E1, E2. destruct S as [(b' & Q1 & ->)|(a' & -> & Q1)].
        -- destruct b' as [|z b']; [reflexivity|]. exfalso. pose proof (B z (or_introl eq_refl)).
           pose proof (O4 z y). rewrite Q1, in_app_iff in H1. specialize (H1 (or_intror (or_introl eq_refl)) (or_introl eq_refl)). lia.
        -- exfalso. pose proof (A y). rewrite in_app_iff in H0. specialize (H0 (or_intror (or_introl eq_refl))). lia.
Qed.
End Key.
