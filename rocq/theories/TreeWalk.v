(** The calls on red-black trees, continued: going to the next and previous element, removing, and whole histories. *)
From Verif Require Import BaseLemmas TreeModel SpecTree TreeMem TreeBal TreeDel TreeOps.
From Coq Require Import Permutation.
Import ListNotations.

Lemma plug_app k2 : forall k t, plug (k2 ++ k) t = plug k (plug k2 t).
Proof. induction k2 as [|f k2 IH]; intros k t; cbn [plug app]; auto. Qed.
Lemma rep_some m t z : Rep m t -> In z (elems t) -> nodes m z <> None /\ z <> 0.
Proof. intros H J. destruct (in_plug t z J) as (k & c & l & r & ->). destruct (t_node _ _ _ _ _ _ H) as (K & Z0). rewrite K. split; [discriminate|auto]. Qed.

(** The two ends. *)
Definition ltip (t : tree) (y : Z) : Prop := exists k c r, t = plug k (T c E y r) /\ before k = [].
Lemma leftmost_ok t : forall k fuel m, Rep m (plug k t) -> t <> E -> (height t <= fuel)%nat ->
  exists y k2 c r, leftmost fuel (ptr t) m = Ok y /\ t = plug k2 (T c E y r) /\ before k2 = [].
Proof.
  induction t as [|c l IHl x r IHr]; intros k fuel m H N L; [congruence|]. cbn [ptr height] in *.
  destruct fuel as [|fuel]; [lia|]. cbn [leftmost]. destruct (t_node _ _ _ _ _ _ H) as (K & X0). rewrite (left_k _ _ _ K X0). cbn [bind e_left].
  destruct l as [|cl ll xl rl].
  - exists x, [], c, r. cbn. auto.
  - cbn [ptr]. assert (H' : Rep m (plug (Fr true c x r :: k) (T cl ll xl rl))) by exact H.
    destruct (t_node _ _ _ _ _ _ H') as (_ & XL). destruct (Z.eqb_spec xl 0); [congruence|].
    destruct (IHl _ fuel m H') as (y & k2 & c2 & r2 & E1 & E2 & E3); [discriminate|lia|].
    exists y, (k2 ++ [Fr true c x r]), c2, r2. split; [exact E1|]. split; [rewrite plug_app, <- E2; reflexivity|].
    clear -E3. induction k2 as [|f k2 IH]; cbn in *; auto. destruct (f_d f); auto. destruct (before k2); cbn in E3; [destruct (elems (f_t f)); discriminate|discriminate].
Qed.
Lemma leftmost_first t k fuel m : Rep m (plug k t) -> t <> E -> (height t <= fuel)%nat -> leftmost fuel (ptr t) m = Ok (first (elems t)).
Proof.
  intros H N L. destruct (leftmost_ok t k fuel m H N L) as (y & k2 & c & r & E1 & -> & B). rewrite E1, elems_around, B. reflexivity.
Qed.
Lemma rightmost_last t : forall k fuel m, Rep m (plug k t) -> t <> E -> (height t <= fuel)%nat -> rightmost fuel (ptr t) m = Ok (first (rev (elems t))).
Proof.
  induction t as [|c l IHl x r IHr]; intros k fuel m H N L; [congruence|]. cbn [ptr height] in *.
  destruct fuel as [|fuel]; [lia|]. cbn [rightmost]. destruct (t_node _ _ _ _ _ _ H) as (K & X0). rewrite (right_k _ _ _ K X0). cbn [bind e_right].
  cbn [elems]. rewrite rev_app_distr. cbn [rev]. rewrite <- app_assoc. cbn [app].
  destruct r as [|cr lr xr rr].
  - reflexivity.
  - cbn [ptr]. assert (H' : Rep m (plug (Fr false c x l :: k) (T cr lr xr rr))) by exact H.
    destruct (t_node _ _ _ _ _ _ H') as (_ & XL). destruct (Z.eqb_spec xr 0); [congruence|].
    specialize (IHr _ fuel m H'). cbn [ptr] in IHr. rewrite IHr; [|discriminate|lia].
    cbn [elems]. rewrite rev_app_distr. cbn [rev]. rewrite <- !app_assoc. destruct (rev (elems rr)); reflexivity.
Qed.
Lemma min_ok t : forall k fuel par m, Rep m (plug k t) -> (height t < fuel)%nat ->
  minmax_loop fuel (-1) (ptr t) par m = Ok (match elems t with [] => par | x :: _ => x end).
Proof.
  induction t as [|c l IHl x r IHr]; intros k fuel par m H L; (destruct fuel as [|fuel]; [cbn in L; lia|]); [reflexivity|]. cbn [ptr height minmax_loop] in *.
  destruct (t_node _ _ _ _ _ _ H) as (K & X0). destruct (Z.eqb_spec x 0); [congruence|]. cbn [Z.ltb Z.compare]. rewrite (left_k _ _ _ K X0). cbn [bind e_left].
  rewrite (IHl (Fr true c x r :: k) fuel x m H); [|lia]. cbn [elems]. destruct (elems l); reflexivity.
Qed.
Lemma max_ok t : forall k fuel par m, Rep m (plug k t) -> (height t < fuel)%nat ->
  minmax_loop fuel 1 (ptr t) par m = Ok (match rev (elems t) with [] => par | x :: _ => x end).
Proof.
  induction t as [|c l IHl x r IHr]; intros k fuel par m H L; (destruct fuel as [|fuel]; [cbn in L; lia|]); [reflexivity|]. cbn [ptr height minmax_loop] in *.
  destruct (t_node _ _ _ _ _ _ H) as (K & X0). destruct (Z.eqb_spec x 0); [congruence|]. cbn [Z.ltb Z.compare]. rewrite (right_k _ _ _ K X0). cbn [bind e_right].
  rewrite (IHr (Fr false c x l :: k) fuel x m H); [|lia]. cbn [elems]. rewrite rev_app_distr. cbn [rev]. rewrite <- app_assoc. destruct (rev (elems r)); reflexivity.
Qed.

(** Up to the next one. *)
Lemma up_right_ok k : forall t fuel m, Rep m (plug k t) -> t <> E -> (length k < fuel)%nat ->
  exists e, up_right fuel (ptr t) m = Ok e /\ parent e m = Ok (first (after k)).
Proof.
  induction k as [|[d c p s] k IH]; intros t fuel m H N L; (destruct fuel as [|fuel]; [cbn in L; lia|]); (destruct t as [|ct lt x rt]; [congruence|]); cbn [up_right ptr];
    destruct (t_node _ _ _ _ _ _ H) as (K & X0); rewrite (parent_k _ _ _ K X0); cbn [bind e_parent top f_x].
  - exists x. split; [reflexivity|]. rewrite (parent_k _ _ _ K X0). reflexivity.
  - destruct (frame_node _ _ _ _ _ _ _ H) as (KP & P0). destruct (Z.eqb_spec p 0); [congruence|].
    assert (Hp : Rep m (plug k (mk d c (T ct lt x rt) p s))) by exact H.
    rewrite (right_k _ _ _ KP P0). cbn [bind]. cbn [after f_d f_x f_t]. destruct d; cbn [ent e_right].
    + destruct (Z.eqb_spec x (ptr s)) as [J|J]; [destruct (sides _ _ _ _ _ _ _ Hp J); discriminate|].
      exists x. split; [reflexivity|]. rewrite (parent_k _ _ _ K X0). reflexivity.
    + cbn [ptr]. rewrite Z.eqb_refl.
      destruct (IH (mk false c (T ct lt x rt) p s) fuel m Hp) as (e & E1 & E2); [apply mkE|cbn in L; lia|]. rewrite ptr_mk in E1. eauto.
Qed.
Lemma up_left_ok k : forall t fuel m, Rep m (plug k t) -> t <> E -> (length k < fuel)%nat ->
  exists e, up_left fuel (ptr t) m = Ok e /\ parent e m = Ok (first (rev (before k))).
Proof.
  induction k as [|[d c p s] k IH]; intros t fuel m H N L; (destruct fuel as [|fuel]; [cbn in L; lia|]); (destruct t as [|ct lt x rt]; [congruence|]); cbn [up_left ptr];
    destruct (t_node _ _ _ _ _ _ H) as (K & X0); rewrite (parent_k _ _ _ K X0); cbn [bind e_parent top f_x].
  - exists x. split; [reflexivity|]. rewrite (parent_k _ _ _ K X0). reflexivity.
  - destruct (frame_node _ _ _ _ _ _ _ H) as (KP & P0). destruct (Z.eqb_spec p 0); [congruence|].
    assert (Hp : Rep m (plug k (mk d c (T ct lt x rt) p s))) by exact H.
    rewrite (left_k _ _ _ KP P0). cbn [bind]. cbn [before f_d f_x f_t]. destruct d; cbn [ent e_left].
    + cbn [ptr]. rewrite Z.eqb_refl.
      destruct (IH (mk true c (T ct lt x rt) p s) fuel m Hp) as (e & E1 & E2); [apply mkE|cbn in L; lia|]. rewrite ptr_mk in E1. eauto.
    + destruct (Z.eqb_spec x (ptr s)) as [J|J]; [destruct (sides _ _ _ _ _ _ _ Hp J); discriminate|].
      exists x. split; [reflexivity|]. rewrite (parent_k _ _ _ K X0). cbn [e_parent top f_x]. rewrite !rev_app_distr. reflexivity.
Qed.
Lemma next_ok m k c l x r fuel : Rep m (plug k (T c l x r)) -> (height (plug k (T c l x r)) < fuel)%nat -> rb_next fuel x m = Ok (first (elems r ++ after k)).
Proof.
  intros H L. pose proof (height_plug k (T c l x r)) as L'. cbn [height] in L'. unfold rb_next. destruct (t_node _ _ _ _ _ _ H) as (K & X0). rewrite (right_k _ _ _ K X0). cbn [bind e_right].
  destruct r as [|cr lr xr rr].
  - cbn [ptr Z.eqb negb elems app]. rewrite (parent_k _ _ _ K X0). cbn [bind e_parent].
    destruct (up_right_ok k (T c l x E) fuel m H) as (e & E1 & E2); [discriminate|lia|]. cbn [ptr] in E1.
    destruct k as [|[d cp p s] k]; cbn [top f_x].
    + cbn [Z.eqb bind]. rewrite E1. cbn [bind]. exact E2.
    + destruct (frame_node _ _ _ _ _ _ _ H) as (KP & P0). destruct (Z.eqb_spec p 0); [congruence|]. rewrite (left_k _ _ _ KP P0). cbn [bind].
      assert (Hp : Rep m (plug k (mk d cp (T c l x E) p s))) by exact H.
      destruct d; cbn [ent e_left].
      * cbn [ptr]. rewrite Z.eqb_refl. reflexivity.
      * destruct (Z.eqb_spec x (ptr s)) as [J|J]; [destruct (sides _ _ _ _ _ _ _ Hp J); discriminate|]. rewrite E1. cbn [bind]. exact E2.
  - cbn [ptr]. assert (H' : Rep m (plug (Fr false c x l :: k) (T cr lr xr rr))) by exact H.
    destruct (t_node _ _ _ _ _ _ H') as (_ & XR). destruct (Z.eqb_spec xr 0); [congruence|]. cbn [negb].
    pose proof (leftmost_first _ _ fuel m H') as Q. cbn [ptr] in Q. rewrite Q; [|discriminate|lia]. cbn [elems]. destruct (elems lr); reflexivity.
Qed.
Lemma prev_ok m k c l x r fuel : Rep m (plug k (T c l x r)) -> (height (plug k (T c l x r)) < fuel)%nat -> rb_prev fuel x m = Ok (first (rev (before k ++ elems l))).
Proof.
  intros H L. pose proof (height_plug k (T c l x r)) as L'. cbn [height] in L'. unfold rb_prev. destruct (t_node _ _ _ _ _ _ H) as (K & X0). rewrite (left_k _ _ _ K X0). cbn [bind e_left].
  rewrite rev_app_distr.
  destruct l as [|cl ll xl rl].
  - cbn [ptr Z.eqb negb elems app rev]. rewrite (parent_k _ _ _ K X0). cbn [bind e_parent].
    destruct (up_left_ok k (T c E x r) fuel m H) as (e & E1 & E2); [discriminate|lia|]. cbn [ptr] in E1.
    destruct k as [|[d cp p s] k]; cbn [top f_x].
    + cbn [Z.eqb bind]. rewrite E1. cbn [bind]. exact E2.
    + destruct (frame_node _ _ _ _ _ _ _ H) as (KP & P0). destruct (Z.eqb_spec p 0); [congruence|]. rewrite (right_k _ _ _ KP P0). cbn [bind].
      assert (Hp : Rep m (plug k (mk d cp (T c E x r) p s))) by exact H.
      destruct d; cbn [ent e_right].
      * destruct (Z.eqb_spec x (ptr s)) as [J|J]; [destruct (sides _ _ _ _ _ _ _ Hp J); discriminate|]. rewrite E1. cbn [bind]. exact E2.
      * cbn [ptr]. rewrite Z.eqb_refl. cbn [before f_d f_x f_t]. rewrite !rev_app_distr. reflexivity.
  - cbn [ptr]. assert (H' : Rep m (plug (Fr true c x r :: k) (T cl ll xl rl))) by exact H.
    destruct (t_node _ _ _ _ _ _ H') as (_ & XR). destruct (Z.eqb_spec xl 0); [congruence|]. cbn [negb].
    pose proof (rightmost_last _ _ fuel m H') as Q. cbn [ptr] in Q. rewrite Q; [|discriminate|lia]. cbn [elems]. rewrite rev_app_distr. cbn [rev]. rewrite <- !app_assoc. destruct (rev (elems rl)); reflexivity.
Qed.
Lemma nodup_split (a b a' b' : list Z) x : NoDup (a ++ x :: b) -> a ++ x :: b = a' ++ x :: b' -> a = a' /\ b = b'.
Proof.
  revert a'. induction a as [|y a IH]; intros a' N Q; destruct a' as [|y' a']; cbn in *.
  - injection Q as ->. auto.
  - injection Q as <- Q. exfalso. inversion N as [|? ? NI _]; subst. apply NI. rewrite in_app_iff; cbn; auto.
  - injection Q as -> Q. exfalso. inversion N as [|? ? NI _]; subst. apply NI. rewrite in_app_iff; cbn; auto.
  - injection Q as -> Q. inversion N; subst. destruct (IH a') as (-> & ->); auto.
Qed.

(** Removing. *)
Lemma climb_ok k : forall t fuel m, Rep m (plug k t) -> k <> [] -> (length k <= fuel)%nat -> climb fuel (top k) m = Ok tt.
Proof.
  induction k as [|[d c p s] k IH]; intros t fuel m H N L; [congruence|]. destruct fuel as [|fuel]; [cbn in L; lia|]. cbn [climb top f_x].
  destruct (frame_node _ _ _ _ _ _ _ H) as (KP & P0). rewrite (par_k _ _ _ _ _ _ _ KP P0). cbn [bind].
  destruct k as [|[d' c' p' s'] k]; [reflexivity|]. assert (H' : Rep m (plug (Fr d' c' p' s' :: k) (mk d c t p s))) by exact H.
  destruct (frame_node _ _ _ _ _ _ _ H') as (_ & P0'). cbn [top f_x]. destruct (Z.eqb_spec p' 0); [congruence|].
  apply (IH _ fuel m H'); [discriminate|cbn in *; lia].
Qed.
Lemma okc_swap k2 : forall d c e y l k n, okc (k2 ++ Fr d c e l :: k) n -> okc (k2 ++ Fr d c y l :: k) n.
Proof.
  assert (HR : forall (k2 : list frame) d c e y l k, hred (k2 ++ Fr d c e l :: k) = hred (k2 ++ Fr d c y l :: k)) by (intros [|? ?]; reflexivity).
  induction k2 as [|f k2 IH]; intros d c e y l k n H; cbn [app okc] in *; auto.
  destruct H as (A & B & C & D). repeat split; auto; [apply C; auto|rewrite <- (HR k2 d c e y); apply C; auto|eapply IH; eauto].
Qed.
Lemma color_end m0 m k t (c : bool) fuel n : Rep m (plug k t) -> okc k (if c then n else S n) -> bal t n -> nored t ->
  (c = true -> redt t = false) -> (length k < fuel)%nat -> stays m0 m (elems (plug k t)) ->
  exists m' t', (if col c =? BLACK then remove_color fuel (top k) (ptr t) m else Ok m) = Ok m' /\ Rep m' t' /\ rbok t' /\ elems t' = elems (plug k t) /\ stays m0 m' (elems (plug k t)).
Proof.
  intros H O B N R L S0. destruct c; cbn [col Z.eqb].
  - exists m, (plug k t). split; [reflexivity|]. split; [auto|]. split; [apply (plug_okc k n); auto|]. auto.
  - destruct (remove_color_ok fuel k t n m H O B N L) as (m' & t' & E1 & (C1 & C2 & C3) & K). exists m', t'. split; [exact E1|]. split; [auto|]. split; [auto|]. split; [auto|].
    eapply stays_trans; eauto.
Qed.
Lemma stays_some m m' t z : Rep m' t -> stays m m' (elems t) -> nodes m z <> None -> nodes m' z <> None.
Proof.
  intros R S0 N. destruct (in_dec Z.eq_dec z (elems t)) as [J|J]; [apply (rep_some _ _ _ R J)|]. rewrite (S0 z J). auto.
Qed.
Lemma remove_ok m a e b fuel t : Rep m t -> rbok t -> elems t = a ++ e :: b -> (rounds (length (a ++ e :: b)) < fuel)%nat ->
  exists m' t', rb_remove fuel e m = Ok (e, m') /\ Rep m' t' /\ rbok t' /\ elems t' = a ++ b /\ (forall z, nodes m z <> None -> nodes m' z <> None) /\
    stays m m' (a ++ e :: b).
Proof.
  intros R K Q L. pose proof (height_rb t K) as Hh. rewrite Q in Hh.
  destruct (in_plug t e) as (k & c & l & r & ->); [rewrite Q, in_app_iff; cbn; auto|].
  pose proof (height_plug k (T c l e r)) as HP. cbn [height] in HP.
  destruct (t_node _ _ _ _ _ _ R) as (KE & E0).
  destruct (okc_plug _ _ K) as (n0 & OC & BT & NT & RT).
  assert (ND : NoDup (elems (plug k (T c l e r)))) by apply R.
  assert (AB : a = before k ++ elems l /\ b = elems r ++ after k).
  { rewrite Q in ND. pose proof Q as Q'. rewrite elems_around in Q'. cbn [elems] in Q'. rewrite <- app_assoc in Q'. cbn [app] in Q'. rewrite app_assoc in Q'. symmetry in Q'. apply (nodup_split _ _ _ _ e ND Q'). }
  destruct AB as (-> & ->).
  unfold rb_remove. rewrite (left_k _ _ _ KE E0), (right_k _ _ _ KE E0). cbn [bind e_left e_right].
  assert (Easy : forall d s, T c l e r = mk d c s e E -> elems l ++ elems r = elems s ->
     exists m' t', (let* (c0, par, child, m) := (let* par := parent e m in let* c := color e m in let* m := unlink e par (ptr s) m in Ok (c, par, ptr s, m)) in
        let* m := (if c0 =? BLACK then remove_color fuel par child m else Ok m) in Ok (e, m)) = Ok (e, m') /\
        Rep m' t' /\ rbok t' /\ elems t' = (before k ++ elems l) ++ elems r ++ after k /\ (forall z, nodes m z <> None -> nodes m' z <> None) /\
        stays m m' ((before k ++ elems l) ++ e :: elems r ++ after k)).
  { intros d s QT QE. rewrite (parent_k _ _ _ KE E0), (color_k _ _ _ KE E0). cbn [bind e_parent e_color].
    pose proof R as R'. rewrite QT in R'. destruct (unlink_ok _ _ _ _ _ _ R') as (m1 & E1 & R1 & S1). rewrite E1. cbn [bind].
    rewrite QT in BT, NT, RT. apply bal_mk in BT. apply nored_mk in NT. rewrite redt_mk in RT. destruct NT as (Ns & _ & Nc).
    destruct (color_end m m1 k s c fuel (if c then n0 else pred n0) R1) as (m2 & t2 & E2 & R2 & K2 & Q2 & S2); auto.
    - destruct c; auto. destruct n0; [tauto|exact OC].
    - destruct c; [tauto|]. destruct n0; tauto.
    - intros ->. apply Nc. reflexivity.
    - lia.
    - rewrite E2. cbn [bind]. exists m2, t2. split; [reflexivity|]. split; [auto|]. split; [auto|].
      split; [rewrite Q2, elems_around, <- QE, <- !app_assoc; reflexivity|].
      split; [intros z NZ; rewrite <- Q2 in S2; apply (stays_some _ _ _ _ R2 S2 NZ)|].
      intros z NZ. apply S2. intros J. apply NZ. rewrite elems_around, <- QE in J. rewrite !in_app_iff in *. cbn. rewrite in_app_iff. tauto. }
  destruct l as [|cl ll xl rl].
  { cbn [ptr]. cbn [Z.eqb orb]. apply (Easy false r); reflexivity. }
  assert (HL : Rep m (plug (Fr true c e r :: k) (T cl ll xl rl))) by exact R. destruct (t_node _ _ _ _ _ _ HL) as (_ & XL).
  destruct r as [|cr lr xr rr].
  { cbn [ptr]. rewrite orb_true_r. destruct (Z.eqb_spec xl 0); [congruence|]. apply (Easy true (T cl ll xl rl)); [reflexivity|]. cbn [elems]. rewrite app_nil_r. reflexivity. }
  clear Easy. remember (T cl ll xl rl) as l eqn:El. assert (LE : l <> E) by (subst; discriminate).
  remember (T cr lr xr rr) as r eqn:Er. assert (RE : r <> E) by (subst; discriminate).
  assert (HR : Rep m (plug (Fr false c e l :: k) r)) by exact R.
  assert (P0 : (ptr l =? 0) || (ptr r =? 0) = false).
  { subst l r. cbn [ptr]. destruct (t_node _ _ _ _ _ _ HR) as (_ & XR). destruct (Z.eqb_spec xl 0), (Z.eqb_spec xr 0); try congruence. reflexivity. }
  rewrite P0. cbn [bind].
  destruct (leftmost_ok r _ fuel m HR RE) as (y & k2 & q & r2 & E1 & E2 & B2); [lia|]. rewrite E1. cbn [bind].
  set (k' := k2 ++ Fr false c e l :: k).
  assert (HY : Rep m (plug k' (T q E y r2))) by (unfold k'; rewrite plug_app, <- E2; exact R).
  destruct (t_node _ _ _ _ _ _ HY) as (KY & Y0). rewrite (right_k _ _ _ KY Y0), (parent_k _ _ _ KY Y0), (color_k _ _ _ KY Y0). cbn [bind e_right e_parent e_color].
  destruct (unlink_ok m k' false q r2 y HY) as (m1 & Eu & R1 & S1). rewrite Eu. cbn [bind].
  assert (NY : ~ In y (elems (plug k' r2))).
  { pose proof HY as HN. rewrite <- at_rep in HN. destruct HN as (_ & _ & _ & HN & _). apply (nd_perm _ _ (perm1 true q E y r2 _)) in HN. cbn [elems app] in HN.
    rewrite elems_plug. inversion HN; auto. }
  assert (KY1 : nodes m1 y = Some (Entry 0 (ptr r2) (top k') (col q))) by (rewrite (S1 y NY); exact KY).
  rewrite (parent_k _ _ _ KY1 Y0). cbn [bind e_parent].
  set (k'' := k2 ++ Fr false c y l :: k).
  assert (PP : (if top k' =? e then y else top k') = top k'').
  { unfold k', k''. destruct k2 as [|f k2]; cbn [app top f_x].
    - rewrite Z.eqb_refl. reflexivity.
    - destruct (Z.eqb_spec (f_x f) e) as [J|J]; [|reflexivity]. exfalso.
      pose proof HR as HN. rewrite <- at_rep in HN. destruct HN as (_ & _ & _ & HN & _). apply nd_app in HN. destruct HN as (_ & _ & HN). apply (HN e).
      + rewrite E2, elems_plug, in_app_iff. right. cbn. auto.
      + cbn. auto. }
  rewrite PP.
  assert (HE : Rep m1 (plug k (T c l e (plug k2 r2)))) by (unfold k' in R1; rewrite plug_app in R1; exact R1).
  assert (EE : elems (plug k' r2) = elems (plug k (T c l e (plug k2 r2)))) by (unfold k'; rewrite plug_app; reflexivity).
  destruct (replace_ok m1 k c l e (plug k2 r2) y _ HE LE KY1 Y0) as (m2 & Er2 & R2 & S2).
  { rewrite <- EE. exact NY. }
  rewrite Er2. cbn [bind].
  assert (Q2 : plug k (T c l y (plug k2 r2)) = plug k'' r2) by (unfold k''; rewrite plug_app; reflexivity). rewrite Q2 in R2, S2.
  assert (LK : (length k'' < fuel)%nat).
  { unfold k''. rewrite app_length. cbn [length]. assert (length k2 + S (height r2) <= height r)%nat by (rewrite E2; pose proof (height_plug k2 (T q E y r2)) as W; cbn [height] in W; lia). lia. }
  assert (T0 : (if top k'' =? 0 then Ok tt else climb fuel (top k'') m2) = Ok tt).
  { destruct (top k'' =? 0); auto. apply (climb_ok k'' r2); auto; [unfold k''; destruct k2; discriminate|lia]. }
  rewrite T0. cbn [bind].
  assert (KK : rbok (plug k' (T q E y r2))) by (unfold k'; rewrite plug_app, <- E2; exact K).
  destruct (okc_plug _ _ KK) as (n1 & OC1 & BT1 & NT1 & RT1). apply (okc_swap k2 false c e y l k) in OC1. fold k'' in OC1.
  cbn [nored] in NT1. destruct NT1 as (_ & N2 & NQ).
  destruct (color_end m1 m2 k'' r2 q fuel (if q then n1 else pred n1) R2) as (m3 & t3 & E3 & R3 & K3 & Q3 & S3); auto.
  { destruct q; auto. destruct n1; [cbn in BT1; tauto|exact OC1]. }
  { cbn [bal] in BT1. destruct q; [tauto|]. destruct n1; tauto. }
  { intros ->. apply NQ. reflexivity. }
  rewrite E3. cbn [bind]. exists m3, t3. split; [reflexivity|]. split; [auto|]. split; [auto|]. split.
  - rewrite Q3, <- Q2, elems_around. cbn [elems]. rewrite E2, !elems_around, B2. cbn [elems app]. rewrite <- !app_assoc. cbn [app]. rewrite <- ?app_assoc. reflexivity.
  - split.
    + intros z NZ. assert (N1 : nodes m1 z <> None) by (apply (stays_some _ _ _ _ R1 S1 NZ)). rewrite <- Q3 in S3. apply (stays_some _ _ _ _ R3 S3 N1).
    + intros z NZ. rewrite S3; [apply S1|].
      * intros J. apply NZ. rewrite EE, elems_around in J. cbn [elems] in J. rewrite E2. rewrite !elems_around in *. cbn [elems app] in *. rewrite !in_app_iff in *. cbn [In] in *. rewrite !in_app_iff in *. cbn [In] in *. rewrite ?in_app_iff in *. tauto.
      * intros J. apply NZ. rewrite <- Q2, elems_around in J. cbn [elems] in J. rewrite E2. rewrite !elems_around in *. cbn [elems app] in *. rewrite !in_app_iff in *. cbn [In] in *. rewrite !in_app_iff in *. cbn [In] in *. rewrite ?in_app_iff in *. tauto.
Qed.
