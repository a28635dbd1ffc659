(** Histories of calls on a splay tree. *)
From Verif Require Import BaseLemmas SplayModel SpecTree SpecSplay SplayTree SplayLoop SplayAbs SplayOps.
Import ListNotations.

Section Run.
Variable cmp : Z -> Z -> Z.
Variable key : Z -> Z.
Hypothesis CMP : compares cmp key.
Lemma cmp_pos e f : 0 < cmp e f <-> key f < key e.
Proof. destruct (CMP e f) as (A & B). lia. Qed.
Lemma cmp_neg e f : cmp e f < 0 <-> key e < key f.
Proof. apply (CMP e f). Qed.
Lemma cmp_eq e f : cmp e f = 0 <-> key f = key e.
Proof. destruct (CMP e f) as (A & B). rewrite B. split; auto. Qed.
Lemma ordered_app' a b : ordered key (a ++ b) <-> ordered key a /\ ordered key b /\ (forall x y, In x a -> In y b -> key x < key y).
Proof.
  induction a as [|c a IH]; cbn; [split; [intros; repeat split; auto; intros ? ? []|tauto]|]. rewrite IH. unfold higher. split.
  - intros (A & B & C & D). repeat split; auto; [intros x J; apply A; rewrite in_app_iff; auto|]. intros x y [<- |J] K; auto. apply A. rewrite in_app_iff. auto.
  - intros ((A & B) & C & D). repeat split; auto. intros x J. rewrite in_app_iff in J. destruct J; auto.
Qed.
Lemma ordered_once l : ordered key l -> once l.
Proof.
  intros O. apply once_nodup. induction l as [|x l IH]; constructor; [|apply IH; apply O]. intros J. destruct O as (A & _). apply A in J. lia.
Qed.
Lemma mono_cmp e l : ordered key l -> mono (cmp e) l.
Proof.
  intros O p x q ->. apply ordered_app' in O. destruct O as (_ & (A & _) & B). split; intros D y J.
  - apply cmp_neg. apply A in J. destruct (CMP e x) as (C1 & C2). lia.
  - apply cmp_pos. pose proof (B y x J ltac:(cbn; auto)). destruct (CMP e x) as (C1 & C2). lia.
Qed.
(** What the splay leaves, for a comparison with [e]. *)
Lemma cut e t a z b c : ordered key (elems t) -> spl (cmp e) t = (SN a z b, c) ->
  elems t = elems a ++ z :: elems b /\
  (key z = key e \/ key e < key z /\ lower key (elems a) e /\ higher key e (z :: elems b) \/ key z < key e /\ lower key (elems a ++ [z]) e /\ higher key e (elems b)).
Proof.
  intros O Q. pose proof (spl_elems _ _ _ _ _ _ Q) as EL. split; [auto|]. pose proof (mono_cmp e _ O) as M. rewrite <- EL in O. apply ordered_app' in O. destruct O as (_ & (A & _) & B).
  destruct (spl_parted _ _ M _ _ _ _ Q) as [D|[(D & K)|(D & K)]].
  - left. apply cmp_eq. auto.
  - right; left. apply cmp_neg in D. split; [auto|]. split; [intros x J; apply cmp_pos; auto|]. intros x [<- |J]; auto. apply A in J. lia.
  - right; right. apply cmp_pos in D. split; [auto|]. split; [|intros x J; apply cmp_neg; auto]. intros x J. rewrite in_app_iff in J. destruct J as [J|[<- |[]]]; auto.
    pose proof (B x z J ltac:(cbn; auto)). lia.
Qed.
Lemma found e t a z b c x : ordered key (elems t) -> spl (cmp e) t = (SN a z b, c) -> In x (elems t) -> key x = key e -> z = x.
Proof.
  intros O Q J K. destruct (cut e t a z b c O Q) as (EL & D). rewrite EL in J, O. apply ordered_app' in O. destruct O as (_ & (A & _) & B).
  rewrite in_app_iff in J. destruct D as [D|[(D1 & D2 & D3)|(D1 & D2 & D3)]]; destruct J as [J|[J|J]]; auto.
  - pose proof (B x z J ltac:(cbn; auto)). lia.
  - apply A in J. lia.
  - apply D2 in J. lia.
  - pose proof (D3 x ltac:(cbn; auto)). lia.
  - pose proof (D2 x ltac:(rewrite in_app_iff; auto)). lia.
  - apply D3 in J. lia.
Qed.
Lemma absent e t a z b c : ordered key (elems t) -> spl (cmp e) t = (SN a z b, c) -> (forall x, In x (elems t) -> key x <> key e) -> cmp e z <> 0.
Proof.
  intros O Q N D. apply cmp_eq in D. apply (N z); auto. rewrite <- (spl_elems _ _ _ _ _ _ Q), in_app_iff. cbn. auto.
Qed.
Lemma split_uniq e a b a' b' : a ++ b = a' ++ b' -> lower key a e -> higher key e b -> lower key a' e -> higher key e b' -> a = a' /\ b = b'.
Proof.
  revert a'. induction a as [|x a IH]; intros [|y a'] Q La Hb La' Hb'; cbn in Q.
  - auto.
  - subst b. pose proof (La' y ltac:(cbn; auto)). pose proof (Hb y ltac:(cbn; auto)). lia.
  - subst b'. pose proof (La x ltac:(cbn; auto)). pose proof (Hb' x ltac:(cbn; auto)). lia.
  - injection Q as -> Q. destruct (IH a' Q) as (-> & ->); auto; intros x J; [apply La|apply La']; cbn; auto.
Qed.
Lemma once_uniq (x : Z) a b a' b' : once (a ++ x :: b) -> a ++ x :: b = a' ++ x :: b' -> a = a' /\ b = b'.
Proof.
  revert a'. induction a as [|y a IH]; intros [|y' a'] O Q; cbn in Q.
  - injection Q as ->. auto.
  - injection Q as <- ->. exfalso. specialize (O x). cbn in O. rewrite Z.eqb_refl, cnt_app in O. cbn in O. rewrite Z.eqb_refl in O. lia.
  - injection Q as -> <-. exfalso. specialize (O x). cbn in O. rewrite Z.eqb_refl, cnt_app in O. cbn in O. rewrite Z.eqb_refl in O. lia.
  - injection Q as -> Q. destruct (IH a') as (-> & ->); auto. intros e. specialize (O e). cbn in O. lia.
Qed.

Definition st (m : smem) (t : stree) (l : list Z) : Prop := sroot m = rt t /\ rep m t /\ elems t = l /\ ordered key l.
Lemma st_once m t l : st m t l -> once (elems t).
Proof. intros (_ & _ & -> & O). apply ordered_once; auto. Qed.
Lemma st_size m t l : st m t l -> size t = length l.
Proof. intros (_ & _ & <- & _). rewrite size_elems. reflexivity. Qed.
Lemma compare_ok e f m : 0 < e -> alive m e = true -> 0 < f -> alive m f = true -> compare cmp e f m = Ok (cmp e f).
Proof. intros. unfold compare. rewrite !there_ok by (lia || auto). reflexivity. Qed.

(** What a call may cost: [C] rounds of splaying are paid by the potential, the walks of SPLAY_NEXT are no more than twice as many. *)
Definition cost (W : Z) (k : nat) (m m' : smem) (t t' : stree) : Prop :=
  exists C, (ticks m' <= ticks m + 3 * C)%nat /\ p2 C * pot t' <= W ^ Z.of_nat k * pot t.
Lemma splay_paid dir t a z b c : spl dir t = (SN a z b, c) -> p2 c * pot (SN a z b) <= wt t * wt t * wt t * pot t.
Proof.
  intros Q. pose proof (spl_cost dir t a z b c Q) as H. cbn [pot]. rewrite (wt_spl _ _ _ _ _ _ Q). pose proof (wt_pos t). pose proof (pot_pos t).
  pose proof (Z.mul_le_mono_nonneg_l _ _ (wt t) ltac:(lia) H). lia.
Qed.
Lemma pow_ge W n k : 1 <= W -> (n <= k)%nat -> W ^ Z.of_nat n <= W ^ Z.of_nat k.
Proof. intros. apply Z.pow_le_mono_r; lia. Qed.
Lemma cube_le W w : 1 <= w <= W -> w * w * w <= W ^ 3.
Proof. intros. replace (W ^ 3) with (W * W * W) by ring. pose proof (mul4 w W w W ltac:(lia) ltac:(lia)). apply mul4; nia. Qed.
Lemma cost_splay W k m m' dir t a z b c : 1 <= W -> wt t <= W -> (3 <= k)%nat -> spl dir t = (SN a z b, c) -> ticks m' = (ticks m + c)%nat -> cost W k m m' t (SN a z b).
Proof.
  intros HW1 HW Hk Q T. exists c. split; [lia|]. pose proof (splay_paid _ _ _ _ _ _ Q) as H. pose proof (wt_pos t). pose proof (pot_pos t).
  pose proof (cube_le W (wt t) ltac:(lia)) as G1. pose proof (pow_ge W 3 k HW1 Hk) as G2. change (Z.of_nat 3) with 3 in G2.
  eapply Z.le_trans; [exact H|]. apply Z.mul_le_mono_nonneg_r; lia.
Qed.
Lemma cost_none W k m t : 1 <= W -> cost W k m m t t.
Proof.
  intros HW. exists 0%nat. split; [lia|]. change (p2 0) with 1. pose proof (pot_pos t). assert (1 <= W ^ Z.of_nat k) by (pose proof (pow_ge W 0 k HW ltac:(lia)); change (W ^ Z.of_nat 0) with 1 in *; lia). nia.
Qed.

Section Op.
Variable W : Z.
Variable fuel : nat.
Definition good (o : sop) (m : smem) : Prop := match sop_elem o with Some e => 0 < e /\ alive m e = true | None => True end.
Definition same_alive (m m' : smem) : Prop := forall e, 0 < e -> alive m' e = alive m e.
Lemma rep_root m a z b : rep m (SN a z b) -> 0 < z /\ alive m z = true /\ lefts m z = rt a /\ rights m z = rt b.
Proof. cbn. tauto. Qed.
Lemma st_empty m t l : st m t l -> (sroot m = 0 <-> t = SE).
Proof. intros (R0 & R & _). rewrite R0. destruct t as [|a z b]; cbn; [tauto|]. split; [|discriminate]. intros ->. cbn in R. lia. Qed.

Lemma find_ok e m t l : st m t l -> 0 < e -> alive m e = true -> wt t <= W -> (length l <= fuel)%nat ->
  exists x m' t', splay_find cmp fuel e m = Ok (x, m') /\ st m' t' l /\ same_alive m m' /\ cost W 5 m m' t t' /\
    (forall y, In y l -> key y = key e -> x = y) /\ ((forall y, In y l -> key y <> key e) -> x = 0).
Proof.
  intros H E0 EA HW F. unfold splay_find. pose proof (wt_pos t). destruct (Z.eqb_spec (sroot m) 0) as [Z0|Z0].
  - apply (st_empty _ _ _ H) in Z0. subst t. exists 0, m, SE. split; [reflexivity|]. split; [auto|]. split; [intros ? ?; auto|]. split; [apply cost_none; lia|].
    destruct H as (_ & _ & <- & _). split; [intros y []|auto].
  - assert (NE : t <> SE) by (intros ->; apply Z0; apply (st_empty _ _ _ H); auto). pose proof H as (R0 & R & EL & O).
    destruct (splay_ok cmp fuel e m t E0 EA R0 R NE (st_once _ _ _ H)) as (a & z & b & c & m' & Q & E1 & R1 & Rep & T & (K1 & K2)); [rewrite (st_size _ _ _ H); auto|].
    rewrite E1. cbn [bind]. destruct (rep_root _ _ _ _ Rep) as (Zp & Za & _). rewrite R1, compare_ok by (auto; rewrite K1; auto). cbn [bind].
    exists (if cmp e z =? 0 then z else 0), m', (SN a z b). split; [reflexivity|]. subst l. pose proof (spl_elems _ _ _ _ _ _ Q) as EL.
    split; [split; [exact R1|]; split; [exact Rep|]; split; [exact EL|exact O]|]. split; [exact K1|]. split; [eapply cost_splay; eauto; lia|]. split.
    + intros y J K. rewrite (found e t a z b c y O Q J K). assert (cmp e y = 0) as -> by (apply cmp_eq; auto). reflexivity.
    + intros N. pose proof (absent e t a z b c O Q N). destruct (Z.eqb_spec (cmp e z) 0); [contradiction|reflexivity].
Qed.
Lemma minmax_ok v m t l : st m t l -> (v = -1 \/ v = 1) -> wt t <= W -> (length l <= fuel)%nat ->
  exists m' t', splay_min_max fuel v m = Ok ((if v =? -1 then first l else first (rev l)), m') /\ st m' t' l /\ same_alive m m' /\ cost W 3 m m' t t'.
Proof.
  intros H V HW F. unfold splay_min_max. pose proof (wt_pos t). destruct (Z.eqb_spec (sroot m) 0) as [Z0|Z0].
  - apply (st_empty _ _ _ H) in Z0. subst t. exists m, SE. pose proof H as (_ & _ & <- & _). split; [destruct (v =? -1); reflexivity|]. split; [auto|]. split; [intros ? ?; auto|]. apply cost_none; lia.
  - assert (NE : t <> SE) by (intros ->; apply Z0; apply (st_empty _ _ _ H); auto). pose proof H as (R0 & R & EL & O).
    destruct (sminmax_ok fuel v m t ltac:(lia) R0 R NE (st_once _ _ _ H)) as (a & z & b & c & m' & Q & E1 & R1 & Rep & T & (K1 & K2)); [rewrite (st_size _ _ _ H); auto|].
    rewrite E1. cbn [bind]. rewrite R1. exists m', (SN a z b). subst l. pose proof (spl_elems _ _ _ _ _ _ Q) as EL.
    assert (M : mono (fun _ => v) (elems t)). { intros p x q _. split; intros; lia. }
    split; [|split; [split; [exact R1|]; split; [exact Rep|]; split; [exact EL|exact O]|split; [exact K1|eapply cost_splay; eauto; lia]]].
    f_equal. f_equal. rewrite <- EL. destruct (spl_parted _ _ M _ _ _ _ Q) as [D|[(D & K)|(D & K)]]; [lia| |]; destruct V as [-> | ->]; try lia; cbn [Z.eqb].
    + destruct (elems a) as [|y q]; [reflexivity|]. specialize (K y ltac:(cbn; auto)). lia.
    + change (1 =? -1) with false. destruct (elems b) as [|y q]; [rewrite rev_app_distr; reflexivity|]. specialize (K y ltac:(cbn; auto)). lia.
Qed.

Lemma p2_add a b : p2 (a + b) = p2 a * p2 b.
Proof. unfold p2. rewrite Nat2Z.inj_add, Z.pow_add_r by lia. reflexivity. Qed.
Lemma mulW X Y u : 0 <= Y -> 0 <= u -> X <= Y -> u <= W -> X * u <= Y * W.
Proof. intros. apply Z.le_trans with (Y * u); [apply Z.mul_le_mono_nonneg_r; auto|apply Z.mul_le_mono_nonneg_l; auto]. Qed.
(** The element in front of the old root, the old root's left subtree taken over; and behind it. *)
Lemma cost_ins k m m' dir t a z b c t' : wt t + 1 <= W -> (4 <= k)%nat -> spl dir t = (SN a z b, c) -> ticks m' = (ticks m + c)%nat ->
  (exists e, t' = SN a e (SN SE z b) \/ t' = SN (SN a z SE) e b) -> cost W k m m' t t'.
Proof.
  intros HW Hk Q T (e & E). exists c. split; [lia|]. pose proof (spl_cost dir t a z b c Q) as H. pose proof (wt_pos t). pose proof (pot_pos t). pose proof (wt_spl _ _ _ _ _ _ Q) as WS.
  assert (exists u, 0 <= u <= W /\ p2 c * pot t' = p2 c * (pot a * pot b) * u * (wt t + 1)) as (u & U & ->).
  { pose proof (wt_pos a). pose proof (wt_pos b). destruct E as [-> | ->]; cbn [pot]; rewrite !wt_node; change (wt SE) with 1.
    - exists (1 + wt b). split; [lia|]. rewrite <- WS. ring.
    - exists (wt a + 1). split; [lia|]. rewrite <- WS. ring. }
  assert (G0 : p2 c * (pot a * pot b) * u <= wt t * wt t * pot t * W) by (apply mulW; try lia; nia).
  assert (G1 : p2 c * (pot a * pot b) * u * (wt t + 1) <= wt t * wt t * pot t * W * W) by (apply mulW; try lia; nia).
  eapply Z.le_trans; [exact G1|]. pose proof (pow_ge W 4 k ltac:(lia) Hk) as G2. change (Z.of_nat 4) with 4 in G2. replace (W ^ 4) with (W * W * (W * W)) in G2 by ring.
  pose proof (mul4 (wt t) W (wt t) W ltac:(lia) ltac:(lia)) as G3. apply Z.le_trans with (W * W * (W * W) * pot t); [|apply Z.mul_le_mono_nonneg_r; lia].
  replace (wt t * wt t * pot t * W * W) with (wt t * wt t * (W * W * pot t)) by ring. replace (W * W * (W * W) * pot t) with (W * W * (W * W * pot t)) by ring. apply Z.mul_le_mono_nonneg_r; nia.
Qed.
Lemma cost_rem k m m' dir dir' t a z b c a2 y c2 : wt t <= W -> (5 <= k)%nat -> spl dir t = (SN a z b, c) -> spl dir' a = (SN a2 y SE, c2) -> ticks m' = (ticks m + c + c2)%nat ->
  cost W k m m' t (SN a2 y b).
Proof.
  intros HW Hk Q Q2 T. exists (c + c2)%nat. split; [lia|]. pose proof (spl_cost dir t a z b c Q) as H. pose proof (spl_cost dir' a a2 y SE c2 Q2) as H2.
  pose proof (wt_spl _ _ _ _ _ _ Q) as WS. pose proof (wt_spl _ _ _ _ _ _ Q2) as WS2. change (wt SE) with 1 in WS2. change (pot SE) with 1 in H2. cbn [pot]. rewrite p2_add.
  pose proof (wt_pos t). pose proof (wt_pos a). pose proof (wt_pos b). pose proof (wt_pos a2). pose proof (pot_pos t). pose proof (pot_pos a). pose proof (pot_pos b). pose proof (pot_pos a2). pose proof (p2_pos c). pose proof (p2_pos c2).
  assert (G1 : p2 c2 * pot a2 <= W * W * pot a).
  { apply Z.le_trans with (wt a * wt a * pot a); [lia|]. apply Z.mul_le_mono_nonneg_r; [lia|]. apply mul4; lia. }
  assert (G0 : p2 c * (pot a * pot b) <= W * W * pot t).
  { eapply Z.le_trans; [exact H|]. apply Z.mul_le_mono_nonneg_r; [lia|]. apply mul4; lia. }
  assert (G2 : p2 c * pot b * (p2 c2 * pot a2) <= p2 c * pot b * (W * W * pot a)) by (apply Z.mul_le_mono_nonneg_l; nia).
  assert (G3 : W * W * (p2 c * (pot a * pot b)) <= W * W * (W * W * pot t)) by (apply Z.mul_le_mono_nonneg_l; nia).
  assert (G4 : p2 c * pot b * (p2 c2 * pot a2) * (wt a2 + wt b) <= W * W * (W * W * pot t) * W) by (apply mulW; try lia; nia).
  pose proof (pow_ge W 5 k ltac:(lia) Hk) as G5. change (Z.of_nat 5) with 5 in G5. replace (W ^ 5) with (W * W * (W * W) * W) in G5 by ring.
  apply Z.le_trans with (W * W * (W * W) * W * pot t); [|apply Z.mul_le_mono_nonneg_r; lia]. lia.
Qed.
Lemma cost_less k m m' dir t a z b c r : wt t <= W -> (2 <= k)%nat -> spl dir t = (SN a z b, c) -> ticks m' = (ticks m + c)%nat -> pot r <= pot a * pot b -> cost W k m m' t r.
Proof.
  intros HW Hk Q T PR. exists c. split; [lia|]. pose proof (spl_cost dir t a z b c Q) as H. pose proof (wt_pos t). pose proof (pot_pos t). pose proof (p2_pos c).
  pose proof (pow_ge W 2 k ltac:(lia) Hk) as G5. change (Z.of_nat 2) with 2 in G5. replace (W ^ 2) with (W * W) in G5 by ring.
  apply Z.le_trans with (p2 c * (pot a * pot b)); [apply Z.mul_le_mono_nonneg_l; lia|]. eapply Z.le_trans; [exact H|]. apply Z.mul_le_mono_nonneg_r; [lia|].
  pose proof (mul4 (wt t) W (wt t) W ltac:(lia) ltac:(lia)). lia.
Qed.
Lemma cnt_none e l : ~ In e l -> cnt e l = 0%nat.
Proof. intros N. destruct (cnt e l) eqn:Q; auto. exfalso. apply N, cnt_in. lia. Qed.
Lemma insert_ok e m t l : st m t l -> 0 < e -> alive m e = true -> wt t + 1 <= W -> (length l <= fuel)%nat ->
  exists x m' t' l', splay_insert cmp fuel e m = Ok (x, m') /\ st m' t' l' /\ same_alive m m' /\ cost W 5 m m' t t' /\
    (forall y, In y l -> key y = key e -> x = y /\ l' = l) /\ (forall a b, l = a ++ b -> lower key a e -> higher key e b -> x = 0 /\ l' = a ++ e :: b) /\
    (forall a z b c, spl (cmp e) t = (SN a z b, c) -> 0 < cmp e z -> t' = SN (SN a z SE) e b).
Proof.
  intros H E0 EA HW F. unfold splay_insert. pose proof (wt_pos t). destruct (Z.eqb_spec (sroot m) 0) as [Z0|Z0].
  - apply (st_empty _ _ _ H) in Z0. subst t. rewrite set_sright_k by (lia || auto). cbn [bind]. rewrite set_sleft_k by (lia || auto). cbn [bind].
    eexists _, _, (SN SE e SE), [e]. split; [reflexivity|]. split; [|split; [intros ? ?; reflexivity|split]].
    + split; [reflexivity|]. split; [cbn; rewrite !upd_same; auto 10|]. split; [reflexivity|]. cbn. split; [intros x []|auto].
    + exists 0%nat. split; [cbn; lia|]. change (p2 0 * pot (SN SE e SE)) with 2. change (pot SE) with 1. pose proof (pow_ge W 1 5 ltac:(lia) ltac:(lia)) as G. replace (W ^ Z.of_nat 1) with W in G by (cbn; lia). change (wt SE) with 1 in HW. lia.
    + destruct H as (_ & _ & <- & _). split; [intros y []|]. split; [|discriminate]. intros a b Q. destruct a; [|discriminate]. destruct b; [|discriminate]. auto.
  - assert (NE : t <> SE) by (intros ->; apply Z0; apply (st_empty _ _ _ H); auto). pose proof H as (R0 & R & EL & O).
    destruct (splay_ok cmp fuel e m t E0 EA R0 R NE (st_once _ _ _ H)) as (a & z & b & c & m1 & Q & E1 & R1 & Rep & T & (K1 & K2)); [rewrite (st_size _ _ _ H); auto|].
    rewrite E1. cbn [bind]. pose proof Rep as (Zp & Za & ZL & ZR & RA & RB). rewrite R1, compare_ok by (auto; rewrite K1; auto). cbn [bind].
    subst l. destruct (cut e t a z b c O Q) as (EL & D). pose proof O as O'. rewrite EL in O'. pose proof (ordered_once _ O') as ON. apply ordered_app' in O'. destruct O' as (OA & (HB & OB) & AB).
    assert (EA1 : alive m1 e = true) by (rewrite K1; auto).
    destruct D as [D|[(D & D1 & D2)|(D & D1 & D2)]].
    + assert (cmp e z = 0) as -> by (apply cmp_eq; auto). cbn. exists z, m1, (SN a z b), (elems t). split; [reflexivity|]. split; [split; [exact R1|]; split; [exact Rep|]; split; [symmetry; exact EL|exact O]|].
      split; [exact K1|]. split; [eapply cost_splay; eauto; lia|]. split; [|split; [|intros a' z' b' c' Q'; rewrite Q in Q'; injection Q' as <- <- <- <-; intros CP; apply cmp_pos in CP; lia]].
      * intros y J K. split; [|reflexivity]. exact (found e t a z b c y O Q J K).
      * intros a' b' Q' La Hb. exfalso. assert (J : In z (a' ++ b')) by (rewrite <- Q', EL, in_app_iff; cbn; auto). rewrite in_app_iff in J. destruct J as [J|J]; [apply La in J|apply Hb in J]; lia.
    + assert (CN : cmp e z < 0) by (apply cmp_neg; auto). assert (NEz : e <> z) by (intros ->; lia). assert (NA : cnt e (elems a) = 0%nat) by (apply cnt_none; intros J; apply D1 in J; lia).
      assert (NB : cnt e (elems b) = 0%nat) by (apply cnt_none; intros J; specialize (D2 e (or_intror J)); lia). assert (NZa : cnt z (elems a) = 0%nat /\ cnt z (elems b) = 0%nat).
      { specialize (ON z). rewrite cnt_app in ON. cbn in ON. rewrite Z.eqb_refl in ON. lia. }
      destruct (Z.ltb_spec (cmp e z) 0); [|lia]. rewrite sleft_k by (lia || auto). cbn [bind]. rewrite set_sleft_k by (lia || auto). cbn [bind]. rewrite set_sright_k by (lia || auto). cbn [bind updL sroot].
      rewrite set_sleft_k by (unfold updL, updR; cbn; rewrite R1; (lia || auto)). cbn [bind]. unfold updL, updR. cbn. rewrite R1.
      eexists _, _, (SN a e (SN SE z b)), (elems a ++ e :: z :: elems b). split; [reflexivity|]. split; [|split; [exact K1|split]].
      * split; [reflexivity|]. split; [|split; [reflexivity|]].
        -- cbn. rewrite !upd_same, (upd_other _ z _ e) by auto. rewrite upd_same, (upd_other _ e _ z) by auto.
           split; [auto|]. split; [auto|]. split; [auto|]. split; [auto|]. split; [|split; [auto|]; split; [auto|]; split; [auto|]; split; [auto|]; split; [auto|]].
           ++ eapply rep_eqp; [|exact RA]. intros x X0 J. assert (x <> e) by (intros ->; lia). assert (x <> z) by (intros ->; lia). repeat split; cbn; rewrite ?upd_other; auto.
           ++ eapply rep_eqp; [|exact RB]. intros x X0 J. assert (x <> e) by (intros ->; lia). assert (x <> z) by (intros ->; lia). repeat split; cbn; rewrite ?upd_other; auto.
        -- apply ordered_app'. split; [auto|]. split; [split; [exact D2|split; auto]|]. intros x y J [<- |[<- |K]]; [apply D1; auto|apply AB; cbn; auto|apply AB; cbn; auto].
      * eapply cost_ins with (c := c); eauto; try lia. 
      * split; [|split; [|intros a' z' b' c' Q'; rewrite Q in Q'; injection Q' as <- <- <- <-; intros CP; lia]].
        -- intros y J K. pose proof (found e t a z b c y O Q J K). subst y. lia.
        -- intros a' b' Q' La Hb. split; [reflexivity|]. rewrite EL in Q'. destruct (split_uniq e _ _ _ _ Q') as (<- & <-); auto.
    + assert (CN : 0 < cmp e z) by (apply cmp_pos; auto). assert (NEz : e <> z) by (intros ->; lia). assert (NA : cnt e (elems a) = 0%nat) by (apply cnt_none; intros J; specialize (D1 e (proj2 (in_app_iff _ _ _) (or_introl J))); lia).
      assert (NB : cnt e (elems b) = 0%nat) by (apply cnt_none; intros J; apply D2 in J; lia). assert (NZa : cnt z (elems a) = 0%nat /\ cnt z (elems b) = 0%nat).
      { specialize (ON z). rewrite cnt_app in ON. cbn in ON. rewrite Z.eqb_refl in ON. lia. }
      destruct (Z.ltb_spec (cmp e z) 0); [lia|]. destruct (Z.ltb_spec 0 (cmp e z)); [|lia]. rewrite sright_k by (lia || auto). cbn [bind]. rewrite set_sright_k by (lia || auto). cbn [bind]. rewrite set_sleft_k by (lia || auto). cbn [bind updR sroot].
      rewrite set_sright_k by (unfold updL, updR; cbn; rewrite R1; (lia || auto)). cbn [bind]. unfold updL, updR. cbn. rewrite R1.
      eexists _, _, (SN (SN a z SE) e b), ((elems a ++ [z]) ++ e :: elems b). split; [reflexivity|]. split; [|split; [exact K1|split]].
      * split; [reflexivity|]. split; [|split; [reflexivity|]].
        -- cbn. rewrite !upd_same, (upd_other _ z _ e) by auto. rewrite upd_same, (upd_other _ e _ z) by auto.
           split; [auto|]. split; [auto|]. split; [auto|]. split; [auto|]. split; [split; [auto|]; split; [auto|]; split; [auto|]; split; [auto|]; split; [|auto]|].
           ++ eapply rep_eqp; [|exact RA]. intros x X0 J. assert (x <> e) by (intros ->; lia). assert (x <> z) by (intros ->; lia). repeat split; cbn; rewrite ?upd_other; auto.
           ++ eapply rep_eqp; [|exact RB]. intros x X0 J. assert (x <> e) by (intros ->; lia). assert (x <> z) by (intros ->; lia). repeat split; cbn; rewrite ?upd_other; auto.
        -- apply ordered_app'. split; [apply ordered_app'; split; [auto|]; split; [split; [intros ? []|exact I]|]|]. intros x y J [<- |[]]. apply AB; cbn; auto. split; [split; [exact D2|auto]|].
           intros x y J [<- |K]; [apply D1; auto|]. apply D1 in J. apply D2 in K. lia.
      * eapply cost_ins with (c := c); eauto; try lia.
      * split; [|split; [|intros a' z' b' c' Q'; rewrite Q in Q'; injection Q' as <- <- <- <-; reflexivity]].
        -- intros y J K. pose proof (found e t a z b c y O Q J K). subst y. lia.
        -- intros a' b' Q' La Hb. split; [reflexivity|]. rewrite EL in Q'. change (z :: elems b) with ([z] ++ elems b) in Q'. rewrite app_assoc in Q'. destruct (split_uniq e _ _ _ _ Q') as (<- & <-); auto.
Qed.

Lemma elems_nil t : elems t = [] -> t = SE.
Proof. destruct t; auto. cbn. destruct (elems t1); discriminate. Qed.
Lemma remove_ok e m t l : st m t l -> 0 < e -> alive m e = true -> wt t <= W -> (length l <= fuel)%nat ->
  exists x m' t' l', splay_remove cmp fuel e m = Ok (x, m') /\ st m' t' l' /\ same_alive m m' /\ cost W 5 m m' t t' /\
    (forall a y b, l = a ++ y :: b -> key y = key e -> x = e /\ l' = a ++ b) /\ ((forall y, In y l -> key y <> key e) -> x = 0 /\ l' = l).
Proof.
  intros H E0 EA HW F. unfold splay_remove. pose proof (wt_pos t). destruct (Z.eqb_spec (sroot m) 0) as [Z0|Z0].
  - apply (st_empty _ _ _ H) in Z0. subst t. exists 0, m, SE, l. split; [reflexivity|]. split; [auto|]. split; [intros ? ?; auto|]. split; [apply cost_none; lia|].
    destruct H as (_ & _ & <- & _). split; [intros a y b Q; destruct a; discriminate|auto].
  - assert (NE : t <> SE) by (intros ->; apply Z0; apply (st_empty _ _ _ H); auto). pose proof H as (R0 & R & EL & O).
    destruct (splay_ok cmp fuel e m t E0 EA R0 R NE (st_once _ _ _ H)) as (a & z & b & c & m1 & Q & E1 & R1 & Rep & T & (K1 & K2)); [rewrite (st_size _ _ _ H); auto|].
    rewrite E1. cbn [bind]. pose proof Rep as (Zp & Za & ZL & ZR & RA & RB). rewrite R1, compare_ok by (auto; rewrite K1; auto). cbn [bind].
    subst l. destruct (cut e t a z b c O Q) as (EL & D). pose proof O as O'. rewrite EL in O'. pose proof (ordered_once _ O') as ON. apply ordered_app' in O'. destruct O' as (OA & (HB & OB) & AB).
    assert (EA1 : alive m1 e = true) by (rewrite K1; auto).
    destruct (Z.eqb_spec (cmp e z) 0) as [CE|CN].
    2: { exists 0, m1, (SN a z b), (elems t). split; [reflexivity|]. split; [split; [exact R1|]; split; [exact Rep|]; split; [symmetry; exact EL|exact O]|].
      split; [exact K1|]. split; [eapply cost_splay; eauto; lia|]. split; [|auto].
      intros a' y b' Q' K. exfalso. apply CN. apply cmp_eq. assert (J : In y (elems t)) by (rewrite Q', in_app_iff; cbn; auto). rewrite (found e t a z b c y O Q J K). auto. }
    apply cmp_eq in CE. assert (OUT : forall a' y b', elems t = a' ++ y :: b' -> key y = key e -> a' = elems a /\ b' = elems b).
    { intros a' y b' Q' K. assert (J : In y (elems t)) by (rewrite Q', in_app_iff; cbn; auto). pose proof (found e t a z b c y O Q J K). subst y. rewrite EL in Q'. destruct (once_uniq z _ _ _ _ ON Q') as (-> & ->). auto. }
    assert (THERE : ~ forall y, In y (elems t) -> key y <> key e). { intros N. apply (N z); auto. rewrite EL, in_app_iff. cbn. auto. }
    assert (OAB : ordered key (elems a ++ elems b)). { apply ordered_app'. split; [auto|]. split; [auto|]. intros x y J K. apply AB; cbn; auto. }
    rewrite sleft_k by (lia || auto). cbn [bind]. rewrite ZL. destruct a as [|al x ar].
    + cbn [rt Z.eqb]. rewrite sright_k by (lia || auto). cbn [bind]. rewrite ZR. exists e, (set_sroot (rt b) m1), b, (elems b). split; [reflexivity|].
      split; [split; [reflexivity|]; split; [|split; [reflexivity|exact OB]]|]. { eapply rep_eqp; [|exact RB]. intros x X0 J. repeat split. }
      split; [exact K1|]. split; [eapply cost_less with (c := c); eauto; try lia; change (pot SE) with 1; lia|]. split; [|contradiction]. intros a' y b' Q' K. destruct (OUT a' y b' Q' K) as (-> & ->). auto.
    + set (a := SN al x ar) in *. assert (NEa : a <> SE) by (subst a; discriminate). assert (X0 : 0 < x) by (subst a; cbn in RA; lia). change (rt a) with x. destruct (Z.eqb_spec x 0); [lia|].
      rewrite sright_k by (lia || auto). cbn [bind]. rewrite ZR. rewrite ?sleft_k by (lia || auto). cbn [bind]. rewrite ?ZL.
      assert (RA1 : rep (set_sroot (rt a) m1) a) by (eapply rep_eqp; [|exact RA]; intros y Y0 J; repeat split).
      destruct (splay_ok cmp fuel e (set_sroot (rt a) m1) a E0 EA1 eq_refl RA1 NEa (ordered_once _ OA)) as (a2 & y & b2 & c2 & m2 & Q2 & E2 & R2 & Rep2 & T2 & (K3 & K4)).
      { rewrite <- size_elems. rewrite EL, app_length in F. lia. }
      change (set_sroot (rt a) m1) with (set_sroot x m1) in E2. change (rt a) with x. rewrite E2. cbn [bind]. pose proof Rep2 as (Yp & Ya & YL & YR & RA2 & RB2). rewrite R2, set_sright_k by (lia || auto). cbn [bind].
      destruct (cut e a a2 y b2 c2 OA Q2) as (EL2 & D2).
      assert (LA : lower key (elems a) e). { intros v J. rewrite <- CE. apply AB; cbn; auto. }
      assert (b2 = SE).
      { apply elems_nil. destruct (elems b2) as [|v q]; [reflexivity|exfalso]. pose proof (LA y ltac:(rewrite EL2, in_app_iff; cbn; auto)) as Y1. pose proof (LA v ltac:(rewrite EL2, in_app_iff; cbn; auto)) as V1.
        destruct D2 as [D2|[(D2 & _)|(_ & _ & D2)]]; [lia|lia|]. specialize (D2 v ltac:(cbn; auto)). lia. }
      subst b2. cbn [elems] in EL2. assert (NB : forall v, (0 < cnt v (elems b))%nat -> cnt v (elems a) = 0%nat). { intros v J. specialize (ON v). rewrite cnt_app in ON. cbn [cnt] in ON. lia. }
      exists e, (updR y (rt b) m2), (SN a2 y b), (elems a ++ elems b). split; [reflexivity|]. split; [|split; [|split; [|split; [|contradiction]]]].
      * split; [exact R2|]. split; [|split; [cbn [elems]; rewrite EL2, <- app_assoc; reflexivity|exact OAB]].
        pose proof (ordered_once _ OA) as ONA. rewrite EL2 in ONA.
        cbn [rep]. unfold updR. cbn. rewrite upd_same. split; [auto|]. split; [auto|]. split; [auto|]. split; [auto|]. split.
        -- eapply rep_eqp; [|exact RA2]. intros v V0 J. assert (v <> y). { intros ->. specialize (ONA y). rewrite cnt_app in ONA. cbn [cnt] in ONA. rewrite Z.eqb_refl in ONA. lia. }
           repeat split; cbn; rewrite ?upd_other; auto.
        -- eapply rep_eqp; [|exact RB]. intros v V0 J. apply NB in J. destruct (K4 v V0 J) as (K5 & K6). cbn in K5, K6. assert (v <> y). { intros ->. rewrite EL2, cnt_app in J. cbn [cnt] in J. rewrite Z.eqb_refl in J. lia. }
           repeat split; cbn; rewrite ?upd_other; auto. apply (K3 v V0).
      * intros v V0. cbn. rewrite K3 by auto. apply K1; auto.
      * eapply cost_rem with (c := c) (c2 := c2); eauto; try lia. cbn. cbn in T2. lia.
      * intros a' v b' Q' K. destruct (OUT a' v b' Q' K) as (-> & ->). auto.
Qed.
Lemma next_ok x p s m t : st m t (p ++ x :: s) -> (length (p ++ x :: s) <= fuel)%nat ->
  exists m' a b c, splay_next cmp fuel x m = Ok (first s, m') /\ st m' (SN a x b) (p ++ x :: s) /\ elems a = p /\ elems b = s /\ spl (cmp x) t = (SN a x b, c) /\ ticks m' = (ticks m + c + spine b)%nat /\ same_alive m m'.
Proof.
  intros H F. unfold splay_next. pose proof (st_once _ _ _ H) as ON. pose proof H as (R0 & R & EL & O). assert (J : In x (elems t)) by (rewrite EL, in_app_iff; cbn; auto).
  destruct (rep_pos _ _ x R) as (X0 & XA); [apply cnt_in; auto|]. assert (NE : t <> SE) by (intros ->; destruct J).
  destruct (splay_ok cmp fuel x m t X0 XA R0 R NE ON) as (a & z & b & c & m1 & Q & E1 & R1 & Rep & T & (K1 & K2)); [rewrite (st_size _ _ _ H); auto|].
  rewrite E1. cbn [bind]. pose proof O as O'. rewrite <- EL in O'. pose proof (found x t a z b c x O' Q J eq_refl). revert R1. subst z. intros R1. pose proof (spl_elems _ _ _ _ _ _ Q) as EL1. rewrite EL in ON, EL1. 
  assert (ON' : once (elems a ++ x :: elems b)) by (rewrite EL1; exact ON). destruct (once_uniq x _ _ _ _ ON' EL1) as (<- & <-). pose proof Rep as (Zp & Za & ZL & ZR & RA & RB). rewrite sright_k by (lia || auto). cbn [bind]. rewrite ZR.
  destruct b as [|bl y br].
  - cbn. exists m1, a, SE, c. split; [reflexivity|]. split; [split; [exact R1|]; split; [exact Rep|]; split; [reflexivity|exact O]|]. cbn. repeat split; auto; lia.
  - set (b := SN bl y br) in *. assert (Y0 : 0 < y) by (subst b; cbn in RB; lia). change (rt b) with y. destruct (Z.eqb_spec y 0); [lia|]. cbn [negb]. rewrite ?sright_k by (lia || auto). cbn [bind]. rewrite ?ZR.
    destruct (sleftmost_ok b fuel m1 RB) as (m2 & E2 & (A1 & A2 & A3 & A4 & A5)); [subst b; discriminate|rewrite <- size_elems; rewrite app_length in F; cbn [length] in F; lia|].
    change (rt b) with y in *. rewrite E2. exists m2, a, b, c. split; [reflexivity|]. split; [split; [rewrite A1; exact R1|]; split; [|split; [reflexivity|exact O]]|].
    + eapply rep_eqp; [|exact Rep]. intros v V0 _. unfold eqat. rewrite A2, A3, A4. auto.
    + repeat split; auto. lia. intros v V0. rewrite A2. auto.
Qed.
Lemma walk_ok : forall s f x p m t, st m t (p ++ x :: s) -> (length (p ++ x :: s) <= fuel)%nat -> (length (x :: s) < f)%nat -> wt t <= W ->
  exists m' t' C, swalk cmp f fuel x m = Ok (x :: s, m') /\ st m' t' (p ++ x :: s) /\ same_alive m m' /\
    (ticks m' + 2 * snd (spl (cmp x) t) <= ticks m + 3 * C)%nat /\ p2 C * pot t' <= W ^ (3 * zlen (x :: s)) * pot t.
Proof.
  induction s as [|y s IH]; intros f x p m t H F Ff HW.
  - destruct f as [|f]; [lia|]. destruct (next_ok x p [] m t H F) as (m' & a & b & c & E & H' & EA & EB & Q & T & SA). cbn [swalk].
    assert (X0 : 0 < x). { destruct H' as (_ & Rep & _). apply (rep_root _ _ _ _ Rep). } destruct (Z.eqb_spec x 0); [lia|]. rewrite E. cbn [bind]. cbn in Ff. destruct f as [|f]; [lia|]. cbn [swalk first Z.eqb bind].
    exists m', (SN a x b), c. split; [reflexivity|]. split; [auto|]. split; [auto|]. rewrite Q. cbn [snd]. apply elems_nil in EB. subst b. cbn [spine] in T. split; [lia|].
    pose proof (splay_paid _ _ _ _ _ _ Q) as P. eapply Z.le_trans; [exact P|]. pose proof (wt_pos t). pose proof (pot_pos t). apply Z.mul_le_mono_nonneg_r; [lia|].
    change (3 * zlen [x]) with 3. apply cube_le. lia.
  - destruct f as [|f]; [lia|]. destruct (next_ok x p (y :: s) m t H F) as (m1 & a & b & c & E & H1 & EA & EB & Q & T & SA). cbn [swalk].
    assert (X0 : 0 < x). { destruct H1 as (_ & Rep & _). apply (rep_root _ _ _ _ Rep). } destruct (Z.eqb_spec x 0); [lia|]. rewrite E. cbn [bind first].
    assert (HL : p ++ x :: y :: s = (p ++ [x]) ++ y :: s) by (rewrite <- app_assoc; reflexivity). pose proof H1 as H1'. rewrite HL in H1, F.
    destruct (IH f y (p ++ [x]) m1 (SN a x b) H1 F) as (m' & t' & C & E2 & H2 & SA2 & T2 & P2); [cbn in Ff; cbn; lia|rewrite wt_node, (wt_spl _ _ _ _ _ _ Q); auto|].
    rewrite E2. cbn [bind]. exists m', t', (c + C)%nat. split; [reflexivity|]. split; [rewrite HL; exact H2|]. split; [intros v V0; rewrite SA2 by auto; apply SA; auto|]. rewrite Q. cbn [snd]. split.
    + assert (NEb : b <> SE) by (intros ->; discriminate). destruct H1' as (_ & _ & EL & O). pose proof O as O2. apply ordered_app' in O2. destruct O2 as (_ & (A1 & A2) & _).
      assert (PL : plen (cmp y) (SN a x b) = S (S (spine b))).
      { cbn [plen]. assert (XY : 0 < cmp y x) by (apply cmp_pos, A1; cbn; auto). destruct (Z.eqb_spec (cmp y x) 0); [lia|]. destruct (Z.ltb_spec (cmp y x) 0); [lia|].
        rewrite plen_spine; auto; rewrite EB; [apply mono_cmp; auto|]. cbn [first]. apply cmp_eq. reflexivity. }
      pose proof (plen_le (cmp y) (SN a x b)). lia.
    + pose proof (splay_paid _ _ _ _ _ _ Q) as P. pose proof (wt_pos t). pose proof (pot_pos t). pose proof (pot_pos t'). pose proof (p2_pos c). pose proof (p2_pos C). pose proof (cube_le W (wt t) ltac:(lia)) as G.
      rewrite p2_add. replace (3 * zlen (x :: y :: s)) with (3 * zlen (y :: s) + 3) by (cbn [length]; lia). rewrite Z.pow_add_r by lia.
      assert (W0 : 0 <= W ^ (3 * zlen (y :: s))) by (apply Z.pow_nonneg; lia).
      pose proof (Z.mul_le_mono_nonneg_l _ _ (p2 c) ltac:(lia) P2) as G1. pose proof (Z.mul_le_mono_nonneg_l _ _ (W ^ (3 * zlen (y :: s))) W0 P) as G2.
      assert (G3 : wt t * wt t * wt t * pot t <= W ^ 3 * pot t) by (apply Z.mul_le_mono_nonneg_r; lia). pose proof (Z.mul_le_mono_nonneg_l _ _ _ W0 G3) as G4. lia.
Qed.
Lemma each_ok m t l : st m t l -> wt t <= W -> (length l < fuel)%nat ->
  exists m' t', splay_foreach cmp fuel fuel m = Ok (l, m') /\ st m' t' l /\ same_alive m m' /\ cost W (3 + 3 * length l) m m' t t'.
Proof.
  intros H HW F. unfold splay_foreach. destruct (minmax_ok (-1) m t l H (or_introl eq_refl) HW ltac:(lia)) as (m1 & t1 & E & H1 & SA & (C & T & P)). rewrite E. cbn [bind]. change (-1 =? -1) with true. cbn [first].
  pose proof (wt_pos t). destruct l as [|x s].
  - cbn [first]. destruct fuel as [|f]; [cbn in F; lia|]. cbn. exists m1, t1. split; [reflexivity|]. split; [auto|]. split; [auto|]. exists C. auto.
  - cbn [first]. assert (W1 : wt t1 = wt t) by (unfold wt; rewrite (st_size _ _ _ H), (st_size _ _ _ H1); reflexivity).
    destruct (walk_ok s fuel x [] m1 t1 H1) as (m' & t' & C2 & E2 & H2 & SA2 & T2 & P2); [cbn in *; lia|auto|lia|]. rewrite E2. exists m', t'. split; [reflexivity|]. split; [auto|].
    split; [intros v V0; rewrite SA2 by auto; apply SA; auto|]. exists (C + C2)%nat. split; [lia|]. rewrite p2_add. rewrite Nat2Z.inj_add, Nat2Z.inj_mul, Z.pow_add_r by lia. change (Z.of_nat 3) with 3 in *.
    pose proof (p2_pos C). pose proof (p2_pos C2). pose proof (pot_pos t). pose proof (pot_pos t'). assert (W0 : 0 <= W ^ (3 * zlen (x :: s))) by (apply Z.pow_nonneg; lia).
    pose proof (Z.mul_le_mono_nonneg_l _ _ (p2 C) ltac:(lia) P2) as G1. pose proof (Z.mul_le_mono_nonneg_l _ _ _ W0 P) as G2. lia.
Qed.

Lemma cost_more k k' m m' t t' : 1 <= W -> (k <= k')%nat -> cost W k m m' t t' -> cost W k' m m' t t'.
Proof.
  intros HW Hk (C & T & P). exists C. split; [auto|]. eapply Z.le_trans; [exact P|]. apply Z.mul_le_mono_nonneg_r; [pose proof (pot_pos t); lia|]. apply pow_ge; auto.
Qed.
Lemma cost_trans k k' m m' m'' t t' t'' : 1 <= W -> cost W k m m' t t' -> cost W k' m' m'' t' t'' -> cost W (k + k') m m'' t t''.
Proof.
  intros HW (C & T & P) (C' & T' & P'). exists (C + C')%nat. split; [lia|]. rewrite p2_add, Nat2Z.inj_add, Z.pow_add_r by lia. pose proof (p2_pos C). assert (W0 : 0 <= W ^ Z.of_nat k') by (apply Z.pow_nonneg; lia).
  pose proof (Z.mul_le_mono_nonneg_l _ _ (p2 C) ltac:(lia) P') as G1. pose proof (Z.mul_le_mono_nonneg_l _ _ _ W0 P) as G2. lia.
Qed.
Definition step (o : sop) (r : list Z) (l' : list Z) (m : smem) (t : stree) : Prop :=
  exists m' t', do_splay cmp fuel o m = Ok (r, m') /\ st m' t' l' /\ same_alive m m' /\ (is_next o = false -> cost W (5 * access o r) m m' t t').
Lemma run_ok U : W = zlen U + 2 -> (length U < fuel)%nat -> forall ops rs l0 l, sturns key l0 ops rs l -> (forall o e, In o ops -> sop_elem o = Some e -> In e U) ->
  forall m t, st m t l0 -> (forall e, In e U -> 0 < e /\ alive m e = true) -> incl l0 U ->
  exists m' t', run_splay cmp fuel ops m = Ok (rs, m') /\ st m' t' l /\ same_alive m m' /\ incl l U /\ (forallb (fun o => negb (is_next o)) ops = true -> cost W (5 * accesses ops rs) m m' t t').
Proof.
  intros HW HF. set (G := fun (l0 : list Z) ops rs l => (forall o e, In o ops -> sop_elem o = Some e -> In e U) -> forall m t, st m t l0 -> (forall e, In e U -> 0 < e /\ alive m e = true) -> incl l0 U ->
    exists m' t', run_splay cmp fuel ops m = Ok (rs, m') /\ st m' t' l /\ same_alive m m' /\ incl l U /\ (forallb (fun o => negb (is_next o)) ops = true -> cost W (5 * accesses ops rs) m m' t t')).
  assert (SZ : forall m t l0, st m t l0 -> incl l0 U -> (length l0 <= length U)%nat /\ wt t + 1 <= W).
  { intros m t l0 H I. assert (length l0 <= length U)%nat. { apply NoDup_incl_length; auto. apply once_nodup. pose proof (st_once _ _ _ H). destruct H as (_ & _ & <- & _). auto. } split; [auto|]. unfold wt. rewrite (st_size _ _ _ H). lia. }
  assert (STEP : forall o ops r rs l0 l1 l, (forall m t, st m t l0 -> good o m -> incl l0 U -> step o r l1 m t) -> (incl l0 U -> (forall e, sop_elem o = Some e -> In e U) -> incl l1 U) -> G l1 ops rs l -> G l0 (o :: ops) (r :: rs) l).
  { intros o ops r rs l0 l1 l S1 I1 G1 OU m t H AL I. assert (GO : good o m). { unfold good. destruct (sop_elem o) as [e|] eqn:E; [|exact Logic.I]. apply AL. apply (OU o e); cbn; auto. }
    destruct (S1 m t H GO I) as (m1 & t1 & E1 & H1 & A1 & C1). destruct (G1 (fun o' e J => OU o' e (or_intror J)) m1 t1 H1) as (m2 & t2 & E2 & H2 & A2 & I2 & C2).
    - intros e J. destruct (AL e J). split; [auto|]. rewrite A1; auto.
    - apply I1; auto. intros e E. apply (OU o e); cbn; auto.
    - exists m2, t2. cbn [run_splay]. rewrite E1. cbn [bind]. rewrite E2. split; [reflexivity|]. split; [auto|]. split; [intros e P; rewrite A2, A1 by auto; reflexivity|]. split; [auto|].
      cbn [forallb accesses]. intros F. apply andb_prop in F. destruct F as (F1 & F2). replace (5 * (access o r + accesses ops rs))%nat with (5 * access o r + 5 * accesses ops rs)%nat by lia.
      eapply cost_trans; [lia|apply C1; destruct (is_next o); auto; discriminate|apply C2; auto]. }
  intros ops rs l0 l ST. change (G l0 ops rs l). induction ST as [l|a e b ops rs l La Hb ST IH|x e l ops rs l' J K ST IH|a x b e ops rs l K ST IH|l e ops rs l' N ST IH|x e l ops rs l' J K ST IH|l e ops rs l' N ST IH|a x b ops rs l ST IH|l ops rs l' ST IH|l ops rs l' ST IH|l ops rs l' ST IH].
  - intros _ m t H AL I. exists m, t. split; [reflexivity|]. split; [auto|]. split; [intros ? ?; auto|]. split; [auto|]. intros _. apply cost_none. lia.
  - eapply STEP; [| |exact IH].
    + intros m t H (E0 & EA) I. destruct (SZ _ _ _ H I) as (L1 & W1). destruct (insert_ok e m t _ H E0 EA W1 ltac:(lia)) as (x & m' & t' & l1 & E & H1 & A & C & _ & D & _). destruct (D a b eq_refl La Hb) as (-> & ->).
      exists m', t'. cbn [do_splay]. rewrite E. auto.
    + intros I EU y J. rewrite in_app_iff in J. destruct J as [J|[<- |J]]; [apply I; rewrite in_app_iff; auto|apply EU; reflexivity|apply I; rewrite in_app_iff; auto].
  - eapply STEP; [| |exact IH]; [|auto]. intros m t H (E0 & EA) I. destruct (SZ _ _ _ H I) as (L1 & W1). destruct (insert_ok e m t _ H E0 EA W1 ltac:(lia)) as (x' & m' & t' & l1 & E & H1 & A & C & D & _). destruct (D x J K) as (-> & ->).
    exists m', t'. cbn [do_splay]. rewrite E. auto.
  - eapply STEP; [| |exact IH].
    + intros m t H (E0 & EA) I. destruct (SZ _ _ _ H I) as (L1 & W1). destruct (remove_ok e m t _ H E0 EA ltac:(lia) ltac:(lia)) as (x' & m' & t' & l1 & E & H1 & A & C & D & _). destruct (D a x b eq_refl K) as (-> & ->).
      exists m', t'. cbn [do_splay]. rewrite E. auto.
    + intros I EU y J. rewrite in_app_iff in J. apply I. rewrite in_app_iff. cbn. tauto.
  - eapply STEP; [| |exact IH]; [|auto]. intros m t H (E0 & EA) I. destruct (SZ _ _ _ H I) as (L1 & W1). destruct (remove_ok e m t _ H E0 EA ltac:(lia) ltac:(lia)) as (x' & m' & t' & l1 & E & H1 & A & C & _ & D). destruct (D N) as (-> & ->).
    exists m', t'. cbn [do_splay]. rewrite E. auto.
  - eapply STEP; [| |exact IH]; [|auto]. intros m t H (E0 & EA) I. destruct (SZ _ _ _ H I) as (L1 & W1). destruct (find_ok e m t _ H E0 EA ltac:(lia) ltac:(lia)) as (x' & m' & t' & E & H1 & A & C & D & _). rewrite (D x J K) in E.
    exists m', t'. cbn [do_splay]. rewrite E. auto.
  - eapply STEP; [| |exact IH]; [|auto]. intros m t H (E0 & EA) I. destruct (SZ _ _ _ H I) as (L1 & W1). destruct (find_ok e m t _ H E0 EA ltac:(lia) ltac:(lia)) as (x' & m' & t' & E & H1 & A & C & _ & D). rewrite (D N) in E.
    exists m', t'. cbn [do_splay]. rewrite E. auto.
  - eapply STEP; [| |exact IH]; [|auto]. intros m t H (E0 & EA) I. destruct (SZ _ _ _ H I) as (L1 & W1). destruct (next_ok x a b m t H ltac:(lia)) as (m' & a' & b' & c & E & H1 & _ & _ & _ & _ & A).
    exists m', (SN a' x b'). cbn [do_splay]. rewrite E. split; [reflexivity|]. split; [auto|]. split; [auto|]. discriminate.
  - eapply STEP; [| |exact IH]; [|auto]. intros m t H _ I. destruct (SZ _ _ _ H I) as (L1 & W1). destruct (minmax_ok (-1) m t l H (or_introl eq_refl) ltac:(lia) ltac:(lia)) as (m' & t' & E & H1 & A & C).
    exists m', t'. cbn [do_splay]. rewrite E. split; [reflexivity|]. split; [auto|]. split; [auto|]. intros _. eapply cost_more; [lia| |exact C]. cbn [access]. lia.
  - eapply STEP; [| |exact IH]; [|auto]. intros m t H _ I. destruct (SZ _ _ _ H I) as (L1 & W1). destruct (minmax_ok 1 m t l H (or_intror eq_refl) ltac:(lia) ltac:(lia)) as (m' & t' & E & H1 & A & C).
    exists m', t'. cbn [do_splay]. rewrite E. split; [reflexivity|]. split; [auto|]. split; [auto|]. intros _. eapply cost_more; [lia| |exact C]. cbn [access]. lia.
  - eapply STEP; [| |exact IH]; [|auto]. intros m t H _ I. destruct (SZ _ _ _ H I) as (L1 & W1). destruct (each_ok m t l H ltac:(lia) ltac:(lia)) as (m' & t' & E & H1 & A & C).
    exists m', t'. cbn [do_splay]. split; [exact E|]. split; [auto|]. split; [auto|]. intros _. eapply cost_more; [lia| |exact C]. cbn [access]. lia.
Qed.
Lemma pot_le t : wt t <= W -> pot t <= W ^ Z.of_nat (size t).
Proof.
  induction t as [|l IHl x r IHr]; intros HW; [cbn; lia|]. cbn [pot size]. rewrite wt_node in HW. pose proof (wt_pos l). pose proof (wt_pos r). pose proof (pot_pos l). pose proof (pot_pos r).
  replace (Z.of_nat (S (size l + size r))) with (1 + (Z.of_nat (size l) + Z.of_nat (size r))) by lia. rewrite !Z.pow_add_r by lia. replace (W ^ 1) with W by ring. apply mul4; [lia|]. split; [nia|]. apply mul4; lia.
Qed.
Lemma cost_ticks k m m' t t' : 1 <= W -> wt t <= W -> cost W k m m' t t' -> Z.of_nat (ticks m') <= Z.of_nat (ticks m) + 3 * (Z.of_nat k + Z.of_nat (size t)) * Z.log2_up W.
Proof.
  intros HW1 HW (C & T & P). pose proof (pot_le t HW) as PL. pose proof (pot_pos t'). pose proof (pot_pos t). pose proof (p2_pos C).
  assert (B : p2 C <= 2 ^ (Z.log2_up W * (Z.of_nat k + Z.of_nat (size t)))).
  { apply Z.le_trans with (p2 C * pot t'); [nia|]. eapply Z.le_trans; [exact P|]. apply Z.le_trans with (W ^ (Z.of_nat k + Z.of_nat (size t))).
    - rewrite Z.pow_add_r by lia. apply Z.mul_le_mono_nonneg_l; [apply Z.pow_nonneg; lia|auto].
    - pose proof (Z.log2_up_nonneg W). rewrite Z.pow_mul_r by lia. apply Z.pow_le_mono_l. split; [lia|]. destruct (Z.eq_dec W 1) as [-> |]; [cbn; lia|]. apply Z.log2_up_spec. lia. }
  unfold p2 in B. pose proof (Z.log2_up_nonneg W). apply Z.pow_le_mono_r_iff in B; [|lia|nia]. nia.
Qed.
End Op.
End Run.
