(** C88: atomic addition and subtraction of floating-point numbers. *)
From Verif Require Import GenericModel.
From Coq Require Import Lia.
Local Open Scope Z_scope.

(** IEEE 754 binary formats with [eb] bits of exponent and [mb] of fraction: float is (8, 23), double (11, 52).
    Numbers are counted in units of the least positive one. *)
Definition mag (mb k : Z) : Z := if k / 2 ^ mb =? 0 then k mod 2 ^ mb else (2 ^ mb + k mod 2 ^ mb) * 2 ^ (k / 2 ^ mb - 1).
(** The number a bit pattern stands for; None for infinities and NaNs. *)
Definition num (eb mb bits : Z) : option Z :=
  let k := bits mod 2 ^ (eb + mb) in
  if k / 2 ^ mb =? 2 ^ eb - 1 then None else Some (if bits / 2 ^ (eb + mb) =? 0 then mag mb k else - mag mb k).
Definition finite (eb mb bits : Z) : Prop := exists v, num eb mb bits = Some v.

Definition slope (mb k : Z) : Z := 2 ^ (Z.max (k / 2 ^ mb) 1 - 1).
Lemma pow_pos n : 0 <= n -> 0 < 2 ^ n. Proof. intros. apply Z.pow_pos_nonneg; lia. Qed.
Lemma mag_next mb k : 0 < mb -> 0 <= k -> mag mb (k + 1) = mag mb k + slope mb k.
Proof.
  intros Hm Hk. pose proof (pow_pos mb). unfold mag, slope. set (m := 2 ^ mb) in *. assert (1 < m) by (unfold m; apply Z.pow_gt_1; lia).
  pose proof (Z.div_mod k m ltac:(lia)) as E. pose proof (Z.mod_pos_bound k m ltac:(lia)) as R. pose proof (Z.div_pos k m ltac:(lia) ltac:(lia)) as Q.
  set (e := k / m) in *. set (f := k mod m) in *. destruct (Z.eq_dec (f + 1) m) as [C|C].
  - assert ((k + 1) / m = e + 1) as -> by (symmetry; apply (Z.div_unique _ _ _ 0); lia). assert ((k + 1) mod m = 0) as -> by (symmetry; apply (Z.mod_unique _ _ (e + 1)); lia).
    destruct (Z.eqb_spec (e + 1) 0) as [|_]; [lia|]. destruct (Z.eqb_spec e 0) as [Z0|N].
    + rewrite Z0. change (2 ^ (0 + 1 - 1)) with 1. change (2 ^ (Z.max 0 1 - 1)) with 1. lia.
    + rewrite Z.max_l by lia. replace (e + 1 - 1) with (Z.succ (e - 1)) by lia. rewrite Z.pow_succ_r by lia. clear -C. nia.
  - assert ((k + 1) / m = e) as -> by (symmetry; apply (Z.div_unique _ _ _ (f + 1)); lia). assert ((k + 1) mod m = f + 1) as -> by (symmetry; apply (Z.mod_unique _ _ e); lia).
    destruct (Z.eqb_spec e 0) as [Z0|N].
    + rewrite Z0. change (2 ^ (Z.max 0 1 - 1)) with 1. lia.
    + rewrite Z.max_l by lia. lia.
Qed.
Lemma mag_0 mb : 0 < mb -> mag mb 0 = 0.
Proof. intros. pose proof (pow_pos mb). unfold mag. rewrite Z.div_0_l, Z.mod_0_l by lia. reflexivity. Qed.
Lemma slope_le mb a b : 0 < mb -> 0 <= a <= b -> slope mb a <= slope mb b.
Proof. intros. pose proof (pow_pos mb). unfold slope. apply Z.pow_le_mono_r; [lia|]. assert (a / 2 ^ mb <= b / 2 ^ mb) by (apply Z.div_le_mono; lia). lia. Qed.
Lemma slope_pos mb a : 0 < slope mb a. Proof. unfold slope. apply pow_pos. lia. Qed.
Lemma slope_low mb a : 0 < mb -> 0 <= a < 2 ^ (mb + 1) -> slope mb a = 1.
Proof.
  intros Hm Ha. pose proof (pow_pos mb). unfold slope. rewrite Z.pow_add_r in Ha by lia. assert (a / 2 ^ mb < 2) by (apply Z.div_lt_upper_bound; lia).
  rewrite Z.max_r by lia. reflexivity.
Qed.
Lemma slope_high mb a : 0 < mb -> 2 ^ (mb + 1) <= a -> 2 <= slope mb a.
Proof.
  intros Hm Ha. pose proof (pow_pos mb). unfold slope. rewrite Z.pow_add_r in Ha by lia. assert (2 <= a / 2 ^ mb) by (apply Z.div_le_lower_bound; lia).
  rewrite Z.max_l by lia. change 2 with (2 ^ 1) at 1. apply Z.pow_le_mono_r; lia.
Qed.
Lemma mag_grows mb a b : 0 < mb -> 0 <= a -> 0 <= b -> mag mb a <= mag mb (a + b) /\ (0 < b -> mag mb a < mag mb (a + b)).
Proof.
  intros Hm Ha. revert b. apply natlike_ind; [rewrite Z.add_0_r; lia|]. intros b Hb [IH _]. replace (a + Z.succ b) with (a + b + 1) by lia. rewrite mag_next by lia.
  pose proof (slope_pos mb (a + b)). lia.
Qed.
Lemma mag_nonneg mb a : 0 < mb -> 0 <= a -> 0 <= mag mb a.
Proof. intros. pose proof (mag_grows mb 0 a). rewrite mag_0 in * by lia. replace (0 + a) with a in * by lia. lia. Qed.
Lemma mag_pos mb a : 0 < mb -> 0 < a -> 0 < mag mb a.
Proof. intros. pose proof (mag_grows mb 0 a). rewrite mag_0 in * by lia. replace (0 + a) with a in * by lia. lia. Qed.
Lemma mag_inj mb a b : 0 < mb -> 0 <= a -> 0 <= b -> mag mb a = mag mb b -> a = b.
Proof.
  intros Hm Ha Hb E. destruct (Z.lt_trichotomy a b) as [C|[C|C]]; [|exact C|].
  - pose proof (mag_grows mb a (b - a)). replace (a + (b - a)) with b in * by lia. lia.
  - pose proof (mag_grows mb b (a - b)). replace (b + (a - b)) with a in * by lia. lia.
Qed.
(** Excess of the sum of patterns over the sum of numbers. *)
Lemma mag_super mb a : 0 < mb -> 0 <= a -> forall b, 0 <= b ->
  mag mb a + mag mb b <= mag mb (a + b) /\ (forall i, 0 <= i < b -> slope mb i < slope mb (a + i) -> mag mb a + mag mb b < mag mb (a + b)).
Proof.
  intros Hm Ha. apply (natlike_ind (fun b => mag mb a + mag mb b <= mag mb (a + b) /\ (forall i, 0 <= i < b -> slope mb i < slope mb (a + i) -> mag mb a + mag mb b < mag mb (a + b)))).
  - rewrite mag_0, !Z.add_0_r by lia. split; [lia|]. intros. lia.
  - intros b Hb [IH1 IH2]. replace (a + Z.succ b) with (a + b + 1) by lia. replace (Z.succ b) with (b + 1) by lia. rewrite !mag_next by lia.
    pose proof (slope_le mb b (a + b)). split; [lia|]. intros i Hi Hs. destruct (Z.eq_dec i b) as [->|]; [lia|]. specialize (IH2 i ltac:(lia) Hs). lia.
Qed.
Lemma mag_flat mb b : 0 < mb -> 0 <= b -> b <= 2 ^ (mb + 1) -> mag mb b = b.
Proof.
  intros Hm. revert b. apply (natlike_ind (fun b => b <= 2 ^ (mb + 1) -> mag mb b = b)); [intros; apply mag_0; lia|].
  intros b Hb IH H. replace (Z.succ b) with (b + 1) by lia. rewrite mag_next, slope_low, IH by lia. reflexivity.
Qed.
Lemma mag_add mb a b : 0 < mb -> 0 <= a -> 0 <= b -> (mag mb (a + b) = mag mb a + mag mb b <-> a = 0 \/ b = 0 \/ a + b <= 2 ^ (mb + 1)).
Proof.
  intros Hm Ha Hb. pose proof (pow_pos (mb + 1)). split.
  - intros E. destruct (Z.eq_dec a 0); [auto|]. destruct (Z.eq_dec b 0); [auto|]. destruct (Z_le_dec (a + b) (2 ^ (mb + 1))) as [|C]; [auto|]. exfalso.
    destruct (mag_super mb a Hm Ha b Hb) as [_ Q]. set (i := Z.min (b - 1) (2 ^ (mb + 1) - 1)).
    assert (slope mb i < slope mb (a + i)) as Hs.
    { rewrite slope_low by lia. pose proof (slope_high mb (a + i) Hm). lia. }
    specialize (Q i ltac:(lia) Hs). lia.
  - intros [-> |[-> |H']].
    + rewrite mag_0, !Z.add_0_l by lia. reflexivity.
    + rewrite mag_0, !Z.add_0_r by lia. reflexivity.
    + rewrite !mag_flat by lia. reflexivity.
Qed.

(** Finite numbers without sign bit. *)
Lemma num_pos eb mb x : 1 < eb -> 0 < mb -> 0 <= x < 2 ^ (eb + mb) -> num eb mb x = if x / 2 ^ mb =? 2 ^ eb - 1 then None else Some (mag mb x).
Proof. intros. unfold num. rewrite Z.mod_small, (Z.div_small x (2 ^ (eb + mb))) by lia. reflexivity. Qed.
Lemma num_neg eb mb x : 1 < eb -> 0 < mb -> 2 ^ (eb + mb) <= x < 2 ^ (1 + eb + mb) -> num eb mb x = None \/ exists k, 0 <= k /\ num eb mb x = Some (- mag mb k).
Proof.
  intros He Hm Hx. pose proof (pow_pos (eb + mb)). unfold num. destruct (_ =? 2 ^ eb - 1); [auto|]. right. exists (x mod 2 ^ (eb + mb)). split; [apply Z.mod_pos_bound; lia|].
  destruct (Z.eqb_spec (x / 2 ^ (eb + mb)) 0) as [Q|_]; [|reflexivity]. apply Z.div_small_iff in Q; lia.
Qed.
Lemma small_finite eb mb x : 1 < eb -> 0 < mb -> 0 <= x <= 2 ^ (mb + 1) -> x < 2 ^ (eb + mb) /\ num eb mb x = Some (mag mb x).
Proof.
  intros He Hm Hx. pose proof (pow_pos mb). assert (4 * 2 ^ mb <= 2 ^ (eb + mb)) by (rewrite Z.pow_add_r by lia; assert (2 ^ 2 <= 2 ^ eb) by (apply Z.pow_le_mono_r; lia); nia).
  rewrite Z.pow_add_r in Hx by lia. split; [lia|]. rewrite num_pos by lia. destruct (Z.eqb_spec (x / 2 ^ mb) (2 ^ eb - 1)) as [Q|_]; [|reflexivity].
  assert (x / 2 ^ mb < 3) by (apply Z.div_lt_upper_bound; lia). assert (2 ^ 2 <= 2 ^ eb) by (apply Z.pow_le_mono_r; lia). lia.
Qed.

(** Addition of two non-negative numbers gives their exact sum just when one is zero or the sum is at most twice the least normal number. *)
Theorem float_add_partial : forall eb mb x y a b, 1 < eb -> 0 < mb -> 0 <= x < 2 ^ (eb + mb) -> 0 <= y < 2 ^ (eb + mb) -> num eb mb x = Some a -> num eb mb y = Some b ->
  fst (f_fetch_add (1 + eb + mb) x y) = x /\
  (num eb mb (snd (f_fetch_add (1 + eb + mb) x y)) = Some (a + b) <-> x = 0 \/ y = 0 \/ x + y <= 2 ^ (mb + 1)).
Proof.
  intros eb mb x y a b He Hm Hx Hy Na Nb. split; [reflexivity|]. cbn [f_fetch_add snd].
  assert (T : 2 ^ (1 + eb + mb) = 2 * 2 ^ (eb + mb)) by (replace (1 + eb + mb) with (Z.succ (eb + mb)) by lia; rewrite Z.pow_succ_r; lia).
  rewrite (Z.mod_small (x + y)) by lia.
  assert (A : a = mag mb x). { rewrite num_pos in Na by lia. destruct (_ =? _); congruence. }
  assert (B : b = mag mb y). { rewrite num_pos in Nb by lia. destruct (_ =? _); congruence. }
  split.
  - intros E. destruct (Z.eq_dec x 0); [auto|]. destruct (Z.eq_dec y 0); [auto|].
    pose proof (mag_pos mb x Hm ltac:(lia)). pose proof (mag_pos mb y Hm ltac:(lia)).
    destruct (Z_lt_dec (x + y) (2 ^ (eb + mb))) as [C|C].
    + rewrite num_pos in E by lia. destruct (_ =? _); [discriminate|]. injection E as E. apply mag_add; try lia.
    + destruct (num_neg eb mb (x + y)) as [Q|(k & Hk & Q)]; try lia; rewrite Q in E; [discriminate|]. injection E as E. pose proof (mag_nonneg mb k). lia.
  - intros [-> |[-> |C]].
    + rewrite A, mag_0 by lia. exact Nb.
    + rewrite B, mag_0, !Z.add_0_r by lia. exact Na.
    + destruct (small_finite eb mb (x + y)) as [_ ->]; try lia. rewrite A, B. f_equal. apply mag_add; lia.
Qed.
(** Subtraction of the smaller of two non-negative numbers. *)
Theorem float_sub_partial : forall eb mb x y a b, 1 < eb -> 0 < mb -> 0 <= y <= x -> x < 2 ^ (eb + mb) -> num eb mb x = Some a -> num eb mb y = Some b ->
  fst (f_fetch_sub (1 + eb + mb) x y) = x /\
  (num eb mb (snd (f_fetch_sub (1 + eb + mb) x y)) = Some (a - b) <-> x = y \/ y = 0 \/ x <= 2 ^ (mb + 1)).
Proof.
  intros eb mb x y a b He Hm Hy Hx Na Nb. split; [reflexivity|]. cbn [f_fetch_sub snd]. pose proof (pow_pos mb).
  assert (T : 2 ^ (1 + eb + mb) = 2 * 2 ^ (eb + mb)) by (replace (1 + eb + mb) with (Z.succ (eb + mb)) by lia; rewrite Z.pow_succ_r; lia).
  rewrite (Z.mod_small (x - y)) by lia. rewrite num_pos in Na, Nb |- * by lia.
  destruct (Z.eqb_spec (x / 2 ^ mb) (2 ^ eb - 1)) as [|Fx]; [discriminate|]. destruct (Z.eqb_spec (y / 2 ^ mb) (2 ^ eb - 1)) as [|_]; [discriminate|].
  injection Na as <-. injection Nb as <-.
  assert (Fd : (x - y) / 2 ^ mb <> 2 ^ eb - 1).
  { assert ((x - y) / 2 ^ mb <= x / 2 ^ mb) by (apply Z.div_le_mono; lia). assert (x / 2 ^ mb < 2 ^ eb) by (apply Z.div_lt_upper_bound; [lia|]; rewrite Z.mul_comm, <- Z.pow_add_r by lia; lia). lia. }
  destruct (Z.eqb_spec ((x - y) / 2 ^ mb) (2 ^ eb - 1)) as [|_]; [lia|].
  pose proof (mag_add mb (x - y) y Hm ltac:(lia) ltac:(lia)) as M. replace (x - y + y) with x in M by lia. split.
  - intros E. injection E as E. assert (x - y = 0 \/ y = 0 \/ x <= 2 ^ (mb + 1)) by (apply M; lia). lia.
  - intros C. f_equal. enough (mag mb x = mag mb (x - y) + mag mb y) by lia. apply M. lia.
Qed.
(** A pattern with the sign bit. *)
Lemma num_minus eb mb x : 1 < eb -> 0 < mb -> 0 <= x < 2 ^ (eb + mb) -> num eb mb (2 ^ (eb + mb) + x) = if x / 2 ^ mb =? 2 ^ eb - 1 then None else Some (- mag mb x).
Proof.
  intros He Hm Hx. unfold num. assert ((2 ^ (eb + mb) + x) mod 2 ^ (eb + mb) = x) as -> by (symmetry; apply (Z.mod_unique _ _ 1); lia).
  assert ((2 ^ (eb + mb) + x) / 2 ^ (eb + mb) = 1) as -> by (symmetry; apply (Z.div_unique _ _ _ x); lia). reflexivity.
Qed.
(** Two negative numbers (or -0) are never added correctly, unless both are -0: the sign bits cancel. *)
Theorem float_add_negative : forall eb mb x y a b, 1 < eb -> 0 < mb -> 0 <= x < 2 ^ (eb + mb) -> 0 <= y < 2 ^ (eb + mb) ->
  num eb mb (2 ^ (eb + mb) + x) = Some a -> num eb mb (2 ^ (eb + mb) + y) = Some b ->
  (num eb mb (snd (f_fetch_add (1 + eb + mb) (2 ^ (eb + mb) + x) (2 ^ (eb + mb) + y))) = Some (a + b) <-> x = 0 /\ y = 0).
Proof.
  intros eb mb x y a b He Hm Hx Hy Na Nb. cbn [f_fetch_add snd].
  assert (T : 2 ^ (1 + eb + mb) = 2 * 2 ^ (eb + mb)) by (replace (1 + eb + mb) with (Z.succ (eb + mb)) by lia; rewrite Z.pow_succ_r; lia).
  assert ((2 ^ (eb + mb) + x + (2 ^ (eb + mb) + y)) mod 2 ^ (1 + eb + mb) = x + y) as -> by (symmetry; apply (Z.mod_unique _ _ 1); lia).
  rewrite num_minus in Na, Nb by lia. destruct (x / 2 ^ mb =? _); [discriminate|]. destruct (y / 2 ^ mb =? _); [discriminate|]. injection Na as <-. injection Nb as <-.
  pose proof (mag_nonneg mb x Hm ltac:(lia)). pose proof (mag_nonneg mb y Hm ltac:(lia)). split.
  - intros E. destruct (Z_lt_dec (x + y) (2 ^ (eb + mb))) as [C|C].
    + rewrite num_pos in E by lia. destruct (_ =? _); [discriminate|]. injection E as E. pose proof (mag_nonneg mb (x + y) Hm ltac:(lia)).
      destruct (Z.eq_dec x 0); [|pose proof (mag_pos mb x Hm ltac:(lia)); lia]. destruct (Z.eq_dec y 0); [auto|pose proof (mag_pos mb y Hm ltac:(lia)); lia].
    + exfalso. replace (x + y) with (2 ^ (eb + mb) + (x + y - 2 ^ (eb + mb))) in E by lia. rewrite num_minus in E by lia. destruct (_ =? _); [discriminate|]. injection E as E.
      set (z := x + y - 2 ^ (eb + mb)) in *. destruct (mag_grows mb z (x - z) Hm ltac:(lia) ltac:(lia)) as [_ Q]. replace (z + (x - z)) with x in Q by lia. specialize (Q ltac:(lia)). lia.
  - intros [-> ->]. assert (0 < 2 ^ (mb + 1)) by (apply pow_pos; lia). destruct (small_finite eb mb (0 + 0)) as [_ ->]; [lia|lia|lia|]. rewrite Z.add_0_l, mag_0 by lia. reflexivity.
Qed.
(** A non-negative and a negative number whose patterns add up without a carry into the sign: right just when the first one is 0. *)
Theorem float_add_signs_partial : forall eb mb x y a b, 1 < eb -> 0 < mb -> 0 <= x -> 0 <= y -> x + y < 2 ^ (eb + mb) ->
  num eb mb x = Some a -> num eb mb (2 ^ (eb + mb) + y) = Some b ->
  (num eb mb (snd (f_fetch_add (1 + eb + mb) x (2 ^ (eb + mb) + y))) = Some (a + b) <-> x = 0).
Proof.
  intros eb mb x y a b He Hm Hx Hy Hs Na Nb. cbn [f_fetch_add snd].
  assert (T : 2 ^ (1 + eb + mb) = 2 * 2 ^ (eb + mb)) by (replace (1 + eb + mb) with (Z.succ (eb + mb)) by lia; rewrite Z.pow_succ_r; lia).
  rewrite Z.mod_small by lia. replace (x + (2 ^ (eb + mb) + y)) with (2 ^ (eb + mb) + (x + y)) by lia. rewrite num_pos in Na by lia. destruct (x / 2 ^ mb =? _); [discriminate|]. injection Na as <-. split.
  - intros E. rewrite num_minus in E, Nb by lia. destruct (y / 2 ^ mb =? _); [discriminate|]. destruct (_ =? _); [discriminate|]. injection Nb as <-. injection E as E.
    destruct (mag_super mb x Hm Hx y Hy) as [Q _]. destruct (Z.eq_dec x 0); [assumption|]. pose proof (mag_pos mb x Hm ltac:(lia)). lia.
  - intros ->. rewrite mag_0, !Z.add_0_l by lia. exact Nb.
Qed.
(** x + (-x) is 0 for two numbers x only: 0 and the number with the pattern 2^(eb+mb-1), which is 2.0 in every IEEE format. *)
Theorem float_cancel_partial : forall eb mb x a, 1 < eb -> 0 < mb -> 0 <= x < 2 ^ (eb + mb) -> num eb mb x = Some a ->
  num eb mb (2 ^ (eb + mb) + x) = Some (- a) /\ (num eb mb (snd (f_fetch_add (1 + eb + mb) x (2 ^ (eb + mb) + x))) = Some 0 <-> x = 0 \/ x = 2 ^ (eb + mb - 1)).
Proof.
  intros eb mb x a He Hm Hx Na.
  assert (T : 2 ^ (1 + eb + mb) = 2 * 2 ^ (eb + mb)) by (replace (1 + eb + mb) with (Z.succ (eb + mb)) by lia; rewrite Z.pow_succ_r; lia).
  assert (H2 : 2 ^ (eb + mb) = 2 * 2 ^ (eb + mb - 1)) by (replace (eb + mb) with (Z.succ (eb + mb - 1)) at 1 by lia; rewrite Z.pow_succ_r; lia).
  assert (P : 0 < 2 ^ (eb + mb - 1)) by (apply pow_pos; lia).
  split. { rewrite num_minus by lia. rewrite num_pos in Na by lia. destruct (_ =? _); [discriminate|]. injection Na as <-. reflexivity. }
  cbn [f_fetch_add snd]. destruct (Z_lt_dec (x + x) (2 ^ (eb + mb))) as [C|C].
  - rewrite Z.mod_small by lia. replace (x + (2 ^ (eb + mb) + x)) with (2 ^ (eb + mb) + (x + x)) by lia. rewrite num_minus by lia. split.
    + destruct (_ =? _); [discriminate|]. intros E. injection E as E. left. destruct (Z.eq_dec x 0); [assumption|]. pose proof (mag_pos mb (x + x) Hm ltac:(lia)). lia.
    + intros [-> |Q]; [|lia]. destruct (small_finite eb mb 0 He Hm) as [_ Q]; [pose proof (pow_pos (mb + 1)); lia|]. rewrite num_pos in Q by lia. change (0 + 0) with 0. destruct (_ =? _); [discriminate|]. now rewrite mag_0 by lia.
  - assert ((x + (2 ^ (eb + mb) + x)) mod 2 ^ (1 + eb + mb) = x + x - 2 ^ (eb + mb)) as -> by (symmetry; apply (Z.mod_unique _ _ 1); lia). rewrite num_pos by lia. split.
    + destruct (_ =? _); [discriminate|]. intros E. injection E as E. right. destruct (Z.eq_dec (x + x - 2 ^ (eb + mb)) 0); [lia|]. pose proof (mag_pos mb (x + x - 2 ^ (eb + mb)) Hm ltac:(lia)). lia.
    + intros [-> |Q]; [lia|]. replace (x + x - 2 ^ (eb + mb)) with 0 by lia. destruct (small_finite eb mb 0 He Hm) as [_ Q']; [pose proof (pow_pos (mb + 1)); lia|]. rewrite num_pos in Q' by lia. destruct (_ =? _); [discriminate|]. now rewrite mag_0 by lia.
Qed.
(** float: -1 + -3 has the wrong sign; 1 + -3 is not -2; 2 + -2 is 0 but 1 + -1 is not. *)
Example float_signs_met : let minus := 2 ^ 31 in
  num 8 23 (snd (f_fetch_add 32 (minus + 1065353216) (minus + 1077936128))) <> Some (- 2 ^ 149 - 3 * 2 ^ 149) /\
  num 8 23 (snd (f_fetch_add 32 1065353216 (minus + 1077936128))) <> Some (2 ^ 149 - 3 * 2 ^ 149) /\
  num 8 23 (snd (f_fetch_add 32 1073741824 (minus + 1073741824))) = Some 0 /\ num 8 23 (snd (f_fetch_add 32 1065353216 (minus + 1065353216))) <> Some 0.
Proof.
  cbv zeta. split; [|split; [|split]].
  - pose proof (float_add_negative 8 23 1065353216 1077936128 (- 2 ^ 149) (- (3 * 2 ^ 149)) ltac:(lia) ltac:(lia) ltac:(lia) ltac:(lia) eq_refl eq_refl) as Q. change (1 + 8 + 23) with 32 in Q. change (8 + 23) with 31 in Q. intros E. apply Q in E. lia.
  - vm_compute. discriminate.
  - apply (float_cancel_partial 8 23 1073741824 (2 ^ 150)); [lia|lia|lia|reflexivity|right; reflexivity].
  - intros E. apply (float_cancel_partial 8 23 1065353216 (2 ^ 149)) in E; [|lia|lia|lia|reflexivity]. destruct E as [E|E]; vm_compute in E; discriminate.
Qed.
Example float_add_signs_met := float_add_signs_partial 8 23 5 1000 5 (-1000) ltac:(lia) ltac:(lia) ltac:(lia) ltac:(lia) ltac:(lia) eq_refl eq_refl.
(** Compare and exchange succeeds on equal patterns, for finite numbers not both zero on equal numbers. *)
Theorem float_cas_values : forall eb mb dst expected desired a b, 1 < eb -> 0 < mb -> 0 <= dst < 2 ^ (1 + eb + mb) -> 0 <= expected < 2 ^ (1 + eb + mb) ->
  num eb mb dst = Some a -> num eb mb expected = Some b -> a <> 0 \/ b <> 0 ->
  f_cas dst expected desired = if a =? b then (true, desired, expected) else (false, dst, dst).
Proof.
  intros eb mb dst ex d a b He Hm Hd Hx Na Nb Z0. unfold f_cas. destruct (Z.eqb_spec dst ex) as [->|N].
  { replace b with a by congruence. rewrite Z.eqb_refl. reflexivity. }
  destruct (Z.eqb_spec a b) as [->|]; [|reflexivity]. exfalso. apply N. unfold num in Na, Nb. pose proof (pow_pos (eb + mb)).
  assert (T : 2 ^ (1 + eb + mb) = 2 * 2 ^ (eb + mb)) by (replace (1 + eb + mb) with (Z.succ (eb + mb)) by lia; rewrite Z.pow_succ_r; lia).
  rewrite T in *. set (m := 2 ^ (eb + mb)) in *.
  destruct (_ =? 2 ^ eb - 1) in Na; [discriminate|]. destruct (_ =? 2 ^ eb - 1) in Nb; [discriminate|]. injection Na as Na. injection Nb as Nb.
  pose proof (Z.div_mod dst m ltac:(lia)) as E1. pose proof (Z.div_mod ex m ltac:(lia)) as E2.
  pose proof (Z.mod_pos_bound dst m ltac:(lia)). pose proof (Z.mod_pos_bound ex m ltac:(lia)).
  pose proof (mag_nonneg mb (dst mod m) Hm ltac:(lia)). pose proof (mag_nonneg mb (ex mod m) Hm ltac:(lia)).
  assert (0 <= dst / m < 2) by (split; [apply Z.div_pos; lia|apply Z.div_lt_upper_bound; lia]).
  assert (0 <= ex / m < 2) by (split; [apply Z.div_pos; lia|apply Z.div_lt_upper_bound; lia]).
  destruct (Z.eqb_spec (dst / m) 0) as [C1|C1]; destruct (Z.eqb_spec (ex / m) 0) as [C2|C2]; try lia.
  - assert (dst mod m = ex mod m) by (apply (mag_inj mb); lia). lia.
  - assert (dst mod m = ex mod m) by (apply (mag_inj mb); lia). assert (dst / m = ex / m) by lia. nia.
Qed.

(** The property: the number stored is the sum, whenever that is a number of the format.  1.0f + 1.0f. *)
Theorem float_add_f32_refuted : exists x y s, num 8 23 x = Some (2 ^ 149) /\ num 8 23 y = Some (2 ^ 149) /\ num 8 23 s = Some (2 ^ 149 + 2 ^ 149) /\
  num 8 23 (snd (f_fetch_add 32 x y)) = Some (2 ^ 276).
Proof. exists 1065353216, 1065353216, 1073741824. repeat split; vm_compute; reflexivity. Qed.
(** 1.0 + 1.0 in double. *)
Theorem float_add_f64_refuted : exists x y s, num 11 52 x = Some (2 ^ 1074) /\ num 11 52 y = Some (2 ^ 1074) /\ num 11 52 s = Some (2 ^ 1074 + 2 ^ 1074) /\
  num 11 52 (snd (f_fetch_add 64 x y)) = Some (2 ^ 2097).
Proof. exists 4607182418800017408, 4607182418800017408, 4611686018427387904. repeat split; vm_compute; reflexivity. Qed.
(** 3.0f - 1.0f is not 2.0f, 1.0f + -1.0f is not 0, 1.0f - 2.0f is no number. *)
Theorem float_sub_f32_refuted : exists three one minus_one two,
  num 8 23 three = Some (3 * 2 ^ 149) /\ num 8 23 one = Some (2 ^ 149) /\ num 8 23 minus_one = Some (- 2 ^ 149) /\ num 8 23 two = Some (2 * 2 ^ 149) /\
  num 8 23 (snd (f_fetch_sub 32 three one)) = Some (3 * 2 ^ 22) /\
  num 8 23 (snd (f_fetch_add 32 one minus_one)) = Some (- 2 ^ 276) /\
  num 8 23 (snd (f_fetch_sub 32 one two)) = None.
Proof. exists 1077936128, 1065353216, 3212836864, 1073741824. repeat split; vm_compute; reflexivity. Qed.
(** Two zeros are equal numbers, yet compare and exchange fails. *)
Theorem float_cas_zero_refuted : exists minus_zero, num 8 23 minus_zero = num 8 23 0 /\ f_cas minus_zero 0 1 = (false, minus_zero, minus_zero).
Proof. exists 2147483648. split; vm_compute; reflexivity. Qed.

(** Hypotheses are met: the largest subnormal float and the least positive one; 1.0f compared with 2.0f. *)
Example float_add_case : num 8 23 8388607 = Some 8388607 /\ num 8 23 1 = Some 1 /\ 8388607 + 1 <= 2 ^ 24 /\ num 8 23 (snd (f_fetch_add 32 8388607 1)) = Some 8388608.
Proof. repeat split; try lia; vm_compute; reflexivity. Qed.
Example float_cas_case : num 8 23 1065353216 = Some (2 ^ 149) /\ num 8 23 1073741824 = Some (2 ^ 150) /\ f_cas 1065353216 1073741824 7 = (false, 1065353216, 1065353216).
Proof. repeat split; vm_compute; reflexivity. Qed.

Print Assumptions float_add_partial.
Print Assumptions float_sub_partial.
Print Assumptions float_cas_values.
Print Assumptions float_add_f32_refuted.
Print Assumptions float_add_f64_refuted.
Print Assumptions float_sub_f32_refuted.
Print Assumptions float_cas_zero_refuted.
Print Assumptions float_add_negative.
Print Assumptions float_add_signs_partial.
Print Assumptions float_cancel_partial.
