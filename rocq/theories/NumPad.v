(** Proofs about the zero-padded printer utoap of src/swar.c 565-601. *)
From Verif Require Export NumParse.
Open Scope Z_scope.

(** the last [k] decimal digits of [x] *)
Fixpoint pad (k : nat) (x : Z) : list Z :=
  match k with
  | O => []
  | Datatypes.S k' => pad k' (x / 10) ++ [48 + x mod 10]
  end.
Lemma pad_length k : forall x, length (pad k x) = k.
Proof. induction k; intros; cbn [pad]; auto. rewrite app_length, IHk. cbn [length]. lia. Qed.
Lemma pad_digits k : forall x, Forall is_digit (pad k x).
Proof. induction k; intros; cbn [pad]; auto. apply Forall_app. split; auto. constructor; auto. unfold is_digit. lia. Qed.
Lemma pad_value k : forall x, 0 <= x -> dec_value (pad k x) = x mod 10 ^ Z.of_nat k.
Proof.
  induction k; intros; cbn [pad]. { cbn. rewrite Z.mod_1_r. reflexivity. }
  rewrite dec_value_app, dec_value_one, IHk by lia. change (10 ^ zlen [48 + x mod 10]) with 10.
  rewrite Nat2Z.inj_succ, Z.pow_succ_r by lia.
  assert (0 < 10 ^ Z.of_nat k) by (apply Z.pow_pos_nonneg; lia).
  rewrite Z.rem_mul_r by lia. lia.
Qed.
Lemma pad_app j : forall k x, 0 <= x -> pad (k + j) x = pad k (x / 10 ^ Z.of_nat j) ++ pad j x.
Proof.
  induction j; intros k x Hx. { rewrite Nat.add_0_r. cbn [pad Z.of_nat]. rewrite Z.pow_0_r, Z.div_1_r, app_nil_r. reflexivity. }
  rewrite Nat.add_succ_r. cbn [pad]. rewrite IHj by lia. rewrite <- app_assoc. f_equal. f_equal.
  rewrite Nat2Z.inj_succ, Z.pow_succ_r by lia. rewrite Z.div_div; [reflexivity|lia|apply Z.pow_pos_nonneg; lia].
Qed.
Lemma pad_2 x : pad 2 x = dig2 (x mod 100).
Proof. unfold dig2. cbn [pad app]. f_equal; [|f_equal]; lia. Qed.

Lemma utoap_loop_ok S N : forall k fuel i x acc,
  bytes acc -> 0 <= x -> (length acc + 2 * k <= 8)%nat -> (k < fuel)%nat ->
  i + 2 * Z.of_nat k = N - 2 \/ i + 2 * Z.of_nat k = N - 1 \/ (k = 0%nat /\ N - 2 <= i) ->
  utoap_loop fuel S N i x (le acc) = Ok (x / 100 ^ Z.of_nat k, le (pad (2 * k) (x / 100) ++ acc)).
Proof.
  induction k; intros fuel i x acc Hb Hx Hl Hf Hi; (destruct fuel as [|fuel]; [lia|]); cbn [utoap_loop].
  - destruct (Z.ltb_spec i (N - 2)); [lia|]. cbn [Z.of_nat pad Nat.mul app]. rewrite Z.pow_0_r, Z.div_1_r. reflexivity.
  - destruct (Z.ltb_spec i (N - 2)); [|lia].
    pose proof (push_pair S acc ((x / 100) mod 100) Hb ltac:(lia) ltac:(lia)) as Hp.
    destruct (shl64 S (le acc) 16) as [t| | |]; cbn [bind] in *; try discriminate.
    destruct (utoa2p ((x / 100) mod 100)) as [d| | |]; cbn [bind] in *; try discriminate.
    apply Ok_inj in Hp. rewrite Hp. rewrite <- pad_2. rewrite IHk; try lia.
    + rewrite app_assoc. rewrite Nat2Z.inj_succ, Z.pow_succ_r by lia.
      rewrite Z.div_div; [|lia|apply Z.pow_pos_nonneg; lia]. f_equal. f_equal.
      replace (2 * Datatypes.S k)%nat with (2 * k + 2)%nat by lia. rewrite (pad_app 2) by lia. reflexivity.
    + apply bytes_app. split; auto. apply digits_bytes, pad_digits.
    + rewrite app_length, pad_length. lia.
Qed.

(** number of loop iterations of _utoap *)
Definition steps (N : Z) : Z := if N <=? 2 then 0 else (N - 1) / 2.

Lemma utoap__ok S N x s o : 0 <= N <= 8 -> 0 <= x -> 0 <= o -> o + 8 <= zlen s ->
  exists s', utoap_ S N x s o = Ok (x / 100 ^ steps N, s') /\ length s' = length s /\
    (forall k, 0 <= k < N -> at_ s' (o + k) = at_ (pad (Z.to_nat N) x) k) /\
    (forall k, 0 <= k < zlen s -> ~ o <= k < o + 8 -> at_ s' k = at_ s k).
Proof.
  intros HN Hx Ho Hs. unfold utoap_. rewrite utoa2p_ok by lia. cbn [bind]. rewrite <- pad_2.
  assert (Hst : 0 <= steps N <= 3) by (unfold steps; destruct (Z.leb_spec N 2); lia).
  rewrite (utoap_loop_ok S N (Z.to_nat (steps N))); auto; try lia.
  2:{ apply digits_bytes, pad_digits. }
  2:{ rewrite pad_length. lia. }
  2:{ unfold steps. destruct (Z.leb_spec N 2). right; right. lia. rewrite Z2Nat.id by lia. lia. }
  cbn [bind]. rewrite Z2Nat.id by lia.
  set (st := Z.to_nat (steps N)).
  assert (E : pad (2 * st) (x / 100) ++ pad 2 x = pad (2 * st + 2) x) by (rewrite (pad_app 2) by lia; reflexivity).
  rewrite E.
  assert (EX : exists t, shr64 S (le (pad (2 * st + 2) x)) (Z.land N 1 * 8) = Ok (le t) /\ bytes t /\ (length t <= 8)%nat /\
     forall k, 0 <= k < N -> at_ t k = at_ (pad (Z.to_nat N) x) k).
  { assert (L1 : Z.land N 1 = N mod 2) by (change 1 with (Z.ones 1); rewrite Z.land_ones by lia; reflexivity).
    destruct (Z.eq_dec (N mod 2) 0) as [Ev|Od].
    - exists (pad (2 * st + 2) x). rewrite L1, Ev, Z.mul_0_l, shr64_ok, Z.pow_0_r, Z.div_1_r by lia. split; [reflexivity|].
      split. apply digits_bytes, pad_digits. rewrite pad_length. split; [lia|]. intros k Hk.
      replace (Z.to_nat N) with (2 * st + 2)%nat; [reflexivity|]. unfold st, steps. destruct (Z.leb_spec N 2); lia.
    - assert (E1 : N mod 2 = 1) by lia. exists (pad (2 * st + 1) x).
      rewrite L1, E1, shr64_ok by lia. replace (2 * st + 2)%nat with (1 + (2 * st + 1))%nat by lia.
      rewrite pad_app by lia. change (2 ^ (1 * 8)) with (256 ^ 1). 
      replace 1 with (zlen (pad 1 (x / 10 ^ Z.of_nat (2 * st + 1)))) at 3 by (rewrite pad_length; reflexivity).
      rewrite le_div by (apply digits_bytes, pad_digits). split; [reflexivity|].
      split. apply digits_bytes, pad_digits. rewrite pad_length. split; [lia|]. intros k Hk.
      replace (Z.to_nat N) with (2 * st + 1)%nat; [reflexivity|]. unfold st, steps. destruct (Z.leb_spec N 2); lia. }
  destruct EX as (t & -> & Hbt & Hlt & Hat). cbn [bind].
  destruct (Z_lt_dec (zlen t) N) as [Hsh|Hge].
  { (* impossible except through pad lengths *)
    exfalso. assert (Hn : at_ t (zlen t) = 0) by (unfold at_; rewrite Nat2Z.id; apply nth_overflow; lia).
    rewrite Hat in Hn by lia.
    assert (is_digit (at_ (pad (Z.to_nat N) x) (zlen t))).
    { apply (proj1 (Forall_forall _ _) (pad_digits (Z.to_nat N) x)). apply nth_In. rewrite pad_length. lia. }
    unfold is_digit in H. lia. }
  rewrite to_le_pad by auto.
  set (w := t ++ repeat 0 (8 - length t)).
  assert (Lw : zlen w = 8) by (unfold w; rewrite app_length, repeat_length; lia).
  destruct (blit s o w) as [s'| | |] eqn:B; try (rewrite blit_ok in B by lia; discriminate).
  cbn [bind]. exists s'. split; [reflexivity|]. pose proof (blit_length _ _ _ _ B). split; [auto|].
  split.
  - intros k Hk. rewrite (blit_at _ _ _ _ _ B) by lia. rewrite Lw.
    destruct (Z.leb_spec o (o + k)); [|lia]. destruct (Z.ltb_spec (o + k) (o + 8)); [|lia]. cbn [andb].
    unfold w. rewrite at_app_l by lia. rewrite <- Hat by lia. f_equal. lia.
  - intros k Hk Hn. rewrite (blit_at _ _ _ _ _ B) by lia. rewrite Lw.
    destruct (Z.leb_spec o k); destruct (Z.ltb_spec k (o + 8)); cbn [andb]; try lia; reflexivity.
Qed.

Lemma steps_div N x : 1 <= N <= 8 -> 0 <= x ->
  x / 100 ^ steps N / (if Z.land N 1 =? 1 then 10 else 100) = x / 10 ^ N.
Proof.
  intros. assert (L1 : Z.land N 1 = N mod 2) by (change 1 with (Z.ones 1); rewrite Z.land_ones by lia; reflexivity).
  rewrite L1. assert (C : N = 1 \/ N = 2 \/ N = 3 \/ N = 4 \/ N = 5 \/ N = 6 \/ N = 7 \/ N = 8) by lia.
  destruct C as [->|[->|[->|[->|[->|[->|[->| ->]]]]]]]; rewrite Z.div_div by (try apply Z.pow_nonzero; vm_compute; congruence); reflexivity.
Qed.

Lemma pad_at_low j k x i : 0 <= x -> 0 <= i < Z.of_nat k -> at_ (pad (k + j) x) i = at_ (pad k (x / 10 ^ Z.of_nat j)) i.
Proof. intros. rewrite pad_app by lia. apply at_app_l. rewrite pad_length. lia. Qed.
Lemma pad_at_high j k x i : 0 <= x -> Z.of_nat k <= i < Z.of_nat (k + j) -> at_ (pad (k + j) x) i = at_ (pad j x) (i - Z.of_nat k).
Proof. intros. rewrite pad_app by lia. rewrite at_app_r by (rewrite pad_length; lia). rewrite pad_length. reflexivity. Qed.

Ltac Zify.zify_post_hook ::= idtac.
Lemma utoap_ok S N x s : 0 <= N <= 20 -> 0 <= x -> 24 <= zlen s ->
  exists s', utoap S N x s = Ok s' /\ length s' = length s /\ holds_cstr s' 0 (pad (Z.to_nat N) x) /\
    (forall k, 24 <= k < zlen s -> item s' k = item s k).
Proof.
  intros HN Hx Hs. unfold utoap.
  match goal with |- exists s', bind ?e _ = _ /\ _ => assert (EX : exists s1, e = Ok s1 /\ length s1 = length s /\
     (forall k, 0 <= k < N -> at_ s1 k = at_ (pad (Z.to_nat N) x) k) /\ (forall k, 24 <= k < zlen s -> at_ s1 k = at_ s k)) end.
  { assert (P : forall n, 0 <= n -> 0 < 10 ^ n) by (intros; apply Z.pow_pos_nonneg; lia).
    assert (L8 : Z.land (N - 8) 1 = Z.land N 1 /\ Z.land (N - 16) 1 = Z.land N 1).
    { change 1 with (Z.ones 1). rewrite !Z.land_ones by lia. change (2 ^ 1) with 2. clear. Z.div_mod_to_equations. lia. }
    destruct L8 as [L8 L16].
    destruct (Z.leb_spec N 8); [|destruct (Z.leb_spec N 16)].
    - destruct (utoap__ok S N x s 0) as (s1 & E & L & A & B); try lia. rewrite E. cbn [bind].
      exists s1. split; auto. split; auto. split. { intros. rewrite <- A by lia. f_equal. } intros; apply B; lia.
    - destruct (utoap__ok S (N - 8) x s 8) as (s1 & E & L & A & B); try lia. rewrite E. cbn [bind].
      rewrite <- L8, steps_div by lia.
      assert (Hy : 0 <= x / 10 ^ (N - 8)) by (apply Z.div_pos; [exact Hx|apply P; lia]).
      destruct (utoap__ok S 8 (x / 10 ^ (N - 8)) s1 0 ltac:(clear; lia) Hy ltac:(clear; lia) ltac:(clear - L Hs; lia)) as (s2 & E2 & L2 & A2 & B2).
      rewrite E2. cbn [bind]. exists s2. split; auto. split; [congruence|]. split.
      + intros k Hk. clear E E2 Hy. assert (EN : (Z.to_nat N = 8 + Z.to_nat (N - 8))%nat) by lia. rewrite EN. destruct (Z_lt_dec k 8).
        * rewrite pad_at_low by lia. rewrite Z2Nat.id by lia. change 8%nat with (Z.to_nat 8).
          rewrite <- A2 by lia. f_equal.
        * rewrite pad_at_high by lia. change (Z.of_nat 8) with 8. rewrite <- A by lia. rewrite B2 by lia. f_equal. lia.
      + intros k Hk. clear E E2 Hy. rewrite B2, B by lia. reflexivity.
    - destruct (utoap__ok S (N - 16) x s 16) as (s1 & E & L & A & B); try lia. rewrite E. cbn [bind].
      rewrite <- L16, steps_div by lia.
      assert (Hy : 0 <= x / 10 ^ (N - 16)) by (apply Z.div_pos; [exact Hx|apply P; lia]).
      destruct (utoap__ok S 8 (x / 10 ^ (N - 16)) s1 8 ltac:(clear; lia) Hy ltac:(clear; lia) ltac:(clear - L Hs; lia)) as (s2 & E2 & L2 & A2 & B2).
      rewrite E2. cbn [bind].
      assert (EZ : x / 10 ^ (N - 16) / 100 ^ steps 8 / 100 = x / 10 ^ (N - 16) / 10 ^ 8).
      { generalize (x / 10 ^ (N - 16)). clear. intros z. change (100 ^ steps 8) with 1000000. change (10 ^ 8) with 100000000.
        rewrite Z.div_div by lia. reflexivity. }
      rewrite EZ. clear EZ.
      assert (Hz : 0 <= x / 10 ^ (N - 16) / 10 ^ 8) by (apply Z.div_pos; [exact Hy|reflexivity]).
      destruct (utoap__ok S 8 (x / 10 ^ (N - 16) / 10 ^ 8) s2 0 ltac:(clear; lia) Hz ltac:(clear; lia) ltac:(clear - L L2 Hs; lia)) as (s3 & E3 & L3 & A3 & B3).
      rewrite E3. cbn [bind]. exists s3. split; auto. split; [congruence|]. split.
      + intros k Hk. clear E E2 E3 Hz. assert (EN : (Z.to_nat N = (8 + 8) + Z.to_nat (N - 16))%nat) by lia. rewrite EN. destruct (Z_lt_dec k 16).
        * rewrite pad_at_low by lia. rewrite Z2Nat.id by lia. destruct (Z_lt_dec k 8).
          -- rewrite (pad_at_low 8 8 _ _ Hy) by (clear - l0 Hk; lia). change (Z.of_nat 8) with 8. change 8%nat with (Z.to_nat 8).
             rewrite <- A3 by lia. f_equal.
          -- rewrite (pad_at_high 8 8 _ _ Hy) by (clear - l n Hk; lia). change (Z.of_nat 8) with 8. change 8%nat with (Z.to_nat 8).
             rewrite <- A2 by lia. rewrite B3 by lia. f_equal. lia.
        * rewrite pad_at_high by lia. change (Z.of_nat (8 + 8)) with 16. rewrite <- A by lia. rewrite B3, B2 by lia. f_equal. lia.
      + intros k Hk. clear E E2 E3 Hz. rewrite B3, B2, B by lia. reflexivity. }
  destruct EX as (s1 & -> & L & A & B). cbn [bind].
  destruct (blit s1 N [0]) as [s'| | |] eqn:E; try (rewrite blit_ok in E by (cbn [length]; lia); discriminate).
  exists s'. pose proof (blit_length _ _ _ _ E) as L2. split; auto. split; [congruence|].
  assert (L0 : zlen [0] = 1) by reflexivity.
  split.
  - apply holds_cstr_at; rewrite ?pad_length; try lia.
    + intros k Hk. rewrite Z.add_0_l. rewrite (blit_at _ _ _ _ _ E) by lia. destruct (Z.leb_spec N k); [lia|]. cbn [andb]. apply A. lia.
    + rewrite (blit_at _ _ _ _ _ E) by lia. rewrite L0. rewrite Z2Nat.id by lia.
      destruct (Z.leb_spec N (0 + N)); [|lia]. destruct (Z.ltb_spec (0 + N) (N + 1)); [|lia]. cbn [andb].
      replace (0 + N - N) with 0 by lia. reflexivity.
  - intros k Hk. change (at_ s' k = at_ s k). rewrite (blit_at _ _ _ _ _ E) by lia. rewrite L0.
    destruct (Z.ltb_spec k (N + 1)); [lia|]. rewrite andb_false_r. apply B. lia.
Qed.
Ltac Zify.zify_post_hook ::= Z.div_mod_to_equations.
