(** Proofs about the parsers of src/swar.c (atou8, simd_atou, simd_atoi,
    htou8, simd_htou) and the zero-padded printers (utoap). *)
From Verif Require Export NumProofs.
Open Scope Z_scope.

(** ** splitting a bitwise and at a bit position *)
Lemma testbit_cat k a A n : 0 <= k -> 0 <= a < 2 ^ k -> 0 <= n ->
  Z.testbit (a + 2 ^ k * A) n = if n <? k then Z.testbit a n else Z.testbit A (n - k).
Proof.
  intros Hk Ha Hn. replace (a + 2 ^ k * A) with (Z.lor (Z.shiftl A k) a).
  - rewrite Z.lor_spec. destruct (Z.ltb_spec n k).
    + rewrite Z.shiftl_spec_low by lia. reflexivity.
    + rewrite Z.shiftl_spec_high by lia.
      assert (E : Z.testbit a n = false).
      { destruct (Z.eq_dec a 0) as [->|]; [apply Z.testbit_0_l|].
        apply Z.bits_above_log2; [lia|]. apply Z.log2_lt_pow2; [lia|].
        apply Z.lt_le_trans with (2 ^ k); [lia|]. apply Z.pow_le_mono_r; lia. }
      rewrite E. apply orb_false_r.
  - assert (E : Z.land (Z.shiftl A k) a = 0).
    { apply Z.bits_inj'. intros m Hm. rewrite Z.land_spec, Z.bits_0. destruct (Z_lt_dec m k).
      - rewrite Z.shiftl_spec_low by lia. reflexivity.
      - assert (F : Z.testbit a m = false).
        { destruct (Z.eq_dec a 0) as [->|]; [apply Z.testbit_0_l|].
          apply Z.bits_above_log2; [lia|]. apply Z.log2_lt_pow2; [lia|].
          apply Z.lt_le_trans with (2 ^ k); [lia|]. apply Z.pow_le_mono_r; lia. }
        rewrite F. apply andb_false_r. }
    rewrite <- Z.lxor_lor, <- Z.add_nocarry_lxor by auto. rewrite Z.shiftl_mul_pow2 by lia. ring.
Qed.
Lemma land_cat k a A m M : 0 <= k -> 0 <= a < 2 ^ k -> 0 <= m < 2 ^ k ->
  Z.land (a + 2 ^ k * A) (m + 2 ^ k * M) = Z.land a m + 2 ^ k * Z.land A M.
Proof.
  intros Hk Ha Hm.
  assert (Hl : 0 <= Z.land a m < 2 ^ k).
  { split. apply Z.land_nonneg; lia.
    destruct (Z.eq_dec (Z.land a m) 0) as [->|]; [apply Z.pow_pos_nonneg; lia|].
    assert (0 <= Z.land a m) by (apply Z.land_nonneg; lia).
    apply Z.log2_lt_pow2; [lia|]. pose proof (Z.log2_land a m ltac:(lia) ltac:(lia)).
    assert (Z.log2 a < k). { destruct (Z.eq_dec a 0) as [->|]; [|apply Z.log2_lt_pow2; lia].
      rewrite Z.land_0_l in n. congruence. }
    lia. }
  apply Z.bits_inj'. intros n Hn. rewrite Z.land_spec, !testbit_cat by lia.
  destruct (n <? k); rewrite Z.land_spec; reflexivity.
Qed.
Lemma land_keep k a A M : 0 <= k -> 0 <= a < 2 ^ k ->
  Z.land (a + 2 ^ k * A) ((2 ^ k - 1) + 2 ^ k * M) = a + 2 ^ k * Z.land A M.
Proof.
  intros. rewrite land_cat by lia. f_equal. replace (2 ^ k - 1) with (Z.ones k) by (rewrite Z.ones_equiv; lia).
  rewrite Z.land_ones by lia. apply Z.mod_small; lia.
Qed.
Lemma land_drop k a A M : 0 <= k -> 0 <= a < 2 ^ k ->
  Z.land (a + 2 ^ k * A) (0 + 2 ^ k * M) = 2 ^ k * Z.land A M.
Proof. intros. rewrite land_cat by lia. rewrite Z.land_0_r. lia. Qed.

(** ** combining eight digits of base B <= 16 in three multiplications *)
Definition digits8 (B d0 d1 d2 d3 d4 d5 d6 d7 : Z) : Z :=
  ((((((d0 * B + d1) * B + d2) * B + d3) * B + d4) * B + d5) * B + d6) * B + d7.

Lemma mask1 a0 a1 a2 a3 a4 a5 a6 :
  byte a0 -> byte a1 -> byte a2 -> byte a3 -> byte a4 -> byte a5 -> byte a6 ->
  Z.land (le [a0; a1; a2; a3; a4; a5; a6; 0]) 0x00ff00ff00ff00ff = a0 + 65536 * a2 + 4294967296 * a4 + 281474976710656 * a6.
Proof.
  intros. change 0x00ff00ff00ff00ff with (le [255; 0; 255; 0; 255; 0; 255; 0]).
  rewrite le_land; try reflexivity.
  - cbn [zip]. rewrite !Z.land_0_r.
    repeat match goal with H : byte _ |- _ => apply byte_land in H; rewrite H; clear H end.
    cbn [le]. ring.
  - repeat (constructor; [first [assumption | unfold byte; lia]|]). constructor.
  - repeat (constructor; [unfold byte; lia|]). constructor.
Qed.
Lemma mask2 w0 w1 w2 : 0 <= w0 < 65536 -> 0 <= w1 < 65536 -> 0 <= w2 < 65536 ->
  Z.land (w0 + 65536 * w1 + 4294967296 * w2) 0x0000ffff0000ffff = w0 + 4294967296 * w2.
Proof.
  intros.
  replace (w0 + 65536 * w1 + 4294967296 * w2) with (w0 + 2 ^ 16 * (w1 + 2 ^ 16 * w2)) by lia.
  change 0x0000ffff0000ffff with ((2 ^ 16 - 1) + 2 ^ 16 * (0 + 2 ^ 16 * ((2 ^ 16 - 1) + 2 ^ 16 * 0))).
  rewrite land_keep by lia. rewrite land_drop by lia.
  replace w2 with (w2 + 2 ^ 16 * 0) at 1 by lia. rewrite land_keep by lia. rewrite Z.land_0_r. lia.
Qed.

Lemma sq_le a b : 0 <= a <= b -> a * a <= b * b.
Proof. intros. nia. Qed.
Lemma pair_bound K x y : 0 <= x < K -> 0 <= y < K -> 0 <= x * K + y < K * K.
Proof. intros. nia. Qed.
Lemma sq_bound K x y : 0 <= K <= 65536 -> 0 <= x < K -> 0 <= y < K -> 0 <= x * K + y < 4294967296.
Proof. intros. split. nia. assert (x * K + y < K * K) by nia. nia. Qed.

Lemma fold8 B d0 d1 d2 d3 d4 d5 d6 d7 : 2 <= B <= 16 ->
  0 <= d0 < B -> 0 <= d1 < B -> 0 <= d2 < B -> 0 <= d3 < B -> 0 <= d4 < B -> 0 <= d5 < B -> 0 <= d6 < B -> 0 <= d7 < B ->
  Z.shiftr (u64 (Z.land (Z.shiftr (u64 (Z.land (Z.shiftr (u64 (le [d0; d1; d2; d3; d4; d5; d6; d7] * (256 * B + 1))) 8)
     0x00ff00ff00ff00ff * (65536 * B ^ 2 + 1))) 16) 0x0000ffff0000ffff * (4294967296 * B ^ 4 + 1))) 32
  = digits8 B d0 d1 d2 d3 d4 d5 d6 d7.
Proof.
  intros HB H0 H1 H2 H3 H4 H5 H6 H7.
  assert (HB2 : 4 <= B * B <= 256) by (pose proof (sq_le 2 B ltac:(lia)); pose proof (sq_le B 16 ltac:(lia)); lia).
  set (e0 := d0 * B + d1). set (e1 := d1 * B + d2). set (e2 := d2 * B + d3). set (e3 := d3 * B + d4).
  set (e4 := d4 * B + d5). set (e5 := d5 * B + d6). set (e6 := d6 * B + d7).
  pose proof (pair_bound B) as E.
  assert (F0 : 0 <= e0 < B * B) by (apply E; auto). assert (F1 : 0 <= e1 < B * B) by (apply E; auto).
  assert (F2 : 0 <= e2 < B * B) by (apply E; auto). assert (F3 : 0 <= e3 < B * B) by (apply E; auto).
  assert (F4 : 0 <= e4 < B * B) by (apply E; auto). assert (F5 : 0 <= e5 < B * B) by (apply E; auto).
  assert (F6 : 0 <= e6 < B * B) by (apply E; auto).
  assert (S1 : Z.shiftr (u64 (le [d0; d1; d2; d3; d4; d5; d6; d7] * (256 * B + 1))) 8 = le [e0; e1; e2; e3; e4; e5; e6; 0]).
  { rewrite Z.shiftr_div_pow2 by lia. change (2 ^ 8) with 256.
    assert (Q : le [d0; d1; d2; d3; d4; d5; d6; d7] * (256 * B + 1) = le [d0; e0; e1; e2; e3; e4; e5; e6] + (d7 * B) * 18446744073709551616).
    { cbn [le]. unfold e0, e1, e2, e3, e4, e5, e6. ring. }
    rewrite Q. unfold u64. rewrite Z.mod_add by lia. rewrite Z.mod_small.
    - cbn [le]. replace (e6 + 256 * 0) with (e6 + 256 * (0 + 256 * 0)) by lia. lia.
    - apply le_bound8; [|reflexivity]. repeat (constructor; [unfold byte; lia|]). constructor. }
  rewrite S1, mask1 by (unfold byte; lia).
  set (f0 := e0 * (B * B) + e2). set (f1 := e2 * (B * B) + e4). set (f2 := e4 * (B * B) + e6).
  pose proof (pair_bound (B * B)) as E2.
  assert (HB4 : 16 <= (B * B) * (B * B) <= 65536) by (pose proof (sq_le 4 (B * B) ltac:(lia)); pose proof (sq_le (B * B) 256 ltac:(lia)); lia).
  assert (G0 : 0 <= f0 < (B * B) * (B * B)) by (apply E2; auto).
  assert (G1 : 0 <= f1 < (B * B) * (B * B)) by (apply E2; auto).
  assert (G2 : 0 <= f2 < (B * B) * (B * B)) by (apply E2; auto).
  assert (S2 : Z.shiftr (u64 ((e0 + 65536 * e2 + 4294967296 * e4 + 281474976710656 * e6) * (65536 * B ^ 2 + 1))) 16
             = f0 + 65536 * f1 + 4294967296 * f2).
  { rewrite Z.shiftr_div_pow2 by lia. change (2 ^ 16) with 65536.
    assert (Q : (e0 + 65536 * e2 + 4294967296 * e4 + 281474976710656 * e6) * (65536 * B ^ 2 + 1)
      = (e0 + 65536 * (f0 + 65536 * f1 + 4294967296 * f2)) + (e6 * B ^ 2) * 18446744073709551616).
    { unfold f0, f1, f2. rewrite Z.pow_2_r. ring. }
    rewrite Q. unfold u64. rewrite Z.mod_add by lia. rewrite Z.mod_small by lia. lia. }
  rewrite S2, mask2 by lia.
  assert (G3 : 0 <= f0 * (B ^ 4) + f2 < 4294967296).
  { replace (B ^ 4) with ((B * B) * (B * B)) by ring.
    apply (sq_bound (B * B * (B * B))); auto. lia. }
  rewrite Z.shiftr_div_pow2 by lia. change (2 ^ 32) with 4294967296.
  assert (Q : (f0 + 4294967296 * f2) * (4294967296 * B ^ 4 + 1)
      = (f0 + 4294967296 * (f0 * (B ^ 4) + f2)) + (f2 * B ^ 4) * 18446744073709551616) by ring.
  rewrite Q. unfold u64. rewrite Z.mod_add by lia. rewrite Z.mod_small by lia.
  rewrite Z.mul_comm, Z.div_add by lia. rewrite Z.div_small by lia. unfold digits8, f0, f2, e0, e2, e4, e6. ring.
Qed.

(** ** loading: zero lanes then the text *)
Definition window (b : list Z) (o len : Z) : list Z := slice b o len.

Lemma le_repeat0 k l : le (repeat 0 k ++ l) = 256 ^ Z.of_nat k * le l.
Proof. induction k; cbn [repeat app]. { cbn [Z.of_nat]. rewrite Z.pow_0_r. lia. }
  cbn [le]. rewrite IHk, Nat2Z.inj_succ, Z.pow_succ_r by lia. ring. Qed.

Lemma gets_firstn S b o len : 0 <= o -> 0 <= len <= 8 -> o + len <= zlen b ->
  firstn (Z.to_nat len) (gets S b o 8) = slice b o len.
Proof.
  intros. apply at_ext.
  - rewrite firstn_length, gets_length. pose proof (slice_length b o len ltac:(lia) ltac:(lia) ltac:(lia)). lia.
  - intros k Hk. rewrite firstn_length, gets_length in Hk.
    change (at_ (slice b o len) k) with (item (slice b o len) k). rewrite slice_item by lia.
    unfold at_. rewrite <- (firstn_skipn (Z.to_nat len) (gets S b o 8)) at 1.
    assert (nth (Z.to_nat k) (firstn (Z.to_nat len) (gets S b o 8)) 0 = at_ (gets S b o 8) k).
    { unfold at_. rewrite <- (firstn_skipn (Z.to_nat len) (gets S b o 8)) at 2.
      rewrite app_nth1; auto. rewrite firstn_length, gets_length. lia. }
    rewrite firstn_skipn. rewrite H2. rewrite gets_at by lia. rewrite get_in by lia. reflexivity.
Qed.

Lemma cast8_get S b o : 0 <= o -> oob S <> None \/ o + 8 <= zlen b -> cast S b o = Ok (le (gets S b o 8)).
Proof. intros Ho [H|H]; [apply (cast_get S b o (o + 8)) | apply (cast_get S b 0 (zlen b))]; try lia; [left; auto|right; lia]. Qed.
Lemma load_len_ok S b o len : bytes b -> 0 <= o -> 1 <= len <= 8 -> o + len <= zlen b ->
  oob S <> None \/ o + 8 <= zlen b ->
  load_len S b o len = Ok (le (repeat 0 (8 - Z.to_nat len) ++ slice b o len)).
Proof.
  intros Hb Ho Hl Hin Hr. unfold load_len. rewrite cast8_get by auto. cbn [bind].
  rewrite !u32_id by (rewrite ?u32_id; lia). rewrite shl64_ok by lia. cbn [bind].
  destruct (Z.ltb_spec 0 len); [|lia]. change (u64 (- (1))) with (Z.ones 64).
  rewrite Z.land_ones by lia. change (2 ^ 64) with 18446744073709551616. unfold u64.
  rewrite Z.mod_mod by lia. f_equal.
  rewrite <- (gets_firstn S) by lia. set (l := gets S b o 8).
  assert (Ll : length l = 8%nat) by (apply gets_length).
  assert (Bl : bytes l) by (apply gets_bytes; auto).
  replace (2 ^ (64 - len * 8)) with (256 ^ Z.of_nat (8 - Z.to_nat len)).
  2:{ change 256 with (2 ^ 8). rewrite <- Z.pow_mul_r by lia. f_equal. lia. }
  rewrite Z.mul_comm, <- le_repeat0.
  rewrite <- (firstn_skipn (Z.to_nat len) l) at 1. rewrite app_assoc.
  assert (E : zlen (repeat 0 (8 - Z.to_nat len) ++ firstn (Z.to_nat len) l) = 8).
  { rewrite app_length, repeat_length, firstn_length. lia. }
  change 18446744073709551616 with (256 ^ 8). rewrite <- E. apply le_mod.
  apply bytes_app. split. apply bytes_repeat; unfold byte; lia. apply bytes_firstn; auto.
Qed.
Lemma load_len_0 S b o : wide_shift S = true -> oob S <> None \/ o + 8 <= zlen b -> 0 <= o -> load_len S b o 0 = Ok 0.
Proof.
  intros Hw Hr Ho. unfold load_len. rewrite cast8_get by auto. cbn [bind].
  assert (E : exists v, shl64 S (le (gets S b o 8)) (u32 (64 - u32 (0 * 8))) = Ok v).
  { change (u32 (64 - u32 (0 * 8))) with 64. unfold shl64. rewrite Hw. eexists. reflexivity. }
  destruct E as [v ->]. cbn [bind]. change (u64 (- (if 0 <? 0 then 1 else 0))) with 0. rewrite Z.land_0_r. reflexivity.
Qed.

(** Horner value of a list of digit values. *)
Definition horner (B : Z) (l : list Z) : Z := fold_left (fun a d => B * a + d) l 0.
Lemma horner_zeros B k l : horner B (repeat 0 k ++ l) = horner B l.
Proof. unfold horner. induction k; cbn [repeat app fold_left]; auto. rewrite Z.mul_0_r, Z.add_0_r. auto. Qed.
Lemma dec_horner l : dec_value l = horner 10 (map (fun c => c - 48) l).
Proof. unfold dec_value, horner. generalize 0. induction l; cbn [map fold_left]; intros; auto. Qed.
Lemma hex_horner l : hex_value l = horner 16 (map hex_digit l).
Proof. unfold hex_value, horner. generalize 0. induction l; cbn [map fold_left]; intros; auto. Qed.
Lemma horner8 B d0 d1 d2 d3 d4 d5 d6 d7 : horner B [d0; d1; d2; d3; d4; d5; d6; d7] = digits8 B d0 d1 d2 d3 d4 d5 d6 d7.
Proof. unfold horner, digits8. cbn [fold_left]. ring. Qed.

Lemma land15_digits l : Forall is_digit l -> map (fun c => Z.land c 15) l = map (fun c => c - 48) l.
Proof.
  induction 1; cbn [map]; auto. f_equal; auto. unfold is_digit in H.
  assert (T : forallb (fun c => Z.land (c + 48) 15 =? c) (zrange 10) = true) by (vm_compute; reflexivity).
  rewrite forallb_forall in T. specialize (T (x - 48)). rewrite Z.eqb_eq in T. 
  replace (x - 48 + 48) with x in T by lia. apply T. apply in_zrange. lia.
Qed.
Lemma zip_repeat f c l : zip f l (repeat c (length l)) = map (fun x => f x c) l.
Proof. induction l; cbn [repeat length zip map]; auto. f_equal; auto. Qed.
Lemma land_0f l : bytes l -> length l = 8%nat ->
  Z.land (le l) 0x0f0f0f0f0f0f0f0f = le (map (fun c => Z.land c 15) l).
Proof.
  intros. change 0x0f0f0f0f0f0f0f0f with (le (repeat 15 8)). rewrite <- H0.
  rewrite le_land; auto. rewrite zip_repeat. reflexivity.
  apply bytes_repeat. unfold byte; lia. rewrite repeat_length. auto.
Qed.

Lemma map_repeat {A B} (f : A -> B) x k : map f (repeat x k) = repeat (f x) k.
Proof. induction k; cbn [repeat map]; f_equal; auto. Qed.

Lemma fold8_list B l : 2 <= B <= 16 -> length l = 8%nat -> Forall (fun d => 0 <= d < B) l ->
  Z.shiftr (u64 (Z.land (Z.shiftr (u64 (Z.land (Z.shiftr (u64 (le l * (256 * B + 1))) 8)
     0x00ff00ff00ff00ff * (65536 * B ^ 2 + 1))) 16) 0x0000ffff0000ffff * (4294967296 * B ^ 4 + 1))) 32
  = horner B l /\ 0 <= horner B l < 4294967296.
Proof.
  intros HB Hl HF.
  destruct l as [|d0 [|d1 [|d2 [|d3 [|d4 [|d5 [|d6 [|d7 [|]]]]]]]]]; try discriminate.
  repeat match goal with H : Forall _ (_ :: _) |- _ => inversion H; clear H; subst end.
  rewrite fold8 by auto. rewrite horner8. split; auto. unfold digits8.
  assert (E : forall v w d, 0 <= v < w -> 0 <= d < B -> 0 <= v * B + d < w * B) by (intros; nia).
  assert (P : 0 <= ((((((d0 * B + d1) * B + d2) * B + d3) * B + d4) * B + d5) * B + d6) * B + d7 < B*B*B*B*B*B*B*B).
  { repeat (apply E; [|assumption]). lia. }
  assert (B2 : 4 <= B * B <= 256) by (pose proof (sq_le 2 B ltac:(lia)); pose proof (sq_le B 16 ltac:(lia)); lia).
  assert (B4 : 0 <= (B*B)*(B*B) <= 65536) by (pose proof (sq_le 4 (B * B) ltac:(lia)); pose proof (sq_le (B * B) 256 ltac:(lia)); lia).
  assert (B8 : ((B*B)*(B*B))*((B*B)*(B*B)) <= 4294967296).
  { pose proof (sq_le (B * B * (B * B)) 65536 B4). lia. }
  replace (B*B*B*B*B*B*B*B) with (((B*B)*(B*B))*((B*B)*(B*B))) in P by ring. lia.
Qed.

Lemma atou8_ok S b o len : bytes b -> 0 <= o -> 1 <= len <= 8 -> o + len <= zlen b ->
  oob S <> None \/ o + 8 <= zlen b -> Forall is_digit (slice b o len) ->
  atou8 S b o len = Ok (dec_value (slice b o len)).
Proof.
  intros Hb Ho Hl Hin Hr Hd. unfold atou8. rewrite load_len_ok by auto. cbn [bind].
  assert (HL : length (slice b o len) = Z.to_nat len).
  { pose proof (slice_length b o len ltac:(lia) ltac:(lia) ltac:(lia)). lia. }
  rewrite land_0f.
  2:{ apply bytes_app. split. apply bytes_repeat; unfold byte; lia. apply digits_bytes; auto. }
  2:{ rewrite app_length, repeat_length. lia. }
  rewrite map_app, map_repeat, land15_digits by auto. change (Z.land 0 15) with 0.
  set (l := repeat 0 (8 - Z.to_nat len) ++ map (fun c => c - 48) (slice b o len)).
  destruct (fold8_list 10 l) as [E1 E2].
  - lia.
  - unfold l. rewrite app_length, repeat_length, map_length. lia.
  - unfold l. apply Forall_app. split.
    + apply Forall_forall. intros x Hx. apply repeat_spec in Hx. lia.
    + apply Forall_forall. intros x Hx. apply in_map_iff in Hx. destruct Hx as (c & <- & Hc).
      pose proof (proj1 (Forall_forall _ _) Hd c Hc) as Hc'. unfold is_digit in Hc'. lia.
  - change (2 ^ 8 * 10 + 1) with (256 * 10 + 1). change (2 ^ 16 * 100 + 1) with (65536 * 10 ^ 2 + 1).
    change (2 ^ 32 * 10000 + 1) with (4294967296 * 10 ^ 4 + 1). rewrite E1, u32_id by auto.
    f_equal. unfold l. rewrite horner_zeros. symmetry. apply dec_horner.
Qed.
Lemma atou8_0 S b o : wide_shift S = true -> oob S <> None \/ o + 8 <= zlen b -> 0 <= o -> atou8 S b o 0 = Ok 0.
Proof. intros. unfold atou8. rewrite load_len_0 by auto. reflexivity. Qed.

Lemma skipn_add (l : list Z) n : forall m, skipn m (skipn n l) = skipn (n + m) l.
Proof. revert l; induction n; intros; cbn [skipn Nat.add]; auto. destruct l; auto. now rewrite skipn_nil. Qed.
Lemma slice_app b o n m : 0 <= o -> 0 <= n -> 0 <= m -> slice b o (n + m) = slice b o n ++ slice b (o + n) m.
Proof.
  intros. unfold slice. rewrite !Z2Nat.inj_add by lia. rewrite <- (skipn_add b (Z.to_nat o)).
  generalize (skipn (Z.to_nat o) b). generalize (Z.to_nat n), (Z.to_nat m). clear.
  intros i j l. revert l; induction i; intros l; cbn [Nat.add firstn skipn app]; auto.
  destruct l; cbn [firstn skipn app]. now rewrite firstn_nil. f_equal. apply IHi.
Qed.

Lemma slice_whole_app b o n m : 0 <= o -> 0 <= n -> 0 <= m ->
  Forall is_digit (slice b o (n + m)) -> Forall is_digit (slice b o n) /\ Forall is_digit (slice b (o + n) m).
Proof. intros. rewrite slice_app in H2 by lia. apply Forall_app in H2. auto. Qed.

Lemma mod3 M K p q r : ((((p * K) mod M + q) mod M * K) mod M + r) mod M = ((p * K + q) * K + r) mod M.
Proof.
  destruct (Z.eq_dec M 0) as [->|H]. { rewrite !Zmod_0_r. ring. }
  set (a := (p * K) / M). assert (Ea : (p * K) mod M = p * K - M * a) by (unfold a; apply Z.mod_eq; auto). rewrite Ea.
  set (c := p * K - M * a + q). set (d := c / M). assert (Ed : c mod M = c - M * d) by (apply Z.mod_eq; auto). rewrite Ed.
  set (e := (c - M * d) * K). set (f := e / M). assert (Ef : e mod M = e - M * f) by (apply Z.mod_eq; auto). rewrite Ef.
  replace (e - M * f + r) with ((p * K + q) * K + r + (- a * K - d * K - f) * M) by (unfold e, c; ring).
  apply Z.mod_add. auto.
Qed.

(** ** simd_atou *)
Lemma simd_atou_ok S b o len : bytes b -> 0 <= o -> 1 <= len <= 20 -> o + len <= zlen b ->
  oob S <> None \/ o + 8 <= zlen b -> (len = 16 -> wide_shift S = true) ->
  Forall is_digit (slice b o len) -> simd_atou S b o len = Ok (dec_value (slice b o len) mod 18446744073709551616).
Proof.
  intros Hb Ho Hl Hin Hr Hw Hd. unfold simd_atou. destruct (Z.ltb_spec 8 len).
  - set (lh := len mod 8). assert (Hlh : 0 <= lh < 8) by (unfold lh; lia).
    assert (X : exists a, atou8 S b o lh = Ok a /\ a = dec_value (slice b o lh)).
    { destruct (Z.eq_dec lh 0) as [E|E].
      - assert (len = 16) by (unfold lh in E; lia). rewrite E. exists 0. split; [|reflexivity].
        apply atou8_0; auto.
      - eexists. split; [|reflexivity]. apply atou8_ok; auto; try lia.
        replace len with (lh + (len - lh)) in Hd by lia. apply slice_whole_app in Hd; try lia. tauto. }
    destruct X as (a & -> & ->). cbn [bind].
    replace len with (lh + (len - lh)) in Hd by lia. pose proof Hd as Hd'.
    apply slice_whole_app in Hd; try lia. destruct Hd as [D1 D2].
    pose proof (dec_value_bound _ D1) as Bd1. rewrite slice_length in Bd1 by lia.
    destruct (Z.ltb_spec 8 (len - lh)).
    + assert (E8 : len - lh = 8 + 8) by (unfold lh; lia). rewrite E8 in D2.
      apply slice_whole_app in D2; try lia. destruct D2 as [D2 D3].
      rewrite atou8_ok by (auto; lia). cbn [bind]. rewrite E8. replace (8 + 8 - 8) with 8 by lia.
      rewrite atou8_ok by (auto; lia). cbn [bind]. f_equal.
      replace len with (lh + (8 + 8)) by lia. rewrite !slice_app by lia. rewrite !dec_value_app, app_length, !Nat2Z.inj_add.
      rewrite !slice_length by lia. change (10 ^ (8 + 8)) with (100000000 * 100000000). change (10 ^ 8) with 100000000.
      unfold u64. rewrite mod3. f_equal. ring.
    + cbn [bind]. assert (E8 : len - lh = 8) by (unfold lh in *; lia). rewrite E8 in *.
      rewrite atou8_ok by (auto; lia). cbn [bind]. f_equal.
      replace len with (lh + 8) by lia. rewrite slice_app by lia. rewrite dec_value_app, slice_length by lia.
      unfold u64. rewrite Zplus_mod_idemp_l. reflexivity.
  - cbn [bind]. rewrite atou8_ok by (auto; lia). reflexivity.
Qed.

(** ** hexadecimal *)
Lemma hex_lane c : is_hex c \/ c = 0 ->
  byte (c + 9 * (Z.land c 64 / 64)) /\ Z.land c 64 = 64 * (Z.land c 64 / 64) /\
  Z.land (c + 9 * (Z.land c 64 / 64)) 15 = (if c =? 0 then 0 else hex_digit c) /\
  0 <= (if c =? 0 then 0 else hex_digit c) < 16 /\ byte c.
Proof.
  intros H.
  assert (T : forallb (fun c => negb ((48 <=? c) && (c <=? 57) || (65 <=? c) && (c <=? 70) || (97 <=? c) && (c <=? 102) || (c =? 0)) ||
     ((0 <=? c + 9 * (Z.land c 64 / 64)) && (c + 9 * (Z.land c 64 / 64) <? 256) && (Z.land c 64 =? 64 * (Z.land c 64 / 64)) &&
      (Z.land (c + 9 * (Z.land c 64 / 64)) 15 =? (if c =? 0 then 0 else hex_digit c)) &&
      (0 <=? (if c =? 0 then 0 else hex_digit c)) && ((if c =? 0 then 0 else hex_digit c) <? 16))) (zrange 256) = true) by (vm_compute; reflexivity).
  rewrite forallb_forall in T. assert (Hc : byte c) by (unfold is_hex in H; unfold byte; lia).
  specialize (T c ltac:(apply in_zrange; unfold byte in Hc; lia)).
  apply orb_true_iff in T. destruct T as [T|T].
  - exfalso. apply negb_true_iff in T. unfold is_hex in H. lia.
  - rewrite !andb_true_iff, !Z.leb_le, !Z.ltb_lt, !Z.eqb_eq in T. unfold byte in *. tauto.
Qed.

Lemma le_scale k l : le (map (fun c => k * c) l) = k * le l.
Proof. induction l; cbn [map le]. lia. rewrite IHl. ring. Qed.
Lemma zip_map_add (f : Z -> Z) l : zip Z.add l (map f l) = map (fun c => c + f c) l.
Proof. induction l; cbn [map zip]; auto. f_equal; auto. Qed.

Lemma hex_lanes l : length l = 8%nat -> Forall (fun c => is_hex c \/ c = 0) l ->
  Z.land (u64 (le l + u64 (Z.shiftr (Z.land (le l) 0x4040404040404040) 6 * 9))) 0x0f0f0f0f0f0f0f0f
  = le (map (fun c => if c =? 0 then 0 else hex_digit c) l).
Proof.
  intros Hl HF.
  assert (HB : bytes l). { eapply Forall_impl; [|exact HF]. intros a Ha. apply hex_lane in Ha. tauto. }
  assert (HB9 : bytes (map (fun c => c + 9 * (Z.land c 64 / 64)) l)).
  { apply Forall_forall. intros x Hx. apply in_map_iff in Hx. destruct Hx as (c & <- & Hc).
    pose proof (hex_lane c (proj1 (Forall_forall _ _) HF c Hc)); tauto. }
  assert (E1 : Z.land (le l) 0x4040404040404040 = 64 * le (map (fun c => Z.land c 64 / 64) l)).
  { change 0x4040404040404040 with (le (repeat 64 8)). rewrite <- Hl, le_land; auto.
    - rewrite zip_repeat, <- le_scale, map_map. f_equal. apply map_ext_in. intros c Hc.
      pose proof (hex_lane c (proj1 (Forall_forall _ _) HF c Hc)); tauto.
    - apply bytes_repeat. unfold byte; lia.
    - rewrite repeat_length. auto. }
  rewrite E1, Z.shiftr_div_pow2 by lia. change (2 ^ 6) with 64. rewrite (Z.mul_comm 64), Z.div_mul by lia.
  set (w := map (fun c => Z.land c 64 / 64) l).
  assert (E2 : le l + le w * 9 = le (map (fun c => c + 9 * (Z.land c 64 / 64)) l)).
  { rewrite Z.mul_comm, <- le_scale. unfold w. rewrite map_map. rewrite le_add by (rewrite map_length; auto).
    rewrite zip_map_add. reflexivity. }
  pose proof (le_bound8 _ HB9 ltac:(rewrite map_length; auto)) as Bd. rewrite <- E2 in Bd.
  pose proof (le_bound8 _ HB Hl) as Bl.
  assert (Bw : 0 <= le w). { apply le_bound. unfold w. apply Forall_forall. intros x Hx. apply in_map_iff in Hx.
    destruct Hx as (c & <- & Hc). pose proof (hex_lane c (proj1 (Forall_forall _ _) HF c Hc)) as (_ & H2 & _ & _ & Hb).
    pose proof (byte_and c 64 Hb). unfold byte in *. lia. }
  rewrite (u64_id (le w * 9)) by lia. rewrite u64_id by lia. rewrite E2.
  rewrite land_0f by (auto; rewrite map_length; auto). rewrite map_map. f_equal. apply map_ext_in. intros c Hc.
  pose proof (hex_lane c (proj1 (Forall_forall _ _) HF c Hc)); tauto.
Qed.

Lemma htou8_ok S b o len : bytes b -> 0 <= o -> 1 <= len <= 8 -> o + len <= zlen b ->
  oob S <> None \/ o + 8 <= zlen b -> Forall is_hex (slice b o len) ->
  htou8 S b o len = Ok (hex_value (slice b o len)) /\ 0 <= hex_value (slice b o len) < 4294967296.
Proof.
  intros Hb Ho Hl Hin Hr Hd. unfold htou8. rewrite load_len_ok by auto. cbn [bind].
  assert (HL : length (slice b o len) = Z.to_nat len).
  { pose proof (slice_length b o len ltac:(lia) ltac:(lia) ltac:(lia)). lia. }
  assert (F : Forall (fun c => is_hex c \/ c = 0) (repeat 0 (8 - Z.to_nat len) ++ slice b o len)).
  { apply Forall_app. split. apply Forall_forall. intros x Hx. apply repeat_spec in Hx. auto.
    eapply Forall_impl; [|exact Hd]. auto. }
  rewrite hex_lanes by (auto; rewrite app_length, repeat_length; lia).
  set (l := map (fun c => if c =? 0 then 0 else hex_digit c) (repeat 0 (8 - Z.to_nat len) ++ slice b o len)).
  destruct (fold8_list 16 l) as [E1 E2].
  - lia.
  - unfold l. rewrite map_length, app_length, repeat_length. lia.
  - unfold l. apply Forall_forall. intros x Hx. apply in_map_iff in Hx. destruct Hx as (c & <- & Hc).
    pose proof (hex_lane c (proj1 (Forall_forall _ _) F c Hc)); tauto.
  - change (2 ^ 12 + 1) with (256 * 16 + 1). change (2 ^ 24 + 1) with (65536 * 16 ^ 2 + 1).
    change (2 ^ 48 + 1) with (4294967296 * 16 ^ 4 + 1). rewrite E1, u32_id by auto.
    assert (E : horner 16 l = hex_value (slice b o len)).
    { unfold l. rewrite map_app, map_repeat. change (if 0 =? 0 then 0 else hex_digit 0) with 0.
      rewrite horner_zeros, hex_horner. f_equal. apply map_ext_in. intros c Hc.
      pose proof (proj1 (Forall_forall _ _) Hd c Hc) as Hc'. unfold is_hex in Hc'.
      destruct (Z.eqb_spec c 0); auto. lia. }
    rewrite E in *. auto.
Qed.

Lemma hex_value_app a b : hex_value (a ++ b) = hex_value a * 16 ^ zlen b + hex_value b.
Proof.
  unfold hex_value. rewrite fold_left_app.
  generalize (fold_left (fun a c => 16 * a + hex_digit c) a 0). intros v.
  assert (G : forall l v, fold_left (fun a c => 16 * a + hex_digit c) l v
              = v * 16 ^ zlen l + fold_left (fun a c => 16 * a + hex_digit c) l 0).
  { induction l as [|x l IH]; intros w; cbn [fold_left length]. { cbn. lia. }
    rewrite IH, (IH (16 * 0 + hex_digit x)). rewrite Nat2Z.inj_succ, Z.pow_succ_r by lia. ring. }
  apply G.
Qed.

Lemma simd_htou_ok S b o len : bytes b -> 0 <= o -> 1 <= len <= 16 -> o + len <= zlen b ->
  oob S <> None \/ o + 8 <= zlen b -> Forall is_hex (slice b o len) ->
  simd_htou S b o len = Ok (hex_value (slice b o len)).
Proof.
  intros Hb Ho Hl Hin Hr Hd. unfold simd_htou. destruct (Z.ltb_spec 8 len).
  - replace len with ((len - 8) + 8) in Hd by lia. rewrite slice_app in Hd by lia. apply Forall_app in Hd. destruct Hd as [D1 D2].
    destruct (htou8_ok S b o (len - 8)) as [-> B1]; auto; try lia. cbn [bind].
    rewrite shl64_ok by lia. cbn [bind]. replace (len - (len - 8)) with 8 by lia.
    destruct (htou8_ok S b (o + (len - 8)) 8) as [-> B2]; auto; try lia. cbn [bind]. f_equal.
    replace len with ((len - 8) + 8) at 3 by lia. rewrite slice_app by lia. rewrite hex_value_app, slice_length by lia.
    change (16 ^ 8) with 4294967296. change (2 ^ 32) with 4294967296.
    rewrite (u64_id (_ * _)) by lia. apply u64_id. lia.
  - destruct (htou8_ok S b o len) as [-> B1]; auto; try lia. cbn [bind]. rewrite Z.add_0_l, u64_id by lia. reflexivity.
Qed.

(** ** simd_atoi *)
Lemma slice_cons b o n : 0 <= o -> 1 <= n -> o + n <= zlen b -> slice b o n = at_ b o :: slice b (o + 1) (n - 1).
Proof.
  intros. replace n with (1 + (n - 1)) at 1 by lia. rewrite slice_app by lia.
  assert (slice b o 1 = [at_ b o]).
  { apply at_ext. pose proof (slice_length b o 1 ltac:(lia) ltac:(lia) ltac:(lia)). cbn [length]. lia.
    intros k Hk. rewrite slice_length in Hk by lia. replace k with 0 by lia.
    change (at_ (slice b o 1) 0) with (item (slice b o 1) 0). rewrite slice_item by lia. rewrite Z.add_0_r. reflexivity. }
  rewrite H2. reflexivity.
Qed.

(** The least value, whose negation does not fit. *)
Lemma simd_atoi_least S b o len : bytes b -> 0 <= o -> 1 <= len <= 21 -> o + len <= zlen b ->
  oob S <> None \/ o + 9 <= zlen b -> (16 <= len <= 17 -> wide_shift S = true) ->
  signed_text (slice b o len) (-9223372036854775808) ->
  simd_atoi S b o len = if wide_shift S then Ok (-9223372036854775808) else Undef SignedOverflow.
Proof.
  intros Hb Ho Hl Hin Hr Hw (ds & Hne & Hd & Hs). unfold simd_atoi.
  rewrite rd_in by lia. cbn [bind]. rewrite (slice_cons b o len) in Hs by lia.
  destruct (Z.eqb_spec len 0); [lia|]. cbn [negb andb].
  fold (at_ b o). pose proof (dec_value_bound ds Hd) as B.
  assert (Hr' : oob S <> None \/ o + 1 + 8 <= zlen b) by (destruct Hr; auto; right; lia).
  destruct Hs as [[E V]|[[E V]|[E V]]]; [lia|lia|].
  injection E as E1 E2. rewrite E1. cbn [Z.eqb Pos.eqb orb].
  assert (zlen ds = len - 1) by (rewrite <- E2; apply slice_length; lia).
  assert (1 <= zlen ds) by (destruct ds; [congruence|cbn [length]; lia]).
  rewrite simd_atou_ok; auto; try lia; try (intros; apply Hw; lia); [|rewrite E2; auto].
  cbn [bind]. rewrite E2. replace (dec_value ds) with 9223372036854775808 by lia. destruct (wide_shift S); vm_compute; reflexivity.
Qed.

Lemma simd_atoi_ok S b o len v : bytes b -> 0 <= o -> 1 <= len <= 21 -> o + len <= zlen b ->
  oob S <> None \/ o + 9 <= zlen b -> (16 <= len <= 17 -> wide_shift S = true) ->
  signed_text (slice b o len) v -> -9223372036854775808 < v < 9223372036854775808 ->
  (len <= 20 \/ at_ b o = 45 \/ at_ b o = 43) ->
  simd_atoi S b o len = Ok v.
Proof.
  intros Hb Ho Hl Hin Hr Hw (ds & Hne & Hd & Hs) Hv Hlen. unfold simd_atoi.
  rewrite rd_in by lia. cbn [bind]. rewrite (slice_cons b o len) in Hs by lia.
  destruct (Z.eqb_spec len 0); [lia|]. cbn [negb andb].
  fold (at_ b o).
  assert (Hr' : oob S <> None \/ o + 1 + 8 <= zlen b) by (destruct Hr; auto; right; lia).
  assert (Hr2 : oob S <> None \/ o + 8 <= zlen b) by (destruct Hr; auto; right; lia).
  destruct Hs as [[E V]|[[E V]|[E V]]].
  - assert (Hc : is_digit (at_ b o)). { rewrite <- E in Hd. inversion Hd; auto. }
    unfold is_digit in Hc. destruct (Z.eqb_spec (at_ b o) 45); [lia|]. destruct (Z.eqb_spec (at_ b o) 43); [lia|].
    assert (E' : slice b o len = ds) by (rewrite slice_cons by lia; exact E).
    cbn [orb]. rewrite Z.add_0_r, Z.sub_0_r. rewrite simd_atou_ok; auto; try lia; try (intros; apply Hw; lia).
    + cbn [bind]. rewrite E', <- V. rewrite Z.mod_small by (subst v; pose proof (dec_value_bound ds Hd); lia).
      rewrite s64_id by lia. reflexivity.
    + rewrite E'. auto.
  - injection E as E1 E2. rewrite E1. cbn [Z.eqb Pos.eqb orb].
    assert (zlen ds = len - 1) by (rewrite <- E2; apply slice_length; lia).
    assert (1 <= zlen ds) by (destruct ds; [congruence|cbn [length]; lia]).
    rewrite simd_atou_ok; auto; try lia; try (intros; apply Hw; lia).
    + cbn [bind]. rewrite E2, <- V. rewrite Z.mod_small by (subst v; pose proof (dec_value_bound ds Hd); lia).
      rewrite s64_id by lia. reflexivity.
    + rewrite E2. auto.
  - injection E as E1 E2. rewrite E1. cbn [Z.eqb Pos.eqb orb].
    assert (zlen ds = len - 1) by (rewrite <- E2; apply slice_length; lia).
    assert (1 <= zlen ds) by (destruct ds; [congruence|cbn [length]; lia]).
    rewrite simd_atou_ok; auto; try lia; try (intros; apply Hw; lia).
    + cbn [bind]. rewrite E2. pose proof (dec_value_bound ds Hd). rewrite Z.mod_small by lia.
      rewrite s64_id by lia. destruct (Z.eqb_spec (dec_value ds) (-9223372036854775808)); [lia|]. cbn [andb].
      rewrite s64_id by lia. congruence.
    + rewrite E2. auto.
Qed.
