(** Round trips and characterisations of the number conversions. *)
From Verif Require Export SwarShort SwarFinal NumPad.
Open Scope Z_scope.

Lemma decimal_signed x s : decimal_text x s -> signed_text s x.
Proof.
  intros (ds & H1 & H2 & _ & [(Hx & -> & V)|(Hx & -> & V)]); exists ds; repeat split; auto. right; right. split; auto. lia.
Qed.
Lemma holds_cstr_slice b s : holds_cstr b 0 s -> slice b 0 (zlen s) = s /\ zlen s + 1 <= zlen b.
Proof.
  unfold holds_cstr, slice. intros H. change (Z.to_nat 0) with 0%nat in *. cbn [skipn] in *.
  replace (Z.to_nat (zlen s + 1)) with (length s + 1)%nat in H by lia. rewrite Nat2Z.id.
  assert (L : length (firstn (length s + 1) b) = (length s + 1)%nat) by (rewrite H, app_length; reflexivity).
  rewrite firstn_length in L. split; [|lia].
  assert (E : firstn (length s) (firstn (length s + 1) b) = firstn (length s) (s ++ [0])) by (rewrite H; reflexivity).
  rewrite firstn_firstn in E. replace (Nat.min (length s) (length s + 1)) with (length s) in E by lia.
  rewrite E. rewrite firstn_app, Nat.sub_diag, firstn_all. apply app_nil_r.
Qed.

Lemma itoa8_bytes S x buf n buf' : bytes buf -> itoa8 S x buf = Ok (n, buf') -> bytes buf'.
Proof.
  intros Hb H. unfold itoa8 in H.
  repeat match goal with
  | H : bind _ _ = Ok _ |- _ => apply bind_Ok in H; let a := fresh "a" in destruct H as (a & ? & H); try destruct a as [[? ?] ?]
  end.
  injection H as _ <-.
  eapply blit_bytes; [eassumption| |repeat constructor; unfold byte; lia].
  eapply blit_bytes; [eassumption| |apply to_le_bytes].
  eapply blit_bytes; [eassumption|auto|repeat constructor; unfold byte; lia].
Qed.

Lemma rdn_machine_bytes g b n : forall i l, bytes b -> rdn (machine g) b i n = Ok l -> bytes l.
Proof.
  intros i l Hb H. rewrite (rdn_gets (machine g) b i (i + Z.of_nat n)) in H; try lia.
  - injection H as <-. apply gets_bytes; auto.
  - left. discriminate.
Qed.
Lemma utoa2p_ex_bytes x s i s' : bytes s -> utoa2p_ex x s i = Ok s' -> bytes s'.
Proof.
  intros Hb H. unfold utoa2p_ex in H. apply bind_Ok in H. destruct H as (t & _ & H).
  eapply blit_bytes; eauto. apply to_le_bytes.
Qed.
Lemma itoa_loop_bytes fuel : forall x p tmp x' p' tmp', bytes tmp -> itoa_loop fuel x p tmp = Ok (x', p', tmp') -> bytes tmp'.
Proof.
  induction fuel; cbn [itoa_loop]; intros; [discriminate|]. destruct (100 <=? x).
  - apply bind_Ok in H0. destruct H0 as (t & H1 & H2). eapply IHfuel; [|exact H2]. eapply utoa2p_ex_bytes; eauto.
  - congruence.
Qed.
Lemma simd_itoa_bytes g tmp0 x buf n buf' : bytes tmp0 -> bytes buf -> simd_itoa (machine g) tmp0 x buf = Ok (n, buf') -> bytes buf'.
Proof.
  intros Ht Hb H. unfold simd_itoa in H.
  repeat match goal with
  | H : bind _ _ = Ok _ |- _ => apply bind_Ok in H; let a := fresh "a" in destruct H as (a & ? & H); try destruct a as [[? ?] ?]
  end.
  injection H as _ <-.
  eapply blit_bytes; [eassumption| |repeat constructor; unfold byte; lia].
  eapply blit_bytes; [eassumption| |].
  eapply blit_bytes; [eassumption|auto|repeat constructor; unfold byte; lia].
  eapply rdn_machine_bytes; [|eassumption]. eapply utoa2p_ex_bytes; [|eassumption].
  eapply itoa_loop_bytes; [|eassumption]. auto.
Qed.

Lemma itoa8_atoi S x buf : all_bytes buf -> Z.abs x < 100000000 -> 10 <= zlen buf ->
  exists n buf', itoa8 S x buf = Ok (n, buf') /\ simd_atoi S buf' 0 n = Ok x.
Proof.
  intros Hb Hx Hl. destruct (itoa8_ok S x buf Hx Hl) as (s & buf' & E & D & H & L & _).
  exists (zlen s), buf'. split; auto. pose proof (itoa8_bytes _ _ _ _ _ Hb E) as Hb'.
  destruct (holds_cstr_slice _ _ H) as [Hs Hz].
  assert (Hlen : 1 <= zlen s <= 9).
  { destruct D as (ds & Hne & Hd & Hlead & HV).
    assert (1 <= zlen ds) by (destruct ds; [congruence|cbn [length]; lia]).
    assert (zlen ds <= 8).
    { destruct (Z_le_dec (zlen ds) 8); auto. exfalso. destruct ds as [|d ds]; [cbn in *; lia|].
      specialize (Hlead ltac:(lia)). unfold item in Hlead. cbn [Z.to_nat nth] in Hlead. inversion Hd; subst. unfold is_digit in H3.
      assert (V : dec_value (d :: ds) = Z.abs x) by lia.
      change (d :: ds) with ([d] ++ ds) in V. rewrite dec_value_app, dec_value_one in V.
      pose proof (dec_value_bound ds H4). assert (10 ^ 8 <= 10 ^ zlen ds) by (apply Z.pow_le_mono_r; cbn [length] in n; lia).
      change (10 ^ 8) with 100000000 in H2. nia. }
    destruct HV as [(_ & -> & _)|(_ & -> & _)]; cbn [length]; lia. }
  apply simd_atoi_ok; auto; try lia.
  rewrite Hs. apply decimal_signed; auto.
Qed.

Lemma simd_itoa_atoi g tmp0 x buf : all_bytes tmp0 -> all_bytes buf -> -2147483648 < x < 2147483648 -> length tmp0 = 20%nat -> 21 <= zlen buf ->
  exists n buf', simd_itoa (machine g) tmp0 x buf = Ok (n, buf') /\ simd_atoi (machine g) buf' 0 n = Ok x.
Proof.
  intros Ht Hb Hx Htl Hl. destruct (simd_itoa_ok g tmp0 x buf Hx Htl Hl) as (s & buf' & E & D & H & L & _).
  exists (zlen s), buf'. split; auto. pose proof (simd_itoa_bytes _ _ _ _ _ _ Ht Hb E) as Hb'.
  destruct (holds_cstr_slice _ _ H) as [Hs Hz].
  assert (Hlen : 1 <= zlen s <= 11).
  { destruct D as (ds & Hne & Hd & Hlead & HV).
    assert (1 <= zlen ds) by (destruct ds; [congruence|cbn [length]; lia]).
    assert (zlen ds <= 10).
    { destruct (Z_le_dec (zlen ds) 10); auto. exfalso. destruct ds as [|d ds]; [cbn in *; lia|].
      specialize (Hlead ltac:(lia)). unfold item in Hlead. cbn [Z.to_nat nth] in Hlead. inversion Hd; subst. unfold is_digit in H3.
      assert (V : dec_value (d :: ds) = Z.abs x) by lia.
      change (d :: ds) with ([d] ++ ds) in V. rewrite dec_value_app, dec_value_one in V.
      pose proof (dec_value_bound ds H4). assert (10 ^ 10 <= 10 ^ zlen ds) by (apply Z.pow_le_mono_r; cbn [length] in n; lia).
      change (10 ^ 10) with 10000000000 in H2. nia. }
    destruct HV as [(_ & -> & _)|(_ & -> & _)]; cbn [length]; lia. }
  apply simd_atoi_ok; auto; try lia; try (left; discriminate).
  rewrite Hs. apply decimal_signed; auto.
Qed.

Lemma utoap_spec S N x s : 0 <= N <= 20 -> 0 <= x < 18446744073709551616 -> 24 <= zlen s ->
  exists t s', utoap S N x s = Ok s' /\ Z.of_nat (length t) = N /\ Forall is_digit t /\ dec_value t = x mod 10 ^ N /\
    holds_cstr s' 0 t /\ length s' = length s /\ (forall k, 24 <= k < zlen s -> item s' k = item s k).
Proof.
  intros HN Hx Hs. destruct (utoap_ok S N x s HN ltac:(lia) Hs) as (s' & E & L & H & U).
  exists (pad (Z.to_nat N) x), s'. split; auto. split. { rewrite pad_length. lia. } split; [apply pad_digits|].
  split. { rewrite pad_value by lia. f_equal. f_equal. lia. } auto.
Qed.

Lemma utoa2p_spec x : 0 <= x < 100 -> utoa2p x = Ok (le_value [48 + x / 10; 48 + x mod 10]).
Proof. exact (utoa2p_ok x). Qed.

Lemma simd_itoa_strict x tmp0 buf : -2147483648 < x < 2147483648 -> length tmp0 = 20%nat -> 21 <= zlen buf ->
  simd_itoa strict tmp0 x buf = Undef OobRead.
Proof.
  intros Hx Ht Hbuf. unfold simd_itoa.
  destruct (blit buf 0 [45]) as [buf1| | |] eqn:B1; try (rewrite blit_ok in B1 by (cbn [length]; lia); discriminate).
  cbn [bind]. rewrite abs_int_ok by lia. cbn [bind].
  destruct (itoa_loop_ok 4 6 (Z.abs x) [] tmp0) as (x' & front & tmp1 & E & T1 & T2 & H1 & H2 & H3 & H4 & H5).
  { auto. } { cbn [length]. intros; lia. } { change (100 ^ (Z.of_nat 4 + 1)) with 10000000000. lia. } { cbn; lia. } { lia. }
  rewrite app_nil_r in *. cbn [length Z.of_nat] in E. rewrite Z.sub_0_r in E. rewrite E. cbn [bind].
  rewrite utoa2p_ex_ok by lia.
  destruct (blit tmp1 (20 - zlen front - 2) (dig2 x')) as [tmp2| | |] eqn:B;
        try (rewrite blit_ok in B by (cbn [length dig2]; lia); discriminate).
  cbn [bind]. pose proof (blit_length _ _ _ _ B) as L1.
  rewrite rdn_strict_oob by (destruct (x' <? 10); lia). reflexivity.
Qed.

(** ** simd_atod *)
Lemma copySign_nonneg i d : 0 <= i < 9223372036854775808 -> 0 <= d < 9223372036854775808 -> copySign i d = - d.
Proof.
  intros Hi Hd. unfold copySign. rewrite Z.shiftr_div_pow2 by lia. rewrite Z.div_small by lia.
  change (not64 (u64 0)) with 18446744073709551615.
  set (y := u64 (d + 18446744073709551615)).
  assert (Hy : 0 <= y < 18446744073709551616) by apply u64_range.
  assert (E : Z.lxor y 18446744073709551615 = 18446744073709551615 - y).
  { rewrite <- not64_id by lia. unfold not64. change 18446744073709551615 with (Z.ones 64).
    apply Z.bits_inj'. intros n Hn. rewrite Z.lxor_spec. unfold u64. change 18446744073709551616 with (2 ^ 64).
    destruct (Z_lt_dec n 64).
    - rewrite Z.mod_pow2_bits_low by lia. rewrite Z.lnot_spec by lia. rewrite Z.ones_spec_low by lia.
      destruct (Z.testbit y n); reflexivity.
    - rewrite Z.mod_pow2_bits_high by lia. rewrite Z.ones_spec_high by lia.
      assert (Z.testbit y n = false). { destruct (Z.eq_dec y 0) as [->|]; [apply Z.testbit_0_l|].
        apply Z.bits_above_log2; [lia|]. apply Z.lt_le_trans with 64; [|lia]. apply Z.log2_lt_pow2; lia. }
      rewrite H. reflexivity. }
  rewrite E. unfold y. destruct (Z.eq_dec d 0) as [->|].
  - reflexivity.
  - replace (u64 (d + 18446744073709551615)) with (d - 1).
    + unfold s64, u64. cbv zeta. rewrite Z.mod_small by lia. destruct (Z.ltb_spec (18446744073709551615 - (d - 1)) 9223372036854775808); lia.
    + unfold u64. replace (d + 18446744073709551615) with (d - 1 + 1 * 18446744073709551616) by lia. rewrite Z.mod_add by lia. rewrite Z.mod_small; lia.
Qed.

Lemma copySign_neg i d : -9223372036854775808 <= i < 0 -> 0 <= d < 9223372036854775808 -> copySign i d = d.
Proof.
  intros Hi Hd. unfold copySign. rewrite Z.shiftr_div_pow2 by lia.
  replace (i / 2 ^ 63) with (-1) by (change (2 ^ 63) with 9223372036854775808; apply Z.div_unique with (i + 9223372036854775808); lia).
  change (not64 (u64 (-1))) with 0. rewrite Z.add_0_r, Z.lxor_0_r. rewrite u64_id by lia. apply s64_id. lia.
Qed.

(** the dot is at [k], after a signed number [v]: the value computed is v moved
    by frac / 10^(m+1) towards minus infinity if v >= 0, towards zero otherwise *)
Lemma simd_atod_sfrac fuel g b o len k v :
  bytes b -> 0 <= o -> 8 <= len -> o + len <= zlen b -> 1 <= k <= 20 -> 1 <= len - k - 1 <= 19 -> len <= 8 * Z.of_nat fuel ->
  signed_text (slice b o k) v -> at_ b (o + k) = 46 -> Forall is_digit (slice b (o + k + 1) (len - k - 1)) ->
  -9223372036854775808 < v < 9223372036854775808 -> dec_value (slice b (o + k + 1) (len - k - 1)) < 9223372036854775808 ->
  exists q, simd_atod fuel (machine g) b o len = Ok q /\
   (q == inject_Z v + inject_Z (if v <? 0 then dec_value (slice b (o + k + 1) (len - k - 1)) else - dec_value (slice b (o + k + 1) (len - k - 1)))
         * (1 # Z.to_pos (10 ^ (len - k))))%Q.
Proof.
  intros Hb Ho Hl Hin Hk Hm Hf D1 Dot D2 B1 B2. unfold simd_atod.
  assert (HF : Forall (fun c => c = 43 \/ c = 45 \/ is_digit c) (slice b o k)).
  { destruct D1 as (ds & _ & Hd & [(-> & _)|[(-> & _)|(-> & _)]]); repeat (constructor; auto);
    (eapply Forall_impl; [|exact Hd]); auto. }
  assert (HK : forall j, 0 <= j < k -> at_ b (o + j) = 43 \/ at_ b (o + j) = 45 \/ is_digit (at_ b (o + j))).
  { intros j Hj. rewrite <- (slice_item b o k) by lia. apply (proj1 (Forall_forall _ _) HF). apply nth_In.
    pose proof (slice_length b o k ltac:(lia) ltac:(lia) ltac:(lia)). lia. }
  assert (Hfirst : first_at 46 (slice b o len) k).
  { split; [rewrite slice_length by lia; lia|]. split; [rewrite slice_item by lia; auto|].
    intros j Hj. rewrite slice_item by lia. specialize (HK j Hj). unfold is_digit in HK. lia. }
  assert (W : printable_window b o len 46).
  { split; [lia|]. intros j Hj. change (item b (o + j)) with (at_ b (o + j)). destruct (Z_lt_dec j k); [|destruct (Z.eq_dec j k)].
    - specialize (HK j ltac:(lia)). unfold is_digit in HK. lia.
    - subst j. lia.
    - replace (o + j) with (o + k + 1 + (j - k - 1)) by lia.
      assert (Hd : is_digit (at_ b (o + k + 1 + (j - k - 1)))).
      { rewrite <- (slice_item b (o + k + 1) (len - k - 1)) by lia. apply (proj1 (Forall_forall _ _) D2). apply nth_In.
        pose proof (slice_length b (o + k + 1) (len - k - 1) ltac:(lia) ltac:(lia) ltac:(lia)). lia. }
      unfold is_digit in Hd. lia. }
  assert (EM : pmemchr fuel (machine g) b o len 46 = Ok k).
  { destruct (Z.eq_dec len 8) as [->|].
    - unfold pmemchr. apply memchr_ok8; auto; [unfold byte; lia|].
      intros _. destruct W as [W1 W2]. split; [|unfold ascii; lia]. intros j Hj. specialize (W2 j Hj).
      assert (byte (at_ b (o + j))) by (apply at_byte; auto; lia). unfold ascii, byte, at_, item in *. lia.
    - destruct (memchr_family fuel (machine g) b o len 46 Hb ltac:(lia) Ho ltac:(lia) Hin Hf) as [M _].
      destruct (M k Hfirst) as (_ & _ & MP). destruct (MP W) as [-> _]. reflexivity. }
  rewrite EM. cbn [bind].
  rewrite s32_id by lia. destruct (Z.eqb_spec k (-1)); [lia|]. rewrite u32_id by lia.
  pose proof (dec_value_bound _ D2) as P2.
  rewrite (simd_atoi_ok (machine g) b o k v); auto; try lia; try (left; discriminate).
  cbn [bind]. rewrite (u32_id (len - (k + 1))) by lia.
  replace (o + (k + 1)) with (o + k + 1) by lia. replace (len - (k + 1)) with (len - k - 1) by lia.
  rewrite simd_atou_ok; auto; try lia; try (left; discriminate).
  cbn [bind]. rewrite Z.mod_small by lia.
  set (fp := dec_value (slice b (o + k + 1) (len - k - 1))) in *.
  rewrite s64_id by lia. rewrite u64_id by lia.
  unfold scale. destruct (Z.leb_spec 0 (len - k - 1)); [|lia]. destruct (Z.ltb_spec (len - k - 1) 20); [|lia].
  cbn [andb bind]. eexists. split; [reflexivity|]. replace (len - k - 1 + 1) with (len - k) by lia.
  destruct (Z.ltb_spec v 0).
  - rewrite copySign_neg by lia. ring.
  - rewrite copySign_nonneg by lia. ring.
Qed.

(** the same for an integer part without a sign *)
Lemma simd_atod_frac fuel g b o len k :
  bytes b -> 0 <= o -> 8 <= len -> o + len <= zlen b -> 1 <= k <= 20 -> 1 <= len - k - 1 <= 19 -> len <= 8 * Z.of_nat fuel ->
  Forall is_digit (slice b o k) -> at_ b (o + k) = 46 -> Forall is_digit (slice b (o + k + 1) (len - k - 1)) ->
  dec_value (slice b o k) < 9223372036854775808 -> dec_value (slice b (o + k + 1) (len - k - 1)) < 9223372036854775808 ->
  exists q, simd_atod fuel (machine g) b o len = Ok q /\
   (q == inject_Z (dec_value (slice b o k)) - inject_Z (dec_value (slice b (o + k + 1) (len - k - 1))) * (1 # Z.to_pos (10 ^ (len - k))))%Q.
Proof.
  intros Hb Ho Hl Hin Hk Hm Hf D1 Dot D2 B1 B2. pose proof (dec_value_bound _ D1) as P1.
  destruct (simd_atod_sfrac fuel g b o len k (dec_value (slice b o k))) as (q & E & V); auto; try lia.
  { exists (slice b o k). split; [|split; auto]. intros E. pose proof (slice_length b o k ltac:(lia) ltac:(lia) ltac:(lia)) as HL. rewrite E in HL. cbn in HL. lia. }
  exists q. split; [exact E|]. rewrite V. destruct (Z.ltb_spec (dec_value (slice b o k)) 0); [lia|].
  rewrite inject_Z_opp. ring.
Qed.

Lemma simd_atod_int fuel g b o len v :
  bytes b -> 0 <= o -> 9 <= len <= 20 -> o + len <= zlen b -> len <= 8 * Z.of_nat fuel ->
  signed_text (slice b o len) v -> -9223372036854775808 < v < 9223372036854775808 ->
  simd_atod fuel (machine g) b o len = Ok (inject_Z v).
Proof.
  intros Hb Ho Hl Hin Hf HS Hv. unfold simd_atod.
  assert (HF : Forall (fun c => c = 43 \/ c = 45 \/ is_digit c) (slice b o len)).
  { destruct HS as (ds & _ & Hd & [(-> & _)|[(-> & _)|(-> & _)]]); repeat (constructor; auto);
    (eapply Forall_impl; [|exact Hd]); auto. }
  assert (Hn : ~ In 46 (slice b o len)).
  { intros H. pose proof (proj1 (Forall_forall _ _) HF _ H) as H1. cbv beta in H1. unfold is_digit in H1. lia. }
  assert (W : printable_window b o len 46).
  { split; [lia|]. intros j Hj. change (item b (o + j)) with (at_ b (o + j)). rewrite <- (slice_item b o len) by lia.
    assert (H : In (item (slice b o len) j) (slice b o len)).
    { apply nth_In. pose proof (slice_length b o len ltac:(lia) ltac:(lia) ltac:(lia)). lia. }
    pose proof (proj1 (Forall_forall _ _) HF _ H) as H1. cbv beta in H1. unfold is_digit in H1. lia. }
  destruct (memchr_family fuel (machine g) b o len 46 Hb ltac:(lia) Ho ltac:(lia) Hin Hf) as [_ M].
  destruct (M Hn) as [_ MP]. rewrite (MP W). cbn [bind]. change (s32 4294967295 =? -1) with true. cbv iota.
  rewrite (simd_atoi_ok (machine g) b o len v); auto; try lia; try (left; discriminate).
Qed.

(** ** simd_atod outside the table of scales *)
Lemma atou8_machine g b o len : exists v, atou8 (machine g) b o len = Ok v.
Proof.
  unfold atou8, load_len. rewrite (cast_get (machine g) b o (o + 8)) by (try lia; left; cbn; discriminate). cbn [bind].
  assert (X : forall x n, exists y, shl64 (machine g) x n = Ok y).
  { intros x n. unfold shl64. destruct ((0 <=? n) && (n <? 64)); cbn [machine wide_shift]; eauto. }
  match goal with |- context [shl64 _ ?x ?n] => destruct (X x n) as [y ->] end. cbn [bind]. eauto.
Qed.
Lemma simd_atou_machine g b o len : exists v, simd_atou (machine g) b o len = Ok v.
Proof.
  unfold simd_atou. destruct (8 <? len); cbv zeta.
  - destruct (atou8_machine g b o (len mod 8)) as [x ->]. cbn [bind]. destruct (8 <? len - len mod 8).
    + destruct (atou8_machine g b (o + len mod 8) 8) as [y ->]. cbn [bind].
      match goal with |- context [atou8 _ ?b ?p ?n] => destruct (atou8_machine g b p n) as [z ->] end. cbn [bind]. eauto.
    + cbn [bind]. match goal with |- context [atou8 _ ?b ?p ?n] => destruct (atou8_machine g b p n) as [z ->] end. cbn [bind]. eauto.
  - cbn [bind]. destruct (atou8_machine g b o len) as [z ->]. cbn [bind]. eauto.
Qed.
Lemma simd_atoi_machine g b o len : exists v, simd_atoi (machine g) b o len = Ok v.
Proof.
  unfold simd_atoi. assert (X : exists x, rd (machine g) b o = Ok x).
  { unfold rd. destruct (_ && _); cbn; eauto. }
  destruct X as [x ->]. cbn [bind].
  match goal with |- context [simd_atou _ ?b ?p ?n] => destruct (simd_atou_machine g b p n) as [z ->] end. cbn [bind machine wide_shift negb].
  rewrite andb_false_r. destruct (_ && _); eauto.
Qed.
(** the scale index is 20 or more *)
Lemma simd_atod_off_table fuel g b o len k : pmemchr fuel (machine g) b o len 46 = Ok k -> 0 <= k < 2147483648 ->
  20 <= u32 (len - (k + 1)) -> simd_atod fuel (machine g) b o len = Undef OobRead.
Proof.
  intros E Hk Hs. unfold simd_atod. rewrite E. cbn [bind]. rewrite s32_id by lia.
  destruct (Z.eqb_spec k (-1)); [lia|].
  match goal with |- context [simd_atoi _ ?b ?p ?n] => destruct (simd_atoi_machine g b p n) as [z ->] end. cbn [bind].
  match goal with |- context [simd_atou _ ?b ?p ?n] => destruct (simd_atou_machine g b p n) as [y ->] end. cbn [bind].
  unfold scale. destruct (Z.ltb_spec (u32 (len - (k + 1))) 20); [lia|]. rewrite andb_false_r. reflexivity.
Qed.

Lemma simd_atod_small fuel g b o len : bytes b -> 0 <= o -> 1 <= len <= 8 -> 8 * Z.of_nat fuel + 8 < 2147483648 ->
  (forall i, get (machine g) b i < 128) -> o + len <= zlen b -> (len = 8 -> ~ In 46 (slice b o 8)) ->
  (simd_atod fuel (machine g) b o len = Undef OobRead /\ exists k, len <= k < 8 * Z.of_nat fuel + 8 /\ get (machine g) b (o + k) = 46) \/
  (simd_atod fuel (machine g) b o len = NoFuel /\ forall k, len <= k < len + 8 * Z.of_nat fuel -> get (machine g) b (o + k) <> 46).
Proof.
  intros Hb Ho Hl Hf Ha Hin Hn.
  assert (HA : forall i, ascii (get (machine g) b i)).
  { intros i. pose proof (get_byte (machine g) b i Hb). specialize (Ha i). unfold ascii, byte in *. lia. }
  pose proof (small_result g true false b o 46 Hb ltac:(unfold byte; lia) Ho ltac:(intros _; split; [unfold ascii; lia|exact HA]) len fuel Hl ltac:(lia) ltac:(lia)) as H.
  cbv zeta in H. destruct (memchr_ fuel (machine g) true false b o len 46) as [k| | |] eqn:E; try contradiction.
  - left. destruct H as (H1 & H2 & H3). assert (Hk : len <= k).
    { destruct (Z.eqb_spec len 8) as [->|]; [|lia]. destruct (Z_lt_dec k 8); [|lia]. exfalso. apply (Hn eq_refl).
      apply slice_in; try lia. exists k. split; [lia|]. rewrite get_in in H2 by lia. exact H2. }
    split; [|exists k; split; [lia|exact H2]].
    apply (simd_atod_off_table fuel g b o len k); auto; [destruct (len =? 8); lia|].
    unfold u32. replace (len - (k + 1)) with (len - (k + 1) + 4294967296 + (-1) * 4294967296) by lia.
    rewrite Z.mod_add by lia. rewrite Z.mod_small; lia.
  - right. split; [|intros; apply H; destruct (len =? 8); lia]. unfold simd_atod, pmemchr. rewrite E. reflexivity.
Qed.

Lemma simd_atod_long fuel g b o len k : bytes b -> 0 <= o -> 9 <= len < 4294967296 -> o + len <= zlen b -> len <= 8 * Z.of_nat fuel ->
  (forall j, 0 <= j < len -> at_ b (o + j) < 128) -> first_at 46 (slice b o len) k -> k < 2147483648 -> 20 <= len - k - 1 ->
  simd_atod fuel (machine g) b o len = Undef OobRead.
Proof.
  intros Hb Ho Hl Hin Hf Ha Hk Hk2 Hm.
  destruct (memchr_family fuel (machine g) b o len 46 Hb ltac:(lia) Ho ltac:(lia) Hin Hf) as [M _].
  destruct (M k Hk) as (_ & _ & MP). destruct MP as [E _]. { split; [lia|exact Ha]. }
  assert (0 <= k) by (destruct Hk; lia).
  apply (simd_atod_off_table fuel g b o len k E); [lia|]. rewrite u32_id by lia. lia.
Qed.
