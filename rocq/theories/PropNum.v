(** C06-C13: number printing and parsing. *)
From Coq Require Import String.
From Verif Require Import NumFinal.
Open Scope Z_scope.


(** * C06 *)
Theorem utoap_padded : forall S N x s, 0 <= N <= 20 -> 0 <= x < 2 ^ 64 -> 24 <= Z.of_nat (length s) ->
  exists t s', utoap S N x s = Ok s' /\ Z.of_nat (length t) = N /\ Forall is_digit t /\ dec_value t = x mod 10 ^ N /\
    holds_cstr s' 0 t /\ length s' = length s /\
    (forall k, 24 <= k < Z.of_nat (length s) -> item s' k = item s k).
Proof. exact utoap_spec. Qed.
Theorem utoa2p_two_digits : forall x, 0 <= x < 100 -> utoa2p x = Ok (le_value [48 + x / 10; 48 + x mod 10]).
Proof. exact utoa2p_spec. Qed.
Example utoap_case : exists s', utoap strict 17 90071992547409929 (repeat 1 24) = Ok s' /\ slice s' 0 18 = (bs "90071992547409929" ++ [0])%list.
Proof. eexists. split; vm_compute; reflexivity. Qed.

(** * C07 *)
Theorem itoa8_decimal : forall S x buf, Z.abs x < 10 ^ 8 -> 10 <= Z.of_nat (length buf) ->
  exists s buf', itoa8 S x buf = Ok (Z.of_nat (length s), buf') /\ decimal_text x s /\ holds_cstr buf' 0 s /\
    length buf' = length buf /\ forall k, 10 <= k < Z.of_nat (length buf) -> item buf' k = item buf k.
Proof. exact itoa8_ok. Qed.
Example itoa8_case : exists b, itoa8 strict (-12345678) (repeat 7 11) = Ok (9, b) /\ slice b 0 10 = (bs "-12345678" ++ [0])%list.
Proof. eexists. split; vm_compute; reflexivity. Qed.

(** * C08 *)
Theorem simd_itoa_partial : forall g tmp0 x buf,
  - 2 ^ 31 < x < 2 ^ 31 -> length tmp0 = 20%nat -> 21 <= Z.of_nat (length buf) ->
  exists s buf', simd_itoa (machine g) tmp0 x buf = Ok (Z.of_nat (length s), buf') /\ decimal_text x s /\ holds_cstr buf' 0 s /\
    length buf' = length buf /\ forall k, 21 <= k < Z.of_nat (length buf) -> item buf' k = item buf k.
Proof. exact simd_itoa_ok. Qed.
(** The copy out of the local array always leaves it (undefined in the ISO reading). *)
Theorem simd_itoa_overreads : forall x tmp0 buf,
  - 2 ^ 31 < x < 2 ^ 31 -> length tmp0 = 20%nat -> 21 <= Z.of_nat (length buf) ->
  simd_itoa strict tmp0 x buf = Undef OobRead.
Proof. exact simd_itoa_strict. Qed.
(** What is printed for every 64-bit x, where [low32 x] is the signed number in its low 32 bits:
    the sign of x, then the magnitude of [low32 x]; the text is the right one exactly
    when x fits in 32 bits.  The low word 0x80000000 is undefined (abs of INT_MIN). *)
Definition low32 (x : Z) : Z := (x + 2 ^ 31) mod 2 ^ 32 - 2 ^ 31.
Lemma low32_s32 x : s32 x = low32 x.
Proof.
  unfold s32, u32, low32. change (2 ^ 31) with 2147483648. change (2 ^ 32) with 4294967296.
  destruct (Z.ltb_spec (x mod 4294967296) 2147483648); Z.to_euclidean_division_equations; lia.
Qed.
Lemma low32_range x : - 2 ^ 31 <= low32 x < 2 ^ 31.
Proof. unfold low32. change (2 ^ 31) with 2147483648. change (2 ^ 32) with 4294967296. Z.to_euclidean_division_equations; lia. Qed.
Lemma low32_id x : - 2 ^ 31 <= x < 2 ^ 31 -> low32 x = x.
Proof. unfold low32. change (2 ^ 31) with 2147483648. change (2 ^ 32) with 4294967296. intros. rewrite Z.mod_small; lia. Qed.
Lemma abs_low32 x : low32 x <> - 2 ^ 31 -> abs_int x = Ok (Z.abs (low32 x)).
Proof. intros. unfold abs_int. rewrite low32_s32. destruct (Z.eqb_spec (low32 x) (-2147483648)); [lia|reflexivity]. Qed.

Theorem simd_itoa_exact : forall g tmp0 x buf,
  length tmp0 = 20%nat -> 21 <= Z.of_nat (length buf) -> low32 x <> - 2 ^ 31 ->
  exists ds buf', let s := if x <? 0 then 45 :: ds else ds in
    decimal_text (Z.abs (low32 x)) ds /\
    simd_itoa (machine g) tmp0 x buf = Ok (Z.of_nat (length s), buf') /\ holds_cstr buf' 0 s /\
    length buf' = length buf /\ (forall k, 21 <= k < Z.of_nat (length buf) -> item buf' k = item buf k) /\
    (decimal_text x s <-> - 2 ^ 31 < x < 2 ^ 31).
Proof.
  intros g tmp0 x buf Ht Hb Hlow. pose proof (low32_range x) as R.
  destruct (simd_itoa_gen g tmp0 x (Z.abs (low32 x)) buf) as (ds & s & buf' & -> & E & (D1 & D2 & D3 & D4) & H & L & U); auto.
  { apply abs_low32; auto. } { lia. }
  exists ds, buf'. cbv zeta. split.
  { exists ds. repeat split; auto. left. repeat split; auto. lia. }
  split; [exact E|]. split; [exact H|]. split; [exact L|]. split; [exact U|]. split.
  - intros (ds' & N1 & N2 & N3 & HV).
    assert (Q : Z.abs x = Z.abs (low32 x)).
    { destruct (Z.ltb_spec x 0) as [Neg|Pos].
      - destruct HV as [(HV & _)|(_ & Eq & V)]; [lia|]. injection Eq as Eq. subst ds'. lia.
      - destruct HV as [(_ & Eq & V)|(HV & _)]; [|lia]. subst ds'. lia. }
    lia.
  - intros Hx. apply decimal_of; auto. rewrite D4, low32_id by lia. reflexivity.
Qed.
Theorem simd_itoa_int_min : forall S tmp0 x buf, 1 <= Z.of_nat (length buf) -> low32 x = - 2 ^ 31 ->
  simd_itoa S tmp0 x buf = Undef SignedOverflow.
Proof.
  intros S tmp0 x buf Hb Hx. unfold simd_itoa. rewrite blit_ok by (cbn [length]; lia). cbn [bind].
  unfold abs_int. rewrite low32_s32, Hx. reflexivity.
Qed.
(** Not every int64_t is printed: the magnitude is cut to 32 bits. *)
Theorem simd_itoa_refuted : exists x tmp0 buf n buf', - 2 ^ 63 < x < 2 ^ 63 /\ length tmp0 = 20%nat /\ 22 <= Z.of_nat (length buf) /\
  simd_itoa (machine (fun _ => 0)) tmp0 x buf = Ok (n, buf') /\ holds_cstr buf' 0 (bs "0") /\ ~ decimal_text x (bs "0").
Proof.
  exists (2 ^ 32), (repeat 0 20), (repeat 0 22). eexists. eexists.
  split; [lia|]. split; [reflexivity|]. split; [vm_compute; discriminate|]. split; [vm_compute; reflexivity|].
  split; [vm_compute; reflexivity|].
  intros (ds & _ & _ & _ & [(_ & E & V)|(H & _)]); [|vm_compute in H; discriminate].
  rewrite <- E in V. vm_compute in V. discriminate.
Qed.
Example simd_itoa_case : exists b, simd_itoa (machine (fun i => i)) (repeat 3 20) (-2147483647) (repeat 9 22) = Ok (11, b)
  /\ slice b 0 12 = (bs "-2147483647" ++ [0])%list.
Proof. eexists. split; vm_compute; reflexivity. Qed.

(** * C09 *)
Theorem simd_atou_exact : forall S b o len, all_bytes b -> 0 <= o -> 1 <= len <= 20 -> o + len <= Z.of_nat (length b) ->
  oob S <> None \/ o + 8 <= Z.of_nat (length b) -> (len = 16 -> wide_shift S = true) ->
  Forall is_digit (slice b o len) -> simd_atou S b o len = Ok (dec_value (slice b o len) mod 2 ^ 64).
Proof. exact simd_atou_ok. Qed.
Theorem atou8_exact : forall S b o len, all_bytes b -> 0 <= o -> 1 <= len <= 8 -> o + len <= Z.of_nat (length b) ->
  oob S <> None \/ o + 8 <= Z.of_nat (length b) ->
  Forall is_digit (slice b o len) -> atou8 S b o len = Ok (dec_value (slice b o len)).
Proof. exact atou8_ok. Qed.
(** Without the machine reading: sixteen digits shift by 64; short texts at the end of a block are over-read. *)
Theorem simd_atou_strict_refuted : exists b, Forall is_digit b /\ length b = 16%nat /\ simd_atou strict b 0 16 = Undef BadShift.
Proof. exists (bs "1234567890123456"). split; [apply digits_dec; reflexivity|]. split; reflexivity. Qed.
Theorem simd_atou_overread_refuted : exists b, Forall is_digit b /\ length b = 2%nat /\ simd_atou strict b 0 2 = Undef OobRead.
Proof. exists (bs "12"). split; [apply digits_dec; reflexivity|]. split; reflexivity. Qed.
Example simd_atou_case : simd_atou strict (cs "18446744073709551615") 0 20 = Ok 18446744073709551615
  /\ Forall is_digit (slice (cs "18446744073709551615") 0 20).
Proof. split; [vm_compute; reflexivity|apply digits_dec; reflexivity]. Qed.

(** * C10 *)
Theorem simd_atoi_exact : forall S b o len v, all_bytes b -> 0 <= o -> 1 <= len <= 21 -> o + len <= Z.of_nat (length b) ->
  oob S <> None \/ o + 9 <= Z.of_nat (length b) -> (16 <= len <= 17 -> wide_shift S = true) ->
  signed_text (slice b o len) v -> - 2 ^ 63 <= v < 2 ^ 63 -> (v = - 2 ^ 63 -> wide_shift S = true) ->
  (len <= 20 \/ item b o = 45 \/ item b o = 43) ->
  simd_atoi S b o len = Ok v.
Proof.
  intros S b o len v Hb Ho Hl Hin Hr Hw Ht Hv Hm H20. destruct (Z.eq_dec v (- 2 ^ 63)) as [E|N].
  - rewrite (simd_atoi_least S b o len); auto; [rewrite Hm by auto; rewrite E; reflexivity|]. rewrite E in Ht. exact Ht.
  - apply simd_atoi_ok; auto. change (-9223372036854775808) with (- 2 ^ 63). change 9223372036854775808 with (2 ^ 63). lia.
Qed.
(** INT64_MIN itself: the machine gives the right answer, ISO C does not define it, however many zeros precede the digits. *)
Theorem simd_atoi_minimum : forall S b o len, all_bytes b -> 0 <= o -> 1 <= len <= 21 -> o + len <= Z.of_nat (length b) ->
  oob S <> None \/ o + 9 <= Z.of_nat (length b) -> (16 <= len <= 17 -> wide_shift S = true) -> signed_text (slice b o len) (- 2 ^ 63) ->
  simd_atoi S b o len = if wide_shift S then Ok (- 2 ^ 63) else Undef SignedOverflow.
Proof. exact simd_atoi_least. Qed.
Example simd_atoi_min : simd_atoi (machine (fun _ => 0)) (cs "-9223372036854775808") 0 20 = Ok (- 2 ^ 63) /\
  simd_atoi strict (cs "-9223372036854775808") 0 20 = Undef SignedOverflow.
Proof. vm_compute. auto. Qed.
Example simd_atoi_case : simd_atoi strict (cs "-90071992547") 0 12 = Ok (-90071992547) /\
  signed_text (slice (cs "-90071992547") 0 12) (-90071992547).
Proof.
  split; [vm_compute; reflexivity|]. exists (bs "90071992547"). split; [discriminate|]. split; [apply digits_dec; reflexivity|].
  right; right. split; vm_compute; reflexivity.
Qed.

(** * C11 *)
Theorem itoa8_roundtrip : forall S x buf, all_bytes buf -> Z.abs x < 10 ^ 8 -> 10 <= Z.of_nat (length buf) ->
  exists n buf', itoa8 S x buf = Ok (n, buf') /\ simd_atoi S buf' 0 n = Ok x.
Proof. exact itoa8_atoi. Qed.
Theorem simd_itoa_roundtrip_partial : forall g tmp0 x buf,
  all_bytes tmp0 -> all_bytes buf -> - 2 ^ 31 < x < 2 ^ 31 -> length tmp0 = 20%nat -> 21 <= Z.of_nat (length buf) ->
  exists n buf', simd_itoa (machine g) tmp0 x buf = Ok (n, buf') /\ simd_atoi (machine g) buf' 0 n = Ok x.
Proof. exact simd_itoa_atoi. Qed.
(** What comes back for every 64-bit x: the magnitude of its low 32 bits with the sign of x. *)
Theorem simd_itoa_roundtrip_exact : forall g tmp0 x buf,
  all_bytes tmp0 -> all_bytes buf -> length tmp0 = 20%nat -> 21 <= Z.of_nat (length buf) -> low32 x <> - 2 ^ 31 ->
  exists n buf', simd_itoa (machine g) tmp0 x buf = Ok (n, buf') /\
    simd_atoi (machine g) buf' 0 n = Ok (if x <? 0 then - Z.abs (low32 x) else Z.abs (low32 x)).
Proof.
  intros g tmp0 x buf Ht Hb Htl Hl Hlow. pose proof (low32_range x) as R.
  destruct (simd_itoa_gen g tmp0 x (Z.abs (low32 x)) buf) as (ds & s & buf' & Es & E & (D1 & D2 & D3 & D4) & H & L & _); auto.
  { apply abs_low32; auto. } { lia. }
  exists (Z.of_nat (length s)), buf'. split; auto. pose proof (simd_itoa_bytes _ _ _ _ _ _ Ht Hb E) as Hb'.
  destruct (holds_cstr_slice _ _ H) as [Hs Hz].
  assert (Hd : 1 <= Z.of_nat (length ds) <= 10).
  { split. { destruct ds; [congruence|cbn [length]; lia]. }
    destruct (Z_le_dec (Z.of_nat (length ds)) 10); auto. exfalso. destruct ds as [|d ds]; [cbn in *; lia|].
    specialize (D3 ltac:(lia)). unfold item in D3. cbn [Z.to_nat nth] in D3. inversion D2; subst. unfold is_digit in H2.
    change (d :: ds) with ([d] ++ ds)%list in D4. rewrite dec_value_app, dec_value_one in D4.
    pose proof (dec_value_bound ds H3). assert (10 ^ 10 <= 10 ^ Z.of_nat (length ds)) by (apply Z.pow_le_mono_r; cbn [length] in n; lia).
    change (10 ^ 10) with 10000000000 in H1. change (2 ^ 31) with 2147483648 in *. nia. }
  assert (Hlen : 1 <= Z.of_nat (length s) <= 11) by (rewrite Es; destruct (x <? 0); cbn [length]; lia).
  apply simd_atoi_ok; auto; try lia; try (left; discriminate).
  - rewrite Hs, Es. exists ds. split; [auto|]. split; [auto|]. rewrite D4.
    destruct (x <? 0); [right; right|left]; split; reflexivity.
  - destruct (x <? 0); lia.
Qed.
Theorem simd_itoa_roundtrip_refuted : exists x tmp0 buf n buf' y, - 2 ^ 63 < x < 2 ^ 63 /\ length tmp0 = 20%nat /\ 22 <= Z.of_nat (length buf) /\
  simd_itoa (machine (fun _ => 0)) tmp0 x buf = Ok (n, buf') /\ simd_atoi (machine (fun _ => 0)) buf' 0 n = Ok y /\ x <> y.
Proof.
  exists (2 ^ 32), (repeat 0 20), (repeat 0 22). eexists. eexists. exists 0.
  split; [lia|]. split; [reflexivity|]. split; [vm_compute; discriminate|]. split; [vm_compute; reflexivity|].
  split; [vm_compute; reflexivity|]. discriminate.
Qed.

(** * C12 *)
Theorem simd_htou_exact : forall S b o len, all_bytes b -> 0 <= o -> 1 <= len <= 16 -> o + len <= Z.of_nat (length b) ->
  oob S <> None \/ o + 8 <= Z.of_nat (length b) ->
  Forall is_hex (slice b o len) -> simd_htou S b o len = Ok (hex_value (slice b o len)).
Proof. exact simd_htou_ok. Qed.
Theorem htou8_exact : forall S b o len, all_bytes b -> 0 <= o -> 1 <= len <= 8 -> o + len <= Z.of_nat (length b) ->
  oob S <> None \/ o + 8 <= Z.of_nat (length b) ->
  Forall is_hex (slice b o len) -> htou8 S b o len = Ok (hex_value (slice b o len)) /\ 0 <= hex_value (slice b o len) < 2 ^ 32.
Proof. exact htou8_ok. Qed.
Example simd_htou_case : simd_htou strict (cs "dEadBeef09") 0 10 = Ok 0xdeadbeef09 /\ hex_value (slice (cs "dEadBeef09") 0 10) = 0xdeadbeef09.
Proof. vm_compute. auto. Qed.

(** * C13 *)
(** Texts of 9 to 20 characters without a fraction. *)
Theorem simd_atod_integer_partial : forall fuel g b o len v,
  all_bytes b -> 0 <= o -> 9 <= len <= 20 -> o + len <= Z.of_nat (length b) -> len <= 8 * Z.of_nat fuel ->
  signed_text (slice b o len) v -> - 2 ^ 63 < v < 2 ^ 63 ->
  simd_atod fuel (machine g) b o len = Ok (inject_Z v).
Proof. exact simd_atod_int. Qed.
(** With a fraction of m digits the result is i - f/10^(m+1), where the text
    denotes i + f/10^m: wrong for every non-zero fraction. *)
Theorem simd_atod_fraction_value : forall fuel g b o len k,
  all_bytes b -> 0 <= o -> 8 <= len -> o + len <= Z.of_nat (length b) -> 1 <= k <= 20 -> 1 <= len - k - 1 <= 19 -> len <= 8 * Z.of_nat fuel ->
  Forall is_digit (slice b o k) -> item b (o + k) = 46 -> Forall is_digit (slice b (o + k + 1) (len - k - 1)) ->
  dec_value (slice b o k) < 2 ^ 63 -> dec_value (slice b (o + k + 1) (len - k - 1)) < 2 ^ 63 ->
  exists q, simd_atod fuel (machine g) b o len = Ok q /\
   (q == inject_Z (dec_value (slice b o k)) - inject_Z (dec_value (slice b (o + k + 1) (len - k - 1))) * (1 # Z.to_pos (10 ^ (len - k))))%Q.
Proof. exact simd_atod_frac. Qed.
(** The same with a sign: a negative integer part is moved towards zero. *)
Theorem simd_atod_signed_value : forall fuel g b o len k v,
  all_bytes b -> 0 <= o -> 8 <= len -> o + len <= Z.of_nat (length b) -> 1 <= k <= 20 -> 1 <= len - k - 1 <= 19 -> len <= 8 * Z.of_nat fuel ->
  signed_text (slice b o k) v -> item b (o + k) = 46 -> Forall is_digit (slice b (o + k + 1) (len - k - 1)) ->
  - 2 ^ 63 < v < 2 ^ 63 -> dec_value (slice b (o + k + 1) (len - k - 1)) < 2 ^ 63 ->
  exists q, simd_atod fuel (machine g) b o len = Ok q /\
   (q == inject_Z v + inject_Z (if v <? 0 then dec_value (slice b (o + k + 1) (len - k - 1)) else - dec_value (slice b (o + k + 1) (len - k - 1)))
         * (1 # Z.to_pos (10 ^ (len - k))))%Q.
Proof. exact simd_atod_sfrac. Qed.
(** The number a text sign ip . fp denotes. *)
Definition denoted (minus : bool) (ip fp : list Z) : Q :=
  let a := (inject_Z (dec_value ip) + inject_Z (dec_value fp) * (1 # Z.to_pos (10 ^ Z.of_nat (length fp))))%Q in
  if minus then (- a)%Q else a.
(** A text of at least 8 characters with 1..19 fraction digits is read right
    exactly when all fraction digits are zero. *)
Theorem simd_atod_right_iff : forall fuel g b o len (minus : bool) ip fp,
  all_bytes b -> 0 <= o -> 8 <= len -> o + len <= Z.of_nat (length b) -> len <= 8 * Z.of_nat fuel ->
  slice b o len = ((if minus then [45] else []) ++ ip ++ 46 :: fp)%list ->
  ip <> [] -> (length ip <= 19)%nat -> (1 <= length fp <= 19)%nat -> Forall is_digit ip -> Forall is_digit fp ->
  dec_value ip < 2 ^ 63 -> dec_value fp < 2 ^ 63 ->
  exists q, simd_atod fuel (machine g) b o len = Ok q /\ ((q == denoted minus ip fp)%Q <-> dec_value fp = 0).
Proof.
  intros fuel g b o len minus ip fp Hb Ho Hl Hin Hf Ht Hip Lip Lfp Dip Dfp Bip Bfp.
  set (sg := if minus then [45] else []) in *.
  set (k := Z.of_nat (length (sg ++ ip))).
  pose proof (slice_length b o len Ho ltac:(lia) Hin) as HL. rewrite Ht, !app_length in HL. cbn [length] in HL.
  assert (Hk : k = Z.of_nat (length sg) + Z.of_nat (length ip)) by (unfold k; rewrite app_length; lia).
  assert (Hs : (length sg <= 1)%nat) by (unfold sg; destruct minus; cbn; lia).
  assert (Hi1 : (1 <= length ip)%nat) by (destruct ip; [congruence|cbn; lia]).
  assert (Hm : len - k - 1 = Z.of_nat (length fp)) by lia.
  assert (E1 : slice b o k = (sg ++ ip)%list /\ slice b (o + k) (len - k) = 46 :: fp).
  { assert (X : slice b o len = (slice b o k ++ slice b (o + k) (len - k))%list).
    { rewrite <- slice_app by lia. f_equal. lia. }
    rewrite Ht, app_assoc in X. pose proof (slice_length b o k Ho ltac:(lia) ltac:(lia)) as LK.
    assert (LE : length (sg ++ ip) = length (slice b o k)) by (unfold k in *; lia).
    split; [|].
    - apply (f_equal (firstn (length (sg ++ ip)))) in X. rewrite firstn_app, Nat.sub_diag, firstn_all in X. cbn [firstn] in X.
      rewrite app_nil_r in X. rewrite LE, firstn_app, Nat.sub_diag, firstn_all in X. cbn [firstn] in X. rewrite app_nil_r in X. auto.
    - apply (f_equal (skipn (length (sg ++ ip)))) in X. rewrite skipn_app, Nat.sub_diag, skipn_all in X. cbn [skipn app] in X.
      rewrite LE, skipn_app, Nat.sub_diag, skipn_all in X. cbn [skipn app] in X. auto. }
  destruct E1 as [E1 E2]. rewrite slice_cons in E2 by lia. injection E2 as E3 E4.
  pose proof (dec_value_bound _ Dip) as P1. pose proof (dec_value_bound _ Dfp) as P2.
  set (v := if minus then - dec_value ip else dec_value ip).
  replace (len - k - 1) with (len - k - 1) in E4 by lia.
  destruct (simd_atod_sfrac fuel g b o len k v) as (q & Eq & V); auto; try lia.
  { rewrite E1. exists ip. split; [auto|]. split; [auto|]. unfold sg, v. destruct minus; [right; right|left]; split; reflexivity. }
  { rewrite E4. auto. }
  { unfold v. destruct minus; lia. }
  { rewrite E4. lia. }
  exists q. split; [exact Eq|]. rewrite V, E4. clear V Eq q.
  replace (len - k) with (Z.of_nat (length fp) + 1) by lia. unfold denoted.
  remember (Z.of_nat (length fp)) as m eqn:Em.
  assert (Hd : (1 # Z.to_pos (10 ^ (m + 1)) == (1 # 10) * (1 # Z.to_pos (10 ^ m)))%Q).
  { rewrite Z.pow_add_r by lia. change (10 ^ 1) with 10. rewrite Z.mul_comm. rewrite Z2Pos.inj_mul by (try apply Z.pow_pos_nonneg; lia). reflexivity. }
  assert (Hp : ~ ((1 # Z.to_pos (10 ^ m)) == 0)%Q) by (unfold Qeq; cbn; lia).
  remember (1 # Z.to_pos (10 ^ m))%Q as e eqn:Ee. rewrite Hd. clear Ee Hd.
  remember (dec_value fp) as f eqn:Ef. remember (dec_value ip) as a eqn:Ea.
  split.
  - intros H.
    assert (X : forall t, (t == 0)%Q -> forall c, (t == inject_Z f * c * e)%Q -> ~ (c == 0)%Q -> f = 0).
    { intros t H0 c H1 Hc. rewrite H0 in H1. symmetry in H1. apply Qmult_integral in H1. destruct H1 as [H1|]; [|contradiction].
      apply Qmult_integral in H1. destruct H1 as [H1|]; [|contradiction]. unfold Qeq in H1. cbn in H1. lia. }
    unfold v in H. destruct minus.
    + destruct (Z.ltb_spec (- a) 0).
      * apply (X (inject_Z (- a) + inject_Z f * ((1 # 10) * e) - - (inject_Z a + inject_Z f * e))%Q) with (c := (11 # 10)%Q).
        { rewrite H. ring. } { rewrite inject_Z_opp. ring. } { discriminate. }
      * apply (X (inject_Z (- a) + inject_Z (- f) * ((1 # 10) * e) - - (inject_Z a + inject_Z f * e))%Q) with (c := (9 # 10)%Q).
        { rewrite H. ring. } { rewrite !inject_Z_opp. ring. } { discriminate. }
    + destruct (Z.ltb_spec a 0); [lia|].
      apply (X (inject_Z a + inject_Z (- f) * ((1 # 10) * e) - (inject_Z a + inject_Z f * e))%Q) with (c := (- (11 # 10))%Q).
      { rewrite H. ring. } { rewrite !inject_Z_opp. ring. } { discriminate. }
  - intros ->. unfold v. destruct minus; [rewrite inject_Z_opp|]; destruct (_ <? 0); cbn [Z.opp]; change (inject_Z 0) with 0%Q; ring.
Qed.
(** A text of 1..8 characters (of 8 only without a dot) never gives a number:
    the search for the dot leaves the text, and the first '.' found behind it makes
    the index of the scale table wrap to 2^32 - something.  [char_at] is the memory
    in and around the block; all of it is taken to be 7-bit. *)
Definition char_at (g : Z -> Z) (b : list Z) (i : Z) : Z :=
  if (0 <=? i) && (i <? Z.of_nat (length b)) then item b i else g i mod 256.
Theorem simd_atod_short_undefined : forall fuel g b o len, all_bytes b -> 0 <= o -> 1 <= len <= 8 -> 8 * Z.of_nat fuel + 8 < 2 ^ 31 ->
  (forall i, char_at g b i < 128) -> o + len <= Z.of_nat (length b) -> (len = 8 -> ~ In 46 (slice b o 8)) ->
  (simd_atod fuel (machine g) b o len = Undef OobRead /\ exists k, len <= k < 8 * Z.of_nat fuel + 8 /\ char_at g b (o + k) = 46) \/
  (simd_atod fuel (machine g) b o len = NoFuel /\ forall k, len <= k < len + 8 * Z.of_nat fuel -> char_at g b (o + k) <> 46).
Proof. exact simd_atod_small. Qed.
(** In ISO C a text with fewer than 8 bytes up to the end of its block is always
    an out-of-bounds read. *)
Theorem simd_atod_short_overreads : forall fuel b o len, 0 <= o -> 0 <= len -> Z.of_nat (length b) < o + 8 ->
  simd_atod fuel strict b o len = Undef OobRead.
Proof. intros. unfold simd_atod, pmemchr. rewrite memchr_strict_short by lia. reflexivity. Qed.
(** Twenty or more characters behind the dot: the table of scales is overrun. *)
Theorem simd_atod_long_fraction_undefined : forall fuel g b o len k,
  all_bytes b -> 0 <= o -> 9 <= len < 2 ^ 32 -> o + len <= Z.of_nat (length b) -> len <= 8 * Z.of_nat fuel ->
  (forall j, 0 <= j < len -> item b (o + j) < 128) -> first_at 46 (slice b o len) k -> k < 2 ^ 31 -> 20 <= len - k - 1 ->
  simd_atod fuel (machine g) b o len = Undef OobRead.
Proof. exact simd_atod_long. Qed.
Theorem simd_atod_refuted : exists q, simd_atod 4 (machine (fun _ => 0)) (cs "12345.6789") 0 10 = Ok q /\
  Qlt q (12345 # 1) /\ ~ (q == 123456789 # 10000)%Q.
Proof. eexists. split; [vm_compute; reflexivity|]. split; vm_compute; congruence. Qed.

(** * The theorems above on concrete values: their hypotheses can be met. *)
Ltac calc := vm_compute; first [reflexivity | discriminate | (intros; discriminate)].
Ltac met := first [ lia | (left; discriminate) | (right; calc) | (apply all_bytes_dec; calc) | (apply digits_dec; calc) | (intros; lia) | (intros; reflexivity) | calc | (split; calc) ].
Lemma hex_dec l : forallb (fun x => ((48 <=? x) && (x <=? 57)) || ((65 <=? x) && (x <=? 70)) || ((97 <=? x) && (x <=? 102))) l = true -> Forall is_hex l.
Proof. intros H. apply Forall_forall. intros x Hx. rewrite forallb_forall in H. specialize (H x Hx). unfold is_hex, is_digit. lia. Qed.
Example utoap_met := utoap_padded strict 17 90071992547409929 (repeat 1 24) ltac:(met) ltac:(met) ltac:(met).
Example utoa2p_met := utoa2p_two_digits 42 ltac:(met).
Example itoa8_met := itoa8_decimal strict (-12345678) (repeat 7 11) ltac:(met) ltac:(met).
Example simd_itoa_met := simd_itoa_partial (fun i => i) (repeat 3 20) (-2147483647) (repeat 9 22) ltac:(met) ltac:(met) ltac:(met).
Example simd_itoa_exact_met := simd_itoa_exact (fun i => i) (repeat 3 20) (-9000000000000000001) (repeat 9 22) ltac:(met) ltac:(met) ltac:(met).
Example simd_itoa_exact_case : exists b, simd_itoa (machine (fun i => i)) (repeat 3 20) (-9000000000000000001) (repeat 9 22) = Ok (10, b)
  /\ slice b 0 11 = (bs "-494665727" ++ [0])%list.
Proof. eexists. split; vm_compute; reflexivity. Qed.
Example simd_itoa_zero_case : exists b, simd_itoa (machine (fun i => i)) (repeat 3 20) (- 2 ^ 32) (repeat 9 22) = Ok (2, b)
  /\ slice b 0 3 = (bs "-0" ++ [0])%list.
Proof. eexists. split; vm_compute; reflexivity. Qed.
Example simd_itoa_int_min_met := simd_itoa_int_min strict (repeat 3 20) (5 * 2 ^ 32 + 2 ^ 31) (repeat 9 22) ltac:(met) ltac:(met).
Example simd_itoa_roundtrip_exact_met := simd_itoa_roundtrip_exact (fun i => i) (repeat 3 20) (-9000000000000000001) (repeat 9 22) ltac:(met) ltac:(met) ltac:(met) ltac:(met) ltac:(met).
Example simd_itoa_overreads_met := simd_itoa_overreads 5 (repeat 3 20) (repeat 9 22) ltac:(met) ltac:(met) ltac:(met).
Example simd_atou_met := simd_atou_exact strict (cs "18446744073709551615") 0 20 ltac:(met) ltac:(met) ltac:(met) ltac:(met) ltac:(met) ltac:(met) ltac:(met).
Example atou8_met := atou8_exact strict (cs "20250731") 0 8 ltac:(met) ltac:(met) ltac:(met) ltac:(met) ltac:(met) ltac:(met).
Example simd_atoi_met := simd_atoi_exact strict (cs "-90071992547") 0 12 (-90071992547) ltac:(met) ltac:(met) ltac:(met) ltac:(met) ltac:(met) ltac:(met)
  (proj2 simd_atoi_case) ltac:(met) ltac:(met) ltac:(met).
Lemma minimum_text : signed_text (slice (cs "-9223372036854775808") 0 20) (- 2 ^ 63).
Proof. exists (bs "9223372036854775808"). split; [discriminate|]. split; [apply digits_dec; reflexivity|]. right; right. split; vm_compute; reflexivity. Qed.
Example simd_atoi_minimum_met := simd_atoi_minimum strict (cs "-9223372036854775808") 0 20 ltac:(met) ltac:(met) ltac:(met) ltac:(met) ltac:(met) ltac:(met) minimum_text.
Example itoa8_roundtrip_met := itoa8_roundtrip strict (-12345678) (repeat 7 11) ltac:(met) ltac:(met) ltac:(met).
Example simd_itoa_roundtrip_met := simd_itoa_roundtrip_partial (fun i => i) (repeat 3 20) (-2147483647) (repeat 9 22) ltac:(met) ltac:(met) ltac:(met) ltac:(met) ltac:(met).
Example simd_htou_met := simd_htou_exact strict (cs "dEadBeef09") 0 10 ltac:(met) ltac:(met) ltac:(met) ltac:(met) ltac:(met) ltac:(apply hex_dec; calc).
Example htou8_met := htou8_exact strict (cs "dEadBeef") 0 8 ltac:(met) ltac:(met) ltac:(met) ltac:(met) ltac:(met) ltac:(apply hex_dec; calc).
Lemma integer_text : signed_text (slice (cs "-123456789") 0 10) (-123456789).
Proof. exists (bs "123456789"). split; [discriminate|]. split; [apply digits_dec; reflexivity|]. right; right. split; vm_compute; reflexivity. Qed.
Example simd_atod_integer_met := simd_atod_integer_partial 3 (fun _ => 0) (cs "-123456789") 0 10 (-123456789) ltac:(met) ltac:(met) ltac:(met) ltac:(met) ltac:(met) integer_text ltac:(met).
Example simd_atod_fraction_met := simd_atod_fraction_value 3 (fun _ => 0) (cs "12345.6789") 0 10 5 ltac:(met) ltac:(met) ltac:(met) ltac:(met) ltac:(met) ltac:(met) ltac:(met)
  ltac:(met) ltac:(met) ltac:(met) ltac:(met) ltac:(met).
Lemma minus_text : signed_text (slice (cs "-12345.6789") 0 6) (-12345).
Proof. exists (bs "12345"). split; [discriminate|]. split; [apply digits_dec; reflexivity|]. right; right. split; vm_compute; reflexivity. Qed.
Example simd_atod_signed_met := simd_atod_signed_value 3 (fun _ => 0) (cs "-12345.6789") 0 11 6 (-12345) ltac:(met) ltac:(met) ltac:(met) ltac:(met) ltac:(met) ltac:(met) ltac:(met)
  minus_text ltac:(met) ltac:(met) ltac:(met) ltac:(met).
Example simd_atod_right_met := simd_atod_right_iff 3 (fun _ => 0) (cs "-0.500000") 0 9 true (bs "0") (bs "500000") ltac:(met) ltac:(met) ltac:(met) ltac:(met) ltac:(met)
  ltac:(vm_compute; reflexivity) ltac:(discriminate) ltac:(vm_compute; lia) ltac:(vm_compute; lia) ltac:(met) ltac:(met) ltac:(met) ltac:(met).
Example simd_atod_signed_case : exists q, simd_atod 3 (machine (fun _ => 0)) (cs "-0.500000") 0 9 = Ok q /\ (q == - (5 # 100))%Q.
Proof. eexists. split; [vm_compute; reflexivity|]. vm_compute. reflexivity. Qed.
Example simd_atod_short_case : simd_atod 3 (machine (fun i => if i =? 20 then 46 else 0)) (bs "12.5") 0 4 = Undef OobRead /\
  simd_atod 3 (machine (fun i => 0)) (bs "42") 0 2 = NoFuel.
Proof. vm_compute. auto. Qed.
Example simd_atod_short_met : simd_atod 3 (machine (fun _ => 0)) (bs "12.5") 0 4 = Undef OobRead \/ simd_atod 3 (machine (fun _ => 0)) (bs "12.5") 0 4 = NoFuel.
Proof.
  destruct (simd_atod_short_undefined 3 (fun _ => 0) (bs "12.5") 0 4) as [[H _]|[H _]]; auto; try met.
  intros i. unfold char_at. destruct (_ && _) eqn:E; [|reflexivity]. change (Z.of_nat (length (bs "12.5"))) with 4 in E.
  assert (H : i = 0 \/ i = 1 \/ i = 2 \/ i = 3) by lia.
  destruct H as [-> |[-> |[-> | -> ]]]; reflexivity.
Qed.
Example simd_atod_overreads_met := simd_atod_short_overreads 3 (bs "12.5") 0 4 ltac:(met) ltac:(met) ltac:(met).
Example simd_atod_long_met : simd_atod 4 (machine (fun _ => 0)) (bs "3.14159265358979323846") 0 22 = Undef OobRead.
Proof.
  apply (simd_atod_long_fraction_undefined 4 (fun _ => 0) _ 0 22 1); try met; [|apply first_at_dec; vm_compute; reflexivity].
  intros j Hj. assert (H : forallb (fun c => c <? 128) (bs "3.14159265358979323846") = true) by reflexivity.
  rewrite forallb_forall in H. specialize (H (item (bs "3.14159265358979323846") (0 + j))).
  apply Z.ltb_lt, H. apply nth_In. change (length (bs "3.14159265358979323846")) with 22%nat. lia.
Qed.

Print Assumptions simd_itoa_exact. Print Assumptions simd_itoa_int_min. Print Assumptions simd_itoa_roundtrip_exact.
Print Assumptions utoap_padded. Print Assumptions utoa2p_two_digits. Print Assumptions itoa8_decimal.
Print Assumptions simd_itoa_partial. Print Assumptions simd_itoa_overreads. Print Assumptions simd_itoa_refuted.
Print Assumptions simd_atou_exact. Print Assumptions atou8_exact. Print Assumptions simd_atou_strict_refuted.
Print Assumptions simd_atoi_exact. Print Assumptions simd_atoi_minimum. Print Assumptions simd_atou_overread_refuted. Print Assumptions itoa8_roundtrip. Print Assumptions simd_itoa_roundtrip_partial.
Print Assumptions simd_itoa_roundtrip_refuted. Print Assumptions simd_htou_exact. Print Assumptions htou8_exact.
Print Assumptions simd_atod_integer_partial. Print Assumptions simd_atod_fraction_value. Print Assumptions simd_atod_refuted.
Print Assumptions simd_atod_signed_value. Print Assumptions simd_atod_right_iff. Print Assumptions simd_atod_short_undefined.
Print Assumptions simd_atod_short_overreads. Print Assumptions simd_atod_long_fraction_undefined.
