(** C01-C05: byte presence, memchr8, cast8, forward and backward search. *)
From Coq Require Import String.
From Verif Require Import SwarShort SwarBack SwarFinal.
Open Scope Z_scope.


(** * C01 *)
Theorem haszero_exact : forall x, 0 <= x < 2 ^ 64 ->
  (haszero x = true <-> exists i, 0 <= i < 8 /\ byte_of x i = 0).
Proof. exact haszero_word. Qed.
Theorem hasbyte_exact : forall x c, 0 <= x < 2 ^ 64 -> 0 <= c < 256 ->
  (hasbyte x c = true <-> exists i, 0 <= i < 8 /\ byte_of x i = c).
Proof. exact hasbyte_word. Qed.
Example haszero_case : haszero 0x0180ff0100800180 = true /\ haszero 0x0180ff0101800180 = false.
Proof. vm_compute. auto. Qed.

(** * C02 *)
Theorem memchr8_first : forall S b o c, all_bytes b -> 0 <= c < 256 -> 0 <= o -> o + 8 <= Z.of_nat (length b) ->
  (forall i, first_at c (slice b o 8) i -> memchr8 S b o c = Ok i /\ memchr8k S b o c = Ok i) /\
  (~ In c (slice b o 8) -> memchr8 S b o c = Ok (2 ^ 32 - 1) /\ memchr8k S b o c = Undef BadBuiltin).
Proof. exact memchr8_ok. Qed.
Example memchr8_case : memchr8 strict (bs "xabcdbcdx") 1 (item (bs "c") 0) = Ok 2
  /\ memchr8 strict (bs "xabcdbcdx") 1 0 = Ok 4294967295.
Proof. vm_compute. auto. Qed.

Lemma ctz_spec n : forall x i, 0 <= i -> (exists j, i <= j < i + Z.of_nat n /\ Z.testbit x j = true) ->
  i <= ctz_from n x i < i + Z.of_nat n /\ Z.testbit x (ctz_from n x i) = true /\ forall j, i <= j < ctz_from n x i -> Z.testbit x j = false.
Proof.
  induction n as [|n IH]; intros x i I (j & J & B); [lia|]. cbn [ctz_from]. destruct (Z.testbit x i) eqn:E.
  - repeat split; try lia. exact E.
  - assert (j <> i) by (intros ->; congruence). destruct (IH x (i + 1)) as (H1 & H2 & H3); [lia|exists j; split; [lia|exact B]|].
    split; [lia|]. split; [exact H2|]. intros q Q. destruct (Z.eq_dec q i) as [->|]; [exact E|apply H3; lia].
Qed.
Lemma clz_spec n : forall x i, 0 <= i -> (exists j, i <= j < i + Z.of_nat n /\ Z.testbit x (63 - j) = true) ->
  i <= clz_from n x i < i + Z.of_nat n /\ Z.testbit x (63 - clz_from n x i) = true /\ forall j, i <= j < clz_from n x i -> Z.testbit x (63 - j) = false.
Proof.
  induction n as [|n IH]; intros x i I (j & J & B); [lia|]. cbn [clz_from]. destruct (Z.testbit x (63 - i)) eqn:E.
  - repeat split; try lia. exact E.
  - assert (j <> i) by (intros ->; congruence). destruct (IH x (i + 1)) as (H1 & H2 & H3); [lia|exists j; split; [lia|exact B]|].
    split; [lia|]. split; [exact H2|]. intros q Q. destruct (Z.eq_dec q i) as [->|]; [exact E|apply H3; lia].
Qed.
(** The bit scans under the search, for every word but 0: countr_zero counts the zero bits below the lowest bit set, countl_zero those above
    the highest; both are undefined for 0. *)
Theorem bit_scans : forall x, 0 < x < 2 ^ 64 ->
  (exists k, countr_zero x = Ok k /\ countr_index x = Ok (k + 1) /\ 0 <= k < 64 /\ exists q, x = (2 * q + 1) * 2 ^ k) /\
  (exists k, countl_zero x = Ok k /\ 0 <= k < 64 /\ 2 ^ (63 - k) <= x < 2 ^ (64 - k)) /\
  countr_zero 0 = Undef BadBuiltin /\ countl_zero 0 = Undef BadBuiltin /\ countr_index 0 = Ok 0.
Proof.
  intros x X. assert (L : 0 <= Z.log2 x < 64) by (split; [apply Z.log2_nonneg|apply Z.log2_lt_pow2; lia]).
  assert (T : Z.testbit x (Z.log2 x) = true) by (apply Z.bit_log2; lia).
  split; [|split; [|split; [reflexivity|split; reflexivity]]].
  - unfold countr_index, countr_zero. replace (x =? 0) with false by lia. exists (ctz_from 64 x 0). split; [reflexivity|]. split; [reflexivity|].
    assert (W : exists j, 0 <= j < 0 + Z.of_nat 64 /\ Z.testbit x j = true) by (exists (Z.log2 x); split; [lia|exact T]).
    destruct (ctz_spec 64 x 0 (Z.le_refl 0) W) as (H1 & H2 & H3). set (k := ctz_from 64 x 0) in *. split; [lia|].
    assert (D : (x / 2 ^ k) mod 2 = 1) by (rewrite <- Z.bit0_mod; rewrite Z.div_pow2_bits by lia; rewrite Z.add_0_l, H2; reflexivity).
    assert (M : x mod 2 ^ k = 0).
    { apply Z.bits_inj'. intros j J. rewrite Z.bits_0. destruct (Z_lt_ge_dec j k); [rewrite Z.mod_pow2_bits_low by lia; apply H3; lia|apply Z.mod_pow2_bits_high; lia]. }
    exists (x / 2 ^ k / 2). rewrite <- D, <- (Z.div_mod (x / 2 ^ k) 2) by lia. pose proof (Z.div_mod x (2 ^ k) ltac:(apply Z.pow_nonzero; lia)). lia.
  - unfold countl_zero. replace (x =? 0) with false by lia. exists (clz_from 64 x 0). split; [reflexivity|].
    assert (W : exists j, 0 <= j < 0 + Z.of_nat 64 /\ Z.testbit x (63 - j) = true) by (exists (63 - Z.log2 x); split; [lia|replace (63 - (63 - Z.log2 x)) with (Z.log2 x) by lia; exact T]).
    destruct (clz_spec 64 x 0 (Z.le_refl 0) W) as (H1 & H2 & H3).
    set (k := clz_from 64 x 0) in *. split; [lia|].
    assert (E : Z.log2 x = 63 - k).
    { apply Z.log2_bits_unique; [exact H2|]. intros j J. destruct (Z_lt_ge_dec j 64); [|apply Z.bits_above_log2; lia].
      replace j with (63 - (63 - j)) by lia. apply H3. lia. }
    pose proof (Z.log2_spec x ltac:(lia)) as S. rewrite E in S. replace (64 - k) with (Z.succ (63 - k)) by lia. exact S.
Qed.
Example bit_scans_case : countr_zero 0x00f0000000000800 = Ok 11 /\ countr_index 0x00f0000000000800 = Ok 12 /\ countl_zero 0x00f0000000000800 = Ok 8 /\ countl_zero 1 = Ok 63.
Proof. vm_compute. auto. Qed.

(** * C03 *)
Theorem cast8_prefix : forall S b o len, all_bytes b -> 0 <= o -> 0 <= len <= 8 -> o + len <= Z.of_nat (length b) ->
  oob S <> None \/ o + 8 <= Z.of_nat (length b) -> (len = 8 -> wide_shift S = true) ->
  cast8 S b o len = Ok (le_value (slice b o len)).
Proof. exact cast8_ok. Qed.
(** The full claim ("for every length 0..8, without undefined behaviour") fails:
    length 8 shifts a 64-bit word by 64, and a short block is read past its end. *)
Theorem cast8_refuted : exists b, all_bytes b /\ length b = 8%nat /\ cast8 strict b 0 8 = Undef BadShift /\
  exists b', all_bytes b' /\ length b' = 3%nat /\ cast8 strict b' 0 3 = Undef OobRead.
Proof.
  exists (bs "12345678"). split; [|split; [|split; [|exists (bs "123"); split; [|split]]]];
  try reflexivity; apply all_bytes_dec; reflexivity.
Qed.
Example cast8_case : cast8 strict (bs "abcdefghij") 1 3 = Ok 0x646362.
Proof. vm_compute. auto. Qed.

(** * C04 *)
(** Lengths of at least nine, any reading of C (so nothing outside the block is read). *)
Theorem simd_memchr_partial : forall fuel S b o len c,
  all_bytes b -> 0 <= c < 256 -> 0 <= o -> 9 <= len < 2 ^ 32 -> o + len <= Z.of_nat (length b) ->
  len <= 8 * Z.of_nat fuel ->
  (forall i, first_at c (slice b o len) i ->
     simd_memchr fuel S b o c len = Ok (PAt (o + i)) /\ memchrk fuel S b o len c = Ok i /\
     (printable_window b o len c -> pmemchr fuel S b o len c = Ok i /\ pmemchrk fuel S b o len c = Ok i)) /\
  (~ In c (slice b o len) ->
     simd_memchr fuel S b o c len = Ok (PAt (o + (2 ^ 32 - 1))) /\
     (printable_window b o len c -> pmemchr fuel S b o len c = Ok (2 ^ 32 - 1))).
Proof. exact memchr_family. Qed.
Example simd_memchr_case :
  simd_memchr 3 strict (bs "hello, wonderful w") 0 (item (bs "f") 0) 18 = Ok (PAt 13) /\
  first_at (item (bs "f") 0) (slice (bs "hello, wonderful w") 0 18) 13.
Proof.
  split; [reflexivity|]. apply first_at_dec. reflexivity.
Qed.
(** For 1..7 bytes a non-NUL byte is never found inside the range, on any machine reading. *)
Theorem simd_memchr_short_never_finds : forall g fuel b o len c p,
  all_bytes b -> 0 < c < 256 -> 0 <= o -> 1 <= len < 8 -> 8 * Z.of_nat fuel + 8 < 2 ^ 32 - 1 ->
  simd_memchr fuel (machine g) b o c len = Ok p -> exists k, p = PAt (o + k) /\ len <= k.
Proof. exact simd_memchr_short. Qed.
(** What the machine does for 1..8 bytes and a non-NUL byte.  [mem g b i] is the
    byte at offset [i], in the block or around it.  For 1..7 bytes the answer is
    the first occurrence at or after the end of the range; for 8 bytes it is the
    first occurrence from the start, in the range or behind it.  NULL never comes
    out, and the search does not end while there is no occurrence. *)
Definition mem (g : Z -> Z) (b : list Z) (i : Z) : Z :=
  if (0 <=? i) && (i <? Z.of_nat (length b)) then item b i else g i mod 256.
Theorem simd_memchr_small_exact : forall g fuel b o len c,
  all_bytes b -> 0 < c < 256 -> 0 <= o -> 1 <= len <= 8 -> 8 * Z.of_nat fuel + 8 < 2 ^ 32 ->
  let from := if len =? 8 then 0 else len in
  match simd_memchr fuel (machine g) b o c len with
  | Ok (PAt q) => exists k, q = o + k /\ from <= k < 8 * Z.of_nat fuel + 8 /\ mem g b (o + k) = c /\
                  forall j, from <= j < k -> mem g b (o + j) <> c
  | Ok PNull => False
  | NoFuel => forall j, from <= j < len + 8 * Z.of_nat fuel -> mem g b (o + j) <> c
  | _ => False
  end.
Proof.
  intros g fuel b o len c Hb Hc Ho Hl Hf from.
  pose proof (small_result g false false b o c Hb ltac:(unfold byte; lia) Ho ltac:(discriminate) len fuel Hl ltac:(lia) Hf) as H.
  cbv zeta in H. fold from in H. unfold simd_memchr.
  destruct (memchr_ fuel (machine g) false false b o len c) as [k| | |]; cbn [bind]; try exact H.
  destruct H as (H1 & H2 & H3). exists k. split; [reflexivity|]. split; [lia|]. split; assumption.
Qed.
(** An occurrence the walk reaches is found, so the first case is not empty. *)
Theorem simd_memchr_small_found : forall g fuel b o len c k,
  all_bytes b -> 0 < c < 256 -> 0 <= o -> 1 <= len <= 8 -> k < 2 ^ 32 -> k < len + 8 * Z.of_nat fuel ->
  (if len =? 8 then 0 else len) <= k -> mem g b (o + k) = c ->
  (forall j, (if len =? 8 then 0 else len) <= j < k -> mem g b (o + j) <> c) ->
  simd_memchr fuel (machine g) b o c len = Ok (PAt (o + k)).
Proof.
  intros g fuel b o len c k Hb Hc Ho Hl Hk Hf Hfrom Hm Hn. unfold simd_memchr.
  destruct (Z.eqb_spec len 8) as [->|].
  - rewrite (eight_found g false false b o c Hb ltac:(unfold byte; lia) ltac:(discriminate) fuel k); auto; lia.
  - rewrite (short_found g false false b o c Hb ltac:(unfold byte; lia) ltac:(discriminate) len fuel k); auto; lia.
Qed.
(** In ISO C, on a block that ends with the range: 1..7 bytes are always an
    out-of-bounds read, 8 bytes are one exactly when the byte is absent. *)
Theorem simd_memchr_small_strict : forall fuel b o len c,
  all_bytes b -> 0 <= c < 256 -> 0 <= o -> 1 <= len <= 8 -> o + len = Z.of_nat (length b) -> (0 < fuel)%nat ->
  (len < 8 -> simd_memchr fuel strict b o c len = Undef OobRead) /\
  (len = 8 -> ~ In c (slice b o 8) -> simd_memchr fuel strict b o c len = Undef OobRead) /\
  (forall i, len = 8 -> first_at c (slice b o 8) i -> simd_memchr fuel strict b o c len = Ok (PAt (o + i))).
Proof.
  intros fuel b o len c Hb Hc Ho Hl He Hf. unfold simd_memchr. split; [|split].
  - intros H. rewrite memchr_strict_short by lia. reflexivity.
  - intros -> H. rewrite memchr_strict_8; auto; lia.
  - intros i -> H. rewrite (memchr_ok8 fuel strict false false b o c i); auto; try lia. intros X; discriminate X.
Qed.
(** The full claim fails: the byte is there but not found; nothing is never NULL;
    the range is left. *)
Theorem simd_memchr_refuted : exists b c len i g fuel p, all_bytes b /\ first_at c (slice b 0 len) i /\ 0 <= len <= Z.of_nat (length b) /\
  simd_memchr fuel (machine g) b 0 c len = Ok p /\ p <> PAt i.
Proof.
  exists (bs "abc"), (item (bs "b") 0), 3, 1, (fun i => if i =? 9 then 98 else 0), 3%nat, (PAt 9).
  split; [apply all_bytes_dec; reflexivity|].
  split; [apply first_at_dec; reflexivity|].
  split; [vm_compute; intuition congruence|]. split; [vm_compute; reflexivity|discriminate].
Qed.
Theorem simd_memchr_absent_refuted : exists b c len fuel p, all_bytes b /\ ~ In c (slice b 0 len) /\ 0 <= len <= Z.of_nat (length b) /\
  simd_memchr fuel strict b 0 c len = Ok p /\ p <> PNull.
Proof.
  exists (bs "abcdefghi"), (item (bs "z") 0), 9, 3%nat, (PAt 4294967295).
  split; [apply all_bytes_dec; reflexivity|].
  split; [apply not_in_dec; reflexivity|].
  split; [vm_compute; intuition congruence|]. split; [vm_compute; reflexivity|discriminate].
Qed.
Theorem simd_memchr_overread_refuted : exists b c len fuel, all_bytes b /\ len = Z.of_nat (length b) /\ 8 <= len /\
  simd_memchr fuel strict b 0 c len = Undef OobRead.
Proof.
  exists (bs "abcdefgh"), (item (bs "z") 0), 8, 3%nat.
  split; [apply all_bytes_dec; reflexivity|].
  split; [reflexivity|]. split; [lia|]. vm_compute. reflexivity.
Qed.

(** * C05 *)
(** On a block that ends with the searched range the search is undefined, whatever the data. *)
Theorem memrchr_reads_past_end : forall fuel P K b o len c,
  0 <= o -> 0 <= len -> Z.of_nat (length b) < o + len + 8 -> memrchr_ fuel strict P K b o len c = Undef OobRead.
Proof. exact memrchr_strict_undef. Qed.
(** With eight clean bytes after the range and a length that is a multiple of eight: memrchrk and pmemrchrk give the index;
    the other two do not search the first word, and the pointer of simd_memrchr is three bytes too low. *)
Theorem simd_memrchr_partial : forall fuel S b o len c,
  all_bytes b -> 0 <= c < 256 -> 0 <= o -> 16 <= len < 2 ^ 32 -> len mod 8 = 0 -> o + len + 8 <= Z.of_nat (length b) ->
  (forall j, 0 <= j < 8 -> item b (o + len + j) <> c) -> len <= 8 * Z.of_nat fuel ->
  (forall i, last_at c (slice b o len) i ->
     memrchrk fuel S b o len c = Ok i /\ (printable_window b o len c -> pmemrchrk fuel S b o len c = Ok i) /\
     (8 <= i -> simd_memrchr fuel S b o c len = Ok (PAt (o + i - 3)) /\ (printable_window b o len c -> pmemrchr fuel S b o len c = Ok i))) /\
  ((forall j, 8 <= j < len -> item b (o + j) <> c) ->
     simd_memrchr fuel S b o c len = Ok (PAt (o + (2 ^ 32 - 4))) /\ (printable_window b o len c -> pmemrchr fuel S b o len c = Ok (2 ^ 32 - 1))).
Proof. exact memrchr_family. Qed.
Example simd_memrchr_case : let b := (bs "tutor.ials.point" ++ repeat 0 8)%list in
  memrchrk 4 strict b 0 16 46 = Ok 10 /\ pmemrchr 4 strict b 0 16 46 = Ok 10 /\ simd_memrchr 4 strict b 0 46 16 = Ok (PAt 7) /\
  pmemrchrk 4 strict b 0 16 117 = Ok 1 /\ pmemrchr 4 strict b 0 16 117 = Ok 4294967295 /\ last_at 117 (slice b 0 16) 1 /\ last_at 46 (slice b 0 16) 10 /\
  forall j, 0 <= j < 8 -> item b (0 + 16 + j) <> 46.
Proof.
  cbv zeta. do 5 (split; [vm_compute; reflexivity|]). split; [apply last_at_dec; reflexivity|]. split; [apply last_at_dec; reflexivity|].
  intros j Hj. assert (H : j = 0 \/ j = 1 \/ j = 2 \/ j = 3 \/ j = 4 \/ j = 5 \/ j = 6 \/ j = 7) by lia.
  repeat (destruct H as [-> | H]; [vm_compute; discriminate|]). subst. vm_compute. discriminate.
Qed.
Theorem simd_memrchr_refuted : exists b c len i fuel p,
  all_bytes b /\ last_at c (slice b 0 len) i /\ len + 8 <= Z.of_nat (length b) /\
  simd_memrchr fuel strict b 0 c len = Ok p /\ p <> PAt i.
Proof.
  exists (bs "tutor.ials.point" ++ repeat 0 8)%list, (item (bs ".") 0), 16, 10, 4%nat, (PAt 7).
  split; [apply all_bytes_dec; reflexivity|].
  split; [apply last_at_dec; reflexivity|].
  split; [vm_compute; intuition congruence|]. split; [vm_compute; reflexivity|discriminate].
Qed.

(** Any length from 9 on, as long as the eight bytes behind the range are readable and free of the byte: memrchrk and pmemrchrk give the
    index; the other two do so from index 8 on and never search the first word; the pointer of simd_memrchr is three bytes too low. *)
Theorem simd_memrchr_any : forall fuel S b o len c,
  all_bytes b -> 0 <= c < 256 -> 0 <= o -> 9 <= len -> len + 8 < 2 ^ 32 -> o + len + 8 <= Z.of_nat (length b) ->
  (forall j, 0 <= j < 8 -> item b (o + len + j) <> c) -> len <= 8 * Z.of_nat fuel ->
  (forall i, last_at c (slice b o len) i ->
     memrchrk fuel S b o len c = Ok i /\ (printable_window b o (len + 8) c -> pmemrchrk fuel S b o len c = Ok i) /\
     (8 <= i -> simd_memrchr fuel S b o c len = Ok (PAt (o + i - 3)) /\ (printable_window b o (len + 8) c -> pmemrchr fuel S b o len c = Ok i))) /\
  ((forall j, 8 <= j < len -> item b (o + j) <> c) ->
     simd_memrchr fuel S b o c len = Ok (PAt (o + (2 ^ 32 - 4))) /\ (printable_window b o (len + 8) c -> pmemrchr fuel S b o len c = Ok (2 ^ 32 - 1))).
Proof.
  intros fuel S b o len c Hb Hc Ho Hl Hm Hin Hn Hf. unfold simd_memrchr, memrchrk, pmemrchr, pmemrchrk. change (2 ^ 32) with 4294967296 in *.
  assert (W0 : window_ok false b o (len + 8) c) by (intros H; discriminate).
  assert (W1 : printable_window b o (len + 8) c -> window_ok true b o (len + 8) c).
  { intros [H1 H2] _. split. 2:{ unfold ascii. lia. } intros j Hj. specialize (H2 j Hj). assert (byte (at_ b (o + j))) by (apply at_byte; auto; lia). unfold ascii, byte, at_, item in *. lia. }
  pose proof (fun P K => memrchr_any fuel S P K b o len c Hb Hc Ho) as M.
  assert (N8 : 8 <= len) by lia. split.
  - intros i Hi. assert (0 <= i) by (destruct Hi as [? _]; lia). split; [|split; [intros HP|intros H8; split; [|intros HP]]].
    + apply (M false true N8 Hm Hin W0 Hn Hf); assumption.
    + apply (M true true N8 Hm Hin (W1 HP) Hn Hf); auto.
    + rewrite (proj1 (M false false Hl Hm Hin W0 Hn Hf) i H8 Hi). reflexivity.
    + apply (M true false Hl Hm Hin (W1 HP) Hn Hf); auto.
  - intros Hj. split; [|intros HP].
    + rewrite (proj2 (M false false Hl Hm Hin W0 Hn Hf) eq_refl Hj). cbn [bind]. do 2 f_equal. lia.
    + apply (M true false Hl Hm Hin (W1 HP) Hn Hf); auto.
Qed.
Example simd_memrchr_any_case : let b := (bs "tutor.ials.po" ++ repeat 0 8)%list in
  memrchrk 4 strict b 0 13 46 = Ok 10 /\ pmemrchr 4 strict b 0 13 46 = Ok 10 /\ simd_memrchr 4 strict b 0 46 13 = Ok (PAt 7) /\ memrchrk 4 strict b 0 13 117 = Ok 1 /\ pmemrchr 4 strict b 0 13 117 = Ok (2 ^ 32 - 1).
Proof. vm_compute. repeat split. Qed.
(** A match behind the range is reported as if it were inside: for every range of at least 8 bytes, [k] being the last of the eight bytes
    after it that is equal to [c], the answer is [k] counted from the start of the last word of the range. *)
Theorem simd_memrchr_behind : forall fuel S b o len c k,
  all_bytes b -> 0 <= c < 256 -> 0 <= o -> 8 <= len -> len + 8 < 2 ^ 32 -> o + len + 8 <= Z.of_nat (length b) -> last_at c (slice b (o + len) 8) k ->
  memrchrk fuel S b o len c = Ok (8 * ((len - 1) / 8) + k) /\ simd_memrchr fuel S b o c len = Ok (PAt (o + 8 * ((len - 1) / 8) + k - 3)) /\
  (printable_window b (o + len) 8 c -> pmemrchr fuel S b o len c = Ok (8 * ((len - 1) / 8) + k) /\ pmemrchrk fuel S b o len c = Ok (8 * ((len - 1) / 8) + k)).
Proof.
  intros fuel S b o len c k Hb Hc Ho Hl Hm Hin Hk. change (2 ^ 32) with 4294967296 in *. unfold simd_memrchr, memrchrk, pmemrchr, pmemrchrk.
  assert (V : len - part_len len + k = 8 * ((len - 1) / 8) + k) by (rewrite part_len_val by lia; destruct (Z.eqb_spec (len mod 8) 0); lia).
  assert (M : forall P K, printable_ok P (slice b (o + len) 8) c -> memrchr_ fuel S P K b o len c = Ok (8 * ((len - 1) / 8) + k)) by (intros P K HP; rewrite <- V; apply memrchr_behind; auto).
  split; [apply M; exact I|]. split; [rewrite M by exact I; cbn [bind]; do 2 f_equal; lia|]. intros [H1 H2].
  assert (HP : printable_ok true (slice b (o + len) 8) c).
  { split; [|unfold ascii; lia]. apply Forall_forall. intros x Hx. apply slice_in in Hx; try lia. destruct Hx as (j & Hj & <-). specialize (H2 j Hj). assert (byte (at_ b (o + len + j))) by (apply at_byte; auto; lia). unfold ascii, byte, at_, item in *. lia. }
  split; apply M; exact HP.
Qed.
Example simd_memrchr_behind_case : let b := bs "0123456789.abc.e......." in last_at 46 (slice b 13 8) 7 /\ memrchrk 4 strict b 0 13 46 = Ok 15 /\ simd_memrchr 4 strict b 0 46 13 = Ok (PAt 12).
Proof. split; [apply last_at_dec; reflexivity|]. vm_compute. split; reflexivity. Qed.
(** Ranges of 1 to 7 bytes, a byte other than NUL.  [k] is the last of the bytes [len] to 7 behind the range that is equal to [c]: the answer is [k].
    If there is none, all eight bytes from the start of the range are searched, so that a byte after the range may be reported; if it is
    not among them either, the search goes on eight bytes before the range, which is undefined when they are not there.
    The same for 8 bytes, where all eight bytes behind the range count. *)
Theorem simd_memrchr_short : forall fuel S b o len c, all_bytes b -> 0 < c < 256 -> 0 <= o -> 1 <= len <= 8 -> o + len + 8 <= Z.of_nat (length b) ->
  (forall k, len mod 8 <= k < 8 -> item b (o + len + k) = c -> (forall j, k < j < 8 -> item b (o + len + j) <> c) -> memrchrk (Datatypes.S fuel) S b o len c = Ok k /\ simd_memrchr (Datatypes.S fuel) S b o c len = Ok (PAt (o + k - 3))) /\
  ((forall j, len mod 8 <= j < 8 -> item b (o + len + j) <> c) ->
     (forall k, last_at c (slice b o 8) k -> memrchrk (Datatypes.S fuel) S b o len c = Ok k /\ simd_memrchr (Datatypes.S fuel) S b o c len = Ok (PAt (o + k - 3))) /\
     (~ In c (slice b o 8) -> o < 8 -> memrchrk (Datatypes.S (Datatypes.S fuel)) strict b o len c = Undef OobRead /\ simd_memrchr (Datatypes.S (Datatypes.S fuel)) strict b o c len = Undef OobRead)).
Proof.
  intros fuel S b o len c Hb Hc Ho Hl Hin. unfold simd_memrchr, memrchrk.
  assert (Bc : byte c) by (unfold byte; lia).
  assert (X : forall f T K, (forall k, len mod 8 <= k < 8 -> item b (o + len + k) = c -> (forall j, k < j < 8 -> item b (o + len + j) <> c) -> memrchr_ (Datatypes.S f) T false K b o len c = Ok k) /\
    ((forall j, len mod 8 <= j < 8 -> item b (o + len + j) <> c) -> memrchr_ (Datatypes.S f) T false K b o len c = memrchr_loop (Datatypes.S f) T false K b o o c)).
  { intros f T K. destruct (Z.eq_dec len 8) as [-> |N8].
    - change (8 mod 8) with 0. split.
      + intros k Hk E Hj. assert (La : last_at c (slice b (o + 8) 8) k) by (split; [rewrite slice_length by lia; lia|]; split; [rewrite slice_item by lia; exact E|]; rewrite slice_length by lia; intros j Hj2; rewrite slice_item by lia; apply Hj; lia).
        rewrite (memrchr_behind (Datatypes.S f) T false K b o 8 c k Hb Bc Ho ltac:(lia) ltac:(lia) Hin I La). change (part_len 8) with 8. reflexivity.
      + intros Hj. unfold memrchr_. rewrite part_mask_long by lia. cbn [bind]. rewrite cast_in by lia. cbn [bind]. rewrite Z.land_0_l.
        pose proof (slice_bytes b (o + 8) 8 Hb) as HB. pose proof (slice8_len b (o + 8) ltac:(lia) ltac:(lia)) as HL. rewrite first_long by auto.
        assert (EH : hasbyte (le (slice b (o + 8) 8)) c = false) by (apply hasbyte_false; auto; intros Hi; apply slice_in in Hi; try lia; destruct Hi as (j & J & E); apply (Hj j); auto).
        rewrite EH. change (part_len 8) with 8. replace (o + 8 - 8) with o by lia. reflexivity.
    - rewrite Z.mod_small by lia. apply memrchr_short; auto; lia. }
  destruct (X fuel S true) as [A1 A2]. destruct (X fuel S false) as [B1 B2]. split.
  { intros k Hk E Hj. rewrite (A1 k Hk E Hj), (B1 k Hk E Hj). split; reflexivity. }
  intros Hj. split.
  - intros k Hk. rewrite (A2 Hj), (B2 Hj). destruct (loop_start fuel S false true b o c Hb Bc Ho ltac:(lia) I) as [L1 _]. destruct (loop_start fuel S false false b o c Hb Bc Ho ltac:(lia) I) as [L2 _]. rewrite (L1 k Hk), (L2 k Hk). split; reflexivity.
  - intros N O8. rewrite (proj2 (X (Datatypes.S fuel) strict true) Hj), (proj2 (X (Datatypes.S fuel) strict false) Hj).
    rewrite (proj2 (loop_start (Datatypes.S fuel) strict false true b o c Hb Bc Ho ltac:(lia) I) N), (proj2 (loop_start (Datatypes.S fuel) strict false false b o c Hb Bc Ho ltac:(lia) I) N).
    cbn [memrchr_loop]. rewrite cast_below by lia. split; reflexivity.
Qed.
Example simd_memrchr_short_case : memrchrk 4 strict (bs "abc.e.g........") 0 3 46 = Ok 7 /\ memrchrk 4 strict (bs "a.c.efghijklmn") 0 2 46 = Ok 3 /\ memrchrk 4 strict (bs "abcdefghijklmn") 0 2 46 = Undef OobRead /\
  simd_memrchr 4 strict (bs "a.cdefghijklmn") 0 46 3 = Ok (PAt (-2)).
Proof. vm_compute. repeat split. Qed.

(** * The theorems above on concrete values: their hypotheses can be met. *)
Ltac calc := vm_compute; first [reflexivity | discriminate | (intros; discriminate)].
Ltac met := first [ lia | (left; discriminate) | (right; calc) | (apply all_bytes_dec; calc) | (apply digits_dec; calc) | (intros; lia) | (intros; reflexivity) | calc | (split; calc) ].
Example haszero_met := haszero_exact 0x0180ff0100800180 ltac:(met).
Example hasbyte_met := hasbyte_exact 0x0180ff0100800180 255 ltac:(met) ltac:(met).
Example memchr8_met := memchr8_first strict (bs "xabcdbcdx") 1 99 ltac:(met) ltac:(met) ltac:(met) ltac:(met).
Example cast8_met := cast8_prefix strict (bs "abcdefghij") 1 3 ltac:(met) ltac:(met) ltac:(met) ltac:(met) ltac:(met) ltac:(met).
Example simd_memchr_met := simd_memchr_partial 3 strict (bs "hello, wonderful w") 0 18 102 ltac:(met) ltac:(met) ltac:(met) ltac:(met) ltac:(met) ltac:(met).
Example simd_memchr_short_met := simd_memchr_short_never_finds (fun i => if i =? 9 then 98 else 0) 3 (bs "abc") 0 3 98 (PAt 9)
  ltac:(met) ltac:(met) ltac:(met) ltac:(met) ltac:(met) ltac:(met).
Example simd_memchr_small_met := simd_memchr_small_exact (fun i => if i =? 9 then 98 else 0) 3 (bs "abc") 0 3 98 ltac:(met) ltac:(met) ltac:(met) ltac:(met) ltac:(met).
Example simd_memchr_small_case : simd_memchr 3 (machine (fun i => if i =? 9 then 98 else 0)) (bs "abc") 0 98 3 = Ok (PAt 9) /\
  simd_memchr 3 (machine (fun i => 0)) (bs "abc") 0 98 3 = NoFuel.
Proof. vm_compute. auto. Qed.
Example simd_memchr_found_met : simd_memchr 3 (machine (fun i => if i =? 9 then 98 else 0)) (bs "abc") 0 98 3 = Ok (PAt (0 + 9)).
Proof.
  apply simd_memchr_small_found; try met. intros j Hj. change (3 <= j < 9) in Hj. unfold mem.
  assert (E : (0 <=? 0 + j) && (0 + j <? Z.of_nat (length (bs "abc"))) = false).
  { change (Z.of_nat (length (bs "abc"))) with 3. lia. }
  rewrite E. replace (0 + j =? 9) with false by lia. discriminate.
Qed.
Example simd_memchr_strict_met := simd_memchr_small_strict 3 (bs "xabcdefgh") 1 8 122 ltac:(met) ltac:(met) ltac:(met) ltac:(met) ltac:(met) ltac:(met).
Example simd_memrchr_met := simd_memrchr_partial 4 strict (bs "tutor.ials.point" ++ repeat 0 8)%list 0 16 46
  ltac:(met) ltac:(met) ltac:(met) ltac:(met) ltac:(met) ltac:(met)
  (proj2 (proj2 (proj2 (proj2 (proj2 (proj2 (proj2 simd_memrchr_case))))))) ltac:(met).
Example memrchr_past_met := memrchr_reads_past_end 4 false false (bs "tutor.ials.point") 0 16 46 ltac:(met) ltac:(met) ltac:(met).

Print Assumptions haszero_exact. Print Assumptions hasbyte_exact. Print Assumptions memchr8_first. Print Assumptions bit_scans.
Print Assumptions cast8_prefix. Print Assumptions cast8_refuted. Print Assumptions simd_memchr_partial.
Print Assumptions simd_memchr_short_never_finds. Print Assumptions simd_memchr_refuted.
Print Assumptions simd_memchr_small_exact. Print Assumptions simd_memchr_small_found. Print Assumptions simd_memchr_small_strict.
Print Assumptions simd_memchr_absent_refuted. Print Assumptions simd_memchr_overread_refuted.
Print Assumptions memrchr_reads_past_end. Print Assumptions simd_memrchr_partial. Print Assumptions simd_memrchr_refuted.
Print Assumptions simd_memrchr_any.
Print Assumptions simd_memrchr_behind.
Print Assumptions simd_memrchr_short.
