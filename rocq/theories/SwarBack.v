(** Proofs about the reverse search of src/swar.c 144-171 for lengths that are no multiple of 8, for a match behind the range, and
    for ranges of up to 8 bytes. *)
From Verif Require Export SwarSearch.

Lemma last_at_more b o len len' c i : 0 <= o -> 0 <= len -> len <= len' -> o + len' <= zlen b ->
  (forall j, len <= j < len' -> at_ b (o + j) <> c) -> (last_at c (slice b o len) i <-> last_at c (slice b o len') i).
Proof.
  intros Ho Hl Hl' Hz Hn. unfold last_at. rewrite !slice_length by lia. split; intros (A & B & C).
  - rewrite slice_item in B by lia. split; [lia|]. split; [rewrite slice_item by lia; exact B|]. intros j Hj. rewrite slice_item by lia.
    destruct (Z_lt_dec j len); [|apply Hn; lia]. specialize (C j ltac:(lia)). rewrite slice_item in C by lia. exact C.
  - rewrite slice_item in B by lia. destruct (Z_lt_dec i len) as [Hi|Hi]; [|exfalso; apply (Hn i); [lia|exact B]].
    split; [lia|]. split; [rewrite slice_item by lia; exact B|]. intros j Hj. rewrite slice_item by lia. specialize (C j ltac:(lia)). rewrite slice_item in C by lia. exact C.
Qed.

(** Any length of at least 9 (8, if the byte is known to be there). *)
Lemma memrchr_any fuel S (P K : bool) b o len c :
  bytes b -> byte c -> 0 <= o -> (if K then 8 else 9) <= len -> len + 8 < 4294967296 -> o + len + 8 <= zlen b -> window_ok P b o (len + 8) c ->
  (forall j, 0 <= j < 8 -> at_ b (o + len + j) <> c) -> len <= 8 * Z.of_nat fuel ->
  (forall i, (if K then 0 else 8) <= i -> last_at c (slice b o len) i -> memrchr_ fuel S P K b o len c = Ok i) /\
  (K = false -> (forall j, 8 <= j < len -> at_ b (o + j) <> c) -> memrchr_ fuel S P K b o len c = Ok 4294967295).
Proof.
  intros Hb Hc Ho Hlen Hmx He HW Haft Hf. assert (H8 : 8 <= len) by (destruct K; lia). unfold memrchr_. rewrite part_mask_long by lia.
  cbn [bind]. rewrite cast_in by lia. cbn [bind]. rewrite Z.land_0_l.
  pose proof (slice_bytes b (o + len) 8 Hb) as HB. pose proof (slice8_len b (o + len) ltac:(lia) ltac:(lia)) as HL. rewrite first_long by auto.
  assert (EH : hasbyte (le (slice b (o + len) 8)) c = false).
  { apply hasbyte_false; auto. intros Hi. apply slice_in in Hi; try lia. destruct Hi as (j & Hj & E). apply (Haft j); auto. }
  rewrite EH. assert (Hq : 1 <= part_len len <= 8 /\ (len - part_len len) mod 8 = 0 /\ (part_len len = 8 <-> len mod 8 = 0)).
  { rewrite part_len_val by lia. destruct (Z.eqb_spec (len mod 8) 0); lia. }
  remember (part_len len) as q eqn:Eq. remember (len - q + 8) as len' eqn:El. assert (Hl' : len <= len' <= len + 8) by lia.
  assert (W' : window_ok P b o len' c) by (intros E; destruct (HW E) as [W1 W2]; split; [|exact W2]; intros j Hj; apply W1; lia).
  assert (Cl : forall j, len <= j < len' -> at_ b (o + j) <> c) by (intros j Hj; replace (o + j) with (o + len + (j - len)) by lia; apply Haft; lia).
  assert (Hmod : exists n, len - q = 8 * n) by (exists ((len - q) / 8); lia). destruct Hmod as (n & Hn).
  destruct K.
  - destruct (memrchr_loop_ok S P true b o len' c Hb Hc Ho ltac:(lia) ltac:(lia) W' (Z.to_nat n) fuel (o + len - q)) as [A _]; [lia|lia|lia|intros j Hj; exfalso; lia|].
    split; [|discriminate]. intros i Hi L. apply A; [exact Hi|]. apply (proj1 (last_at_more b o len len' c i Ho ltac:(lia) ltac:(lia) ltac:(lia) Cl)); exact L.
  - destruct (Z_le_dec 1 n) as [N1|N1]; [|exfalso; lia].
    destruct (memrchr_loop_ok S P false b o len' c Hb Hc Ho ltac:(lia) ltac:(lia) W' (Z.to_nat (n - 1)) fuel (o + len - q)) as [A B]; [lia|lia|lia|intros j Hj; exfalso; lia|].
    split. { intros i Hi L. apply A; [exact Hi|]. apply (proj1 (last_at_more b o len len' c i Ho ltac:(lia) ltac:(lia) ltac:(lia) Cl)); exact L. }
    intros _ N. apply B; [reflexivity|]. intros j Hj. destruct (Z_lt_dec j len); [apply N; lia|apply Cl; lia].
Qed.

(** A match in the eight bytes behind the range. *)
Lemma memrchr_behind fuel S (P K : bool) b o len c k :
  bytes b -> byte c -> 0 <= o -> 8 <= len -> len + 8 < 4294967296 -> o + len + 8 <= zlen b -> printable_ok P (slice b (o + len) 8) c ->
  last_at c (slice b (o + len) 8) k -> memrchr_ fuel S P K b o len c = Ok (len - part_len len + k).
Proof.
  intros Hb Hc Ho Hlen Hmx He HW Hk. unfold memrchr_. rewrite part_mask_long by lia. cbn [bind]. rewrite cast_in by lia. cbn [bind]. rewrite Z.land_0_l.
  pose proof (slice_bytes b (o + len) 8 Hb) as HB. pose proof (slice8_len b (o + len) ltac:(lia) ltac:(lia)) as HL. rewrite first_long by auto.
  assert (EH : hasbyte (le (slice b (o + len) 8)) c = true) by (apply hasbyte_list; eauto using last_at_in). rewrite EH.
  rewrite (memchr8_word_last P true _ c k) by auto. cbn [bind]. destruct Hk as (K1 & _). rewrite HL in K1.
  assert (1 <= part_len len <= 8) by (rewrite part_len_val by lia; destruct (Z.eqb_spec (len mod 8) 0); lia). rewrite u32_id by lia. f_equal. lia.
Qed.

(** The search in the word at the start of the range, after which the cursor is 8 bytes below it. *)
Lemma loop_start fuel S P (K : bool) b o c : bytes b -> byte c -> 0 <= o -> o + 8 <= zlen b -> printable_ok P (slice b o 8) c ->
  (forall k, last_at c (slice b o 8) k -> memrchr_loop (Datatypes.S fuel) S P K b o o c = Ok k) /\
  (~ In c (slice b o 8) -> memrchr_loop (Datatypes.S fuel) S P K b o o c = memrchr_loop fuel S P K b o (o - 8) c).
Proof.
  intros Hb Hc Ho He HP. pose proof (slice_bytes b o 8 Hb) as HB. pose proof (slice8_len b o ltac:(lia) ltac:(lia)) as HL. cbn [memrchr_loop]. rewrite cast_in by lia. cbn [bind]. split.
  - intros k Hk. assert (EH : hasbyte (le (slice b o 8)) c = true) by (apply hasbyte_list; eauto using last_at_in). rewrite EH. unfold memchr8_. rewrite cast_in by lia. cbn [bind].
    rewrite (memchr8_word_last P true _ c k) by auto. cbn [bind]. destruct Hk as (K1 & _). rewrite HL in K1. rewrite u32_id by lia. f_equal. lia.
  - intros N. assert (EH : hasbyte (le (slice b o 8)) c = false) by (apply hasbyte_false; auto). rewrite EH. replace (o - 8 =? o) with false by lia. rewrite andb_false_r. reflexivity.
Qed.
Lemma cast_below b p : p < 0 -> cast strict b p = Undef OobRead.
Proof. intros H. unfold cast. cbn [rdn]. unfold rd. replace ((0 <=? p) && (p <? zlen b)) with false by lia. reflexivity. Qed.

(** Ranges of 1 to 7 bytes: bytes [len] to 7 of the word behind the range are looked at first, then the whole word at its start. *)
Lemma memrchr_short fuel S (K : bool) b o len c : bytes b -> byte c -> c <> 0 -> 0 <= o -> 1 <= len < 8 -> o + len + 8 <= zlen b ->
  (forall k, len <= k < 8 -> at_ b (o + len + k) = c -> (forall j, k < j < 8 -> at_ b (o + len + j) <> c) -> memrchr_ (Datatypes.S fuel) S false K b o len c = Ok k) /\
  ((forall j, len <= j < 8 -> at_ b (o + len + j) <> c) -> memrchr_ (Datatypes.S fuel) S false K b o len c = memrchr_loop (Datatypes.S fuel) S false K b o o c).
Proof.
  intros Hb Hc Hn Ho Hlen He. unfold memrchr_. assert (Hpl : part_len len = len) by (rewrite part_len_val by lia; destruct (Z.eqb_spec (len mod 8) 0); lia).
  unfold part_mask. destruct (Z.ltb_spec len 8); [|lia]. rewrite Hpl. rewrite (u32_id (len * 8)), u32_id, shr64_ok by lia. cbn [bind]. rewrite cast_in by lia. cbn [bind].
  pose proof (slice_bytes b (o + len) 8 Hb) as HB. pose proof (slice8_len b (o + len) ltac:(lia) ltac:(lia)) as HL. rewrite short_first_le by auto.
  destruct (short_first_props len _ c Hlen HB HL Hc Hn) as (SB & SL & SN).
  assert (It : forall j, len <= j < 8 -> item (short_first len (slice b (o + len) 8) c) j = at_ b (o + len + j)).
  { intros j Hj. rewrite <- slice_item with (n := 8) by lia. unfold short_first, item. rewrite app_nth2 by (rewrite map_length, firstn_length; lia). rewrite map_length, firstn_length, HL, nth_skipn. f_equal. lia. }
  replace (o + len - len) with o by lia. split.
  - intros k Hk E Hj. assert (La : last_at c (short_first len (slice b (o + len) 8) c) k).
    { split; [rewrite SL; lia|]. split; [rewrite It by lia; exact E|]. intros j Hj2. rewrite SL in Hj2. rewrite It by lia. apply Hj. lia. }
    assert (EH : hasbyte (le (short_first len (slice b (o + len) 8) c)) c = true) by (apply hasbyte_list; eauto using last_at_in). rewrite EH.
    rewrite (memchr8_word_last false true _ c k) by (auto; exact I). cbn [bind]. rewrite u32_id by lia. f_equal. lia.
  - intros Hj. assert (EH : hasbyte (le (short_first len (slice b (o + len) 8) c)) c = false).
    { apply hasbyte_false; auto. intros HI. destruct (in_last_at _ _ HI) as (i & Hi & Hi2 & _). rewrite SL in Hi. destruct (Z_lt_dec i len); [revert Hi2; apply SN; lia|]. rewrite It in Hi2 by lia. revert Hi2. apply Hj. lia. }
    rewrite EH. reflexivity.
Qed.
