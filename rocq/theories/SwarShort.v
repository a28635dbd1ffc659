(** Forward search over at most eight bytes: what _memchr (src/swar.c 174-201)
    does when the range is not longer than one word. *)
From Coq Require Import ZArith List Lia Bool.
From Verif Require Import Base SpecStr SwarModel BaseLemmas SwarProofs SwarSearch.
Import ListNotations.
Local Open Scope Z_scope.

Section S.
Variable g : Z -> Z.
Variable P K : bool.
Variable b : list Z.
Variable o c : Z.
Hypothesis Hb : bytes b.
Hypothesis Hc : byte c.
Hypothesis Ho : 0 <= o.
Let m i := get (machine g) b i.
Hypothesis HP : P = true -> ascii c /\ forall i, ascii (m i).

Lemma cast_mem p : cast (machine g) b p = Ok (le (gets (machine g) b p 8)).
Proof. apply (cast_get (machine g) b p (p + 8)); try lia. left; cbn; discriminate. Qed.

Lemma printable_gets p : printable_ok P (gets (machine g) b p 8) c.
Proof.
  unfold printable_ok. destruct P; auto. destruct (HP eq_refl) as [H1 H2]. split; auto.
  cbn [gets]. repeat (constructor; [apply H2|]). constructor.
Qed.

Lemma gets_item p j : 0 <= j < 8 -> item (gets (machine g) b p 8) j = m (p + j).
Proof. intros. apply (gets_at (machine g) b 8 p j). lia. Qed.

Lemma loop_found e : forall fuel p k, e <= p -> o <= p -> p - o <= k -> k - (p - o) < 8 * Z.of_nat fuel -> k < 4294967296 ->
  m (o + k) = c -> (forall j, p - o <= j < k -> m (o + j) <> c) ->
  memchr_loop fuel (machine g) P K b o e p c = Ok k.
Proof.
  induction fuel; intros p k He Hp Hk Hf Hk2 Hm Hn; [lia|]. cbn [memchr_loop].
  rewrite cast_mem. cbn [bind].
  pose proof (gets_bytes (machine g) b 8 p Hb) as HB. pose proof (gets_length (machine g) b 8 p) as HL.
  destruct (Z_lt_dec (k - (p - o)) 8).
  - assert (Hfi : first_at c (gets (machine g) b p 8) (k - (p - o))).
    { split; [rewrite HL; lia|]. split; [rewrite gets_item by lia; rewrite <- Hm; f_equal; lia|].
      intros j Hj. rewrite gets_item by lia. replace (p + j) with (o + (p - o + j)) by lia. apply Hn. lia. }
    assert (EH : hasbyte (le (gets (machine g) b p 8)) c = true) by (apply hasbyte_list; eauto using first_at_in).
    rewrite EH. unfold memchr8_. rewrite cast_mem. cbn [bind].
    rewrite (memchr8_word_first P true _ c (k - (p - o))) by auto using printable_gets. cbn [bind].
    rewrite u32_id by lia. f_equal. lia.
  - assert (EH : hasbyte (le (gets (machine g) b p 8)) c = false).
    { apply hasbyte_false; auto. intros HI. destruct (in_first_at _ _ HI) as (i & Hi & Hi2 & _). rewrite HL in Hi.
      rewrite gets_item in Hi2 by lia. replace (p + i) with (o + (p - o + i)) in Hi2 by lia. revert Hi2. apply Hn. lia. }
    rewrite EH. destruct (Z.eqb_spec (p + 8) e); [lia|]. rewrite andb_false_r.
    apply IHfuel; auto; try lia; intros; apply Hn; lia.
Qed.

Lemma loop_none e : forall fuel p, e <= p -> o <= p ->
  (forall j, p - o <= j < p - o + 8 * Z.of_nat fuel -> m (o + j) <> c) ->
  memchr_loop fuel (machine g) P K b o e p c = NoFuel.
Proof.
  induction fuel; intros p He Hp Hn; [reflexivity|]. cbn [memchr_loop].
  rewrite cast_mem. cbn [bind].
  pose proof (gets_bytes (machine g) b 8 p Hb) as HB. pose proof (gets_length (machine g) b 8 p) as HL.
  assert (EH : hasbyte (le (gets (machine g) b p 8)) c = false).
  { apply hasbyte_false; auto. intros HI. destruct (in_first_at _ _ HI) as (i & Hi & Hi2 & _). rewrite HL in Hi.
    rewrite gets_item in Hi2 by lia. replace (p + i) with (o + (p - o + i)) in Hi2 by lia. revert Hi2. apply Hn. lia. }
  rewrite EH. destruct (Z.eqb_spec (p + 8) e); [lia|]. rewrite andb_false_r.
  apply IHfuel; try lia; intros; apply Hn; lia.
Qed.

(** the first word of a range of 1..7 bytes *)
Lemma short_item len j : 1 <= len < 8 -> len <= j < 8 ->
  item (short_first len (gets (machine g) b o 8) c) j = m (o + j).
Proof.
  intros Hl Hj. rewrite <- gets_item by lia. unfold short_first, item.
  pose proof (gets_length (machine g) b 8 o) as HL.
  rewrite app_nth2 by (rewrite map_length, firstn_length; lia). rewrite map_length, firstn_length, HL.
  rewrite nth_skipn. f_equal. lia.
Qed.

Lemma short_printable len : printable_ok P (short_first len (gets (machine g) b o 8) c) c.
Proof.
  pose proof (printable_gets o) as H. unfold printable_ok in *. destruct P; auto. destruct H as [H1 H2]. split; auto.
  unfold short_first. apply Forall_app. split.
  - apply Forall_forall. intros x Hx. apply in_map_iff in Hx. destruct Hx as (y & <- & Hy).
    assert (ascii y). { apply (proj1 (Forall_forall _ _) H1). rewrite <- (firstn_skipn (Z.to_nat len)). apply in_or_app. auto. }
    unfold ascii, byte in *.
    split; [apply Z.land_nonneg; lia|].
    destruct (Z.eq_dec (Z.land y (255 - c)) 0) as [->|]; [lia|].
    assert (0 <= Z.land y (255 - c)) by (apply Z.land_nonneg; lia).
    change 128 with (2 ^ 7). apply Z.log2_lt_pow2; [lia|].
    eapply Z.le_lt_trans; [apply Z.log2_land; lia|].
    assert (Z.log2 y < 7) by (destruct (Z.eq_dec y 0) as [->|]; [reflexivity|apply Z.log2_lt_pow2; lia]). lia.
  - apply Forall_forall. intros x Hx. apply (proj1 (Forall_forall _ _) H1). rewrite <- (firstn_skipn (Z.to_nat len)). apply in_or_app. auto.
Qed.

(** ranges of 1..7 bytes, a byte other than NUL: the first occurrence from [len] on *)
Lemma short_found len fuel k : 1 <= len < 8 -> c <> 0 ->
  len <= k < 4294967296 -> k < len + 8 * Z.of_nat fuel -> m (o + k) = c -> (forall j, len <= j < k -> m (o + j) <> c) ->
  memchr_ fuel (machine g) P K b o len c = Ok k.
Proof.
  intros Hlen Hn Hk Hf Hm Hj. unfold memchr_.
  assert (Hpl : part_len len = len).
  { rewrite part_len_val by lia. destruct (Z.eqb_spec (len mod 8) 0); lia. }
  unfold part_mask. destruct (Z.ltb_spec len 8); [|lia]. rewrite Hpl.
  rewrite (u32_id (len * 8)), u32_id, shr64_ok by lia. cbn [bind]. rewrite cast_mem. cbn [bind].
  pose proof (gets_bytes (machine g) b 8 o Hb) as HB. pose proof (gets_length (machine g) b 8 o) as HL.
  rewrite short_first_le by auto.
  destruct (short_first_props len _ c Hlen HB HL Hc Hn) as (SB & SL & SN).
  destruct (Z_lt_dec k 8).
  - assert (Hfi : first_at c (short_first len (gets (machine g) b o 8) c) k).
    { split; [rewrite SL; lia|]. split; [rewrite short_item by lia; auto|].
      intros j Hj2. destruct (Z_lt_dec j len); [apply SN; lia|]. rewrite short_item by lia. apply Hj. lia. }
    assert (EH : hasbyte (le (short_first len (gets (machine g) b o 8) c)) c = true) by (apply hasbyte_list; eauto using first_at_in).
    rewrite EH. apply memchr8_word_first; auto using short_printable.
  - assert (EH : hasbyte (le (short_first len (gets (machine g) b o 8) c)) c = false).
    { apply hasbyte_false; auto. intros HI. destruct (in_first_at _ _ HI) as (i & Hi & Hi2 & _). rewrite SL in Hi.
      destruct (Z_lt_dec i len); [revert Hi2; apply SN; lia|]. rewrite short_item in Hi2 by lia. revert Hi2. apply Hj. lia. }
    rewrite EH. apply loop_found; auto; try lia; intros; apply Hj; lia.
Qed.

Lemma short_none len fuel : 1 <= len < 8 -> c <> 0 ->
  (forall j, len <= j < len + 8 * Z.of_nat fuel \/ len <= j < 8 -> m (o + j) <> c) ->
  memchr_ fuel (machine g) P K b o len c = NoFuel.
Proof.
  intros Hlen Hn Hj. unfold memchr_.
  assert (Hpl : part_len len = len).
  { rewrite part_len_val by lia. destruct (Z.eqb_spec (len mod 8) 0); lia. }
  unfold part_mask. destruct (Z.ltb_spec len 8); [|lia]. rewrite Hpl.
  rewrite (u32_id (len * 8)), u32_id, shr64_ok by lia. cbn [bind]. rewrite cast_mem. cbn [bind].
  pose proof (gets_bytes (machine g) b 8 o Hb) as HB. pose proof (gets_length (machine g) b 8 o) as HL.
  rewrite short_first_le by auto.
  destruct (short_first_props len _ c Hlen HB HL Hc Hn) as (SB & SL & SN).
  assert (EH : hasbyte (le (short_first len (gets (machine g) b o 8) c)) c = false).
  { apply hasbyte_false; auto. intros HI. destruct (in_first_at _ _ HI) as (i & Hi & Hi2 & _). rewrite SL in Hi.
    destruct (Z_lt_dec i len); [revert Hi2; apply SN; lia|]. rewrite short_item in Hi2 by lia. revert Hi2. apply Hj. lia. }
  rewrite EH. apply loop_none; try lia; intros; apply Hj; lia.
Qed.

(** exactly eight bytes: the first occurrence from 0 on, wherever it is *)
Lemma eight_found fuel k :
  0 <= k < 4294967296 -> k < 8 + 8 * Z.of_nat fuel -> m (o + k) = c -> (forall j, 0 <= j < k -> m (o + j) <> c) ->
  memchr_ fuel (machine g) P K b o 8 c = Ok k.
Proof.
  intros Hk Hf Hm Hj. unfold memchr_. rewrite part_mask_long by lia. cbn [bind]. rewrite cast_mem. cbn [bind].
  rewrite Z.land_0_l.
  pose proof (gets_bytes (machine g) b 8 o Hb) as HB. pose proof (gets_length (machine g) b 8 o) as HL.
  rewrite first_long by auto. destruct (Z_lt_dec k 8).
  - assert (Hfi : first_at c (gets (machine g) b o 8) k).
    { split; [rewrite HL; lia|]. split; [rewrite gets_item by lia; auto|].
      intros j Hj2. rewrite gets_item by lia. apply Hj. lia. }
    assert (EH : hasbyte (le (gets (machine g) b o 8)) c = true) by (apply hasbyte_list; eauto using first_at_in).
    rewrite EH. apply memchr8_word_first; auto using printable_gets.
  - assert (EH : hasbyte (le (gets (machine g) b o 8)) c = false).
    { apply hasbyte_false; auto. intros HI. destruct (in_first_at _ _ HI) as (i & Hi & Hi2 & _). rewrite HL in Hi.
      rewrite gets_item in Hi2 by lia. revert Hi2. apply Hj. lia. }
    rewrite EH. change (part_len 8) with 8. apply loop_found; auto; try lia; intros; apply Hj; lia.
Qed.

Lemma eight_none fuel : (forall j, 0 <= j < 8 + 8 * Z.of_nat fuel -> m (o + j) <> c) ->
  memchr_ fuel (machine g) P K b o 8 c = NoFuel.
Proof.
  intros Hj. unfold memchr_. rewrite part_mask_long by lia. cbn [bind]. rewrite cast_mem. cbn [bind].
  rewrite Z.land_0_l.
  pose proof (gets_bytes (machine g) b 8 o Hb) as HB. pose proof (gets_length (machine g) b 8 o) as HL.
  rewrite first_long by auto.
  assert (EH : hasbyte (le (gets (machine g) b o 8)) c = false).
  { apply hasbyte_false; auto. intros HI. destruct (in_first_at _ _ HI) as (i & Hi & Hi2 & _). rewrite HL in Hi.
    rewrite gets_item in Hi2 by lia. revert Hi2. apply Hj. lia. }
  rewrite EH. change (part_len 8) with 8. apply loop_none; try lia; intros; apply Hj; lia.
Qed.

(** search for the first occurrence in a finite range *)
Lemma first_or_none (a : Z) : forall n : nat, (exists k, a <= k < a + Z.of_nat n /\ m (o + k) = c /\ forall j, a <= j < k -> m (o + j) <> c) \/
  (forall j, a <= j < a + Z.of_nat n -> m (o + j) <> c).
Proof.
  induction n.
  - right. intros. lia.
  - destruct IHn as [(k & H1 & H2 & H3)|H].
    + left. exists k. split; [lia|auto].
    + destruct (Z.eq_dec (m (o + (a + Z.of_nat n))) c).
      * left. exists (a + Z.of_nat n). split; [lia|]. split; auto.
      * right. intros j Hj. destruct (Z.eq_dec j (a + Z.of_nat n)); [congruence|]. apply H. lia.
Qed.

(** everything that can come out: for 1..8 bytes *)
Lemma small_result len fuel : 1 <= len <= 8 -> c <> 0 -> 8 * Z.of_nat fuel + 8 < 4294967296 ->
  let a := if len =? 8 then 0 else len in
  match memchr_ fuel (machine g) P K b o len c with
  | Ok k => a <= k < 8 * Z.of_nat fuel + 8 /\ m (o + k) = c /\ forall j, a <= j < k -> m (o + j) <> c
  | NoFuel => forall j, a <= j < len + 8 * Z.of_nat fuel -> m (o + j) <> c
  | _ => False
  end.
Proof.
  intros Hl Hn Hf a.
  destruct (first_or_none a (Z.to_nat (Z.max (len + 8 * Z.of_nat fuel) 8 - a))) as [(k & H1 & H2 & H3)|H];
    unfold a in *; destruct (Z.eqb_spec len 8) as [->|].
  - rewrite (eight_found fuel k) by (auto; lia). split; [lia|auto].
  - destruct (Z_lt_dec k (len + 8 * Z.of_nat fuel)).
    + rewrite (short_found len fuel k) by (auto; lia). split; [lia|auto].
    + destruct fuel; [|lia].
      assert (E : memchr_ 0 (machine g) P K b o len c = Ok k).
      { unfold memchr_.
        assert (Hpl : part_len len = len) by (rewrite part_len_val by lia; destruct (Z.eqb_spec (len mod 8) 0); lia).
        unfold part_mask. destruct (Z.ltb_spec len 8); [|lia]. rewrite Hpl.
        rewrite (u32_id (len * 8)), u32_id, shr64_ok by lia. cbn [bind]. rewrite cast_mem. cbn [bind].
        pose proof (gets_bytes (machine g) b 8 o Hb) as HB. pose proof (gets_length (machine g) b 8 o) as HL.
        rewrite short_first_le by (auto; lia).
        destruct (short_first_props len _ c ltac:(lia) HB HL Hc Hn) as (SB & SL & SN).
        assert (Hfi : first_at c (short_first len (gets (machine g) b o 8) c) k).
        { split; [rewrite SL; lia|]. split; [rewrite short_item by lia; auto|].
          intros j Hj2. destruct (Z_lt_dec j len); [apply SN; lia|]. rewrite short_item by lia. apply H3. lia. }
        assert (EH : hasbyte (le (short_first len (gets (machine g) b o 8) c)) c = true) by (apply hasbyte_list; eauto using first_at_in).
        rewrite EH. apply memchr8_word_first; auto using short_printable. }
      rewrite E. split; [lia|auto].
  - rewrite eight_none; intros; apply H; lia.
  - rewrite short_none; auto; try lia; intros; apply H; lia.
Qed.
End S.
