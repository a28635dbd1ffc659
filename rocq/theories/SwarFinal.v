(** Last steps from the lane lemmas to the statements of PropSwar.v. *)
From Verif Require Export NumParse.
Open Scope Z_scope.

Lemma le_value_le l : le_value l = le l.
Proof. induction l; cbn [le_value le]; auto. Qed.

Lemma to_le_byte_of n : forall x i, 0 <= x -> 0 <= i < Z.of_nat n -> item (to_le n x) i = byte_of x i.
Proof.
  induction n; intros x i Hx Hi; [lia|]. unfold item. cbn [to_le].
  destruct (Z.eq_dec i 0) as [->|].
  - unfold byte_of. rewrite Z.pow_0_r, Z.div_1_r. reflexivity.
  - replace (Z.to_nat i) with (Datatypes.S (Z.to_nat (i - 1))) by lia. cbn [nth].
    change (nth (Z.to_nat (i - 1)) (to_le n (x / 256)) 0) with (item (to_le n (x / 256)) (i - 1)).
    rewrite IHn by lia. unfold byte_of. rewrite Z.div_div by (try apply Z.pow_pos_nonneg; lia).
    rewrite <- Z.pow_succ_r by lia. do 3 f_equal. lia.
Qed.
Lemma word_lanes x : 0 <= x < 18446744073709551616 -> le (to_le 8 x) = x.
Proof. intros. rewrite le_to_le. apply Z.mod_small. exact H. Qed.

Lemma in_lanes x c : 0 <= x -> (In c (to_le 8 x) <-> exists i, 0 <= i < 8 /\ byte_of x i = c).
Proof.
  intros. split.
  - intros Hi. apply In_nth with (d := 0) in Hi. destruct Hi as (k & Hk & E). rewrite to_le_length in Hk.
    exists (Z.of_nat k). split; [lia|]. rewrite <- (to_le_byte_of 8) by lia. unfold item. rewrite Nat2Z.id. auto.
  - intros (i & Hi & E). rewrite <- E, <- (to_le_byte_of 8) by lia. apply nth_In. rewrite to_le_length. lia.
Qed.

Lemma haszero_word x : 0 <= x < 18446744073709551616 ->
  (haszero x = true <-> exists i, 0 <= i < 8 /\ byte_of x i = 0).
Proof.
  intros. rewrite <- (word_lanes x) at 1 by auto.
  rewrite haszero_list by (try apply to_le_length; apply to_le_bytes).
  rewrite <- in_lanes by lia. rewrite Exists_exists. split.
  - intros (y & Hy & ->). auto.
  - intros; eauto.
Qed.
Lemma hasbyte_word x c : 0 <= x < 18446744073709551616 -> 0 <= c < 256 ->
  (hasbyte x c = true <-> exists i, 0 <= i < 8 /\ byte_of x i = c).
Proof.
  intros. rewrite <- (word_lanes x) at 1 by auto.
  rewrite hasbyte_list by (try apply to_le_length; try apply to_le_bytes; auto).
  apply in_lanes. lia.
Qed.

Lemma memchr8_ok S b o c : all_bytes b -> 0 <= c < 256 -> 0 <= o -> o + 8 <= zlen b ->
  (forall i, first_at c (slice b o 8) i -> memchr8 S b o c = Ok i /\ memchr8k S b o c = Ok i) /\
  (~ In c (slice b o 8) -> memchr8 S b o c = Ok 4294967295 /\ memchr8k S b o c = Undef BadBuiltin).
Proof.
  intros Hb Hc Ho Hl. unfold memchr8, memchr8k, memchr8_. rewrite cast_in by auto. cbn [bind].
  pose proof (slice8_len b o Ho Hl) as L. pose proof (slice_bytes b o 8 Hb) as B.
  split.
  - intros i Hi. split; apply memchr8_word_first; cbn; auto.
  - intros Hn. rewrite !memchr8_word_none; cbn; auto.
Qed.

Lemma cast8_ok S b o len : all_bytes b -> 0 <= o -> 0 <= len <= 8 -> o + len <= zlen b ->
  oob S <> None \/ o + 8 <= zlen b -> (len = 8 -> wide_shift S = true) ->
  cast8 S b o len = Ok (le_value (slice b o len)).
Proof.
  intros Hb Ho Hl Hin Hr Hw. unfold cast8. rewrite cast8_get by auto. cbn [bind].
  rewrite u32_id by lia. change (le_value (slice b o len)) with (le (slice b o len)). rewrite <- (gets_firstn S b o len) by lia.
  pose proof (gets_bytes S b 8 o Hb) as Bl. pose proof (gets_length S b 8 o) as Ll.
  set (l := gets S b o 8) in *.
  assert (E : le l mod 2 ^ (len * 8) = le (firstn (Z.to_nat len) l)).
  { rewrite <- (firstn_skipn (Z.to_nat len) l) at 1.
    replace (2 ^ (len * 8)) with (256 ^ zlen (firstn (Z.to_nat len) l)).
    - apply le_mod. apply bytes_firstn; auto.
    - rewrite firstn_length. change 256 with (2 ^ 8). rewrite <- Z.pow_mul_r by lia. f_equal. lia. }
  destruct (Z.eqb_spec len 8) as [->|Hn].
  - unfold shl64. rewrite (Hw eq_refl). change (((0 <=? 8 * 8) && (8 * 8 <? 64))%bool) with false. cbv iota.
    cbn [bind]. change (Z.lor _ _) with (Z.ones 64). rewrite Z.land_ones by lia. f_equal. rewrite <- E. reflexivity.
  - rewrite shl64_ok by lia. cbn [bind]. change (u64 (- (0))) with 0. rewrite Z.lor_0_r. rewrite Z.mul_1_l.
    assert (P : 0 < 2 ^ (len * 8) <= 2 ^ 56). { split. apply Z.pow_pos_nonneg; lia. apply Z.pow_le_mono_r; lia. }
    change (2 ^ 56) with 72057594037927936 in P.
    rewrite (u64_id (2 ^ (len * 8))) by lia. rewrite u64_id by lia.
    replace (2 ^ (len * 8) - 1) with (Z.ones (len * 8)) by (rewrite Z.ones_equiv; lia).
    rewrite Z.land_ones by lia. f_equal. exact E.
Qed.

Lemma memchr_family fuel S b o len c :
  all_bytes b -> 0 <= c < 256 -> 0 <= o -> 9 <= len < 4294967296 -> o + len <= zlen b ->
  len <= 8 * Z.of_nat fuel ->
  (forall i, first_at c (slice b o len) i ->
     simd_memchr fuel S b o c len = Ok (PAt (o + i)) /\ memchrk fuel S b o len c = Ok i /\
     (printable_window b o len c -> pmemchr fuel S b o len c = Ok i /\ pmemchrk fuel S b o len c = Ok i)) /\
  (~ In c (slice b o len) ->
     simd_memchr fuel S b o c len = Ok (PAt (o + 4294967295)) /\
     (printable_window b o len c -> pmemchr fuel S b o len c = Ok 4294967295)).
Proof.
  intros Hb Hc Ho Hl Hin Hf. unfold simd_memchr, memchrk, pmemchr, pmemchrk.
  assert (W0 : window_ok false b o len c) by (intros H; discriminate).
  assert (W1 : printable_window b o len c -> window_ok true b o len c).
  { intros [H1 H2] _. split. 2:{ unfold ascii. lia. } intros j Hj. specialize (H2 j Hj).
    assert (byte (at_ b (o + j))) by (apply at_byte; auto; lia). unfold ascii, byte, at_, item in *. lia. }
  split.
  - intros i Hi. split; [|split; [|intros HP; split]].
    + rewrite (proj1 (memchr_ok fuel S false false b o len c Hb Hc Ho Hl Hin W0 Hf) i Hi). reflexivity.
    + apply (memchr_ok fuel S false true b o len c); auto.
    + apply (memchr_ok fuel S true false b o len c); auto.
    + apply (memchr_ok fuel S true true b o len c); auto.
  - intros Hn. split; [|intros HP].
    + rewrite (proj2 (memchr_ok fuel S false false b o len c Hb Hc Ho Hl Hin W0 Hf) Hn eq_refl). reflexivity.
    + apply (memchr_ok fuel S true false b o len c); auto.
Qed.

Lemma simd_memchr_short g fuel b o len c p : all_bytes b -> 0 < c < 256 -> 0 <= o -> 1 <= len < 8 ->
  8 * Z.of_nat fuel + 8 < 4294967295 ->
  simd_memchr fuel (machine g) b o c len = Ok p -> exists k, p = PAt (o + k) /\ len <= k.
Proof.
  intros Hb Hc Ho Hl Hf H. unfold simd_memchr in H. apply bind_Ok in H. destruct H as (k & H1 & H2).
  exists k. split; [congruence|]. apply (memchr_short_ge g false b o len c Hb) with (fuel := fuel); auto; unfold byte; lia.
Qed.

Lemma memrchr_family fuel S b o len c :
  all_bytes b -> 0 <= c < 256 -> 0 <= o -> 16 <= len < 4294967296 -> len mod 8 = 0 -> o + len + 8 <= zlen b ->
  (forall j, 0 <= j < 8 -> item b (o + len + j) <> c) -> len <= 8 * Z.of_nat fuel ->
  (forall i, last_at c (slice b o len) i ->
     memrchrk fuel S b o len c = Ok i /\ (printable_window b o len c -> pmemrchrk fuel S b o len c = Ok i) /\
     (8 <= i -> simd_memrchr fuel S b o c len = Ok (PAt (o + i - 3)) /\ (printable_window b o len c -> pmemrchr fuel S b o len c = Ok i))) /\
  ((forall j, 8 <= j < len -> item b (o + j) <> c) ->
     simd_memrchr fuel S b o c len = Ok (PAt (o + 4294967292)) /\ (printable_window b o len c -> pmemrchr fuel S b o len c = Ok 4294967295)).
Proof.
  intros Hb Hc Ho Hl Hm Hin Hn Hf. unfold simd_memrchr, memrchrk, pmemrchr, pmemrchrk.
  assert (W0 : window_ok false b o len c) by (intros H; discriminate).
  assert (W1 : printable_window b o len c -> window_ok true b o len c).
  { intros [H1 H2] _. split. 2:{ unfold ascii. lia. } intros j Hj. specialize (H2 j Hj).
    assert (byte (at_ b (o + j))) by (apply at_byte; auto; lia). unfold ascii, byte, at_, item in *. lia. }
  split.
  - intros i Hi. assert (0 <= i) by (destruct Hi as [? _]; lia). split; [|split; [intros HP|intros H8; split; [|intros HP]]].
    + apply (memrchr_ok fuel S false true b o len c); auto.
    + apply (memrchr_ok fuel S true true b o len c); auto.
    + rewrite (proj1 (memrchr_ok fuel S false false b o len c Hb Hc Ho Hl Hm Hin W0 Hn Hf) i H8 Hi). reflexivity.
    + apply (memrchr_ok fuel S true false b o len c); auto.
  - intros Hj. split; [|intros HP].
    + rewrite (proj2 (memrchr_ok fuel S false false b o len c Hb Hc Ho Hl Hm Hin W0 Hn Hf) eq_refl Hj). cbn [bind]. do 2 f_equal. lia.
    + apply (memrchr_ok fuel S true false b o len c); auto.
Qed.

(** ** deciding the specification predicates on literals (for the examples) *)
Lemma all_bytes_dec l : forallb (fun x => (0 <=? x) && (x <? 256)) l = true -> all_bytes l.
Proof. intros H. apply Forall_forall. rewrite forallb_forall in H. intros x Hx. specialize (H x Hx). lia. Qed.
Lemma first_at_dec c l i :
  (0 <=? i) && (i <? zlen l) && (item l i =? c) && forallb (fun j => negb (item l j =? c)) (zrange (Z.to_nat i)) = true -> first_at c l i.
Proof.
  intros H. rewrite !andb_true_iff, Z.leb_le, Z.ltb_lt, Z.eqb_eq, forallb_forall in H. destruct H as (((H1 & H2) & H3) & H4).
  split; [lia|]. split; [auto|]. intros j Hj. specialize (H4 j ltac:(apply in_zrange; lia)). lia.
Qed.
Lemma last_at_dec c l i :
  (0 <=? i) && (i <? zlen l) && (item l i =? c) && forallb (fun j => (j <=? i) || negb (item l j =? c)) (zrange (length l)) = true -> last_at c l i.
Proof.
  intros H. rewrite !andb_true_iff, Z.leb_le, Z.ltb_lt, Z.eqb_eq, forallb_forall in H. destruct H as (((H1 & H2) & H3) & H4).
  split; [lia|]. split; [auto|]. intros j Hj. specialize (H4 j ltac:(apply in_zrange; lia)). lia.
Qed.
Lemma not_in_dec c l : forallb (fun x => negb (x =? c)) l = true -> ~ In c l.
Proof. intros H Hc. rewrite forallb_forall in H. specialize (H c Hc). rewrite Z.eqb_refl in H. discriminate. Qed.
Lemma digits_dec l : forallb (fun x => (48 <=? x) && (x <=? 57)) l = true -> Forall is_digit l.
Proof. intros H. apply Forall_forall. rewrite forallb_forall in H. intros x Hx. specialize (H x Hx). unfold is_digit. lia. Qed.
