(** Lemmas about blocks, little-endian words and machine integers. *)
From Verif Require Export Base.
From Coq Require Export ZifyBool ZifyNat.
Ltac Zify.zify_post_hook ::= Z.div_mod_to_equations.

Definition byte (z : Z) : Prop := 0 <= z < 256.
Definition bytes (l : list Z) : Prop := Forall byte l.
Notation zlen l := (Z.of_nat (length l)).
Definition at_ (l : list Z) (i : Z) : Z := nth (Z.to_nat i) l 0.

(** ** bind *)
Lemma bind_Ok {A B} (x : out A) (f : A -> out B) b :
  bind x f = Ok b -> exists a, x = Ok a /\ f a = Ok b.
Proof. destruct x; cbn; intros; try discriminate; eauto. Qed.

(** ** machine integers *)
Lemma u64_id x : 0 <= x < 18446744073709551616 -> u64 x = x.
Proof. intros; unfold u64; apply Z.mod_small; lia. Qed.
Lemma u32_id x : 0 <= x < 4294967296 -> u32 x = x.
Proof. intros; unfold u32; apply Z.mod_small; lia. Qed.
Lemma u16_id x : 0 <= x < 65536 -> u16 x = x.
Proof. intros; unfold u16; apply Z.mod_small; lia. Qed.
Lemma u8_id x : 0 <= x < 256 -> u8 x = x.
Proof. intros; unfold u8; apply Z.mod_small; lia. Qed.
Lemma u64_range x : 0 <= u64 x < 18446744073709551616.
Proof. unfold u64; apply Z.mod_pos_bound; lia. Qed.
Lemma u32_range x : 0 <= u32 x < 4294967296.
Proof. unfold u32; apply Z.mod_pos_bound; lia. Qed.
Lemma u8_byte x : byte (u8 x).
Proof. unfold u8, byte; apply Z.mod_pos_bound; lia. Qed.
Lemma not64_val x : not64 x = u64 (-1 - x).
Proof. unfold not64, Z.lnot. f_equal. lia. Qed.
Lemma not64_id x : 0 <= x < 18446744073709551616 -> not64 x = 18446744073709551615 - x.
Proof. intros. rewrite not64_val. unfold u64.
  replace (-1 - x) with ((18446744073709551615 - x) + (-1) * 18446744073709551616) by lia.
  rewrite Z.mod_add by lia. apply Z.mod_small; lia. Qed.
Lemma s64_id x : -9223372036854775808 <= x < 9223372036854775808 -> s64 x = x.
Proof.
  intros. unfold s64, u64. cbv zeta.
  destruct (Z_lt_dec x 0).
  - replace x with (x + 18446744073709551616 + (-1) * 18446744073709551616) at 1 2 by lia.
    rewrite !Z.mod_add by lia. rewrite !Z.mod_small by lia.
    destruct (Z.ltb_spec (x + 18446744073709551616) 9223372036854775808); lia.
  - rewrite Z.mod_small by lia. destruct (Z.ltb_spec x 9223372036854775808); lia.
Qed.
Lemma s32_id x : -2147483648 <= x < 2147483648 -> s32 x = x.
Proof.
  intros. unfold s32, u32. cbv zeta.
  destruct (Z_lt_dec x 0).
  - replace x with (x + 4294967296 + (-1) * 4294967296) at 1 2 by lia.
    rewrite !Z.mod_add by lia. rewrite !Z.mod_small by lia.
    destruct (Z.ltb_spec (x + 4294967296) 2147483648); lia.
  - rewrite Z.mod_small by lia. destruct (Z.ltb_spec x 2147483648); lia.
Qed.
Lemma s32_range x : -2147483648 <= s32 x < 2147483648.
Proof. unfold s32. cbv zeta. pose proof (u32_range x). destruct (Z.ltb_spec (u32 x) 2147483648); lia. Qed.

Lemma shl64_ok S x n : 0 <= n < 64 -> shl64 S x n = Ok (u64 (x * 2 ^ n)).
Proof. intros. unfold shl64. rewrite Z.shiftl_mul_pow2 by lia.
  destruct (Z.leb_spec 0 n); destruct (Z.ltb_spec n 64); try lia. reflexivity. Qed.
Lemma shr64_ok S x n : 0 <= n < 64 -> shr64 S x n = Ok (x / 2 ^ n).
Proof. intros. unfold shr64. rewrite Z.shiftr_div_pow2 by lia.
  destruct (Z.leb_spec 0 n); destruct (Z.ltb_spec n 64); try lia. reflexivity. Qed.

(** ** bytes and bit operations *)
Lemma byte_land x : byte x <-> Z.land x 255 = x.
Proof.
  change 255 with (Z.ones 8). rewrite Z.land_ones by lia.
  unfold byte. split; intros. apply Z.mod_small; lia.
  rewrite <- H. apply Z.mod_pos_bound. lia.
Qed.
Lemma byte_and x y : byte x -> byte (Z.land x y).
Proof. rewrite !byte_land. intros. rewrite <- Z.land_assoc, (Z.land_comm y), Z.land_assoc, H. auto. Qed.
Lemma byte_and_r x y : byte y -> byte (Z.land x y).
Proof. rewrite Z.land_comm. apply byte_and. Qed.
Lemma byte_or x y : byte x -> byte y -> byte (Z.lor x y).
Proof. rewrite !byte_land. intros. rewrite Z.land_lor_distr_l. congruence. Qed.
Lemma byte_xor x y : byte x -> byte y -> byte (Z.lxor x y).
Proof.
  rewrite !byte_land. intros Hx Hy. apply Z.bits_inj'. intros n Hn.
  rewrite Z.land_spec, Z.lxor_spec. rewrite <- Hx, <- Hy at 1. rewrite !Z.land_spec.
  rewrite <- Hx, <- Hy at 2. rewrite !Z.land_spec.
  destruct (Z.testbit x n), (Z.testbit y n), (Z.testbit 255 n); reflexivity.
Qed.

Lemma testbit_cons b x n : byte b -> 0 <= n ->
  Z.testbit (b + 256 * x) n = if n <? 8 then Z.testbit b n else Z.testbit x (n - 8).
Proof.
  intros Hb Hn. unfold byte in Hb. destruct (Z.ltb_spec n 8).
  - rewrite <- (Z.mod_pow2_bits_low (b + 256 * x) 8 n) by lia.
    f_equal. change (2^8) with 256. lia.
  - replace n with ((n - 8) + 8) at 1 by lia. rewrite <- Z.div_pow2_bits by lia.
    f_equal. change (2^8) with 256. lia.
Qed.

Fixpoint zip (f : Z -> Z -> Z) (a b : list Z) : list Z :=
  match a, b with
  | x :: a', y :: b' => f x y :: zip f a' b'
  | _, _ => []
  end.
Lemma zip_length f a : forall b, length a = length b -> length (zip f a b) = length a.
Proof. induction a; destruct b; cbn; intros; try congruence. f_equal; auto. Qed.

Lemma le_land a : forall b, bytes a -> bytes b -> length a = length b ->
  Z.land (le a) (le b) = le (zip Z.land a b).
Proof.
  induction a as [|x a IH]; destruct b as [|y b]; cbn [le zip length]; intros Ha Hb Hl; try congruence.
  { reflexivity. }
  inversion Ha; inversion Hb; subst. rewrite <- IH by (auto; congruence).
  apply Z.bits_inj'. intros n Hn. rewrite Z.land_spec, !testbit_cons; auto using byte_and.
  destruct (n <? 8); rewrite Z.land_spec; auto.
Qed.
Lemma le_lor a : forall b, bytes a -> bytes b -> length a = length b ->
  Z.lor (le a) (le b) = le (zip Z.lor a b).
Proof.
  induction a as [|x a IH]; destruct b as [|y b]; cbn [le zip length]; intros Ha Hb Hl; try congruence.
  { reflexivity. }
  inversion Ha; inversion Hb; subst. rewrite <- IH by (auto; congruence).
  apply Z.bits_inj'. intros n Hn. rewrite Z.lor_spec, !testbit_cons; auto using byte_or.
  destruct (n <? 8); rewrite Z.lor_spec; auto.
Qed.
Lemma le_lxor a : forall b, bytes a -> bytes b -> length a = length b ->
  Z.lxor (le a) (le b) = le (zip Z.lxor a b).
Proof.
  induction a as [|x a IH]; destruct b as [|y b]; cbn [le zip length]; intros Ha Hb Hl; try congruence.
  { reflexivity. }
  inversion Ha; inversion Hb; subst. rewrite <- IH by (auto; congruence).
  apply Z.bits_inj'. intros n Hn. rewrite Z.lxor_spec, !testbit_cons; auto using byte_xor.
  destruct (n <? 8); rewrite Z.lxor_spec; auto.
Qed.
Lemma le_add a : forall b, length a = length b -> le a + le b = le (zip Z.add a b).
Proof.
  induction a as [|x a IH]; destruct b as [|y b]; cbn [le zip length]; intros Hl; try congruence.
  { reflexivity. }
  rewrite <- IH by congruence. ring.
Qed.

Lemma le_bound l : bytes l -> 0 <= le l < 256 ^ zlen l.
Proof.
  induction 1; cbn [le length]. { cbn. lia. }
  unfold byte in H. rewrite Nat2Z.inj_succ, Z.pow_succ_r by lia. lia.
Qed.
Lemma le_bound8 l : bytes l -> length l = 8%nat -> 0 <= le l < 18446744073709551616.
Proof. intros H E. pose proof (le_bound l H). rewrite E in H0. cbn in H0. exact H0. Qed.

Lemma le_app a b : le (a ++ b) = le a + 256 ^ zlen a * le b.
Proof.
  induction a; cbn [le app length]. { cbn [Z.of_nat]. rewrite Z.pow_0_r. ring. }
  rewrite IHa, Nat2Z.inj_succ, Z.pow_succ_r by lia. ring.
Qed.
Lemma le_mod a b : bytes a -> le (a ++ b) mod 256 ^ zlen a = le a.
Proof.
  intros. rewrite le_app. pose proof (le_bound a H).
  rewrite Z.mul_comm, Z.mod_add by lia. apply Z.mod_small. lia.
Qed.
Lemma le_div a b : bytes a -> le (a ++ b) / 256 ^ zlen a = le b.
Proof.
  intros. rewrite le_app. pose proof (le_bound a H).
  rewrite Z.mul_comm, Z.div_add by lia. rewrite Z.div_small by lia. lia.
Qed.

Lemma to_le_length n x : length (to_le n x) = n.
Proof. revert x; induction n; cbn; auto. Qed.
Lemma to_le_bytes n x : bytes (to_le n x).
Proof. revert x; induction n; cbn; constructor; auto. apply Z.mod_pos_bound. lia. apply IHn. Qed.
Lemma to_le_le l : bytes l -> to_le (length l) (le l) = l.
Proof.
  induction 1; cbn [le to_le length]; auto. unfold byte in H.
  f_equal. lia. replace ((x + 256 * le l) / 256) with (le l) by lia. auto.
Qed.
Lemma le_to_le n : forall x, le (to_le n x) = x mod 256 ^ Z.of_nat n.
Proof.
  induction n; intros; cbn [le to_le]. { cbn. rewrite Z.mod_1_r. auto. }
  rewrite IHn, Nat2Z.inj_succ, Z.pow_succ_r by lia.
  rewrite Z.rem_mul_r by lia. ring.
Qed.
Lemma le_inj a b : bytes a -> bytes b -> length a = length b -> le a = le b -> a = b.
Proof.
  intros. rewrite <- (to_le_le a), <- (to_le_le b) by auto. congruence.
Qed.

Lemma bytes_app a b : bytes (a ++ b) <-> bytes a /\ bytes b.
Proof. apply Forall_app. Qed.
Lemma bytes_firstn n l : bytes l -> bytes (firstn n l).
Proof. intros. rewrite <- (firstn_skipn n l) in H. apply bytes_app in H. tauto. Qed.
Lemma bytes_skipn n l : bytes l -> bytes (skipn n l).
Proof. intros. rewrite <- (firstn_skipn n l) in H. apply bytes_app in H. tauto. Qed.
Lemma bytes_nth l i : bytes l -> (i < length l)%nat -> byte (nth i l 0).
Proof. intros. eapply Forall_forall; eauto. apply nth_In; auto. Qed.
Lemma bytes_repeat c n : byte c -> bytes (repeat c n).
Proof. intros. apply Forall_forall. intros. apply repeat_spec in H0. congruence. Qed.

(** ** reads and writes *)
Lemma rd_in S b i : 0 <= i < zlen b -> rd S b i = Ok (at_ b i).
Proof. intros. unfold rd. destruct (Z.leb_spec 0 i); destruct (Z.ltb_spec i (zlen b)); try lia. reflexivity. Qed.
Lemma rd_out_strict b i : ~ (0 <= i < zlen b) -> rd strict b i = Undef OobRead.
Proof. intros. unfold rd. destruct (Z.leb_spec 0 i); destruct (Z.ltb_spec i (zlen b)); try lia; reflexivity. Qed.

(** What a read yields, defined for every offset when the block is in bounds or
    the reading is permissive. *)
Definition readable (S : sem) (b : list Z) (lo hi : Z) : Prop :=
  oob S <> None \/ (0 <= lo /\ hi <= zlen b).
Definition get (S : sem) (b : list Z) (i : Z) : Z :=
  if (0 <=? i) && (i <? zlen b) then at_ b i
  else match oob S with Some g => u8 (g i) | None => 0 end.
Lemma rd_get S b lo hi i : readable S b lo hi -> lo <= i < hi -> rd S b i = Ok (get S b i).
Proof.
  intros. unfold rd, get, at_. destruct ((0 <=? i) && (i <? zlen b)) eqn:E; auto.
  destruct H. destruct (oob S); congruence.
  destruct (Z.leb_spec 0 i); destruct (Z.ltb_spec i (zlen b)); try lia; discriminate.
Qed.
Lemma get_in S b i : 0 <= i < zlen b -> get S b i = at_ b i.
Proof. intros. unfold get. destruct (Z.leb_spec 0 i); destruct (Z.ltb_spec i (zlen b)); try lia; reflexivity. Qed.
Lemma at_byte b i : bytes b -> 0 <= i < zlen b -> byte (at_ b i).
Proof. intros. apply bytes_nth; auto. lia. Qed.
Lemma get_byte S b i : bytes b -> byte (get S b i).
Proof.
  intros. unfold get. destruct (Z.leb_spec 0 i); destruct (Z.ltb_spec i (zlen b)); cbn [andb];
  try (apply at_byte; auto; lia); destruct (oob S); try apply u8_byte; unfold byte; lia.
Qed.
(** the [n] bytes starting at [i] *)
Fixpoint gets (S : sem) (b : list Z) (i : Z) (n : nat) : list Z :=
  match n with O => [] | Datatypes.S n' => get S b i :: gets S b (i + 1) n' end.
Lemma gets_length S b n : forall i, length (gets S b i n) = n.
Proof. induction n; cbn; auto. Qed.
Lemma gets_bytes S b n : forall i, bytes b -> bytes (gets S b i n).
Proof. induction n; cbn; constructor; auto using get_byte. apply IHn; auto. Qed.
Lemma gets_at S b n : forall i k, 0 <= k < Z.of_nat n -> at_ (gets S b i n) k = get S b (i + k).
Proof.
  induction n; intros; [lia|]. unfold at_ in *. cbn [gets].
  destruct (Z.eq_dec k 0); subst. { cbn. f_equal. lia. }
  replace (Z.to_nat k) with (Datatypes.S (Z.to_nat (k - 1))) by lia. cbn [nth].
  rewrite IHn by lia. f_equal. lia.
Qed.
Lemma rdn_gets S b lo hi n : forall i, readable S b lo hi -> lo <= i -> i + Z.of_nat n <= hi ->
  rdn S b i n = Ok (gets S b i n).
Proof.
  induction n; intros; cbn [rdn gets]; auto.
  rewrite (rd_get S b lo hi) by (auto; lia). cbn [bind]. rewrite IHn by (auto; lia). reflexivity.
Qed.
Lemma gets_in S b : forall n i, 0 <= i -> i + Z.of_nat n <= zlen b ->
  gets S b i n = firstn n (skipn (Z.to_nat i) b).
Proof.
  induction n; intros; cbn [gets firstn]; auto.
  rewrite get_in by lia. rewrite IHn by lia. unfold at_.
  replace (Z.to_nat (i + 1)) with (Datatypes.S (Z.to_nat i)) by lia.
  assert (Z.to_nat i < length b)%nat by lia.
  generalize dependent (Z.to_nat i). clear. intros k Hk.
  revert k Hk. induction b; intros; cbn in *; [lia|].
  destruct k; cbn; auto. rewrite <- IHb by lia. destruct b; cbn in *; auto; lia.
Qed.

Lemma blit_ok b i l : 0 <= i -> i + zlen l <= zlen b ->
  blit b i l = Ok (firstn (Z.to_nat i) b ++ l ++ skipn (Z.to_nat i + length l) b).
Proof.
  intros. unfold blit. destruct (Z.leb_spec 0 i); destruct (Z.leb_spec (i + zlen l) (zlen b)); try lia.
  reflexivity.
Qed.
Lemma blit_inv b i l b' : blit b i l = Ok b' ->
  0 <= i /\ i + zlen l <= zlen b /\ b' = firstn (Z.to_nat i) b ++ l ++ skipn (Z.to_nat i + length l) b.
Proof.
  unfold blit. destruct (Z.leb_spec 0 i); destruct (Z.leb_spec (i + zlen l) (zlen b)); cbn; intros E;
  inversion E; repeat split; auto.
Qed.
Lemma blit_length b i l b' : blit b i l = Ok b' -> length b' = length b.
Proof.
  intros H. apply blit_inv in H. destruct H as (? & ? & ->).
  rewrite !app_length, firstn_length, skipn_length. lia.
Qed.
Lemma blit_bytes b i l b' : blit b i l = Ok b' -> bytes b -> bytes l -> bytes b'.
Proof.
  intros H. apply blit_inv in H. destruct H as (? & ? & ->). intros.
  rewrite !bytes_app. auto using bytes_firstn, bytes_skipn.
Qed.
Lemma blit_at b i l b' k : blit b i l = Ok b' -> 0 <= k < zlen b ->
  at_ b' k = if (i <=? k) && (k <? i + zlen l) then at_ l (k - i) else at_ b k.
Proof.
  intros H Hk. apply blit_inv in H. destruct H as (Hi & Hl & ->). unfold at_.
  destruct (Z.leb_spec i k); destruct (Z.ltb_spec k (i + zlen l)); cbn [andb].
  - rewrite app_nth2 by (rewrite firstn_length; lia).
    rewrite app_nth1 by (rewrite firstn_length; lia). f_equal. rewrite firstn_length. lia.
  - rewrite app_nth2 by (rewrite firstn_length; lia).
    rewrite app_nth2 by (rewrite firstn_length; lia).
    rewrite firstn_length.
    transitivity (nth (Z.to_nat k) (firstn (Z.to_nat i + length l) b ++ skipn (Z.to_nat i + length l) b) 0).
    + rewrite app_nth2 by (rewrite firstn_length; lia).
      rewrite firstn_length. f_equal. lia.
    + rewrite firstn_skipn. reflexivity.
  - rewrite app_nth1 by (rewrite firstn_length; lia).
    transitivity (nth (Z.to_nat k) (firstn (Z.to_nat i) b ++ skipn (Z.to_nat i) b) 0).
    + rewrite app_nth1 by (rewrite firstn_length; lia). reflexivity.
    + rewrite firstn_skipn. reflexivity.
  - lia.
Qed.

Lemma at_ext a b : length a = length b -> (forall k, 0 <= k < zlen a -> at_ a k = at_ b k) -> a = b.
Proof.
  intros. apply nth_ext with (d := 0) (d' := 0); auto. intros.
  specialize (H0 (Z.of_nat n) ltac:(lia)). unfold at_ in H0. rewrite Nat2Z.id in H0. auto.
Qed.
Lemma at_app_l a b k : 0 <= k < zlen a -> at_ (a ++ b) k = at_ a k.
Proof. intros. unfold at_. apply app_nth1. lia. Qed.
Lemma at_app_r a b k : zlen a <= k -> at_ (a ++ b) k = at_ b (k - zlen a).
Proof. intros. unfold at_. rewrite app_nth2 by lia. f_equal. lia. Qed.
