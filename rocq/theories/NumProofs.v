(** Proofs about the number conversions of src/swar.c. *)
From Verif Require Export SwarSearch NumModel.
Open Scope Z_scope.

Lemma Ok_inj {A} (x y : A) : Ok x = Ok y -> x = y.
Proof. congruence. Qed.

(** ** decimal values *)
Lemma dec_value_app a b : dec_value (a ++ b) = dec_value a * 10 ^ zlen b + dec_value b.
Proof.
  unfold dec_value. rewrite fold_left_app.
  generalize (fold_left (fun a c => 10 * a + (c - 48)) a 0). intros v.
  assert (G : forall l v, fold_left (fun a c => 10 * a + (c - 48)) l v
              = v * 10 ^ zlen l + fold_left (fun a c => 10 * a + (c - 48)) l 0).
  { induction l as [|x l IH]; intros w; cbn [fold_left length]. { cbn. lia. }
    rewrite IH, (IH (10 * 0 + (x - 48))). rewrite Nat2Z.inj_succ, Z.pow_succ_r by lia. ring. }
  apply G.
Qed.
Lemma dec_value_one d : dec_value [d] = d - 48. Proof. unfold dec_value. cbn [fold_left]. lia. Qed.
Lemma dec_value_bound l : Forall is_digit l -> 0 <= dec_value l < 10 ^ zlen l.
Proof.
  intros H. induction l using rev_ind. { cbn. lia. }
  apply Forall_app in H. destruct H as [H1 H2]. inversion H2; subst. unfold is_digit in H3.
  rewrite dec_value_app, dec_value_one. rewrite app_length. cbn [length].
  specialize (IHl H1). rewrite Nat2Z.inj_add. change (Z.of_nat 1) with 1. rewrite Z.pow_1_r, Z.pow_add_r by lia. lia.
Qed.

(** ** utoa2p *)
Definition dig2 (x : Z) : list Z := [48 + x / 10; 48 + x mod 10].
Lemma utoa2p_ok x : 0 <= x < 100 -> utoa2p x = Ok (le (dig2 x)).
Proof.
  intros. apply out_eqb_eq.
  assert (forallb (fun x => out_eqb (utoa2p x) (Ok (le (dig2 x)))) (zrange 100) = true) by (vm_compute; reflexivity).
  rewrite forallb_forall in H0. apply (H0 x). apply in_zrange. lia.
Qed.
Lemma dig2_bytes x : 0 <= x < 100 -> bytes (dig2 x).
Proof. intros. unfold dig2. repeat constructor; unfold byte; lia. Qed.
Lemma dig2_digits x : 0 <= x < 100 -> Forall is_digit (dig2 x).
Proof. intros. unfold dig2. repeat constructor; unfold is_digit; lia. Qed.
Lemma dig2_value x : 0 <= x < 100 -> dec_value (dig2 x) = x.
Proof. intros. unfold dig2, dec_value. cbn [fold_left]. lia. Qed.

Lemma digits_bytes l : Forall is_digit l -> bytes l.
Proof. apply Forall_impl. unfold is_digit, byte. intros; lia. Qed.

(** ** packing a pair in front of a word *)
Lemma zip_lor_zero_l m : forall l, length l = m -> zip Z.lor l (repeat 0 m) = l.
Proof. induction m; destruct l; cbn [repeat zip length]; intros; try discriminate; auto. rewrite Z.lor_0_r. f_equal; auto. Qed.
Lemma lor_pair acc a b : bytes acc -> byte a -> byte b ->
  Z.lor (le acc * 65536) (le [a; b]) = le (a :: b :: acc).
Proof.
  intros Ha Hx Hy.
  replace (le acc * 65536) with (le (0 :: 0 :: acc)) by (cbn [le]; ring).
  replace (le [a; b]) with (le (a :: b :: repeat 0 (length acc))).
  2:{ assert (le (repeat 0 (length acc)) = 0) by (clear; induction (length acc); cbn [repeat le]; lia). cbn [le]. rewrite H. reflexivity. }
  rewrite le_lor.
  - cbn [zip]. rewrite !Z.lor_0_l, zip_lor_zero_l; auto.
  - repeat (constructor; [unfold byte; lia|]). auto.
  - repeat (constructor; auto). apply bytes_repeat. unfold byte; lia.
  - cbn [length]. rewrite repeat_length. auto.
Qed.
Lemma push_pair S acc x : bytes acc -> (length acc <= 6)%nat -> 0 <= x < 100 ->
  (let* tmp := shl64 S (le acc) 16 in let* d := utoa2p x in Ok (Z.lor tmp d)) = Ok (le (dig2 x ++ acc)).
Proof.
  intros Hb Hl Hx. rewrite shl64_ok by lia. cbn [bind]. rewrite utoa2p_ok by auto. cbn [bind].
  pose proof (le_bound acc Hb). assert (256 ^ zlen acc <= 256 ^ 6) by (apply Z.pow_le_mono_r; lia).
  change (256 ^ 6) with 281474976710656 in H0. change (2 ^ 16) with 65536.
  rewrite u64_id by lia. unfold dig2. rewrite lor_pair; auto; unfold byte; lia.
Qed.

(** ** itoa8 *)
Lemma itoa8_loop_ok S : forall k fuel x acc,
  bytes acc -> 0 <= x < 100 ^ (Z.of_nat k + 1) -> (length acc + 2 * k <= 6)%nat -> (k < fuel)%nat ->
  exists x' front, itoa8_loop fuel S x (le acc) (zlen acc) = Ok (x', le (front ++ acc), zlen (front ++ acc)) /\
    0 <= x' < 100 /\ Forall is_digit front /\ (length front <= 2 * k)%nat /\
    x = x' * 10 ^ zlen front + dec_value front /\ (front <> [] -> 1 <= x').
Proof.
  induction k; intros fuel x acc Hb Hx Hl Hf; (destruct fuel as [|fuel]; [lia|]); cbn [itoa8_loop].
  - cbn [Z.of_nat] in Hx. rewrite Z.add_0_l, Z.pow_1_r in Hx. destruct (Z.leb_spec 100 x); [lia|].
    exists x, []. cbn [app]. repeat split; auto; try lia; try (cbn; lia). congruence.
  - destruct (Z.leb_spec 100 x).
    + pose proof (push_pair S acc (Z.rem x 100) Hb ltac:(lia)) as Hp.
      rewrite Z.rem_mod_nonneg in * by lia. specialize (Hp ltac:(lia)).
      rewrite Z.quot_div_nonneg by lia.
      destruct (shl64 S (le acc) 16) as [t| | |]; cbn [bind] in *; try discriminate.
      destruct (utoa2p (x mod 100)) as [d| | |]; cbn [bind] in *; try discriminate.
      apply Ok_inj in Hp. rewrite Hp.
      replace (zlen acc + 2) with (zlen (dig2 (x mod 100) ++ acc)) by (rewrite app_length; cbn [length dig2]; lia).
      assert (Hpow : 100 ^ (Z.of_nat (Datatypes.S k) + 1) = 100 * 100 ^ (Z.of_nat k + 1)).
      { rewrite <- Z.pow_succ_r by lia. f_equal. lia. }
      destruct (IHk fuel (x / 100) (dig2 (x mod 100) ++ acc)) as (x' & front & E & H1 & H2 & H3 & H4 & H5).
      * apply bytes_app. split; auto. apply dig2_bytes. lia.
      * split. lia. apply Z.div_lt_upper_bound; lia.
      * rewrite app_length. cbn [length dig2]. lia.
      * lia.
      * exists x', (front ++ dig2 (x mod 100)). rewrite E. rewrite <- app_assoc. split; [reflexivity|].
        split; [auto|]. split. { apply Forall_app. split; auto. apply dig2_digits. lia. }
        split. { rewrite app_length. cbn [length dig2]. lia. }
        split.
        { rewrite dec_value_app, dig2_value by lia. rewrite app_length, Nat2Z.inj_add.
          rewrite Z.pow_add_r by lia. change (10 ^ zlen (dig2 (x mod 100))) with 100. lia. }
        { intros _. destruct front. { unfold dec_value in H4. cbn in H4. lia. } apply H5. discriminate. }
    + exists x, []. cbn [app]. repeat split; auto; try lia; try (cbn; lia). congruence.
Qed.

(** the digits of x without a leading zero *)
Definition strip (x : Z) (l : list Z) : list Z := if x <? 10 then skipn 1 l else l.

Lemma holds_cstr_at b o s : 0 <= o -> o + zlen s < zlen b ->
  (forall k, 0 <= k < zlen s -> at_ b (o + k) = at_ s k) -> at_ b (o + zlen s) = 0 -> holds_cstr b o s.
Proof.
  intros Ho Hl Hs H0. unfold holds_cstr. apply at_ext.
  - pose proof (slice_length b o (zlen s + 1) ltac:(lia) ltac:(lia) ltac:(lia)). rewrite app_length. cbn [length]. lia.
  - intros k Hk. rewrite slice_length in Hk by lia. fold (item (slice b o (zlen s + 1)) k).
    change (at_ (slice b o (zlen s + 1)) k) with (item (slice b o (zlen s + 1)) k).
    rewrite slice_item by lia. destruct (Z_lt_dec k (zlen s)).
    + rewrite Hs by lia. rewrite at_app_l by lia. reflexivity.
    + replace k with (zlen s) by lia. rewrite H0, at_app_r by lia. rewrite Z.sub_diag. reflexivity.
Qed.
Lemma at_cons x l k : 1 <= k -> at_ (x :: l) k = at_ l (k - 1).
Proof. intros. unfold at_. replace (Z.to_nat k) with (Datatypes.S (Z.to_nat (k - 1))) by lia. reflexivity. Qed.

Lemma to_le_pad l : bytes l -> forall n, (length l <= n)%nat -> to_le n (le l) = l ++ repeat 0 (n - length l).
Proof.
  induction 1; intros n Hn.
  - cbn [le length app Nat.sub]. replace (n - 0)%nat with n by lia. clear. induction n; cbn [to_le repeat]; auto. rewrite Zdiv_0_l, Zmod_0_l. f_equal; auto.
  - destruct n; cbn [length] in Hn; [lia|]. cbn [le to_le length Nat.sub app]. unfold byte in H. f_equal. lia.
    replace ((x + 256 * le l) / 256) with (le l) by lia. apply IHForall. lia.
Qed.

Lemma abs_int_ok x : -2147483648 < x < 2147483648 -> abs_int x = Ok (Z.abs x).
Proof. intros. unfold abs_int. rewrite s32_id by lia. destruct (Z.eqb_spec x (-2147483648)); [lia|reflexivity]. Qed.

Lemma strip_props x' front : 0 <= x' < 100 -> Forall is_digit front -> (front <> [] -> 1 <= x') ->
  let ds := strip x' (dig2 x' ++ front) in
  ds <> [] /\ Forall is_digit ds /\ (1 < zlen ds -> item ds 0 <> 48) /\
  dec_value ds = x' * 10 ^ zlen front + dec_value front /\
  zlen ds = zlen front + 2 - (if x' <? 10 then 1 else 0).
Proof.
  intros Hx Hf Hn. cbv zeta. unfold strip. destruct (Z.ltb_spec x' 10).
  - assert (E : skipn 1 (dig2 x' ++ front) = [48 + x' mod 10] ++ front) by reflexivity.
    rewrite E. split; [discriminate|]. split.
    { constructor; auto. unfold is_digit; lia. }
    split.
    { intros Hl. cbn [app length] in Hl. destruct front; [cbn in Hl; lia|].
      specialize (Hn ltac:(discriminate)). unfold item. cbn [app nth Z.to_nat]. lia. }
    split. { rewrite dec_value_app, dec_value_one, (Z.mod_small x' 10) by lia. ring. }
    rewrite app_length. cbn [length]. lia.
  - split; [discriminate|]. split. { apply Forall_app. split; auto using dig2_digits. }
    split. { intros _. unfold item, dig2. cbn [app nth Z.to_nat]. lia. }
    split. { rewrite dec_value_app, dig2_value by lia. reflexivity. }
    rewrite app_length. cbn [length dig2]. lia.
Qed.

Lemma decimal_of x ds : ds <> [] -> Forall is_digit ds -> (1 < zlen ds -> item ds 0 <> 48) ->
  dec_value ds = Z.abs x -> decimal_text x (if x <? 0 then 45 :: ds else ds).
Proof.
  intros. exists ds. split; auto. split; auto. split; auto.
  destruct (Z.ltb_spec x 0); [right|left]; repeat split; auto; lia.
Qed.

Lemma shr_strip S x l : 0 <= x < 100 -> bytes (dig2 x ++ l) ->
  shr64 S (le (dig2 x ++ l)) (if x <? 10 then 8 else 0) = Ok (le (strip x (dig2 x ++ l))).
Proof.
  intros Hx Hb. unfold strip. destruct (Z.ltb_spec x 10).
  - rewrite shr64_ok by lia. f_equal. unfold dig2. cbn [app skipn le]. change (2 ^ 8) with 256.
    inversion Hb; subst. unfold byte in H2. lia.
  - rewrite shr64_ok by lia. change (2 ^ 0) with 1. rewrite Z.div_1_r. reflexivity.
Qed.

Lemma itoa8_ok S x buf : Z.abs x < 100000000 -> 10 <= zlen buf ->
  exists s buf', itoa8 S x buf = Ok (zlen s, buf') /\ decimal_text x s /\ holds_cstr buf' 0 s /\
    length buf' = length buf /\ forall k, 10 <= k < zlen buf -> item buf' k = item buf k.
Proof.
  intros Hx Hbuf. unfold itoa8.
  destruct (blit buf 0 [45]) as [buf1| | |] eqn:B1; try (rewrite blit_ok in B1 by (cbn [length]; lia); discriminate).
  cbn [bind]. rewrite abs_int_ok by lia. cbn [bind].
  destruct (itoa8_loop_ok S 3 6 (Z.abs x) []) as (x' & front & E & H1 & H2 & H3 & H4 & H5).
  { constructor. } { change (100 ^ (Z.of_nat 3 + 1)) with 100000000. lia. } { cbn; lia. } { lia. }
  rewrite app_nil_r in E. cbn [le length Z.of_nat] in E. rewrite E. cbn [bind].
  pose proof (push_pair S front x' (digits_bytes _ H2) ltac:(lia) H1) as Hp.
  destruct (shl64 S (le front) 16) as [t| | |]; cbn [bind] in *; try discriminate.
  destruct (utoa2p x') as [d| | |]; cbn [bind] in *; try discriminate.
  apply Ok_inj in Hp. rewrite Hp.
  assert (HB : bytes (dig2 x' ++ front)) by (apply bytes_app; auto using dig2_bytes, digits_bytes).
  rewrite shr_strip by auto. cbn [bind].
  destruct (strip_props x' front H1 H2 H5) as (D1 & D2 & D3 & D4 & D5).
  set (ds := strip x' (dig2 x' ++ front)) in *.
  assert (Hds : zlen ds <= 8) by (rewrite D5; destruct (x' <? 10); lia).
  rewrite to_le_pad by (auto using digits_bytes; lia).
  set (pad := ds ++ repeat 0 (8 - length ds)).
  assert (Hpad : zlen pad = 8) by (unfold pad; rewrite app_length, repeat_length; lia).
  set (o := if x <? 0 then 1 else 0).
  assert (Ho : 0 <= o <= 1) by (unfold o; destruct (x <? 0); lia).
  pose proof (blit_length _ _ _ _ B1) as L1.
  destruct (blit buf1 o pad) as [buf2| | |] eqn:B2; try (rewrite blit_ok in B2 by lia; discriminate).
  cbn [bind]. pose proof (blit_length _ _ _ _ B2) as L2.
  rewrite <- D5.
  assert (L0 : zlen [0] = 1) by reflexivity.
  destruct (blit buf2 (o + zlen ds) [0]) as [buf3| | |] eqn:B3; try (rewrite blit_ok in B3 by lia; discriminate).
  cbn [bind]. pose proof (blit_length _ _ _ _ B3) as L3.
  exists (if x <? 0 then 45 :: ds else ds), buf3.
  assert (Hs : zlen (if x <? 0 then 45 :: ds else ds) = zlen ds + o).
  { unfold o. destruct (x <? 0); cbn [length]; lia. }
  split; [|split; [|split; [|split]]].
  - rewrite Hs. rewrite u32_id by lia. reflexivity.
  - apply decimal_of; auto. lia.
  - apply holds_cstr_at; rewrite ?Hs; try lia.
    + intros k Hk. rewrite Z.add_0_l.
      rewrite (blit_at _ _ _ _ k B3) by lia. rewrite L0.
      destruct (Z.leb_spec (o + zlen ds) k); [lia|]. cbn [andb].
      rewrite (blit_at _ _ _ _ k B2) by lia.
      destruct (Z.leb_spec o k); destruct (Z.ltb_spec k (o + zlen pad)); cbn [andb]; try lia.
      * unfold pad. rewrite at_app_l by lia. unfold o in *. destruct (x <? 0).
        rewrite at_cons by lia. reflexivity. f_equal. lia.
      * rewrite (blit_at _ _ _ _ k B1) by lia. unfold o in *. destruct (x <? 0); [|lia].
        replace k with 0 by lia. reflexivity.
    + rewrite (blit_at _ _ _ _ _ B3) by lia. rewrite L0.
      destruct (Z.leb_spec (o + zlen ds) (0 + (zlen ds + o))); [|lia].
      destruct (Z.ltb_spec (0 + (zlen ds + o)) (o + zlen ds + 1)); [|lia]. cbn [andb].
      replace (0 + (zlen ds + o) - (o + zlen ds)) with 0 by lia. reflexivity.
  - congruence.
  - intros k Hk. change (at_ buf3 k = at_ buf k).
    rewrite (blit_at _ _ _ _ k B3) by lia. destruct (Z.ltb_spec k (o + zlen ds + zlen [0])); [cbn [length] in *; lia|].
    rewrite andb_false_r. rewrite (blit_at _ _ _ _ k B2) by lia.
    destruct (Z.ltb_spec k (o + zlen pad)); [lia|]. rewrite andb_false_r.
    rewrite (blit_at _ _ _ _ k B1) by lia. destruct (Z.ltb_spec k (0 + zlen [45])); [cbn [length] in *; lia|].
    rewrite andb_false_r. reflexivity.
Qed.

(** ** simd_itoa *)
Lemma to_le_dig2 x : 0 <= x < 100 -> to_le 2 (le (dig2 x)) = dig2 x.
Proof. intros. change 2%nat with (length (dig2 x)). apply to_le_le, dig2_bytes; auto. Qed.
Lemma utoa2p_ex_ok x s i : 0 <= x < 100 -> 0 <= i -> i + 2 <= zlen s -> utoa2p_ex x s i = blit s i (dig2 x).
Proof. intros. unfold utoa2p_ex. rewrite utoa2p_ok by auto. cbn [bind]. rewrite to_le_dig2; auto. Qed.

Lemma itoa_loop_ok : forall k fuel x acc tmp,
  length tmp = 20%nat -> (forall j, 0 <= j < zlen acc -> at_ tmp (20 - zlen acc + j) = at_ acc j) ->
  0 <= x < 100 ^ (Z.of_nat k + 1) -> (length acc + 2 * k <= 18)%nat -> (k < fuel)%nat ->
  exists x' front tmp', itoa_loop fuel x (20 - zlen acc) tmp = Ok (x', 20 - zlen (front ++ acc), tmp') /\
    length tmp' = 20%nat /\ (forall j, 0 <= j < zlen (front ++ acc) -> at_ tmp' (20 - zlen (front ++ acc) + j) = at_ (front ++ acc) j) /\
    0 <= x' < 100 /\ Forall is_digit front /\ (length front <= 2 * k)%nat /\
    x = x' * 10 ^ zlen front + dec_value front /\ (front <> [] -> 1 <= x').
Proof.
  induction k; intros fuel x acc tmp Ht Hacc Hx Hl Hf; (destruct fuel as [|fuel]; [lia|]); cbn [itoa_loop].
  - cbn [Z.of_nat] in Hx. rewrite Z.add_0_l, Z.pow_1_r in Hx. destruct (Z.leb_spec 100 x); [lia|].
    exists x, [], tmp. cbn [app]. repeat split; auto; try lia; try (cbn; lia). congruence.
  - destruct (Z.leb_spec 100 x).
    + rewrite Z.rem_mod_nonneg, Z.quot_div_nonneg by lia.
      rewrite utoa2p_ex_ok by lia.
      destruct (blit tmp (20 - zlen acc - 2) (dig2 (x mod 100))) as [tmp1| | |] eqn:B;
        try (rewrite blit_ok in B by (cbn [length dig2]; lia); discriminate).
      cbn [bind]. pose proof (blit_length _ _ _ _ B) as L1.
      assert (L2 : zlen (dig2 (x mod 100) ++ acc) = zlen acc + 2) by (rewrite app_length; cbn [length dig2]; lia).
      assert (Hpow : 100 ^ (Z.of_nat (Datatypes.S k) + 1) = 100 * 100 ^ (Z.of_nat k + 1)).
      { rewrite <- Z.pow_succ_r by lia. f_equal. lia. }
      destruct (IHk fuel (x / 100) (dig2 (x mod 100) ++ acc) tmp1) as (x' & front & tmp' & E & T1 & T2 & H1 & H2 & H3 & H4 & H5).
      * congruence.
      * rewrite L2. intros j Hj. rewrite (blit_at _ _ _ _ _ B) by lia. 
        destruct (Z_lt_dec j 2).
        -- destruct (Z.leb_spec (20 - zlen acc - 2) (20 - (zlen acc + 2) + j)); [|lia].
           destruct (Z.ltb_spec (20 - (zlen acc + 2) + j) (20 - zlen acc - 2 + zlen (dig2 (x mod 100)))); [|cbn [length dig2] in *; lia].
           cbn [andb]. rewrite at_app_l by (cbn [length dig2]; lia). f_equal. lia.
        -- destruct (Z.ltb_spec (20 - (zlen acc + 2) + j) (20 - zlen acc - 2 + zlen (dig2 (x mod 100)))); [cbn [length dig2] in *; lia|].
           rewrite andb_false_r. rewrite at_app_r by (cbn [length dig2]; lia).
           change (zlen (dig2 (x mod 100))) with 2. rewrite <- Hacc by lia. f_equal. lia.
      * split. lia. apply Z.div_lt_upper_bound; lia.
      * rewrite app_length. cbn [length dig2]. lia.
      * lia.
      * exists x', (front ++ dig2 (x mod 100)), tmp'. rewrite <- !app_assoc. split.
        { replace (20 - zlen acc - 2) with (20 - zlen (dig2 (x mod 100) ++ acc)) by lia. exact E. }
        split; [auto|]. split; [auto|].
        split; [auto|]. split. { apply Forall_app. split; auto. apply dig2_digits. lia. }
        split. { rewrite app_length. cbn [length dig2]. lia. }
        split.
        { rewrite dec_value_app, dig2_value by lia. rewrite app_length, Nat2Z.inj_add.
          rewrite Z.pow_add_r by lia. change (10 ^ zlen (dig2 (x mod 100))) with 100. lia. }
        { intros _. destruct front. { unfold dec_value in H4. cbn in H4. lia. } apply H5. discriminate. }
    + exists x, [], tmp. cbn [app]. repeat split; auto; try lia; try (cbn; lia). congruence.
Qed.

Lemma simd_itoa_gen g tmp0 x y buf : abs_int x = Ok y -> 0 <= y < 2147483648 -> length tmp0 = 20%nat -> 21 <= zlen buf ->
  exists ds s buf', s = (if x <? 0 then 45 :: ds else ds) /\ simd_itoa (machine g) tmp0 x buf = Ok (zlen s, buf') /\
    (ds <> [] /\ Forall is_digit ds /\ (1 < zlen ds -> item ds 0 <> 48) /\ dec_value ds = y) /\ holds_cstr buf' 0 s /\
    length buf' = length buf /\ forall k, 21 <= k < zlen buf -> item buf' k = item buf k.
Proof.
  intros Ha Hx Ht Hbuf. unfold simd_itoa.
  destruct (blit buf 0 [45]) as [buf1| | |] eqn:B1; try (rewrite blit_ok in B1 by (cbn [length]; lia); discriminate).
  cbn [bind]. rewrite Ha. cbn [bind].
  destruct (itoa_loop_ok 4 6 y [] tmp0) as (x' & front & tmp1 & E & T1 & T2 & H1 & H2 & H3 & H4 & H5).
  { auto. } { cbn [length]. intros; lia. } { change (100 ^ (Z.of_nat 4 + 1)) with 10000000000. lia. } { cbn; lia. } { lia. }
  rewrite app_nil_r in *. cbn [length Z.of_nat] in E. rewrite Z.sub_0_r in E. rewrite E. cbn [bind].
  rewrite utoa2p_ex_ok by lia.
  destruct (blit tmp1 (20 - zlen front - 2) (dig2 x')) as [tmp2| | |] eqn:B;
        try (rewrite blit_ok in B by (cbn [length dig2]; lia); discriminate).
  cbn [bind]. pose proof (blit_length _ _ _ _ B) as L1.
  destruct (strip_props x' front H1 H2 H5) as (D1 & D2 & D3 & D4 & D5).
  set (ds := strip x' (dig2 x' ++ front)) in *.
  assert (Hds : zlen ds <= 10) by (rewrite D5; destruct (x' <? 10); lia).
  assert (Hds1 : 1 <= zlen ds) by (rewrite D5; destruct (x' <? 10); lia).
  replace (20 - zlen front - 2 + (if x' <? 10 then 1 else 0)) with (20 - zlen ds) by (rewrite D5; lia).
  rewrite (rdn_gets (machine g) tmp2 0 40) by (try lia; left; cbn; discriminate). cbn [bind].
  set (l := gets (machine g) tmp2 (20 - zlen ds) 20).
  assert (Ll : zlen l = 20) by (unfold l; rewrite gets_length; reflexivity).
  assert (Hl : forall j, 0 <= j < zlen ds -> at_ l j = at_ ds j).
  { intros j Hj. unfold l. rewrite gets_at by lia. rewrite get_in by lia.
    rewrite (blit_at _ _ _ _ _ B) by lia. change (zlen (dig2 x')) with 2.
    assert (Hstrip : at_ ds j = at_ (dig2 x' ++ front) (j + (if x' <? 10 then 1 else 0))).
    { unfold ds, strip. destruct (x' <? 10). { unfold dig2. cbn [app skipn]. rewrite (at_cons _ _ (j + 1)) by lia. f_equal. lia. } f_equal. lia. }
    rewrite Hstrip. destruct (Z_lt_dec (20 - zlen ds + j) (20 - zlen front)).
    - destruct (Z.leb_spec (20 - zlen front - 2) (20 - zlen ds + j)); [|destruct (x' <? 10); lia].
      destruct (Z.ltb_spec (20 - zlen ds + j) (20 - zlen front - 2 + 2)); [|lia]. cbn [andb].
      rewrite at_app_l by (change (zlen (dig2 x')) with 2; destruct (x' <? 10); lia). f_equal. destruct (x' <? 10); lia.
    - destruct (Z.ltb_spec (20 - zlen ds + j) (20 - zlen front - 2 + 2)); [lia|]. rewrite andb_false_r.
      rewrite at_app_r by (change (zlen (dig2 x')) with 2; destruct (x' <? 10); lia). change (zlen (dig2 x')) with 2.
      rewrite <- T2 by (destruct (x' <? 10); lia). f_equal. destruct (x' <? 10); lia. }
  set (o := if x <? 0 then 1 else 0).
  assert (Ho : 0 <= o <= 1) by (unfold o; destruct (x <? 0); lia).
  pose proof (blit_length _ _ _ _ B1) as L4.
  destruct (blit buf1 o l) as [buf2| | |] eqn:B2; try (rewrite blit_ok in B2 by lia; discriminate).
  cbn [bind]. pose proof (blit_length _ _ _ _ B2) as L2.
  replace (20 - (20 - zlen ds)) with (zlen ds) by lia.
  assert (L0 : zlen [0] = 1) by reflexivity.
  destruct (blit buf2 (o + zlen ds) [0]) as [buf3| | |] eqn:B3; try (rewrite blit_ok in B3 by lia; discriminate).
  cbn [bind]. pose proof (blit_length _ _ _ _ B3) as L3.
  exists ds, (if x <? 0 then 45 :: ds else ds), buf3. split; [reflexivity|].
  assert (Hs : zlen (if x <? 0 then 45 :: ds else ds) = zlen ds + o).
  { unfold o. destruct (x <? 0); cbn [length]; lia. }
  split; [|split; [|split; [|split]]].
  - rewrite Hs. rewrite u32_id by lia. reflexivity.
  - repeat split; auto. lia.
  - apply holds_cstr_at; rewrite ?Hs; try lia.
    + intros k Hk. rewrite Z.add_0_l.
      rewrite (blit_at _ _ _ _ k B3) by lia. rewrite L0.
      destruct (Z.leb_spec (o + zlen ds) k); [lia|]. cbn [andb].
      rewrite (blit_at _ _ _ _ k B2) by lia.
      destruct (Z.leb_spec o k); destruct (Z.ltb_spec k (o + zlen l)); cbn [andb]; try lia.
      * rewrite Hl by lia. unfold o in *. destruct (x <? 0).
        rewrite at_cons by lia. reflexivity. f_equal. lia.
      * rewrite (blit_at _ _ _ _ k B1) by lia. unfold o in *. destruct (x <? 0); [|lia].
        replace k with 0 by lia. reflexivity.
    + rewrite (blit_at _ _ _ _ _ B3) by lia. rewrite L0.
      destruct (Z.leb_spec (o + zlen ds) (0 + (zlen ds + o))); [|lia].
      destruct (Z.ltb_spec (0 + (zlen ds + o)) (o + zlen ds + 1)); [|lia]. cbn [andb].
      replace (0 + (zlen ds + o) - (o + zlen ds)) with 0 by lia. reflexivity.
  - congruence.
  - intros k Hk. change (at_ buf3 k = at_ buf k).
    rewrite (blit_at _ _ _ _ k B3) by lia. destruct (Z.ltb_spec k (o + zlen ds + zlen [0])); [cbn [length] in *; lia|].
    rewrite andb_false_r. rewrite (blit_at _ _ _ _ k B2) by lia.
    destruct (Z.ltb_spec k (o + zlen l)); [lia|]. rewrite andb_false_r.
    rewrite (blit_at _ _ _ _ k B1) by lia. destruct (Z.ltb_spec k (0 + zlen [45])); [cbn [length] in *; lia|].
    rewrite andb_false_r. reflexivity.
Qed.
Lemma simd_itoa_ok g tmp0 x buf : -2147483648 < x < 2147483648 -> length tmp0 = 20%nat -> 21 <= zlen buf ->
  exists s buf', simd_itoa (machine g) tmp0 x buf = Ok (zlen s, buf') /\ decimal_text x s /\ holds_cstr buf' 0 s /\
    length buf' = length buf /\ forall k, 21 <= k < zlen buf -> item buf' k = item buf k.
Proof.
  intros Hx Ht Hbuf. destruct (simd_itoa_gen g tmp0 x (Z.abs x) buf) as (ds & s & buf' & Es & E & (D1 & D2 & D3 & D4) & H & L & U); auto; try lia.
  { apply abs_int_ok. lia. }
  exists s, buf'. split; auto. split; [|auto]. rewrite Es. apply decimal_of; auto.
Qed.
