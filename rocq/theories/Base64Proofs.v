(** Proofs about the base64 functions. *)
From Verif Require Export StrBuild Base64Model SpecBase64.
Open Scope Z_scope.

(** * The four sextets of a group *)
Definition e0 (a : Z) : Z := Z.shiftr a 2.
Definition e1 (a b : Z) : Z := Z.lor (Z.shiftl (Z.land a 3) 4) (Z.shiftr b 4).
Definition e2 (b c : Z) : Z := Z.lor (Z.shiftl (Z.land b 15) 2) (Z.shiftr c 6).
Definition e3 (c : Z) : Z := Z.land c 63.
Definition T (v : Z) : Z := nth (Z.to_nat v) base64_table 0.
Definition D (c : Z) : Z := nth (Z.to_nat c) base64_decode_table 0.

Lemma pair_check (P : Z -> Z -> bool) : forallb (fun a => forallb (P a) (zrange 256)) (zrange 256) = true ->
  forall a b, byte a -> byte b -> P a b = true.
Proof.
  intros H a b Ha Hb. rewrite forallb_forall in H. specialize (H a (in_zrange 256 a Ha)). rewrite forallb_forall in H.
  apply H. apply in_zrange. auto.
Qed.
Lemma byte_0 : byte 0. Proof. unfold byte; lia. Qed.
Definition one_ok (a : Z) : bool :=
  (0 <=? e0 a) && (e0 a <? 64) && (0 <=? e3 a) && (e3 a <? 64) &&
  (e0 a =? bits_value (firstn 6 (byte_bits a))) && (e3 a =? bits_value (skipn 2 (byte_bits a))) &&
  (Z.lor (64 * (a / 64)) (e3 a) =? a) && (Z.lor (16 * (a / 16)) (a mod 16) =? a).
Lemma one_all : forall a, byte a -> one_ok a = true.
Proof. apply byte_check. vm_compute. reflexivity. Qed.
Definition two_ok (a b : Z) : bool :=
  (0 <=? e1 a b) && (e1 a b <? 64) && (0 <=? e2 a b) && (e2 a b <? 64) &&
  (e1 a b =? bits_value (skipn 6 (byte_bits a) ++ firstn 4 (byte_bits b))) &&
  (e2 a b =? bits_value (skipn 4 (byte_bits a) ++ firstn 2 (byte_bits b))) &&
  (u8 (Z.lor (Z.shiftl (e0 a) 2) (Z.shiftr (e1 a b) 4)) =? a) &&
  (u8 (Z.shiftl (e1 a b) 4) =? 16 * (b / 16)) && (Z.shiftr (e2 a b) 2 =? a mod 16) &&
  (u8 (Z.shiftl (e2 a b) 6) =? 64 * (b / 64)).
Lemma two_all : forall a b, byte a -> byte b -> two_ok a b = true.
Proof. apply pair_check. vm_compute. reflexivity. Qed.
Ltac facts H := unfold one_ok, two_ok in H; rewrite ?andb_true_iff, ?Z.eqb_eq, ?Z.leb_le, ?Z.ltb_lt in H.
Lemma u8_lor x y : u8 (Z.lor x y) = Z.lor (u8 x) (u8 y).
Proof.
  unfold u8. change 256 with (2 ^ 8). rewrite <- !Z.land_ones by lia. apply Z.land_lor_distr_l.
Qed.
Lemma group_bytes a b c : byte a -> byte b -> byte c ->
  u8 (Z.lor (Z.shiftl (e0 a) 2) (Z.shiftr (e1 a b) 4)) = a /\
  u8 (Z.lor (Z.shiftl (e1 a b) 4) (Z.shiftr (e2 b c) 2)) = b /\
  u8 (Z.lor (Z.shiftl (e2 b c) 6) (e3 c)) = c.
Proof.
  intros Ha Hb Hc. pose proof (two_all a b Ha Hb) as H1. pose proof (two_all b c Hb Hc) as H2.
  pose proof (one_all b Hb) as H3. pose proof (one_all c Hc) as H4. facts H1. facts H2. facts H3. facts H4.
  repeat split.
  - tauto.
  - rewrite u8_lor. replace (u8 (Z.shiftl (e1 a b) 4)) with (16 * (b / 16)) by (symmetry; tauto).
    replace (Z.shiftr (e2 b c) 2) with (b mod 16) by (symmetry; tauto). rewrite (u8_id (b mod 16)); [tauto|].
    pose proof (Z.mod_pos_bound b 16). lia.
  - rewrite u8_lor. replace (u8 (Z.shiftl (e2 b c) 6)) with (64 * (c / 64)) by (symmetry; tauto).
    rewrite (u8_id (e3 c)); [tauto|]. lia.
Qed.
Definition sym_ok (v : Z) : bool :=
  (T v =? symbol v) && (D (T v) =? v) && negb (T v =? 61) && (0 <? T v) && (T v <? 256).
Lemma sym_all v : 0 <= v < 64 -> T v = symbol v /\ D (T v) = v /\ T v <> 61 /\ 0 < T v < 256.
Proof.
  intros Hv. assert (H : forallb sym_ok (zrange 64) = true) by (vm_compute; reflexivity).
  rewrite forallb_forall in H. specialize (H v (in_zrange 64 v Hv)). unfold sym_ok in H.
  rewrite !andb_true_iff, negb_true_iff, !Z.eqb_eq, Z.eqb_neq, !Z.ltb_lt in H. tauto.
Qed.
Lemma e0_r a : byte a -> 0 <= e0 a < 64. Proof. intros Ha. pose proof (one_all a Ha) as H. facts H. lia. Qed.
Lemma e3_r a : byte a -> 0 <= e3 a < 64. Proof. intros Ha. pose proof (one_all a Ha) as H. facts H. lia. Qed.
Lemma e1_r a b : byte a -> byte b -> 0 <= e1 a b < 64. Proof. intros Ha Hb. pose proof (two_all a b Ha Hb) as H. facts H. lia. Qed.
Lemma e2_r a b : byte a -> byte b -> 0 <= e2 a b < 64. Proof. intros Ha Hb. pose proof (two_all a b Ha Hb) as H. facts H. lia. Qed.

(** * The encoding by groups of three *)
Fixpoint enc (s : list Z) : list Z :=
  match s with
  | a :: b :: c :: s' => T (e0 a) :: T (e1 a b) :: T (e2 b c) :: T (e3 c) :: enc s'
  | [a; b] => [T (e0 a); T (e1 a b); T (e2 b 0); 61]
  | [a] => [T (e0 a); T (e1 a 0); 61; 61]
  | [] => []
  end.
Lemma triple_ind (P : list Z -> Prop) : P [] -> (forall a, P [a]) -> (forall a b, P [a; b]) ->
  (forall a b c s, P s -> P (a :: b :: c :: s)) -> forall s, P s.
Proof.
  intros H0 H1 H2 H3. assert (forall n s, (length s <= n)%nat -> P s); [|eauto].
  induction n; intros s Hs. { destruct s; [auto|cbn in *; lia]. }
  destruct s as [|a [|b [|c s]]]; auto. apply H3, IHn. cbn in Hs. lia.
Qed.
Ltac inv_bytes H := unfold bytes in H; repeat match type of H with Forall _ (_ :: _) =>
  let h := fresh "Hb" in inversion H as [|? ? h H']; subst; clear H; rename H' into H end.
Lemma sextets_group a b c l : sextets (byte_bits a ++ byte_bits b ++ byte_bits c ++ l) =
  bits_value (firstn 6 (byte_bits a)) :: bits_value (skipn 6 (byte_bits a) ++ firstn 4 (byte_bits b)) ::
  bits_value (skipn 4 (byte_bits b) ++ firstn 2 (byte_bits c)) :: bits_value (skipn 2 (byte_bits c)) :: sextets l.
Proof. reflexivity. Qed.
Lemma rfc_group a b c s : byte a -> byte b -> byte c ->
  rfc4648 (a :: b :: c :: s) = T (e0 a) :: T (e1 a b) :: T (e2 b c) :: T (e3 c) :: rfc4648 s.
Proof.
  intros Ha Hb Hc. unfold rfc4648. cbn [bits flat_map]. rewrite sextets_group. fold (bits s).
  pose proof (two_all a b Ha Hb) as H1. pose proof (two_all b c Hb Hc) as H2.
  pose proof (one_all a Ha) as H3. pose proof (one_all c Hc) as H4. facts H1. facts H2. facts H3. facts H4.
  replace (bits_value (firstn 6 (byte_bits a))) with (e0 a) by tauto.
  replace (bits_value (skipn 6 (byte_bits a) ++ firstn 4 (byte_bits b))) with (e1 a b) by tauto.
  replace (bits_value (skipn 4 (byte_bits b) ++ firstn 2 (byte_bits c))) with (e2 b c) by tauto.
  replace (bits_value (skipn 2 (byte_bits c))) with (e3 c) by tauto.
  clear H1 H2 H3 H4. cbn [map length app].
  pose proof (sym_all (e0 a) (e0_r a Ha)) as [-> _]. pose proof (sym_all (e1 a b) (e1_r a b Ha Hb)) as [-> _].
  pose proof (sym_all (e2 b c) (e2_r b c Hb Hc)) as [-> _]. pose proof (sym_all (e3 c) (e3_r c Hc)) as [-> _].
  do 6 f_equal. lia.
Qed.
Lemma rfc_enc s : bytes s -> rfc4648 s = enc s.
Proof.
  induction s using triple_ind; intros H.
  - reflexivity.
  - inv_bytes H. unfold rfc4648.
    pose proof (two_all a 0 Hb byte_0) as H1. pose proof (one_all a Hb) as H2. facts H1. facts H2.
    change (sextets (bits [a])) with [bits_value (firstn 6 (byte_bits a)); bits_value (skipn 6 (byte_bits a) ++ firstn 4 (byte_bits 0))].
    replace (bits_value (firstn 6 (byte_bits a))) with (e0 a) by tauto.
    replace (bits_value (skipn 6 (byte_bits a) ++ firstn 4 (byte_bits 0))) with (e1 a 0) by tauto.
    cbn [map length app enc]. pose proof (sym_all (e0 a) (e0_r a Hb)) as [-> _].
    pose proof (sym_all (e1 a 0) (e1_r a 0 Hb byte_0)) as [-> _]. reflexivity.
  - inv_bytes H. unfold rfc4648.
    pose proof (two_all a b Hb Hb0) as H1. pose proof (one_all a Hb) as H2. pose proof (two_all b 0 Hb0 byte_0) as H3. facts H1. facts H2. facts H3.
    change (sextets (bits [a; b])) with [bits_value (firstn 6 (byte_bits a)); bits_value (skipn 6 (byte_bits a) ++ firstn 4 (byte_bits b)); bits_value (skipn 4 (byte_bits b) ++ firstn 2 (byte_bits 0))].
    replace (bits_value (firstn 6 (byte_bits a))) with (e0 a) by tauto.
    replace (bits_value (skipn 6 (byte_bits a) ++ firstn 4 (byte_bits b))) with (e1 a b) by tauto.
    replace (bits_value (skipn 4 (byte_bits b) ++ firstn 2 (byte_bits 0))) with (e2 b 0) by tauto.
    cbn [map length app enc]. pose proof (sym_all (e0 a) (e0_r a Hb)) as [-> _].
    pose proof (sym_all (e1 a b) (e1_r a b Hb Hb0)) as [-> _]. pose proof (sym_all (e2 b 0) (e2_r b 0 Hb0 byte_0)) as [-> _]. reflexivity.
  - inv_bytes H. rewrite rfc_group by auto. cbn [enc]. rewrite IHs; auto.
Qed.
Lemma enc_length s : zlen (enc s) = 4 * ((zlen s + 2) / 3).
Proof. induction s using triple_ind; cbn [enc length] in *; try reflexivity. lia. Qed.

(** * str_encode64_ex *)
Lemma put64_mid pre z rest v pos : pos = zlen pre -> 0 <= v < 64 -> put64 (pre ++ z :: rest) pos v = Ok (pre ++ T v :: rest).
Proof.
  intros -> Hv. unfold put64. rewrite rd_in by (cbn [length base64_table]; lia). cbn [bind].
  exact (blit_mid pre [z] [at_ base64_table v] rest eq_refl).
Qed.
Lemma blit1_mid pre z rest v pos : pos = zlen pre -> blit (pre ++ z :: rest) pos [v] = Ok (pre ++ v :: rest).
Proof. intros ->. exact (blit_mid pre [z] [v] rest eq_refl). Qed.
Lemma app_snoc {A} (pre : list A) x l : pre ++ x :: l = (pre ++ [x]) ++ l.
Proof. rewrite <- app_assoc. reflexivity. Qed.
Ltac step4 := rewrite ?app_length; cbn [length]; lia.
Lemma encode_loop_ok s : bytes s -> forall pre z rest, length z = length (enc s) ->
  encode_loop s (pre ++ z ++ rest) (zlen pre) = Ok (pre ++ enc s ++ rest, zlen (pre ++ enc s)).
Proof.
  induction s using triple_ind; intros H pre z rest Hz; cbn [enc length] in Hz.
  - destruct z; [|discriminate]. rewrite app_nil_r. reflexivity.
  - inv_bytes H. destruct z as [|z0 [|z1 [|z2 [|z3 [|]]]]]; try discriminate. cbn [app encode_loop].
    rewrite put64_mid by (auto; apply e0_r; auto). cbn [bind]. rewrite app_snoc.
    rewrite put64_mid; [|step4|]. 2:{ pose proof (e1_r a 0 Hb byte_0) as R. unfold e1 in R. rewrite Z.shiftr_0_l, Z.lor_0_r in R. auto. }
    cbn [bind]. rewrite app_snoc. rewrite blit1_mid by step4. cbn [bind]. rewrite app_snoc. rewrite blit1_mid by step4. cbn [bind enc].
    f_equal. f_equal; [|step4]. rewrite <- !app_assoc. cbn [app]. unfold e1. rewrite Z.shiftr_0_l, Z.lor_0_r. reflexivity.
  - inv_bytes H. destruct z as [|z0 [|z1 [|z2 [|z3 [|]]]]]; try discriminate. cbn [app encode_loop].
    rewrite put64_mid by (auto; apply e0_r; auto). cbn [bind]. rewrite app_snoc.
    rewrite put64_mid by (try step4; apply e1_r; auto). cbn [bind]. rewrite app_snoc.
    rewrite put64_mid; [|step4|]. 2:{ pose proof (e2_r b 0 Hb0 byte_0) as R. unfold e2 in R. rewrite Z.shiftr_0_l, Z.lor_0_r in R. auto. }
    cbn [bind]. rewrite app_snoc. rewrite blit1_mid by step4. cbn [bind enc].
    f_equal. f_equal; [|step4]. rewrite <- !app_assoc. cbn [app]. unfold e2. rewrite Z.shiftr_0_l, Z.lor_0_r. reflexivity.
  - inv_bytes H. destruct z as [|z0 [|z1 [|z2 [|z3 z]]]]; try discriminate. cbn [app encode_loop].
    rewrite put64_mid by (auto; apply e0_r; auto). cbn [bind]. rewrite app_snoc.
    rewrite put64_mid by (try step4; apply e1_r; auto). cbn [bind]. rewrite app_snoc.
    rewrite put64_mid by (try step4; apply e2_r; auto). cbn [bind]. rewrite app_snoc.
    rewrite put64_mid by (try step4; apply e3_r; auto). cbn [bind]. rewrite app_snoc.
    change (Z.lor (Z.shiftl (Z.land a 3) 4) (Z.shiftr b 4)) with (e1 a b).
    change (Z.lor (Z.shiftl (Z.land b 15) 2) (Z.shiftr c 6)) with (e2 b c).
    change (Z.land c 63) with (e3 c). change (Z.shiftr a 2) with (e0 a).
    set (p4 := (((pre ++ [T (e0 a)]) ++ [T (e1 a b)]) ++ [T (e2 b c)]) ++ [T (e3 c)]).
    replace (zlen pre + 4) with (zlen p4) by (unfold p4; step4).
    rewrite IHs; auto; [|cbn [length] in Hz; lia].
    unfold p4. cbn [enc]. rewrite <- !app_assoc. reflexivity.
Qed.

Lemma land_3 x : 0 <= x < 18446744073709551616 -> Z.land x 4294967292 = (x / 4 * 4) mod 4294967296.
Proof.
  intros Hx. apply Z.bits_inj'. intros n Hn. rewrite Z.land_spec.
  change 4294967296 with (2 ^ 32). change 4 with (2 ^ 2).
  rewrite <- Z.shiftr_div_pow2, <- Z.shiftl_mul_pow2 by lia.
  destruct (Z_lt_dec n 32).
  - rewrite Z.mod_pow2_bits_low by lia. rewrite Z.shiftl_spec by lia.
    destruct (Z_lt_dec n 2).
    + rewrite (Z.testbit_neg_r _ (n - 2)) by lia. assert (n = 0 \/ n = 1) as [->| ->] by lia; apply andb_false_r.
    + rewrite Z.shiftr_spec by lia. replace (n - 2 + 2) with n by lia.
      replace (Z.testbit 4294967292 n) with true; [apply andb_true_r|].
      replace 4294967292 with (Z.shiftl (Z.ones 30) 2) by reflexivity. rewrite Z.shiftl_spec by lia.
      rewrite Z.testbit_ones by lia. symmetry. apply andb_true_iff. split; [apply Z.leb_le|apply Z.ltb_lt]; lia.
  - rewrite Z.mod_pow2_bits_high by lia.
    replace (Z.testbit 4294967292 n) with false; [apply andb_false_r|].
    symmetry. apply (Z.bits_above_log2 4294967292 n); [lia|]. change (Z.log2 4294967292) with 31. lia.
Qed.
Lemma base64_len_small n : 0 <= n -> 4 * ((n + 2) / 3) < 4294967296 -> str_base64_len n = 4 * ((n + 2) / 3).
Proof.
  intros H0 Hn. unfold str_base64_len. rewrite (u64_id (4 * n)) by lia. rewrite u64_id by lia. rewrite land_3 by lia.
  rewrite Z.mod_small; lia.
Qed.
Lemma base64_len_big n : 0 <= n < 18446744073709551616 -> 4294967296 <= 4 * ((n + 2) / 3) -> u64 (str_base64_len n + 1) < n.
Proof.
  intros H0 Hn. unfold str_base64_len.
  pose proof (u64_range (4 * n)) as R. pose proof (u64_range (u64 (4 * n) / 3 + 3)) as R'.
  rewrite land_3 by lia.
  destruct (Z_lt_dec n 4294967296) as [L|L].
  - rewrite (u64_id (4 * n)) in * by lia. rewrite (u64_id (4 * n / 3 + 3)) in * by lia.
    replace ((4 * n / 3 + 3) / 4 * 4) with (4 * ((n + 2) / 3)) by lia.
    replace (4 * ((n + 2) / 3)) with (4 * ((n + 2) / 3) - 4294967296 + 1 * 4294967296) by lia.
    rewrite Z.mod_add, Z.mod_small by lia. rewrite u64_id by lia. lia.
  - pose proof (Z.mod_pos_bound (u64 (u64 (4 * n) / 3 + 3) / 4 * 4) 4294967296 ltac:(lia)) as M.
    assert (E : (u64 (u64 (4 * n) / 3 + 3) / 4 * 4) mod 4294967296 <= 4294967292).
    { generalize dependent (u64 (u64 (4 * n) / 3 + 3)). clear. intros x Hx M. lia. }
    rewrite u64_id by (clear - M E; lia). clear - E L. lia.
Qed.
Lemma encode64_ok s : bytes s -> zlen s < 18446744073709551616 ->
  str_encode64_ex s = if 4 * ((zlen s + 2) / 3) <? 4294967296 then Ok (Some (rfc4648 s ++ [0])) else Ok None.
Proof.
  intros Hs Hl. unfold str_encode64_ex. destruct (Z.ltb_spec (4 * ((zlen s + 2) / 3)) 4294967296) as [L|L].
  - rewrite base64_len_small by lia. rewrite u64_id by lia.
    destruct (Z.ltb_spec (4 * ((zlen s + 2) / 3) + 1) (zlen s)); [lia|].
    rewrite <- enc_length. replace (Z.to_nat (zlen (enc s) + 1)) with (length (enc s) + 1)%nat by lia. rewrite repeat_app.
    rewrite rfc_enc by auto.
    pose proof (encode_loop_ok s Hs [] (repeat 0 (length (enc s))) (repeat 0 1) ltac:(apply repeat_length)) as E.
    cbn [app length] in E. change (Z.of_nat 0) with 0 in E. rewrite E. cbn [bind repeat]. rewrite blit1_mid by auto. reflexivity.
  - destruct (Z.ltb_spec (u64 (str_base64_len (zlen s) + 1)) (zlen s)); auto.
    pose proof (base64_len_big (zlen s) ltac:(lia) L). lia.
Qed.
