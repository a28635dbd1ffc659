(** Small macros of include/compat. *)
From Verif Require Import BaseLemmas CompatModel.
Import ListNotations.

(** The instant a structure stands for, in units. *)
Definition instant (unit : Z) (t : Z * Z) : Z := unit * fst t + snd t.
(** A structure as it should be: the part is less than a second. *)
Definition normal (unit : Z) (t : Z * Z) : Prop := 0 <= snd t < unit.

(** C132.  For normal structures whose difference can be represented, timersub and timespecsub store the difference, as a normal structure, also when the result is one of the operands, and change nothing else. *)
Theorem timersub_ok : forall unit sb pb t u v m, 0 < sb -> 0 < pb -> 0 < unit <= 2 ^ (pb - 1) -> normal unit (m t) -> normal unit (m u) ->
  - 2 ^ (sb - 1) <= fst (m t) - fst (m u) - (if snd (m t) <? snd (m u) then 1 else 0) -> fst (m t) - fst (m u) < 2 ^ (sb - 1) ->
  exists m', timersub unit sb pb t u v m = Ok m' /\ instant unit (m' v) = instant unit (m t) - instant unit (m u) /\ normal unit (m' v) /\ forall q, q <> v -> m' q = m q.
Proof.
  intros unit sb pb t u v m SB PB [U0 U] [T0 T1] [W0 W1] LO HI. unfold timersub, instant, normal.
  assert (X : forall b x, - 2 ^ (b - 1) <= x -> x < 2 ^ (b - 1) -> long b x = Ok x). { intros b x H1 H2. unfold long. destruct (Z.leb_spec (- 2 ^ (b - 1)) x); [|lia]. destruct (Z.ltb_spec x (2 ^ (b - 1))); [|lia]. reflexivity. }
  assert (LO' : - 2 ^ (sb - 1) <= fst (m t) - fst (m u)) by (destruct (snd (m t) <? snd (m u)); lia).
  rewrite X by assumption. cbn [bind]. set (m1 := set_sec v _ m).
  assert (P1 : forall q, snd (m1 q) = snd (m q)) by (intros q; unfold m1, set_sec; destruct (q =? v); reflexivity). rewrite !P1. rewrite X by lia. cbn [bind]. set (m2 := set_part v _ m1).
  assert (V2 : m2 v = (fst (m t) - fst (m u), snd (m t) - snd (m u))) by (unfold m2, set_part, m1, set_sec; rewrite !Z.eqb_refl; reflexivity). rewrite V2. cbn [fst snd].
  assert (O2 : forall q, q <> v -> m2 q = m q) by (intros q H; unfold m2, set_part, m1, set_sec; destruct (Z.eqb_spec q v); [contradiction|reflexivity]).
  destruct (Z.ltb_spec (snd (m t) - snd (m u)) 0) as [N|N].
  - destruct (Z.ltb_spec (snd (m t)) (snd (m u))); [|lia]. rewrite X by lia. cbn [bind]. unfold set_sec at 1. rewrite Z.eqb_refl, V2. cbn [snd]. rewrite X by lia. cbn [bind]. eexists. split; [reflexivity|].
    unfold set_part, set_sec. rewrite !Z.eqb_refl. rewrite ?V2. cbn [fst snd]. split; [nia|]. split; [lia|]. intros q Hq. destruct (Z.eqb_spec q v); [contradiction|]. apply O2. exact Hq.
  - exists m2. split; [reflexivity|]. rewrite V2. cbn [fst snd]. split; [nia|]. split; [lia|]. exact O2.
Qed.
(** C132.  The precondition on the seconds is needed: where the difference of the seconds, or it less the borrowed one, does not fit, the behaviour is undefined. *)
Theorem timersub_exact : forall unit sb pb t u v m, 0 < sb -> 0 < pb -> 0 < unit <= 2 ^ (pb - 1) -> normal unit (m t) -> normal unit (m u) ->
  ((exists m', timersub unit sb pb t u v m = Ok m') <-> - 2 ^ (sb - 1) <= fst (m t) - fst (m u) - (if snd (m t) <? snd (m u) then 1 else 0) /\ fst (m t) - fst (m u) < 2 ^ (sb - 1)).
Proof.
  intros unit sb pb t u v m SB PB U NT NU. split.
  2:{ intros [A B]. destruct (timersub_ok unit sb pb t u v m SB PB U NT NU A B) as (m' & E & _). exists m'. exact E. }
  intros (m' & E). unfold timersub in E. assert (X : forall b x y, long b x = Ok y -> - 2 ^ (b - 1) <= x < 2 ^ (b - 1) /\ y = x).
  { intros b x y H. unfold long in H. destruct (Z.leb_spec (- 2 ^ (b - 1)) x); [|discriminate]. destruct (Z.ltb_spec x (2 ^ (b - 1))); [|discriminate]. injection H as <-. split; [lia|reflexivity]. }
  destruct (long sb (fst (m t) - fst (m u))) as [s| | |] eqn:L1; cbn [bind] in E; try discriminate. apply X in L1. destruct L1 as [L1 ->].
  set (m1 := set_sec v _ m) in E. assert (P1 : forall q, snd (m1 q) = snd (m q)) by (intros q; unfold m1, set_sec; destruct (q =? v); reflexivity). rewrite !P1 in E.
  destruct (long pb (snd (m t) - snd (m u))) as [p| | |] eqn:L2; cbn [bind] in E; try discriminate. apply X in L2. destruct L2 as [L2 ->]. set (m2 := set_part v _ m1) in E.
  assert (V2 : m2 v = (fst (m t) - fst (m u), snd (m t) - snd (m u))) by (unfold m2, set_part, m1, set_sec; rewrite !Z.eqb_refl; reflexivity). rewrite V2 in E. cbn [fst snd] in E.
  destruct (Z.ltb_spec (snd (m t) - snd (m u)) 0) as [N|N]; destruct (Z.ltb_spec (snd (m t)) (snd (m u))); try lia.
  destruct (long sb (fst (m t) - fst (m u) - 1)) as [s| | |] eqn:L3; cbn [bind] in E; try discriminate. apply X in L3. lia.
Qed.
Definition times0 : times := fun p => if p =? 1 then (10, 200000) else if p =? 2 then (7, 900000) else (0, 0).
Example timersub_ok_holds : exists m', timersub 1000000 64 32 1 2 2 times0 = Ok m' /\ m' 2 = (2, 300000) /\ m' 1 = (10, 200000).
Proof. eexists. split; [vm_compute; reflexivity|]. split; vm_compute; reflexivity. Qed.
Example timersub_ok_hyp := timersub_ok 1000000 64 32 1 2 2 times0 ltac:(lia) ltac:(lia) ltac:(cbn; lia) ltac:(split; cbn; lia) ltac:(split; cbn; lia) ltac:(cbn; lia) ltac:(cbn; lia).
Example timersub_exact_holds := timersub_exact 1000000000 64 64 1 2 1 times0 ltac:(lia) ltac:(lia) ltac:(cbn; lia) ltac:(split; cbn; lia) ltac:(split; cbn; lia).
Print Assumptions timersub_ok.
Print Assumptions timersub_exact.

(** The number whose bytes are those of [x] in reverse order. *)
Definition reverse_bytes (x : Z) : Z :=
  let b i := x / 256 ^ i mod 256 in b 0 * 256 ^ 7 + b 1 * 256 ^ 6 + b 2 * 256 ^ 5 + b 3 * 256 ^ 4 + b 4 * 256 ^ 3 + b 5 * 256 ^ 2 + b 6 * 256 + b 7.
Lemma byte_low : forall x i, 0 <= i < 4 -> x mod 4294967296 / 256 ^ i mod 256 = x / 256 ^ i mod 256.
Proof.
  intros x i Hi. pose proof (Z.div_mod x 4294967296 ltac:(lia)) as D. set (k := x / 4294967296) in *. set (r := x mod 4294967296) in *. clearbody k r. rewrite D.
  assert (i = 0 \/ i = 1 \/ i = 2 \/ i = 3) as C by lia.
  assert (F : exists q, 4294967296 = 256 ^ i * (256 * q)) by (destruct C as [-> |[-> |[-> | -> ]]]; [exists 16777216|exists 65536|exists 256|exists 1]; reflexivity). destruct F as (q & F).
  replace (4294967296 * k + r) with (r + (256 * q * k) * 256 ^ i) by (rewrite F; ring). rewrite Z.div_add by (apply Z.pow_nonzero; lia). replace (256 * q * k) with ((q * k) * 256) by ring. rewrite Z.mod_add by lia. reflexivity.
Qed.
Lemma htonl_bytes : forall x, htonl x = (x / 256 ^ 0 mod 256) * 16777216 + (x / 256 ^ 1 mod 256) * 65536 + (x / 256 ^ 2 mod 256) * 256 + x / 256 ^ 3 mod 256.
Proof.
  intros x. rewrite <- (byte_low x 0), <- (byte_low x 1), <- (byte_low x 2), <- (byte_low x 3) by lia. unfold htonl, u32. set (v := x mod 4294967296). assert (0 <= v < 4294967296) by (apply Z.mod_pos_bound; lia).
  change (256 ^ 0) with 1. change (256 ^ 1) with 256. change (256 ^ 2) with 65536. change (256 ^ 3) with 16777216. rewrite Z.div_1_r. rewrite (Z.mod_small (v / 16777216) 256); [reflexivity|].
  split; [apply Z.div_pos; lia|]. apply Z.div_lt_upper_bound; lia.
Qed.
(** C133.  be64toh and htobe64 of a 64-bit value, of either sign, give the number with the bytes reversed. *)
Theorem be64_ok : forall x, ntohll (Arg 64 x) = Ok (reverse_bytes x).
Proof.
  intros x. unfold ntohll. change (htonl 1 =? 1) with false. cbv iota. unfold shift_right. cbn [a_width a_value]. change (32 <? 64) with true. cbv iota. cbn [bind]. f_equal.
  change 4294967295 with (Z.ones 32). rewrite Z.land_ones by lia. rewrite Z.shiftr_div_pow2 by lia. change (2 ^ 32) with 4294967296.
  assert (B : forall y, 0 <= htonl y < 4294967296).
  { intros y. rewrite htonl_bytes. pose proof (Z.mod_pos_bound (y / 256 ^ 0) 256 ltac:(lia)). pose proof (Z.mod_pos_bound (y / 256 ^ 1) 256 ltac:(lia)). pose proof (Z.mod_pos_bound (y / 256 ^ 2) 256 ltac:(lia)). pose proof (Z.mod_pos_bound (y / 256 ^ 3) 256 ltac:(lia)). lia. }
  pose proof (B (x mod 4294967296)) as B1. pose proof (B (x / 4294967296)) as B2. rewrite (u64_id (htonl _)) by lia. rewrite Z.shiftl_mul_pow2 by lia. change (2 ^ 32) with 4294967296. rewrite u64_id by lia.
  rewrite (Z.mul_comm (htonl _)). replace (Z.lor (4294967296 * htonl (x mod 4294967296)) (htonl (x / 4294967296))) with (4294967296 * htonl (x mod 4294967296) + htonl (x / 4294967296)).
  2:{ symmetry. rewrite <- Z.lxor_lor, <- Z.add_nocarry_lxor; [reflexivity| |]; (apply Z.bits_inj'; intros i Hi; rewrite Z.land_spec, Z.bits_0; destruct (Z_lt_le_dec i 32) as [L|L];
      [replace (4294967296 * htonl (x mod 4294967296)) with (htonl (x mod 4294967296) * 2 ^ 32) by (change (2 ^ 32) with 4294967296; ring); rewrite Z.mul_pow2_bits_low by lia; reflexivity
      |rewrite (Z.bits_above_log2 (htonl (x / 4294967296)) i); [apply andb_false_r|lia|]; destruct (Z.eq_dec (htonl (x / 4294967296)) 0) as [e|e]; [rewrite e; cbn; lia|apply Z.log2_lt_pow2; [lia|]; apply Z.lt_le_trans with (2 ^ 32); [change (2 ^ 32) with 4294967296; lia|apply Z.pow_le_mono_r; lia]]]). }
  rewrite !htonl_bytes. rewrite !byte_low by lia. unfold reverse_bytes.
  assert (H : forall i, 0 <= i -> x / 4294967296 / 256 ^ i = x / 256 ^ (4 + i)) by (intros i Hi; rewrite Z.div_div by (try apply Z.pow_pos_nonneg; lia); rewrite Z.pow_add_r by lia; reflexivity).
  rewrite !H by lia. change (4 + 0) with 4. change (4 + 1) with 5. change (4 + 2) with 6. change (4 + 3) with 7. ring.
Qed.
(** C133.  The same for an argument of 32 bits is undefined, whatever its value: it is shifted by its width. *)
Theorem be64_int_undefined : forall x, ntohll (Arg 32 x) = Undef BadShift.
Proof. reflexivity. Qed.
(** C133.  htobe64(1) with an int constant: undefined; with a uint64_t: 2^56. *)
Theorem be64_refuted : exists x, ntohll (Arg 64 x) = Ok 72057594037927936 /\ ntohll (Arg 32 x) = Undef BadShift.
Proof. exists 1. split; vm_compute; reflexivity. Qed.
(** C133.  Converting twice gives the value again. *)
Theorem be64_twice : forall x, 0 <= x < 18446744073709551616 -> (let* y := ntohll (Arg 64 x) in ntohll (Arg 64 y)) = Ok x.
Proof.
  intros x Hx. rewrite be64_ok. cbn [bind]. rewrite be64_ok. f_equal.
  assert (D : forall b0 b1 b2 b3 b4 b5 b6 b7, 0 <= b0 < 256 -> 0 <= b1 < 256 -> 0 <= b2 < 256 -> 0 <= b3 < 256 -> 0 <= b4 < 256 -> 0 <= b5 < 256 -> 0 <= b6 < 256 -> 0 <= b7 < 256 ->
     reverse_bytes (b0 * 256 ^ 7 + b1 * 256 ^ 6 + b2 * 256 ^ 5 + b3 * 256 ^ 4 + b4 * 256 ^ 3 + b5 * 256 ^ 2 + b6 * 256 + b7) = b7 * 256 ^ 7 + b6 * 256 ^ 6 + b5 * 256 ^ 5 + b4 * 256 ^ 4 + b3 * 256 ^ 3 + b2 * 256 ^ 2 + b1 * 256 + b0).
  { intros b0 b1 b2 b3 b4 b5 b6 b7 H0 H1 H2 H3 H4 H5 H6 H7. unfold reverse_bytes. set (s := b0 * 256 ^ 7 + b1 * 256 ^ 6 + b2 * 256 ^ 5 + b3 * 256 ^ 4 + b4 * 256 ^ 3 + b5 * 256 ^ 2 + b6 * 256 + b7). cbv beta zeta.
    assert (G : forall i hi lo b, 0 <= i -> 0 <= b < 256 -> 0 <= lo < 256 ^ i -> s = (hi * 256 + b) * 256 ^ i + lo -> s / 256 ^ i mod 256 = b).
    { intros i hi lo b Hi Hb Hlo ->. rewrite Z.div_add_l by (apply Z.pow_nonzero; lia). rewrite (Z.div_small lo) by lia. rewrite Z.add_0_r, Z.add_comm, Z.mod_add by lia. apply Z.mod_small. lia. }
    rewrite (G 0 (((((((b0 * 256 + b1) * 256 + b2) * 256 + b3) * 256 + b4) * 256 + b5) * 256 + b6)) 0 b7) by (try unfold s; cbn [Z.pow Z.pow_pos Pos.iter]; lia).
    rewrite (G 1 ((((((b0 * 256 + b1) * 256 + b2) * 256 + b3) * 256 + b4) * 256 + b5)) b7 b6) by (try unfold s; cbn [Z.pow Z.pow_pos Pos.iter]; lia).
    rewrite (G 2 (((((b0 * 256 + b1) * 256 + b2) * 256 + b3) * 256 + b4)) (b6 * 256 + b7) b5) by (try unfold s; cbn [Z.pow Z.pow_pos Pos.iter]; lia).
    rewrite (G 3 ((((b0 * 256 + b1) * 256 + b2) * 256 + b3)) ((b5 * 256 + b6) * 256 + b7) b4) by (try unfold s; cbn [Z.pow Z.pow_pos Pos.iter]; lia).
    rewrite (G 4 (((b0 * 256 + b1) * 256 + b2)) (((b4 * 256 + b5) * 256 + b6) * 256 + b7) b3) by (try unfold s; cbn [Z.pow Z.pow_pos Pos.iter]; lia).
    rewrite (G 5 ((b0 * 256 + b1)) ((((b3 * 256 + b4) * 256 + b5) * 256 + b6) * 256 + b7) b2) by (try unfold s; cbn [Z.pow Z.pow_pos Pos.iter]; lia).
    rewrite (G 6 b0 (((((b2 * 256 + b3) * 256 + b4) * 256 + b5) * 256 + b6) * 256 + b7) b1) by (try unfold s; cbn [Z.pow Z.pow_pos Pos.iter]; lia).
    rewrite (G 7 0 ((((((b1 * 256 + b2) * 256 + b3) * 256 + b4) * 256 + b5) * 256 + b6) * 256 + b7) b0) by (try unfold s; cbn [Z.pow Z.pow_pos Pos.iter]; lia). reflexivity. }
  assert (M : forall i, 0 <= x / 256 ^ i mod 256 < 256) by (intros i; apply Z.mod_pos_bound; lia).
  unfold reverse_bytes at 2. cbv beta zeta. rewrite D by apply M.
  assert (E : forall i, 0 <= i -> x / 256 ^ i = 256 * (x / 256 ^ (i + 1)) + x / 256 ^ i mod 256).
  { intros i Hi. rewrite Z.pow_add_r by lia. rewrite <- Z.div_div by (try apply Z.pow_nonzero; lia). change (256 ^ 1) with 256. apply Z.div_mod. lia. }
  pose proof (E 0 ltac:(lia)) as E0. pose proof (E 1 ltac:(lia)) as E1. pose proof (E 2 ltac:(lia)) as E2. pose proof (E 3 ltac:(lia)) as E3. pose proof (E 4 ltac:(lia)) as E4. pose proof (E 5 ltac:(lia)) as E5. pose proof (E 6 ltac:(lia)) as E6. pose proof (E 7 ltac:(lia)) as E7.
  cbn [Z.add Pos.add Pos.succ] in *. change (256 ^ 0) with 1 in E0 at 1. rewrite Z.div_1_r in E0. assert (x / 256 ^ 8 = 0) as Z8 by (apply Z.div_small; cbn; lia). rewrite Z8 in E7.
  clear D M E. change (256 ^ 7) with 72057594037927936 in |- * at 2. lia.
Qed.
Example be64_ok_holds : ntohll (Arg 64 4822678189205111) = Ok 8603657889541918976 /\ ntohll (Arg 64 (-2)) = Ok 18374686479671623679.
Proof. split; vm_compute; reflexivity. Qed.
Example be64_twice_holds := be64_twice 4822678189205111 ltac:(lia).
Example be64_int_undefined_holds := be64_int_undefined 7.
Print Assumptions be64_ok.
Print Assumptions be64_int_undefined.
Print Assumptions be64_refuted.
Print Assumptions be64_twice.

Lemma land_type : forall mode, Z.land mode S_IFMT = mode / 4096 mod 16 * 4096.
Proof.
  intros mode. change S_IFMT with (Z.shiftl (Z.ones 4) 12). change (mode / 4096 mod 16 * 4096) with (mode / 2 ^ 12 mod 2 ^ 4 * 2 ^ 12). rewrite <- (Z.shiftl_mul_pow2 _ 12) by lia. rewrite <- Z.land_ones by lia. rewrite <- Z.shiftr_div_pow2 by lia.
  apply Z.bits_inj'. intros i Hi. rewrite Z.land_spec, !Z.shiftl_spec by lia. rewrite Z.land_spec. destruct (Z_lt_le_dec i 12) as [L|L]; [rewrite !(Z.testbit_neg_r _ (i - 12)) by lia; rewrite !andb_false_r; reflexivity|]. rewrite Z.shiftr_spec by lia. replace (i - 12 + 12) with i by lia. reflexivity.
Qed.
(** C134.  S_ISDIR, S_ISREG, S_ISCHR and S_ISFIFO look at the type of a mode, its bits 12 to 15: 4, 8, 2 and 1; so that no two of them hold. *)
Theorem file_types : forall mode, (s_is S_IFDIR mode = true <-> mode / 4096 mod 16 = 4) /\ (s_is S_IFREG mode = true <-> mode / 4096 mod 16 = 8) /\ (s_is S_IFCHR mode = true <-> mode / 4096 mod 16 = 2) /\ (s_is S_IFIFO mode = true <-> mode / 4096 mod 16 = 1).
Proof. intros mode. unfold s_is. rewrite !Z.eqb_eq, !land_type. unfold S_IFDIR, S_IFREG, S_IFCHR, S_IFIFO. lia. Qed.
(** C134.  S_ISBLK, S_ISSOCK and S_ISLNK, said to be false always, are true for exactly the modes without a type. *)
Theorem no_type_is_link : forall mode t, In t [S_IFBLK; S_IFLNK; S_IFSOCK] -> (s_is t mode = true <-> mode / 4096 mod 16 = 0).
Proof.
  intros mode t H. assert (t = 0) as -> by (cbn in H; decompose [or] H; try contradiction; subst; reflexivity). unfold s_is. rewrite Z.eqb_eq, land_type. lia.
Qed.
(** C134.  The type of a directory entry, IFTODT of a mode, is the mode without its other bits. *)
Theorem iftodt_type : forall mode, IFTODT mode = mode / 4096 mod 16 * 4096.
Proof. intros mode. apply land_type. Qed.
(** C134.  A mode of 0 is a link, a socket and a block device at once; and the type of an entry that could not be converted (0, DT_UNKNOWN) is DT_LNK. *)
Theorem link_macros_refuted : exists mode, s_is S_IFLNK mode = true /\ s_is S_IFSOCK mode = true /\ s_is S_IFBLK mode = true /\ DT_LNK = DT_UNKNOWN.
Proof. exists 0. repeat split. Qed.
Example file_types_holds : s_is S_IFDIR 16877 = true /\ s_is S_IFREG 33188 = true /\ s_is S_IFREG 16877 = false /\ s_is S_IFLNK 16877 = false.
Proof. repeat split. Qed.
Example no_type_is_link_holds := proj2 (no_type_is_link 420 S_IFLNK (or_intror (or_introl eq_refl))) eq_refl.
Print Assumptions file_types.
Print Assumptions iftodt_type.
Print Assumptions no_type_is_link.
Print Assumptions link_macros_refuted.
