(** C87: type-generic atomic operations. *)
From Verif Require Import GenericModel SpecStr BaseLemmas.
From Coq Require Import Lia.

(** What an operation should leave in an object of [s] bytes. *)
Definition wanted (s : Z) (o : aop) (old : Z) : Z :=
  let m := 256 ^ s in
  match o with
  | OLoad => old
  | OStore v | OExchange v => v mod m
  | OAdd v => (old + v) mod m
  | OSub v => (old - v) mod m
  | OOr v => Z.lor old (v mod m)
  | OXor v => Z.lxor old (v mod m)
  | OAnd v => Z.land old (v mod m)
  end.
(** Every operation but a store answers with the old contents. *)
Definition answer (o : aop) (old : Z) : option Z := match o with OStore _ => None | _ => Some old end.
(** What becomes of the bytes behind an object of [s] bytes holding [x] when the word spans [k] of them holding [y]. *)
Definition behind (s k : Z) (o : aop) (x y : Z) : Z :=
  let m := 256 ^ s in
  match o with
  | OLoad => y
  | OStore v | OExchange v => (v / m) mod 256 ^ k
  | OAdd v => (y + (x + v) / m) mod 256 ^ k
  | OSub v => (y + (x - v) / m) mod 256 ^ k
  | OOr v => Z.lor y ((v / m) mod 256 ^ k)
  | OXor v => Z.lxor y ((v / m) mod 256 ^ k)
  | OAnd v => Z.land y ((v / m) mod 256 ^ k)
  end.
Lemma rdn_mid pre w post : rdn strict (pre ++ w ++ post) (zlen pre) (length w) = Ok w.
Proof.
  revert pre. induction w as [|x w IH]; intros pre; cbn [rdn length]; [reflexivity|]. unfold rd.
  replace ((0 <=? zlen pre) && _) with true.
  2: { symmetry. apply andb_true_intro. split; [apply Z.leb_le; lia|apply Z.ltb_lt]. rewrite !app_length. cbn. lia. }
  cbn [bind]. rewrite Nat2Z.id, app_nth2, Nat.sub_diag by lia. cbn [nth app].
  specialize (IH (pre ++ [x])). rewrite <- app_assoc in IH. cbn [app] in IH. replace (zlen pre + 1) with (zlen (pre ++ [x])) by (rewrite app_length; cbn; lia).
  rewrite IH. reflexivity.
Qed.
Lemma blit_mid pre w post l : length l = length w -> blit (pre ++ w ++ post) (zlen pre) l = Ok (pre ++ l ++ post).
Proof.
  intros H. unfold blit. replace (andb _ _) with true.
  2: { symmetry. apply andb_true_intro. split; [apply Z.leb_le; lia|apply Z.leb_le]. rewrite !app_length. lia. }
  rewrite Nat2Z.id, firstn_app, firstn_all, Nat.sub_diag, firstn_O, app_nil_r. f_equal. f_equal. f_equal.
  rewrite skipn_app, skipn_all2 by lia. cbn [app]. rewrite H. replace (length pre + length w - length pre)%nat with (length w) by lia.
  rewrite skipn_app, skipn_all2 by lia. cbn [app]. rewrite Nat.sub_diag. reflexivity.
Qed.
Lemma word_op_range o w : 0 <= w < 2 ^ 64 -> 0 <= word_op o w < 2 ^ 64.
Proof.
  intros H. assert (Hu : forall x, 0 <= u64 x < 2 ^ 64) by (intros; apply (u64_range x)).
  assert (B : forall x y, 0 <= x < 2 ^ 64 -> 0 <= y < 2 ^ 64 -> 0 <= Z.lor x y < 2 ^ 64 /\ 0 <= Z.lxor x y < 2 ^ 64 /\ 0 <= Z.land x y < 2 ^ 64).
  { intros x y Hx Hy. rewrite <- (Z.mod_small x (2 ^ 64)), <- (Z.mod_small y (2 ^ 64)) by lia. rewrite <- !Z.land_ones by lia.
    rewrite <- Z.land_lor_distr_l. assert (Z.lxor (Z.land x (Z.ones 64)) (Z.land y (Z.ones 64)) = Z.land (Z.lxor x y) (Z.ones 64)) as ->.
    { apply Z.bits_inj'. intros n Hn. rewrite Z.lxor_spec, !Z.land_spec, Z.lxor_spec. destruct (Z.testbit x n), (Z.testbit y n), (Z.testbit (Z.ones 64) n); reflexivity. }
    assert (Z.land (Z.land x (Z.ones 64)) (Z.land y (Z.ones 64)) = Z.land (Z.land x y) (Z.ones 64)) as ->.
    { apply Z.bits_inj'. intros n Hn. rewrite !Z.land_spec. destruct (Z.testbit x n), (Z.testbit y n), (Z.testbit (Z.ones 64) n); reflexivity. }
    rewrite !Z.land_ones by lia. repeat split; apply Z.mod_pos_bound; lia. }
  destruct o; cbn [word_op]; try apply Hu; try exact H; apply B; auto.
Qed.
(** The whole effect on the eight bytes [w] at the object's address. *)
Lemma generic_word o pre w post : bytes w -> length w = 8%nat ->
  generic o (pre ++ w ++ post) (zlen pre) = Ok (word_result o (le w), pre ++ to_le 8 (word_op o (le w)) ++ post).
Proof.
  intros Hb Hl. assert (R : rdn strict (pre ++ w ++ post) (zlen pre) 8 = Ok w) by (rewrite <- Hl; apply rdn_mid).
  assert (W : forall x, blit (pre ++ w ++ post) (zlen pre) (to_le 8 x) = Ok (pre ++ to_le 8 x ++ post)) by (intros; apply blit_mid; rewrite to_le_length; auto).
  unfold generic. destruct o; rewrite ?R; cbn [bind]; rewrite ?W; try reflexivity.
  cbn [word_op word_result]. rewrite <- Hl. rewrite to_le_le by auto. reflexivity.
Qed.

Lemma half_low p x y : 0 <= p -> 0 <= x < 2 ^ p -> (x + 2 ^ p * y) mod 2 ^ p = x.
Proof. intros. rewrite Z.mul_comm, Z_mod_plus_full. apply Z.mod_small; lia. Qed.
Lemma half_high p x y : 0 <= p -> 0 <= x < 2 ^ p -> (x + 2 ^ p * y) / 2 ^ p = y.
Proof. intros. rewrite Z.mul_comm, Z_div_plus_full by lia. rewrite Z.div_small by lia. lia. Qed.
Lemma pow_pos p : 0 <= p -> 0 < 2 ^ p. Proof. intros. apply Z.pow_pos_nonneg; lia. Qed.
Lemma mod_low p q v : 0 <= p -> 0 <= q -> v mod 2 ^ (p + q) mod 2 ^ p = v mod 2 ^ p.
Proof. intros. pose proof (pow_pos p). pose proof (pow_pos q). rewrite Z.pow_add_r, Z.rem_mul_r by lia. rewrite (Z.mul_comm (2 ^ p)), Z_mod_plus_full. apply Zmod_mod. Qed.
Lemma mod_high p q v : 0 <= p -> 0 <= q -> v mod 2 ^ (p + q) / 2 ^ p = (v / 2 ^ p) mod 2 ^ q.
Proof.
  intros. pose proof (pow_pos p). pose proof (pow_pos q). rewrite Z.pow_add_r, Z.rem_mul_r by lia. rewrite (Z.mul_comm (2 ^ p)), Z_div_plus_full by lia.
  rewrite Z.div_small by (apply Z.mod_pos_bound; lia). lia.
Qed.
Lemma bit_halves p (f : Z -> Z -> Z) (g : bool -> bool -> bool) : 0 <= p -> g false false = false -> (forall a b n, Z.testbit (f a b) n = g (Z.testbit a n) (Z.testbit b n)) ->
  forall a b, f a b mod 2 ^ p = f (a mod 2 ^ p) (b mod 2 ^ p) /\ f a b / 2 ^ p = f (a / 2 ^ p) (b / 2 ^ p).
Proof.
  intros Hp G F a b. rewrite <- !Z.land_ones, <- !Z.shiftr_div_pow2 by lia. split; apply Z.bits_inj'; intros n Hn.
  - rewrite F, !Z.land_spec, F by lia. destruct (Z.testbit (Z.ones p) n); rewrite ?andb_true_r, ?andb_false_r, ?G; reflexivity.
  - rewrite F, !Z.shiftr_spec, F by lia. reflexivity.
Qed.
Lemma pow256 s : 0 <= s -> 256 ^ s = 2 ^ (8 * s). Proof. intros. rewrite Z.pow_mul_r by lia. reflexivity. Qed.
(** The effect on the two parts of a word. *)
Lemma word_parts o s k x y : 0 <= s -> 0 <= k -> s + k = 8 -> 0 <= x < 256 ^ s -> 0 <= y < 256 ^ k ->
  word_op o (x + 256 ^ s * y) mod 256 ^ s = wanted s o x /\ word_op o (x + 256 ^ s * y) / 256 ^ s = behind s k o x y.
Proof.
  intros Hs Hk E Hx Hy. unfold wanted, behind. rewrite (pow256 s), (pow256 k) in * by lia.
  assert (U : forall v, u64 v = v mod 2 ^ (8 * s + 8 * k)) by (intros; unfold u64; replace (8 * s + 8 * k) with 64 by lia; reflexivity).
  set (p := 8 * s) in *. set (q := 8 * k) in *. assert (Hp : 0 <= p) by lia. assert (Hq : 0 <= q) by lia. clearbody p q. clear Hs Hk E s k.
  pose proof (half_low p x y Hp Hx) as L. pose proof (half_high p x y Hp Hx) as H.
  assert (P : 0 < 2 ^ p) by (apply Z.pow_pos_nonneg; lia).
  assert (A : forall v, (x + 2 ^ p * y + v mod 2 ^ (p + q)) mod 2 ^ (p + q) = (x + v + y * 2 ^ p) mod 2 ^ (p + q)) by (intros; rewrite Zplus_mod_idemp_r; f_equal; lia).
  assert (B : forall v, (x + 2 ^ p * y - v mod 2 ^ (p + q)) mod 2 ^ (p + q) = (x - v + y * 2 ^ p) mod 2 ^ (p + q)) by (intros; rewrite Zminus_mod_idemp_r; f_equal; lia).
  destruct o; cbn [word_op]; rewrite ?U, ?A, ?B.
  - auto.
  - split; [apply mod_low|apply mod_high]; auto.
  - split; [apply mod_low|apply mod_high]; auto.
  - rewrite mod_low, mod_high, Z_mod_plus_full, Z_div_plus_full, (Z.add_comm y) by lia. auto.
  - rewrite mod_low, mod_high, Z_mod_plus_full, Z_div_plus_full, (Z.add_comm y) by lia. auto.
  - destruct (bit_halves p Z.lor orb Hp eq_refl (fun a b n => Z.lor_spec a b n) (x + 2 ^ p * y) (v mod 2 ^ (p + q))) as [-> ->]. rewrite L, H, mod_low, mod_high by auto. auto.
  - destruct (bit_halves p Z.lxor xorb Hp eq_refl (fun a b n => Z.lxor_spec a b n) (x + 2 ^ p * y) (v mod 2 ^ (p + q))) as [-> ->]. rewrite L, H, mod_low, mod_high by auto. auto.
  - destruct (bit_halves p Z.land andb Hp eq_refl (fun a b n => Z.land_spec a b n) (x + 2 ^ p * y) (v mod 2 ^ (p + q))) as [-> ->]. rewrite L, H, mod_low, mod_high by auto. auto.
Qed.

(** Exact effect on an object of any size up to eight bytes and on the bytes behind it. *)
Theorem generic_exact : forall o pre obj next post, bytes obj -> bytes next -> (length obj + length next = 8)%nat ->
  exists obj' next', generic o (pre ++ obj ++ next ++ post) (zlen pre) = Ok (answer o (le_value obj + 256 ^ zlen obj * le_value next), pre ++ obj' ++ next' ++ post) /\
    length obj' = length obj /\ length next' = length next /\ bytes obj' /\ bytes next' /\
    le_value obj' = wanted (zlen obj) o (le_value obj) /\ le_value next' = behind (zlen obj) (zlen next) o (le_value obj) (le_value next).
Proof.
  intros o pre obj next post Ho Hn Hl. change le_value with le. set (w := obj ++ next). set (x := word_op o (le w)).
  exists (firstn (length obj) (to_le 8 x)), (skipn (length obj) (to_le 8 x)).
  assert (Hb : bytes w) by (apply bytes_app; auto). assert (H8 : length w = 8%nat) by (unfold w; rewrite app_length; auto).
  rewrite (app_assoc obj). rewrite (app_assoc (firstn _ _)), firstn_skipn. pose proof (le_bound8 w Hb H8) as Wb.
  split; [rewrite <- le_app; apply generic_word; auto|].
  assert (L : length (firstn (length obj) (to_le 8 x)) = length obj) by (rewrite firstn_length, to_le_length; lia).
  split; [exact L|]. split; [rewrite skipn_length, to_le_length; lia|].
  assert (Bf : bytes (firstn (length obj) (to_le 8 x))) by apply bytes_firstn, to_le_bytes.
  split; [exact Bf|]. split; [apply bytes_skipn, to_le_bytes|].
  assert (X : 0 <= x < 256 ^ Z.of_nat 8) by (apply (word_op_range o); exact Wb).
  pose proof (le_mod _ (skipn (length obj) (to_le 8 x)) Bf) as M. pose proof (le_div _ (skipn (length obj) (to_le 8 x)) Bf) as D.
  rewrite firstn_skipn, le_to_le, L, (Z.mod_small x) in M, D by exact X. rewrite <- M, <- D.
  unfold x, w. rewrite le_app. pose proof (le_bound obj Ho). pose proof (le_bound next Hn). apply word_parts; lia.
Qed.
(** An object of eight bytes: the operation is exact and touches nothing else. *)
Theorem generic_wide_partial : forall o pre w post, bytes w -> length w = 8%nat ->
  exists w', generic o (pre ++ w ++ post) (zlen pre) = Ok (answer o (le_value w), pre ++ w' ++ post) /\ bytes w' /\ length w' = 8%nat /\ le_value w' = wanted 8 o (le_value w).
Proof.
  intros o pre w post Hb Hl. destruct (generic_exact o pre w [] post Hb (Forall_nil _)) as (w' & n & E & L & N & B & _ & V & _); [cbn; lia|].
  destruct n; [|discriminate]. exists w'. cbn [app le_value] in E. rewrite Z.mul_0_r, Z.add_0_r in E. rewrite Hl in L, V. auto.
Qed.
(** When the bytes behind the object survive, for an argument that is a value of the object's type. *)
Definition survives (m : Z) (o : aop) (x y : Z) : Prop :=
  match o with
  | OLoad | OOr _ | OXor _ => True
  | OStore _ | OExchange _ | OAnd _ => y = 0
  | OAdd v => x + v < m
  | OSub v => v <= x
  end.
Definition argument (o : aop) : Z := match o with OLoad => 0 | OStore v | OExchange v | OAdd v | OSub v | OOr v | OXor v | OAnd v => v end.
Theorem generic_neighbours_partial : forall o pre obj next post b r, bytes obj -> bytes next -> (length obj + length next = 8)%nat -> next <> [] ->
  0 <= argument o < 256 ^ zlen obj -> generic o (pre ++ obj ++ next ++ post) (zlen pre) = Ok (r, b) ->
  (firstn (length pre) b = pre /\ skipn (length pre + 8) b = post) /\
  (firstn (length next) (skipn (length pre + length obj) b) = next <-> survives (256 ^ zlen obj) o (le_value obj) (le_value next)).
Proof.
  intros o pre obj next post b r Ho Hn Hl Hne Ha G.
  destruct (generic_exact o pre obj next post Ho Hn Hl) as (obj' & next' & E & Lo & Ln & Bo & Bn & Vo & Vn). rewrite E in G. injection G as <- <-.
  split; [split|].
  - rewrite firstn_app, firstn_all, Nat.sub_diag. cbn. apply app_nil_r.
  - rewrite !app_assoc, skipn_app, skipn_all2 by (rewrite !app_length; lia). rewrite !app_length. replace (length pre + 8 - _)%nat with 0%nat by lia. reflexivity.
  - rewrite app_assoc, skipn_app, skipn_all2 by (rewrite app_length; lia). rewrite app_length, Lo, Nat.sub_diag. cbn [skipn app].
    rewrite firstn_app, <- Ln, firstn_all, Nat.sub_diag, app_nil_r.
    assert (I : next' = next <-> le_value next' = le_value next) by (change le_value with le; split; [intros ->; auto|intros H; apply le_inj; auto]).
    rewrite I, Vn. clear I E Vn Vo Bo Bn Ln Lo obj' next' pre post. change le_value with le. pose proof (le_bound obj Ho) as Bx. pose proof (le_bound next Hn) as By.
    assert (K : 256 <= 256 ^ zlen next). { destruct next as [|c n]; [congruence|]. cbn [length]. rewrite Nat2Z.inj_succ, Z.pow_succ_r by lia. assert (0 < 256 ^ zlen n) by (apply Z.pow_pos_nonneg; lia). nia. }
    revert Bx By Ha K. unfold behind. generalize (le obj), (le next), (256 ^ zlen next). generalize (256 ^ zlen obj). clear. intros m x y K Bx By Ha HK.
    assert (D : forall v, 0 <= v < m -> (v / m) mod K = 0) by (intros v Hv; rewrite Z.div_small by lia; apply Z.mod_0_l; lia).
    destruct o; cbn [argument survives] in *; rewrite ?D by lia.
    + tauto.
    + lia.
    + lia.
    + destruct (Z_lt_dec (x + v) m) as [C|C].
      * rewrite (Z.div_small (x + v)) by lia. rewrite Z.add_0_r, Z.mod_small by lia. tauto.
      * replace ((x + v) / m) with 1 by (apply (Z.div_unique _ _ _ (x + v - m)); lia). split; [|lia]. intros H.
        assert (y + 1 = K \/ y + 1 < K) as [Q|Q] by lia; [rewrite Q, Z_mod_same_full in H; lia|rewrite Z.mod_small in H; lia].
    + destruct (Z_le_dec v x) as [C|C].
      * rewrite (Z.div_small (x - v)) by lia. rewrite Z.add_0_r, Z.mod_small by lia. tauto.
      * replace ((x - v) / m) with (-1) by (apply (Z.div_unique _ _ _ (x - v + m)); lia). split; [|lia]. intros H.
        assert (y = 0 \/ 0 < y) as [Q|Q] by lia; [|rewrite Z.mod_small in H; lia]. subst y. replace (0 + -1) with (K - 1 + -1 * K) in H by lia. rewrite Z_mod_plus_full, Z.mod_small in H; lia.
    + rewrite Z.lor_0_r. tauto.
    + rewrite Z.lxor_0_r. tauto.
    + rewrite Z.land_0_r. lia.
Qed.

(** A block that ends within the eight bytes: the access leaves it. *)
Lemma rdn_over b i n : 0 <= i -> Z.of_nat (length b) < i + Z.of_nat n -> i <= Z.of_nat (length b) -> rdn strict b i n = Undef OobRead.
Proof.
  revert i. induction n as [|n IH]; intros i H0 H1 H2; [lia|]. cbn [rdn]. unfold rd. destruct (Z.ltb_spec i (zlen b)) as [C|C].
  - replace (0 <=? i) with true by (symmetry; apply Z.leb_le; lia). cbn [andb bind]. rewrite IH by lia. reflexivity.
  - rewrite andb_false_r. reflexivity.
Qed.
Theorem generic_overrun : forall o pre obj, (length obj < 8)%nat ->
  generic o (pre ++ obj) (zlen pre) = Undef (match o with OStore _ => OobWrite | _ => OobRead end).
Proof.
  intros o pre obj H. assert (R : rdn strict (pre ++ obj) (zlen pre) 8 = Undef OobRead) by (apply rdn_over; rewrite ?app_length; lia).
  unfold generic. destruct o; rewrite ?R; try reflexivity. unfold blit. rewrite to_le_length, app_length.
  replace (_ && _) with false; [reflexivity|]. symmetry. apply andb_false_intro2. apply Z.leb_gt. lia.
Qed.

Lemma same_split (a : list Z) : forall b c d, length c = length a -> a ++ b = c ++ d -> a = c /\ b = d.
Proof.
  induction a as [|x a IH]; intros b [|y c] d L E; try discriminate; [auto|]. cbn in E. injection E as -> E. injection L as L. destruct (IH _ _ _ L E) as [-> ->]. auto.
Qed.
(** Compare and exchange: what is compared and, on failure, written to *expected are the object's bytes and those behind it. *)
Theorem generic_cas_exact : forall pre obj next post epre ex en epost d, bytes obj -> bytes next -> bytes ex -> bytes en ->
  length ex = length obj -> length en = length next -> (length obj + length next = 8)%nat ->
  (obj = ex /\ next = en -> exists obj' next', length obj' = length obj /\ length next' = length next /\ le_value obj' = d mod 256 ^ zlen obj /\
     le_value next' = (d / 256 ^ zlen obj) mod 256 ^ zlen next /\
     generic_cas (pre ++ obj ++ next ++ post) (zlen pre) (epre ++ ex ++ en ++ epost) (zlen epre) d = Ok (true, pre ++ obj' ++ next' ++ post, epre ++ ex ++ en ++ epost)) /\
  (obj <> ex \/ next <> en ->
     generic_cas (pre ++ obj ++ next ++ post) (zlen pre) (epre ++ ex ++ en ++ epost) (zlen epre) d = Ok (false, pre ++ obj ++ next ++ post, epre ++ obj ++ next ++ epost)).
Proof.
  intros pre obj next post epre ex en epost d Ho Hn He Hf Le Lf L8.
  assert (R1 : rdn strict (epre ++ ex ++ en ++ epost) (zlen epre) 8 = Ok (ex ++ en)) by (rewrite (app_assoc ex); replace 8%nat with (length (ex ++ en)) by (rewrite app_length; lia); apply rdn_mid).
  assert (R2 : rdn strict (pre ++ obj ++ next ++ post) (zlen pre) 8 = Ok (obj ++ next)) by (rewrite (app_assoc obj); replace 8%nat with (length (obj ++ next)) by (rewrite app_length; lia); apply rdn_mid).
  unfold generic_cas. rewrite R1, R2. cbn [bind]. split.
  - intros [-> ->]. rewrite Z.eqb_refl. destruct (generic_exact (OExchange d) pre ex en post He Hf) as (o' & n' & E & A & B & _ & _ & C & D); [lia|].
    exists o', n'. split; [auto|]. split; [auto|]. split; [auto|]. split; [auto|]. unfold generic in E. rewrite R2 in E. cbn [bind word_op] in E.
    destruct (blit _ _ _) as [b| | |]; try discriminate. cbn [bind] in E |- *. injection E as _ ->. reflexivity.
  - intros N. destruct (Z.eqb_spec (le (obj ++ next)) (le (ex ++ en))) as [Q|_].
    + apply le_inj in Q; try (apply bytes_app; auto); [|rewrite !app_length; lia]. apply same_split in Q; [tauto|lia].
    + rewrite (app_assoc ex), blit_mid by (rewrite !app_length; lia). rewrite <- app_assoc. reflexivity.
Qed.

(** C87 asks that an operation on an object changes nothing but the object and depends on nothing but it. *)
Theorem generic_store_neighbour_refuted : exists pre obj next r b, length obj = 4%nat /\ generic (OStore 1) (pre ++ obj ++ next) (zlen pre) = Ok (r, b) /\
  firstn (length next) (skipn (length pre + 4) b) <> next.
Proof. exists [], [0;0;0;0], [7;0;0;0], None, [1;0;0;0;0;0;0;0]. split; [|split]; [reflexivity|vm_compute; reflexivity|vm_compute; congruence]. Qed.
(** examples/work-steal.c 157, 239, 253: atomic_bool done, one byte. *)
Theorem generic_bool_refuted : exists b, length b = 1%nat /\ generic (OStore 1) b 0 = Undef OobWrite /\ generic OLoad b 0 = Undef OobRead.
Proof. exists [0]. split; [|split]; vm_compute; reflexivity. Qed.
(** 215: a false atomic_bool followed by another object reads as true. *)
Theorem generic_bool_load_refuted : exists next r, generic OLoad (0 :: next) 0 = Ok (Some r, 0 :: next) /\ r <> 0.
Proof. exists [0;0;0;5;0;0;0], 21474836480. split; [vm_compute; reflexivity|lia]. Qed.
(** A four-byte compare and exchange fails although the values agree, and overwrites four bytes behind *expected. *)
Theorem generic_cas_refuted : exists obj next ex en e', length obj = 4%nat /\ obj = ex /\ generic_cas (obj ++ next) 0 (ex ++ en) 0 9 = Ok (false, obj ++ next, e') /\ skipn 4 e' <> en.
Proof. exists [3;0;0;0], [1;0;0;0], [3;0;0;0], [0;0;0;0], [3;0;0;0;1;0;0;0]. split; [|split; [|split]]; [reflexivity|reflexivity|vm_compute; reflexivity|vm_compute; congruence]. Qed.

(** Hypotheses are met: a four-byte counter at 255 followed by other data, add one. *)
Example generic_case : bytes [255;0;0;0] /\ bytes [9;9;9;9] /\ 0 <= argument (OAdd 1) < 256 ^ 4 /\ survives (256 ^ 4) (OAdd 1) 255 151587081 /\
  generic (OAdd 1) ([4] ++ [255;0;0;0] ++ [9;9;9;9] ++ [5]) 1 = Ok (Some (255 + 256 ^ 4 * 151587081), [4;0;1;0;0;9;9;9;9;5]).
Proof. repeat split; try (repeat constructor; unfold byte; lia); cbn; try lia; vm_compute; reflexivity. Qed.
Example generic_carry_case : generic (OAdd 1) ([255;255;255;255] ++ [9;9;9;9]) 0 = Ok (Some (4294967295 + 256 ^ 4 * 151587081), [0;0;0;0;10;9;9;9]) /\ ~ survives (256 ^ 4) (OAdd 1) 4294967295 151587081.
Proof. split; [vm_compute; reflexivity|cbn; lia]. Qed.
Example generic_cas_case : generic_cas [1;2;3;4;5;6;7;8] 0 [1;2;3;4;5;6;7;8] 0 1 = Ok (true, [1;0;0;0;0;0;0;0], [1;2;3;4;5;6;7;8]).
Proof. vm_compute. reflexivity. Qed.

Print Assumptions generic_exact.
Print Assumptions generic_wide_partial.
Print Assumptions generic_neighbours_partial.
Print Assumptions generic_overrun.
Print Assumptions generic_cas_exact.
Print Assumptions generic_store_neighbour_refuted.
Print Assumptions generic_bool_refuted.
Print Assumptions generic_bool_load_refuted.
Print Assumptions generic_cas_refuted.
