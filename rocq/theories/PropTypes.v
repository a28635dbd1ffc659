(** The macros of include/rtypes.h. *)
From Verif Require Import BaseLemmas TypesModel.
Import ListNotations.

(** A type of C. *)
Definition c_type (t : ty) : Prop := In (width t) [8; 16; 32; 64].
(** A value of its type. *)
Definition c_value (a : tv) : Prop := c_type (type a) /\ fits (type a) (val a) = true.
Lemma fits_wrap t x : c_type t -> fits t x = true -> wrap t x = x.
Proof.
  intros C F. unfold fits, wrap in *. assert (W : 2 ^ width t = 2 * 2 ^ (width t - 1)) by (cbn in C; decompose [or] C; try contradiction; match goal with H : _ = width t |- _ => rewrite <- H; reflexivity end). assert (0 < 2 ^ (width t - 1)) by (apply Z.pow_pos_nonneg; cbn in C; lia).
  rewrite W in *. destruct (signed t); cbn [andb].
  - destruct (Z.leb_spec 0 x).
    + rewrite Z.mod_small by lia. destruct (Z.leb_spec (2 ^ (width t - 1)) x); [lia|reflexivity].
    + rewrite <- (Z.mod_add x 1) by lia. rewrite Z.mod_small by lia. destruct (Z.leb_spec (2 ^ (width t - 1)) (x + 1 * (2 * 2 ^ (width t - 1)))); lia.
  - apply Z.mod_small. lia.
Qed.
Lemma arith_fits t x : c_type t -> fits t x = true -> arith t x = Ok (Tv t x).
Proof. intros C F. unfold arith. rewrite F. rewrite fits_wrap by assumption. destruct (signed t); reflexivity. Qed.
Lemma promote_type t : c_type t -> c_type (promote t) /\ 32 <= width (promote t).
Proof. intros C. unfold promote. destruct (Z.ltb_spec (width t) 32); [split; [right; right; left; reflexivity|cbn; lia]|split; [exact C|lia]]. Qed.
Lemma common_type a b : c_type a -> c_type b -> c_type (common a b) /\ 32 <= width (common a b) /\ width (promote a) <= width (common a b) /\ width (promote b) <= width (common a b).
Proof.
  intros A B. destruct (promote_type a A) as (PA & WA). destruct (promote_type b B) as (PB & WB). unfold common. destruct (Z.eqb_spec (width (promote a)) (width (promote b))) as [E|E]; [unfold c_type; cbn [width]; repeat split; auto; lia|].
  destruct (Z.ltb_spec (width (promote a)) (width (promote b))); repeat split; auto; lia.
Qed.
Lemma pow_le a b : 0 <= a <= b -> 2 ^ a <= 2 ^ b.
Proof. intros. apply Z.pow_le_mono_r; lia. Qed.
(** A value that is not negative keeps its value under promotion and under every usual conversion. *)
Lemma fits_promote t x : c_type t -> fits t x = true -> fits (promote t) x = true.
Proof.
  intros C F. unfold promote. destruct (Z.ltb_spec (width t) 32); [|exact F]. unfold fits in *. cbn [int_ signed width]. change (2 ^ (32 - 1)) with 2147483648.
  assert (B : 2 ^ width t <= 65536 /\ 2 ^ (width t - 1) <= 65536) by (cbn in C; decompose [or] C; try contradiction; match goal with H' : _ = width t |- _ => rewrite <- H' in * end; cbn; lia). destruct (signed t); lia.
Qed.
Lemma fits_common a b x : c_type a -> c_type b -> 0 <= x -> fits a x = true -> fits (common a b) x = true /\ fits (common b a) x = true.
Proof.
  intros A B P F. apply fits_promote in F; [|exact A]. destruct (promote_type a A) as (PA & WA). destruct (promote_type b B) as (PB & WB). unfold common.
  assert (G : forall t u, c_type t -> c_type u -> width t < width u -> fits t x = true -> fits u x = true).
  { intros t u Ct Cu L F1. unfold fits in *. assert (2 ^ width t <= 2 ^ (width u - 1)) by (apply pow_le; cbn in Ct; lia). assert (2 ^ (width t - 1) <= 2 ^ width t) by (apply pow_le; cbn in Ct; lia). assert (2 ^ (width u - 1) <= 2 ^ width u) by (apply pow_le; cbn in Ct; lia).
    destruct (signed t), (signed u); lia. }
  assert (S : forall s, fits (Ty (width (promote a)) (signed (promote a) && s)) x = true).
  { intros s. unfold fits in *. cbn [signed width]. assert (2 ^ (width (promote a) - 1) <= 2 ^ width (promote a)) by (apply pow_le; lia). destruct (signed (promote a)), s; cbn [andb]; lia. }
  destruct (Z.eqb_spec (width (promote a)) (width (promote b))) as [E|E].
  - rewrite E, Z.eqb_refl. rewrite <- E. split; [apply S|]. rewrite andb_comm. apply S.
  - rewrite (Z.eqb_sym (width (promote b))). destruct (Z.eqb_spec (width (promote a)) (width (promote b))); [contradiction|]. destruct (Z.ltb_spec (width (promote a)) (width (promote b))), (Z.ltb_spec (width (promote b)) (width (promote a))); try lia.
    + split; apply (G (promote a)); assumption.
    + split; exact F.
Qed.
Lemma common_int t : c_type t -> common t int_ = promote t.
Proof.
  intros C. destruct (promote_type _ C) as (PC & PW). unfold common. change (promote int_) with int_. cbn [int_ width signed].
  destruct (Z.eqb_spec (width (promote t)) 32) as [e|e]; [rewrite andb_true_r; destruct (promote t); reflexivity|]. destruct (Z.ltb_spec (width (promote t)) 32); [lia|reflexivity].
Qed.
Lemma minus_one a : c_value a -> 0 < val a -> binary Z.sub a (const 1) = Ok (Tv (promote (type a)) (val a - 1)) /\ fits (promote (type a)) (val a - 1) = true.
Proof.
  intros (C & F) P. assert (CI : c_type int_) by (right; right; left; reflexivity). destruct (promote_type _ C) as (PC & PW). pose proof (fits_promote _ _ C F) as FP.
  pose proof (common_int _ C) as T.
  assert (F1 : fits (promote (type a)) (val a - 1) = true) by (unfold fits in *; destruct (signed (promote (type a))); lia).
  split; [|exact F1]. unfold binary. cbn [const type val]. rewrite T. rewrite (fits_wrap _ (val a)) by assumption.
  assert (F2 : fits (promote (type a)) 1 = true) by (assert (2 ^ 31 <= 2 ^ (width (promote (type a)) - 1)) by (apply pow_le; lia); assert (2 ^ (width (promote (type a)) - 1) <= 2 ^ width (promote (type a))) by (apply pow_le; lia); change (2 ^ 31) with 2147483648 in *; unfold fits; destruct (signed (promote (type a))); lia).
  rewrite (fits_wrap _ 1) by assumption. apply arith_fits; assumption.
Qed.
(** The value of [~(align - 1)] after its conversion. *)
Lemma mask_value t u k : c_type t -> c_type u -> 32 <= width t <= width u -> 0 <= k < width t ->
  wrap u (val (bit_not (Tv t (2 ^ k - 1)))) mod 2 ^ width u = (if signed t || (width t =? width u) then 2 ^ width u - 2 ^ k else 2 ^ width t - 2 ^ k).
Proof.
  intros Ct Cu (W1 & W2) K. assert (PT : promote t = t) by (unfold promote; destruct (Z.ltb_spec (width t) 32); [lia|reflexivity]). unfold bit_not. cbn [type val]. rewrite PT.
  assert (PK : 0 < 2 ^ k) by (apply Z.pow_pos_nonneg; lia). assert (KT : 2 ^ k <= 2 ^ width t) by (apply pow_le; lia). assert (TU : 2 ^ width t <= 2 ^ width u) by (apply pow_le; lia). assert (UP : 0 < 2 ^ width u) by lia.
  assert (M : forall x, wrap u x mod 2 ^ width u = x mod 2 ^ width u).
  { intros x. unfold wrap. destruct (signed u && _); [|apply Z.mod_mod; lia]. replace (x mod 2 ^ width u - 2 ^ width u) with (x mod 2 ^ width u + -1 * 2 ^ width u) by lia. rewrite Z.mod_add by lia. apply Z.mod_mod. lia. }
  rewrite M. assert (LN : Z.lnot (2 ^ k - 1) = - 2 ^ k) by (unfold Z.lnot; lia). rewrite LN. destruct (signed t) eqn:ST; cbn [orb].
  - rewrite <- (Z.mod_add _ 1) by lia. rewrite Z.mod_small; lia.
  - unfold wrap. rewrite ST. cbn [andb]. rewrite <- (Z.mod_add (- 2 ^ k) 1) by lia. rewrite (Z.mod_small (- 2 ^ k + 1 * 2 ^ width t)) by lia. rewrite Z.mod_small by lia. destruct (Z.eqb_spec (width t) (width u)) as [e|e]; [rewrite e; lia|lia].
Qed.
Lemma land_mask x k w : 0 <= k <= w -> 0 <= x < 2 ^ w -> Z.land x (2 ^ w - 2 ^ k) = x - x mod 2 ^ k.
Proof.
  intros K X. assert (E : 2 ^ w - 2 ^ k = Z.shiftl (Z.ones (w - k)) k). { rewrite Z.shiftl_mul_pow2, Z.ones_equiv by lia. unfold Z.pred. rewrite Z.mul_add_distr_r, <- Z.pow_add_r by lia. replace (w - k + k) with w by lia. lia. }
  rewrite E. assert (D : x - x mod 2 ^ k = Z.shiftl (Z.shiftr x k) k). { rewrite Z.shiftl_mul_pow2, Z.shiftr_div_pow2 by lia. pose proof (Z.div_mod x (2 ^ k) ltac:(apply Z.pow_nonzero; lia)). lia. }
  rewrite D. apply Z.bits_inj'. intros i Hi. rewrite Z.land_spec, !Z.shiftl_spec by lia. destruct (Z_lt_le_dec i k) as [L|L]; [rewrite !(Z.testbit_neg_r _ (i - k)) by lia; apply andb_false_r|].
  rewrite Z.shiftr_spec by lia. replace (i - k + k) with i by lia. destruct (Z_lt_le_dec i w) as [L2|L2]; [rewrite Z.ones_spec_low by lia; apply andb_true_r|].
  rewrite Z.ones_spec_high by lia. rewrite andb_false_r. symmetry. destruct (Z.eq_dec x 0) as [-> |NZ]; [apply Z.bits_0|]. apply Z.bits_above_log2; [lia|]. apply Z.lt_le_trans with w; [|lia]. apply Z.log2_lt_pow2; lia.
Qed.
Lemma land_mod x y w : 0 <= w -> 0 <= x < 2 ^ w -> Z.land x y = Z.land x (y mod 2 ^ w).
Proof. intros W X. rewrite <- (Z.land_ones y) by lia. rewrite (Z.land_comm y), Z.land_assoc, Z.land_ones, Z.mod_small by lia. reflexivity. Qed.
Lemma promote_promote t : c_type t -> promote (promote t) = promote t.
Proof. intros C. destruct (promote_type t C) as (_ & W). unfold promote at 1. destruct (Z.ltb_spec (width (promote t)) 32); [lia|reflexivity]. Qed.
Lemma common_absorb a b : c_type a -> c_type b -> common (common a b) b = common a b.
Proof.
  intros A B. destruct (common_type a b A B) as (C & W & _ & WB). unfold common at 1. assert (P : promote (common a b) = common a b) by (unfold promote; destruct (Z.ltb_spec (width (common a b)) 32); [lia|reflexivity]). rewrite P.
  destruct (Z.eqb_spec (width (common a b)) (width (promote b))) as [E|E]; [|destruct (Z.ltb_spec (width (common a b)) (width (promote b))); [lia|reflexivity]].
  revert E. unfold common. destruct (Z.eqb_spec (width (promote a)) (width (promote b))) as [E2|E2]; cbn [width signed].
  - intros _. rewrite <- andb_assoc, andb_diag. reflexivity.
  - destruct (Z.ltb_spec (width (promote a)) (width (promote b))); intros E; [rewrite andb_diag; destruct (promote b); reflexivity|contradiction].
Qed.

(** What rounding up to a multiple means. *)
Definition least_multiple (align num r : Z) : Prop := r mod align = 0 /\ num <= r < num + align.
(** The type of the result. *)
Definition result_type (num align : tv) : ty := common (type num) (promote (type align)).
(** The mask keeps the high bits: [align] is signed after promotion, or as wide as the result. *)
Definition mask_wide (num align : tv) : bool := signed (promote (type align)) || (width (promote (type align)) =? width (result_type num align)).
Lemma round_least k n : 0 <= k -> 0 <= n -> least_multiple (2 ^ k) n (n + 2 ^ k - 1 - (n + 2 ^ k - 1) mod 2 ^ k).
Proof.
  intros K N. assert (P : 0 < 2 ^ k) by (apply Z.pow_pos_nonneg; lia). pose proof (Z.mod_pos_bound (n + 2 ^ k - 1) _ P). split; [|lia].
  pose proof (Z.div_mod (n + 2 ^ k - 1) (2 ^ k) ltac:(lia)) as D. replace (n + 2 ^ k - 1 - (n + 2 ^ k - 1) mod 2 ^ k) with ((n + 2 ^ k - 1) / 2 ^ k * 2 ^ k) by lia. apply Z.mod_mul. lia.
Qed.
Lemma exponent_bound t k : c_type t -> 0 <= k -> fits t (2 ^ k) = true -> k < width t.
Proof.
  intros C K F. apply (Z.pow_lt_mono_r_iff 2); [lia|cbn in C; lia|]. unfold fits in F. assert (2 ^ (width t - 1) < 2 ^ width t) by (apply Z.pow_lt_mono_r; cbn in C; lia). destruct (signed t); lia.
Qed.
(** The steps up to the mask. *)
Lemma align_up_steps n a k x : c_value n -> c_value a -> 0 <= k -> val a = 2 ^ k -> 0 <= val n ->
  arith (result_type n a) (val n + 2 ^ k - 1) = Ok (Tv (result_type n a) x) -> 0 <= x -> fits (result_type n a) x = true ->
  align_up n a = Ok (Tv (result_type n a) (if mask_wide n a then x - x mod 2 ^ k else x mod 2 ^ width (promote (type a)) - x mod 2 ^ k)).
Proof.
  intros Vn Va K A N R X FX. destruct Vn as (Cn & Fn). pose proof Va as (Ca & Fa). assert (P : 0 < 2 ^ k) by (apply Z.pow_pos_nonneg; lia). destruct (minus_one a Va ltac:(lia)) as (M & FM). unfold align_up. rewrite M. cbn [bind].
  set (pa := promote (type a)) in *. destruct (promote_type _ Ca) as (Cp & Wp). fold pa in Cp, Wp. pose proof (promote_promote _ Ca) as PP. fold pa in PP.
  set (C := result_type n a) in *. assert (CE : C = common (type n) pa) by reflexivity. destruct (common_type (type n) pa Cn Cp) as (CC & CW & _ & CP). rewrite <- CE in CC, CW, CP. rewrite PP in CP.
  unfold binary at 1. cbn [type val]. rewrite <- CE. assert (F1 : fits C (val n) = true) by (rewrite CE; apply (fits_common (type n) pa); assumption). assert (F2 : fits C (val a - 1) = true) by (rewrite CE; apply (fits_common pa (type n)); [assumption|assumption|lia|exact FM]).
  rewrite (fits_wrap C (val n)), (fits_wrap C (val a - 1)) by assumption. replace (val n + (val a - 1)) with (val n + 2 ^ k - 1) by lia. rewrite R. cbn [bind]. unfold binary. cbn [type].
  assert (BT : type (bit_not (Tv pa (val a - 1))) = pa) by (unfold bit_not; cbn [type]; exact PP). rewrite BT. cbn [val].
  assert (AB : common C pa = C) by (rewrite CE; apply common_absorb; assumption). rewrite AB. rewrite (fits_wrap C x) by assumption.
  assert (KB : k < width pa) by (apply exponent_bound; [exact Cp|exact K|rewrite <- A; apply fits_promote; assumption]).
  assert (XB : 0 <= x < 2 ^ width C) by (unfold fits in FX; assert (2 ^ (width C - 1) <= 2 ^ width C) by (apply pow_le; lia); destruct (signed C); lia).
  assert (G : Z.land x (wrap C (val (bit_not (Tv pa (val a - 1))))) = (if mask_wide n a then x - x mod 2 ^ k else x mod 2 ^ width pa - x mod 2 ^ k)).
  { rewrite (land_mod x _ (width C)) by lia. rewrite A. rewrite mask_value by (first [assumption | lia]). unfold mask_wide. fold pa C. destruct (signed pa || (width pa =? width C)); [apply land_mask; lia|].
    assert (PW : 0 < 2 ^ width pa) by (apply Z.pow_pos_nonneg; lia). assert (KP : 2 ^ k <= 2 ^ width pa) by (apply pow_le; lia). pose proof (Z.mod_pos_bound x (2 ^ width pa) PW).
    assert (L : Z.land x (2 ^ width pa - 2 ^ k) = Z.land (x mod 2 ^ width pa) (2 ^ width pa - 2 ^ k)).
    { rewrite <- (Z.land_ones x) by lia. rewrite <- Z.land_assoc. f_equal. rewrite Z.land_comm, Z.land_ones by lia. rewrite Z.mod_small by lia. reflexivity. }
    rewrite L, land_mask by lia. f_equal. replace (width pa) with (k + (width pa - k)) by lia. rewrite Z.pow_add_r by lia. rewrite Z.rem_mul_r by (try apply Z.pow_nonzero; try apply Z.pow_pos_nonneg; lia). rewrite Z.mul_comm, Z.mod_add by lia. apply Z.mod_mod. lia. }
  rewrite G. apply arith_fits; [exact CC|]. set (r := if mask_wide n a then _ else _). assert (RB : 0 <= r <= x). { subst r. clear G. destruct (mask_wide n a).
    - pose proof (Z.mod_pos_bound x _ P). pose proof (Z.mod_le x (2 ^ k) ltac:(lia) P). lia.
    - assert (PW : 0 < 2 ^ width pa) by (apply Z.pow_pos_nonneg; lia). pose proof (Z.mod_le x (2 ^ width pa) ltac:(lia) PW). pose proof (Z.mod_pos_bound x _ P). pose proof (Z.mod_pos_bound x _ PW).
      replace (x mod 2 ^ k) with ((x mod 2 ^ width pa) mod 2 ^ k). { pose proof (Z.mod_le (x mod 2 ^ width pa) (2 ^ k) ltac:(lia) P). pose proof (Z.mod_pos_bound (x mod 2 ^ width pa) _ P). lia. }
      replace (width pa) with (k + (width pa - k)) by lia. rewrite Z.pow_add_r by lia. rewrite Z.rem_mul_r by (try apply Z.pow_nonzero; try apply Z.pow_pos_nonneg; lia). rewrite Z.mul_comm, Z.mod_add by lia. apply Z.mod_mod. lia. }
  unfold fits in *. destruct (signed C); lia.
Qed.

(** C135, what fitting a type means: N2176 6.2.5 and 6.2.6.2, two's complement; the least value of a signed type fits. *)
Theorem fits_range : forall t x, c_type t -> (fits t x = true <-> if signed t then - 2 ^ (width t - 1) <= x <= 2 ^ (width t - 1) - 1 else 0 <= x <= 2 ^ width t - 1).
Proof. intros t x _. unfold fits. destruct (signed t); lia. Qed.
(** The least value of int. *)
Example fits_least : fits (Ty 32 true) (-2147483648) = true /\ fits (Ty 32 true) (-2147483649) = false /\ c_type (Ty 32 true).
Proof. repeat split. right. right. left. reflexivity. Qed.

(** C135: with an alignment that is a power of two, a number that is not negative, and a sum that fits the type of the result, align_up gives the least multiple not below the
    number - if the alignment is signed after promotion or as wide as the result. *)
Theorem align_up_least : forall n a k, c_value n -> c_value a -> 0 <= k -> val a = 2 ^ k -> 0 <= val n -> fits (result_type n a) (val n + val a - 1) = true -> mask_wide n a = true ->
  exists r, align_up n a = Ok (Tv (result_type n a) r) /\ least_multiple (val a) (val n) r.
Proof.
  intros n a k Vn Va K A N F W. assert (P : 0 < 2 ^ k) by (apply Z.pow_pos_nonneg; lia). rewrite A in F. rewrite A. exists (val n + 2 ^ k - 1 - (val n + 2 ^ k - 1) mod 2 ^ k). split.
  - rewrite (align_up_steps n a k (val n + 2 ^ k - 1)); [rewrite W; reflexivity|exact Vn|exact Va|exact K|exact A|exact N| |lia|exact F]. apply arith_fits; [|exact F]. apply common_type; [apply Vn|apply promote_type; apply Va].
  - apply round_least; assumption.
Qed.
(** C135: otherwise, a number of 64 bits and an unsigned alignment of 32 bits, the multiple is cut to its low 32 bits. *)
Theorem align_up_cut : forall n a k, c_value n -> c_value a -> 0 <= k -> val a = 2 ^ k -> 0 <= val n -> fits (result_type n a) (val n + val a - 1) = true -> mask_wide n a = false ->
  width (type n) = 64 /\ type a = Ty 32 false /\ exists r, align_up n a = Ok (Tv (result_type n a) (r mod 2 ^ 32)) /\ least_multiple (val a) (val n) r.
Proof.
  intros n a k Vn Va K A N F W. assert (P : 0 < 2 ^ k) by (apply Z.pow_pos_nonneg; lia).
  assert (T : width (type n) = 64 /\ type a = Ty 32 false).
  { clear F. destruct Vn as (Cn & _), Va as (Ca & _). unfold mask_wide, result_type in W. destruct (type n) as [wn sn], (type a) as [wa sa]. unfold c_type in Cn, Ca. cbn [width In] in Cn, Ca.
    decompose [or] Cn; try contradiction; decompose [or] Ca; try contradiction; subst; destruct sn, sa; vm_compute in W; try discriminate W; split; reflexivity. }
  destruct T as (TN & TA). split; [exact TN|]. split; [exact TA|]. rewrite A in F. rewrite A. exists (val n + 2 ^ k - 1 - (val n + 2 ^ k - 1) mod 2 ^ k). split; [|apply round_least; assumption].
  assert (KB : k < 32). { destruct Va as (Ca & Fa). rewrite A, TA in Fa. apply (exponent_bound (Ty 32 false)); [rewrite <- TA; exact Ca|exact K|exact Fa]. }
  rewrite (align_up_steps n a k (val n + 2 ^ k - 1)); [rewrite W, TA|exact Vn|exact Va|exact K|exact A|exact N| |lia|exact F].
  - change (width (promote (Ty 32 false))) with 32. f_equal. f_equal. set (x := val n + 2 ^ k - 1). assert (S : 2 ^ 32 = 2 ^ k * 2 ^ (32 - k)) by (rewrite <- Z.pow_add_r by lia; f_equal; lia). assert (Q : 0 < 2 ^ (32 - k)) by (apply Z.pow_pos_nonneg; lia).
    pose proof (Z.div_mod x (2 ^ k) ltac:(lia)) as D. replace (x - x mod 2 ^ k) with (2 ^ k * (x / 2 ^ k)) by lia. rewrite S. rewrite Z.mul_mod_distr_l by lia. rewrite Z.rem_mul_r by lia. lia.
  - apply arith_fits; [|exact F]. apply common_type; [apply Vn|apply promote_type; apply Va].
Qed.
(** C135: a sum that does not fit is undefined in a signed type and gives 0 in an unsigned one. *)
Theorem align_up_overflow : forall n a k, c_value n -> c_value a -> 0 <= k -> val a = 2 ^ k -> 0 <= val n -> fits (result_type n a) (val n + val a - 1) = false ->
  align_up n a = if signed (result_type n a) then Undef SignedOverflow else Ok (Tv (result_type n a) 0).
Proof.
  intros n a k Vn Va K A N F. assert (P : 0 < 2 ^ k) by (apply Z.pow_pos_nonneg; lia). pose proof Vn as (Cn & Fn). pose proof Va as (Ca & Fa). destruct (promote_type _ Ca) as (Cp & Wp). destruct (minus_one a Va ltac:(lia)) as (M & FM).
  destruct (common_type (type n) (promote (type a)) Cn Cp) as (CC & CW & _ & CP). fold (result_type n a) in CC, CW, CP. rewrite (promote_promote _ Ca) in CP. set (C := result_type n a) in *.
  assert (F1 : fits C (val n) = true) by (apply (fits_common (type n) (promote (type a))); assumption). assert (F2 : fits C (val a - 1) = true) by (apply (fits_common (promote (type a)) (type n)); [assumption|assumption|lia|exact FM]).
  destruct (signed C) eqn:S.
  - unfold align_up. rewrite M. cbn [bind]. unfold binary at 1. cbn [type val]. fold (result_type n a). fold C. rewrite (fits_wrap C (val n)), (fits_wrap C (val a - 1)) by assumption. unfold arith. rewrite S. replace (val n + (val a - 1)) with (val n + val a - 1) by lia. rewrite F. reflexivity.
  - rewrite A in F, F2. set (x := val n + 2 ^ k - 1) in *. assert (B : 2 ^ width C <= x < 2 ^ width C + 2 ^ k - 1) by (unfold fits in F, F1, F2; rewrite S in F, F1, F2; lia).
    assert (KB : k < width (promote (type a))) by (apply exponent_bound; [exact Cp|exact K|rewrite <- A; apply fits_promote; [exact Ca|exact Fa]]).
    assert (KC : 2 ^ k <= 2 ^ width C) by (apply pow_le; lia). assert (KP : 2 ^ k <= 2 ^ width (promote (type a))) by (apply pow_le; lia).
    assert (X : wrap C x = x - 2 ^ width C). { unfold wrap. rewrite S. cbn [andb]. rewrite <- (Z.mod_add x (-1)) by lia. rewrite Z.mod_small; lia. }
    rewrite (align_up_steps n a k (x - 2 ^ width C)); [|exact Vn|exact Va|exact K|exact A|exact N| |lia|].
    + f_equal. f_equal. rewrite !Z.mod_small by lia. destruct (mask_wide n a); lia.
    + fold C. fold x. unfold arith. rewrite S, X. reflexivity.
    + fold C. unfold fits. rewrite S. lia.
Qed.
(** C135 is refuted: a 64-bit size of 4 GiB and 1 rounded up to 8 of type unsigned int gives 8. *)
Theorem align_up_refuted : exists n a k, c_value n /\ c_value a /\ val a = 2 ^ k /\ 0 <= k /\ 0 <= val n /\ fits (result_type n a) (val n + val a - 1) = true /\ align_up n a = Ok (Tv u64_ 8) /\ ~ least_multiple (val a) (val n) 8.
Proof.
  exists (Tv u64_ 4294967297), (Tv (Ty 32 false) 8), 3. split; [split; [vm_compute; tauto|reflexivity]|]. split; [split; [vm_compute; tauto|reflexivity]|]. repeat (split; [vm_compute; first [reflexivity|discriminate]|]). intros (_ & L & _). vm_compute in L. apply L. reflexivity.
Qed.
(** The calls of src/arena.c 52: a size_t and sizeof(u16); an int and an int; the largest size; an alignment that is no power of two. *)
Example align_up_runs : align_up (Tv u64_ 4294967297) (Tv u64_ 2) = Ok (Tv u64_ 4294967298) /\ align_up (Tv int_ 13) (Tv int_ 8) = Ok (Tv int_ 16) /\ align_up (Tv u64_ (2 ^ 64 - 1)) (Tv u64_ 8) = Ok (Tv u64_ 0) /\
  align_up (Tv int_ (2 ^ 31 - 1)) (Tv int_ 8) = Undef SignedOverflow /\ align_up (Tv u64_ 4294967297) (Tv int_ 8) = Ok (Tv u64_ 4294967304) /\ align_up (Tv int_ 5) (Tv int_ 3) = Ok (Tv int_ 5).
Proof. repeat split. Qed.
(** The hypotheses hold of a size_t and sizeof(u16). *)
Example align_up_least_holds : exists r, align_up (Tv u64_ 4294967297) (Tv u64_ 2) = Ok (Tv u64_ r) /\ least_multiple 2 4294967297 r.
Proof. apply (align_up_least (Tv u64_ 4294967297) (Tv u64_ 2) 1); first [split; [vm_compute; tauto|reflexivity] | reflexivity | vm_compute; discriminate]. Qed.
(** … of 4 GiB and 1 with an alignment of type unsigned int. *)
Example align_up_cut_holds : exists r, align_up (Tv u64_ 4294967297) (Tv (Ty 32 false) 8) = Ok (Tv u64_ (r mod 2 ^ 32)) /\ least_multiple 8 4294967297 r.
Proof. apply (align_up_cut (Tv u64_ 4294967297) (Tv (Ty 32 false) 8) 3); first [split; [vm_compute; tauto|reflexivity] | reflexivity | vm_compute; discriminate]. Qed.
(** … of the greatest size. *)
Example align_up_overflow_holds : align_up (Tv u64_ (2 ^ 64 - 1)) (Tv u64_ 8) = Ok (Tv u64_ 0).
Proof. apply (align_up_overflow (Tv u64_ (2 ^ 64 - 1)) (Tv u64_ 8) 3); first [split; [vm_compute; tauto|reflexivity] | reflexivity | vm_compute; discriminate]. Qed.

Lemma fits_1024 t : c_type t -> 32 <= width t -> fits t 1024 = true.
Proof. intros C W. assert (2 ^ 31 <= 2 ^ (width t - 1)) by (apply pow_le; lia). assert (2 ^ (width t - 1) <= 2 ^ width t) by (apply pow_le; lia). change (2 ^ 31) with 2147483648 in *. unfold fits. destruct (signed t); lia. Qed.
Lemma times_step a : c_type (type a) -> fits (promote (type a)) (val a) = true -> binary Z.mul a (const 1024) = arith (promote (type a)) (val a * 1024).
Proof.
  intros C F. unfold binary. cbn [const type val]. rewrite common_int by exact C. destruct (promote_type _ C) as (P & W). rewrite (fits_wrap _ (val a)), (fits_wrap _ 1024) by (first [assumption | apply fits_1024; assumption]). reflexivity.
Qed.
Lemma times_exact k : forall t n, c_type t -> fits t n = true -> (0 < k)%nat ->
  times_1024 k (Tv t n) = if signed (promote t) then if fits (promote t) (n * 1024 ^ Z.of_nat k) then Ok (Tv (promote t) (n * 1024 ^ Z.of_nat k)) else Undef SignedOverflow else Ok (Tv (promote t) ((n * 1024 ^ Z.of_nat k) mod 2 ^ width (promote t))).
Proof.
  induction k as [|k IH]; [lia|]. intros t n C F _. cbn [times_1024]. rewrite times_step by (first [exact C | apply fits_promote; assumption]). cbn [type val]. destruct (promote_type t C) as (P & W). pose proof (promote_promote t C) as PP.
  assert (E : 1024 ^ Z.of_nat (S k) = 1024 * 1024 ^ Z.of_nat k) by (rewrite Nat2Z.inj_succ, Z.pow_succ_r by lia; reflexivity). rewrite E. assert (Q : 1 <= 1024 ^ Z.of_nat k) by (pose proof (Z.pow_pos_nonneg 1024 (Z.of_nat k)); lia).
  unfold arith. destruct (signed (promote t)) eqn:S.
  - destruct (fits (promote t) (n * 1024)) eqn:F2; cbn [bind].
    + destruct k as [|k]; [cbn [times_1024]; change (1024 * 1024 ^ Z.of_nat 0) with 1024; rewrite F2; reflexivity|]. rewrite IH by (first [assumption | lia]). rewrite PP, S. rewrite Z.mul_assoc. reflexivity.
    + assert (G : fits (promote t) (n * (1024 * 1024 ^ Z.of_nat k)) = false). { unfold fits in *. rewrite S in *. assert (0 < 2 ^ (width (promote t) - 1)) by (apply Z.pow_pos_nonneg; lia). nia. }
      rewrite G. reflexivity.
  - cbn [bind]. assert (WP : wrap (promote t) (n * 1024) = (n * 1024) mod 2 ^ width (promote t)) by (unfold wrap; rewrite S; reflexivity). rewrite WP. assert (0 < 2 ^ width (promote t)) by (apply Z.pow_pos_nonneg; lia).
    destruct k as [|k]; [reflexivity|]. rewrite IH; [|exact P| |lia]. 2: { unfold fits. rewrite S. pose proof (Z.mod_pos_bound (n * 1024) (2 ^ width (promote t))). lia. }
    rewrite PP, S. rewrite Z.mul_mod_idemp_l by lia. rewrite Z.mul_assoc. reflexivity.
Qed.
(** C136: Kb, Mb and Gb of one number, of any type: the product is formed in the promoted type of the number. In a signed type it must fit, or the behaviour is undefined; in an
    unsigned type it is cut to the width. *)
Theorem size_macro_exact : forall k t n, c_type t -> fits t n = true -> (0 < k)%nat ->
  size_macro k [Tv t n] = if signed (promote t) then if fits (promote t) (n * 1024 ^ Z.of_nat k) then Ok ((n * 1024 ^ Z.of_nat k) mod 2 ^ 64) else Undef SignedOverflow else Ok ((n * 1024 ^ Z.of_nat k) mod 2 ^ width (promote t)).
Proof.
  intros k t n C F K. unfold size_macro. cbn [scaled_sum]. rewrite times_exact by assumption. destruct (promote_type t C) as (P & W). destruct (signed (promote t)).
  - destruct (fits (promote t) _); reflexivity.
  - cbn [bind val]. f_equal. unfold wrap. cbn [u64_ signed width andb]. apply Z.mod_small. assert (0 < 2 ^ width (promote t)) by (apply Z.pow_pos_nonneg; lia). pose proof (Z.mod_pos_bound (n * 1024 ^ Z.of_nat k) (2 ^ width (promote t))). assert (2 ^ width (promote t) <= 2 ^ 64) by (apply pow_le; cbn in P; lia). lia.
Qed.
(** C136: so a number that is not negative and whose product fits its promoted type gives the size. *)
Theorem size_macro_ok : forall k t n, c_type t -> fits t n = true -> (0 < k)%nat -> 0 <= n -> fits (promote t) (n * 1024 ^ Z.of_nat k) = true -> size_macro k [Tv t n] = Ok (n * 1024 ^ Z.of_nat k).
Proof.
  intros k t n C F K N G. rewrite size_macro_exact, G by assumption. destruct (promote_type t C) as (P & W). assert (0 <= n * 1024 ^ Z.of_nat k) by (pose proof (Z.pow_nonneg 1024 (Z.of_nat k)); nia).
  unfold fits in G. assert (2 ^ width (promote t) <= 2 ^ 64) by (apply pow_le; cbn in P; lia). assert (2 ^ (width (promote t) - 1) <= 2 ^ width (promote t)) by (apply pow_le; lia).
  destruct (signed (promote t)); f_equal; apply Z.mod_small; lia.
Qed.
(** The terms of a sum. *)
Definition total (l : list Z) : Z := fold_right Z.add 0 l.
Lemma mod64 x : wrap u64_ x = x mod 2 ^ 64.
Proof. reflexivity. Qed.
Lemma add_u64 x y : binary Z.add (Tv u64_ x) (Tv u64_ y) = Ok (Tv u64_ ((x + y) mod 2 ^ 64)).
Proof. unfold binary. cbn [type val]. change (common u64_ u64_) with u64_. unfold arith. cbn [u64_ signed]. fold u64_. rewrite !mod64. rewrite <- Z.add_mod by (vm_compute; discriminate). reflexivity. Qed.
Lemma scaled_u64 k : forall l acc t, (0 < k)%nat -> fits u64_ t = true -> scaled_sum k (Some (Tv u64_ acc)) (map (Tv u64_) (l ++ [t])) = Ok (Tv u64_ ((acc + total l + t * 1024 ^ Z.of_nat k) mod 2 ^ 64)).
Proof.
  induction l as [|x l IH]; intros acc t K F.
  - cbn [app map scaled_sum]. rewrite times_exact by (first [assumption | right; right; right; left; reflexivity]). change (promote u64_) with u64_. cbn [u64_ signed width bind]. fold u64_. rewrite add_u64. rewrite Z.add_mod_idemp_r by (vm_compute; discriminate). cbn [total fold_right]. rewrite Z.add_0_r. reflexivity.
  - cbn [app map]. assert (E : exists y m, map (Tv u64_) (l ++ [t]) = y :: m) by (destruct l; cbn; eauto). destruct E as (y & m & E). cbn [scaled_sum]. rewrite E. rewrite <- E. rewrite add_u64. cbn [bind]. rewrite IH by assumption. do 2 f_equal.
    change (total (x :: l)) with (x + total l). rewrite <- !Z.add_assoc. rewrite Z.add_mod_idemp_l by (vm_compute; discriminate). f_equal. lia.
Qed.
(** C136: of a sum written without parentheses only the last term is multiplied. *)
Theorem size_macro_sum : forall k x l t, (0 < k)%nat -> fits u64_ t = true -> size_macro k (map (Tv u64_) (x :: l ++ [t])) = Ok ((x + total l + t * 1024 ^ Z.of_nat k) mod 2 ^ 64).
Proof.
  intros k x l t K F. unfold size_macro. cbn [map]. assert (E : exists y m, map (Tv u64_) (l ++ [t]) = y :: m) by (destruct l; cbn; eauto). destruct E as (y & m & E). cbn [scaled_sum]. rewrite E. rewrite <- E. cbn [bind]. rewrite scaled_u64 by assumption. cbn [bind val]. rewrite mod64, Z.mod_mod by (vm_compute; discriminate). reflexivity.
Qed.
(** C136 is refuted: Gb(2) overflows int, Gb(4u) is 0, Kb(-1) is nearly 2^64 and Kb(1 + 1) is 1025. *)
Theorem size_macro_refuted : exists n u neg, size_macro 3 [Tv int_ n] = Undef SignedOverflow /\ n = 2 /\ size_macro 3 [Tv (Ty 32 false) u] = Ok 0 /\ u = 4 /\ size_macro 1 [Tv int_ neg] = Ok (2 ^ 64 - 1024) /\ neg = -1 /\
  size_macro 1 [const 1; const 1] = Ok 1025.
Proof. exists 2, 4, (-1). repeat split. Qed.
(** The greatest counts of type int that work. *)
Example size_macro_runs : size_macro 3 [const 1] = Ok (2 ^ 30) /\ size_macro 2 [const 2047] = Ok (2047 * 2 ^ 20) /\ size_macro 2 [const 2048] = Undef SignedOverflow /\ size_macro 1 [const 2097151] = Ok (2097151 * 1024) /\ size_macro 1 [const 2097152] = Undef SignedOverflow /\
  size_macro 3 [Tv u64_ 2] = Ok (2 ^ 31) /\ size_macro 1 [Tv (Ty 8 false) 255] = Ok 261120.
Proof. repeat split. Qed.
(** The hypotheses of the sum. *)
Example size_macro_sum_holds : size_macro 2 (map (Tv u64_) [3; 4; 5]) = Ok (3 + 4 + 5 * 2 ^ 20).
Proof. apply (size_macro_sum 2 3 [4] 5); [lia|reflexivity]. Qed.
(** … of one number. *)
Example size_macro_ok_holds : size_macro 2 [Tv (Ty 16 false) 2047] = Ok (2047 * 1024 ^ 2).
Proof. apply (size_macro_ok 2 (Ty 16 false) 2047); first [lia | reflexivity | vm_compute; tauto]. Qed.

Print Assumptions align_up_least.
Print Assumptions align_up_cut.
Print Assumptions align_up_overflow.
Print Assumptions align_up_refuted.
Print Assumptions size_macro_exact.
Print Assumptions size_macro_ok.
Print Assumptions size_macro_sum.
Print Assumptions size_macro_refuted.
Print Assumptions fits_range.
