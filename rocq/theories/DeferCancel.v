(** Cancelling, firing, allocating. *)
From Verif Require Export DeferProofs.

(** Histories in which every defer was accepted. *)
Lemma defers_count E h : fits E -> Forall wordy h -> forall s l is s', holds s l -> defers E h s = Ok (is, s') ->
  w_elems s' <= zlen l + zlen h /\ (w_elems s' = zlen l + zlen h -> holds s' (l ++ h)).
Proof.
  intros F W s l is s' H D. destruct (defers_ok E F h s l H W) as (is2 & s2 & m & D2 & _ & L & _ & _ & _ & H2 & _).
  rewrite D in D2. injection D2 as <- <-.
  assert (K : forall A (h : list A) m, length m = length h -> (length (kept m h) <= length h)%nat /\ (length (kept m h) = length h -> kept m h = h)).
  { clear. induction h as [|x h IH]; destruct m; cbn; intros; try discriminate; auto.
    injection H as H. destruct (IH m H). destruct b; cbn; split; intros; try lia; f_equal; apply H1; lia. }
  destruct (K _ h m L) as [K1 K2].
  pose proof H2 as (_ & _ & E1 & _). rewrite app_length in E1. split; [lia|].
  intros. rewrite K2 in H2 by lia. exact H2.
Qed.

Lemma defers_app E h1 : forall h2 s,
  defers E (h1 ++ h2) s =
  let* (i1, s1) := defers E h1 s in let* (i2, s2) := defers E h2 s1 in Ok (i1 ++ i2, s2).
Proof.
  induction h1 as [|((f, d), c) h1 IH]; intros; cbn [app defers bind].
  { destruct (defers E h2 s) as [[? ?]| | |]; reflexivity. }
  destruct (raii_deferred_any E f d c s) as [[i s1]| | |]; cbn [bind]; auto. rewrite IH.
  destruct (defers E h1 s1) as [[? ?]| | |]; cbn [bind]; auto.
  destruct (defers E h2 _) as [[? ?]| | |]; cbn [bind]; auto.
Qed.

(** Appends that do not reach the next multiple of 16 leave the block in place. *)
Lemma defers_base E h : fits E -> Forall wordy h -> forall s l is s', holds s l -> defers E h s = Ok (is, s') ->
  w_elems s' = zlen l + zlen h -> (forall k, zlen l <= k < zlen l + zlen h -> k mod 16 <> 0) -> w_base s' = w_base s.
Proof.
  intros F. induction h as [|((f, d), c) h IH]; intros W s l is s' H D C M; cbn [defers] in D.
  { injection D as <- <-. reflexivity. }
  inversion W; subst. cbn [length] in *.
  destruct (deferred_any_ok E f d c s l F H H2) as (i & s1 & E1 & _ & _ & _ & Q). rewrite E1 in D. cbn [bind] in D.
  destruct (defers E h s1) as [[is1 s2]| | |] eqn:D1; try discriminate. cbn [bind] in D. injection D as <- <-.
  destruct Q as [[_ Q]|(Q & _ & B)].
  - pose proof (defers_count E h F H3 _ _ _ _ Q D1) as [? _]. lia.
  - rewrite (IH H3 s1 _ _ _ Q D1).
    + apply B, M; lia.
    + rewrite app_length. cbn [length]. lia.
    + intros k Hk. rewrite app_length in Hk. cbn [length] in Hk. apply M; lia.
Qed.

(** The blocks the allocator gives are 16-byte aligned and in the lower half of the address space. *)
Definition aligned (E : env) : Prop :=
  forall t n, place E t n <> 0 -> place E t n mod 16 = 0 /\ place E t n + n < 9223372036854775808.
Definition base_ok (s : scope) : Prop := w_base s mod 16 = 0 /\ w_base s + zlen (blk s) < 9223372036854775808.

Lemma store64_len s a v s' : store64 s a v = Ok s' -> length (blk s') = length (blk s) /\ w_base s' = w_base s.
Proof.
  unfold store64. destruct (_ && _); [|discriminate].
  destruct (blit (blk s) (a - w_base s) (to_le 8 v)) eqn:B; cbn [bind]; try discriminate.
  intros H. injection H as <-. cbn. split; auto. eapply blit_length; eauto.
Qed.
Lemma append_base E sz s d s' : aligned E -> 0 < sz -> base_ok s -> raii_array_append E sz s = (d, s') -> base_ok s'.
Proof.
  intros A Hs B. unfold raii_array_append, realloc_array.
  destruct (w_elems s mod INCREMENT =? 0).
  - destruct (add_overflow _ _) as [n|]; [|intros H; injection H as <- <-; exact B].
    destruct (umull_overflow n sz) as [t|] eqn:U.
    + destruct (Z.eqb_spec (place E (ticks s) t) 0); cbv beta iota.
      * intros H; injection H as <- <-; exact B.
      * destruct (Z.eqb_spec (place E (ticks s) t) 0); [contradiction|]. intros H; injection H as <- <-.
        assert (0 <= t). { unfold umull_overflow in U. destruct (_ && _); [discriminate|]. injection U as <-. apply u64_range. }
        unfold base_ok. cbn. fold (grown E (ticks s) (blk s) t). rewrite grown_length by lia. apply A; assumption.
    + cbn. intros H; injection H as <- <-; exact B.
  - intros H; injection H as <- <-; exact B.
Qed.
Lemma any_base E f d c s i s' : aligned E -> base_ok s -> raii_deferred_any E f d c s = Ok (i, s') -> base_ok s'.
Proof.
  intros A B. unfold raii_deferred_any. destruct (negb (live s)); [discriminate|].
  destruct (raii_array_append E DEFER_SIZE s) as [a s1] eqn:P.
  pose proof (append_base E DEFER_SIZE s a s1 A ltac:(unfold DEFER_SIZE; lia) B P) as B1.
  destruct (a =? 0). { intros H; injection H as <- <-; exact B1. }
  destruct (store64 s1 (a + 8) f) as [s2| | |] eqn:S1; cbn [bind]; try discriminate. apply store64_len in S1.
  destruct (store64 s2 (a + 16) d) as [s3| | |] eqn:S2; cbn [bind]; try discriminate. apply store64_len in S2.
  destruct (store64 s3 (a + 24) c) as [s4| | |] eqn:S3; cbn [bind]; try discriminate. apply store64_len in S3.
  intros H; injection H as <- <-. unfold base_ok in *.
  destruct S3 as [-> ->], S2 as [-> ->], S1 as [-> ->]. exact B1.
Qed.
Lemma defers_base_ok E h : aligned E -> forall s is s', base_ok s -> defers E h s = Ok (is, s') -> base_ok s'.
Proof.
  intros A. induction h as [|((f, d), c) h IH]; intros s is s' B; cbn [defers].
  { intros H; injection H as <- <-; exact B. }
  destruct (raii_deferred_any E f d c s) as [[i s1]| | |] eqn:D; cbn [bind]; try discriminate.
  destruct (defers E h s1) as [[? ?]| | |] eqn:D1; cbn [bind]; try discriminate.
  intros H; injection H as <- <-. exact (IH s1 _ _ (any_base _ _ _ _ _ _ _ A B D) D1).
Qed.

(** Overwriting func and check of entry [k]. *)
Lemma rep_cancel b b1 b2 l k f d c v : rep b l -> nth_error l k = Some (f, d, c) -> 32 * zlen l <= zlen b -> word v ->
  blit b (32 * Z.of_nat k + 8) (to_le 8 v) = Ok b1 -> blit b1 (32 * Z.of_nat k + 24) (to_le 8 0) = Ok b2 ->
  rep b2 (firstn k l ++ (v, d, 0) :: skipn (Datatypes.S k) l).
Proof.
  intros R K L W B1 B2 j e He.
  assert (Kl : (k < length l)%nat) by (apply nth_error_Some; congruence).
  pose proof (blit_length _ _ _ _ B1) as L1.
  destruct (Nat.eq_dec j k) as [->|Ne].
  - rewrite nth_error_app2 in He by (rewrite firstn_length; lia). rewrite firstn_length, Nat.min_l, Nat.sub_diag in He by lia.
    cbn in He. injection He as <-. destruct (R k _ K) as (X1 & X2 & X3). unfold entry_at in *. cbn [fst snd] in *.
    split; [|split].
    + rewrite (ldw_blit_other _ _ _ _ _ B2); rewrite ?to_le_length; try lia. eapply ldw_blit_same; eauto.
    + rewrite (ldw_blit_other _ _ _ _ _ B2), (ldw_blit_other _ _ _ _ _ B1); rewrite ?to_le_length; lia.
    + eapply ldw_blit_same; eauto. unfold word; lia.
  - assert (Je : nth_error l j = Some e).
    { destruct (Nat.lt_ge_cases j k).
      - rewrite nth_error_app1 in He by (rewrite firstn_length; lia).
        rewrite <- (firstn_skipn k l), nth_error_app1 by (rewrite firstn_length; lia). exact He.
      - rewrite nth_error_app2 in He by (rewrite firstn_length; lia). rewrite firstn_length, Nat.min_l in He by lia.
        replace (j - k)%nat with (Datatypes.S (j - Datatypes.S k)) in He by lia. cbn [nth_error] in He.
        rewrite <- (firstn_skipn (Datatypes.S k) l), nth_error_app2 by (rewrite firstn_length; lia).
        rewrite firstn_length, Nat.min_l by lia. exact He. }
    assert (Jl : (j < length l)%nat) by (apply nth_error_Some; congruence).
    destruct (R j e Je) as (X1 & X2 & X3). unfold entry_at.
    rewrite !(ldw_blit_other _ _ _ _ _ B2), !(ldw_blit_other _ _ _ _ _ B1); rewrite ?to_le_length; auto; lia.
Qed.

Lemma internal_ok s l k f d c : holds s l -> base_ok s -> nth_error l k = Some (f, d, c) -> w_tail s = 0 ->
  zlen l = round_up 8 (Z.of_nat k + 1) ->
  exists s', raii_deferred_internal (w_base s + 32 * Z.of_nat k) s = Ok s' /\ frame s s' /\ trace s' = trace s /\
    w_base s' = w_base s /\ holds s' (firstn k l ++ (CANCELED, d, 0) :: skipn (Datatypes.S k) l).
Proof.
  intros (Hl & Ha & He & Hr) [B1 B2] K Ht Hn.
  assert (Kl : (k < length l)%nat) by (apply nth_error_Some; congruence).
  destruct Ha as (A1 & A2 & A3 & A4). rewrite He in *. destruct A4 as [A4|A4]; [lia|].
  unfold raii_deferred_internal, array_len. rewrite Ht.
  assert (X : get_element s (u64 (0 - 1)) = if zlen l <? 24 then 18446744073709551616 + zlen l - 24 else zlen l - 24).
  { unfold get_element, ARRAY_SIZE. rewrite He. change (u64 (0 - 1)) with 18446744073709551615. unfold u64.
    replace (zlen l + 24 * 18446744073709551615) with (zlen l - 24 + 24 * 18446744073709551616) by lia.
    rewrite Z.mod_add by lia. destruct (Z.ltb_spec (zlen l) 24).
    - replace (zlen l - 24) with (18446744073709551616 + zlen l - 24 + (-1) * 18446744073709551616) by lia.
      rewrite Z.mod_add by lia. apply Z.mod_small. lia.
    - apply Z.mod_small. lia. }
  rewrite X. clear X.
  destruct (Z.eqb_spec (w_base s + 32 * Z.of_nat k) (if zlen l <? 24 then 18446744073709551616 + zlen l - 24 else zlen l - 24)) as [Y|Y].
  { exfalso. unfold round_up in Hn. destruct (Z.ltb_spec (zlen l) 24); lia. }
  rewrite !u64_id by lia.
  destruct (store64_in s (w_base s + 32 * Z.of_nat k + 8) CANCELED ltac:(lia) ltac:(lia)) as (b1 & C1 & ->). cbn [bind].
  pose proof (blit_length _ _ _ _ C1) as L1.
  destruct (store64_in (set_blk b1 s) (w_base s + 32 * Z.of_nat k + 24) 0) as (b2 & C2 & ->); [cbn [set_blk w_base blk]; lia..|].
  cbn [set_blk w_base blk] in C2. pose proof (blit_length _ _ _ _ C2) as L2.
  eexists. split; [reflexivity|]. split; [fr|]. split; [reflexivity|]. split; [reflexivity|].
  assert (Ln : length (firstn k l ++ (CANCELED, d, 0) :: skipn (Datatypes.S k) l) = length l).
  { rewrite app_length. cbn [length]. rewrite firstn_length, skipn_length. lia. }
  split; [exact Hl|]. split. { unfold arr_ok. cbn [set_blk w_elems w_base blk]. rewrite He, L2, L1. repeat split; try lia. }
  split. { cbn [set_blk w_elems]. rewrite Ln. exact He. }
  cbn [set_blk blk]. apply (rep_cancel (blk s) b1 b2 l k f d c CANCELED); auto; try lia.
  - unfold word, CANCELED. lia.
  - rewrite <- C1. f_equal. lia.
  - rewrite <- C2. f_equal. lia.
Qed.

Section History.
  Variables (E : env) (s0 : scope) (h1 h2 : list (Z * Z * Z)) (f d c : Z) (is : list Z) (s : scope) (i : Z).
  Hypothesis F : fits E.
  Hypothesis A : aligned E.
  Hypothesis H0 : holds s0 [].
  Hypothesis B0 : base_ok s0.
  Hypothesis T0 : w_tail s0 = 0.
  Let k := length h1.
  Let l := h1 ++ (f, d, c) :: h2.
  Hypothesis W : Forall wordy l.
  Hypothesis D : defers E l s0 = Ok (is, s).
  Hypothesis C : raii_deferred_count s = zlen l.
  Hypothesis I : nth_error is k = Some i.

  Lemma hist_index : exists s1 s2 i1 i2, defers E h1 s0 = Ok (i1, s1) /\ raii_deferred_any E f d c s1 = Ok (i, s2) /\
    defers E h2 s2 = Ok (i2, s) /\ holds s1 h1 /\ holds s2 (h1 ++ [(f, d, c)]) /\
    i = get_index s2 (w_base s2 + 32 * zlen h1) /\ base_ok s2 /\ holds s l /\ base_ok s /\ w_tail s = 0.
  Proof.
    unfold raii_deferred_count in C. unfold l in *. rewrite defers_app in D.
    apply Forall_app in W. destruct W as [W1 W2]. inversion W2; subst.
    destruct (defers E h1 s0) as [[i1 s1]| | |] eqn:D1; try discriminate. cbn [bind defers] in D.
    destruct (raii_deferred_any E f d c s1) as [[i' s2]| | |] eqn:D2; try discriminate. cbn [bind] in D.
    destruct (defers E h2 s2) as [[i2 s3]| | |] eqn:D3; try discriminate. cbn [bind] in D.
    injection D as Ei Es. subst s3.
    destruct (defers_ok E F h1 s0 [] H0 W1) as (is1 & sx & m & Dx & Lx & _ & Fr1 & _).
    rewrite D1 in Dx. injection Dx as <- <-.
    assert (i' = i). { rewrite <- Ei in I. unfold k in I. rewrite nth_error_app2, Lx, Nat.sub_diag in I by lia. cbn in I. congruence. }
    subst i'.
    pose proof (defers_count E h1 F W1 _ _ _ _ H0 D1) as [N1 Q1]. cbn [length app] in N1, Q1.
    rewrite app_length in C. cbn [length] in C.
    assert (N3 : forall l2, holds s2 l2 -> w_elems s <= zlen l2 + zlen h2).
    { intros l2 Hl2. apply (defers_count E h2 F H3 _ _ _ _ Hl2 D3). }
    assert (Hx : exists lx, holds s1 lx).
    { destruct (defers_ok E F h1 s0 [] H0 W1) as (? & ? & ? & Dx & _ & _ & _ & _ & _ & Hx & _). rewrite D1 in Dx. injection Dx as <- <-. eauto. }
    destruct Hx as (lx & Hx).
    destruct (deferred_any_ok E f d c s1 lx F Hx H2) as (iy & sy & Dy & Fr2 & _ & _ & Q). rewrite D2 in Dy. injection Dy as <- <-.
    pose proof Hx as (_ & _ & Ex & _).
    destruct Q as [[_ Q]|(Q & _)]. { specialize (N3 _ Q). lia. }
    specialize (N3 _ Q). rewrite app_length in N3. cbn [length] in N3.
    assert (Q1' : holds s1 h1) by (apply Q1; lia).
    destruct (deferred_any_ok E f d c s1 h1 F Q1' H2) as (iz & sz & Dz & Fr3 & _ & _ & Qz). rewrite D2 in Dz. injection Dz as <- <-.
    destruct Qz as [[_ Qz]|(Qz1 & Qz2 & _)].
    { pose proof Q as (_ & _ & Eq & _). pose proof Qz as (_ & _ & Eq' & _). rewrite app_length in Eq. cbn [length] in Eq. lia. }
    pose proof (defers_count E h2 F H3 _ _ _ _ Qz1 D3) as [_ Q3].
    assert (Bk1 : base_ok s1) by exact (defers_base_ok E h1 A _ _ _ B0 D1).
    assert (Bk2 : base_ok s2) by exact (any_base _ _ _ _ _ _ _ A Bk1 D2).
    exists s1, s2, i1, i2. repeat (split; [first [assumption | reflexivity] |]).
    split. { rewrite <- app_assoc in Q3. apply Q3. rewrite app_length. cbn [length]. lia. }
    destruct (defers_ok E F h2 s2 _ Qz1 H3) as (? & ? & ? & Dq & _ & _ & Fr4 & _). rewrite D3 in Dq. injection Dq as <- <-.
    split. { exact (defers_base_ok E h2 A _ _ _ Bk2 D3). }
    destruct Fr1 as (_ & _ & _ & _ & X1 & _), Fr2 as (_ & _ & _ & _ & X2 & _), Fr4 as (_ & _ & _ & _ & X4 & _). congruence.
  Qed.

  (** Where the index leads: [b] is where the array was when the function was registered. *)
  Lemma hist_address : exists b, 16 <= b /\ b + 32 * (Z.of_nat k + 1) < 9223372036854775808 /\ zlen l < 288230376151711744 /\
    (zlen l <= round_up 16 (Z.of_nat k + 1) -> b = w_base s) /\
    get_element s i = b + 32 * Z.of_nat k + (zlen l - round_up 8 (Z.of_nat k + 1)).
  Proof.
    destruct hist_index as (s1 & s2 & i1 & i2 & D1 & D2 & D3 & Q1 & Q2 & Ei & B2 & Q3 & B3 & T3).
    assert (Lk : Z.of_nat k = zlen h1) by reflexivity.
    assert (E2 : w_elems s2 = Z.of_nat k + 1). { destruct Q2 as (_ & _ & -> & _). rewrite app_length. cbn [length]. lia. }
    assert (E3 : w_elems s = zlen l) by apply C.
    assert (Ll : zlen l = zlen h1 + 1 + zlen h2). { unfold l. rewrite app_length. cbn [length]. lia. }
    assert (Bs : zlen l <= round_up 16 (Z.of_nat k + 1) -> w_base s = w_base s2).
    { intros N. apply Forall_app in W. destruct W as [_ W2]. inversion W2; subst.
      apply (defers_base E h2 F H3 s2 _ _ _ Q2 D3).
      - rewrite app_length. cbn [length]. lia.
      - intros j Hj. rewrite app_length in Hj. cbn [length] in Hj. unfold round_up in N. lia. }
    destruct B2 as [Ba Bb]. pose proof Q2 as (_ & (A1 & A2 & A3 & A4) & _). destruct A4 as [A4|A4]; [lia|].
    destruct B3 as [Bc Bd]. pose proof Q3 as (_ & (A5 & A6 & A7 & A8) & _). destruct A8 as [A8|A8]; [lia|].
    exists (w_base s2). split; [lia|]. split; [lia|]. split; [lia|]. split; [intros N; symmetry; auto|].
    rewrite Ei, <- Lk.
    assert (Y : w_elems s + (w_base s2 + 32 * Z.of_nat k - w_elems s2) - (w_base s2 + 32 * Z.of_nat k - w_elems s2) mod 8 =
                w_base s2 + 32 * Z.of_nat k + (zlen l - round_up 8 (Z.of_nat k + 1))).
    { rewrite E2, E3. unfold round_up. clear - Ba. lia. }
    assert (R8 : round_up 8 (Z.of_nat k + 1) <= Z.of_nat k + 8) by (unfold round_up; lia).
    assert (R8' : Z.of_nat k + 1 <= round_up 8 (Z.of_nat k + 1)) by (unfold round_up; lia).
    rewrite element_of_index; rewrite ?Y; unfold word; try lia.
  Qed.

  Hypothesis N : zlen l = round_up 8 (Z.of_nat k + 1).

  Lemma hist_element : get_element s i = w_base s + 32 * Z.of_nat k /\ holds s l /\ base_ok s /\ w_tail s = 0 /\
    nth_error l k = Some (f, d, c).
  Proof.
    destruct hist_index as (s1 & s2 & i1 & i2 & D1 & D2 & D3 & Q1 & Q2 & Ei & B2 & Q3 & B3 & T3).
    split; [|split; [exact Q3|split; [exact B3|split; [exact T3|]]]].
    2:{ unfold l, k. rewrite nth_error_app2, Nat.sub_diag by lia. reflexivity. }
    assert (Lk : Z.of_nat k = zlen h1) by reflexivity.
    assert (E2 : w_elems s2 = Z.of_nat k + 1). { destruct Q2 as (_ & _ & -> & _). rewrite app_length. cbn [length]. lia. }
    assert (E3 : w_elems s = zlen l) by apply C.
    assert (Ll : zlen l = zlen h1 + 1 + zlen h2). { unfold l. rewrite app_length. cbn [length]. lia. }
    assert (Bs : w_base s = w_base s2).
    { apply Forall_app in W. destruct W as [_ W2]. inversion W2; subst.
      apply (defers_base E h2 F H3 s2 _ _ _ Q2 D3).
      - rewrite app_length. cbn [length]. lia.
      - intros j Hj. rewrite app_length in Hj. cbn [length] in Hj. unfold round_up in N. lia. }
    destruct B2 as [Ba Bb]. destruct Q2 as (_ & (A1 & A2 & A3 & A4) & _).
    destruct A4 as [A4|A4]; [lia|].
    rewrite Ei, <- Lk. 
    assert (Y : w_elems s + (w_base s2 + 32 * Z.of_nat k - w_elems s2) - (w_base s2 + 32 * Z.of_nat k - w_elems s2) mod 8 = w_base s2 + 32 * Z.of_nat k).
    { rewrite E2, E3, N. unfold round_up. clear - Ba. lia. }
    rewrite element_of_index; rewrite ?Y; unfold word; try lia.
  Qed.

  Lemma cancel_ok : exists s', raii_deferred_cancel i s = Ok s' /\ frame s s' /\ trace s' = trace s /\ w_base s' = w_base s /\
    holds s' (h1 ++ (CANCELED, d, 0) :: h2).
  Proof.
    destruct hist_element as (G & Q & B & T & K).
    destruct (internal_ok s l k f d c Q B K T N) as (s' & E1 & E2 & E3 & E4 & E5).
    exists s'. unfold raii_deferred_cancel. destruct Q as (-> & _). cbn [negb]. rewrite G.
    repeat (split; [assumption|]).
    unfold l, k in E5. rewrite firstn_app, firstn_all, Nat.sub_diag in E5. cbn [firstn] in E5. rewrite app_nil_r in E5.
    rewrite skipn_app, skipn_all2 in E5 by lia. replace (Datatypes.S (length h1) - length h1)%nat with 1%nat in E5 by lia.
    cbn [skipn app] in E5. exact E5.
  Qed.

  Lemma fire_ok : isfn E f = true -> act E f d = [] ->
    exists s', raii_deferred_fire E i s = Ok s' /\ frame s s' /\ trace s' = trace s ++ [Call f d] /\ w_base s' = w_base s /\
    holds s' (h1 ++ (CANCELED, d, 0) :: h2).
  Proof.
    intros Hf Hact. destruct hist_element as (G & Q & B & T & K).
    assert (Kl : (k < length l)%nat) by (apply nth_error_Some; congruence).
    assert (Q' : holds (emit (Call f d) s) l) by exact Q.
    destruct (internal_ok (emit (Call f d) s) l k f d c Q' B K T N) as (s' & E1 & E2 & E3 & E4 & E5).
    exists s'. unfold raii_deferred_fire. destruct Q as (L & (A1 & A2 & A3 & A4) & Ee & R). rewrite L. cbn [negb]. rewrite G.
    rewrite Ee in A2. destruct B as [Ba Bb]. rewrite !u64_id by lia. rewrite !load64_in by lia. cbn [bind].
    destruct (R k _ K) as (X1 & X2 & X3). cbn [fst snd] in *.
    replace (w_base s + 32 * Z.of_nat k + 8 - w_base s) with (32 * Z.of_nat k + 8) by lia.
    replace (w_base s + 32 * Z.of_nat k + 16 - w_base s) with (32 * Z.of_nat k + 16) by lia.
    rewrite X1, X2. unfold call. rewrite Hf, Hact. cbn [perform bind]. change (w_base (emit (Call f d) s)) with (w_base s) in E1. rewrite E1.
    repeat (split; [first [assumption|reflexivity]|]).
    unfold l, k in E5. rewrite firstn_app, firstn_all, Nat.sub_diag in E5. cbn [firstn] in E5. rewrite app_nil_r in E5.
    rewrite skipn_app, skipn_all2 in E5 by lia. replace (Datatypes.S (length h1) - length h1)%nat with 1%nat in E5 by lia.
    cbn [skipn app] in E5. exact E5.
  Qed.
End History.

(** ** allocations *)
Definition pending (s : scope) (l : list (Z * Z * Z)) : Prop :=
  holds s l /\ w_type s = RAII_DEF_ARR /\ (protector s <> None -> l <> []).

Lemma holds_count s l l' : holds s l -> holds s l' -> zlen l = zlen l'.
Proof. intros (_ & _ & A & _) (_ & _ & B & _). congruence. Qed.

Definition op_word (o : op) : Prop :=
  match o with Defer f d c => wordy (f, d, c) | Alloc sz f => 0 < sz /\ word f end.
Definition strip (e : Z * Z * Z) : Z * Z := fst e.

Lemma holds_prot po cs a b l s : holds (set_flags a b (set_prot po cs s)) l <-> holds s l.
Proof. unfold holds, arr_ok. cbn. tauto. Qed.
Lemma holds_tick s l : holds (tick s) l <-> holds s l.
Proof. unfold holds, arr_ok. cbn. tauto. Qed.
Lemma holds_mid m s l : holds (set_mid m s) l <-> holds s l.
Proof. unfold holds, arr_ok. cbn. tauto. Qed.

Lemma malloc_full_ok E size func s l : fits E -> holds s l -> 0 < size -> word func ->
  (exists s1, malloc_full E size func s = Ok (None, s1)) \/ malloc_full E size func s = Panics \/
  (exists a s1, malloc_full E size func s = Ok (Some a, s1) /\ 0 < a /\ w_type s1 = w_type s /\ trace s1 = trace s /\
     (holds s1 l \/ holds s1 (l ++ [(func, a, 0)]))).
Proof.
  intros F H Hs Wf. unfold malloc_full.
  set (a := place E (ticks s) size).
  assert (Ha : a = 0 \/ (0 < a /\ a + size < 18446744073709551616)) by (apply F; auto).
  destruct (Z.eqb_spec a 0) as [|Na]; [left; eauto|]. destruct Ha as [|[Ha1 Ha2]]; [contradiction|].
  assert (G : forall p s2, holds s2 l -> w_type s2 = w_type s -> trace s2 = trace s ->
    exists s1, (let* (m, s4) := raii_deferred E func a (set_flags (is_recovered s2) true (ex_protect_ptr p a func s2)) in Ok (Some a, set_mid m s4)) = Ok (Some a, s1) /\
      w_type s1 = w_type s /\ trace s1 = trace s /\ (holds s1 l \/ holds s1 (l ++ [(func, a, 0)]))).
  { intros p s2 H2 T2 R2. unfold raii_deferred.
    destruct (deferred_any_ok E func a 0 (set_flags (is_recovered s2) true (ex_protect_ptr p a func s2)) l F) as (i & s3 & -> & Fr & Tr & _ & Q).
    - apply holds_prot. auto.
    - unfold wordy, word; cbn [fst snd]. unfold word in Wf. lia.
    - cbn [bind]. eexists. split; [reflexivity|]. destruct Fr as (_ & _ & _ & Ft & _). cbn [set_mid w_type trace].
      split. { rewrite Ft. exact T2. } split. { rewrite Tr. exact R2. }
      rewrite !holds_mid. tauto. }
  cbn [tick protector]. destruct (protector s) as [p|] eqn:Ep; cbn [bind].
  - right. right. destruct (G (p_addr p) (tick s)) as (s1 & E1 & G1 & G2 & G3); [apply holds_tick; auto|reflexivity..|].
    rewrite E1. eauto 10.
  - destruct (Z.eqb_spec (place E (ticks (tick s)) 32) 0); [right; left; reflexivity|]. cbn [bind].
    right. right. destruct (G (place E (ticks (tick s)) 32) (tick (tick s))) as (s1 & E1 & G1 & G2 & G3);
      [rewrite !holds_tick; auto|reflexivity..|]. rewrite E1. eauto 10.
Qed.

Lemma run_ops_ok E : fits E -> forall ops s l r s', holds s l -> Forall op_word ops ->
  run_ops E ops s = Ok (r, s') ->
  exists l', holds s' l' /\ w_type s' = w_type s /\ trace s' = trace s /\ zlen l' <= zlen l + zlen ops /\
    (zlen l' = zlen l + zlen ops -> exists l2, l' = l ++ l2 /\ map strip l2 = r).
Proof.
  intros F. induction ops as [|o ops IH]; intros s l r s' H W R; cbn [run_ops] in R.
  { injection R as <- <-. exists l. repeat (split; [first [assumption|reflexivity|cbn; lia]|]). intros. exists []. rewrite app_nil_r. auto. }
  inversion W; subst. destruct o as [f d c|sz f]; cbn [op_word] in *; cbn [length].
  - destruct (deferred_any_ok E f d c s l F H H2) as (i & s1 & E1 & Fr & T & _ & Q). rewrite E1 in R. cbn [bind] in R.
    destruct (run_ops E ops s1) as [[r1 s2]| | |] eqn:R1; try discriminate. cbn [bind] in R. injection R as <- <-.
    assert (Ft : w_type s1 = w_type s) by apply Fr.
    destruct Q as [[_ Q]|(Q & _)].
    + destruct (IH s1 l _ _ Q H3 R1) as (l' & A1 & A2 & A3 & A4 & A5). exists l'.
      repeat (split; [first [assumption|congruence|lia]|]). intros. lia.
    + destruct (IH s1 _ _ _ Q H3 R1) as (l' & A1 & A2 & A3 & A4 & A5). rewrite app_length in *. cbn [length] in *. exists l'.
      repeat (split; [first [assumption|congruence|lia]|]). intros X. destruct (A5 ltac:(lia)) as (l2 & -> & <-).
      exists ((f, d, c) :: l2). rewrite <- app_assoc. split; reflexivity.
  - destruct (malloc_full_ok E sz f s l F H ltac:(tauto) ltac:(tauto)) as [(s1 & E1)|[E1|(a & s1 & E1 & Pa & Ft & T & Q)]];
      rewrite E1 in R; cbn [bind] in R; try discriminate.
    destruct (run_ops E ops s1) as [[r1 s2]| | |] eqn:R1; try discriminate. cbn [bind] in R. injection R as <- <-.
    destruct Q as [Q|Q].
    + destruct (IH s1 l _ _ Q H3 R1) as (l' & A1 & A2 & A3 & A4 & A5). exists l'.
      repeat (split; [first [assumption|congruence|lia]|]). intros. lia.
    + destruct (IH s1 _ _ _ Q H3 R1) as (l' & A1 & A2 & A3 & A4 & A5). rewrite app_length in *. cbn [length] in *. exists l'.
      repeat (split; [first [assumption|congruence|lia]|]). intros X. destruct (A5 ltac:(lia)) as (l2 & -> & <-).
      exists ((f, a, 0) :: l2). rewrite <- app_assoc. split; reflexivity.
Qed.

Lemma run_ops_nil_protector E ops s r s' : run_ops E ops s = Ok (r, s') -> ops = [] -> s' = s.
Proof. intros R ->. cbn in R. congruence. Qed.

Lemma release_ops E user ops a st n r s er pa : fits E -> Forall op_word ops ->
  run_ops E ops (unique_init a st n) = Ok (r, s) -> raii_deferred_count s = zlen ops ->
  Forall (fun p => isfn E (fst p) = true /\ act E (fst p) (snd p) = []) r ->
  exists s', raii_deferred_free E user (set_err er pa s) = Ok s' /\
    trace s' = map (fun p => Call (fst p) (snd p)) (rev r) ++ (prot_free s ++ freed (w_base s)) /\ released s'.
Proof.
  intros F W R C Q. set (s0 := unique_init a st n) in *.
  assert (H0 : holds s0 []) by (apply holds_init; reflexivity).
  destruct (run_ops_ok E F ops s0 [] r s H0 W R) as (l & Hl & Ht & Tr & Le & X).
  assert (zlen l = zlen ops). { destruct Hl as (_ & _ & <- & _). exact C. }
  destruct (X ltac:(cbn [length]; lia)) as (l2 & El & Er). cbn [app] in El. subst l.
  assert (Hl' : holds (set_err er pa s) l2) by exact Hl.
  destruct (free_ok E user (set_err er pa s) l2 Hl') as (s' & E1 & T1 & Rel & _).
  - cbn [set_err w_type]. rewrite Ht. reflexivity.
  - subst r. clear - Q. induction l2; constructor; inversion Q; subst; auto.
  - intros ->. right. right. destruct ops; [|cbn [length] in *; lia]. apply run_ops_nil_protector in R; auto. rewrite R. reflexivity.
  - exists s'. split; [exact E1|].
    split. { rewrite T1. cbn [set_err trace w_base]. rewrite Tr. cbn [s0 unique_init raii_deferred_init set_blk set_words trace app].
      f_equal. rewrite <- Er, <- map_rev, map_map. reflexivity. }
    exact Rel.
Qed.
