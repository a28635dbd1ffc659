(** Releases whose deferred functions defer again (raii.c 395-443): what the loop does with them. *)
From Verif Require Import DeferCancel.

(** Everything the functions of [l] defer while they are being called. *)
Definition nested (E : env) (l : list (Z * Z * Z)) : list (Z * Z * Z) :=
  flat_map (fun e => act E (fst (fst e)) (snd (fst e))) l.
(** Functions that can be called and defer whatever they like. *)
Definition busy (E : env) (e : Z * Z * Z) : Prop :=
  isfn E (fst (fst e)) = true /\ Forall wordy (act E (fst (fst e)) (snd (fst e))).

Lemma append_where E sz s : let '(_, s1) := raii_array_append E sz s in
  (ticks s <= ticks s1)%nat /\ (w_base s1 = w_base s \/ exists t n, (ticks s <= t)%nat /\ w_base s1 = place E t n).
Proof.
  unfold raii_array_append, realloc_array.
  destruct (w_elems s mod INCREMENT =? 0); [|cbn; auto]. destruct (add_overflow _ _); [|auto].
  destruct (umull_overflow _ _) as [n|]; [|cbn; auto]. cbv zeta. destruct (place E (ticks s) n =? 0) eqn:C; [cbn; auto|].
  rewrite C. cbn. split; [lia|]. right. eauto.
Qed.
Lemma any_where E f d c s i s' : raii_deferred_any E f d c s = Ok (i, s') ->
  let '(_, s1) := raii_array_append E DEFER_SIZE s in w_base s' = w_base s1 /\ ticks s' = ticks s1.
Proof.
  assert (K : forall s a v s2, store64 s a v = Ok s2 -> ticks s2 = ticks s).
  { clear. intros s a v s2. unfold store64. destruct (_ && _); [|discriminate]. destruct (blit _ _ _); try discriminate. intros [= <-]. reflexivity. }
  unfold raii_deferred_any. destruct (negb (live s)); [discriminate|]. destruct (raii_array_append E DEFER_SIZE s) as [a s1].
  destruct (a =? 0); [intros [= _ <-]; auto|].
  destruct (store64 s1 (a + 8) f) as [s2| | |] eqn:E1; try discriminate. cbn [bind].
  destruct (store64 s2 (a + 16) d) as [s3| | |] eqn:E2; try discriminate. cbn [bind].
  destruct (store64 s3 (a + 24) c) as [s4| | |] eqn:E3; try discriminate. cbn [bind]. intros [= _ <-].
  rewrite (K _ _ _ _ E3), (K _ _ _ _ E2), (K _ _ _ _ E1).
  apply store64_len in E1, E2, E3. destruct E1, E2, E3. split; congruence.
Qed.
Lemma append_grow E s : fits E -> arr_ok 32 s -> w_elems s mod 16 = 0 ->
  (forall t, place E t (32 * (w_elems s + 16)) <> 0) ->
  let '(_, s1) := raii_array_append E DEFER_SIZE s in exists t n, (ticks s <= t)%nat /\ w_base s1 = place E t n.
Proof.
  intros F (H0 & H1 & H2 & H3) M P.
  pose proof (F (ticks s) (32 * (w_elems s + 16)) ltac:(lia)) as Ft. specialize (P (ticks s)).
  destruct Ft as [|[F1 F2]]; [contradiction|].
  unfold raii_array_append. change (w_elems s mod INCREMENT) with (w_elems s mod 16). rewrite M, Z.eqb_refl.
  rewrite add_exact by (unfold word; lia).
  destruct (Z.ltb_spec (w_elems s + 16) 18446744073709551616); [|lia].
  unfold realloc_array. rewrite umull_exact by (unfold word, DEFER_SIZE; lia). change DEFER_SIZE with 32.
  destruct (Z.ltb_spec ((w_elems s + 16) * 32) 18446744073709551616); [|lia].
  rewrite (Z.mul_comm (w_elems s + 16) 32). cbv zeta.
  destruct (Z.eqb_spec (place E (ticks s) (32 * (w_elems s + 16))) 0); [contradiction|].
  destruct (Z.eqb_spec (place E (ticks s) (32 * (w_elems s + 16))) 0); [contradiction|]. cbn. eauto.
Qed.
Lemma append_room E s : arr_ok 32 s -> w_elems s mod 16 <> 0 -> fst (raii_array_append E DEFER_SIZE s) <> 0.
Proof.
  intros (H0 & H1 & H2 & H3) M. unfold raii_array_append. change (w_elems s mod INCREMENT) with (w_elems s mod 16).
  destruct (Z.eqb_spec (w_elems s mod 16) 0); [contradiction|]. cbn [fst]. change DEFER_SIZE with 32.
  destruct H3 as [(? & A & _)|[]]; [rewrite A in M; contradiction M; reflexivity|]. rewrite u64_id; lia.
Qed.

(** One nested defer. *)
Lemma nested_one E f d c s l : fits E -> holds s l -> wordy (f, d, c) ->
  exists i s' b, raii_deferred_any E f d c s = Ok (i, s') /\ frame s s' /\ trace s' = trace s /\
    is_recovered s' = is_recovered s /\ holds s' (l ++ kept [b] [(f, d, c)]) /\
    (zlen l mod 16 <> 0 -> w_base s' = w_base s /\ b = true) /\
    (ticks s <= ticks s')%nat /\ (w_base s' = w_base s \/ exists t n, (ticks s <= t)%nat /\ w_base s' = place E t n) /\
    (zlen l mod 16 = 0 -> (forall t, place E t (32 * (zlen l + 16)) <> 0) -> exists t n, (ticks s <= t)%nat /\ w_base s' = place E t n).
Proof.
  intros F H W. destruct (deferred_any_ok E f d c s l F H W) as (i & s' & E1 & Fr & T & Rc & Q).
  pose proof (any_where _ _ _ _ _ _ _ E1) as Ab. pose proof (append_where E DEFER_SIZE s) as Bb.
  pose proof (append_grow E s F (proj1 (proj2 H))) as G. pose proof (append_room E s (proj1 (proj2 H))) as R.
  pose proof H as (Hl & _ & He & _). rewrite He in G, R.
  unfold raii_deferred_any in E1. destruct (raii_array_append E DEFER_SIZE s) as [a s1] eqn:Ea. cbn [fst] in R. destruct Ab as [Ab At], Bb as [Bt Bb].
  exists i, s'. destruct Q as [[Q1 Q2]|(Q1 & Q2 & Q3)].
  - exists false. cbn [kept]. rewrite app_nil_r. split. { unfold raii_deferred_any. rewrite Ea. exact E1. }
    do 4 (split; [assumption|]). rewrite Ab, At. split; [|split; [assumption|split; [assumption|]]].
    + intros M. exfalso. specialize (R M). rewrite Hl in E1. cbn [negb] in E1. destruct (Z.eqb_spec a 0); [contradiction|].
      (* the stores succeed, so the count went up *)
      assert (X : w_elems s1 = zlen l + 1).
      { unfold raii_array_append in Ea. change (w_elems s mod INCREMENT) with (w_elems s mod 16) in Ea. rewrite He in Ea.
        destruct (Z.eqb_spec (zlen l mod 16) 0); [contradiction|]. injection Ea as _ <-. cbn.
        destruct H as (_ & (A0 & A1 & _ & A2) & _). rewrite He in *. rewrite u64_id; [reflexivity|].
        destruct A2 as [(_ & A2 & _)|[A2 A3]]; lia. }
      destruct Q2 as (_ & _ & Q2 & _).
      assert (Y : w_elems s' = w_elems s1).
      { clear - E1.
        assert (K : forall s a v s2, store64 s a v = Ok s2 -> w_elems s2 = w_elems s).
        { clear. intros s a v s2. unfold store64. destruct (_ && _); [|discriminate]. destruct (blit _ _ _); try discriminate. intros [= <-]. reflexivity. }
        destruct (store64 s1 (a + 8) f) as [s2| | |] eqn:S1; try discriminate. cbn [bind] in E1.
        destruct (store64 s2 (a + 16) d) as [s3| | |] eqn:S2; try discriminate. cbn [bind] in E1.
        destruct (store64 s3 (a + 24) c) as [s4| | |] eqn:S3; try discriminate. cbn [bind] in E1. injection E1 as _ <-.
        rewrite (K _ _ _ _ S3), (K _ _ _ _ S2), (K _ _ _ _ S1). reflexivity. }
      lia.
    + intros M P. apply G; auto.
  - exists true. cbn [kept]. split. { unfold raii_deferred_any. rewrite Ea. exact E1. }
    do 4 (split; [assumption|]). rewrite Ab, At. rewrite Ab in Q3. auto 6.
Qed.

Lemma perform_ok E : fits E -> forall a s l, holds s l -> Forall wordy a ->
  exists s' m, perform E a s = Ok s' /\ frame s s' /\ trace s' = trace s /\ is_recovered s' = is_recovered s /\
    holds s' (l ++ kept m a) /\
    (ticks s <= ticks s')%nat /\ (w_base s' = w_base s \/ exists t n, (ticks s <= t)%nat /\ w_base s' = place E t n) /\
    (0 < zlen l -> zlen l + zlen a <= round_up 16 (zlen l) -> w_base s' = w_base s /\ kept m a = a) /\
    (round_up 16 (zlen l) < zlen l + zlen a -> (forall t, place E t (32 * (round_up 16 (zlen l) + 16)) <> 0) ->
       exists t n, (ticks s <= t)%nat /\ w_base s' = place E t n).
Proof.
  intros F. induction a as [|((f, d), c) a IH]; intros s l H W.
  { exists s, []. cbn [perform kept length]. rewrite app_nil_r. do 5 (split; [auto|]). split; [lia|]. split; [auto|]. split; [auto|].
    intros X. pose proof (round_up_ge (zlen l)). lia. }
  inversion W as [|? ? W1 W2]; subst. cbn [perform].
  destruct (nested_one E f d c s l F H W1) as (i & s1 & b & -> & Fr & T & Rc & H1 & R1 & R0 & R2 & R3). cbn [bind].
  destruct (IH s1 _ H1 W2) as (s' & m & -> & Fr' & T' & Rc' & H' & B0 & B' & C' & D').
  exists s', (b :: m). split; [reflexivity|].
  assert (Kb : kept (b :: m) ((f, d, c) :: a) = kept [b] [(f, d, c)] ++ kept m a) by (destruct b; reflexivity).
  rewrite Kb. rewrite <- app_assoc in H'.
  split; [eapply frame_trans; eassumption|]. split; [congruence|]. split; [congruence|]. split; [assumption|].
  split; [lia|].
  assert (BB : w_base s' = w_base s1 \/ (exists t n, (ticks s <= t)%nat /\ w_base s' = place E t n)).
  { destruct B' as [? | (t & n & ? & ?)]; auto. right. exists t, n. split; [lia|assumption]. }
  split. { destruct BB as [-> | ?]; auto. }
  cbn [length].
  split.
  - intros L0 Cap. assert (M : zlen l mod 16 <> 0).
    { intros M. destruct (round_up_mult (zlen l) ltac:(lia) M). lia. }
    destruct (R1 M) as [Rb ->]. cbn [kept] in *. rewrite app_length in C'. cbn [length] in C'.
    pose proof (round_up_step (zlen l) ltac:(lia) M) as Rs.
    destruct C' as [C1 C2]. lia. { replace (Z.of_nat (length l + 1)) with (zlen l + 1) by lia. lia. }
    rewrite C2. split; [congruence|reflexivity].
  - intros Cap Pl. destruct (Z.eq_dec (zlen l mod 16) 0) as [M|M].
    + destruct (round_up_mult (zlen l) ltac:(lia) M) as [Ru _]. rewrite Ru in Pl.
      destruct (R3 M Pl) as (t & n & Rt). destruct BB as [-> | ?]; eauto.
    + destruct (R1 M) as [Rb ->]. cbn [kept] in *. rewrite app_length in D'. cbn [length] in D'.
      pose proof (round_up_step (zlen l) ltac:(lia) M) as Rs.
      replace (Z.of_nat (length l + 1)) with (zlen l + 1) in D' by lia. rewrite Rs in D'.
      destruct D' as (t & n & ? & ?); auto. lia. exists t, n. split; [lia|assumption].
Qed.

Lemma clear_data s l e t : holds s (l ++ e :: t) ->
  exists s', store64 s (w_base s + zlen l * 32 + 16) 0 = Ok s' /\ holds s' (l ++ (fst (fst e), 0, snd e) :: t) /\
    frame s s' /\ trace s' = trace s /\ w_base s' = w_base s /\ w_elems s' = w_elems s /\ ticks s' = ticks s.
Proof.
  intros (Hl & (A0 & A1 & A2 & A3) & He & Hr). rewrite app_length in He. cbn [length] in He.
  destruct (store64_in s (w_base s + zlen l * 32 + 16) 0) as (b1 & B1 & ->); [lia..|].
  replace (w_base s + zlen l * 32 + 16 - w_base s) with (32 * zlen l + 16) in B1 by lia.
  pose proof (blit_length _ _ _ _ B1) as L1.
  eexists. split; [reflexivity|]. split; [|repeat split].
  split; [assumption|]. split. { unfold arr_ok. cbn. rewrite L1. repeat split; auto. destruct A3 as [(? & ? & ->)|?]; auto. lia. }
  split. { cbn. rewrite app_length. cbn [length]. assumption. }
  cbn [set_blk blk]. intros k x Hk.
  destruct (Nat.lt_trichotomy k (length l)) as [L|[L|L]].
  - rewrite nth_error_app1 in Hk by auto. destruct (Hr k x) as (X1 & X2 & X3). { rewrite nth_error_app1; auto. }
    unfold entry_at. rewrite !(ldw_blit_other _ _ _ _ _ B1); rewrite ?to_le_length; auto; lia.
  - subst k. rewrite nth_error_app2, Nat.sub_diag in Hk by lia. injection Hk as <-.
    destruct (Hr (length l) e) as (X1 & X2 & X3). { rewrite nth_error_app2, Nat.sub_diag; auto. }
    unfold entry_at. cbn [fst snd]. split; [|split].
    + rewrite (ldw_blit_other _ _ _ _ _ B1); rewrite ?to_le_length; auto; lia.
    + eapply ldw_blit_same; eauto. unfold word; lia.
    + rewrite (ldw_blit_other _ _ _ _ _ B1); rewrite ?to_le_length; auto; lia.
  - assert (Hk' : nth_error (l ++ e :: t) k = Some x).
    { rewrite nth_error_app2 in * by lia. destruct (k - length l)%nat eqn:Ek; [lia|]. exact Hk. }
    assert (Kb : (k < length (l ++ e :: t))%nat) by (apply nth_error_Some; congruence). rewrite app_length in Kb. cbn [length] in Kb.
    destruct (Hr k x Hk') as (X1 & X2 & X3).
    unfold entry_at. rewrite !(ldw_blit_other _ _ _ _ _ B1); rewrite ?to_le_length; auto; lia.
Qed.

(** The loop over the oldest entries [l] when [t] are stored behind them. *)
Lemma run_loop_busy E : fits E -> forall l s t, holds s (l ++ t) -> Forall (busy E) l ->
  let r := run_loop E (w_base s) (length l) s in
  (r = Undef UseAfterFree \/
   exists s' t', r = Ok s' /\ frame s s' /\ trace s' = trace s ++ map called (rev l) /\ w_base s' = w_base s /\ holds s' t') /\
  (0 < zlen (l ++ t) -> zlen (l ++ t) + zlen (nested E l) <= round_up 16 (zlen (l ++ t)) -> r <> Undef UseAfterFree) /\
  (round_up 16 (zlen (l ++ t)) < zlen (l ++ t) + zlen (nested E l) ->
   (forall i, place E i (32 * (round_up 16 (zlen (l ++ t)) + 16)) <> 0) -> (forall i n, (ticks s <= i)%nat -> place E i n <> w_base s) ->
   r = Undef UseAfterFree).
Proof.
  intros F. induction l as [|e l IH] using rev_ind; intros s t H Hq r.
  { subst r. cbn. split; [|split]. - right. exists s, t. cbn. rewrite app_nil_r. cbn in H. do 4 (split; [auto|]). assumption.
    - discriminate. - pose proof (round_up_ge (zlen t)). lia. }
  apply Forall_app in Hq. destruct Hq as [Hq Hq1]. inversion Hq1 as [|? ? [Q1 Q2] _]; subst.
  subst r. rewrite <- app_assoc in *. cbn [app] in *. rewrite (app_length l [e]). cbn [length]. rewrite Nat.add_1_r. cbn [run_loop].
  rewrite Z.eqb_refl. cbn [negb].
  pose proof H as (Hl & (A0 & A1 & A2 & A3) & He & Hr). rewrite app_length in He. cbn [length] in He.
  assert (Ee : entry_at (blk s) (zlen l) e). { apply Hr. rewrite nth_error_app2, Nat.sub_diag by lia. reflexivity. }
  destruct Ee as (E1 & E2 & E3).
  change DEFER_SIZE with 32. rewrite load64_in by lia. cbn [bind].
  replace (w_base s + zlen l * 32 + 24 - w_base s) with (32 * zlen l + 24) by lia. rewrite E3.
  set (s1 := if negb (s_err s =? 0) && negb (snd e =? 0) then set_flags false (is_protected s) s else s).
  assert (S1 : w_base s1 = w_base s /\ blk s1 = blk s /\ ticks s1 = ticks s /\ trace s1 = trace s /\ frame s s1 /\ holds s1 (l ++ e :: t)).
  { unfold s1. destruct (negb (s_err s =? 0) && negb (snd e =? 0)); do 4 (split; [reflexivity|]); (split; [first [apply frame_refl | fr] | exact H]). }
  clearbody s1. destruct S1 as (S1 & S3 & S5 & S4 & S6 & S7).
  rewrite load64_in by (rewrite S1, ?S3; lia). cbn [bind].
  rewrite S1, S3. replace (w_base s + zlen l * 32 + 8 - w_base s) with (32 * zlen l + 8) by lia. rewrite E1.
  rewrite load64_in by (rewrite S1, ?S3; lia). cbn [bind].
  rewrite S1, S3. replace (w_base s + zlen l * 32 + 16 - w_base s) with (32 * zlen l + 16) by lia. rewrite E2.
  unfold call. rewrite Q1.
  assert (H1 : holds (emit (Call (fst (fst e)) (snd (fst e))) s1) (l ++ e :: t)) by exact S7.
  destruct (perform_ok E F (act E (fst (fst e)) (snd (fst e))) _ _ H1 Q2) as (s2 & m & -> & Fr2 & T2 & _ & H2 & K2 & _ & C2 & D2).
  cbn [bind]. cbn [emit w_base trace ticks] in C2, D2, T2, K2. rewrite S1 in C2.
  set (a := act E (fst (fst e)) (snd (fst e))) in *.
  assert (Nn : nested E (l ++ [e]) = nested E l ++ a). { unfold nested. rewrite flat_map_app. cbn. rewrite app_nil_r. reflexivity. }
  rewrite Nn, (app_length (nested E l) a).
  assert (Lz : zlen (l ++ e :: t) = zlen l + 1 + zlen t) by (rewrite app_length; cbn [length]; lia). rewrite Lz in *.
  destruct (Z.eqb_spec (w_base s2) (w_base s)) as [Eb|Eb]; cbn [negb].
  2:{ split; [left; reflexivity|]. split; [|reflexivity]. intros _ Cap. exfalso. apply Eb, C2; lia. }
  rewrite <- app_assoc in H2. cbn [app] in H2.
  destruct (clear_data s2 l e _ H2) as (s3 & S33 & H3 & Fr3 & T3 & B3 & _ & K3). rewrite Eb in S33. rewrite S33. cbn [bind].
  assert (Hb3 : w_base s3 = w_base s) by congruence. rewrite <- Hb3.
  specialize (IH s3 _ H3 Hq). cbv zeta in IH. rewrite Hb3 in *. destruct IH as (I1 & I2 & I3).
  assert (Lz' : forall k, kept m a = k -> zlen (l ++ (fst (fst e), 0, snd e) :: t ++ k) = zlen l + 1 + zlen t + zlen k).
  { intros k _. rewrite app_length. cbn [length]. rewrite app_length. lia. }
  split; [|split].
  - destruct I1 as [-> |(s' & t' & -> & Fr' & T' & B' & H')]; [auto|right].
    exists s', t'. split; [reflexivity|]. split.
    { eapply frame_trans; [exact S6|]. eapply frame_trans; [|eapply frame_trans; [exact Fr3|exact Fr']]. eapply frame_trans; [|exact Fr2]. fr. }
    split. { rewrite T', T3, T2, S4, rev_app_distr. cbn [rev app map]. rewrite <- app_assoc. reflexivity. }
    split; [congruence|assumption].
  - intros _ Cap. destruct C2 as [_ C2]; [lia..|]. rewrite C2 in *. rewrite (Lz' _ eq_refl) in I2.
    apply I2; [lia|].
    assert (Ru : round_up 16 (zlen l + 1 + zlen t + zlen a) = round_up 16 (zlen l + 1 + zlen t)) by (unfold round_up in *; lia).
    rewrite Ru. lia.
  - intros Over Pl Mv. destruct (Z.lt_ge_cases (round_up 16 (zlen l + 1 + zlen t)) (zlen l + 1 + zlen t + zlen a)) as [X|X].
    + destruct (D2 X Pl) as (i & n & Dl & Dn). exfalso. apply (Mv i n); [lia|congruence].
    + destruct C2 as [_ C2]; [lia..|]. rewrite C2 in *. 
      assert (Ru : round_up 16 (zlen l + 1 + zlen t + zlen a) = round_up 16 (zlen l + 1 + zlen t)) by (unfold round_up in *; lia).
      rewrite (Lz' _ eq_refl), Ru in I3. apply I3; auto; [lia|]. intros i n Hi. apply Mv. lia.
Qed.

(** The whole release. *)
Lemma free_busy E user s h : fits E -> holds s h -> w_type s = RAII_DEF_ARR -> protector s = None -> Forall (busy E) h ->
  (raii_deferred_free E user s = Undef UseAfterFree \/
   exists s', raii_deferred_free E user s = Ok s' /\ released s' /\ trace s' = trace s ++ map called (rev h) ++ freed (w_base s)) /\
  (0 < zlen h -> zlen h + zlen (nested E h) <= round_up 16 (zlen h) -> raii_deferred_free E user s <> Undef UseAfterFree) /\
  (round_up 16 (zlen h) < zlen h + zlen (nested E h) ->
   (forall i, place E i (32 * (round_up 16 (zlen h) + 16)) <> 0) -> (forall i n, (ticks s <= i)%nat -> place E i n <> w_base s) ->
   raii_deferred_free E user s = Undef UseAfterFree).
Proof.
  intros F H Ht Hp Hq. unfold raii_deferred_free. pose proof H as (Hl & _ & He & _). rewrite Hl, Ht, Z.eqb_refl. cbn [negb].
  unfold raii_deferred_run. set (s0 := set_flags (s_err s =? 0) (is_protected s) s).
  assert (Eq : Z.to_nat (w_elems s0) = length h). { cbn [s0 set_flags w_elems]. lia. }
  cbv zeta. rewrite Eq.
  assert (H0 : holds s0 (h ++ [])) by (rewrite app_nil_r; exact H).
  pose proof (run_loop_busy E F h s0 [] H0 Hq) as (I1 & I2 & I3). rewrite app_nil_r in *.
  change (w_base s0) with (w_base s) in *. clear H0 Eq.
  destruct I1 as [I1|(s1 & t' & I1 & Fr & T & B & H1)]; rewrite I1 in *; cbn [bind].
  - split; [auto|]. split; auto.
  - assert (P1 : protector s1 = None) by (transitivity (protector s0); [apply Fr|exact Hp]). rewrite P1. cbn [bind].
    cbn [set_words protector]. rewrite P1. cbn [bind].
    split; [right|split; [discriminate|]].
    + eexists. split; [reflexivity|]. unfold raii_array_reset, raii_free, freed, released. cbn [set_words w_base].
      destruct H1 as (L1 & _). rewrite B. change (w_base s0) with (w_base s). cbn [trace set_flags s0] in T.
      destruct (w_base s =? 0); cbn; repeat split; try congruence; rewrite T, ?app_nil_r, ?app_assoc; reflexivity.
    + intros X Y W. specialize (I3 X Y W). discriminate.
Qed.
