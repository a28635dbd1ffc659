(** Proofs about scopes and deferred functions. *)
From Verif Require Export DeferModel SpecDefer SpecStr BaseLemmas SwarSearch NumProofs.

(** ** words in a block *)
Definition ldw (b : list Z) (o : Z) : Z := le (slice b o 8).
Lemma slice_eq b o b' o' n : 0 <= n -> 0 <= o -> 0 <= o' -> o + n <= zlen b -> o' + n <= zlen b' ->
  (forall k, 0 <= k < n -> at_ b (o + k) = at_ b' (o' + k)) -> slice b o n = slice b' o' n.
Proof.
  intros. pose proof (slice_length b o n ltac:(lia) ltac:(lia) ltac:(lia)).
  pose proof (slice_length b' o' n ltac:(lia) ltac:(lia) ltac:(lia)).
  apply at_ext. lia. intros k Hk. rewrite H5 in Hk.
  change (at_ (slice b o n) k) with (item (slice b o n) k). change (at_ (slice b' o' n) k) with (item (slice b' o' n) k).
  rewrite !slice_item by lia. auto.
Qed.
Lemma ldw_blit_other b o l b' p : blit b o l = Ok b' -> 0 <= p -> p + 8 <= zlen b ->
  p + 8 <= o \/ o + zlen l <= p -> ldw b' p = ldw b p.
Proof.
  intros. unfold ldw. f_equal. pose proof (blit_length _ _ _ _ H).
  apply slice_eq; try lia. intros. rewrite (blit_at _ _ _ _ _ H) by lia.
  destruct (Z.leb_spec o (p + k)); destruct (Z.ltb_spec (p + k) (o + zlen l)); cbn [andb]; auto; lia.
Qed.
Lemma ldw_blit_same b o v b' : blit b o (to_le 8 v) = Ok b' -> word v -> ldw b' o = v.
Proof.
  intros. unfold ldw. pose proof (blit_inv _ _ _ _ H) as (? & ? & _). rewrite to_le_length in *.
  replace (slice b' o 8) with (slice (to_le 8 v) 0 8).
  - change (slice (to_le 8 v) 0 8) with (to_le 8 v). rewrite le_to_le. apply Z.mod_small. exact H0.
  - pose proof (blit_length _ _ _ _ H). apply slice_eq; try lia. rewrite to_le_length; lia.
    intros. rewrite (blit_at _ _ _ _ _ H) by lia. rewrite to_le_length.
    destruct (Z.leb_spec o (o + k)); destruct (Z.ltb_spec (o + k) (o + Z.of_nat 8)); cbn [andb]; try lia.
    f_equal. lia.
Qed.
Lemma grown_length E t old n : 0 <= n -> zlen (grown E t old n) = n.
Proof. intros. unfold grown. rewrite app_length, firstn_length, map_length, seq_length. lia. Qed.
Lemma ldw_grown E t old n p : 0 <= p -> p + 8 <= zlen old -> p + 8 <= n -> ldw (grown E t old n) p = ldw old p.
Proof.
  intros. unfold ldw. f_equal. pose proof (grown_length E t old n ltac:(lia)).
  apply slice_eq; try lia. intros. unfold grown. rewrite at_app_l by (rewrite firstn_length; lia).
  unfold at_. apply nth_firstn. lia.
Qed.

Lemma load64_in s a : w_base s <= a -> a + 8 <= w_base s + zlen (blk s) -> load64 s a = Ok (ldw (blk s) (a - w_base s)).
Proof.
  intros. unfold load64. destruct (Z.leb_spec (w_base s) a); destruct (Z.leb_spec (a + 8) (w_base s + zlen (blk s))); try lia.
  reflexivity.
Qed.
Lemma store64_in s a v : w_base s <= a -> a + 8 <= w_base s + zlen (blk s) ->
  exists b, blit (blk s) (a - w_base s) (to_le 8 v) = Ok b /\ store64 s a v = Ok (set_blk b s).
Proof.
  intros. unfold store64. destruct (Z.leb_spec (w_base s) a); destruct (Z.leb_spec (a + 8) (w_base s + zlen (blk s))); try lia.
  cbn [andb]. eexists. split. apply blit_ok; try lia. rewrite to_le_length; lia.
  rewrite blit_ok; try lia. reflexivity. rewrite to_le_length; lia.
Qed.

(** ** the array *)
Lemma umull_exact a b : word a -> word b ->
  umull_overflow a b = if a * b <? 18446744073709551616 then Some (a * b) else None.
Proof.
  unfold word. intros Ha Hb. unfold umull_overflow.
  destruct (Z.ltb_spec (a * b) 18446744073709551616).
  - replace (u64 (a * b)) with (a * b) by (symmetry; apply u64_id; nia).
    destruct (Z.ltb_spec 0 a); [|rewrite andb_false_r; reflexivity].
    assert (18446744073709551615 / a >= b). { apply Z.le_ge, Z.div_le_lower_bound; lia. }
    destruct (Z.ltb_spec (18446744073709551615 / a) b); [lia|]. rewrite andb_false_r. reflexivity.
  - assert (0 < a) by nia.
    assert (18446744073709551615 / a < b). { apply Z.div_lt_upper_bound; lia. }
    destruct (Z.ltb_spec 0 a); [|lia]. destruct (Z.ltb_spec (18446744073709551615 / a) b); [|lia].
    destruct (Z.leb_spec 4294967296 a); [reflexivity|]. destruct (Z.leb_spec 4294967296 b); [reflexivity|]. nia.
Qed.
Lemma add_exact a : word a ->
  add_overflow a INCREMENT = if a + 16 <? 18446744073709551616 then Some (a + 16) else None.
Proof.
  unfold word, add_overflow, INCREMENT. intros. destruct (Z.ltb_spec (a + 16) 18446744073709551616).
  - rewrite u64_id by lia. destruct (Z.ltb_spec (18446744073709551615 - a) 16); [lia|]. rewrite andb_false_r. reflexivity.
  - destruct (Z.ltb_spec (18446744073709551615 - a) 16); [|lia]. destruct (Z.ltb_spec 0 a); [reflexivity|lia].
Qed.

(** What the allocator may do: fail, or give a block inside the address space
    that does not start at NULL. *)
Definition fits (E : env) : Prop :=
  forall t n, 0 < n -> place E t n = 0 \/ (0 < place E t n /\ place E t n + n < 18446744073709551616).

(** State of the array, for elements of [sz] bytes: [n] elements, a block with room for
    them, and room for the next one unless [n] is a multiple of 16. *)
Definition arr_ok (sz : Z) (s : scope) : Prop :=
  0 <= w_elems s /\ w_elems s * sz <= zlen (blk s) /\
  round_up 16 (w_elems s) * sz <= zlen (blk s) /\
  ((w_base s = 0 /\ w_elems s = 0 /\ blk s = []) \/ (0 < w_base s /\ w_base s + zlen (blk s) < 18446744073709551616)).

(** Everything but array contents, recovery flag and trace is unchanged. *)
Definition frame (s s' : scope) : Prop :=
  self s' = self s /\ is_tls s' = is_tls s /\ live s' = live s /\ w_type s' = w_type s /\ w_tail s' = w_tail s /\
  s_err s' = s_err s /\ s_panic s' = s_panic s /\ is_protected s' = is_protected s /\ protector s' = protector s /\
  mid s' = mid s /\ ctx_stack s' = ctx_stack s.
Lemma frame_refl s : frame s s.
Proof. unfold frame; auto 20. Qed.
Lemma frame_trans a b c : frame a b -> frame b c -> frame a c.
Proof. unfold frame. intuition congruence. Qed.
#[export] Hint Resolve frame_refl : core.
Ltac fr := unfold frame; cbn; repeat split; reflexivity.

Lemma round_up_step n : 0 <= n -> n mod 16 <> 0 -> round_up 16 (n + 1) = round_up 16 n.
Proof. unfold round_up. lia. Qed.
Lemma round_up_mult n : 0 <= n -> n mod 16 = 0 -> round_up 16 n = n /\ round_up 16 (n + 1) = n + 16.
Proof. unfold round_up. lia. Qed.
Lemma round_up_ge n : n <= round_up 16 n.
Proof. unfold round_up. lia. Qed.

(** One append: it fails and changes nothing, or it adds one slot past the
    others inside the (possibly moved) block. *)
Lemma append_ok E sz s : fits E -> 0 < sz -> word sz -> arr_ok sz s ->
  let '(d, s') := raii_array_append E sz s in
  (d = 0 /\ w_elems s' = w_elems s /\ w_base s' = w_base s /\ blk s' = blk s /\ frame s s' /\
     trace s' = trace s /\ is_recovered s' = is_recovered s) \/
  (d = w_base s' + w_elems s * sz /\ 0 < d /\ w_elems s' = w_elems s + 1 /\ arr_ok sz s' /\
   (forall p, 0 <= p -> p + 8 <= w_elems s * sz -> ldw (blk s') p = ldw (blk s) p) /\
   frame s s' /\ trace s' = trace s /\ is_recovered s' = is_recovered s /\
   (w_elems s mod 16 <> 0 -> w_base s' = w_base s /\ blk s' = blk s)).
Proof.
  intros F Hsz Wsz (H0 & H1 & H2 & H3).
  assert (Hb : zlen (blk s) < 18446744073709551616). { destruct H3 as [(? & ? & ->)|?]; cbn [length]; lia. }
  assert (He : w_elems s < 18446744073709551616) by nia.
  unfold raii_array_append. change (w_elems s mod INCREMENT) with (w_elems s mod 16).
  destruct (Z.eqb_spec (w_elems s mod 16) 0) as [M|M].
  - pose proof (round_up_mult _ H0 M) as [R1 R2].
    rewrite add_exact by (unfold word; lia).
    destruct (Z.ltb_spec (w_elems s + 16) 18446744073709551616).
    2:{ left. repeat split; auto. }
    unfold realloc_array. rewrite umull_exact by (auto; unfold word; lia).
    destruct (Z.ltb_spec ((w_elems s + 16) * sz) 18446744073709551616).
    2:{ cbn. left. repeat split; auto. }
    cbv zeta. set (a := place E (ticks s) ((w_elems s + 16) * sz)) in *.
    assert (Fa : a = 0 \/ 0 < a /\ a + (w_elems s + 16) * sz < 18446744073709551616). { apply F. nia. }
    destruct (Z.eqb_spec a 0); cbv beta iota.
    { left. repeat split; auto. }
    destruct (Z.eqb_spec a 0); [contradiction|]. destruct Fa as [|[Fa1 Fa2]]; [contradiction|]. right.
    assert (L : zlen (grown E (ticks s) (blk s) ((w_elems s + 16) * sz)) = (w_elems s + 16) * sz) by (apply grown_length; nia).
    rewrite u64_id by nia. cbn [w_base w_elems blk set_blk set_words tick trace is_recovered].
    rewrite u64_id by lia. split; [reflexivity|]. split; [nia|]. split; [reflexivity|].
    split. { unfold arr_ok. cbn [w_base w_elems blk set_blk set_words tick].
      rewrite L, R2. repeat split; try lia; try nia. }
    split. { intros. apply ldw_grown; try lia; nia. }
    split; [fr|]. repeat split; try reflexivity; contradiction.
  - right. pose proof (round_up_step _ H0 M) as R. pose proof (round_up_ge (w_elems s + 1)).
    assert (w_elems s <> 0) by (intros E0; rewrite E0 in M; apply M; reflexivity).
    destruct H3 as [?|[Hp Hq]]; [lia|].
    assert (w_elems s * sz + sz <= zlen (blk s)). { rewrite R in H. nia. }
    rewrite u64_id by nia. cbn [w_base w_elems blk set_blk set_words tick trace is_recovered].
    rewrite u64_id by nia. split; [reflexivity|]. split; [nia|]. split; [reflexivity|].
    split. { unfold arr_ok. cbn [w_base w_elems blk set_blk set_words tick]. rewrite R. repeat split; try lia; try nia. }
    split; [auto|]. split; [fr|]. auto.
Qed.

(** ** entries *)
Definition entry_at (b : list Z) (k : Z) (e : Z * Z * Z) : Prop :=
  ldw b (32 * k + 8) = fst (fst e) /\ ldw b (32 * k + 16) = snd (fst e) /\ ldw b (32 * k + 24) = snd e.
Definition rep (b : list Z) (l : list (Z * Z * Z)) : Prop :=
  forall k e, nth_error l k = Some e -> entry_at b (Z.of_nat k) e.
Definition wordy (e : Z * Z * Z) : Prop := word (fst (fst e)) /\ word (snd (fst e)) /\ word (snd e).

(** The scope is armed and holds the deferred functions [l], oldest first. *)
Definition holds (s : scope) (l : list (Z * Z * Z)) : Prop :=
  live s = true /\ arr_ok 32 s /\ w_elems s = zlen l /\ rep (blk s) l.

Lemma rep_snoc b b' l e : rep b l -> (forall p, 0 <= p -> p + 8 <= 32 * zlen l -> ldw b' p = ldw b p) ->
  entry_at b' (zlen l) e -> rep b' (l ++ [e]).
Proof.
  intros R K Ee k x Hk. destruct (Nat.lt_ge_cases k (length l)) as [L|L].
  - rewrite nth_error_app1 in Hk by auto. destruct (R k x Hk) as (A & B & C).
    unfold entry_at. rewrite !K by lia. auto.
  - rewrite nth_error_app2 in Hk by auto.
    assert (k = length l). { assert (k - length l < 1)%nat; [|lia]. change 1%nat with (length [e]). apply nth_error_Some. congruence. }
    subst. rewrite Nat.sub_diag in Hk. cbn in Hk. injection Hk as <-. auto.
Qed.

Lemma deferred_any_ok E f d c s l : fits E -> holds s l -> wordy (f, d, c) ->
  exists i s', raii_deferred_any E f d c s = Ok (i, s') /\ frame s s' /\ trace s' = trace s /\
    is_recovered s' = is_recovered s /\
    ((i = 18446744073709551615 /\ holds s' l) \/
     (holds s' (l ++ [(f, d, c)]) /\ i = get_index s' (w_base s' + 32 * zlen l) /\
      (zlen l mod 16 <> 0 -> w_base s' = w_base s))).
Proof.
  intros F (Hl & Ha & He & Hr) (W1 & W2 & W3). unfold raii_deferred_any. rewrite Hl. cbn [negb].
  pose proof (append_ok E DEFER_SIZE s F ltac:(unfold DEFER_SIZE; lia) ltac:(unfold word, DEFER_SIZE; lia) Ha) as P.
  destruct (raii_array_append E DEFER_SIZE s) as [dd s1].
  destruct P as [(-> & P1 & P2 & P3 & P4 & P5 & P6)|(P1 & P2 & P3 & P4 & P5 & P6 & P7 & P8 & P9)].
  - exists 18446744073709551615, s1. cbn [Z.eqb]. split; [reflexivity|]. repeat split; auto; try apply P4.
    left. split; auto. unfold holds, arr_ok in *. destruct P4 as (_ & _ & -> & _). rewrite P1, P2, P3. auto.
  - destruct (Z.eqb_spec dd 0); [lia|]. change DEFER_SIZE with 32 in *.
    destruct P4 as (A1 & A2 & A3 & A4). destruct A4 as [A4|[A4 A5]]; [lia|].
    rewrite P3 in A2.
    destruct (store64_in s1 (dd + 8) f ltac:(lia) ltac:(lia)) as (b1 & B1 & ->). cbn [bind].
    pose proof (blit_length _ _ _ _ B1) as L1.
    destruct (store64_in (set_blk b1 s1) (dd + 16) d) as (b2 & B2 & ->); [cbn [set_blk w_base blk]; lia..|].
    cbn [bind]. cbn [set_blk w_base blk] in B2. pose proof (blit_length _ _ _ _ B2) as L2.
    destruct (store64_in (set_blk b2 (set_blk b1 s1)) (dd + 24) c) as (b3 & B3 & ->); [cbn [set_blk w_base blk]; lia..|].
    cbn [bind]. cbn [set_blk w_base blk] in B3. pose proof (blit_length _ _ _ _ B3) as L3.
    set (s3 := set_blk b3 (set_blk b2 (set_blk b1 s1))).
    exists (get_index s3 dd), s3. split; [reflexivity|].
    split. { eapply frame_trans; [exact P6|]. fr. }
    split; [exact P7|]. split; [exact P8|]. right.
    replace (dd + 8 - w_base s1) with (32 * w_elems s + 8) in B1 by lia.
    replace (dd + 16 - w_base s1) with (32 * w_elems s + 16) in B2 by lia.
    replace (dd + 24 - w_base s1) with (32 * w_elems s + 24) in B3 by lia.
    split; [|split].
    + split. { destruct P6 as (_ & _ & P6 & _). cbn. congruence. }
      split. { unfold arr_ok. cbn [s3 set_blk w_base blk w_elems]. rewrite L3, L2, L1, P3 in *. repeat split; try lia. }
      split. { cbn [s3 set_blk w_elems]. rewrite P3, app_length, He. cbn [length]. lia. }
      cbn [s3 set_blk blk]. apply rep_snoc with (b := blk s); auto.
      * intros. rewrite (ldw_blit_other _ _ _ _ _ B3), (ldw_blit_other _ _ _ _ _ B2), (ldw_blit_other _ _ _ _ _ B1);
          rewrite ?to_le_length; try lia. apply P5; lia.
      * rewrite <- He. unfold entry_at. cbn [fst snd]. split; [|split].
        -- rewrite (ldw_blit_other _ _ _ _ _ B3), (ldw_blit_other _ _ _ _ _ B2); rewrite ?to_le_length; try lia.
           eapply ldw_blit_same; eauto.
        -- rewrite (ldw_blit_other _ _ _ _ _ B3); rewrite ?to_le_length; try lia. eapply ldw_blit_same; eauto.
        -- eapply ldw_blit_same; eauto.
    + f_equal. cbn [s3 set_blk w_base]. rewrite P1, He. lia.
    + intros M. cbn [s3 set_blk w_base]. apply P9. rewrite He. exact M.
Qed.

Ltac sp := split; [first [reflexivity | assumption | congruence | eapply frame_trans; eassumption | auto] |].
Lemma defers_ok E : fits E -> forall h s l, holds s l -> Forall wordy h ->
  exists is s' m, defers E h s = Ok (is, s') /\ length is = length h /\ length m = length h /\
    frame s s' /\ trace s' = trace s /\ is_recovered s' = is_recovered s /\
    holds s' (l ++ kept m h) /\
    (forall k, nth_error m k = Some false -> nth_error is k = Some 18446744073709551615).
Proof.
  intros F. induction h as [|((f, d), c) h IH]; intros s l H W.
  - exists [], s, []. rewrite app_nil_r. do 7 sp. intros [|k]; discriminate.
  - inversion W; subst. cbn [defers].
    destruct (deferred_any_ok E f d c s l F H H2) as (i & s1 & -> & Fr & T & Rc & Q). cbn [bind].
    destruct Q as [[Qi Q]|[Q _]].
    + destruct (IH s1 l Q H3) as (is & s2 & m & -> & L1 & L2 & Fr2 & T2 & Rc2 & Q2 & K). cbn [bind].
      exists (i :: is), s2, (false :: m). split; [reflexivity|]. cbn [length kept].
      do 6 sp. intros [|k]; cbn; auto; congruence.
    + destruct (IH s1 _ Q H3) as (is & s2 & m & -> & L1 & L2 & Fr2 & T2 & Rc2 & Q2 & K). cbn [bind].
      exists (i :: is), s2, (true :: m). split; [reflexivity|]. cbn [length kept].
      rewrite <- app_assoc in Q2.
      do 6 sp. intros [|k]; cbn; auto; congruence.
Qed.

(** ** release *)
Definition quiet (E : env) (e : Z * Z * Z) : Prop :=
  isfn E (fst (fst e)) = true /\ act E (fst (fst e)) (snd (fst e)) = [].
Definition called (e : Z * Z * Z) : ev := Call (fst (fst e)) (snd (fst e)).

Lemma run_loop_ok E l : forall s, w_base s + 32 * zlen l <= w_base s + zlen (blk s) ->
  rep (blk s) l -> Forall (quiet E) l ->
  exists s', run_loop E (w_base s) (length l) s = Ok s' /\ frame s s' /\
    trace s' = trace s ++ map called (rev l) /\ w_base s' = w_base s /\ w_elems s' = w_elems s /\
    length (blk s') = length (blk s) /\ ticks s' = ticks s.
Proof.
  induction l as [|e l IH] using rev_ind; intros s Hb Hr Hq.
  { exists s. cbn. rewrite app_nil_r. repeat split. }
  apply Forall_app in Hq. destruct Hq as [Hq Hq1]. inversion Hq1 as [|? ? [Q1 Q2] _]; subst.
  rewrite app_length in *. cbn [length] in *. rewrite Nat.add_1_r in *. cbn [run_loop].
  rewrite Z.eqb_refl. cbn [negb].
  assert (Ee : entry_at (blk s) (zlen l) e).
  { apply Hr. rewrite nth_error_app2, Nat.sub_diag by lia. reflexivity. }
  destruct Ee as (E1 & E2 & E3).
  change DEFER_SIZE with 32. rewrite load64_in by lia. cbn [bind].
  replace (w_base s + zlen l * 32 + 24 - w_base s) with (32 * zlen l + 24) by lia. rewrite E3.
  set (s1 := if negb (s_err s =? 0) && negb (snd e =? 0) then set_flags false (is_protected s) s else s).
  assert (S1 : w_base s1 = w_base s /\ w_elems s1 = w_elems s /\ blk s1 = blk s /\ trace s1 = trace s /\ ticks s1 = ticks s /\ frame s s1).
  { unfold s1. destruct (negb (s_err s =? 0) && negb (snd e =? 0)); cbn; repeat split. }
  clearbody s1. destruct S1 as (S1 & S2 & S3 & S4 & S5 & S6).
  rewrite load64_in by (rewrite S1, ?S3; lia). cbn [bind].
  rewrite S1, S3. replace (w_base s + zlen l * 32 + 8 - w_base s) with (32 * zlen l + 8) by lia. rewrite E1.
  rewrite load64_in by (rewrite S1, ?S3; lia). cbn [bind].
  rewrite S1, S3. replace (w_base s + zlen l * 32 + 16 - w_base s) with (32 * zlen l + 16) by lia. rewrite E2.
  unfold call. rewrite Q1, Q2. cbn [perform bind]. cbn [emit w_base]. rewrite S1, Z.eqb_refl. cbn [negb].
  destruct (store64_in (emit (Call (fst (fst e)) (snd (fst e))) s1) (w_base s + zlen l * 32 + 16) 0) as (b1 & B1 & ->);
    [cbn [emit w_base blk]; rewrite ?S1, ?S3; lia..|].
  cbn [bind]. cbn [emit w_base blk] in B1. rewrite S1, S3 in B1.
  replace (w_base s + zlen l * 32 + 16 - w_base s) with (32 * zlen l + 16) in B1 by lia.
  pose proof (blit_length _ _ _ _ B1) as L1.
  set (s2 := set_blk b1 (emit (Call (fst (fst e)) (snd (fst e))) s1)).
  assert (Hb2 : w_base s2 = w_base s) by exact S1.
  rewrite <- Hb2. destruct (IH s2) as (s' & -> & Fr & T & B & El & Lb & Tk).
  - cbn [s2 set_blk blk emit w_base]. lia.
  - cbn [s2 set_blk blk]. intros k x Hk. assert (k < length l)%nat by (apply nth_error_Some; congruence).
    destruct (Hr k x) as (X1 & X2 & X3). { rewrite nth_error_app1; auto. }
    unfold entry_at. rewrite !(ldw_blit_other _ _ _ _ _ B1); rewrite ?to_le_length; auto; lia.
  - auto.
  - exists s'. split; [reflexivity|]. split. { eapply frame_trans; [|exact Fr]. eapply frame_trans; [exact S6|]. fr. }
    split. { rewrite T. cbn [s2 set_blk trace emit]. rewrite S4, rev_app_distr. cbn [rev app map].
      rewrite <- app_assoc. reflexivity. }
    cbn [s2 set_blk blk w_elems emit w_base ticks] in *. repeat split; congruence.
Qed.

Definition freed (a : Z) : list ev := if a =? 0 then [] else [Freed a].
Lemma raii_free_trace a s : trace (raii_free a s) = trace s ++ freed a.
Proof. unfold raii_free, freed. destruct (a =? 0); cbn; auto. rewrite app_nil_r. reflexivity. Qed.
Definition prot_free (s : scope) : list ev := match protector s with Some p => freed (p_addr p) | None => [] end.

(** What is left of a scope after a release. *)
Definition released (s : scope) : Prop :=
  live s = true /\ w_type s = 0 /\ w_base s = 0 /\ w_elems s = 0 /\ blk s = [] /\ protector s = None.

Lemma free_ok E user s l : holds s l -> w_type s = RAII_DEF_ARR -> Forall (quiet E) l ->
  (l = [] -> s_err s = 0 \/ is_protected s = false \/ protector s = None) ->
  exists s', raii_deferred_free E user s = Ok s' /\
    trace s' = trace s ++ map called (rev l) ++ prot_free s ++ freed (w_base s) /\ released s' /\
    self s' = self s /\ is_tls s' = is_tls s.
Proof.
  intros (Hl & Ha & He & Hr) Ht Hq Hn. unfold raii_deferred_free. rewrite Hl, Ht, Z.eqb_refl. cbn [negb].
  unfold raii_deferred_run. set (s0 := set_flags (s_err s =? 0) (is_protected s) s).
  assert (Eq : Z.to_nat (w_elems s0) = length l). { cbn [s0 set_flags w_elems]. lia. }
  cbv zeta. rewrite Eq.
  destruct (run_loop_ok E l s0) as (s1 & -> & Fr & T & B & El & Lb & _).
  { destruct Ha as (A1 & A2 & _). cbn [s0 set_flags w_base blk]. lia. }
  { exact Hr. } { exact Hq. }
  cbn [bind].
  assert (Hw : w_elems s0 = zlen l) by exact He. rewrite Hw. clear Eq.
  assert (P1 : protector s1 = protector s) by apply Fr.
  assert (P2 : is_protected s1 = is_protected s) by apply Fr.
  assert (P3 : s_err s1 = s_err s) by apply Fr.
  assert (P4 : live s1 = live s) by apply Fr.
  assert (P5 : self s1 = self s) by apply Fr. assert (P6 : is_tls s1 = is_tls s) by apply Fr.
  assert (P7 : w_base s1 = w_base s) by exact B.
  assert (P8 : trace s1 = trace s ++ map called (rev l)) by exact T.
  clear Fr T B. unfold prot_free. rewrite <- P1. destruct (protector s1) as [p|] eqn:Ep.
  - rewrite P2, P3.
    assert (X : exists s2, (if is_protected s && negb (s_err s =? 0)
         then if zlen l =? 0 then call E (p_func p) (user (p_ptr p)) (set_flags (is_recovered s1) false s1)
              else Ok (set_flags (is_recovered s1) false s1) else Ok s1) = Ok s2 /\
         protector s2 = Some p /\ live s2 = true /\ self s2 = self s /\ is_tls s2 = is_tls s /\
         w_base s2 = w_base s /\ trace s2 = trace s ++ map called (rev l)).
    { destruct (is_protected s && negb (s_err s =? 0)) eqn:C.
      - destruct (Z.eqb_spec (zlen l) 0) as [Z0|Z0].
        + exfalso. destruct l; [|cbn [length] in Z0; lia]. apply andb_prop in C. destruct C as [C1 C2].
          destruct (Hn eq_refl) as [Hn1|[Hn1|Hn1]]; [rewrite Hn1 in C2; discriminate|congruence|congruence].
        + eexists. split; [reflexivity|]. cbn. repeat split; try congruence.
      - eexists. split; [reflexivity|]. repeat split; congruence. }
    destruct X as (s2 & -> & X1 & X2 & X3 & X4 & X5 & X6). cbn [bind].
    cbn [set_words protector]. rewrite X1. cbn [bind].
    eexists. split; [reflexivity|].
    unfold raii_array_reset. cbn [set_blk set_words trace].
    split. { rewrite !raii_free_trace. cbn [set_prot trace w_base]. rewrite raii_free_trace. cbn [set_words trace].
      replace (w_base (raii_free (p_addr p) (set_words (w_type s2) (w_base s2) 0 s2))) with (w_base s).
      rewrite X6, <- !app_assoc. reflexivity. unfold raii_free. destruct (p_addr p =? 0); cbn; congruence. }
    unfold raii_free, released. repeat match goal with |- context[if ?c then _ else _] => destruct c end; cbn; repeat split; congruence.
  - cbn [bind]. cbn [set_words protector]. rewrite Ep. cbn [bind].
    eexists. split; [reflexivity|]. unfold raii_array_reset, raii_free, freed, released. cbn [set_words w_base].
    rewrite P7. destruct (w_base s =? 0); cbn; repeat split; try congruence; rewrite P8, ?app_nil_r, ?app_assoc; reflexivity.
Qed.

Lemma free_released E user s : released s -> raii_deferred_free E user s = Ok s.
Proof. intros (H1 & H2 & _). unfold raii_deferred_free. rewrite H1, H2. reflexivity. Qed.

(** ** fresh scopes *)
Lemma holds_init s : live s = true -> holds (raii_deferred_init s) [].
Proof.
  intros. split; [exact H|]. split. { unfold arr_ok. cbn [raii_deferred_init set_blk set_words w_elems w_base blk length]. change (round_up 16 0) with 0. repeat split; try lia. left; auto. }
  split; [reflexivity|]. intros [|k] e; discriminate.
Qed.

(** ** cancellation *)
(** Where the address computed from an index falls. *)
Lemma element_of_index s s' a : word a -> a < 9223372036854775808 -> 0 <= w_elems s < 9223372036854775808 ->
  0 <= w_elems s' + (a - w_elems s) - (a - w_elems s) mod 8 < 18446744073709551616 ->
  get_element s' (get_index s a) = w_elems s' + (a - w_elems s) - (a - w_elems s) mod 8.
Proof.
  unfold word. intros Wa La Ws R. unfold get_element, get_index, ARRAY_SIZE. rewrite s64_id by lia.
  set (x := a - w_elems s) in *. unfold u64.
  rewrite <- Z.add_mod_idemp_r, Z.mul_mod_idemp_r by lia.
  replace (24 * (x / 8 * 12297829382473034411)) with (x / 8 * 8 + (x / 8 * 16) * 18446744073709551616) by ring.
  rewrite Z.mod_add by lia. rewrite Z.add_mod_idemp_r by lia.
  replace (w_elems s' + x / 8 * 8) with (w_elems s' + x - x mod 8) by lia. apply Z.mod_small. lia.
Qed.
