(** Guards whose deferred functions throw: proofs for C84. *)
From Verif Require Import BaseLemmas ExcModel SpecExc ExcProofs ExcRun.

Lemma throw_ends f : forall ex pm st st', ex_throw f ex pm st <> Ok (RNorm, st').
Proof.
  induction f as [|f IH]; intros ex pm st st' E; cbn [ex_throw] in E; [discriminate|]. destruct (c_unstack _); [discriminate|].
  destruct (setup _ _ _ _) as [st1| | |]; cbn [bind] in E; try discriminate.
  destruct (unwind _ _ _ _) as [[[| |] st2]| | |]; cbn [andthen] in E; try discriminate. destruct (cur st =? root); discriminate.
Qed.
Lemma mk_done p : e_done (mk p) = mk (fst p, 0).
Proof. reflexivity. Qed.

(** One pass over the deferred functions up to the one that throws. *)
Lemma run_entry_throws thr sc f d x st : arena st = sc -> sc <> 0 -> d_throw f = Some x ->
  exists st', run_entry thr (mk (f, d)) st = thr x 0 st' /\ dsame (cur st) sc st st' /\ ssame (scopes st sc) (scopes st' sc) /\ s_defers (scopes st' sc) = s_defers (scopes st sc) /\
    trace st' = trace st ++ EDefer (d_act f) d :: (if hits (s_pending (scopes st sc)) (f, d) then [ECaught (s_pending (scopes st sc))] else []) /\
    step_state (cur st) (hits (s_pending (scopes st sc)) (f, d)) st st'.
Proof.
  intros A Hs Hd. unfold run_entry. cbn [mk e_kind e_data fst snd]. ctx_tac. rewrite A. replace (sc =? 0) with false by lia. unfold hits. cbn [fst]. destruct (d_recover f) as [n|].
  - unfold is_caught. ctx_tac. cbn [bind]. rewrite Hd. destruct (Z.eqb_spec (s_pending (scopes st sc)) 0) as [E|E]; cbn [negb andb]; cbv iota.
    + eexists. split; [reflexivity|]. split; [|split; [|split; [|split]]].
      * eapply dsame_trans; [apply (emit_dsame _ _ (EDefer (d_act f) d))|]. apply with_scope_dsame.
      * ctx_tac. rewrite upd_same. constructor; reflexivity.
      * ctx_tac. rewrite upd_same. reflexivity.
      * reflexivity.
      * reflexivity.
    + destruct (Z.eqb_spec (s_pending (scopes st sc)) n) as [E2|E2]; cbv iota; (eexists; split; [reflexivity|]).
      * split; [|split; [|split; [|split]]].
        -- constructor; ctx_tac; rewrite ?upd_same; auto; intros i Hi; rewrite upd_other by auto; reflexivity.
        -- ctx_tac. rewrite upd_same. constructor; reflexivity.
        -- ctx_tac. rewrite upd_same. reflexivity.
        -- ctx_tac. rewrite <- app_assoc, E2. reflexivity.
        -- unfold step_state. ctx_tac. rewrite upd_same. reflexivity.
      * split; [|split; [|split; [|split]]].
        -- eapply dsame_trans; [apply (emit_dsame _ _ (EDefer (d_act f) d))|]. apply with_scope_dsame.
        -- ctx_tac. rewrite upd_same. constructor; reflexivity.
        -- ctx_tac. rewrite upd_same. reflexivity.
        -- reflexivity.
        -- reflexivity.
  - cbn [bind]. rewrite Hd, andb_false_r. eexists. split; [reflexivity|]. split; [apply emit_dsame|]. split; [apply ssame_refl|]. split; [reflexivity|]. split; reflexivity.
Qed.

Lemma run_entries_throws thr sc f d x post pre : (forall s s', thr x 0 s <> Ok (RNorm, s')) -> d_throw f = Some x ->
  forall ran st, arena st = sc -> sc <> 0 -> Forall quiet pre -> s_defers (scopes st sc) = ran ++ map mk (pre ++ (f, d) :: post) ->
  exists st', run_entries thr sc ran (map mk (pre ++ (f, d) :: post)) st = thr x 0 st' /\ dsame (cur st) sc st st' /\ ssame (scopes st sc) (scopes st' sc) /\
    s_defers (scopes st' sc) = ran ++ map mk (nulled pre ++ (f, d) :: post) /\
    trace st' = trace st ++ drain (pre ++ [(f, d)]) (s_pending (scopes st sc)) /\ step_state (cur st) (existsb (hits (s_pending (scopes st sc))) (pre ++ [(f, d)])) st st'.
Proof.
  intros Thr Hx. induction pre as [|p pre IH]; intros ran st A Hs Hq Hd.
  - cbn [app map run_entries].
    set (st1 := if negb (s_err (scopes st sc) =? 0) && e_check (mk (f, d)) then with_scope sc (s_set_rec false) st else st).
    assert (Q1 : dsame (cur st) sc st st1 /\ ssame (scopes st sc) (scopes st1 sc) /\ trace st1 = trace st /\ c_state (ctxs st1 (cur st)) = c_state (ctxs st (cur st)) /\ s_defers (scopes st1 sc) = s_defers (scopes st sc)).
    { unfold st1. destruct (_ && _); [|split; [apply dsame_refl|split; [apply ssame_refl|auto]]].
      split; [apply with_scope_dsame|]. ctx_tac. rewrite upd_same. split; [constructor; reflexivity|]. auto. }
    destruct Q1 as (D1 & S1 & T1 & C1 & F1). clearbody st1. pose proof D1 as [E1 _ _ _ E5 _ _ _ _ _ _ _ _]. rewrite A in E5.
    destruct (run_entry_throws thr sc f d x st1 E5 Hs Hx) as (st2 & R2 & D2 & S2 & F2 & T2 & C2). rewrite R2, E1 in *. pose proof (ss_pend _ _ S1) as P1. rewrite P1 in *.
    exists st2. split.
    { specialize (Thr st2). destruct (thr x 0 st2) as [[[| |] s']| | |]; try reflexivity. destruct (Thr _ eq_refl). }
    split; [exact (dsame_trans _ _ _ _ _ D1 D2)|]. split; [exact (ssame_trans _ _ _ S1 S2)|]. split; [rewrite F2, F1, Hd; reflexivity|].
    cbn [drain flat_map existsb app]. split; [rewrite T2, T1, app_nil_r; reflexivity|]. unfold step_state in *. rewrite C2, C1, orb_false_r. reflexivity.
  - inversion Hq as [|? ? H1 H2]; subst. cbn [app map run_entries].
    set (st1 := if negb (s_err (scopes st (arena st)) =? 0) && e_check (mk p) then with_scope (arena st) (s_set_rec false) st else st).
    assert (Q1 : dsame (cur st) (arena st) st st1 /\ ssame (scopes st (arena st)) (scopes st1 (arena st)) /\ trace st1 = trace st /\ c_state (ctxs st1 (cur st)) = c_state (ctxs st (cur st))).
    { unfold st1. destruct (_ && _); [|split; [apply dsame_refl|split; [apply ssame_refl|auto]]].
      split; [apply with_scope_dsame|]. split; [ctx_tac; rewrite upd_same; constructor; reflexivity|]. auto. }
    destruct Q1 as (D1 & S1 & T1 & C1). clearbody st1. pose proof D1 as [E1 _ _ _ E5 _ _ _ _ _ _ _ _].
    destruct (run_entry_ok thr (arena st) p st1 E5 Hs H1) as (st2 & R2 & D2 & S2 & T2 & C2). rewrite R2. cbn [andthen]. rewrite E1 in D2, C2.
    set (st3 := with_scope _ _ st2).
    assert (D3 : dsame (cur st) (arena st) st2 st3) by apply with_scope_dsame.
    assert (S3 : ssame (scopes st2 (arena st)) (scopes st3 (arena st))) by (unfold st3; ctx_tac; rewrite upd_same; constructor; reflexivity).
    pose proof (dsame_trans _ _ _ _ _ D1 (dsame_trans _ _ _ _ _ D2 D3)) as D13. pose proof D13 as [F1 _ _ _ F5 _ _ _ _ _ _ _ _].
    pose proof (ssame_trans _ _ _ S1 (ssame_trans _ _ _ S2 S3)) as S13. pose proof (ss_pend _ _ S13) as P13. pose proof (ss_pend _ _ S1) as P1.
    destruct (IH (ran ++ [e_done (mk p)]) st3) as (st4 & R4 & D4 & S4 & G4 & T4 & C4); [exact F5|exact Hs|exact H2|unfold st3; ctx_tac; rewrite upd_same; cbn [s_set_defers s_defers]; rewrite <- app_assoc; reflexivity|].
    rewrite F1 in D4, C4. rewrite P13 in T4, C4. rewrite P1 in T2, C2.
    exists st4. split; [exact R4|]. split; [exact (dsame_trans _ _ _ _ _ D13 D4)|]. split; [exact (ssame_trans _ _ _ S13 S4)|]. split; [|split].
    + rewrite G4, <- app_assoc. reflexivity.
    + rewrite T4. change (trace st3) with (trace st2). rewrite T2, T1, <- app_assoc. reflexivity.
    + unfold step_state in *. rewrite C4. cbn [existsb]. unfold st3. ctx_tac. rewrite C2, C1. destruct (hits _ p), (existsb _ (pre ++ _)); reflexivity.
Qed.

Lemma inside_dsame sc st0 id st st' g g' : hook_set st0 = true -> inside sc st0 id st g -> dsame id sc st st' -> ssame (scopes st sc) (scopes st' sc) -> s_defers (scopes st' sc) = map mk (fst g') -> snd g' = snd g ->
  sc < id -> inside sc st0 id st' g'.
Proof.
  intros Hk [I1 I2 I3 I4 I5 I6 I7 I8 [V1 V2 V3 V4 V5 V6 V7]] [B1 B2 B3 B4 B5 B6 B7 B8 B9 B10 B11 B12 B13] [U1 U2 U3 U4 U5] F G Lt.
  rewrite Hk in *. destruct (V6 I4) as (R & A & B & [O1 O2 O3 O4 O5 O6]).
  constructor; try congruence.
  - intros i Hi. rewrite B7 by lia. apply I7; auto.
  - intros i Hi Hs. rewrite B8 by auto. apply I8; auto.
  - constructor; try congruence; try lia.
    + rewrite B8 by (unfold root; lia). rewrite B6. exact V5.
    + intros _. split; [congruence|]. split; [congruence|]. split; [lia|]. constructor; congruence.
Qed.

(** One attempt to release a guard whose deferred functions include one that throws. *)
Lemma attempt k st0 id gid st pre f d post err x : hook_set st0 = true -> inside gid st0 id st (pre ++ (f, d) :: post, err) -> 2 <= fresh st0 -> gid < id ->
  Forall quiet pre -> d_throw f = Some x ->
  exists st', deferred_free (ex_throw (S k)) gid st = Ok (RJump id (Z.lor (if existsb (hits err) (pre ++ [(f, d)]) then 2 else c_state (ctxs st id)) 1), st') /\
    trace st' = trace st ++ drain (pre ++ [(f, d)]) err /\ inside gid st0 id st' (nulled pre ++ (f, d) :: post, x) /\ c_ex (ctxs st' id) = x /\ c_panic (ctxs st' id) = 0.
Proof.
  intros Hk In Hf Lt Hq Hx. pose proof In as [A1 A2 A3 A4 A5 A6 _ _ A9]. rewrite Hk in A4. destruct (i_in _ _ _ A9 A4) as (_ & Y2 & Y3 & [O1 O2 O3 O4 O5 O6]). cbn [fst snd] in *.
  unfold deferred_free. rewrite O5, O1, O2. cbn [negb].
  set (st1 := with_scope gid (s_set_rec (s_err (scopes st gid) =? 0)) st).
  assert (S1 : ssame (scopes st gid) (scopes st1 gid)) by (unfold st1; ctx_tac; rewrite upd_same; constructor; reflexivity).
  assert (D1 : dsame (cur st) gid st st1) by apply with_scope_dsame.
  assert (P1 : s_pending (scopes st1 gid) = err) by (rewrite (ss_pend _ _ S1); exact O6).
  assert (F1 : s_defers (scopes st1 gid) = [] ++ map mk (pre ++ (f, d) :: post)) by (unfold st1; ctx_tac; rewrite upd_same; exact O2).
  destruct (run_entries_throws (ex_throw (S k)) gid f d x post pre (fun s s' => throw_ends (S k) x 0 s s') Hx [] st1 Y2 ltac:(lia) Hq F1) as (st2 & R2 & D2 & S2 & F2 & T2 & C2).
  rewrite R2. rewrite P1 in T2, C2. change (cur st1) with (cur st) in D2, C2. rewrite A2 in *.
  assert (In2 : inside gid st0 id st2 (nulled pre ++ (f, d) :: post, err)).
  { apply (inside_dsame gid st0 id st st2 (pre ++ (f, d) :: post, err)); auto; [exact (dsame_trans _ _ _ _ _ D1 D2)|exact (ssame_trans _ _ _ S1 S2)]. }
  pose proof In2 as [_ B2 _ _ _ _ _ _ B9]. pose proof (throw_post k st2 gid _ x 0 B9) as P.
  destruct (inside_post gid st0 id st2 _ _ _ _ _ Hf In2 P) as (y & st3 & E3 & T3 & In3 & [-> C]). rewrite E3. cbn [andthen].
  assert (G : c_state (ctxs st2 id) = if existsb (hits err) (pre ++ [(f, d)]) then 2 else c_state (ctxs st id)) by exact C2. rewrite G.
  exists st3. split; [reflexivity|]. split; [rewrite T3, app_nil_r, T2; reflexivity|]. split; [exact In3|]. destruct C as [_ _ Q3 Q4 _ _]. auto.
Qed.
Lemma nulled_idem pre : nulled (nulled pre) = nulled pre.
Proof. unfold nulled. rewrite map_map. reflexivity. Qed.
Lemma nulled_quiet pre : Forall quiet pre -> Forall quiet (nulled pre).
Proof. unfold nulled. rewrite Forall_map. intros H. eapply Forall_impl; [|exact H]. auto. Qed.
Lemma nulled_hits err pre p : existsb (hits err) (nulled pre ++ [p]) = existsb (hits err) (pre ++ [p]).
Proof. induction pre as [|q pre IH]; [reflexivity|]. cbn [nulled map app existsb]. rewrite <- IH. reflexivity. Qed.

Definition again (gid id : Z) (k : nat) : est -> out (res * est) := fun st => if c_state (ctxs st id) =? 1 then deferred_free (ex_throw k) gid st else Ok (RNorm, st).
(** Not recovered: the guard releases its scope for ever. *)
Lemma spins k st0 id gid body fin pre f d post x : hook_set st0 = true -> 2 <= fresh st0 -> gid < id -> Forall quiet pre -> d_throw f = Some x ->
  existsb (hits x) (pre ++ [(f, d)]) = false -> forall n st, inside gid st0 id st (nulled pre ++ (f, d) :: post, x) ->
  landing n id body (again gid id (S k)) fin 1 st = NoFuel.
Proof.
  intros Hk Hf Lt Hq Hx Hn. induction n as [|n IH]; intros st In; [reflexivity|].
  pose proof (inside_state gid st0 id st _ 1 Hf In) as In1.
  destruct (attempt k st0 id gid _ (nulled pre) f d post x x Hk In1 Hf Lt (nulled_quiet _ Hq) Hx) as (st' & E & _ & In' & _ & _).
  rewrite nulled_hits, Hn, nulled_idem in *.
  assert (S1 : c_state (ctxs (with_ctx id (c_set_state 1) st) id) = 1) by (ctx_tac; rewrite upd_same; reflexivity). rewrite S1 in E.
  rewrite (landing_jump n id body _ fin 1 st 1 st'); [apply IH; exact In'|].
  unfold pass. replace (1 =? 0) with false by reflexivity. cbn [andthen]. unfold again at 1. rewrite S1. replace (1 =? 1) with true by reflexivity. rewrite E. reflexivity.
Qed.

Lemma guard_throws b fuel lx sc st h g t r pre f d old err x :
  loud false true b -> inv st sc g -> 2 <= fresh st -> ref b h ([], 0) = (t, r, (pre ++ (f, d) :: old, err)) -> Forall quiet pre -> d_throw f = Some x ->
  match left_by err x pre f d with
  | Some t' => post sc st (t ++ t') (Raised (x, 0)) (fst g, pend (x, 0)) (exec (S (S (S (S fuel)))) lx sc (Guard b) st)
  | None => exec (S (S (S (S fuel)))) lx sc (Guard b) st = NoFuel
  end.
Proof.
  intros Hb N Hf Rb Hq Hx. cbn [exec].
  pose proof (raii_init_keep st sc g N ltac:(lia)) as Q1. cbn zeta in Q1. set (st1 := raii_init st) in *. destruct Q1 as (K1 & N1 & C1 & T1 & R1 & F1).
  assert (Hf1 : 2 <= fresh st1) by lia. set (gid := fresh st1).
  change (set_arena gid (set_fresh (gid + 1) (with_scope gid (fun _ => Scope true [] 0 0 false false 0 true) (set_hooks true true st1)))) with (enter_guard st1).
  pose proof (enter_inv st1 sc g N1 Hf1 R1) as N2. fold gid in N2.
  assert (Hf2 : 2 <= fresh (enter_guard st1)) by (change (fresh (enter_guard st1)) with (gid + 1); lia).
  destruct (new_ctx_inside gid (enter_guard st1) ([], 0) Hf2 N2) as (st3 & E3 & In3 & T3). rewrite E3. change (fresh (enter_guard st1)) with (gid + 1) in *. set (id := gid + 1) in *.
  set (body := fun st => andthen (exec _ id gid b st) _).
  change (fun st => if c_state (ctxs st id) =? 1 then deferred_free (ex_throw (S (S (S (S fuel))))) gid st else Ok (RNorm, st)) with (again gid id (S (S (S (S fuel))))).
  set (hand := again _ _ _).
  change (fun st => Ok (RNorm, with_scope gid s_dead (set_hooks (hook_set st1) (hook_unwind st1) (with_ctx (cur (set_cur (c_next (ctxs st id)) st)) c_swap_reset (set_arena (arena st1) (set_cur (c_next (ctxs st id)) st))))))
    with (leave_guard id (arena st1) (hook_set st1) (hook_unwind st1) gid). set (fin := leave_guard _ _ _ _ _).
  pose proof (inside_state gid (enter_guard st1) id st3 _ 0 Hf2 In3) as In4. set (st4 := with_ctx id (c_set_state 0) st3) in *.
  assert (S4 : c_state (ctxs st4 id) = 0) by (unfold st4; ctx_tac; rewrite upd_same; reflexivity).
  assert (Pb : post gid st4 (fst (fst (ref b h ([], 0)))) (snd (fst (ref b h ([], 0)))) (snd (ref b h ([], 0))) (exec (S (S (S (S fuel)))) id gid b st4)).
  { pose proof In4 as [A1 A2 A3 A4 _ _ _ _ A9]. apply (proj1 exec_ref b false true); auto; [pose proof (i_cur _ _ _ A9); lia|discriminate]. }
  destruct (inside_post gid (enter_guard st1) id st4 _ _ _ _ _ Hf2 In4 Pb) as (y & st5 & Eb & T5 & In5 & R).
  rewrite Rb in *. cbn [fst snd] in *. change (trace st4) with (trace st3) in T5. rewrite T3 in T5. change (trace (enter_guard st1)) with (trace st1) in T5. rewrite T1 in T5.
  assert (Lt : gid < id) by (unfold id; lia).
  (* leaving with state 3 *)
  assert (Leave : forall n st6 D t', inside gid (enter_guard st1) id st6 (D, x) -> c_ex (ctxs st6 id) = x -> c_panic (ctxs st6 id) = 0 -> trace st6 = trace st ++ t' ->
     post sc st t' (Raised (x, 0)) (fst g, pend (x, 0)) (landing (S n) id body hand fin 3 st6)).
  { intros n st6 D t' In6 X6 P6 T6. pose proof (inside_state gid (enter_guard st1) id st6 _ 3 Hf2 In6) as In7. set (st7 := with_ctx id (c_set_state 3) st6) in *.
    destruct (leave_ok st st1 id sc g (D, x) st7 st7 N Hf eq_refl eq_refl In7 (dsame_refl _ _ _)) as (st8 & E8 & K8 & N8 & C8 & T8 & Ne & Ci).
    apply landing_end; [exact Ne|]. unfold pass. replace (3 =? 0) with false by reflexivity. fold st7. cbn [andthen].
    assert (S7 : c_state (ctxs st7 id) = 3 /\ c_ex (ctxs st7 id) = x /\ c_panic (ctxs st7 id) = 0) by (unfold st7; ctx_tac; rewrite upd_same; auto). destruct S7 as (S7 & S7e & S7p).
    unfold hand at 1, again. rewrite S7. replace (3 =? 1) with false by reflexivity. cbn [andthen]. change (fin st7) with (leave_guard id (arena st1) (hook_set st1) (hook_unwind st1) (fresh st1) st7). rewrite E8. cbn [andthen].
    apply (end_try_post n sc st st8 id g g t' (Raised (x, 0))); auto; [rewrite T8; exact T6|]. rewrite Ci, S7, S7e, S7p. auto. }
  (* the second attempt *)
  assert (Second : forall n st6 t', inside gid (enter_guard st1) id st6 (nulled pre ++ (f, d) :: old, x) -> trace st6 = trace st ++ t' ->
     if existsb (hits x) (pre ++ [(f, d)]) then post sc st (t' ++ drain (nulled pre ++ [(f, d)]) x) (Raised (x, 0)) (fst g, pend (x, 0)) (landing (S (S n)) id body hand fin 1 st6)
     else landing (S (S n)) id body hand fin 1 st6 = NoFuel).
  { intros n st6 t' In6 T6. destruct (existsb (hits x) (pre ++ [(f, d)])) eqn:Hh.
    - pose proof (inside_state gid (enter_guard st1) id st6 _ 1 Hf2 In6) as In7.
      destruct (attempt (S (S (S fuel))) (enter_guard st1) id gid _ (nulled pre) f d old x x eq_refl In7 Hf2 Lt (nulled_quiet _ Hq) Hx) as (st8 & E8 & T8 & In8 & X8 & P8).
      rewrite nulled_hits, Hh in E8. change (Z.lor 2 1) with 3 in E8.
      rewrite (landing_jump (S n) id body hand fin 1 st6 3 st8).
      + eapply Leave; eauto. rewrite T8. change (trace (with_ctx id (c_set_state 1) st6)) with (trace st6). rewrite T6, app_assoc. reflexivity.
      + unfold pass. replace (1 =? 0) with false by reflexivity. cbn [andthen]. unfold hand, again at 1.
        replace (c_state (ctxs (with_ctx id (c_set_state 1) st6) id)) with 1 by (ctx_tac; rewrite upd_same; reflexivity). replace (1 =? 1) with true by reflexivity. rewrite E8. reflexivity.
    - eapply (spins (S (S (S fuel))) (enter_guard st1)); eauto. }
  (* the first attempt, from the body or from the handler *)
  assert (First : forall st6, inside gid (enter_guard st1) id st6 (pre ++ (f, d) :: old, err) -> trace st6 = trace st ++ t -> Z.lor (c_state (ctxs st6 id)) 1 = 1 -> exists st7 v,
     deferred_free (ex_throw (S (S (S (S fuel))))) gid st6 = Ok (RJump id v, st7) /\ v = (if existsb (hits err) (pre ++ [(f, d)]) then 3 else 1) /\
     inside gid (enter_guard st1) id st7 (nulled pre ++ (f, d) :: old, x) /\ c_ex (ctxs st7 id) = x /\ c_panic (ctxs st7 id) = 0 /\ trace st7 = trace st ++ t ++ drain (pre ++ [(f, d)]) err).
  { intros st6 In6 T6 L6. destruct (attempt (S (S (S fuel))) (enter_guard st1) id gid st6 pre f d old err x eq_refl In6 Hf2 Lt Hq Hx) as (st7 & E7 & T7 & In7 & X7 & P7).
    eexists st7, _. split; [exact E7|]. split; [clear Second; destruct (existsb (hits err) (pre ++ [(f, d)])); [reflexivity|exact L6]|]. split; [exact In7|]. split; [exact X7|]. split; [exact P7|]. rewrite T7, T6, app_assoc. reflexivity. }
  unfold left_by. destruct r as [|e].
  - destruct R as [-> C]. pose proof (cs_state _ _ C) as C2. rewrite S4 in C2.
    destruct (First st5 In5 T5 ltac:(rewrite C2; reflexivity)) as (st7 & v & E7 & Hv & In7 & X7 & P7 & T7).
    rewrite (landing_jump (S (S (S fuel))) id body hand fin 0 st3 v st7); [|unfold pass; replace (0 =? 0) with true by reflexivity; fold st4; unfold body; rewrite Eb; cbn [andthen]; rewrite E7; reflexivity].
    destruct (existsb (hits err) (pre ++ [(f, d)])); subst v; [eapply Leave; eauto|].
    pose proof (Second (S fuel) st7 _ In7 T7) as Q. destruct (existsb (hits x) (pre ++ [(f, d)])); [rewrite app_assoc|]; exact Q.
  - destruct R as [-> C].
    rewrite (landing_jump (S (S (S fuel))) id body hand fin 0 st3 1 st5); [|unfold pass; replace (0 =? 0) with true by reflexivity; fold st4; unfold body; rewrite Eb, S4; reflexivity].
    pose proof (inside_state gid (enter_guard st1) id st5 _ 1 Hf2 In5) as In6. set (st6 := with_ctx id (c_set_state 1) st5) in *.
    assert (S6 : c_state (ctxs st6 id) = 1) by (unfold st6; ctx_tac; rewrite upd_same; reflexivity).
    destruct (First st6 In6 T5 ltac:(rewrite S6; reflexivity)) as (st7 & v & E7 & Hv & In7 & X7 & P7 & T7).
    rewrite (landing_jump (S (S fuel)) id body hand fin 1 st5 v st7); [|unfold pass; replace (1 =? 0) with false by reflexivity; fold st6; cbn [andthen]; unfold hand, again at 1; rewrite S6; replace (1 =? 1) with true by reflexivity; rewrite E7; reflexivity].
    destruct (existsb (hits err) (pre ++ [(f, d)])); subst v; [eapply Leave; eauto|].
    pose proof (Second fuel st7 _ In7 T7) as Q. destruct (existsb (hits x) (pre ++ [(f, d)])); [rewrite app_assoc|]; exact Q.
Qed.
