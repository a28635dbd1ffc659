(** Guards with memory of their own: the effect of a throw inside. *)
From Verif Require Import BaseLemmas ExcModel SpecExc ExcProofs ExcRun ExcStable.

(** What is deferred in a guard, and its actions. *)
Inductive item := IDefer (f : dfun) (d : Z) | IMalloc (w : Z) | IAct (a : Z).
Definition as_stmt (i : item) : stmt := match i with IDefer f d => Defer f d | IMalloc w => Malloc w | IAct a => Act a end.
(** The items, then [s]. *)
Fixpoint fill (l : list item) (s : stmt) : stmt := match l with [] => s | i :: l => Seq (as_stmt i) (fill l s) end.
Definition is_malloc (i : item) : bool := match i with IMalloc _ => true | _ => false end.
Definition mallocs (l : list item) : nat := length (filter is_malloc l).
Definition acts (l : list item) : list event := flat_map (fun i => match i with IAct a => [EAct a] | _ => [] end) l.
Definition calm_item (i : item) : Prop := match i with IDefer f _ => d_throw f = None | _ => True end.
Definition hit_item (err : Z) (i : item) : bool := match i with IDefer f d => hits err (f, d) | _ => false end.
(** What a release with the error [err] does, newest first; [bs]: the blocks, in the order of allocation. *)
Fixpoint undo (err : Z) (l : list item) (bs : list Z) : list event :=
  match l with
  | [] => []
  | IAct _ :: l => undo err l bs
  | IDefer f d :: l => undo err l bs ++ EDefer (d_act f) d :: (if hits err (f, d) then [ECaught err] else [])
  | IMalloc _ :: l => match bs with [] => undo err l [] | b :: bs => undo err l bs ++ [EFree b] end
  end.

Fixpoint ents (l : list item) (bs : list Z) : list entry :=
  match l with
  | [] => []
  | IAct _ :: l => ents l bs
  | IDefer f d :: l => ents l bs ++ [Entry (DUser f) d true]
  | IMalloc _ :: l => match bs with [] => ents l [] | b :: bs => ents l bs ++ [Entry DFree b false] end
  end.
Definition ev_of (err : Z) (e : entry) : list event :=
  match e_kind e with DFree => [EFree (e_data e)] | DUser f => EDefer (d_act f) (e_data e) :: (if hits err (f, e_data e) then [ECaught err] else []) end.
Definition hit_e (err : Z) (e : entry) : bool := match e_kind e with DUser f => hits err (f, e_data e) | DFree => false end.
Definition calm_e (e : entry) : Prop := match e_kind e with DUser f => d_throw f = None /\ e_check e = true | DFree => True end.
Lemma ents_events err l : forall bs, flat_map (ev_of err) (ents l bs) = undo err l bs.
Proof.
  induction l as [|[f d|w|a] l IH]; intros bs; cbn [ents undo]; [reflexivity| | |apply IH].
  - rewrite flat_map_app, IH. cbn [flat_map]. rewrite app_nil_r. reflexivity.
  - destruct bs as [|b bs]; [apply IH|]. rewrite flat_map_app, IH. reflexivity.
Qed.
Lemma ents_hit err l : forall bs, existsb (hit_e err) (ents l bs) = existsb (hit_item err) l.
Proof.
  induction l as [|[f d|w|a] l IH]; intros bs; cbn [ents existsb hit_item]; [reflexivity| | |apply IH].
  - rewrite existsb_app, IH. cbn. rewrite orb_false_r. apply orb_comm.
  - destruct bs as [|b bs]; [apply IH|]. rewrite existsb_app, IH. cbn. apply orb_false_r.
Qed.
Lemma ents_calm l : Forall calm_item l -> forall bs, Forall calm_e (ents l bs).
Proof.
  induction 1 as [|[f d|w|a] l H _ IH]; intros bs; cbn [ents]; [constructor| | |apply IH].
  - apply Forall_app. split; [apply IH|]. repeat constructor. exact H.
  - destruct bs as [|b bs]; [apply IH|]. apply Forall_app. split; [apply IH|]. repeat constructor.
Qed.

(** ** The loop *)
Lemma run_any_ok thr sc D : forall ran st, arena st = sc -> sc <> 0 -> Forall calm_e D ->
  exists st', run_entries thr sc ran D st = Ok (RNorm, st') /\ dsame (cur st) sc st st' /\ ssame (scopes st sc) (scopes st' sc) /\ s_err (scopes st' sc) = s_err (scopes st sc) /\ nodes st' = nodes st /\
    trace st' = trace st ++ flat_map (ev_of (s_pending (scopes st sc))) D /\ step_state (cur st) (existsb (hit_e (s_pending (scopes st sc))) D) st st'.
Proof.
  induction D as [|e D IH]; intros ran st A Hs Hd.
  { eexists. split; [reflexivity|]. split; [apply dsame_refl|]. split; [apply ssame_refl|]. split; [reflexivity|]. split; [reflexivity|]. split; [symmetry; apply app_nil_r|reflexivity]. }
  inversion Hd as [|? ? H1 H2]; subst. cbn [run_entries].
  set (st1 := if negb (s_err (scopes st (arena st)) =? 0) && e_check e then with_scope (arena st) (s_set_rec false) st else st).
  assert (Q1 : dsame (cur st) (arena st) st st1 /\ ssame (scopes st (arena st)) (scopes st1 (arena st)) /\ s_err (scopes st1 (arena st)) = s_err (scopes st (arena st)) /\ nodes st1 = nodes st /\ trace st1 = trace st /\ c_state (ctxs st1 (cur st)) = c_state (ctxs st (cur st))).
  { unfold st1. destruct (_ && _); [|split; [apply dsame_refl|split; [apply ssame_refl|auto]]].
    split; [apply with_scope_dsame|]. split; [ctx_tac; rewrite upd_same; constructor; reflexivity|]. split; [ctx_tac; rewrite upd_same; reflexivity|]. auto. }
  destruct Q1 as (D1 & S1 & G1 & N1 & T1 & C1). clearbody st1. pose proof D1 as [E1 _ _ _ E5 _ _ _ _ _ _ _ _].
  assert (Q2 : exists st2, run_entry thr e st1 = Ok (RNorm, st2) /\ dsame (cur st1) (arena st) st1 st2 /\ ssame (scopes st1 (arena st)) (scopes st2 (arena st)) /\ s_err (scopes st2 (arena st)) = s_err (scopes st1 (arena st)) /\ nodes st2 = nodes st1 /\
     trace st2 = trace st1 ++ ev_of (s_pending (scopes st1 (arena st))) e /\ step_state (cur st1) (hit_e (s_pending (scopes st1 (arena st))) e) st1 st2).
  { destruct e as [[f|] d c]; unfold calm_e in H1; cbn [e_kind e_check] in H1; unfold ev_of, hit_e; cbn [e_kind e_data].
    - destruct H1 as [H1 ->]. change (Entry (DUser f) d true) with (mk (f, d)). destruct (run_entry_ok thr (arena st) (f, d) st1 E5 Hs H1) as (st2 & R2 & D2 & S2 & T2 & C2). exists st2. split; [exact R2|]. split; [exact D2|]. split; [exact S2|].
      assert (X : s_err (scopes st2 (arena st)) = s_err (scopes st1 (arena st)) /\ nodes st2 = nodes st1).
      { clear - R2 H1 E5 Hs. unfold run_entry in R2. cbn [mk e_kind e_data fst snd] in R2. rewrite H1 in R2. destruct (d_recover f) as [n|]; [|cbn [bind] in R2; injection R2 as <-; auto].
        cbn [emit arena] in R2. rewrite E5 in R2. replace (arena st =? 0) with false in R2 by lia. unfold is_caught in R2. cbn [bind] in R2. destruct (_ && _); injection R2 as <-; ctx_tac; rewrite ?upd_same; auto. }
      destruct X. auto.
    - eexists. split; [reflexivity|]. split; [apply emit_dsame|]. split; [apply ssame_refl|]. split; [reflexivity|]. split; [reflexivity|]. split; reflexivity. }
  destruct Q2 as (st2 & R2 & D2 & S2 & G2 & N2 & T2 & C2). rewrite R2. cbn [andthen]. rewrite E1 in D2, C2.
  set (st3 := with_scope _ _ st2). 
  assert (D3 : dsame (cur st) (arena st) st2 st3) by apply with_scope_dsame.
  assert (S3 : ssame (scopes st2 (arena st)) (scopes st3 (arena st))) by (unfold st3; ctx_tac; rewrite upd_same; constructor; reflexivity).
  assert (G3 : s_err (scopes st3 (arena st)) = s_err (scopes st2 (arena st))) by (unfold st3; ctx_tac; rewrite upd_same; reflexivity).
  pose proof (dsame_trans _ _ _ _ _ D1 (dsame_trans _ _ _ _ _ D2 D3)) as D13. pose proof D13 as [F1 _ _ _ F5 _ _ _ _ _ _ _ _].
  pose proof (ssame_trans _ _ _ S1 (ssame_trans _ _ _ S2 S3)) as S13. pose proof (ss_pend _ _ S13) as P13. pose proof (ss_pend _ _ S1) as P1.
  destruct (IH (ran ++ [e_done e]) st3) as (st4 & R4 & D4 & S4 & G4 & N4 & T4 & C4); [exact F5|exact Hs|exact H2|].
  rewrite F1 in D4, C4. rewrite P13 in T4, C4. rewrite P1 in T2, C2.
  exists st4. split; [exact R4|]. split; [exact (dsame_trans _ _ _ _ _ D13 D4)|]. split; [exact (ssame_trans _ _ _ S13 S4)|]. split; [congruence|]. split; [rewrite N4; change (nodes st3) with (nodes st2); congruence|]. split.
  - rewrite T4. change (trace st3) with (trace st2). rewrite T2, T1, <- app_assoc. cbn [flat_map]. reflexivity.
  - unfold step_state in *. rewrite C4. cbn [existsb]. unfold st3. ctx_tac. rewrite C2, C1. destruct (hit_e _ e), (existsb _ D); reflexivity.
Qed.

(** ** A throw releases the scope of the guard it happens in, once memory was obtained *)
Record loaded (st : est) (D : list entry) : Prop := Loaded {
  l_unstack : c_unstack (ctxs st (cur st)) = false; l_set : hook_set st = true; l_unwind : hook_unwind st = true; l_arena : arena st <> 0; l_live : s_live (scopes st (arena st)) = true; l_arr : s_arr (scopes st (arena st)) = true;
  l_defers : s_defers (scopes st (arena st)) = D; l_prot : s_prot (scopes st (arena st)) = true; l_protector : s_protector (scopes st (arena st)) <> 0; l_some : D <> []; l_calm : Forall calm_e D; l_cur : cur st <> root }.
Record thrown_off (ex pm : Z) (st st' : est) : Prop := ThrownOff {
  o_cur : cur st' = cur st; o_fresh : fresh st' = fresh st; o_set : hook_set st' = true; o_unwind : hook_unwind st' = true; o_arena : arena st' = arena st; o_ready : ready st' = ready st;
  o_live : s_live (scopes st' (arena st)) = true; o_arr : s_arr (scopes st' (arena st)) = false; o_prot : s_prot (scopes st' (arena st)) = false; o_ex : c_ex (ctxs st' (cur st)) = ex; o_panic : c_panic (ctxs st' (cur st)) = pm; o_next : c_next (ctxs st' (cur st)) = c_next (ctxs st (cur st));
  o_ctx : forall i, i <> cur st -> ctxs st' i = ctxs st i; o_scope : forall i, i <> arena st -> scopes st' i = scopes st i }.
Lemma throw_releases f ex pm st D : loaded st D -> ex <> 0 ->
  exists st' v, ex_throw (S f) ex pm st = Ok (RJump (cur st) v, st') /\ v = Z.lor (if existsb (hit_e (pend (ex, pm))) D then 2 else c_state (ctxs st (cur st))) 1 /\
    trace st' = trace st ++ flat_map (ev_of (pend (ex, pm))) D /\ thrown_off ex pm st st'.
Proof.
  intros [U HS HU A L R Df P Pr So Ca Cu] Hex. cbn [ex_throw]. rewrite U.
  set (id := cur st) in *. set (g := arena st) in *.
  set (st1 := with_ctx id (c_thrown ex pm) st). unfold setup. change (hook_set st1) with (hook_set st). rewrite HS. change (arena st1) with g. replace (g =? 0) with false by lia. cbn [bind].
  unfold record_err. set (st2 := with_ctx id _ (with_scope g _ st1)). unfold unwind. set (st3 := with_ctx id (c_set_unstack true) st2).
  assert (C3 : ctxs st3 id = Ctx (c_next (ctxs st id)) (c_state (ctxs st id)) ex pm true true (c_raii (ctxs st id)) (c_stack (ctxs st id)) g (c_data (ctxs st id))).
  { unfold st3, st2, st1. ctx_tac. rewrite !upd_same. ctx_tac. rewrite P. reflexivity. }
  assert (C3o : forall i, i <> id -> ctxs st3 i = ctxs st i) by (intros i Hi; unfold st3, st2, st1; ctx_tac; rewrite !upd_other by exact Hi; reflexivity).
  assert (S3 : scopes st3 g = s_set_err ex pm (scopes st g)) by (unfold st3, st2, st1; ctx_tac; apply upd_same).
  assert (S3o : forall i, i <> g -> scopes st3 i = scopes st i) by (intros i Hi; unfold st3, st2, st1; ctx_tac; rewrite !upd_other by exact Hi; reflexivity).
  assert (B3 : cur st3 = id /\ fresh st3 = fresh st /\ hook_set st3 = true /\ hook_unwind st3 = true /\ arena st3 = g /\ ready st3 = ready st /\ trace st3 = trace st) by (repeat split; assumption).
  rewrite C3. cbn [c_unwind c_data]. destruct B3 as (B1 & B2 & B3 & B4 & B5 & B6 & B7). rewrite B4. cbn [andb].
  clearbody st3. clear st1 st2. unfold deferred_free. rewrite S3. cbn [s_set_err s_live s_arr s_defers s_err]. rewrite L, R, Df. cbn [negb].
  set (st4 := with_scope g _ st3).
  assert (P4 : s_pending (scopes st4 g) = pend (ex, pm)) by (unfold st4; ctx_tac; rewrite upd_same, S3; reflexivity).
  destruct (run_any_ok (ex_throw f) g D [] st4) as (st5 & E5 & D5 & S5 & G5 & N5 & T5 & X5); [exact B5|exact A|exact Ca|]. rewrite E5. cbn [andthen]. rewrite P4 in T5, X5.
  assert (S4 : scopes st4 g = s_set_rec (ex =? 0) (s_set_err ex pm (scopes st g))) by (unfold st4; ctx_tac; rewrite upd_same, S3; reflexivity).
  assert (Pr5 : s_prot (scopes st5 g) = true) by (rewrite (ss_prot _ _ S5), S4; exact P).
  assert (Pt5 : s_protector (scopes st5 g) = s_protector (scopes st g)) by (rewrite (ss_protector _ _ S5), S4; reflexivity).
  assert (Er5 : s_err (scopes st5 g) = ex) by (rewrite G5, S4; reflexivity).
  assert (Lv5 : s_live (scopes st5 g) = true) by (rewrite (ss_live _ _ S5), S4; exact L).
  unfold settle_protector. rewrite Pr5, Pt5, Er5. replace (s_protector (scopes st g) =? 0) with false by lia. replace (ex =? 0) with false by lia. cbn [negb andb]. destruct D as [|e0 D0] eqn:ED; [congruence|]. rewrite <- ED in *. clear e0 D0 ED. cbn [bind].
  set (st6 := with_scope g (s_set_prot false) st5).
  change (cur st4) with (cur st3) in D5, X5. rewrite B1 in D5, X5. destruct D5 as [V1 V2 V3 V4 V5 V6 V7 V8 V9 V10 V11 V12 V13].
  change (cur st4) with (cur st3) in V1. change (fresh st4) with (fresh st3) in V2. change (hook_set st4) with (hook_set st3) in V3. change (hook_unwind st4) with (hook_unwind st3) in V4. change (arena st4) with (arena st3) in V5. change (ready st4) with (ready st3) in V6. change (ctxs st4) with (ctxs st3) in *. change (trace st4) with (trace st3) in T5.
  unfold drop_protector. change (s_protector (scopes st6 g)) with (s_protector (upd (scopes st5) g (s_set_prot false (scopes st5 g)) g)). rewrite upd_same. cbn [s_set_prot s_protector]. rewrite Pt5. replace (s_protector (scopes st g) =? 0) with false by lia.
  set (p := s_protector (scopes st g)) in *.
  set (st7 := if n_ok (nodes st6 p) then _ else st6).
  assert (F7 : cur st7 = id /\ fresh st7 = fresh st /\ hook_set st7 = true /\ hook_unwind st7 = true /\ arena st7 = g /\ ready st7 = ready st /\ trace st7 = trace st5 /\ scopes st7 = scopes st6 /\
     (forall i, i <> id -> ctxs st7 i = ctxs st i) /\ c_next (ctxs st7 id) = c_next (ctxs st id) /\ c_ex (ctxs st7 id) = ex /\ c_panic (ctxs st7 id) = pm /\ c_state (ctxs st7 id) = c_state (ctxs st5 id)).
  { assert (K : cur st5 = id) by congruence. unfold st7, st6. destruct (n_ok _); ctx_tac; rewrite ?K; rewrite ?upd_same; ctx_tac.
    - split; [congruence|]. split; [congruence|]. split; [congruence|]. split; [congruence|]. split; [congruence|]. split; [congruence|]. split; [reflexivity|]. split; [reflexivity|].
      split; [intros i Hi; rewrite upd_other by exact Hi; rewrite V7 by exact Hi; apply C3o; exact Hi|]. cbn [c_next c_ex c_panic c_state c_set_stack]. rewrite V9, V10, V11, C3. auto.
    - split; [congruence|]. split; [congruence|]. split; [congruence|]. split; [congruence|]. split; [congruence|]. split; [congruence|]. split; [reflexivity|]. split; [reflexivity|].
      split; [intros i Hi; rewrite V7 by exact Hi; apply C3o; exact Hi|]. rewrite V9, V10, V11, C3. auto. }
  clearbody st7. destruct F7 as (W1 & W2 & W3 & W4 & W5 & W6 & W7 & W8 & W9 & W10 & W11 & W12 & W13).
  replace (id =? root) with false by (unfold id; lia).
  eexists _, _. split; [reflexivity|]. ctx_tac. rewrite upd_same. cbn [c_set_stack c_set_unstack c_state]. split; [|split].
  - rewrite W13. unfold step_state in X5. change (ctxs st4) with (ctxs st3) in X5. rewrite X5, C3. reflexivity.
  - rewrite W7, T5, B7. reflexivity.
  - constructor; ctx_tac; rewrite ?upd_same; ctx_tac; try assumption.
    + rewrite W8. unfold st6. ctx_tac. rewrite upd_same. exact Lv5.
    + reflexivity.
    + rewrite W8. unfold st6. ctx_tac. rewrite upd_same. reflexivity.
    + intros i Hi. rewrite upd_other by exact Hi. apply W9, Hi.
    + intros i Hi. rewrite !upd_other by exact Hi. rewrite W8. unfold st6. ctx_tac. rewrite upd_other by exact Hi. rewrite V8 by exact Hi. unfold st4. ctx_tac. rewrite upd_other by exact Hi. apply S3o, Hi.
Qed.

(** ** Running the items *)
Record ready_guard (g : Z) (st : est) : Prop := ReadyGuard {
  r_ready : ready st = true; r_unstack : c_unstack (ctxs st (cur st)) = false; r_set : hook_set st = true; r_unwind : hook_unwind st = true; r_arena : arena st = g; r_g : g <> 0; r_fresh : 0 < g < fresh st; r_live : s_live (scopes st g) = true }.
Record filled (g : Z) (l : list item) (bs : list Z) (st st' : est) : Prop := Filled {
  i_ready : ready_guard g st'; i_arr : s_arr (scopes st' g) = s_arr (scopes st g); i_cur : cur st' = cur st; i_fresh : fresh st <= fresh st';
  i_defers : s_defers (scopes st' g) = ents l bs ++ s_defers (scopes st g); i_prot : s_prot (scopes st' g) = s_prot (scopes st g) || existsb is_malloc l;
  i_protector : s_prot (scopes st' g) = true -> s_protector (scopes st' g) <> 0;
  i_scope : forall i, i <> g -> scopes st' i = scopes st i; i_ctx : forall i, i <> cur st -> ctxs st' i = ctxs st i;
  i_next : c_next (ctxs st' (cur st)) = c_next (ctxs st (cur st)); i_state : c_state (ctxs st' (cur st)) = c_state (ctxs st (cur st));
  i_trace : trace st' = trace st ++ acts l; i_blocks : length bs = mallocs l; i_new : Forall (fun b => fresh st <= b < fresh st') bs; i_dup : NoDup bs }.
Lemma fill_ok fuel lx g s : forall l st, ready_guard g st -> (s_prot (scopes st g) = true -> s_protector (scopes st g) <> 0) ->
  exists st' bs, exec fuel lx g (fill l s) st = exec fuel lx g s st' /\ filled g l bs st st'.
Proof.
  induction l as [|i l IH]; intros st G Pp.
  { exists st, []. split; [reflexivity|]. constructor; auto; try lia; try constructor. { cbn. now rewrite orb_false_r. } cbn. now rewrite app_nil_r. }
  pose proof G as [G1 G2 G3 G4 G5 G6 G7 G8].
  destruct i as [f d|w|a]; cbn [fill as_stmt exec].
  - unfold raii_init. rewrite G1. cbn [andthen]. set (st1 := with_scope _ _ _).
    destruct (IH st1) as (st' & bs & E & [K1 K0 K2 K3 K4 K5 K6 K7 K8 K9 K10 K11 K12 K13 K14]).
    { constructor; auto; unfold st1; ctx_tac; rewrite upd_same; assumption. }
    { unfold st1; ctx_tac; rewrite upd_same; exact Pp. }
    exists st', bs. split; [exact E|]. constructor; auto.
    + rewrite K0. unfold st1. ctx_tac. rewrite upd_same. reflexivity.
    + rewrite K4. cbn [ents]. rewrite <- app_assoc. unfold st1. ctx_tac. rewrite upd_same. reflexivity.
    + rewrite K5. unfold st1. ctx_tac. rewrite upd_same. reflexivity.
    + intros i Hi. rewrite K7 by exact Hi. unfold st1. ctx_tac. apply upd_other, Hi.
  - unfold raii_init. rewrite G1. cbn [andthen]. unfold malloc_full.
    set (b := fresh st). set (st0 := set_fresh (b + 1) st). set (st1 := if s_protector (scopes st0 g) =? 0 then _ else st0).
    assert (Q : cur st1 = cur st /\ ctxs st1 = ctxs st /\ (forall i, i <> g -> scopes st1 i = scopes st i) /\ s_protector (scopes st1 g) <> 0 /\ s_live (scopes st1 g) = true /\ s_arr (scopes st1 g) = s_arr (scopes st g) /\ s_defers (scopes st1 g) = s_defers (scopes st g) /\
       b < fresh st1 /\ hook_set st1 = true /\ hook_unwind st1 = true /\ arena st1 = g /\ ready st1 = true /\ trace st1 = trace st).
    { unfold st1, st0. destruct (Z.eqb_spec (s_protector (scopes (set_fresh (b + 1) st) g)) 0) as [e|e]; ctx_tac; rewrite ?upd_same; repeat (split; [first [assumption|reflexivity|lia|intros i Hi; now rewrite ?upd_other by exact Hi]|]); auto; unfold b in *; try lia.
      split; [cbn; lia|]. repeat (split; [first [assumption|reflexivity|lia]|]). reflexivity. }
    clearbody st1. destruct Q as (Q1 & Q2 & Q3 & Q4 & Q5 & Q6 & Q7 & Q8 & Q9 & Q10 & Q11 & Q12 & Q13). unfold protect. set (p := s_protector (scopes st1 g)) in *.
    set (st2 := with_scope _ _ _).
    assert (S2 : scopes st2 g = s_set_defers (Entry DFree b false :: s_defers (scopes st1 g)) (s_set_prot true (scopes st1 g))) by (unfold st2; ctx_tac; rewrite upd_same; reflexivity).
    assert (X2 : ctxs st2 = upd (ctxs st) (cur st) (c_set_stack p (ctxs st (cur st)))) by (unfold st2; ctx_tac; rewrite Q1, Q2; reflexivity).
    destruct (IH st2) as (st' & bs & E & [K1 K0 K2 K3 K4 K5 K6 K7 K8 K9 K10 K11 K12 K13 K14]).
    { constructor; auto; try (rewrite S2; assumption).
      - change (cur st2) with (cur st1). rewrite Q1, X2, upd_same. exact G2.
      - change (fresh st2) with (fresh st1). unfold b in Q8. lia. }
    { rewrite S2. intros _. exact Q4. }
    change (cur st2) with (cur st1) in *. change (fresh st2) with (fresh st1) in *. rewrite Q1 in *. change (trace st2) with (trace st1) in K11. rewrite X2 in *. rewrite upd_same in *. unfold b in *.
    exists st', (fresh st :: bs). split; [exact E|]. constructor; auto; try lia.
    + rewrite K0, S2. exact Q6.
    + rewrite K4, S2. cbn [ents s_set_defers s_defers]. rewrite <- app_assoc, Q7. reflexivity.
    + rewrite K5, S2. cbn. now rewrite orb_true_r.
    + intros i Hi. rewrite K7 by exact Hi. unfold st2. ctx_tac. rewrite upd_other by exact Hi. apply Q3, Hi.
    + intros i Hi. rewrite K8 by exact Hi. apply upd_other, Hi.
    + rewrite K11, Q13. reflexivity.
    + unfold mallocs in *. cbn [filter is_malloc length]. lia.
    + constructor; [lia|]. eapply Forall_impl; [|exact K13]. cbn. intros. lia.
    + constructor; [|exact K14]. intros I. rewrite Forall_forall in K13. apply K13 in I. lia.
  - cbn [andthen]. set (st1 := emit _ _). destruct (IH st1) as (st' & bs & E & [K1 K0 K2 K3 K4 K5 K6 K7 K8 K9 K10 K11 K12 K13 K14]).
    { constructor; auto. } { exact Pp. }
    exists st', bs. split; [exact E|]. constructor; auto. rewrite K11. cbn [st1 emit trace]. rewrite <- app_assoc. reflexivity.
Qed.
