(** C39, C40 for guards with memory of their own (_malloc), for every list of deferred functions, blocks and actions. *)
From Verif Require Import BaseLemmas ExcModel SpecExc ExcProofs ExcRun ExcStable ExcMalloc.

(** The statement [s] throws. *)
Definition thrower (s : stmt) (ex pm : Z) : Prop := (s = Throw ex /\ pm = 0) \/ (s = Panic pm /\ ex = ex_panic).
Lemma thrower_exec s ex pm fuel lx sc st : thrower s ex pm -> exec fuel lx sc s st = ex_throw fuel ex pm st.
Proof. intros [[-> ->]|[-> ->]]; reflexivity. Qed.

(** The state in which the body of a guard starts. *)
Definition in_guard (st : est) : est :=
  let st := raii_init st in let g := fresh st in
  with_ctx (g + 1) (c_set_state 0) (snd (new_ctx (set_arena g (set_fresh (g + 1) (with_scope g (fun _ => Scope true [] 0 0 false false 0 true) (set_hooks true true st)))))).
Lemma in_guard_facts st : 0 < cur st < fresh st ->
  let r := raii_init st in let s := in_guard st in let g := fresh st in
  fresh r = g /\ ready_guard g s /\ cur s = g + 1 /\ fresh s = g + 2 /\ s_defers (scopes s g) = [] /\ s_prot (scopes s g) = false /\ s_arr (scopes s g) = true /\ trace s = trace st /\ c_next (ctxs s (g + 1)) = cur st /\ c_state (ctxs s (g + 1)) = 0 /\
  (forall i, i <= g -> ctxs s i = ctxs r i) /\ (forall i, i <> g -> scopes s i = scopes r i).
Proof.
  intros H r s g. assert (R : fresh r = g /\ cur r = cur st /\ trace r = trace st /\ ready r = true) by (unfold r, g, raii_init; destruct (ready st) eqn:E; auto). destruct R as (R1 & R2 & R3 & R4).
  unfold s, in_guard. fold r. cbn [new_ctx snd]. rewrite R1. ctx_tac. rewrite !upd_same. ctx_tac. rewrite R2.
  split; [reflexivity|]. split.
  { constructor; ctx_tac; rewrite ?upd_same; auto; try lia; unfold g; lia. }
  repeat (split; [first [reflexivity|lia|assumption]|]). split; intros i Hi; rewrite ?upd_other by lia; reflexivity.
Qed.
(** [st'] is like [st] outside: current context, hooks and everything older. *)
Record back (st st' : est) : Prop := Back {
  b_cur : cur st' = cur st; b_hooks : hooks st' = hooks st; b_ready : ready st' = true; b_fresh : fresh st <= fresh st';
  b_ctx : forall i, i < fresh st -> i <> cur st -> ctxs st' i = ctxs (raii_init st) i; b_here : ctxs st' (cur st) = c_swap_reset (ctxs (raii_init st) (cur st));
  b_scope : forall i, i < fresh st -> scopes st' i = scopes (raii_init st) i }.

Lemma hooks_init st : hooks (raii_init st) = hooks st. Proof. unfold raii_init. destruct (ready st); reflexivity. Qed.
(** C39: a throw or panic inside a guard in which memory was obtained by _malloc always leaves the guard: the deferred functions and the
    blocks are released once each, newest first, and then the exception is thrown on in the context around the guard, whether or not
    a deferred function recovered it. *)
Theorem recover_never_stops : forall l s ex pm fuel lx sc st, thrower s ex pm -> ex <> 0 -> Forall calm_item l -> existsb is_malloc l = true -> 0 < cur st < fresh st -> 2 <= fresh st ->
  exists st' bs, exec (S (S fuel)) lx sc (Guard (fill l s)) st = ex_throw (S fuel) ex pm st' /\
    trace st' = trace st ++ acts l ++ undo (pend (ex, pm)) l bs /\ length bs = mallocs l /\ NoDup bs /\ back st st'.
Proof.
  intros l s ex pm fuel lx sc st Th Hex Ca Ma Hc Hf. destruct (in_guard_facts st Hc) as (R1 & G & C1 & F1 & D1 & P1 & A1 & T1 & N1 & X1 & O1 & O2). 
  cbn [exec]. set (r := raii_init st) in *. set (g := fresh st) in *. rewrite R1. cbn [new_ctx]. ctx_tac.
  cbn [landing]. set (st1 := with_ctx (g + 1) (c_set_state 0) _). assert (E1 : st1 = in_guard st) by (unfold st1, in_guard; fold r; rewrite R1; reflexivity). clearbody st1. subst st1. cbn [Z.eqb].
  set (st1 := in_guard st) in *. clearbody st1.
  destruct (fill_ok (S (S fuel)) (g + 1) g s l st1 G) as (st2 & bs & E2 & [K1 K0 K2 K3 K4 K5 K6 K7 K8 K9 K10 K11 K12 K13 K14]); [rewrite P1; discriminate|].
  rewrite E2, (thrower_exec _ _ _ _ _ _ _ Th). rewrite D1, app_nil_r in K4. rewrite P1, Ma in K5. cbn [orb] in K5.
  destruct K1 as [G1 G2 G3 G4 G5 G6 G7 G8]. rewrite A1 in K0.
  assert (Ne : ents l bs <> []).
  { intros E. clear - E Ma K12. revert bs E K12. induction l as [|[f d|w|a] l IH]; intros bs E K12; cbn in *; [discriminate|destruct (ents l bs); discriminate| |apply (IH Ma bs); auto].
    destruct bs as [|b bs]; [discriminate|]. destruct (ents l bs); discriminate. }
  destruct (throw_releases (S fuel) ex pm st2 (ents l bs)) as (st3 & v & E3 & V3 & T3 & [Q1 Q2 Q3 Q4 Q5 Q6 Q7 Q8 Q0 Q9 Q10 Q11 Q12 Q13]); [|exact Hex|].
  { constructor; rewrite ?G5; auto. - apply ents_calm, Ca. - rewrite K2, C1. unfold root. lia. }
  rewrite E3. cbn [andthen]. rewrite K2, C1 in *. rewrite Z.eqb_refl. rewrite K10, X1 in V3. rewrite ents_hit in V3.
  assert (Ho : Z.odd v = true) by (subst v; destruct (existsb (hit_item _) l); reflexivity). assert (Hv : v = 1 \/ v = 3) by (subst v; destruct (existsb (hit_item _) l); cbn; auto).
  cbn [landing]. set (st4 := with_ctx (g + 1) (c_set_state v) st3). replace (v =? 0) with false by lia. cbn [andthen].
  assert (H4 : (if c_state (ctxs st4 (g + 1)) =? 1 then deferred_free (ex_throw (S (S fuel))) g st4 else Ok (RNorm, st4)) = Ok (RNorm, st4)).
  { destruct (_ =? 1); [|reflexivity]. unfold deferred_free. change (scopes st4) with (scopes st3). rewrite G5 in Q7, Q8. rewrite Q7, Q8. reflexivity. }
  rewrite H4. cbn [andthen]. ctx_tac.
  assert (Nx : c_next (ctxs st4 (g + 1)) = cur st) by (unfold st4; ctx_tac; rewrite upd_same; cbn [c_set_state c_next]; congruence).
  rewrite Nx. unfold end_try. ctx_tac. replace (cur st =? g + 1) with false by lia.
  set (st5 := with_scope g s_dead _). assert (Sm : ctxs st5 (g + 1) = ctxs st4 (g + 1)) by (unfold st5; ctx_tac; apply upd_other; lia). rewrite Sm.
  assert (Cg : ctxs st4 (g + 1) = c_set_state v (ctxs st3 (g + 1))) by (unfold st4; ctx_tac; apply upd_same). rewrite Cg. cbn [c_set_state c_state c_ex c_panic]. rewrite Ho, Q9, Q10.
  assert (J : match ex_throw (S fuel) ex pm st5 with Ok (RJump j v', st') => j =? g + 1 | _ => false end = false).
  { destruct (ex_throw (S fuel) ex pm st5) as [[[|j w|] y]| | |] eqn:E; try reflexivity. destruct (throw_stable (S fuel) ex pm st5 _ _ E) as [_ J]. destruct (J j w eq_refl) as [-> _]. change (cur st5) with (cur st). lia. }
  exists st5, bs. split.
  { destruct (ex_throw (S fuel) ex pm st5) as [[[|j w|] y]| | |] eqn:E; try reflexivity. rewrite J. reflexivity. }
  split. { change (trace st5) with (trace st3). rewrite T3, K11, T1, ents_events, <- app_assoc. reflexivity. }
  split; [exact K12|]. split; [exact K14|]. constructor.
  - reflexivity.
  - change (hooks st5) with (hook_set r, hook_unwind r, arena r). unfold r. exact (hooks_init st).
  - change (ready st5) with (ready st3). congruence.
  - change (fresh st5) with (fresh st3). fold g. lia.
  - intros i Hi Hn. fold r. unfold st5. ctx_tac. rewrite upd_other by exact Hn. unfold st4. ctx_tac. fold g in Hi. rewrite upd_other by lia. rewrite Q12 by lia. rewrite K8 by lia. apply O1. lia.
  - fold r. unfold st5. ctx_tac. rewrite upd_same. f_equal. unfold st4. ctx_tac. rewrite upd_other by lia. rewrite Q12 by lia. rewrite K8 by lia. apply O1. lia.
  - intros i Hi. fold r. fold g in Hi. unfold st5. ctx_tac. rewrite upd_other by lia. unfold st4. ctx_tac. rewrite Q13 by lia. rewrite K7 by lia. apply O2. lia.
Qed.

(** The same for a whole program: what follows the guard is never reached. *)
Theorem recover_never_stops_run : forall l s ex pm fuel j a, thrower s ex pm -> ex <> 0 -> Forall calm_item l -> existsb is_malloc l = true ->
  exists bs, run (S (S fuel)) (Seq (Guard (fill l s)) (Act a)) j = Ok (acts l ++ undo (pend (ex, pm)) l bs, Uncaught ex pm) /\ length bs = mallocs l /\ NoDup bs.
Proof.
  intros l s ex pm fuel j a Th Hex Ca Ma. destruct (recover_never_stops l s ex pm fuel 0 root (start j) Th Hex Ca Ma) as (st' & bs & E & T & L & N & [B1 B2 B3 B4 B5 B6 B7]); [cbn; unfold root; lia|cbn; lia|].
  exists bs. split; [|auto]. unfold run. cbn [exec]. cbn [exec] in E. rewrite E. cbn [start trace app] in T. change (cur (start j)) with root in *. injection B2 as H1 H2 H3.
  assert (C : ctxs st' root = Ctx 0 0 0 0 false false true 0 1 1) by (rewrite B6; reflexivity). assert (S : scopes st' root = Scope true [] 0 0 false false 0 true) by (rewrite B7 by (cbn; unfold root; lia); reflexivity).
  cbn [ex_throw]. rewrite B1, C. cbn [c_unstack]. unfold setup. ctx_tac. rewrite H1. cbv iota. rewrite upd_same. cbn [c_thrown c_raii]. rewrite C. cbn [c_raii]. unfold raii_init. ctx_tac. rewrite B3. unfold record_err. ctx_tac. cbn [bind].
  rewrite S. unfold unwind. ctx_tac. rewrite !upd_same. cbn [c_set_unstack c_set_unwind c_swap_set c_thrown c_unwind c_stack s_prot andb c_ex c_panic]. rewrite ?C. cbn [c_stack unwind_ptrs Z.eqb bind andthen].
  change (root =? root) with true. cbv iota. unfold terminate. ctx_tac. rewrite B1, upd_same. cbn [c_set_stack c_set_unstack c_ex c_panic].
  assert (F : forall y, ready y = true -> s_arr (scopes y root) = true -> s_defers (scopes y root) = [] -> trace (free_root (free_root y)) = trace y).
  { intros y X1 X2 X3. unfold free_root at 2. rewrite X1, X2, X3. cbn [andb fold_left]. unfold free_root. ctx_tac. rewrite upd_same. cbn [s_reset s_arr]. rewrite andb_false_r. reflexivity. }
  rewrite !upd_same. cbn [c_set_unstack c_set_unwind c_swap_set c_thrown c_ex c_panic andthen]. rewrite F; ctx_tac; rewrite ?upd_same, ?S; auto. rewrite T. reflexivity.
Qed.
Example recover_never_stops_met := recover_never_stops_run [IDefer (DFun 1 (Some 5) None) 7; IMalloc 0; IAct 3; IDefer (DFun 2 None None) 8; IMalloc 1] (Panic 5) ex_panic 5 1 (fun _ => 0) 9
  ltac:(right; auto) ltac:(discriminate) ltac:(repeat constructor) eq_refl.
Example recover_never_stops_case : run 3 (Seq (Guard (fill [IDefer (DFun 1 (Some 5) None) 7; IMalloc 0; IAct 3; IDefer (DFun 2 None None) 8; IMalloc 1] (Panic 5))) (Act 9)) (fun _ => 0) =
  Ok ([EAct 3; EFree 6; EDefer 2 8; EFree 4; EDefer 1 7; ECaught 5], Uncaught ex_panic 5).
Proof. vm_compute. reflexivity. Qed.

(** C40: an exception thrown and handled inside such a guard releases everything the guard holds at that moment, before the handler
    runs; and what is deferred or allocated in the guard afterwards is never released. *)
Theorem handled_releases_guard : forall l l2 e a fuel lx sc st, e <> 0 -> Forall calm_item l -> existsb is_malloc l = true -> existsb (hit_item e) l = false -> 0 < cur st < fresh st -> 2 <= fresh st ->
  exists st' bs, exec (S (S fuel)) lx sc (Guard (fill l (Seq (Try (Throw e) (CatchAny (Act a) CNil) false Skip) (fill l2 Skip)))) st = Ok (RNorm, st') /\
    trace st' = trace st ++ acts l ++ undo e l bs ++ [EAct a] ++ acts l2 /\ length bs = mallocs l /\ NoDup bs /\ back st st'.
Proof.
  intros l l2 e a fuel lx sc st Hex Ca Ma Hh Hc Hf. destruct (in_guard_facts st Hc) as (R1 & G & C1 & F1 & D1 & P1 & A1 & T1 & N1 & X1 & O1 & O2). 
  cbn [exec]. set (r := raii_init st) in *. set (g := fresh st) in *. rewrite R1. cbn [new_ctx]. ctx_tac.
  remember (S (S fuel)) as F eqn:EF.
  assert (UL : forall id b h f v s, landing F id b h f v s = let st0 := with_ctx id (c_set_state v) s in
     let m := andthen (if v =? 0 then b st0 else Ok (RNorm, st0)) (fun st => andthen (h st) (fun st => andthen (f st) (fun st => end_try F id st))) in
     match m with Ok (RJump j v', st') => if j =? id then landing (S fuel) id b h f v' st' else m | _ => m end) by (intros; rewrite EF; reflexivity).
  rewrite UL. cbn zeta. set (st1 := with_ctx (g + 1) (c_set_state 0) _). assert (E1 : st1 = in_guard st) by (unfold st1, in_guard; fold r; rewrite R1; reflexivity). clearbody st1. subst st1. cbn [Z.eqb].
  set (st1 := in_guard st) in *. clearbody st1.
  set (rest := Seq (Try (Throw e) (CatchAny (Act a) CNil) false Skip) (fill l2 Skip)).
  destruct (fill_ok F (g + 1) g rest l st1 G) as (st2 & bs & E2 & [K1 K0 K2 K3 K4 K5 K6 K7 K8 K9 K10 K11 K12 K13 K14]); [rewrite P1; discriminate|].
  rewrite E2. unfold rest. clear rest E2. rewrite D1, app_nil_r in K4. rewrite P1, Ma in K5. cbn [orb] in K5. rewrite A1 in K0. rewrite C1 in *.
  destruct K1 as [G1 G2 G3 G4 G5 G6 G7 G8].
  assert (Ne : ents l bs <> []).
  { intros E. clear - E Ma K12. revert bs E K12. induction l as [|[f d|w|x] l IH]; intros bs E K12; cbn in *; [discriminate|destruct (ents l bs); discriminate| |apply (IH Ma bs); auto].
    destruct bs as [|b bs]; [discriminate|]. destruct (ents l bs); discriminate. }
  cbn [exec handle]. cbn [new_ctx]. rewrite K2. set (h := fresh st2) in *. rewrite UL. cbn zeta. set (st3 := with_ctx h (c_set_state 0) _).
  assert (C3 : ctxs st3 h = Ctx (g + 1) 0 0 (c_panic (ctxs st3 h)) false (c_unwind (ctxs st3 h)) (c_raii (ctxs st3 h)) 0 (c_data (ctxs st3 h)) (c_prev (ctxs st3 h))) by (unfold st3; ctx_tac; rewrite !upd_same; reflexivity).
  assert (Hcur : cur st3 = h) by reflexivity. assert (Hsc : scopes st3 = scopes st2) by reflexivity. assert (Har : arena st3 = g) by exact G5.
  assert (Hct : forall i, i <> h -> ctxs st3 i = ctxs st2 i) by (intros i Hi; unfold st3; ctx_tac; rewrite !upd_other by exact Hi; reflexivity).
  assert (Hfr : fresh st3 = h + 1) by reflexivity. assert (Htr : trace st3 = trace st2) by reflexivity. assert (Hrd : ready st3 = ready st2) by reflexivity. assert (Hh1 : hook_set st3 = true) by exact G3. assert (Hh2 : hook_unwind st3 = true) by exact G4.
  clearbody st3. replace (0 =? 0) with true by reflexivity. cbv iota.
  destruct (throw_releases (S fuel) e 0 st3 (ents l bs)) as (st4 & v & E4 & V4 & T4 & [Q1 Q2 Q3 Q4 Q5 Q6 Q7 Q8 Q0 Q9 Q10 Q11 Q12 Q13]); [|exact Hex|].
  { constructor; rewrite ?Hcur, ?Har, ?Hsc; auto. - rewrite C3. reflexivity. - apply ents_calm, Ca. - unfold root. lia. }
  change (pend (e, 0)) with e in *. rewrite <- EF in E4. rewrite E4. cbn [andthen]. rewrite Hcur, Har in *. rewrite Z.eqb_refl. rewrite ents_hit, Hh, C3 in V4. cbn [c_state] in V4. change (Z.lor 0 1) with 1 in V4. subst v.
  cbn [landing]. set (st5 := with_ctx h (c_set_state 1) st4). replace (1 =? 0) with false by reflexivity. cbv iota. cbn [andthen].
  assert (X5 : c_state (ctxs st5 h) =? 1 = true) by (unfold st5; ctx_tac; rewrite upd_same; reflexivity). rewrite X5.
  cbn [andthen]. set (st6 := emit (EAct a) _). unfold end_try.
  assert (L6 : cur st6 = h /\ c_next (ctxs st6 h) = g + 1 /\ c_state (ctxs st6 h) = 2 /\ (forall i, i <> h -> ctxs st6 i = ctxs st4 i) /\ scopes st6 = scopes st4 /\ trace st6 = trace st4 ++ [EAct a]).
  { unfold st6, st5. ctx_tac. rewrite !upd_same. cbn [c_set_state c_next c_state]. rewrite Q11, C3. split; [exact Q1|]. split; [reflexivity|]. split; [reflexivity|]. split; [intros i Hi; rewrite !upd_other by exact Hi; reflexivity|]. auto. }
  assert (M6 : fresh st6 = fresh st4 /\ hook_set st6 = true /\ hook_unwind st6 = true /\ arena st6 = g /\ ready st6 = true) by (repeat split; auto; change (ready st6) with (ready st4); congruence).
  clearbody st6. destruct L6 as (L1 & L2 & L3 & L4 & L5 & L6). destruct M6 as (M1 & M2 & M3 & M4 & M5). rewrite L1, Z.eqb_refl, L2.
  change (ctxs (set_cur (g + 1) st6)) with (ctxs st6). rewrite L3. replace (Z.odd 2) with false by reflexivity. cbv iota. cbn [andthen].
  set (st7 := set_cur (g + 1) st6).
  assert (Hlt : g + 1 < h) by (unfold h; lia).
  destruct (fill_ok F (g + 1) g Skip l2 st7) as (st8 & bs2 & E8 & [J1 J0 J2 J3 J4 J5 J6 J7 J8 J9 J10 J11 J12 J13 J14]).
  { constructor; unfold st7; ctx_tac; auto; try lia.
    - rewrite L4 by lia. rewrite Q12 by lia. rewrite Hct by lia. rewrite <- K2; exact G2.
    - rewrite L5. exact Q7. }
  { unfold st7. ctx_tac. rewrite L5, Q0. discriminate. }
  rewrite E8. cbn [exec andthen].
  assert (Ar8 : s_arr (scopes st8 g) = false) by (rewrite J0; unfold st7; ctx_tac; rewrite L5; exact Q8). destruct J1 as [I1 I2 I3 I4 I5 I6 I7 I8].
  assert (DF : deferred_free (ex_throw F) g st8 = Ok (RNorm, st8)) by (unfold deferred_free; rewrite I8, Ar8; reflexivity). rewrite DF. cbn [andthen].
  assert (X8 : forall i, i <> h -> i <> g + 1 -> ctxs st8 i = ctxs st2 i). { intros i Hi Hj. change (cur st7) with (g + 1) in *. rewrite J8 by exact Hj. unfold st7. ctx_tac. rewrite L4 by exact Hi. rewrite Q12 by exact Hi. apply Hct, Hi. }
  assert (Y8 : c_state (ctxs st8 (g + 1)) = 0 /\ c_next (ctxs st8 (g + 1)) = cur st).
  { change (cur st7) with (g + 1) in *. rewrite J9, J10. unfold st7. ctx_tac. rewrite L4 by lia. rewrite Q12 by lia. rewrite Hct by lia. rewrite K9, K10. auto. }
  destruct Y8 as [Y1 Y2]. rewrite Y1. replace (0 =? 1) with false by reflexivity. cbv iota. cbn [andthen]. rewrite Y2. ctx_tac. 
  unfold end_try. ctx_tac. replace (cur st =? g + 1) with false by lia. set (st9 := with_scope g s_dead _).
  assert (Sm : ctxs st9 (g + 1) = ctxs st8 (g + 1)) by (unfold st9; ctx_tac; apply upd_other; lia). rewrite Sm, Y1. replace (Z.odd 0) with false by reflexivity. cbv iota.
  exists st9, bs. split; [reflexivity|].
  split. { change (trace st9) with (trace st8). rewrite J11. change (trace st7) with (trace st6). rewrite L6, T4, Htr, K11, T1, ents_events, <- !app_assoc. reflexivity. }
  split; [exact K12|]. split; [exact K14|]. constructor.
  - reflexivity.
  - change (hooks st9) with (hook_set r, hook_unwind r, arena r). unfold r. exact (hooks_init st).
  - change (ready st9) with (ready st8). exact I1.
  - change (fresh st9) with (fresh st8). change (fresh st7) with (fresh st6) in J3. fold g. lia.
  - intros i Hi Hn. fold r. unfold st9. ctx_tac. rewrite upd_other by exact Hn. fold g in Hi. rewrite X8 by lia. rewrite K8 by lia. apply O1. lia.
  - fold r. unfold st9. ctx_tac. rewrite upd_same. f_equal. rewrite X8 by lia. rewrite K8 by lia. apply O1. lia.
  - intros i Hi. fold r. fold g in Hi. unfold st9. ctx_tac. rewrite upd_other by lia. rewrite J7 by lia. unfold st7. ctx_tac. rewrite L5, Q13 by lia. rewrite Hsc. rewrite K7 by lia. apply O2. lia.
Qed.
Example handled_releases_met := handled_releases_guard [IDefer (DFun 1 None None) 7; IMalloc 0; IAct 3] [IDefer (DFun 2 None None) 8; IMalloc 1; IAct 4] 10 5 1 0 root (start (fun _ => 0))
  ltac:(lia) ltac:(repeat constructor) eq_refl eq_refl ltac:(cbn; unfold root; lia) ltac:(cbn; lia).
Example handled_releases_case : run 3 (Guard (fill [IDefer (DFun 1 None None) 7; IMalloc 0; IAct 3] (Seq (Try (Throw 10) (CatchAny (Act 5) CNil) false Skip) (fill [IDefer (DFun 2 None None) 8; IMalloc 1; IAct 4] Skip)))) (fun _ => 0) =
  Ok ([EAct 3; EFree 4; EDefer 1 7; EAct 5; EAct 4], Finished).
Proof. vm_compute. reflexivity. Qed.

Print Assumptions recover_never_stops.
Print Assumptions recover_never_stops_run.
Print Assumptions handled_releases_guard.
