(** The simulation between the model and the reference semantics. *)
From Verif Require Import BaseLemmas ExcModel SpecExc ExcProofs.

(** ** deferred functions *)
Record dsame (id sc : Z) (st st' : est) : Prop := DSame {
  ds_cur : cur st' = cur st; ds_fresh : fresh st' = fresh st; ds_set : hook_set st' = hook_set st; ds_unwind : hook_unwind st' = hook_unwind st; ds_arena : arena st' = arena st; ds_ready : ready st' = ready st;
  ds_ctx : forall i, i <> id -> ctxs st' i = ctxs st i; ds_scope : forall i, i <> sc -> scopes st' i = scopes st i;
  ds_next : c_next (ctxs st' id) = c_next (ctxs st id); ds_ex : c_ex (ctxs st' id) = c_ex (ctxs st id); ds_panic : c_panic (ctxs st' id) = c_panic (ctxs st id);
  ds_unstack : c_unstack (ctxs st' id) = c_unstack (ctxs st id); ds_stack : c_stack (ctxs st' id) = c_stack (ctxs st id) }.
Record ssame (s s' : scope) : Prop := SSame { ss_arr : s_arr s' = s_arr s; ss_pend : s_pending s' = s_pending s; ss_prot : s_prot s' = s_prot s; ss_protector : s_protector s' = s_protector s; ss_live : s_live s' = s_live s }.
Lemma dsame_refl id sc st : dsame id sc st st.
Proof. constructor; auto. Qed.
Lemma dsame_trans id sc a b c : dsame id sc a b -> dsame id sc b c -> dsame id sc a c.
Proof.
  intros [A1 A2 A3 A4 A5 A6 A7 A8 A9 A10 A11 A12 A13] [B1 B2 B3 B4 B5 B6 B7 B8 B9 B10 B11 B12 B13]. constructor; try congruence.
  - intros i Hi. rewrite B7 by auto. auto.
  - intros i Hi. rewrite B8 by auto. auto.
Qed.
Lemma ssame_refl s : ssame s s.
Proof. constructor; auto. Qed.
Lemma ssame_trans a b c : ssame a b -> ssame b c -> ssame a c.
Proof. intros [] []; constructor; congruence. Qed.

Lemma with_scope_dsame id sc f st : dsame id sc st (with_scope sc f st).
Proof. constructor; ctx_tac; auto. intros i Hi. apply upd_other. auto. Qed.
Lemma emit_dsame id sc e st : dsame id sc st (emit e st).
Proof. constructor; auto. Qed.

Definition step_state (id : Z) (hit : bool) (st st' : est) : Prop := c_state (ctxs st' id) = if hit then 2 else c_state (ctxs st id).

Lemma run_entry_ok thr sc p st : arena st = sc -> sc <> 0 -> d_throw (fst p) = None ->
  exists st', run_entry thr (mk p) st = Ok (RNorm, st') /\ dsame (cur st) sc st st' /\ ssame (scopes st sc) (scopes st' sc) /\
    trace st' = trace st ++ EDefer (d_act (fst p)) (snd p) :: (if hits (s_pending (scopes st sc)) p then [ECaught (s_pending (scopes st sc))] else []) /\
    step_state (cur st) (hits (s_pending (scopes st sc)) p) st st'.
Proof.
  intros A Hs Hd. unfold run_entry. cbn [mk e_kind e_data]. ctx_tac. rewrite A. replace (sc =? 0) with false by lia. unfold hits. destruct (d_recover (fst p)) as [n|].
  - unfold is_caught. ctx_tac. cbn [bind]. rewrite Hd. destruct (Z.eqb_spec (s_pending (scopes st sc)) 0) as [E|E]; cbn [negb andb]; cbv iota.
    + eexists. split; [reflexivity|]. split; [|split; [|split]].
      * eapply dsame_trans; [apply (emit_dsame _ _ (EDefer (d_act (fst p)) (snd p)))|]. apply with_scope_dsame.
      * ctx_tac. rewrite upd_same. constructor; reflexivity.
      * reflexivity.
      * reflexivity.
    + destruct (Z.eqb_spec (s_pending (scopes st sc)) n) as [E2|E2]; cbv iota; (eexists; split; [reflexivity|]).
      * split; [|split; [|split]].
        -- constructor; ctx_tac; rewrite ?upd_same; auto; intros i Hi; rewrite upd_other by auto; reflexivity.
        -- ctx_tac. rewrite upd_same. constructor; reflexivity.
        -- ctx_tac. rewrite <- app_assoc, E2. reflexivity.
        -- unfold step_state. ctx_tac. rewrite upd_same. reflexivity.
      * split; [|split; [|split]].
        -- eapply dsame_trans; [apply (emit_dsame _ _ (EDefer (d_act (fst p)) (snd p)))|]. apply with_scope_dsame.
        -- ctx_tac. rewrite upd_same. constructor; reflexivity.
        -- reflexivity.
        -- reflexivity.
  - cbn [bind]. rewrite Hd, andb_false_r. eexists. split; [reflexivity|]. split; [apply emit_dsame|]. split; [apply ssame_refl|]. split; reflexivity.
Qed.

Lemma run_entries_ok thr sc D : forall ran st, arena st = sc -> sc <> 0 -> Forall (fun p => d_throw (fst p) = None) D ->
  exists st', run_entries thr sc ran (map mk D) st = Ok (RNorm, st') /\ dsame (cur st) sc st st' /\ ssame (scopes st sc) (scopes st' sc) /\
    trace st' = trace st ++ drain D (s_pending (scopes st sc)) /\ step_state (cur st) (existsb (hits (s_pending (scopes st sc))) D) st st'.
Proof.
  induction D as [|p D IH]; intros ran st A Hs Hd.
  { eexists. split; [reflexivity|]. split; [apply dsame_refl|]. split; [apply ssame_refl|]. split; [symmetry; apply app_nil_r|reflexivity]. }
  inversion Hd as [|? ? H1 H2]; subst. cbn [map run_entries].
  set (st1 := if negb (s_err (scopes st (arena st)) =? 0) && e_check (mk p) then with_scope (arena st) (s_set_rec false) st else st).
  assert (Q1 : dsame (cur st) (arena st) st st1 /\ ssame (scopes st (arena st)) (scopes st1 (arena st)) /\ trace st1 = trace st /\ c_state (ctxs st1 (cur st)) = c_state (ctxs st (cur st))).
  { unfold st1. destruct (_ && _); [|split; [apply dsame_refl|split; [apply ssame_refl|auto]]].
    split; [apply with_scope_dsame|]. split; [ctx_tac; rewrite upd_same; constructor; reflexivity|]. auto. }
  destruct Q1 as (D1 & S1 & T1 & C1). clearbody st1. pose proof D1 as [E1 _ _ _ E5 _ _ _ _ _ _ _ _].
  destruct (run_entry_ok thr (arena st) p st1 E5 Hs H1) as (st2 & R2 & D2 & S2 & T2 & C2). rewrite R2. cbn [andthen]. rewrite E1 in D2, C2.
  set (st3 := with_scope _ _ st2). 
  assert (D3 : dsame (cur st) (arena st) st2 st3) by apply with_scope_dsame.
  assert (S3 : ssame (scopes st2 (arena st)) (scopes st3 (arena st))) by (unfold st3; ctx_tac; rewrite upd_same; constructor; reflexivity).
  pose proof (dsame_trans _ _ _ _ _ D1 (dsame_trans _ _ _ _ _ D2 D3)) as D13. pose proof D13 as [F1 _ _ _ F5 _ _ _ _ _ _ _ _].
  pose proof (ssame_trans _ _ _ S1 (ssame_trans _ _ _ S2 S3)) as S13. pose proof (ss_pend _ _ S13) as P13. pose proof (ss_pend _ _ S1) as P1.
  destruct (IH (ran ++ [e_done (mk p)]) st3) as (st4 & R4 & D4 & S4 & T4 & C4); [exact F5|exact Hs|exact H2|].
  rewrite F1 in D4, C4. rewrite P13 in T4, C4. rewrite P1 in T2, C2.
  exists st4. split; [exact R4|]. split; [exact (dsame_trans _ _ _ _ _ D13 D4)|]. split; [exact (ssame_trans _ _ _ S13 S4)|]. split.
  - rewrite T4. change (trace st3) with (trace st2). rewrite T2, T1, <- app_assoc. cbn [drain flat_map]. reflexivity.
  - unfold step_state in *. rewrite C4. cbn [existsb]. unfold st3. ctx_tac. rewrite C2, C1. destruct (hits _ p), (existsb _ D); reflexivity.
Qed.

Lemma deferred_ok thr sc g st : arena st = sc -> sc <> 0 -> scope_ok (scopes st sc) g -> Forall (fun p => d_throw (fst p) = None) (fst g) ->
  exists st', deferred_free thr sc st = Ok (RNorm, st') /\ dsame (cur st) sc st st' /\
    trace st' = trace st ++ drain (fst g) (snd g) /\ step_state (cur st) (existsb (hits (snd g)) (fst g)) st st'.
Proof.
  intros A Hs [O1 O2 O3 O4 O5 O6] O7. unfold deferred_free. rewrite O5, O1, O2. cbn [negb].
  set (st1 := with_scope sc (s_set_rec (s_err (scopes st sc) =? 0)) st).
  assert (S1 : ssame (scopes st sc) (scopes st1 sc)) by (unfold st1; ctx_tac; rewrite upd_same; constructor; reflexivity).
  assert (D1 : dsame (cur st) sc st st1) by apply with_scope_dsame.
  assert (P1 : s_pending (scopes st1 sc) = snd g) by (rewrite (ss_pend _ _ S1); exact O6).
  destruct (run_entries_ok thr sc (fst g) [] st1 A Hs O7) as (st2 & -> & D2 & S2 & T2 & C2). cbn [andthen]. rewrite P1 in T2, C2.
  pose proof (ssame_trans _ _ _ S1 S2) as [U1 U2 U3 U4 U5]. unfold settle_protector. rewrite U3, O3. cbn [andb bind].
  unfold drop_protector. rewrite U4, O4. replace (0 =? 0) with true by reflexivity.
  eexists. split; [reflexivity|]. split; [|split].
  - eapply dsame_trans; [exact D1|]. eapply dsame_trans; [exact D2|]. apply with_scope_dsame.
  - exact T2.
  - exact C2.
Qed.

(** ** the reference semantics *)
Lemma ref_err :
  (forall s h g t e g', ref s h g = (t, Raised e, g') -> snd g' = pend e) /\
  (forall cs e0 g t e g', snd g = pend e0 -> rhandle cs e0 g = (t, Raised e, g') -> snd g' = pend e).
Proof.
  apply stmt_clauses_ind; intros; cbn [ref rhandle] in *; try discriminate.
  - destruct (ref s1 h g) as [[t1 r1] g1] eqn:E1. destruct r1.
    + destruct (ref s2 h g1) as [[t2 r2] g2] eqn:E2. injection H1 as <- -> <-. eauto.
    + injection H1 as <- -> <-. eauto.
  - injection H as <- <- <-. reflexivity.
  - injection H as <- <- <-. reflexivity.
  - injection H as <- <- <-. reflexivity.
  - destruct (ref b h g) as [[t1 r1] g1] eqn:E1.
    destruct (match r1 with Done => ([], Done, g1) | Raised e => rhandle cs e g1 end) as [[t2 r2] g2] eqn:E2.
    destruct (if hf then ref f h g2 else ([], Done, g2)) as [[t3 r3] g3] eqn:E3.
    destruct r3 as [|e3]; [destruct r2 as [|e2]|]; try discriminate.
    + injection H2 as <- <- <-. reflexivity.
    + injection H2 as <- <- <-. reflexivity.
  - destruct (ref b h ([], 0)) as [[t1 r1] g1] eqn:E1. destruct r1; [discriminate|]. destruct (existsb _ _); [discriminate|]. injection H0 as <- <- <-. reflexivity.
  - injection H0 as <- <- <-. exact H.
  - destruct (e =? fst e0); eauto.
  - eauto.
  - injection H2 as <- <- <-. assumption.
Qed.

(** Programs of [core] defer only functions that do not throw. *)
Lemma core_loud : (forall s inh ing, core inh ing s -> loud inh ing s) /\ (forall cs ing, core_c ing cs -> loud_c ing cs).
Proof. apply stmt_clauses_ind; intros; cbn [core core_c loud loud_c] in *; intuition eauto. Qed.
Lemma ref_quiet :
  (forall s inh ing h g, core inh ing s -> Forall (fun p => d_throw (fst p) = None) (fst g) -> Forall (fun p => d_throw (fst p) = None) (fst (snd (ref s h g)))) /\
  (forall cs ing e g, core_c ing cs -> Forall (fun p => d_throw (fst p) = None) (fst g) -> Forall (fun p => d_throw (fst p) = None) (fst (snd (rhandle cs e g)))).
Proof.
  apply stmt_clauses_ind; intros; cbn [core core_c ref rhandle snd fst] in *; auto.
  - destruct H1 as [A B]. specialize (H _ _ h g A H2). destruct (ref s1 h g) as [[t1 r1] g1]. cbn [fst snd] in *. destruct r1; [|exact H]. specialize (H0 _ _ h g1 B H). destruct (ref s2 h g1) as [[t2 r2] g2]. exact H0.
  - destruct H2 as (A & B & C). specialize (H _ _ h g A H3). destruct (ref b h g) as [[t1 r1] g1]. cbn [fst snd] in *.
    assert (Q : Forall (fun p => d_throw (fst p) = None) (fst (snd (match r1 with Done => ([], Done, g1) | Raised e => rhandle cs e g1 end)))) by (destruct r1; [exact H|eapply H0; eauto]).
    destruct (match r1 with Done => _ | Raised e => _ end) as [[t2 r2] g2]. cbn [fst snd] in *.
    assert (Q3 : Forall (fun p => d_throw (fst p) = None) (fst (snd (if hf then ref f h g2 else ([], Done, g2))))) by (destruct hf; [eapply H1; eauto|exact Q]).
    destruct (if hf then _ else _) as [[t3 r3] g3]. cbn [fst snd] in *. destruct r3; [destruct r2|]; exact Q3.
  - destruct (ref b h ([], 0)) as [[t1 r1] g1]. destruct r1; [exact H1|]. destruct (existsb _ _); exact H1.
  - constructor; [apply H|exact H0].
  - destruct H1 as [A B]. destruct (e =? fst e0); [eapply H; eauto|eapply H0; eauto].
  - destruct H1 as [A B]. eapply H; eauto.
Qed.

(** ** inside a block *)
Record inside (sc : Z) (st0 : est) (id : Z) (st : est) (g : gst) : Prop := Inside {
  in_id : id = fresh st0; in_cur : cur st = id; in_next : c_next (ctxs st id) = cur st0; in_set : hook_set st = hook_set st0; in_unwind : hook_unwind st = hook_unwind st0; in_arena : arena st = arena st0;
  in_ctx : forall i, i < fresh st0 -> csame (ctxs st0 i) (ctxs st i);
  in_scope : forall i, 2 <= i < fresh st0 -> i <> sc -> scopes st i = scopes st0 i;
  in_inv : inv st sc g }.

Lemma inside_post sc st0 id st g t r g' m : 2 <= fresh st0 -> inside sc st0 id st g -> post sc st t r g' m ->
  exists x st', m = Ok (x, st') /\ trace st' = trace st ++ t /\ inside sc st0 id st' g' /\
    match r with
    | Done => x = RNorm /\ csame (ctxs st id) (ctxs st' id)
    | Raised e => x = RJump id (Z.lor (c_state (ctxs st id)) 1) /\ cthrown e (ctxs st id) (ctxs st' id)
    end.
Proof.
  intros Hf [I1 I2 I3 I4 I5 I6 I7 I8 I9] (x & st' & -> & T & E & _ & [K1 K2 K3 K4 K5 K6 K7] & N). exists x, st'. split; [reflexivity|]. split; [exact T|].
  unfold ends in E. rewrite I2 in E. replace (id =? root) with false in E by (unfold root; lia).
  destruct I9 as [V1 _ _ _ _ _ _].
  split; [|destruct r; exact E]. constructor; auto; try congruence.
  - destruct r; destruct E as [_ [? ? ? ? ? ?]]; congruence.
  - intros i Hi. eapply csame_trans; [apply I7; auto|]. apply K6; [lia|rewrite I2; lia].
  - intros i Hi Hs. rewrite K7; [apply I8; auto|lia|auto].
Qed.

(** Leaving the block: the enclosing context becomes current again. *)
Lemma inside_pop sc st0 id st g g0 : inv st0 sc g0 -> inside sc st0 id st g ->
  let st1 := set_cur (cur st0) st in keep sc st0 st1 /\ inv st1 sc g /\ csame (ctxs st0 (cur st0)) (ctxs st1 (cur st0)) /\ csame (ctxs st id) (ctxs st1 id).
Proof.
  intros [J1 J2 J3 J4 J5 J6 J7] [I1 I2 I3 I4 I5 I6 I7 I8 [V1 V2 V3 V4 V5 V6 V7]]. cbn zeta.
  assert (C : csame (ctxs st0 (cur st0)) (ctxs st (cur st0))) by (apply I7; lia).
  split; [|split; [|split; [exact C|apply csame_refl]]].
  - constructor; ctx_tac; auto; lia.
  - destruct C as [? ? ? ? C5 C6]. constructor; ctx_tac; auto; try lia; congruence.
Qed.

Lemma post_prefix sc st0 st1 t0 t r g m : keep sc st0 st1 -> csame (ctxs st0 (cur st0)) (ctxs st1 (cur st0)) -> trace st1 = trace st0 ++ t0 ->
  post sc st1 t r g m -> post sc st0 (t0 ++ t) r g m.
Proof.
  intros K C T (x & st' & E & T' & En & D & K' & N). exists x, st'. split; [exact E|]. split; [rewrite T', T, app_assoc; reflexivity|].
  split; [|split; [exact D|split; [exact (keep_trans _ _ _ _ K K')|exact N]]].
  pose proof (k_cur _ _ _ K) as Kc. unfold ends in *. rewrite Kc in En. destruct r as [|e].
  - destruct En as [-> En]. split; [reflexivity|]. exact (csame_trans _ _ _ C En).
  - destruct (cur st0 =? root); [exact En|]. destruct En as [-> En]. split; [rewrite (cs_state _ _ C); reflexivity|]. exact (csame_thrown _ _ _ _ C En).
Qed.

Lemma post_norm sc st t g st' : trace st' = trace st ++ t -> keep sc st st' -> csame (ctxs st (cur st)) (ctxs st' (cur st)) -> inv st' sc g ->
  post sc st t Done g (Ok (RNorm, st')).
Proof.
  intros T K C N. exists RNorm, st'. split; [reflexivity|]. split; [exact T|]. split; [split; [reflexivity|exact C]|]. split; [|auto].
  intros R. apply (i_root _ _ _ N R).
Qed.

Lemma post_not_here sc st t r g m id : cur st <> id -> post sc st t r g m ->
  match m with Ok (RJump j v', st') => j =? id | _ => false end = false.
Proof.
  intros Hc (x & st' & -> & _ & E & _). unfold ends in E. destruct r.
  - destruct E as [-> _]. reflexivity.
  - destruct (cur st =? root); [rewrite E; reflexivity|]. destruct E as [-> _]. lia.
Qed.

(** One return of setjmp. *)
Definition pass (fuel : nat) (id : Z) (body hand fin : est -> out (res * est)) (v : Z) (st : est) : out (res * est) :=
  andthen (if v =? 0 then body (with_ctx id (c_set_state v) st) else Ok (RNorm, with_ctx id (c_set_state v) st)) (fun st =>
  andthen (hand st) (fun st => andthen (fin st) (fun st => end_try fuel id st))).
Lemma landing_jump f id body hand fin v st v' st' : pass (S f) id body hand fin v st = Ok (RJump id v', st') ->
  landing (S f) id body hand fin v st = landing f id body hand fin v' st'.
Proof. intros E. cbn [landing]. unfold pass in E. rewrite E, Z.eqb_refl. reflexivity. Qed.
Lemma landing_end f id body hand fin v st sc st0 t r g : cur st0 <> id -> post sc st0 t r g (pass (S f) id body hand fin v st) ->
  post sc st0 t r g (landing (S f) id body hand fin v st).
Proof.
  intros Hc P. cbn [landing]. unfold pass in P. pose proof (post_not_here sc st0 t r g _ id Hc P) as Q. 
  destruct (andthen _ _) as [[[|j v'|] st']| | |]; try exact P. rewrite Q. exact P.
Qed.

(** ex_end_try, once the enclosing context is current. *)
Lemma end_try_post f sc st0 st1 id g0 g t0 r : cur st0 <> id -> keep sc st0 st1 -> csame (ctxs st0 (cur st0)) (ctxs st1 (cur st0)) -> trace st1 = trace st0 ++ t0 -> inv st1 sc g -> inv st0 sc g0 ->
  match r with Done => Z.odd (c_state (ctxs st1 id)) = false | Raised e => Z.odd (c_state (ctxs st1 id)) = true /\ c_ex (ctxs st1 id) = fst e /\ c_panic (ctxs st1 id) = snd e end ->
  post sc st0 t0 r (match r with Done => g | Raised e => (fst g, pend e) end) (end_try (S f) id st1).
Proof.
  intros Hc K C T N N0 H. unfold end_try. rewrite (k_cur _ _ _ K). replace (cur st0 =? id) with false by lia. destruct r as [|e].
  - rewrite H. apply post_norm; auto.
  - destruct H as (-> & -> & ->). rewrite <- (app_nil_r t0). apply post_prefix with st1; auto. destruct e as [a b]. apply throw_post. exact N.
Qed.

(** The finally part and ex_end_try. *)
Definition final_of (fuel : nat) (id sc : Z) (hf : bool) (f : stmt) : est -> out (res * est) :=
  fun st => if hf then exec fuel id sc f (set_cur (c_next (ctxs st id)) st) else Ok (RNorm, st).
Definition held (r : rres) (c : ctx) : Prop :=
  match r with Done => Z.odd (c_state c) = false | Raised e => Z.odd (c_state c) = true /\ c_ex c = fst e /\ c_panic c = snd e end.
Lemma held_same r c c' : csame c c' -> held r c -> held r c'.
Proof. intros [? ? ? ? ? ?]. unfold held. destruct r; [congruence|]. intros (? & ? & ?). split; [congruence|split; congruence]. Qed.

Lemma tail_post fuel f id sc hf fs st0 st g0 g t0 r2 (h : exn) :
  inv st0 sc g0 -> inside sc st0 id st g -> trace st = trace st0 ++ t0 -> held r2 (ctxs st id) ->
  (hf = true -> post sc (set_cur (cur st0) st) (fst (fst (ref fs h g))) (snd (fst (ref fs h g))) (snd (ref fs h g)) (exec fuel id sc fs (set_cur (cur st0) st))) ->
  let '(t3, r3, g3) := if hf then ref fs h g else ([], Done, g) in
  let r := match r3 with Raised e => Raised e | Done => r2 end in
  post sc st0 (t0 ++ t3) r (match r with Raised e => (fst g3, pend e) | Done => g3 end) (andthen (final_of fuel id sc hf fs st) (fun st => end_try (S f) id st)).
Proof.
  intros N0 In T Hd IH. pose proof In as [I1 I2 I3 _ _ _ _ _ I9]. pose proof N0 as [J1 _ _ _ _ _ _].
  destruct (inside_pop sc st0 id st g g0 N0 In) as (K & N & C & Ci). unfold final_of. rewrite I3. set (st1 := set_cur (cur st0) st) in *.
  assert (Hne : cur st0 <> id) by lia.
  destruct hf.
  - specialize (IH eq_refl). fold st1 in IH. destruct (ref fs h g) as [[t3 r3] g3] eqn:Rf. cbn [fst snd] in IH. cbn zeta.
    pose proof IH as (x & st2 & Ex & T2 & E2 & D2 & K2 & N2). rewrite Ex in *. unfold ends in E2. change (cur st1) with (cur st0) in E2. destruct r3 as [|e].
    + destruct E2 as [-> C2]. cbn [andthen].
      apply end_try_post with (st0 := st0) (g0 := g0); auto.
      * exact (keep_trans _ _ _ _ K K2).
      * exact (csame_trans _ _ _ C C2).
      * rewrite T2. change (trace st1) with (trace st). rewrite T, app_assoc. reflexivity.
      * apply (held_same r2 (ctxs st1 id)); [|exact (held_same _ _ _ Ci Hd)]. apply (k_ctx _ _ _ K2); [unfold st1; ctx_tac; destruct I9 as [V1 _ _ _ _ _ _]; lia|unfold st1; ctx_tac; lia].
    + assert (G3 : g3 = (fst g3, pend e) -> post sc st0 (t0 ++ t3) (Raised e) (fst g3, pend e) (andthen (Ok (x, st2)) (fun st => end_try (S f) id st))).
      { intros Eg. apply post_prefix with st1; auto. rewrite <- Eg. assert (A : andthen (Ok (x, st2)) (fun st => end_try (S f) id st) = Ok (x, st2)).
        { destruct (cur st0 =? root); [rewrite E2; reflexivity|destruct E2 as [-> _]; reflexivity]. }
        rewrite A. exact IH. }
      apply G3. destruct g3 as [D3 err3]. cbn [fst]. f_equal. exact (proj1 ref_err _ _ _ _ _ _ Rf).
  - rewrite app_nil_r. cbn zeta. cbn [andthen]. unfold end_try at 1. rewrite I2, Z.eqb_refl, I3. fold st1.
    assert (Q := end_try_post f sc st0 st1 id g0 g t0 r2 Hne K C T N N0 (held_same _ _ _ Ci Hd)).
    unfold end_try in Q. change (cur st1) with (cur st0) in Q. replace (cur st0 =? id) with false in Q by lia. exact Q.
Qed.

(** ** whole programs *)
Lemma handle_skip fuel id sc cs st : c_state (ctxs st id) <> 1 -> handle fuel id sc cs st = Ok (RNorm, st).
Proof.
  intros H. induction cs as [|e s cs IH|s cs IH|s cs IH]; cbn [handle]; [reflexivity| | |]; replace (c_state (ctxs st id) =? 1) with false by lia; cbn [andb andthen]; exact IH.
Qed.
Lemma inside_state sc st0 id st g v : 2 <= fresh st0 -> inside sc st0 id st g -> inside sc st0 id (with_ctx id (c_set_state v) st) g.
Proof.
  intros Hf [I1 I2 I3 I4 I5 I6 I7 I8 [V1 V2 V3 V4 V5 V6 V7]]. constructor; ctx_tac; auto.
  - rewrite upd_same. exact I3.
  - intros i Hi. rewrite upd_other by lia. auto.
  - constructor; ctx_tac; auto; rewrite I2, upd_same in *; cbn [c_set_state c_unstack c_stack]; congruence.
Qed.
Lemma new_ctx_inside sc st g : 2 <= fresh st -> inv st sc g -> exists st1, new_ctx st = (fresh st, st1) /\ inside sc st (fresh st) st1 g /\ trace st1 = trace st.
Proof.
  intros Hf I. pose proof I as [I1 I2 I3 I4 I5 I6 I7]. eexists. split; [reflexivity|]. split; [|reflexivity]. constructor; ctx_tac; auto.
  - rewrite upd_same. reflexivity.
  - intros i Hi. rewrite upd_other by lia. apply csame_refl.
  - constructor; ctx_tac; rewrite ?upd_same; auto; [lia|]. intros Q. destruct (I6 Q) as (A & B & C & D). split; [auto|]. split; [auto|]. split; [lia|auto].
Qed.

Definition Pstmt (s : stmt) : Prop := forall inh ing fuel lx sc st h g, loud inh ing s -> inv st sc g -> 2 <= fresh st -> (ing = true -> hook_set st = true) ->
  (inh = true -> lx = cur st /\ c_ex (ctxs st lx) = fst h /\ c_panic (ctxs st lx) = snd h) ->
  post sc st (fst (fst (ref s h g))) (snd (fst (ref s h g))) (snd (ref s h g)) (exec (S (S (S fuel))) lx sc s st).
Definition Pclauses (cs : clauses) : Prop := forall ing fuel id sc st0 st e g, loud_c ing cs -> inside sc st0 id st g -> 2 <= fresh st0 -> (ing = true -> hook_set st = true) ->
  c_state (ctxs st id) = 1 -> c_ex (ctxs st id) = fst e -> c_panic (ctxs st id) = snd e ->
  exists x st', handle (S (S (S fuel))) id sc cs st = Ok (x, st') /\ trace st' = trace st ++ fst (fst (rhandle cs e g)) /\ inside sc st0 id st' (snd (rhandle cs e g)) /\
    match snd (fst (rhandle cs e g)) with
    | Done => x = RNorm /\ held Done (ctxs st' id) /\ c_state (ctxs st' id) <> 1
    | Raised e' => (x = RNorm /\ held (Raised e') (ctxs st' id)) \/ (x = RJump id 3 /\ c_ex (ctxs st' id) = fst e' /\ c_panic (ctxs st' id) = snd e')
    end.

(** A clause that matches. *)
Lemma clause_runs ing fuel id sc st0 st e g s cs : Pstmt s -> loud true ing s -> inside sc st0 id st g -> 2 <= fresh st0 -> (ing = true -> hook_set st = true) ->
  c_ex (ctxs st id) = fst e -> c_panic (ctxs st id) = snd e ->
  exists x st', andthen (exec (S (S (S fuel))) id sc s (with_ctx id (c_set_state 2) st)) (fun st => handle (S (S (S fuel))) id sc cs st) = Ok (x, st') /\
    trace st' = trace st ++ fst (fst (ref s e g)) /\ inside sc st0 id st' (snd (ref s e g)) /\
    match snd (fst (ref s e g)) with
    | Done => x = RNorm /\ held Done (ctxs st' id) /\ c_state (ctxs st' id) <> 1
    | Raised e' => x = RJump id 3 /\ c_ex (ctxs st' id) = fst e' /\ c_panic (ctxs st' id) = snd e'
    end.
Proof.
  intros IH Hc In Hf Hi He Hp. pose proof (inside_state sc st0 id st g 2 Hf In) as In2. set (st1 := with_ctx id (c_set_state 2) st) in *.
  assert (S1 : c_state (ctxs st1 id) = 2 /\ c_ex (ctxs st1 id) = fst e /\ c_panic (ctxs st1 id) = snd e) by (unfold st1; ctx_tac; rewrite upd_same; auto).
  destruct S1 as (S1 & S2 & S3). pose proof In2 as [A1 A2 A3 A4 _ _ _ _ A9].
  assert (P : post sc st1 (fst (fst (ref s e g))) (snd (fst (ref s e g))) (snd (ref s e g)) (exec (S (S (S fuel))) id sc s st1)).
  { apply (IH true ing); auto. pose proof (i_cur _ _ _ A9); lia. }
  destruct (inside_post sc st0 id st1 g _ _ _ _ Hf In2 P) as (x & st' & -> & T & In' & R).
  destruct (snd (fst (ref s e g))) as [|e'].
  - destruct R as [-> C]. cbn [andthen]. pose proof (cs_state _ _ C) as C2. rewrite S1 in C2. rewrite handle_skip by lia. exists RNorm, st'. split; [reflexivity|]. split; [exact T|]. split; [exact In'|].
    split; [reflexivity|]. unfold held. rewrite C2. split; [reflexivity|lia].
  - destruct R as [-> C]. cbn [andthen]. eexists _, st'. split; [reflexivity|]. split; [exact T|]. split; [exact In'|]. rewrite S1. split; [reflexivity|]. destruct C; auto.
Qed.

(** What follows setjmp returning [v], once the handlers have fallen through. *)
Lemma after_handlers fuel0 f ing sc st0 st id g0 g t0 r2 hf fs (h : exn) :
  inv st0 sc g0 -> 2 <= fresh st0 -> inside sc st0 id st g -> trace st = trace st0 ++ t0 -> held r2 (ctxs st id) ->
  Pstmt fs -> (hf = true -> loud false ing fs) -> (ing = true -> hook_set st0 = true) ->
  let '(t3, r3, g3) := if hf then ref fs h g else ([], Done, g) in
  let r := match r3 with Raised e => Raised e | Done => r2 end in
  post sc st0 (t0 ++ t3) r (match r with Raised e => (fst g3, pend e) | Done => g3 end) (andthen (final_of (S (S (S fuel0))) id sc hf fs st) (fun st => end_try (S f) id st)).
Proof.
  intros N0 Hf In T Hd IH Hc Hi. apply tail_post with (g0 := g0); auto. intros ->.
  destruct (inside_pop sc st0 id st g g0 N0 In) as (K & N & _ & _). apply (IH false ing); auto.
  - pose proof (k_fresh _ _ _ K). lia.
  - intros Q. rewrite (k_set _ _ _ K). auto.
  - discriminate.
Qed.

(** Entering and leaving a guard. *)
Definition enter_guard (st : est) : est :=
  set_arena (fresh st) (set_fresh (fresh st + 1) (with_scope (fresh st) (fun _ => Scope true [] 0 0 false false 0 true) (set_hooks true true st))).
Definition leave_guard (id a0 : Z) (hs hu : bool) (g : Z) : est -> out (res * est) := fun st =>
  let st := set_cur (c_next (ctxs st id)) st in
  let st := set_hooks hs hu (with_ctx (cur st) c_swap_reset (set_arena a0 st)) in
  Ok (RNorm, with_scope g s_dead st).
Lemma enter_inv st sc g : inv st sc g -> 2 <= fresh st -> ready st = true -> inv (enter_guard st) (fresh st) ([], 0).
Proof.
  intros [I1 I2 I3 I4 I5 I6 I7] Hf R. constructor; unfold enter_guard; ctx_tac; auto; try discriminate.
  - lia.
  - intros _. rewrite upd_other by (unfold root; lia). auto.
  - intros _. rewrite upd_same. split; [auto|]. split; [auto|]. split; [lia|]. constructor; auto.
Qed.
Lemma leave_ok st st1 id sc g g1 st5 st6 :
  inv st sc g -> 2 <= fresh st -> st1 = raii_init st -> id = fresh st1 + 1 ->
  inside (fresh st1) (enter_guard st1) id st5 g1 -> dsame id (fresh st1) st5 st6 ->
  exists st7, leave_guard id (arena st1) (hook_set st1) (hook_unwind st1) (fresh st1) st6 = Ok (RNorm, st7) /\ keep sc st st7 /\ inv st7 sc g /\
    csame (ctxs st (cur st)) (ctxs st7 (cur st)) /\ trace st7 = trace st6 /\ cur st <> id /\ ctxs st7 id = ctxs st6 id.
Proof.
  intros N Hf E1 Eid In D. pose proof (raii_init_keep st sc g N ltac:(lia)) as Q. cbn zeta in Q. rewrite <- E1 in Q. destruct Q as (K1 & N1 & C1 & T1 & R1 & F1). clear E1.
  pose proof K1 as [K1a K1b K1c K1d K1e K1f K1g]. pose proof N1 as [M1 M2 M3 M4 M5 M6 M7].
  destruct In as [A1 A2 A3 A4 A5 A6 A7 A8 [V1 V2 V3 V4 V5 V6 V7]]. destruct D as [B1 B2 B3 B4 B5 B6 B7 B8 B9 B10 B11 B12 B13].
  change (cur (enter_guard st1)) with (cur st1) in A3. change (fresh (enter_guard st1)) with (fresh st1 + 1) in *. change (hook_set (enter_guard st1)) with true in A4.
  assert (Hne : cur st <> id) by (rewrite K1a in M1; lia).
  destruct (V6 A4) as (R5 & _ & _ & _).
  assert (Cc : forall i, i < fresh st -> csame (ctxs st1 i) (ctxs st6 i)).
  { intros i Hi. rewrite B7 by lia. change (ctxs st1 i) with (ctxs (enter_guard st1) i). apply A7. lia. }
  assert (Sc : forall i, 2 <= i < fresh st -> scopes st6 i = scopes st1 i).
  { intros i Hi. rewrite B8 by lia. rewrite A8 by lia. unfold enter_guard. ctx_tac. apply upd_other. lia. }
  eexists. split; [reflexivity|]. ctx_tac. rewrite B9, A3, K1a in *.
  assert (C7 : csame (ctxs st (cur st)) (c_swap_reset (ctxs st6 (cur st)))).
  { eapply csame_trans; [exact C1|]. eapply csame_trans; [apply Cc; destruct N; lia|]. constructor; reflexivity. }
  split; [|split; [|split; [|split; [|split]]]]; auto.
  - constructor; ctx_tac; auto; try lia.
    + intros i Hi Hc. rewrite upd_other by auto. eapply csame_trans; [apply K1f; auto|]. apply Cc. lia.
    + intros i Hi Hs. rewrite upd_other by lia. rewrite Sc by auto. apply K1g; auto.
  - destruct C7 as [? ? ? ? C5 C6]. destruct N as [X1 X2 X3 X4 X5 X6 X7]. constructor; ctx_tac; rewrite ?upd_same.
    + lia.
    + rewrite C5. exact X2.
    + rewrite C6. exact X3.
    + exact M4.
    + intros _. rewrite upd_other by (unfold root; lia). rewrite B8 by (unfold root; lia). apply V5. exact R5.
    + intros Hk. destruct (M6 Hk) as (Y1 & Y2 & Y3 & Y4). split; [rewrite B6; exact R5|]. split; [exact Y2|]. split; [lia|]. rewrite upd_other by lia. rewrite Sc by lia. exact Y4.
    + exact M7.
  - rewrite upd_same. exact C7.
  - apply upd_other. auto.
Qed.

Lemma defer_inv st sc g f d : inv st sc g -> hook_set st = true ->
  inv (with_scope sc (fun s => s_set_defers (Entry (DUser f) d true :: s_defers s) s) st) sc ((f, d) :: fst g, snd g).
Proof.
  intros [I1 I2 I3 I4 I5 I6 I7] Hk. destruct (I6 Hk) as (R & A & B & [O1 O2 O3 O4 O5 O6]). constructor; ctx_tac; auto.
  - intros _. rewrite upd_other by (unfold root; lia). auto.
  - intros _. rewrite upd_same. split; [auto|]. split; [auto|]. split; [lia|]. constructor; cbn [s_set_defers s_arr s_defers s_prot s_protector s_live fst snd map]; auto.
    rewrite O2. reflexivity.
Qed.

Lemma exec_ref : (forall s, Pstmt s) /\ (forall cs, Pclauses cs).
Proof.
  apply stmt_clauses_ind; unfold Pclauses; try (intros; unfold Pstmt; intros; match goal with H : loud _ _ _ |- _ => destruct H end; fail).
  - (* Skip *) intros inh ing fuel lx sc st h g _ N Hf _ _. cbn [ref fst snd exec]. apply post_norm; auto; [symmetry; apply app_nil_r|apply keep_refl|apply csame_refl].
  - (* Act *) intros a inh ing fuel lx sc st h g _ N Hf _ _. cbn [ref fst snd exec]. apply post_norm; auto.
    + constructor; ctx_tac; auto; try lia. intros. apply csame_refl.
    + apply csame_refl.
    + destruct N as [N1 N2 N3 N4 N5 N6 N7]. constructor; auto.
  - (* Seq *) intros s1 IH1 s2 IH2 inh ing fuel lx sc st h g [H1 H2] N Hf Hi Hh. cbn [exec ref].
    pose proof (IH1 inh ing fuel lx sc st h g H1 N Hf Hi Hh) as P1. destruct (ref s1 h g) as [[t1 r1] g1]. cbn [fst snd] in P1.
    pose proof P1 as (x & st1 & E1 & T1 & En & _ & K1 & N1). rewrite E1 in *. destruct r1 as [|e].
    + destruct En as [-> C1]. cbn [andthen].
      assert (P2 : post sc st1 (fst (fst (ref s2 h g1))) (snd (fst (ref s2 h g1))) (snd (ref s2 h g1)) (exec (S (S (S fuel))) lx sc s2 st1)).
      { apply (IH2 inh ing); auto; [pose proof (k_fresh _ _ _ K1); lia|intros Q; rewrite (k_set _ _ _ K1); auto|].
        intros Q. destruct (Hh Q) as (-> & A & B). rewrite (k_cur _ _ _ K1), (cs_ex _ _ C1), (cs_panic _ _ C1). auto. }
      destruct (ref s2 h g1) as [[t2 r2] g2]. cbn [fst snd] in *. apply post_prefix with st1; auto.
    + cbn [fst snd]. assert (A : andthen (Ok (x, st1)) (fun st => exec (S (S (S fuel))) lx sc s2 st) = Ok (x, st1)).
      { unfold ends in En. destruct (cur st =? root); [rewrite En; reflexivity|destruct En as [-> _]; reflexivity]. }
      rewrite A. exact P1.
  - (* Throw *) intros e inh ing fuel lx sc st h g He N Hf _ _. cbn [ref fst snd exec]. apply throw_post. exact N.
  - (* Panic *) intros m inh ing fuel lx sc st h g He N Hf _ _. cbn [ref fst snd exec]. apply throw_post. exact N.
  - (* Rethrow *) intros inh ing fuel lx sc st h g Hc N Hf _ Hh. cbn [ref fst snd exec]. destruct (Hh Hc) as (_ & -> & ->). destruct h as [a b]. apply throw_post. exact N.
  - (* Try *) intros b IHb cs IHc hf f IHf inh ing fuel lx sc st h g (Hb & Hcs & Hfin) N Hf Hi _. cbn [exec ref].
    destruct (new_ctx_inside sc st g Hf N) as (st1 & E1 & In1 & T1). rewrite E1. set (id := fresh st) in *.
    assert (Hne : cur st <> id) by (pose proof (i_cur _ _ _ N); unfold id; lia).
    change (fun st => if hf then exec (S (S (S fuel))) id sc f (set_cur (c_next (ctxs st id)) st) else Ok (RNorm, st)) with (final_of (S (S (S fuel))) id sc hf f).
    set (body := fun st => exec _ id sc b st). set (hand := fun st => handle _ id sc cs st). set (fin := final_of _ id sc hf f).
    (* first return of setjmp *)
    pose proof (inside_state sc st id st1 g 0 Hf In1) as In2. set (st2 := with_ctx id (c_set_state 0) st1) in *.
    assert (S2 : c_state (ctxs st2 id) = 0) by (unfold st2; ctx_tac; rewrite upd_same; reflexivity).
    assert (Pb : post sc st2 (fst (fst (ref b h g))) (snd (fst (ref b h g))) (snd (ref b h g)) (body st2)).
    { pose proof In2 as [A1 A2 A3 A4 _ _ _ _ A9]. apply (IHb false ing); auto; [pose proof (i_cur _ _ _ A9); lia|intros Q; rewrite A4; auto|discriminate]. }
    destruct (inside_post sc st id st2 g _ _ _ _ Hf In2 Pb) as (x & st3 & Eb & T3 & In3 & R).
    destruct (ref b h g) as [[t1 r1] g1] eqn:Rb. cbn [fst snd] in *. change (trace st2) with (trace st1) in T3. rewrite T1 in T3.
    destruct r1 as [|e].
    { destruct R as [-> C]. pose proof (cs_state _ _ C) as C2. rewrite S2 in C2.
      assert (Hd : held Done (ctxs st3 id)) by (unfold held; rewrite C2; reflexivity).
      pose proof (after_handlers fuel (S (S fuel)) ing sc st st3 id g g1 t1 Done hf f h N Hf In3 T3 Hd IHf Hfin Hi) as P. fold fin in P. cbn [app].
      destruct (if hf then ref f h g1 else ([], Done, g1)) as [[t3 r3] g3]. cbn zeta in P. cbn [fst snd].
      apply landing_end; [exact Hne|]. unfold pass. replace (0 =? 0) with true by reflexivity. fold st2. rewrite Eb. cbn [andthen]. unfold hand. rewrite handle_skip by lia. exact P. }
    destruct R as [-> C].
    rewrite (landing_jump (S (S fuel)) id body hand fin 0 st1 1 st3); [|unfold pass; replace (0 =? 0) with true by reflexivity; fold st2; rewrite Eb, S2; reflexivity].
    (* second return *)
    pose proof (inside_state sc st id st3 g1 1 Hf In3) as In4. set (st4 := with_ctx id (c_set_state 1) st3) in *.
    assert (S4 : c_state (ctxs st4 id) = 1 /\ c_ex (ctxs st4 id) = fst e /\ c_panic (ctxs st4 id) = snd e) by (unfold st4; ctx_tac; rewrite upd_same; destruct C; auto).
    destruct S4 as (S4 & S4e & S4p).
    destruct (IHc ing fuel id sc st st4 e g1 Hcs In4 Hf) as (x & st5 & Eh & T5 & In5 & R); auto; [pose proof In4 as [_ _ _ A4 _ _ _ _ _]; intros Q; rewrite A4; auto|].
    change (trace st4) with (trace st3) in T5. rewrite T3 in T5.
    destruct (rhandle cs e g1) as [[t2 r2] g2] eqn:Rh. cbn [fst snd] in *.
    assert (Fall : forall f0 st6, inside sc st id st6 g2 -> trace st6 = trace st ++ t1 ++ t2 -> held r2 (ctxs st6 id) ->
       let '(t3, r3, g3) := if hf then ref f h g2 else ([], Done, g2) in let r := match r3 with Raised e => Raised e | Done => r2 end in
       post sc st (t1 ++ t2 ++ t3) r (match r with Raised e => (fst g3, pend e) | Done => g3 end) (andthen (fin st6) (fun st => end_try (S f0) id st))).
    { intros f0 st6 In6 T6 Hd6. pose proof (after_handlers fuel f0 ing sc st st6 id g g2 (t1 ++ t2) r2 hf f h N Hf In6 T6 Hd6 IHf Hfin Hi) as P.
      destruct (if hf then ref f h g2 else ([], Done, g2)) as [[t3 r3] g3]. cbn zeta in *. rewrite <- app_assoc in P. exact P. }
    rewrite <- app_assoc in T5.
    assert (Norm : x = RNorm -> held r2 (ctxs st5 id) ->
      let '(t3, r3, g3) := if hf then ref f h g2 else ([], Done, g2) in let r := match r3 with Raised e => Raised e | Done => r2 end in
      post sc st (t1 ++ t2 ++ t3) r (match r with Raised e => (fst g3, pend e) | Done => g3 end) (landing (S (S fuel)) id body hand fin 1 st3)).
    { intros -> Hd. pose proof (Fall (S fuel) st5 In5 T5 Hd) as P. destruct (if hf then ref f h g2 else ([], Done, g2)) as [[t3 r3] g3]. cbn zeta in *.
      apply landing_end; [exact Hne|]. unfold pass. replace (1 =? 0) with false by reflexivity. fold st4. cbn [andthen]. unfold hand. rewrite Eh. exact P. }
    destruct r2 as [|e2].
    { destruct R as (Rx & Hd & _). specialize (Norm Rx Hd). destruct (if hf then ref f h g2 else ([], Done, g2)) as [[t3 r3] g3]. exact Norm. }
    destruct R as [(Rx & Hd)|(Rx & Re & Rp)].
    { specialize (Norm Rx Hd). destruct (if hf then ref f h g2 else ([], Done, g2)) as [[t3 r3] g3]. exact Norm. }
    clear Norm. subst x.
    rewrite (landing_jump (S fuel) id body hand fin 1 st3 3 st5); [|unfold pass; replace (1 =? 0) with false by reflexivity; fold st4; cbn [andthen]; unfold hand; rewrite Eh; reflexivity].
    (* third return *)
    pose proof (inside_state sc st id st5 g2 3 Hf In5) as In6. set (st6 := with_ctx id (c_set_state 3) st5) in *.
    assert (S6 : c_state (ctxs st6 id) = 3) by (unfold st6; ctx_tac; rewrite upd_same; reflexivity).
    assert (Hd : held (Raised e2) (ctxs st6 id)) by (unfold held; rewrite S6; unfold st6; ctx_tac; rewrite upd_same; auto).
    pose proof (Fall fuel st6 In6 T5 Hd) as P. destruct (if hf then ref f h g2 else ([], Done, g2)) as [[t3 r3] g3]. cbn zeta in *.
    apply landing_end; [exact Hne|]. unfold pass. replace (3 =? 0) with false by reflexivity. fold st6. cbn [andthen]. unfold hand. rewrite handle_skip by lia. exact P.
  - (* Guard *) intros b IHb inh ing fuel lx sc st h g Hb N Hf Hi _. cbn [exec ref].
    pose proof (raii_init_keep st sc g N ltac:(lia)) as Q1. cbn zeta in Q1. set (st1 := raii_init st) in *. destruct Q1 as (K1 & N1 & C1 & T1 & R1 & F1).
    assert (Hf1 : 2 <= fresh st1) by lia. set (gid := fresh st1).
    change (set_arena gid (set_fresh (gid + 1) (with_scope gid (fun _ => Scope true [] 0 0 false false 0 true) (set_hooks true true st1)))) with (enter_guard st1).
    pose proof (enter_inv st1 sc g N1 Hf1 R1) as N2. fold gid in N2.
    assert (Hf2 : 2 <= fresh (enter_guard st1)) by (change (fresh (enter_guard st1)) with (gid + 1); lia).
    destruct (new_ctx_inside gid (enter_guard st1) ([], 0) Hf2 N2) as (st3 & E3 & In3 & T3). rewrite E3. change (fresh (enter_guard st1)) with (gid + 1) in *. set (id := gid + 1) in *.
    set (body := fun st => andthen (exec _ id gid b st) _). set (hand := fun st => if c_state (ctxs st id) =? 1 then _ else _).
    change (fun st => Ok (RNorm, with_scope gid s_dead (set_hooks (hook_set st1) (hook_unwind st1) (with_ctx (cur (set_cur (c_next (ctxs st id)) st)) c_swap_reset (set_arena (arena st1) (set_cur (c_next (ctxs st id)) st))))))
      with (leave_guard id (arena st1) (hook_set st1) (hook_unwind st1) gid). set (fin := leave_guard _ _ _ _ _).
    pose proof (inside_state gid (enter_guard st1) id st3 _ 0 Hf2 In3) as In4. set (st4 := with_ctx id (c_set_state 0) st3) in *.
    assert (S4 : c_state (ctxs st4 id) = 0) by (unfold st4; ctx_tac; rewrite upd_same; reflexivity).
    assert (Pb : post gid st4 (fst (fst (ref b h ([], 0)))) (snd (fst (ref b h ([], 0)))) (snd (ref b h ([], 0))) (exec (S (S (S fuel))) id gid b st4)).
    { pose proof In4 as [A1 A2 A3 A4 _ _ _ _ A9]. apply (IHb false true); auto; [exact (proj1 core_loud _ _ _ Hb)|pose proof (i_cur _ _ _ A9); lia|discriminate]. }
    destruct (inside_post gid (enter_guard st1) id st4 _ _ _ _ _ Hf2 In4 Pb) as (x & st5 & Eb & T5 & In5 & R).
    destruct (ref b h ([], 0)) as [[t1 r1] g1] eqn:Rb. cbn [fst snd] in *. change (trace st4) with (trace st3) in T5. rewrite T3 in T5. change (trace (enter_guard st1)) with (trace st1) in T5. rewrite T1 in T5.
    assert (Qu : Forall (fun p => d_throw (fst p) = None) (fst g1)) by (pose proof (proj1 ref_quiet b false true h ([], 0) Hb ltac:(constructor)) as Qu; rewrite Rb in Qu; exact Qu).
    (* running the deferred functions and leaving *)
    assert (Run : forall st6, inside gid (enter_guard st1) id st6 g1 -> trace st6 = trace st ++ t1 -> exists st7 st8, deferred_free (ex_throw (S (S (S fuel)))) gid st6 = Ok (RNorm, st7) /\
       fin st7 = Ok (RNorm, st8) /\ keep sc st st8 /\ inv st8 sc g /\ csame (ctxs st (cur st)) (ctxs st8 (cur st)) /\ trace st8 = trace st ++ t1 ++ drain (fst g1) (snd g1) /\ cur st <> id /\
       c_state (ctxs st7 id) = (if existsb (hits (snd g1)) (fst g1) then 2 else c_state (ctxs st6 id)) /\ ctxs st8 id = ctxs st7 id /\ c_ex (ctxs st7 id) = c_ex (ctxs st6 id) /\ c_panic (ctxs st7 id) = c_panic (ctxs st6 id)).
    { intros st6 In6 T6. pose proof In6 as [A1 A2 A3 A4 A5 A6 _ _ A9]. change (hook_set (enter_guard st1)) with true in A4. destruct (i_in _ _ _ A9 A4) as (_ & Y2 & Y3 & Y4).
      destruct (deferred_ok (ex_throw (S (S (S fuel)))) gid g1 st6 Y2 ltac:(lia) Y4 Qu) as (st7 & E7 & D7 & T7 & C7). rewrite A2 in D7, C7.
      destruct (leave_ok st st1 id sc g g1 st6 st7 N Hf eq_refl eq_refl In6 D7) as (st8 & E8 & K8 & N8 & C8 & T8 & Ne & Ci).
      exists st7, st8. split; [exact E7|]. split; [exact E8|]. split; [exact K8|]. split; [exact N8|]. split; [exact C8|]. split; [rewrite T8, T7, T6, app_assoc; reflexivity|].
      split; [exact Ne|]. split; [exact C7|]. split; [exact Ci|]. split; [exact (ds_ex _ _ _ _ D7)|exact (ds_panic _ _ _ _ D7)]. }
    destruct r1 as [|e].
    { destruct R as [-> C]. pose proof (cs_state _ _ C) as C2. rewrite S4 in C2.
      destruct (Run st5 In5 T5) as (st7 & st8 & E7 & E8 & K8 & N8 & C8 & T8 & Ne & S7 & Ci & _ & _). rewrite C2 in S7.
      cbn [fst snd]. apply landing_end; [exact Ne|]. unfold pass. replace (0 =? 0) with true by reflexivity. fold st4. unfold body at 1. rewrite Eb. cbn [andthen]. rewrite E7. cbn [andthen].
      unfold hand at 1. rewrite S7. replace ((if existsb (hits (snd g1)) (fst g1) then 2 else 0) =? 1) with false by (destruct (existsb _ _); reflexivity). cbn [andthen]. rewrite E8. cbn [andthen].
      apply (end_try_post (S (S fuel)) sc st st8 id g g (t1 ++ drain (fst g1) (snd g1)) Done); auto. rewrite Ci, S7. destruct (existsb _ _); reflexivity. }
    destruct R as [-> C].
    rewrite (landing_jump (S (S fuel)) id body hand fin 0 st3 1 st5); [|unfold pass; replace (0 =? 0) with true by reflexivity; fold st4; unfold body; rewrite Eb, S4; reflexivity].
    pose proof (inside_state gid (enter_guard st1) id st5 _ 1 Hf2 In5) as In6. set (st6 := with_ctx id (c_set_state 1) st5) in *.
    assert (S6 : c_state (ctxs st6 id) = 1 /\ c_ex (ctxs st6 id) = fst e /\ c_panic (ctxs st6 id) = snd e) by (unfold st6; ctx_tac; rewrite upd_same; destruct C; auto).
    destruct S6 as (S6 & S6e & S6p).
    destruct (Run st6 In6 T5) as (st7 & st8 & E7 & E8 & K8 & N8 & C8 & T8 & Ne & S7 & Ci & X7 & P7). rewrite S6 in S7.
    assert (G : forall r, held r (ctxs st8 id) -> post sc st (t1 ++ drain (fst g1) (snd g1)) r (match r with Done => g | Raised e => (fst g, pend e) end) (landing (S (S fuel)) id body hand fin 1 st5)).
    { intros r Hr. apply landing_end; [exact Ne|]. unfold pass. replace (1 =? 0) with false by reflexivity. fold st6. cbn [andthen]. unfold hand at 1. rewrite S6. replace (1 =? 1) with true by reflexivity.
      rewrite E7. cbn [andthen]. rewrite E8. cbn [andthen]. apply (end_try_post (S fuel) sc st st8 id g g (t1 ++ drain (fst g1) (snd g1)) r); auto. }
    rewrite Ci in G. destruct (existsb (hits (snd g1)) (fst g1)); cbn [fst snd].
    + apply (G Done). unfold held. rewrite S7. reflexivity.
    + apply (G (Raised e)). unfold held. rewrite S7, X7, P7. auto.
  - (* Defer *) intros f d inh ing fuel lx sc st h g Hg N Hf Hi _. cbn [exec ref fst snd]. pose proof (Hi Hg) as Hk.
    assert (E : raii_init st = st) by (unfold raii_init; destruct (i_in _ _ _ N Hk) as (-> & _); reflexivity). rewrite E. destruct (i_in _ _ _ N Hk) as (_ & _ & B & _).
    apply post_norm.
    + symmetry. apply app_nil_r.
    + constructor; ctx_tac; auto; try lia; [intros; apply csame_refl|]. intros i Hi' Hs. apply upd_other. auto.
    + apply csame_refl.
    + apply defer_inv; auto.
  - (* CNil *) intros ing fuel id sc st0 st e g _ In Hf Hi S1 S2 S3. cbn [handle rhandle fst snd]. exists RNorm, st. split; [reflexivity|]. split; [symmetry; apply app_nil_r|]. split; [exact In|].
    left. split; [reflexivity|]. unfold held. rewrite S1, S2, S3. auto.
  - (* Catch *) intros x s IHs cs IHc ing fuel id sc st0 st e g [H1 H2] In Hf Hi S1 S2 S3. cbn [handle rhandle]. rewrite S1, S2. replace (1 =? 1) with true by reflexivity. cbn [andb].
    rewrite (Z.eqb_sym (fst e) x). destruct (x =? fst e).
    + destruct (clause_runs ing fuel id sc st0 st e g s cs IHs H1 In Hf Hi S2 S3) as (y & st' & E & T & In' & R). exists y, st'. split; [exact E|]. split; [exact T|]. split; [exact In'|].
      destruct (snd (fst (ref s e g))); auto.
    + cbn [andthen]. apply (IHc ing); auto.
  - (* CatchAny *) intros s IHs cs IHc ing fuel id sc st0 st e g [H1 H2] In Hf Hi S1 S2 S3. cbn [handle rhandle]. rewrite S1. replace (1 =? 1) with true by reflexivity.
    destruct (clause_runs ing fuel id sc st0 st e g s cs IHs H1 In Hf Hi S2 S3) as (y & st' & E & T & In' & R). exists y, st'. split; [exact E|]. split; [exact T|]. split; [exact In'|].
    destruct (snd (fst (ref s e g))); auto.
  - (* CatchIf *) intros s IHs cs IHc ing fuel id sc st0 st e g [].
Qed.

Lemma start_inv j : inv (start j) root ([], 0).
Proof. constructor; cbn [start cur fresh ctxs ready hook_set hook_unwind c_unstack c_stack]; auto; try (intros Q; discriminate Q); unfold root; lia. Qed.

(** The model and the reference semantics agree on whole programs. *)
Lemma run_ref s fuel j : core false false s ->
  run (S (S (S fuel))) s j = Ok (fst (fst (ref s (0, 0) ([], 0))), fin_of (snd (fst (ref s (0, 0) ([], 0))))).
Proof.
  intros Hc. pose proof (proj1 exec_ref s false false fuel 0 root (start j) (0, 0) ([], 0) (proj1 core_loud _ _ _ Hc) (start_inv j) ltac:(cbn; lia) ltac:(discriminate) ltac:(discriminate)) as (x & st & E & T & En & D & _ & _). unfold run. rewrite E. cbn [start trace app] in T. unfold ends in En. change (cur (start j) =? root) with true in En.
  destruct (snd (fst (ref s (0, 0) ([], 0)))) as [|e].
  - destruct En as [-> _]. rewrite free_root_id by exact D. rewrite T. reflexivity.
  - subst x. rewrite free_root_id by exact D. rewrite T. reflexivity.
Qed.
