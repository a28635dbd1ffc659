(** C77: leaving a function by _return. *)
From Verif Require Import BaseLemmas ReturnModel.

(** Functions that do not throw. *)
Definition calm (p : dfun * Z) : Prop := d_throw (fst p) = None.
Definition block_defers (b : block) : list (dfun * Z) := match b with BTry ds | BGuard ds => ds end.
(** Between statements of a thread: a current context that exists, nothing being unwound. *)
Definition usable (st : est) : Prop := 1 < fresh st /\ 0 < cur st < fresh st.
(** The calls of [ds], newest first. *)
Definition calls (ds : list (dfun * Z)) : list event := rev (map (fun p => EDefer (d_act (fst p)) (snd p)) ds).
(** The functions deferred on the innermost guard. *)
Fixpoint inner_defers (guarded : bool) (acc : list (dfun * Z)) (bs : list block) : list (dfun * Z) :=
  match bs with
  | [] => acc
  | BTry ds :: bs => inner_defers guarded (if guarded then acc ++ ds else acc) bs
  | BGuard ds :: bs => inner_defers true ds bs
  end.
Definition guards (bs : list block) : nat := length (filter (fun b => match b with BGuard _ => true | _ => false end) bs).

Lemma upd_same {A} (f : Z -> A) k v : upd f k v k = v. Proof. unfold upd. now rewrite Z.eqb_refl. Qed.
Lemma upd_other {A} (f : Z -> A) k v x : x <> k -> upd f k v x = f x. Proof. intros H. unfold upd. now apply Z.eqb_neq in H as ->. Qed.
Definition entries_of (ds : list (dfun * Z)) : list entry := rev (map (fun p => Entry (DUser (fst p)) (snd p) true) ds).

(** *** Running the deferred functions of a guard with no error *)
Definition idle (s : scope) : Prop := s_err s = 0 /\ s_panic s = 0 /\ s_prot s = false /\ s_protector s = 0 /\ s_live s = true /\ s_arr s = true.
Definition same (st st' : est) : Prop := cur st' = cur st /\ ctxs st' = ctxs st /\ fresh st' = fresh st /\ hook_set st' = hook_set st /\ hook_unwind st' = hook_unwind st /\ arena st' = arena st.
Lemma run_entry_calm thr st f d sc : d_throw f = None -> arena st = sc -> sc <> 0 -> idle (scopes st sc) ->
  exists st', run_entry thr (Entry (DUser f) d true) st = Ok (RNorm, st') /\ same st st' /\ trace st' = trace st ++ [EDefer (d_act f) d] /\ idle (scopes st' sc) /\ s_defers (scopes st' sc) = s_defers (scopes st sc).
Proof.
  intros T A N (I1 & I2 & I3 & I4 & I5 & I6). unfold run_entry. cbn [e_kind e_data]. rewrite T. destruct (d_recover f) as [n|].
  - cbn [emit arena]. rewrite A. apply Z.eqb_neq in N as N'. rewrite N'. cbn [bind]. unfold is_caught. cbn [emit scopes]. unfold s_pending. rewrite I1, I2. cbn [Z.eqb negb andb].
    eexists. split; [reflexivity|]. split; [repeat split|]. split; [reflexivity|]. cbn [with_scope set_scopes scopes]. rewrite upd_same. unfold idle. cbn. repeat split; auto.
  - cbn [bind]. eexists. split; [reflexivity|]. split; [repeat split|]. split; [reflexivity|]. unfold idle. cbn [emit scopes]. repeat split; auto.
Qed.
Lemma same_trans a b c : same a b -> same b c -> same a c.
Proof. unfold same. intuition congruence. Qed.
Lemma run_entries_calm thr sc : forall l ran st, Forall (fun e => exists f d, e = Entry (DUser f) d true /\ d_throw f = None) l -> arena st = sc -> sc <> 0 -> idle (scopes st sc) ->
  exists st', run_entries thr sc ran l st = Ok (RNorm, st') /\ same st st' /\ trace st' = trace st ++ map (fun e => match e_kind e with DUser f => EDefer (d_act f) (e_data e) | DFree => EFree (e_data e) end) l /\ idle (scopes st' sc).
Proof.
  induction l as [|e l IH]; intros ran st F A N I. { exists st. cbn. rewrite app_nil_r. repeat split; auto; apply I. }
  inversion F as [|x y [f [d [-> T]]] F']; subst. cbn [run_entries e_check].
  replace (s_err (scopes st (arena st)) =? 0) with true by (destruct I as (-> & _); reflexivity). cbn [negb andb].
  destruct (run_entry_calm thr st f d (arena st) T eq_refl N I) as (s1 & E1 & S1 & T1 & I1 & _). rewrite E1. cbn [andthen].
  assert (A1 : arena s1 = arena st) by apply S1.
  edestruct (IH (ran ++ [e_done (Entry (DUser f) d true)]) (with_scope (arena st) (s_set_defers (ran ++ e_done (Entry (DUser f) d true) :: l)) s1)) as (s2 & E2 & S2 & T2 & I2); auto.
  { cbn [with_scope set_scopes scopes]. rewrite upd_same. exact I1. }
  exists s2. split; [exact E2|]. split; [eapply same_trans; [exact S1|exact S2]|]. split; [|exact I2]. rewrite T2. cbn [with_scope set_scopes trace]. rewrite T1, <- app_assoc. reflexivity.
Qed.
Lemma map_entries ds : map (fun e => match e_kind e with DUser f => EDefer (d_act f) (e_data e) | DFree => EFree (e_data e) end) (entries_of ds) = calls ds.
Proof. unfold entries_of, calls. rewrite map_rev, map_map. reflexivity. Qed.
Lemma free_calm thr sc ds st : Forall calm ds -> arena st = sc -> sc <> 0 -> idle (scopes st sc) -> s_defers (scopes st sc) = entries_of ds ->
  exists st', deferred_free thr sc st = Ok (RNorm, st') /\ same st st' /\ trace st' = trace st ++ calls ds.
Proof.
  intros C A N I D. unfold deferred_free. destruct I as (I1 & I2 & I3 & I4 & I5 & I6). rewrite I5, I6. cbn [negb].
  edestruct (run_entries_calm thr sc (s_defers (scopes st sc)) [] (with_scope sc (s_set_rec (s_err (scopes st sc) =? 0)) st)) as (s1 & E1 & S1 & T1 & J1); auto.
  - rewrite D. unfold entries_of. apply Forall_rev. apply Forall_map. eapply Forall_impl; [|exact C]. intros [f d] H. exists f, d. auto.
  - cbn [with_scope set_scopes scopes]. rewrite upd_same. unfold idle. cbn. repeat split; auto.
  - rewrite E1. cbn [andthen]. destruct J1 as (J1 & J2 & J3 & J4 & J5 & J6). unfold settle_protector. rewrite J3. cbn [andb bind]. unfold drop_protector. rewrite J4. cbn [Z.eqb].
    eexists. split; [reflexivity|]. split; [exact S1|]. cbn [with_scope set_scopes trace]. rewrite T1, D, map_entries. reflexivity.
Qed.

(** *** Entering blocks *)
Definition chain (fs : list frame) (c0 : Z) (st : est) : Prop :=
  cur st = match fs with [] => c0 | f :: _ => frame_id f end /\
  forall i f, nth_error fs i = Some f -> c_next (ctxs st (frame_id f)) = match nth_error fs (S i) with Some f' => frame_id f' | None => c0 end.
Definition frames_guards (fs : list frame) : nat := length (filter (fun f => match f with FGuard _ _ _ _ _ => true | _ => false end) fs).
Definition guard_ok (fs : list frame) (ds : list (dfun * Z)) (st0 st : est) : Prop :=
  match inner_guard fs with
  | None => frames_guards fs = 0%nat /\ arena st = arena st0 /\ hook_set st = hook_set st0 /\ hook_unwind st = hook_unwind st0 /\ inner_scope fs = 0
  | Some (g, a0, hs, hu) => arena st = g /\ g <> 0 /\ inner_scope fs = g /\ fresh st0 <= g < fresh st /\ idle (scopes st g) /\ s_defers (scopes st g) = entries_of ds /\ hook_set st = true /\ hook_unwind st = true /\
      if (frames_guards fs =? 1)%nat then a0 = arena st0 /\ hs = hook_set st0 /\ hu = hook_unwind st0 else hs = true /\ hu = true /\ fresh st0 <= a0
  end.
Definition J (fs : list frame) (ds : list (dfun * Z)) (st0 st : est) : Prop :=
  chain fs (cur st0) st /\ Forall (fun f => fresh st0 <= frame_id f < fresh st) fs /\ NoDup (map frame_id fs) /\ fresh st0 <= fresh st /\ trace st = trace st0 /\ guard_ok fs ds st0 st.

Lemma defer_on_facts sc ds : forall st, let st' := defer_on sc ds st in
  same st st' /\ trace st' = trace st /\ (forall s, idle (scopes st s) -> idle (scopes st' s)) /\
  (s_defers (scopes st' sc) = entries_of ds ++ s_defers (scopes st sc)).
Proof.
  induction ds as [|p ds IH]; intros st; [split; [repeat split|]; split; [reflexivity|]; split; [intros s H; exact H|reflexivity]|]. cbn [defer_on fold_left].
  set (st1 := with_scope sc _ st). destruct (IH st1) as (S & T & I & D). cbn zeta in *.
  change (fold_left _ ds st1) with (defer_on sc ds st1). split; [eapply same_trans; [|exact S]; repeat split|]. split; [rewrite T; reflexivity|]. split.
  - intros s H. apply I. subst st1. cbn [with_scope set_scopes scopes]. unfold upd. destruct (Z.eqb_spec s sc) as [->|]; [|exact H]. exact H.
  - rewrite D. subst st1. cbn [with_scope set_scopes scopes]. rewrite upd_same. cbn [s_set_defers s_defers]. unfold entries_of. cbn [map rev]. rewrite <- app_assoc. reflexivity.
Qed.
Lemma chain_push fs f c0 st st' : chain fs c0 st -> Forall (fun f => frame_id f < fresh st) fs -> frame_id f = fresh st -> cur st' = frame_id f -> c_next (ctxs st' (frame_id f)) = cur st ->
  (forall i, i < fresh st -> c_next (ctxs st' i) = c_next (ctxs st i)) -> chain (f :: fs) c0 st'.
Proof.
  intros [C1 C2] F E C N O. split; [exact C|]. intros [|i] x X; cbn [nth_error] in X.
  - injection X as <-. rewrite N, C1. cbn [nth_error]. destruct fs; reflexivity.
  - change (nth_error (f :: fs) (S (S i))) with (nth_error fs (S i)). rewrite O; [apply C2; exact X|]. rewrite Forall_forall in F. apply F. eapply nth_error_In; eauto.
Qed.
Lemma raii_init_facts st : cur (raii_init st) = cur st /\ fresh (raii_init st) = fresh st /\ arena (raii_init st) = arena st /\ hook_set (raii_init st) = hook_set st /\ hook_unwind (raii_init st) = hook_unwind st /\ trace (raii_init st) = trace st /\
  (forall i, c_next (ctxs (raii_init st) i) = c_next (ctxs st i)).
Proof.
  unfold raii_init. destruct (ready st); [repeat split|]. cbn [with_ctx set_ctxs set_ready with_scope set_scopes cur fresh arena hook_set hook_unwind trace ctxs]. repeat split. intros i. unfold upd. destruct (Z.eqb_spec i (cur st)) as [->|]; reflexivity.
Qed.
Lemma enter_J bs : forall fs ds st0 st, J fs ds st0 st -> 1 < fresh st0 -> let '(fs', st') := enter bs fs st in
  J fs' (inner_defers (0 <? inner_scope fs) ds bs) st0 st' /\ length fs' = (length bs + length fs)%nat /\ frames_guards fs' = (guards bs + frames_guards fs)%nat.
Proof.
  induction bs as [|b bs IH]; intros fs ds st0 st (C & F & ND & Fr & T & G) P. { cbn. repeat split; auto; apply C. }
  assert (F' : Forall (fun f => frame_id f < fresh st) fs) by (eapply Forall_impl; [|exact F]; cbn; intros; lia).
  assert (FRESH : ~ In (fresh st) (map frame_id fs)). { intros X. apply in_map_iff in X as (f & X1 & X2). rewrite Forall_forall in F'. specialize (F' f X2). lia. }
  destruct b as [ds'|ds'].
  - cbn [enter enter_try new_ctx inner_defers].
    set (id := fresh st). set (st1 := with_ctx id (c_set_state 0) _).
    set (dd := if inner_scope fs =? 0 then [] else ds').
    destruct (defer_on_facts (inner_scope fs) dd st1) as (S & TT & I & D). cbn zeta in *. set (st2 := defer_on (inner_scope fs) dd st1) in *.
    destruct S as (S1 & S2 & S3 & S4 & S5 & S6).
    assert (JJ : J (FTry id :: fs) (if 0 <? inner_scope fs then ds ++ ds' else ds) st0 st2).
    { split; [|split; [|split; [|split; [|split]]]].
      - apply chain_push with st; auto.
        + rewrite S2. subst st1. cbn [with_ctx set_cur set_fresh set_ctxs ctxs frame_id]. rewrite !upd_same. reflexivity.
        + intros i Hi. rewrite S2. subst st1 id. cbn [with_ctx set_cur set_fresh set_ctxs ctxs]. rewrite !upd_other by lia. reflexivity.
      - rewrite S3. subst st1 id. cbn [with_ctx set_cur set_fresh set_ctxs fresh]. constructor; [cbn [frame_id]; lia|]. eapply Forall_impl; [|exact F]. cbn; intros; lia.
      - cbn [map frame_id]. constructor; auto.
      - rewrite S3. subst st1 id. cbn [with_ctx set_cur set_fresh set_ctxs fresh]. lia.
      - rewrite TT. exact T.
      - unfold guard_ok in *. cbn [inner_guard frames_guards filter inner_scope]. change (length (filter _ fs)) with (frames_guards fs). destruct (inner_guard fs) as [[[[g a0] hs] hu]|].
        + destruct G as (G1 & G2 & G3 & G4 & G5 & G6 & G7 & G8 & G9). rewrite S4, S5, S6, S3. subst st1 id. cbn [with_ctx set_cur set_fresh set_ctxs fresh arena hook_set hook_unwind].
          rewrite G3. assert (0 < g) by lia. apply Z.ltb_lt in H as ->. split; [exact G1|]. split; [exact G2|]. split; [reflexivity|]. split; [lia|]. split; [|split; [|split; [exact G7|split; [exact G8|]]]].
          * apply I. exact G5.
          * rewrite G3 in D. rewrite D. cbn [with_ctx set_cur set_fresh set_ctxs scopes]. rewrite G6. subst dd. rewrite G3. apply Z.eqb_neq in G2 as ->. unfold entries_of. rewrite map_app, rev_app_distr. reflexivity.
          * exact G9.
        + destruct G as (G1 & G2 & G3 & G4 & G5). rewrite S4, S5, S6. auto. }
    specialize (IH _ _ _ _ JJ P). destruct (enter bs (FTry id :: fs) st2) as [fs' st'] eqn:E. cbn [inner_scope] in IH. destruct IH as (A & B & CC). split; [|split].
    + exact A.
    + rewrite B. cbn [length]. lia.
    + rewrite CC. reflexivity.
  - cbn [enter]. unfold enter_guard. cbn [new_ctx inner_defers]. destruct (raii_init_facts st) as (R1 & R2 & R3 & R4 & R5 & R6 & R7). set (r := raii_init st) in *.
    cbn [inner_scope]. set (g := fresh r). cbn [set_arena set_fresh with_scope set_scopes set_hooks fresh set_cur set_ctxs cur ctxs arena]. 
    set (f0 := FGuard (g + 1) g (arena r) (hook_set r) (hook_unwind r)). set (st1 := with_ctx (g + 1) (c_set_state 0) _).
    destruct (defer_on_facts g ds' st1) as (S & TT & I & D). cbn zeta in *. set (st2 := defer_on g ds' st1) in *.
    destruct S as (S1 & S2 & S3 & S4 & S5 & S6).
    assert (GF : g = fresh st) by (subst g; exact R2).
    assert (JJ : J (f0 :: fs) ds' st0 st2).
    { split; [|split; [|split; [|split; [|split]]]].
      - destruct C as [C1 C2]. split; [rewrite S1; reflexivity|]. intros [|i] x X; cbn [nth_error] in X.
        + injection X as <-. rewrite S2. subst st1 f0. cbn [with_ctx set_cur set_fresh set_ctxs set_arena with_scope set_scopes set_hooks ctxs frame_id cur]. rewrite !upd_same. cbn [c_next c_set_state]. rewrite R1, C1. cbn [nth_error]. destruct fs; reflexivity.
        + change (nth_error (f0 :: fs) (Datatypes.S (Datatypes.S i))) with (nth_error fs (Datatypes.S i)). rewrite S2. subst st1. cbn [with_ctx set_cur set_fresh set_ctxs set_arena with_scope set_scopes set_hooks ctxs].
          rewrite Forall_forall in F'. pose proof (F' x (nth_error_In _ _ X)). rewrite !upd_other by lia. rewrite R7. apply C2. exact X.
      - rewrite S3. subst st1. cbn [with_ctx set_cur set_fresh set_ctxs fresh]. constructor; [subst f0; cbn [frame_id]; lia|]. eapply Forall_impl; [|exact F]. cbn; intros; lia.
      - cbn [map frame_id]. subst f0. cbn [frame_id]. constructor; auto. intros X. apply in_map_iff in X as (f & X1 & X2). rewrite Forall_forall in F'. specialize (F' f X2). lia.
      - rewrite S3. subst st1. cbn [with_ctx set_cur set_fresh set_ctxs fresh]. lia.
      - rewrite TT. subst st1. cbn [with_ctx set_cur set_fresh set_ctxs set_arena with_scope set_scopes set_hooks trace]. congruence.
      - unfold guard_ok in *. subst f0. cbn [inner_guard frames_guards filter inner_scope length]. change (length (filter _ fs)) with (frames_guards fs).
        rewrite S4, S5, S6, S3. split; [reflexivity|]. split; [lia|]. split; [reflexivity|]. subst st1. cbn [with_ctx set_cur set_fresh set_ctxs set_arena with_scope set_scopes set_hooks fresh arena hook_set hook_unwind]. split; [lia|]. split; [|split; [|split; [reflexivity|split; [reflexivity|]]]].
        + apply I. cbn [with_ctx set_cur set_fresh set_ctxs set_arena with_scope set_scopes set_hooks scopes]. rewrite upd_same. unfold idle. cbn. repeat split.
        + rewrite D. cbn [with_ctx set_cur set_fresh set_ctxs set_arena with_scope set_scopes set_hooks scopes]. rewrite upd_same. apply app_nil_r.
        + destruct (inner_guard fs) as [[[[g' a'] hs'] hu']|] eqn:IG.
          * destruct G as (G1 & G2 & G3 & G4 & G5 & G6 & G7 & G8 & G9). assert (FG : frames_guards fs <> 0%nat). { clear -IG. induction fs as [|[] fs IHf]; cbn in *; try discriminate. apply IHf. exact IG. }
            destruct (frames_guards fs); [congruence|]. cbn [Nat.eqb]. split; [congruence|]. split; [congruence|]. lia.
          * destruct G as (G1 & G2 & G3 & G4 & G5). rewrite G1. cbn [Nat.eqb]. repeat split; congruence. }
    specialize (IH _ _ _ _ JJ P). subst f0. destruct (enter bs _ st2) as [fs' st'] eqn:E. cbn [inner_scope] in IH. assert (0 < g) by lia. apply Z.ltb_lt in H. rewrite H in IH. destruct IH as (A & B & CC). split; [|split].
    + exact A.
    + rewrite B. cbn [length]. lia.
    + rewrite CC. unfold guards, frames_guards. cbn. lia.
Qed.
Lemma inner_guard_some fs : frames_guards fs <> 0%nat -> exists x, inner_guard fs = Some x.
Proof. induction fs as [|[id|id g a hs hu] fs IH]; cbn; intros H; [congruence| |eauto]. apply IH. exact H. Qed.
Lemma calm_inner bs : forall gd acc, Forall calm acc -> Forall (fun b => Forall calm (block_defers b)) bs -> Forall calm (inner_defers gd acc bs).
Proof.
  induction bs as [|[ds|ds] bs IH]; intros gd acc A F; inversion F as [|? ? H1 H2]; subst; cbn [inner_defers]; auto. apply IH; auto. destruct gd; auto. apply Forall_app. auto.
Qed.
(** What _return does from inside any blocks [bs] of a function (outermost first) with at least one guard, whatever the state in which the
    function was called: only the functions of the innermost guard run; the current context becomes that before the innermost block, hooks
    and arena pointer those before the innermost guard. *)
Theorem return_effect bs st fuel : usable st -> guards bs <> 0%nat -> Forall (fun b => Forall calm (block_defers b)) bs ->
  exists st', call fuel bs st = Ok (RNorm, st') /\ trace st' = trace st ++ calls (inner_defers false [] bs) /\
    (if (length bs =? 1)%nat then cur st' = cur st else fresh st <= cur st') /\
    (if (guards bs =? 1)%nat then hook_set st' = hook_set st /\ hook_unwind st' = hook_unwind st /\ arena st' = arena st
     else hook_set st' = true /\ hook_unwind st' = true /\ fresh st <= arena st').
Proof.
  intros [U1 U2] NG F. unfold call. pose proof (enter_J bs [] [] st st) as E. destruct (enter bs [] st) as [fs s1].
  destruct E as ((C & FF & ND & Fr & T & G) & LEN & NGU); [|exact U1|].
  { split; [split; [reflexivity|intros [|i]; discriminate]|]. split; [constructor|]. split; [constructor|]. split; [lia|]. split; [reflexivity|]. unfold guard_ok. cbn. auto. }
  cbn [inner_scope] in G. change (0 <? 0) with false in G. cbn [length] in LEN. rewrite Nat.add_0_r in LEN. change (frames_guards []) with 0%nat in NGU. rewrite Nat.add_0_r in NGU.
  unfold return_. destruct (inner_guard_some fs) as [[[[g a0] hs] hu] IG]; [lia|]. unfold guard_ok in G. rewrite IG in *.
  destruct fs as [|f fs]; [discriminate|].
  destruct G as (G1 & G2 & G3 & G4 & G5 & G6 & G7 & G8 & G9).
  destruct (free_calm (ex_throw fuel) g _ s1 (calm_inner bs false [] (Forall_nil _) F) G1 G2 G5 G6) as (s2 & E2 & (S1 & S2 & S3 & S4 & S5 & S6) & T2).
  rewrite E2. cbn [andthen]. destruct C as [C1 C2].
  eexists. split; [reflexivity|].
  set (s3 := set_hooks hs hu _). assert (CN : c_next (ctxs s3 (frame_id f)) = match fs with [] => cur st | f' :: _ => frame_id f' end).
  { subst s3. cbn [set_hooks with_ctx set_ctxs set_arena with_scope set_scopes ctxs cur]. rewrite S1, C1, upd_same. cbn [c_swap_reset c_next]. rewrite S2. rewrite (C2 0%nat f eq_refl). cbn [nth_error]. destruct fs; reflexivity. }
  assert (CC : cur (if cur (set_cur (c_next (ctxs s3 (frame_id f))) s3) =? frame_id f then set_cur (c_next (ctxs (set_cur (c_next (ctxs s3 (frame_id f))) s3) (frame_id f))) (set_cur (c_next (ctxs s3 (frame_id f))) s3) else set_cur (c_next (ctxs s3 (frame_id f))) s3) = match fs with [] => cur st | f' :: _ => frame_id f' end).
  { destruct (_ =? _); cbn [set_cur cur ctxs]; exact CN. }
  set (s4 := if _ =? _ then _ else _) in *. assert (O : trace s4 = trace s2 /\ hook_set s4 = hs /\ hook_unwind s4 = hu /\ arena s4 = a0). { subst s4. destruct (_ =? _); repeat split. }
  destruct O as (O1 & O2 & O3 & O4). split; [rewrite O1, T2, T; reflexivity|]. split.
  - rewrite CC, <- LEN. destruct fs as [|f' fs]; cbn [length Nat.eqb]; [reflexivity|]. inversion FF as [|? ? _ FF2]. inversion FF2 as [|? ? FF3 _]. lia.
  - rewrite <- NGU, O2, O3, O4. destruct (frames_guards (f :: fs) =? 1)%nat; intuition congruence.
Qed.
(** The documented use, _return directly in a guard: everything as before the function was called, its deferred functions run once,
    newest first.  Missing from the full claim: _return inside a further block of the same function. *)
Theorem return_from_guard_partial ds st fuel : usable st -> Forall calm ds ->
  exists st', call fuel [BGuard ds] st = Ok (RNorm, st') /\ trace st' = trace st ++ calls ds /\ cur st' = cur st /\ hook_set st' = hook_set st /\ hook_unwind st' = hook_unwind st /\ arena st' = arena st.
Proof.
  intros U C. destruct (return_effect [BGuard ds] st fuel U) as (st' & A & B & D & E); [discriminate|constructor; auto|]. exists st'. cbn in D, E. destruct E as (E1 & E2 & E3). repeat split; auto.
Qed.
Definition act (a : Z) : dfun := DFun a None None.
Definition zeros : Z -> Z := fun _ => 0.
Example return_case : usable (start zeros) /\ match call 3 [BGuard [(act 1, 10); (act 2, 20)]] (start zeros) with Ok (RNorm, st') => trace st' = [EDefer 2 20; EDefer 1 10] /\ cur st' = 1 | _ => False end.
Proof. split; [unfold usable; vm_compute; auto|]. vm_compute. auto. Qed.
(** _return inside a try block in a guard: the context of the guard, an object of the function that has returned, stays current; the
    next throw jumps into that function. *)
Theorem return_in_try_refuted : exists st' st'', call 3 [BGuard [(act 1, 10)]; BTry []] (start zeros) = Ok (RNorm, st') /\ fresh (start zeros) <= cur st' /\
  ex_throw 3 7 0 st' = Ok (RJump (cur st') 1, st'').
Proof. eexists _, _. split; [vm_compute; reflexivity|]. split; [cbn; lia|]. vm_compute. reflexivity. Qed.
(** _return inside a guard in a guard: the functions of the outer one are not called; its hooks stay. *)
Theorem return_in_guard_refuted : exists st', call 3 [BGuard [(act 1, 10)]; BGuard [(act 2, 20)]] (start zeros) = Ok (RNorm, st') /\ trace st' = [EDefer 2 20] /\ hook_set st' = true /\ hook_set (start zeros) = false.
Proof. eexists. split; [vm_compute; reflexivity|]. vm_compute. auto. Qed.

(** ** C97: break *)
Definition fresh_states (fs : list frame) (st : est) : Prop := Forall (fun f => frame_id f < fresh st /\ c_state (ctxs st (frame_id f)) = 0) fs.
Lemma raii_init_state st i : c_state (ctxs (raii_init st) i) = c_state (ctxs st i).
Proof. unfold raii_init. destruct (ready st); [reflexivity|]. cbn. unfold upd. destruct (Z.eqb_spec i (cur st)) as [->|]; reflexivity. Qed.
Lemma enter_states bs : forall fs st, fresh_states fs st -> let '(fs', st') := enter bs fs st in fresh_states fs' st'.
Proof.
  induction bs as [|b bs IH]; intros fs st F; [exact F|]. destruct b as [ds|ds]; cbn [enter].
  - cbn [enter_try new_ctx]. set (st1 := with_ctx _ _ _). set (dd := if inner_scope fs =? 0 then [] else ds). destruct (defer_on_facts (inner_scope fs) dd st1) as ((_ & S2 & S3 & _) & _). apply IH. unfold fresh_states. rewrite S2, S3. subst st1. cbn [with_ctx set_cur set_fresh set_ctxs fresh ctxs].
    constructor; [cbn [frame_id]; rewrite upd_same; cbn; split; [lia|reflexivity]|]. eapply Forall_impl; [|exact F]. cbn. intros f [H1 H2]. split; [lia|]. rewrite !upd_other by lia. exact H2.
  - unfold enter_guard. cbn [new_ctx inner_scope]. destruct (raii_init_facts st) as (R1 & R2 & _). pose proof (raii_init_state st) as R3. set (r := raii_init st) in *. cbn [set_arena set_fresh with_scope set_scopes set_hooks fresh set_cur set_ctxs cur ctxs arena].
    set (st1 := with_ctx _ _ _). destruct (defer_on_facts (fresh r) ds st1) as ((_ & S2 & S3 & _) & _). apply IH. unfold fresh_states. rewrite S2, S3. subst st1. cbn [with_ctx set_cur set_fresh set_ctxs set_arena with_scope set_scopes set_hooks fresh ctxs].
    constructor; [cbn [frame_id]; rewrite upd_same; cbn; split; [lia|reflexivity]|]. eapply Forall_impl; [|exact F]. cbn. intros f [H1 H2]. split; [lia|]. rewrite !upd_other by lia. rewrite R3. exact H2.
Qed.
(** The blocks around the guard do not matter. *)
Lemma enter_app bs cs fs st : enter (bs ++ cs) fs st = let '(fs1, st1) := enter bs fs st in enter cs fs1 st1.
Proof. revert fs st. induction bs as [|[ds|ds] bs IH]; intros fs st; cbn [app enter]; [destruct (enter cs fs st); reflexivity| |]; [destruct (enter_try st)|destruct (enter_guard st)]; apply IH. Qed.
Lemma enter_tries dss : forall fs outer st, inner_scope fs <> 0 ->
  enter (map BTry dss) (fs ++ outer) st = let '(fs', st') := enter (map BTry dss) fs st in (fs' ++ outer, st').
Proof.
  induction dss as [|ds dss IH]; intros fs outer st N; cbn [map enter]; [reflexivity|]. destruct (enter_try st) as [f s1] eqn:E. assert (X : inner_scope (fs ++ outer) = inner_scope fs).
  { clear -N. induction fs as [|[id|id g a hs hu] fs IHf]; cbn in *; auto. congruence. }
  rewrite X. change (f :: fs ++ outer) with ((f :: fs) ++ outer). apply IH. unfold enter_try in E. cbn in E. injection E as <- _. exact N.
Qed.
Lemma break_outer fuel fs outer st : frames_guards fs <> 0%nat -> break_ fuel (fs ++ outer) st = break_ fuel fs st.
Proof. induction fs as [|[id|id g a hs hu] fs IH]; cbn; intros H; [congruence|now apply IH|reflexivity]. Qed.
(** The frames of a guard with try blocks inside. *)
Lemma break_tries fuel fs st : frames_guards fs = 1%nat -> (exists f r, fs = r ++ [f] /\ frames_guards [f] = 1%nat) ->
  exists id g a0 hs hu, (exists r, fs = r ++ [FGuard id g a0 hs hu]) /\ inner_guard fs = Some (g, a0, hs, hu) /\ break_ fuel fs st = break_ fuel [FGuard id g a0 hs hu] st.
Proof.
  intros N (f & r & -> & F). destruct f as [id|id g a0 hs hu]; [discriminate|]. exists id, g, a0, hs, hu. split; [eauto|]. 
  assert (A : Forall (fun f => exists i, f = FTry i) r). { unfold frames_guards in N. rewrite filter_app, app_length in N. cbn in N. clear -N. induction r as [|[i|i g a hs hu] r IH]; [constructor| |cbn in N; lia]. constructor; [eauto|]. apply IH. exact N. }
  clear N F. split; [induction A as [|x r [i ->] _ IH]; [reflexivity|exact IH]|]. induction A as [|x r [i ->] _ IH]; [reflexivity|]. cbn [app break_]. exact IH.
Qed.
Lemma enter_last bs : forall fs f st, let '(fs', _) := enter bs (fs ++ [f]) st in exists r, fs' = r ++ [f].
Proof.
  induction bs as [|[ds|ds] bs IH]; intros fs f st; cbn [enter]; [eauto| |]; [destruct (enter_try st) as [x s1]|destruct (enter_guard st) as [x s1]];
    change (x :: fs ++ [f]) with ((x :: fs) ++ [f]); apply IH.
Qed.
(** break inside any number of try blocks in a guard, in any state (inside whatever blocks): the functions deferred in the guard run once, newest
    first; the current context, the hooks and the arena pointer are those before the guard. *)
Theorem break_effect_partial : forall ds dss st fuel, usable st -> Forall calm ds -> Forall (Forall calm) dss ->
  exists st', call_break fuel (BGuard ds :: map BTry dss) st = Ok (RNorm, st') /\ trace st' = trace st ++ calls (ds ++ concat dss) /\
    cur st' = cur st /\ hook_set st' = hook_set st /\ hook_unwind st' = hook_unwind st /\ arena st' = arena st.
Proof.
  intros ds dss st fuel [U1 U2] CA CB. unfold call_break. pose proof (enter_J (BGuard ds :: map BTry dss) [] [] st st) as E.
  pose proof (enter_states (BGuard ds :: map BTry dss) [] st (Forall_nil _)) as ES.
  assert (EL : let '(fs', _) := enter (BGuard ds :: map BTry dss) [] st in exists f r, fs' = r ++ [f] /\ frames_guards [f] = 1%nat).
  { cbn [enter]. unfold enter_guard. cbn [new_ctx]. set (f := FGuard _ _ _ _ _). match goal with |- context [enter (map BTry dss) [f] ?s] => pose proof (enter_last (map BTry dss) [] f s) as L; cbn [app] in L; destruct (enter (map BTry dss) [f] s) as [fs' s'] end.
    destruct L as [r ->]. exists f, r. auto. }
  destruct (enter (BGuard ds :: map BTry dss) [] st) as [fs s1].
  destruct E as ((C & FF & ND & Fr & T & G) & LEN & NGU); [|exact U1|].
  { split; [split; [reflexivity|intros [|i]; discriminate]|]. split; [constructor|]. split; [constructor|]. split; [lia|]. split; [reflexivity|]. unfold guard_ok. cbn. auto. }
  assert (NG : guards (BGuard ds :: map BTry dss) = 1%nat). { unfold guards. cbn. f_equal. clear. induction dss; auto. }
  rewrite NG in NGU. change (frames_guards []) with 0%nat in NGU. cbn [Nat.add] in NGU.
  assert (ID : inner_defers (0 <? inner_scope []) [] (BGuard ds :: map BTry dss) = ds ++ concat dss).
  { cbn [inner_scope inner_defers]. clear. revert ds. induction dss as [|d dss IH]; intros ds; cbn; [now rewrite app_nil_r|]. rewrite IH, app_assoc. reflexivity. }
  rewrite ID in G. destruct (break_tries fuel fs s1 NGU EL) as (id & g & a0 & hs & hu & (r & FS) & IG & BE). rewrite BE. cbn [break_].
  unfold guard_ok in G. rewrite IG in G. rewrite NGU in G. cbn [Nat.eqb] in G. destruct G as (G1 & G2 & G3 & G4 & G5 & G6 & G7 & G8 & G9 & G10 & G11).
  assert (CM : Forall calm (ds ++ concat dss)) by (apply Forall_app; split; [exact CA|]; clear -CB; induction CB; cbn; [constructor|apply Forall_app; auto]).
  destruct (free_calm (ex_throw fuel) g _ s1 CM G1 G2 G5 G6) as (s2 & E2 & (S1 & S2 & S3 & S4 & S5 & S6) & T2). rewrite E2. cbn [andthen].
  assert (ST : c_state (ctxs s2 id) = 0 /\ id < fresh s1). { rewrite S2. unfold fresh_states in ES. rewrite FS in ES. apply Forall_app in ES as [_ ES]. inversion ES as [|? ? [X1 X2] _]. subst. auto. }
  destruct ST as [ST1 ST2]. rewrite ST1. cbn [Z.eqb andthen].
  assert (NX : c_next (ctxs s2 id) = cur st). { rewrite S2. destruct C as [_ C]. specialize (C (length r) (FGuard id g a0 hs hu)). rewrite FS in C. rewrite nth_error_app2 in C by lia. rewrite Nat.sub_diag in C. specialize (C eq_refl). cbn [frame_id] in C. rewrite C.
    rewrite (proj2 (nth_error_None _ _)); [reflexivity|]. rewrite app_length. cbn. lia. }
  assert (LO : fresh st <= id). { rewrite FS in FF. apply Forall_app in FF as [_ FF]. inversion FF as [|? ? [X1 X2] _]. exact X1. }
  rewrite NX. set (s3 := with_scope g s_dead _). unfold end_try. assert (CS : cur s3 = cur st) by reflexivity. rewrite CS.
  replace (cur st =? id) with false by (symmetry; apply Z.eqb_neq; lia).
  assert (CO : c_state (ctxs s3 id) = 0). { subst s3. cbn [with_scope set_scopes set_hooks with_ctx set_ctxs set_arena set_cur ctxs cur]. rewrite upd_other by lia. exact ST1. }
  rewrite CO. cbn [Z.odd]. eexists. split; [reflexivity|]. split; [change (trace s3) with (trace s2); now rewrite T2, T|]. split; [reflexivity|].
  split; [exact G10|]. split; [exact G11|exact G9].
Qed.
(** The same with blocks [pre] of the function around: as if the function had been called in the state after entering them. *)
Theorem break_in_blocks : forall pre ds dss st fuel, usable st -> 
  call_break fuel (pre ++ BGuard ds :: map BTry dss) st = call_break fuel (BGuard ds :: map BTry dss) (snd (enter pre [] st)).
Proof.
  intros pre ds dss st fuel [U1 U2]. unfold call_break. rewrite enter_app. pose proof (enter_J pre [] [] st st) as E. destruct (enter pre [] st) as [fs1 st1]. cbn [snd].
  destruct E as ((_ & _ & _ & Fr & _) & _); [|exact U1|]. { split; [split; [reflexivity|intros [|i]; discriminate]|]. split; [constructor|]. split; [constructor|]. split; [lia|]. split; [reflexivity|]. unfold guard_ok. cbn. auto. }
  cbn [enter]. destruct (enter_guard st1) as [f s2] eqn:Eg. assert (Gf : frames_guards [f] = 1%nat /\ inner_scope [f] <> 0).
  { unfold enter_guard in Eg. cbn [new_ctx] in Eg. injection Eg as <- _. split; [reflexivity|]. cbn [inner_scope]. destruct (raii_init_facts st1) as (_ & -> & _). lia. }
  destruct Gf as [Gf N]. change (f :: fs1) with ([f] ++ fs1). rewrite enter_tries by exact N. set (s3 := defer_on _ _ _). pose proof (enter_last (map BTry dss) [] f s3) as L. cbn [app] in L. destruct (enter (map BTry dss) [f] s3) as [fs' s'].
  apply break_outer. destruct L as [r ->]. unfold frames_guards in *. rewrite filter_app, app_length. lia.
Qed.
Example break_met := break_effect_partial [(act 1, 10); (act 2, 20)] [[(act 3, 30)]; []; [(act 4, 40)]] (start zeros) 3
  ltac:(unfold usable; vm_compute; auto) ltac:(repeat constructor) ltac:(repeat constructor).
Example break_case : exists st', call_break 3 (BTry [] :: BGuard [(act 9, 90)] :: BGuard [(act 1, 10)] :: map BTry [[(act 2, 20)]; []]) (start zeros) = Ok (RNorm, st') /\ trace st' = [EDefer 2 20; EDefer 1 10] /\
  hook_set st' = true /\ arena st' = 3 /\ cur st' = 4.
Proof. eexists. split; [vm_compute; reflexivity|]. vm_compute. auto. Qed.
(** break inside a try block in a guard, the guard's deferred function throwing: control jumps back into the try block that was left. *)
Theorem break_throw_refuted : exists st' id, match fst (enter [BGuard [(DFun 1 None (Some 7), 10)]; BTry []] [] (start zeros)) with FTry i :: _ => i = id | _ => False end /\
  call_break 3 [BGuard [(DFun 1 None (Some 7), 10)]; BTry []] (start zeros) = Ok (RJump id 1, st').
Proof. eexists _, _. split; [vm_compute; reflexivity|]. vm_compute. reflexivity. Qed.

Print Assumptions break_effect_partial.
Print Assumptions break_in_blocks.
Print Assumptions break_throw_refuted.
Print Assumptions return_effect.
Print Assumptions return_from_guard_partial.
Print Assumptions return_in_try_refuted.
Print Assumptions return_in_guard_refuted.
