(** Proofs for the body of a thread. *)
From Verif Require Import BaseLemmas ExcModel SpecExc ExcProofs ExcRun ExcThrow ThreadFnModel.

(** ** a jump leaves its exception in the current guard *)
Definition left_in (i : Z) (st : est) : Prop := hook_set st = true -> s_err (scopes st (arena st)) = c_ex (ctxs st i) /\ s_panic (scopes st (arena st)) = c_panic (ctxs st i).
Definition tells (m : out (res * est)) : Prop := forall i v st', m = Ok (RJump i v, st') -> left_in i st'.
Lemma tells_norm st : tells (Ok (RNorm, st)).
Proof. intros i v st' E. discriminate. Qed.
Lemma tells_andthen m k : tells m -> (forall st, tells (k st)) -> tells (andthen m k).
Proof. intros A B i v st' E. destruct m as [[[|j w|ex pm] st]| | |]; cbn [andthen] in E; try discriminate; [exact (B st i v st' E)|exact (A i v st' E)]. Qed.
Lemma tells_bind {A} (m : out A) k : (forall a, tells (k a)) -> tells (bind m k).
Proof. intros B i v st' E. destruct m; cbn [bind] in E; try discriminate. exact (B _ i v st' E). Qed.

(** Nothing that returns touches err, the name in a context, the guard or the hooks. *)
Record esame (st st' : est) : Prop := ESame { es_err : forall i, s_err (scopes st' i) = s_err (scopes st i); es_ex : forall i, c_ex (ctxs st' i) = c_ex (ctxs st i); es_set : hook_set st' = hook_set st; es_arena : arena st' = arena st;
  es_panic : forall i, s_panic (scopes st' i) = s_panic (scopes st i); es_msg : forall i, c_panic (ctxs st' i) = c_panic (ctxs st i) }.
Lemma esame_refl st : esame st st.
Proof. constructor; auto. Qed.
Lemma esame_trans a b c : esame a b -> esame b c -> esame a c.
Proof. intros [A1 A2 A3 A4 A5 A6] [B1 B2 B3 B4 B5 B6]. constructor; intros; congruence. Qed.
Lemma esame_scope i f st : (forall s, s_err (f s) = s_err s /\ s_panic (f s) = s_panic s) -> esame st (with_scope i f st).
Proof. intros H. constructor; ctx_tac; auto; intros j; unfold upd; destruct (Z.eqb_spec j i) as [->|_]; auto; apply H. Qed.
Lemma esame_ctx i f st : (forall s, c_ex (f s) = c_ex s /\ c_panic (f s) = c_panic s) -> esame st (with_ctx i f st).
Proof. intros H. constructor; ctx_tac; auto; intros j; unfold upd; destruct (Z.eqb_spec j i) as [->|_]; auto; apply H. Qed.
Lemma esame_node i f st : esame st (with_node i f st).
Proof. constructor; auto. Qed.
Lemma esame_emit e st : esame st (emit e st).
Proof. constructor; auto. Qed.
Lemma release_esame n st st' : release n st = Ok st' -> esame st st'.
Proof. unfold release. destruct (n_free n); [destruct (n_val n =? 0); [|discriminate]|]; intros [= <-]; apply esame_emit. Qed.
Lemma is_caught_esame sc n st : esame st (snd (is_caught sc n st)).
Proof. unfold is_caught. cbn [snd]. destruct (_ && _); [|apply esame_scope; auto]. eapply esame_trans; [apply (esame_scope sc (s_set_rec true)); auto|]. apply esame_ctx; auto. Qed.

Section Loop.
Variable thr : Z -> Z -> est -> out (res * est).
Hypothesis thr_tells : forall ex pm st, tells (thr ex pm st).
Hypothesis thr_leaves : forall ex pm st st', thr ex pm st <> Ok (RNorm, st').
Lemma run_entry_tells e st : tells (run_entry thr e st) /\ forall st', run_entry thr e st = Ok (RNorm, st') -> esame st st'.
Proof.
  unfold run_entry. destruct (e_kind e) as [f|]; [|split; [apply tells_norm|intros st' [= <-]; apply esame_emit]].
  set (s0 := emit _ st). assert (F0 : esame st s0) by apply esame_emit. split.
  - apply tells_bind. intros a. destruct (d_throw f); [apply thr_tells|apply tells_norm].
  - destruct (d_throw f) as [x|].
    + intros st' E. destruct (match d_recover f with Some _ => _ | None => _ end); cbn [bind] in E; try discriminate. destruct (thr_leaves _ _ _ _ E).
    + destruct (d_recover f) as [n|]; [|intros st' [= <-]; exact F0]. destruct (arena s0 =? 0); [intros st' E; discriminate E|]. cbn [bind].
      pose proof (is_caught_esame (arena s0) n s0) as F1. destruct (is_caught (arena s0) n s0) as [b s1]. cbn [snd] in F1. intros st' [= <-].
      eapply esame_trans; [exact F0|]. destruct b; [eapply esame_trans; [exact F1|apply esame_emit]|exact F1].
Qed.
Lemma run_entries_tells sc todo : forall ran st, tells (run_entries thr sc ran todo st) /\ forall st', run_entries thr sc ran todo st = Ok (RNorm, st') -> esame st st'.
Proof.
  induction todo as [|e rest IH]; intros ran st; cbn [run_entries]; [split; [apply tells_norm|intros st' [= <-]; apply esame_refl]|].
  set (st1 := if _ && _ then _ else st). assert (F : esame st st1) by (unfold st1; destruct (_ && _); [apply esame_scope; auto|apply esame_refl]). split.
  - apply tells_andthen; [apply run_entry_tells|]. intros s. apply IH.
  - intros st' E. pose proof (proj2 (run_entry_tells e st1)) as Q. destruct (run_entry thr e st1) as [[[|j w|ex pm] s2]| | |]; cbn [andthen] in E; try discriminate.
    eapply esame_trans; [exact F|]. eapply esame_trans; [apply Q; reflexivity|]. eapply esame_trans; [|apply (proj2 (IH _ _) _ E)]. apply esame_scope; auto.
Qed.
Lemma settle_esame sc b st st' : settle_protector sc b st = Ok st' -> esame st st'.
Proof.
  unfold settle_protector. destruct (_ && _); [|intros [= <-]; apply esame_refl]. destruct b; [intros [= <-]; apply esame_scope; auto|].
  destruct (release _ _) as [s1| | |] eqn:E; cbn [bind]; try discriminate. intros [= <-]. apply release_esame in E. eapply esame_trans; [apply (esame_scope sc (s_set_prot false)); auto|]. eapply esame_trans; [exact E|]. apply esame_node.
Qed.
Lemma drop_esame sc st : esame st (drop_protector sc st).
Proof.
  unfold drop_protector. destruct (_ =? 0); [apply esame_refl|]. destruct (n_ok _).
  - eapply esame_trans; [|apply (esame_scope sc (s_set_protector 0)); auto]. eapply esame_trans; [|apply esame_node]. eapply esame_trans; [apply esame_node|]. apply esame_ctx; auto.
  - eapply esame_trans; [|apply (esame_scope sc (s_set_protector 0)); auto]. apply esame_node.
Qed.
Lemma deferred_tells sc st : tells (deferred_free thr sc st) /\ forall st', deferred_free thr sc st = Ok (RNorm, st') -> esame st st'.
Proof.
  unfold deferred_free. destruct (negb (s_live _)); [split; intros ? *; discriminate|]. destruct (negb (s_arr _)); [split; [apply tells_norm|intros st' [= <-]; apply esame_refl]|].
  set (s0 := with_scope sc _ st). assert (F0 : esame st s0) by (apply esame_scope; auto). pose proof (run_entries_tells sc (s_defers (scopes st sc)) [] s0) as [T1 T2]. split.
  - apply tells_andthen; [exact T1|]. intros s. apply tells_bind. intros a. apply tells_norm.
  - intros st' E. destruct (run_entries _ _ _ _ _) as [[[|j w|ex pm] s2]| | |]; cbn [andthen] in E; try discriminate.
    destruct (settle_protector _ _ _) as [s3| | |] eqn:E3; cbn [bind] in E; try discriminate. injection E as <-. apply settle_esame in E3.
    eapply esame_trans; [exact F0|]. eapply esame_trans; [apply T2; reflexivity|]. eapply esame_trans; [exact E3|]. eapply esame_trans; [apply drop_esame|]. apply esame_scope; auto.
Qed.
Lemma unwind_ptrs_esame fuel : forall p temp st st', unwind_ptrs fuel p temp st = Ok st' -> esame st st'.
Proof.
  induction fuel as [|f IH]; intros p temp st st'; cbn [unwind_ptrs]; [discriminate|].
  destruct (p =? 0); [intros [= <-]; apply esame_refl|]. destruct (n_live _); cbn [negb]; [|discriminate]. destruct (n_ok _); cbn [negb]; [|intros [= <-]; apply esame_refl].
  destruct (temp =? _); [intros [= <-]; apply esame_refl|].
  destruct (n_val (nodes st p) =? 0); cbn [bind]; [apply IH|].
  destruct (release _ _) as [s1| | |] eqn:E; cbn [bind]; try discriminate. intros Q. apply IH in Q. apply release_esame in E. eapply esame_trans; [apply esame_node|]. eapply esame_trans; [exact E|exact Q].
Qed.
Lemma unwind_tells fuel id st : tells (unwind fuel thr id st) /\ forall st', unwind fuel thr id st = Ok (RNorm, st') -> esame st st'.
Proof.
  unfold unwind. set (s0 := with_ctx id _ st). assert (F0 : esame st s0) by (apply esame_ctx; auto). clearbody s0.
  assert (Q : forall m, tells m /\ (forall st', m = Ok (RNorm, st') -> esame s0 st') ->
    tells (andthen m (fun st => Ok (RNorm, with_ctx id (fun c => c_set_stack 0 (c_set_unstack false c)) st))) /\
    forall st', andthen m (fun st => Ok (RNorm, with_ctx id (fun c => c_set_stack 0 (c_set_unstack false c)) st)) = Ok (RNorm, st') -> esame st st').
  { intros m [A B]. split; [apply tells_andthen; [exact A|intros; apply tells_norm]|]. intros st' E. destruct m as [[[|j w|ex pm] s2]| | |]; cbn [andthen] in E; try discriminate. injection E as <-.
    eapply esame_trans; [exact F0|]. eapply esame_trans; [apply B; reflexivity|]. apply esame_ctx; auto. }
  apply Q. destruct (_ && hook_unwind _); [apply deferred_tells|]. destruct (_ && _ && _); [apply deferred_tells|]. split; [apply tells_bind; intros; apply tells_norm|].
  intros st' E. destruct (unwind_ptrs _ _ _ _) as [s1| | |] eqn:E1; cbn [bind] in E; try discriminate. injection E as <-. apply unwind_ptrs_esame in E1. exact E1.
Qed.
End Loop.

Lemma throw_tells fuel : forall ex pm st, tells (ex_throw fuel ex pm st).
Proof.
  induction fuel as [|f IH]; intros ex pm st; cbn [ex_throw]; [discriminate|].
  destruct (c_unstack _); [discriminate|]. set (s0 := with_ctx (cur st) (c_thrown ex pm) st).
  destruct (setup (cur st) ex pm s0) as [s1| | |] eqn:E1; cbn [bind]; try discriminate.
  pose proof (unwind_tells (ex_throw f) IH (throw_ends f) (S f) (cur st) s1) as [T1 T2].
  intros i v st' E. destruct (unwind _ _ _ _) as [[[|j w|x y] s2]| | |]; cbn [andthen] in E; try discriminate; [|exact (T1 i v st' E)].
  destruct (cur st =? root); [discriminate|]. injection E as <- _ <-. destruct (T2 s2 eq_refl) as [A1 A2 A3 A4 A5 A6]. intros Hh. rewrite A1, A2, A4, A5, A6. rewrite A3 in Hh.
  unfold setup in E1. destruct (hook_set s0) eqn:Hs.
  - destruct (arena s0 =? 0); [discriminate|]. injection E1 as <-. unfold record_err, s0. ctx_tac. rewrite !upd_same. split; reflexivity.
  - exfalso. destruct (c_raii _); injection E1 as <-; [|congruence]. unfold record_err in Hh. ctx_tac. unfold raii_init in Hh. destruct (ready s0); unfold with_scope, with_ctx in Hh; cbn [hook_set set_ctxs set_scopes set_ready] in Hh; congruence.
Qed.
Lemma end_try_tells fuel id st : tells (end_try fuel id st).
Proof. unfold end_try. destruct (Z.odd _); [apply throw_tells|apply tells_norm]. Qed.
Lemma landing_tells fuel id body hand fin : (forall st, tells (body st)) -> (forall st, tells (hand st)) -> (forall st, tells (fin st)) -> forall n v st, (n <= fuel)%nat -> tells (landing n id body hand fin v st).
Proof.
  intros A B C. induction n as [|f IH]; intros v st Hn; cbn [landing]; [discriminate|].
  set (m := andthen _ _). assert (T : tells m).
  { apply tells_andthen; [destruct (v =? 0); [apply A|apply tells_norm]|]. intros s. apply tells_andthen; [apply B|]. intros s2. apply tells_andthen; [apply C|]. intros s3. apply end_try_tells. }
  clearbody m. destruct m as [[[|j w|ex pm] s2]| | |]; try exact T. destruct (j =? id); [apply IH; lia|exact T].
Qed.
Lemma exec_tells : (forall s fuel lx sc st, tells (exec fuel lx sc s st)) /\ (forall cs fuel id sc st, tells (handle fuel id sc cs st)).
Proof.
  apply stmt_clauses_ind; intros; cbn [exec handle]; try apply throw_tells; try apply tells_norm.
  - apply tells_andthen; auto.
  - destruct (new_ctx st) as [id st1]. apply (landing_tells fuel); auto. intros s. destruct hf; [auto|apply tells_norm].
  - destruct (new_ctx _) as [id st1]. apply (landing_tells fuel); auto.
    + intros s. apply tells_andthen; [auto|]. intros s1. apply (deferred_tells (ex_throw fuel)); [apply throw_tells|apply throw_ends].
    + intros s. destruct (_ =? _); [apply (deferred_tells (ex_throw fuel)); [apply throw_tells|apply throw_ends]|apply tells_norm].
    + intros s. apply tells_norm.
  - apply tells_andthen; [auto|]. intros s1. apply tells_norm.
  - apply tells_bind. intros [b q]. destruct b; auto.
  - apply tells_andthen; [destruct (_ && _); [auto|apply tells_norm]|auto].
  - apply tells_andthen; [destruct (_ =? _); [auto|apply tells_norm]|auto].
  - apply tells_andthen; [destruct (_ =? _); [auto|apply tells_norm]|auto].
Qed.

(** ** is_recovered after the deferred functions *)
Definition last_hits (err : Z) (D : list (dfun * Z)) (d : bool) : bool := match rev D with [] => d | p :: _ => hits err p end.
Lemma last_cons err p D d : last_hits err (p :: D) d = last_hits err D (hits err p).
Proof. unfold last_hits. cbn [rev]. destruct (rev D); reflexivity. Qed.
Lemma run_entry_rec thr sc p st st' : arena st = sc -> sc <> 0 -> d_throw (fst p) = None -> s_rec (scopes st sc) = false -> run_entry thr (mk p) st = Ok (RNorm, st') ->
  s_rec (scopes st' sc) = hits (s_pending (scopes st sc)) p.
Proof.
  intros A Hs Hd Hr. unfold run_entry. cbn [mk e_kind e_data]. ctx_tac. rewrite A. replace (sc =? 0) with false by lia. unfold hits. rewrite Hd. destruct (d_recover (fst p)) as [n|].
  - unfold is_caught. ctx_tac. cbn [bind]. set (b := _ && _). intros [= <-]. destruct b; ctx_tac; rewrite upd_same; reflexivity.
  - cbn [bind]. intros [= <-]. ctx_tac. rewrite Hr, andb_false_r. reflexivity.
Qed.
Lemma run_entries_rec thr sc D : (forall ex pm st st', thr ex pm st <> Ok (RNorm, st')) -> (forall ex pm st, tells (thr ex pm st)) ->
  forall ran st st', arena st = sc -> sc <> 0 -> s_err (scopes st sc) <> 0 -> Forall (fun p => d_throw (fst p) = None) D -> run_entries thr sc ran (map mk D) st = Ok (RNorm, st') ->
  s_rec (scopes st' sc) = last_hits (s_pending (scopes st sc)) D (s_rec (scopes st sc)).
Proof.
  intros TL TT. induction D as [|p D IH]; intros ran st st' A Hs He Hd E; [injection E as <-; reflexivity|]. inversion Hd as [|? ? H1 H2]; subst. rewrite last_cons. cbn [map run_entries] in E.
  replace (s_err (scopes st (arena st)) =? 0) with false in E by lia. cbn [negb andb mk e_check] in E. fold (mk p) in E.
  set (st1 := with_scope (arena st) (s_set_rec false) st) in E.
  assert (R1 : s_rec (scopes st1 (arena st)) = false) by (unfold st1; ctx_tac; rewrite upd_same; reflexivity).
  assert (P1 : s_pending (scopes st1 (arena st)) = s_pending (scopes st (arena st))) by (unfold st1; ctx_tac; rewrite upd_same; reflexivity).
  assert (F1 : esame st st1) by (apply esame_scope; auto). assert (A1 : arena st1 = arena st) by reflexivity. clearbody st1.
  destruct (run_entry_ok thr (arena st) p st1 A1 Hs H1) as (st2 & R2 & D2 & S2 & T2 & C2). rewrite R2 in E. cbn [andthen] in E.
  pose proof (run_entry_rec thr (arena st) p st1 st2 A1 Hs H1 R1 R2) as Q. rewrite P1 in Q.
  pose proof (proj2 (run_entry_tells thr TT TL (mk p) st1) st2 R2) as F2. pose proof (esame_trans _ _ _ F1 F2) as [E1 E2 E3 E4 _ _].
  match type of E with run_entries _ _ _ _ ?s = _ => set (st3 := s) in E end.
  assert (P3 : s_pending (scopes st3 (arena st)) = s_pending (scopes st (arena st))) by (unfold st3; ctx_tac; rewrite upd_same; rewrite <- P1; exact (ss_pend _ _ S2)).
  assert (Q3 : s_rec (scopes st3 (arena st)) = hits (s_pending (scopes st (arena st))) p) by (unfold st3; ctx_tac; rewrite upd_same; exact Q).
  rewrite <- Q3, <- P3. apply (IH _ st3 st' E4 Hs) in E; auto. unfold st3. ctx_tac. rewrite upd_same. cbn [s_err s_set_defers]. rewrite E1. exact He.
Qed.
Lemma deferred_rec thr sc g st st' : (forall ex pm st st', thr ex pm st <> Ok (RNorm, st')) -> (forall ex pm st, tells (thr ex pm st)) ->
  arena st = sc -> sc <> 0 -> scope_ok (scopes st sc) g -> s_err (scopes st sc) <> 0 -> Forall (fun p => d_throw (fst p) = None) (fst g) -> deferred_free thr sc st = Ok (RNorm, st') ->
  s_rec (scopes st' sc) = last_hits (snd g) (fst g) false /\ s_pending (scopes st' sc) = snd g.
Proof.
  intros TL TT A Hs [O1 O2 O3 O4 O5 O6] He O7. unfold deferred_free. rewrite O5, O1, O2. cbn [negb].
  set (st1 := with_scope sc (s_set_rec (s_err (scopes st sc) =? 0)) st).
  assert (S1 : ssame (scopes st sc) (scopes st1 sc)) by (unfold st1; ctx_tac; rewrite upd_same; constructor; reflexivity).
  assert (R1 : s_rec (scopes st1 sc) = false) by (unfold st1; ctx_tac; rewrite upd_same; cbn [s_rec s_set_rec]; lia).
  assert (E1 : s_err (scopes st1 sc) <> 0) by (unfold st1; ctx_tac; rewrite upd_same; exact He).
  assert (P1 : s_pending (scopes st1 sc) = snd g) by (rewrite (ss_pend _ _ S1); exact O6).
  destruct (run_entries_ok thr sc (fst g) [] st1 A Hs O7) as (st2 & E2 & D2 & S2 & T2 & C2).
  pose proof (run_entries_rec thr sc (fst g) TL TT [] st1 st2 A Hs E1 O7 E2) as Q. rewrite E2. cbn [andthen]. rewrite P1, R1 in Q.
  pose proof (ssame_trans _ _ _ S1 S2) as [U1 U2 U3 U4 U5]. unfold settle_protector. rewrite U3, O3. cbn [andb bind].
  unfold drop_protector. rewrite U4, O4. replace (0 =? 0) with true by reflexivity. intros [= <-]. ctx_tac. rewrite upd_same. split; [exact Q|]. unfold s_pending in *. cbn [s_reset s_panic s_err]. congruence.
Qed.

(** ** the reference semantics raises named exceptions *)
Lemma ref_named :
  (forall s inh ing h g t e g', core inh ing s -> (inh = true -> fst h <> 0) -> ref s h g = (t, Raised e, g') -> fst e <> 0) /\
  (forall cs ing e0 g t e g', core_c ing cs -> fst e0 <> 0 -> rhandle cs e0 g = (t, Raised e, g') -> fst e <> 0).
Proof.
  apply stmt_clauses_ind; intros; cbn [core core_c ref rhandle] in *; try discriminate; try contradiction.
  - destruct H1 as [A B]. destruct (ref s1 h g) as [[t1 r1] g1] eqn:E1. destruct r1.
    + destruct (ref s2 h g1) as [[t2 r2] g2] eqn:E2. injection H3 as <- -> <-. eauto.
    + injection H3 as <- -> <-. eauto.
  - injection H1 as <- <- <-. exact H.
  - injection H1 as <- <- <-. unfold ex_panic. cbn. lia.
  - injection H1 as <- <- <-. auto.
  - destruct H2 as (A & B & C). destruct (ref b h g) as [[t1 r1] g1] eqn:E1.
    destruct (match r1 with Done => ([], Done, g1) | Raised e => rhandle cs e g1 end) as [[t2 r2] g2] eqn:E2.
    destruct (if hf then ref f h g2 else ([], Done, g2)) as [[t3 r3] g3] eqn:E3. injection H4 as <- E4 _.
    destruct r3 as [|e3].
    + subst r2. destruct r1 as [|e1]; [discriminate|]. eapply H0; [exact B| |exact E2]. eapply H; [exact A|discriminate|exact E1].
    + injection E4 as ->. destruct hf; [|discriminate]. eapply H1; [exact (C eq_refl)|discriminate|exact E3].
  - destruct (ref b h ([], 0)) as [[t1 r1] g1] eqn:E1. destruct r1 as [|e1]; [discriminate|]. destruct (existsb _ _); [discriminate|]. injection H2 as <- -> <-. eapply H; [exact H0|discriminate|exact E1].
  - injection H1 as <- <- <-. exact H0.
  - destruct H1 as [A B]. destruct (e =? fst e0); eauto.
  - destruct H1 as [A B]. eauto.
Qed.
Lemma ref_undeferred :
  (forall s inh h g, core inh false s -> fst (snd (ref s h g)) = fst g) /\
  (forall cs e0 g, core_c false cs -> fst (snd (rhandle cs e0 g)) = fst g).
Proof.
  apply stmt_clauses_ind; intros; cbn [core core_c ref rhandle fst snd] in *; try reflexivity; try contradiction.
  - destruct H1 as [A B]. specialize (H inh h g A). destruct (ref s1 h g) as [[t1 r1] g1]. cbn [fst snd] in *. destruct r1; [|exact H]. specialize (H0 inh h g1 B). destruct (ref s2 h g1) as [[t2 r2] g2]. cbn [fst snd] in *. congruence.
  - destruct H2 as (A & B & C). specialize (H false h g A). destruct (ref b h g) as [[t1 r1] g1]. cbn [fst snd] in *.
    assert (Q : fst (snd (match r1 with Done => ([], Done, g1) | Raised e => rhandle cs e g1 end)) = fst g) by (destruct r1; [exact H|rewrite H0 by exact B; exact H]).
    destruct (match r1 with Done => _ | Raised e => _ end) as [[t2 r2] g2]. cbn [fst snd] in *.
    assert (Q3 : fst (snd (if hf then ref f h g2 else ([], Done, g2))) = fst g) by (destruct hf; [rewrite (H1 false) by auto; exact Q|exact Q]).
    destruct (if hf then _ else _) as [[t3 r3] g3]. cbn [fst snd] in *. destruct r3; [destruct r2|]; exact Q3.
  - destruct (ref b h ([], 0)) as [[t1 r1] g1]. destruct r1; [reflexivity|]. destruct (existsb _ _); reflexivity.
  - destruct H. discriminate.
  - destruct H1 as [A B]. destruct (e =? fst e0); eauto.
  - destruct H1 as [A B]. eauto.
Qed.

(** ** the wrapper *)

Lemma pass_ends f id body hand fin v st st' : pass (S f) id body hand fin v st = Ok (RNorm, st') -> landing (S f) id body hand fin v st = Ok (RNorm, st').
Proof. intros E. cbn [landing]. unfold pass in E. rewrite E. reflexivity. Qed.

Definition settled (err : Z) (D : list (dfun * Z)) (r : rres) (panic : Z) : wend :=
  match r with
  | Done => Goes 0 panic
  | Raised e => if last_hits err D false then Goes 0 panic else Goes (fst e) (snd e)
  end.
Lemma thread_ref b t r D err fuel j hs hu e0 p0 : core false true b -> ref b (0, 0) ([], 0) = (t, r, (D, err)) ->
  thread (S (S (S fuel))) b j hs hu e0 p0 = Ok (t ++ drain D err, settled err D r p0).
Proof.
  intros Hb Rb. unfold thread, wrapper.
  replace (with_scope creator (fun s => s_set_err 0 (s_panic s) s) (thread_start j hs hu e0 p0)) with
    (with_scope creator (fun s => s_set_err 0 (s_panic s) s) (with_scope creator (fun _ => Scope true [] e0 p0 false false 0 true) (set_fresh 3 (set_hooks hs hu (start j))))) by reflexivity.
  set (s0 := with_scope creator _ (with_scope _ _ _)). set (st1 := raii_init s0).
  assert (N2 : inv (enter_guard st1) 3 ([], 0)) by (constructor; try reflexivity; try discriminate; cbn; repeat split; try reflexivity; try lia).
  change (fresh st1) with 3. change (arena st1) with 0. change (hook_set st1) with hs. change (hook_unwind st1) with hu.
  change (set_arena 3 (set_fresh (3 + 1) (with_scope 3 (fun _ => Scope true [] 0 0 false false 0 true) (set_hooks true true st1)))) with (enter_guard st1).
  assert (Hf2 : 2 <= fresh (enter_guard st1)) by (change (fresh (enter_guard st1)) with 4; lia).
  destruct (new_ctx_inside 3 (enter_guard st1) ([], 0) Hf2 N2) as (st3 & E3 & In3 & T3). rewrite E3. change (fresh (enter_guard st1)) with 4 in *. set (id := 4) in *.
  set (body := fun st => andthen (exec _ id 3 b st) _). set (hand := fun st => if c_state (ctxs st id) =? 1 then _ else _). set (fin := fun st => Ok (RNorm, with_scope 3 s_dead _)).
  pose proof (inside_state 3 (enter_guard st1) id st3 _ 0 Hf2 In3) as In4. set (st4 := with_ctx id (c_set_state 0) st3) in *.
  assert (S4 : c_state (ctxs st4 id) = 0) by (unfold st4; ctx_tac; rewrite upd_same; reflexivity).
  assert (Pb : post 3 st4 t r (D, err) (exec (S (S (S fuel))) id 3 b st4)).
  { pose proof In4 as [A1 A2 A3 A4 _ _ _ _ A9]. pose proof (proj1 exec_ref b false true fuel id 3 st4 (0, 0) ([], 0) (proj1 core_loud _ _ _ Hb) A9) as P. rewrite Rb in P. apply P; [pose proof (i_cur _ _ _ A9); lia|intros _; exact A4|discriminate]. }
  destruct (inside_post 3 (enter_guard st1) id st4 _ _ _ _ _ Hf2 In4 Pb) as (x & st5 & Eb & T5 & In5 & R).
  change (trace st4) with (trace st3) in T5. rewrite T3 in T5. change (trace (enter_guard st1)) with (@nil event) in T5. cbn [app] in T5.
  assert (Qu : Forall (fun p => d_throw (fst p) = None) D) by (pose proof (proj1 ref_quiet b false true (0, 0) ([], 0) Hb ltac:(constructor)) as Qu; rewrite Rb in Qu; exact Qu).
  assert (Run : forall st6, inside 3 (enter_guard st1) id st6 (D, err) -> trace st6 = t -> exists st7, deferred_free (ex_throw (S (S (S fuel)))) 3 st6 = Ok (RNorm, st7) /\
    dsame id 3 st6 st7 /\ trace st7 = t ++ drain D err /\ c_state (ctxs st7 id) = (if existsb (hits err) D then 2 else c_state (ctxs st6 id)) /\ arena st6 = 3 /\ scope_ok (scopes st6 3) (D, err) /\ ready st6 = true /\ s_defers (scopes st6 root) = [] /\ scopes st6 creator = Scope true [] 0 p0 false false 0 true).
  { intros st6 In6 T6. pose proof In6 as [A1 A2 A3 A4 A5 A6 A7 A8 A9]. change (hook_set (enter_guard st1)) with true in A4. destruct (i_in _ _ _ A9 A4) as (Y1 & Y2 & Y3 & Y4).
    destruct (deferred_ok (ex_throw (S (S (S fuel)))) 3 (D, err) st6 Y2 ltac:(lia) Y4 Qu) as (st7 & E7 & D7 & T7 & C7). rewrite A2 in D7, C7. exists st7. split; [exact E7|]. split; [exact D7|]. split; [rewrite T7, T6; reflexivity|]. split; [exact C7|].
    split; [exact Y2|]. split; [exact Y4|]. split; [exact Y1|]. split; [apply (i_root _ _ _ A9 Y1)|]. rewrite A8 by (unfold creator; change (fresh (enter_guard st1)) with 4; lia). reflexivity. }
  (* leaving once the state is even *)
  assert (Leave : forall fl st8, Z.odd (c_state (ctxs st8 id)) = false -> c_next (ctxs st8 id) = root -> ready st8 = true -> s_defers (scopes st8 root) = [] ->
     exists st9, andthen (fin st8) (fun st => end_try (S fl) id st) = Ok (RNorm, st9) /\ trace (free_root st9) = trace st8 /\ scopes st9 creator = scopes st8 creator).
  { intros fl st8 Od Nx Rd Df. unfold fin. cbn [andthen]. unfold end_try. ctx_tac. rewrite Nx. replace (root =? id) with false by reflexivity. cbv iota. ctx_tac. rewrite upd_other by (unfold id, root; lia). rewrite Od. eexists. split; [reflexivity|]. split.
    - rewrite free_root_id; [reflexivity|]. intros _. ctx_tac. rewrite upd_other by (unfold root; lia). exact Df.
    - ctx_tac. apply upd_other. unfold creator. lia. }
  pose proof (in_next _ _ _ _ _ In5) as Nx5. change (cur (enter_guard st1)) with root in Nx5.
  destruct r as [|e].
  { destruct R as [-> C]. pose proof (cs_state _ _ C) as C2. rewrite S4 in C2.
    destruct (Run st5 In5 T5) as (st7 & E7 & D7 & T7 & C7 & _ & _ & Rd & Df & Sc). rewrite C2 in C7.
    destruct (Leave (S (S fuel)) st7) as (st9 & E9 & T9 & Sc9).
    { rewrite C7. destruct (existsb _ _); reflexivity. }
    { rewrite (ds_next _ _ _ _ D7). exact Nx5. }
    { rewrite (ds_ready _ _ _ _ D7). exact Rd. }
    { rewrite (ds_scope _ _ _ _ D7) by (unfold root; lia). exact Df. }
    rewrite (pass_ends (S (S fuel)) id body hand fin 0 st3 st9); [rewrite T9, T7, Sc9, (ds_scope _ _ _ _ D7), Sc by (unfold creator; lia); reflexivity|].
    unfold pass. replace (0 =? 0) with true by reflexivity. fold st4. unfold body at 1. rewrite Eb. cbn [andthen]. rewrite E7. cbn [andthen]. unfold hand at 1. rewrite C7. replace ((if existsb (hits err) D then 2 else 0) =? 1) with false by (destruct (existsb _ _); reflexivity). cbn [andthen]. exact E9. }
  destruct R as [-> C].
  rewrite (landing_jump (S (S fuel)) id body hand fin 0 st3 1 st5); [|unfold pass; replace (0 =? 0) with true by reflexivity; fold st4; unfold body; rewrite Eb, S4; reflexivity].
  pose proof (inside_state 3 (enter_guard st1) id st5 _ 1 Hf2 In5) as In6. set (st6 := with_ctx id (c_set_state 1) st5) in *.
  assert (S6 : c_state (ctxs st6 id) = 1 /\ c_ex (ctxs st6 id) = fst e /\ c_panic (ctxs st6 id) = snd e) by (unfold st6; ctx_tac; rewrite upd_same; destruct C; auto).
  destruct S6 as (S6 & S6e & S6p).
  destruct (Run st6 In6 T5) as (st7 & E7 & D7 & T7 & C7 & A6 & O6 & Rd & Df & Sc). rewrite S6 in C7.
  pose proof (proj1 ref_named b false true (0, 0) ([], 0) t e (D, err) Hb ltac:(discriminate) Rb) as Ne.
  assert (He6 : s_err (scopes st6 3) <> 0).
  { pose proof (proj1 exec_tells b (S (S (S fuel))) id 3 st4 _ _ _ Eb) as L. unfold left_in in L. rewrite <- A6. change (scopes st6) with (scopes st5). change (arena st6) with (arena st5). destruct L as [L _]; [|rewrite L, (ct_ex _ _ _ C); exact Ne]. rewrite (in_set _ _ _ _ _ In5). reflexivity. }
  destruct (deferred_rec (ex_throw (S (S (S fuel)))) 3 (D, err) st6 st7 (throw_ends _) (throw_tells _) A6 ltac:(lia) O6 He6 Qu E7) as [Q7 P7]. cbn [fst snd] in Q7, P7.
  pose proof (proj1 ref_err _ _ _ _ _ _ Rb) as Pe. cbn [snd] in Pe.
  assert (Ze : err <> 0) by (clear - Pe Ne; rewrite Pe; unfold pend; destruct (Z.eqb_spec (snd e) 0); assumption).
  set (st8 := report id 3 st7).
  assert (Q8 : Z.odd (c_state (ctxs st8 id)) = false /\ c_next (ctxs st8 id) = root /\ ready st8 = true /\ s_defers (scopes st8 root) = [] /\ trace st8 = t ++ drain D err /\
    s_err (scopes st8 creator) = (if last_hits err D false then 0 else fst e) /\ s_panic (scopes st8 creator) = (if last_hits err D false then p0 else snd e)).
  { assert (N7 : c_next (ctxs st7 id) = root) by (rewrite (ds_next _ _ _ _ D7); unfold st6; ctx_tac; rewrite upd_same; exact Nx5).
    assert (R7 : ready st7 = true) by (rewrite (ds_ready _ _ _ _ D7); exact Rd).
    assert (F7 : s_defers (scopes st7 root) = []) by (rewrite (ds_scope _ _ _ _ D7) by (unfold root; lia); exact Df).
    assert (G7 : scopes st7 creator = Scope true [] 0 p0 false false 0 true) by (rewrite (ds_scope _ _ _ _ D7) by (unfold creator; lia); exact Sc).
    assert (U7 : cur st7 = id) by (rewrite (ds_cur _ _ _ _ D7); exact (in_cur _ _ _ _ _ In6)).
    unfold st8, report. rewrite Q7. destruct (last_hits err D false) eqn:L; cbn [negb].
    - assert (X : existsb (hits err) D = true).
      { apply existsb_exists. unfold last_hits in L. destruct (rev D) as [|p q] eqn:Er; [discriminate|]. exists p. split; [apply in_rev; rewrite Er; left; reflexivity|exact L]. }
      rewrite C7, X, G7, N7, R7, F7, T7. repeat split; reflexivity.
    - unfold is_caught. rewrite P7, Z.eqb_refl. replace (err =? 0) with false by lia. cbn [negb andb]. ctx_tac. rewrite U7, !upd_same. rewrite (upd_other _ creator _ root) by (unfold creator, root; lia). rewrite (upd_other _ 3 _ root) by (unfold root; lia).
      rewrite F7, R7, T7. cbn [c_set_state c_state c_next c_ex c_panic]. rewrite N7, (ds_ex _ _ _ _ D7), (ds_panic _ _ _ _ D7), S6e, S6p. repeat split; reflexivity. }
  destruct Q8 as (W1 & W2 & W3 & W4 & W5 & W6 & W7).
  destruct (Leave (S fuel) st8 W1 W2 W3 W4) as (st9 & E9 & T9 & Sc9).
  rewrite (pass_ends (S fuel) id body hand fin 1 st5 st9).
  - rewrite T9, W5, Sc9, W6, W7. unfold settled. destruct (last_hits err D false); reflexivity.
  - unfold pass. replace (1 =? 0) with false by reflexivity. fold st6. cbn [andthen]. unfold hand at 1. rewrite S6. replace (1 =? 1) with true by reflexivity. rewrite E7. cbn [andthen].
    exact E9.
Qed.
