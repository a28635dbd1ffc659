(** Further consequences for exceptions and guards. *)
From Verif Require Import BaseLemmas ExcModel SpecExc ExcProofs ExcRun ExcStable.

(** ** try programs within the larger language *)
Lemma try_core :
  (forall s inh ing, try_only inh s -> core inh ing s) /\ (forall cs ing, try_only_c cs -> core_c ing cs).
Proof.
  apply stmt_clauses_ind; intros; cbn [try_only core try_only_c core_c] in *; try tauto.
  - destruct H1; auto.
  - destruct H2 as (A & B & C); auto.
  - destruct H1; auto.
  - destruct H1; auto.
Qed.
Lemma try_ref :
  (forall s inh h g, try_only inh s -> fst (ref s h g) = sref s h) /\ (forall cs e g, try_only_c cs -> fst (rhandle cs e g) = shandle cs e).
Proof.
  apply stmt_clauses_ind; intros; cbn [try_only try_only_c ref sref rhandle shandle] in *; try contradiction; try reflexivity.
  - destruct H1 as [A B]. specialize (H inh h g A). destruct (ref s1 h g) as [[t1 r1] g1]. cbn [fst] in H. rewrite <- H. destruct r1; [|reflexivity].
    specialize (H0 inh h g1 B). destruct (ref s2 h g1) as [[t2 r2] g2]. cbn [fst] in H0. rewrite <- H0. reflexivity.
  - destruct H2 as (A & B & C). specialize (H false h g A). destruct (ref b h g) as [[t1 r1] g1]. cbn [fst] in H. rewrite <- H.
    assert (Q : fst (match r1 with Done => ([], Done, g1) | Raised e => rhandle cs e g1 end) = match r1 with Done => ([], Done) | Raised e => shandle cs e end) by (destruct r1; [reflexivity|apply H0; exact B]).
    destruct (match r1 with Done => ([], Done, g1) | Raised e => rhandle cs e g1 end) as [[t2 r2] g2]. cbn [fst] in Q. rewrite <- Q.
    assert (Q3 : fst (if hf then ref f h g2 else ([], Done, g2)) = if hf then sref f h else ([], Done)) by (destruct hf; [apply (H1 false); apply C; reflexivity|reflexivity]).
    destruct (if hf then ref f h g2 else ([], Done, g2)) as [[t3 r3] g3]. cbn [fst] in Q3. rewrite <- Q3. reflexivity.
  - destruct H1. destruct (_ =? _); eauto.
  - destruct H1. eauto.
Qed.

(** ** finally *)
Lemma bal_app E F t1 t2 : E <> F -> balanced E F t1 -> balanced E F t2 -> balanced E F (t1 ++ t2).
Proof.
  intros N H H2. induction H as [|e t A B H IH|a b H1 IH1 H3 IH3]; [exact H2|cbn [app]; constructor; auto|].
  cbn [app]. rewrite <- app_assoc. cbn [app]. apply bal_block; auto.
Qed.
Lemma bal_drain E F D err : balanced E F (drain D err).
Proof.
  induction D as [|p D IH]; [constructor|]. unfold drain. cbn [flat_map app]. fold (drain D err). constructor; try discriminate. destruct (hits err p); cbn [app]; [constructor; try discriminate; exact IH|exact IH].
Qed.
Lemma ref_balanced E F : E <> F ->
  (forall s h g, marked E F s -> balanced E F (fst (fst (ref s h g)))) /\ (forall cs e g, marked_c E F cs -> balanced E F (fst (fst (rhandle cs e g)))).
Proof.
  intros N. 
  set (P := fun s => (forall h g, marked E F s -> balanced E F (fst (fst (ref s h g)))) /\
     (match s with Seq _ s2 => forall h g, marked E F s2 -> balanced E F (fst (fst (ref s2 h g))) | _ => True end)).
  assert (R : (forall s, P s) /\ (forall cs e g, marked_c E F cs -> balanced E F (fst (fst (rhandle cs e g))))).
  { apply stmt_clauses_ind; unfold P.
    - split; [intros; constructor|exact I].
    - intros a. split; [|exact I]. intros h g [A B]. cbn [ref fst]. constructor; [congruence|congruence|constructor].
    - intros s1 [IH1 _] s2 [IH2 _]. split; [|exact IH2]. intros h g [A B]. cbn [ref]. specialize (IH1 h g A). destruct (ref s1 h g) as [[t1 r1] g1]. cbn [fst] in IH1. destruct r1; [|exact IH1].
      specialize (IH2 h g1 B). destruct (ref s2 h g1) as [[t2 r2] g2]. cbn [fst] in *. apply bal_app; auto.
    - split; [intros; constructor|exact I].
    - split; [intros; constructor|exact I].
    - split; [intros; constructor|exact I].
    - intros b [IHb IHb2] cs IHc hf f [IHf IHf2]. split; [|exact I]. intros h g [C M]. cbn [ref].
      assert (Hc : forall r1 g1, balanced E F (fst (fst (match r1 with Done => ([], Done, g1) | Raised e => rhandle cs e g1 end)))) by (intros [|e] g1; [constructor|apply IHc; exact C]).
      destruct M as [[Mb Mf]|(Mb & -> & Mf)].
      + specialize (IHb h g Mb). destruct (ref b h g) as [[t1 r1] g1]. cbn [fst] in IHb. specialize (Hc r1 g1).
        destruct (match r1 with Done => ([], Done, g1) | Raised e => rhandle cs e g1 end) as [[t2 r2] g2]. cbn [fst] in Hc.
        assert (Q : balanced E F (fst (fst (if hf then ref f h g2 else ([], Done, g2))))) by (destruct hf; [apply IHf; exact Mf|constructor]).
        destruct (if hf then ref f h g2 else ([], Done, g2)) as [[t3 r3] g3]. cbn [fst] in *. apply bal_app; auto. apply bal_app; auto.
      + destruct b as [|?|[|a| | | | | | | | | |] b'| | | | | | | | |]; try contradiction. destruct f as [|?|[|a'| | | | | | | | | |] f'| | | | | | | | |]; try contradiction.
        destruct Mb as [-> Mb]. destruct Mf as [-> Mf]. cbn [ref]. specialize (IHb2 h g Mb). destruct (ref b' h g) as [[t1 r1] g1]. cbn [fst] in IHb2. specialize (Hc r1 g1).
        destruct (match r1 with Done => ([], Done, g1) | Raised e => rhandle cs e g1 end) as [[t2 r2] g2]. cbn [fst] in Hc.
        specialize (IHf2 h g2 Mf). destruct (ref f' h g2) as [[t3 r3] g3]. cbn [fst app] in *.
        rewrite app_assoc. apply bal_block; [apply bal_app; auto|exact IHf2].
    - intros b [IHb _]. split; [|exact I]. intros h g M. cbn [ref]. specialize (IHb h ([], 0) M). destruct (ref b h ([], 0)) as [[t1 r1] g1]. cbn [fst] in IHb.
      assert (Q : balanced E F (t1 ++ drain (fst g1) (snd g1))) by (apply bal_app; auto; apply bal_drain). destruct r1; [exact Q|]. destruct (existsb _ _); exact Q.
    - split; [intros; constructor|exact I].
    - split; [intros; constructor|exact I].
    - intros a v s _. split; [intros; constructor|exact I].
    - intros n s1 _ s2 _. split; [intros; constructor|exact I].
    - intros; constructor.
    - intros x s [IHs _] cs IHc e g [A B]. cbn [rhandle]. destruct (_ =? _); auto.
    - intros s [IHs _] cs IHc e g [A B]. cbn [rhandle]. auto.
    - intros; constructor. }
  destruct R as [R1 R2]. split; [|exact R2]. intros s. apply (R1 s).
Qed.

(** ** no deferred function runs before the end of the guard *)
Lemma ref_no_defer :
  (forall s h g, no_guard s -> existsb is_defer (fst (fst (ref s h g))) = false) /\ (forall cs e g, no_guard_c cs -> existsb is_defer (fst (fst (rhandle cs e g))) = false).
Proof.
  apply stmt_clauses_ind; intros; cbn [no_guard no_guard_c ref rhandle] in *; try reflexivity; try contradiction.
  - destruct H1 as [A B]. specialize (H h g A). destruct (ref s1 h g) as [[t1 r1] g1]. cbn [fst] in H. destruct r1; [|exact H]. specialize (H0 h g1 B). destruct (ref s2 h g1) as [[t2 r2] g2]. cbn [fst] in *. rewrite existsb_app, H, H0. reflexivity.
  - destruct H2 as (A & B & C). specialize (H h g A). destruct (ref b h g) as [[t1 r1] g1]. cbn [fst] in H.
    assert (Q : existsb is_defer (fst (fst (match r1 with Done => ([], Done, g1) | Raised e => rhandle cs e g1 end))) = false) by (destruct r1; [reflexivity|auto]).
    destruct (match r1 with Done => ([], Done, g1) | Raised e => rhandle cs e g1 end) as [[t2 r2] g2]. cbn [fst] in Q.
    assert (Q3 : existsb is_defer (fst (fst (if hf then ref f h g2 else ([], Done, g2)))) = false) by (destruct hf; [auto|reflexivity]).
    destruct (if hf then ref f h g2 else ([], Done, g2)) as [[t3 r3] g3]. cbn [fst] in *. rewrite !existsb_app, H, Q, Q3. reflexivity.
  - destruct H1. destruct (_ =? _); auto.
  - destruct H1. auto.
Qed.

(** ** a throw inside catch_if *)
Lemma catch_if_spins fuel sc s st0 id hf f : try_only true s -> (forall h, exists e', snd (sref s h) = Raised e') -> 2 <= fresh st0 ->
  forall n st g, inside sc st0 id st g ->
  landing n id (fun st => exec (S (S (S fuel))) id sc f st) (fun st => handle (S (S (S fuel))) id sc (CatchIf s CNil) st) hf 1 st = NoFuel.
Proof.
  intros Hs Hr Hf. induction n as [|n IH]; intros st g In; [reflexivity|].
  pose proof (inside_state sc st0 id st g 1 Hf In) as In1. set (st1 := with_ctx id (c_set_state 1) st) in *.
  assert (S1 : c_state (ctxs st1 id) = 1) by (unfold st1; ctx_tac; rewrite upd_same; reflexivity).
  pose proof In1 as [A1 A2 _ _ _ _ _ _ A9].
  assert (P : post sc st1 (fst (fst (ref s (c_ex (ctxs st1 id), c_panic (ctxs st1 id)) g))) (snd (fst (ref s (c_ex (ctxs st1 id), c_panic (ctxs st1 id)) g))) (snd (ref s (c_ex (ctxs st1 id), c_panic (ctxs st1 id)) g)) (exec (S (S (S fuel))) id sc s st1)).
  { apply (proj1 exec_ref s true false); auto; [exact (proj1 core_loud _ _ _ (proj1 try_core s true false Hs))|pose proof (i_cur _ _ _ A9); lia|discriminate]. }
  destruct (Hr (c_ex (ctxs st1 id), c_panic (ctxs st1 id))) as [e' He]. rewrite <- (proj1 try_ref s true _ g Hs) in He. rewrite He in P.
  destruct (inside_post sc st0 id st1 g _ _ _ _ Hf In1 P) as (x & st' & E & T & In' & -> & C).
  rewrite (landing_jump n id _ _ _ 1 st 1 st').
  - apply IH with (g := snd (ref s (c_ex (ctxs st1 id), c_panic (ctxs st1 id)) g)). exact In'.
  - unfold pass. fold st1. replace (1 =? 0) with false by reflexivity. cbn [andthen handle]. rewrite S1. replace (1 =? 1) with true by reflexivity. rewrite E, S1. reflexivity.
Qed.
Lemma catch_if_loops b s hf f e fuel j : try_only false b -> snd (sref b (0, 0)) = Raised e -> try_only true s -> (forall h, exists e', snd (sref s h) = Raised e') ->
  run (S (S (S fuel))) (Try b (CatchIf s CNil) hf f) j = NoFuel.
Proof.
  intros Hb Hbr Hs Hr. unfold run. cbn [exec].
  destruct (new_ctx_inside root (start j) ([], 0) ltac:(cbn; lia) (start_inv j)) as (st1 & -> & In & _). set (id := fresh (start j)) in *.
  pose proof (inside_state root (start j) id st1 _ 0 ltac:(cbn; lia) In) as In1. set (st2 := with_ctx id (c_set_state 0) st1) in *.
  assert (S1 : c_state (ctxs st2 id) = 0) by (unfold st2; ctx_tac; rewrite upd_same; reflexivity). pose proof In1 as [A1 A2 _ _ _ _ _ _ A9].
  assert (P : post root st2 (fst (fst (ref b (0, 0) ([], 0)))) (snd (fst (ref b (0, 0) ([], 0)))) (snd (ref b (0, 0) ([], 0))) (exec (S (S (S fuel))) id root b st2)).
  { apply (proj1 exec_ref b false false); auto; [exact (proj1 core_loud _ _ _ (proj1 try_core b false false Hb))|pose proof (i_cur _ _ _ A9); unfold id in *; cbn in *; lia|discriminate|discriminate]. }
  rewrite <- (proj1 try_ref b false _ ([], 0) Hb) in Hbr. rewrite Hbr in P.
  destruct (inside_post root (start j) id st2 _ _ _ _ _ ltac:(cbn; lia) In1 P) as (x & st' & E & T & In' & -> & C).
  rewrite (landing_jump (S (S fuel)) id _ _ _ 0 st1 1 st').
  - rewrite (catch_if_spins fuel root s (start j) id _ b Hs Hr ltac:(cbn; lia) _ _ _ In'). reflexivity.
  - unfold pass. fold st2. replace (0 =? 0) with true by reflexivity. cbn [andthen]. rewrite E, S1. reflexivity.
Qed.

(** ** protected pointers *)
Inductive chain (N : Z -> node) : Z -> list (Z * Z) -> Prop :=
| ch_nil : chain N 0 []
| ch_cons p a v nx l : N p = Node true nx false a v true -> nx < p -> 0 < p -> chain N nx l -> chain N p ((a, v) :: l).
Lemma chain_ext N N' p l : chain N p l -> (forall q, q <= p -> N' q = N q) -> chain N' p l.
Proof. intros H. induction H as [|p a v nx l Hp Hlt H0 H IH]; intros E; [constructor|]. econstructor; [rewrite E by lia; exact Hp|exact Hlt|exact H0|]. apply IH. intros q Hq. apply E. lia. Qed.

Record quiet (st st' : est) : Prop := Quiet { q_ctxs : ctxs st' = ctxs st; q_scopes : scopes st' = scopes st; q_cur : cur st' = cur st; q_ready : ready st' = ready st; q_junk : hook_set st' = hook_set st; q_fresh : fresh st' = fresh st }.
(** What the loop releases: it ends at a value equal to the one before, NULL counting as the value before the first. *)
Fixpoint upto (temp : Z) (l : list (Z * Z)) : list (Z * Z) :=
  match l with [] => [] | (a, v) :: l => if temp =? v then [] else (if v =? 0 then [] else [(a, v)]) ++ upto v l end.
Lemma unwind_chain fuel : forall p l temp st, chain (nodes st) p l -> (length l < fuel)%nat ->
  exists st', unwind_ptrs fuel p temp st = Ok st' /\ quiet st st' /\ trace st' = trace st ++ map (fun q => ERelease (fst q) (snd q)) (upto temp l).
Proof.
  induction fuel as [|f IH]; intros p l temp st H Hl; [lia|]. cbn [unwind_ptrs]. destruct H as [|p a v nx l Hp Hlt H0 H].
  - replace (0 =? 0) with true by reflexivity. exists st. split; [reflexivity|]. split; [constructor; reflexivity|]. cbn [map upto]. rewrite app_nil_r. reflexivity.
  - replace (p =? 0) with false by lia. rewrite Hp. cbn [n_live n_ok n_val negb upto]. destruct (Z.eqb_spec temp v) as [E|N].
    { exists st. split; [reflexivity|]. split; [constructor; reflexivity|]. cbn [map]. rewrite app_nil_r. reflexivity. }
    cbn [length] in Hl. destruct (Z.eqb_spec v 0) as [Ev|Nv].
    { cbn [bind app]. rewrite Hp. cbn [n_next]. apply IH; [exact H|lia]. }
    unfold release. cbn [n_free n_act n_val bind].
    set (st1 := emit (ERelease a v) (with_node p n_off st)).
    assert (Nx : n_next (nodes st1 p) = nx) by (unfold st1; ctx_tac; rewrite upd_same, Hp; reflexivity).
    rewrite Nx. destruct (IH nx l v st1) as (st' & E & Q & T).
    + apply chain_ext with (nodes st); [exact H|]. intros q Hq. unfold st1. ctx_tac. rewrite upd_other by lia. reflexivity.
    + lia.
    + exists st'. split; [exact E|]. split; [destruct Q as [Q1 Q2 Q3 Q4 Q5 Q6]; constructor; assumption|].
      rewrite T. unfold st1. ctx_tac. cbn [map fst snd app]. rewrite <- app_assoc. reflexivity.
Qed.

Lemma throw_chain f st l ex pm : (length l <= f)%nat -> chain (nodes st) (c_stack (ctxs st (cur st))) l ->
  c_unstack (ctxs st (cur st)) = false -> hook_set st = false -> hook_unwind st = false -> cur st <> root -> (ready st = true -> s_prot (scopes st root) = false /\ s_defers (scopes st root) = []) ->
  exists st', ex_throw (S f) ex pm st = Ok (RJump (cur st) (Z.lor (c_state (ctxs st (cur st))) 1), st') /\ trace st' = trace st ++ map (fun q => ERelease (fst q) (snd q)) (upto 0 l) /\
    cthrown (ex, pm) (ctxs st (cur st)) (ctxs st' (cur st)) /\ (ready st' = true -> s_defers (scopes st' root) = []).
Proof.
  intros Hl Hch Hu Hs Hn Hc Hr. cbn [ex_throw]. rewrite Hu. set (c := cur st) in *. set (st1 := with_ctx c (c_thrown ex pm) st).
  assert (Q : exists st2, setup c ex pm st1 = Ok st2 /\ cthrown (ex, pm) (c_set_stack 0 (ctxs st c)) (c_set_stack 0 (ctxs st2 c)) /\ c_stack (ctxs st2 c) = c_stack (ctxs st c) /\ c_unwind (ctxs st2 c) = false /\ trace st2 = trace st /\ nodes st2 = nodes st /\
     hook_unwind st2 = false /\ cur st2 = c /\ (ready st2 = true -> s_defers (scopes st2 root) = [])).
  { unfold setup. change (hook_set st1) with (hook_set st). rewrite Hs. destruct (c_raii (ctxs st1 c)).
    - eexists. split; [reflexivity|]. unfold raii_init. change (ready st1) with (ready st). change (cur st1) with c. unfold record_err. destruct (ready st) eqn:R; unfold st1; ctx_tac; rewrite !upd_same; cbn [c_set_unwind c_swap_set c_thrown c_raii_init c_set_stack s_set_err c_next c_state c_ex c_panic c_unstack c_stack c_unwind s_prot s_defers].
      + destruct (Hr eq_refl) as [P0 D0]. split; [constructor; cbn; auto|]. repeat split; auto.
      + split; [constructor; cbn; auto|]. repeat split; auto.
    - eexists. split; [reflexivity|]. unfold st1. ctx_tac. rewrite !upd_same. cbn [c_thrown c_set_stack c_stack c_unwind]. split; [constructor; cbn; auto|]. repeat split; auto. apply Hr; assumption. }
  destruct Q as (st2 & -> & [T1 T2 T3 T4 T5 T6] & K & U & Tr & Nd & Hn2 & C2 & D2). cbn [bind]. cbn [c_set_stack c_next c_state c_ex c_panic c_unstack c_stack] in *.
  unfold unwind. ctx_tac. rewrite upd_same. cbn [c_set_unstack c_unwind c_raii c_data c_stack]. rewrite U. cbn [andb]. rewrite K.
  set (st3 := with_ctx c (c_set_unstack true) st2).
  assert (Ch : chain (nodes st3) (c_stack (ctxs st c)) l) by (change (nodes st3) with (nodes st2); rewrite Nd; exact Hch).
  destruct (unwind_chain (S f) _ l 0 st3 Ch ltac:(lia)) as (st4 & -> & [Q1 Q2 Q3 Q4 Q5 Q6] & T). cbn [bind andthen].
  replace (c =? root) with false by lia. eexists. split; [ctx_tac; rewrite upd_same, Q1; unfold st3; ctx_tac; rewrite upd_same; cbn [c_set_stack c_set_unstack c_state]; rewrite T2; reflexivity|].
  ctx_tac. rewrite upd_same, Q1, Q2, Q4. unfold st3 in *. ctx_tac. rewrite upd_same. split; [rewrite T; ctx_tac; rewrite Tr; reflexivity|].
  split; [constructor; cbn [c_set_stack c_set_unstack c_next c_state c_ex c_panic c_unstack c_stack]; auto|exact D2].
Qed.

(** The state after the pointers have been protected. *)
Fixpoint guarded_by (ps : list (Z * Z)) (st : est) : est := match ps with [] => st | (a, v) :: ps => guarded_by ps (protect (fresh st) false a v (set_fresh (fresh st + 1) st)) end.
Lemma nest_exec fuel lx sc s ps : forall st, (forall x st', exec fuel lx sc s (guarded_by ps st) = Ok (x, st') -> x <> RNorm) ->
  exec fuel lx sc (nest ps s) st = exec fuel lx sc s (guarded_by ps st).
Proof.
  induction ps as [|[a v] ps IH]; intros st H; [reflexivity|]. cbn [nest exec guarded_by] in *. rewrite IH by exact H.
  destruct (exec fuel lx sc s _) as [[[|i w|e p] st']| | |] eqn:E; try reflexivity. exfalso. apply (H RNorm st' eq_refl). reflexivity.
Qed.
Record same_but_stack (st st' : est) : Prop := SBS { sb_cur : cur st' = cur st; sb_scopes : scopes st' = scopes st; sb_ready : ready st' = ready st; sb_hs : hook_set st' = hook_set st; sb_hu : hook_unwind st' = hook_unwind st; sb_trace : trace st' = trace st;
  sb_ctx : c_set_stack 0 (ctxs st' (cur st)) = c_set_stack 0 (ctxs st (cur st)); sb_fresh : fresh st <= fresh st' }.
Lemma guarded_by_chain ps : forall st l, chain (nodes st) (c_stack (ctxs st (cur st))) l -> c_stack (ctxs st (cur st)) < fresh st -> 0 < fresh st ->
  chain (nodes (guarded_by ps st)) (c_stack (ctxs (guarded_by ps st) (cur st))) (rev ps ++ l) /\ same_but_stack st (guarded_by ps st).
Proof.
  induction ps as [|[a v] ps IH]; intros st l H Hs Hf; [split; [exact H|constructor; auto; cbn [guarded_by]; lia]|]. cbn [guarded_by rev]. rewrite <- app_assoc. cbn [app].
  set (st1 := protect (fresh st) false a v (set_fresh (fresh st + 1) st)).
  assert (C : cur st1 = cur st) by reflexivity.
  assert (K : c_stack (ctxs st1 (cur st)) = fresh st) by (unfold st1, protect; ctx_tac; rewrite upd_same; reflexivity).
  destruct (IH st1 ((a, v) :: l)) as [A [B1 B2 B3 B4 B5 B6 B7 B8]].
  - rewrite C, K. econstructor; [unfold st1, protect; ctx_tac; rewrite upd_same; reflexivity|exact Hs|lia|].
    apply chain_ext with (nodes st); [exact H|]. intros q Hq. unfold st1, protect. ctx_tac. rewrite upd_other by lia. reflexivity.
  - rewrite C, K. unfold st1, protect. ctx_tac. lia.
  - unfold st1, protect. ctx_tac. lia.
  - rewrite C in *. split; [exact A|]. constructor; try (etransitivity; [eassumption|]; reflexivity).
    + rewrite B7. unfold st1, protect. ctx_tac. rewrite upd_same. reflexivity.
    + change (fresh st1) with (fresh st + 1) in B8. lia.
Qed.

Lemma protected_run ps e a fuel j : (length ps < fuel)%nat -> (1 < fuel)%nat ->
  run fuel (Try (nest ps (Throw e)) (CatchAny (Act a) CNil) false Skip) j = Ok (map (fun q => ERelease (fst q) (snd q)) (upto 0 (rev ps)) ++ [EAct a], Finished).
Proof.
  intros Hl Hf. destruct fuel as [|[|f]]; [lia|lia|]. unfold run. cbn [exec]. unfold new_ctx. change (fresh (start j)) with 2. set (st1 := set_cur 2 _).
  set (body := fun st => exec (S (S f)) 2 root (nest ps (Throw e)) st). set (hand := fun st => handle (S (S f)) 2 root (CatchAny (Act a) CNil) st).
  set (st2 := with_ctx 2 (c_set_state 0) st1).
  destruct (guarded_by_chain ps st2 [] ltac:(unfold st2, st1; cbn; constructor) ltac:(unfold st2, st1; cbn; lia) ltac:(unfold st2, st1; cbn; lia)) as [Ch [B1 B2 B3 B4 B5 B6 B7 B8]].
  set (st3 := guarded_by ps st2) in *. change (cur st2) with 2 in *. rewrite app_nil_r in Ch. change (ready st2) with false in B3.
  assert (Ct : c_unstack (ctxs st3 2) = false /\ c_state (ctxs st3 2) = 0 /\ c_next (ctxs st3 2) = root).
  { assert (X : c_unstack (c_set_stack 0 (ctxs st3 2)) = false /\ c_state (c_set_stack 0 (ctxs st3 2)) = 0 /\ c_next (c_set_stack 0 (ctxs st3 2)) = root) by (rewrite B7; split; [|split]; reflexivity). exact X. }
  destruct Ct as (Cu & Cst & Cn).
  destruct (throw_chain (S f) st3 (rev ps) e 0) as (st4 & E & T & [T1 T2 T3 T4 T5 T6] & D).
  { rewrite rev_length. lia. } { rewrite B1. exact Ch. } { rewrite B1. exact Cu. } { rewrite B4. reflexivity. } { rewrite B5. reflexivity. } { rewrite B1. unfold root. lia. } { rewrite B3. discriminate. }
  rewrite B1 in *. rewrite Cst in E.
  assert (Eb : body st2 = Ok (RJump 2 1, st4)).
  { unfold body. rewrite nest_exec; [exact E|]. intros x st' Q. cbn [exec] in Q. change (guarded_by ps st2) with st3 in Q. rewrite E in Q. injection Q as <- _. discriminate. }
  rewrite (landing_jump (S f) 2 body hand _ 0 st1 1 st4) by (unfold pass; fold st2; replace (0 =? 0) with true by reflexivity; rewrite Eb; reflexivity).
  set (st5 := with_ctx 2 (c_set_state 1) st4).
  assert (S5 : c_state (ctxs st5 2) = 1 /\ c_next (ctxs st5 2) = root) by (unfold st5; ctx_tac; rewrite upd_same; cbn [c_set_state c_state c_next]; split; [reflexivity|congruence]). destruct S5 as [S5 N5].
  assert (C5 : cur st5 = 2). { destruct (throw_stable (S (S f)) e 0 st3 _ _ E) as [F _]. change (cur st5) with (cur st4). rewrite (f_cur _ _ F). exact B1. }
  cbn [landing]. fold st5. replace (1 =? 0) with false by reflexivity. cbn [andthen]. unfold hand. cbn [handle]. rewrite S5. replace (1 =? 1) with true by reflexivity. cbn [exec andthen].
  unfold end_try. ctx_tac. rewrite C5, Z.eqb_refl. ctx_tac. rewrite !upd_same. cbn [c_set_state c_next c_state]. change (Z.odd 2) with false. cbn [andthen].
  rewrite free_root_id by (ctx_tac; exact D). ctx_tac. unfold st5. ctx_tac. rewrite T, B6. reflexivity.
Qed.

(** ** hooks of one thread *)
Lemma hook_single t l : forall h h', Forall (fun o => fst o = t) l -> hook_run l h = Some h' ->
  (h_saved h t <> [] -> h_glob h = true /\ Forall (fun x => x = true) (removelast (h_saved h t))) ->
  (h_saved h' t <> [] -> h_glob h' = true /\ Forall (fun x => x = true) (removelast (h_saved h' t))) /\
  last (h_glob h' :: h_saved h' t) false = last (h_glob h :: h_saved h t) false.
Proof.
  induction l as [|[t' o] l IH]; intros h h' Ht E Hok; cbn [hook_run] in E; [injection E as <-; split; [exact Hok|reflexivity]|].
  inversion Ht as [|? ? Q Ht']; subst. cbn [fst] in *. destruct o; cbn [hook_step] in E.
  - destruct (IH _ h' Ht' E) as [A B].
    + cbn [h_saved h_glob]. rewrite upd_same. intros _. split; [reflexivity|]. destruct (h_saved h t') as [|b0 r0] eqn:S; [constructor|]. destruct Hok as [G F]; [discriminate|]. cbn [removelast]. constructor; [exact G|exact F].
    + split; [exact A|]. rewrite B. cbn [h_saved h_glob]. rewrite upd_same. reflexivity.
  - destruct (h_saved h t') as [|b0 r0] eqn:S; [discriminate|]. destruct Hok as [G F]; [discriminate|]. destruct (IH _ h' Ht' E) as [A B].
    + cbn [h_saved h_glob]. rewrite upd_same. intros Hr. destruct r0 as [|b1 r1]; [contradiction|]. cbn [removelast] in F. inversion F; subst. split; [reflexivity|assumption].
    + split; [exact A|]. rewrite B. cbn [h_saved h_glob]. rewrite upd_same. reflexivity.
Qed.
