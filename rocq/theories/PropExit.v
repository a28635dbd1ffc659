(** C76: functions deferred on a thread's own scope at exit. *)
From Verif Require Import BaseLemmas ExitModel.

(** The functions thread [t] deferred, newest first. *)
Definition deferred_by (t : nat) (h : list (nat * xop)) : list Z :=
  rev (flat_map (fun e => match snd e with Deferred d => if (fst e =? t)%nat then [d] else [] | _ => [] end) h).
(** No thread is inside raii_init. *)
Definition settled (s : xstate) : Prop := forall t, x_stage (x_threads s t) = 0%nat \/ x_stage (x_threads s t) = 3%nat.
(** The newest of the handlers that concern scopes. *)
Fixpoint newest (l : list handler) : option handler := match l with [] => None | HExceptDel :: l => newest l | h :: _ => Some h end.

Definition xinv (h : list (nat * xop)) (s : xstate) : Prop :=
  x_room s = None /\
  (newest (x_handlers s) = Some HRaiiDel -> exists t, x_stage (x_threads s t) = 1%nat \/ x_stage (x_threads s t) = 2%nat) /\
  (newest (x_handlers s) = None -> forall t, x_stage (x_threads s t) = 0%nat) /\
  forall t, x_defers (x_threads s t) = deferred_by t h /\ (x_stage (x_threads s t) <> 0%nat -> x_tls (x_threads s t) = true /\ x_arr (x_threads s t) = true).

Lemma deferred_snoc t h e : deferred_by t (h ++ [e]) = match snd e with Deferred d => if (fst e =? t)%nat then d :: deferred_by t h else deferred_by t h | _ => deferred_by t h end.
Proof. unfold deferred_by. rewrite flat_map_app, rev_app_distr. cbn [flat_map]. rewrite app_nil_r. destruct (snd e); try reflexivity. destruct (fst e =? t)%nat; reflexivity. Qed.
Lemma xrun_snoc h e s : xrun (h ++ [e]) s = match xrun h s with None => None | Some s => xstep (fst e) (snd e) s end.
Proof. revert s. induction h as [|[t o] h IH]; intros s; cbn [xrun app]; [destruct e as [t o]; cbn; now destruct (xstep t o s)|]. destruct (xstep t o s); [apply IH|reflexivity]. Qed.
Lemma updx_same f t x : updx f t x t = x. Proof. unfold updx. now rewrite Nat.eqb_refl. Qed.
Lemma updx_other f t x u : u <> t -> updx f t x u = f u. Proof. intros H. unfold updx. now apply Nat.eqb_neq in H as ->. Qed.

(** A step in which only thread [t] changes, without new functions. *)
Lemma xinv_keep h s s' t e : xinv h s -> x_room s' = None -> (forall d, snd e <> Deferred d) ->
  (forall u, u <> t -> x_threads s' u = x_threads s u) -> x_defers (x_threads s' t) = x_defers (x_threads s t) \/ (x_stage (x_threads s t) = 0%nat /\ x_defers (x_threads s' t) = [] /\ deferred_by t h = []) ->
  (x_stage (x_threads s' t) <> 0%nat -> x_tls (x_threads s' t) = true /\ x_arr (x_threads s' t) = true) ->
  (newest (x_handlers s') = Some HRaiiDel -> exists t, x_stage (x_threads s' t) = 1%nat \/ x_stage (x_threads s' t) = 2%nat) ->
  (newest (x_handlers s') = None -> forall t, x_stage (x_threads s' t) = 0%nat) -> xinv (h ++ [e]) s'.
Proof.
  intros (R & A & B & C) R' ND T D S A' B'. split; [exact R'|]. split; [exact A'|]. split; [exact B'|]. intros u. rewrite deferred_snoc.
  replace (match snd e with Deferred d => if (fst e =? u)%nat then d :: deferred_by u h else deferred_by u h | _ => deferred_by u h end) with (deferred_by u h). 2:{ destruct (snd e) eqn:Q; try reflexivity. exfalso. exact (ND d eq_refl). }
  destruct (Nat.eq_dec u t) as [->|N]; [|rewrite (T u N); apply C]. split; [|exact S]. destruct D as [->|(_ & -> & ->)]; [apply C|reflexivity].
Qed.
Lemma stage0_nodefers h s t : xrun h (xstart None) = Some s -> x_stage (x_threads s t) = 0%nat -> deferred_by t h = [].
Proof.
  revert s. induction h as [|[u o] h IH] using rev_ind; intros s E Z; [reflexivity|]. rewrite xrun_snoc in E. destruct (xrun h (xstart None)) as [s0|]; [|discriminate]. specialize (IH s0 eq_refl). cbn [fst snd] in E. rewrite deferred_snoc. cbn [fst snd].
  destruct o as [| |d]; cbn [xstep] in E.
  - apply IH. destruct (x_stage (x_threads s0 u)) as [|[|[|k]]] eqn:Q; injection E as <-; try exact Z; unfold ex_init_reg, atexit in Z; destruct (Nat.eq_dec t u) as [->|N]; auto;
      cbn [set_xt x_room x_threads x_handlers] in Z; rewrite ?updx_same in Z; cbn [x_except x_tls x_stage x_defers x_arr] in Z;
      repeat match type of Z with context [match ?y with _ => _ end] => destruct y end; cbn [x_threads set_xt] in Z; rewrite ?updx_same, ?updx_other in Z by assumption; cbn in Z; try discriminate; rewrite ?updx_other in Z by assumption; auto.
  - apply IH. destruct (x_stage (x_threads s0 u)) as [|[|[|[|k]]]] eqn:Q; try discriminate; injection E as <-; unfold ex_init_reg, atexit in Z; destruct (Nat.eq_dec t u) as [->|N]; auto;
      cbn [set_xt x_room x_threads x_handlers] in Z; 
      repeat match type of Z with context [match ?y with _ => _ end] => destruct y end; cbn [x_threads set_xt] in Z; rewrite ?updx_same, ?updx_other in Z by assumption; cbn in Z; try discriminate; auto; congruence.
  - destruct (x_stage (x_threads s0 u)) as [|[|[|[|k]]]] eqn:Q; try discriminate. injection E as <-. cbn in Z. destruct (Nat.eqb_spec u t) as [->|N]; [rewrite updx_same in Z; discriminate|]. rewrite updx_other in Z by congruence. auto.
Qed.
Lemma ex_init_reg_spec t s : x_room s = None -> let s' := ex_init_reg t s in
  x_room s' = None /\ newest (x_handlers s') = newest (x_handlers s) /\ (forall u, u <> t -> x_threads s' u = x_threads s u) /\
  (x_tls (x_threads s' t), x_stage (x_threads s' t), x_defers (x_threads s' t), x_arr (x_threads s' t)) = (x_tls (x_threads s t), x_stage (x_threads s t), x_defers (x_threads s t), x_arr (x_threads s t)).
Proof.
  intros R. unfold ex_init_reg. destruct (x_except _); [auto|]. unfold atexit. cbn [set_xt x_room]. rewrite R. cbn. split; [reflexivity|]. split; [reflexivity|]. split; [intros u U; now apply updx_other|]. now rewrite updx_same.
Qed.
Lemma xrun_inv h : forall s, xrun h (xstart None) = Some s -> xinv h s.
Proof.
  induction h as [|[t o] h IH] using rev_ind; intros s E.
  - injection E as <-. split; [reflexivity|]. split; [discriminate|]. split; [reflexivity|]. intros t. split; [reflexivity|]. intros Q. now exfalso.
  - rewrite xrun_snoc in E. destruct (xrun h (xstart None)) as [s0|] eqn:E0; [|discriminate]. specialize (IH s0 eq_refl). cbn [fst snd] in E. assert (IH' := IH). destruct IH' as (R & A & B & C).
    destruct o as [| |d]; cbn [xstep] in E.
    + destruct (x_stage (x_threads s0 t)) as [|[|[|k]]] eqn:Q.
      * injection E as <-. unfold atexit. cbn [set_xt x_room]. rewrite R. apply xinv_keep with s0 t; auto; cbn.
        -- discriminate.
        -- intros u U. now apply updx_other.
        -- rewrite updx_same. cbn. right. split; [exact Q|]. split; [reflexivity|]. eapply stage0_nodefers; eauto.
        -- rewrite updx_same. auto.
        -- intros _. exists t. rewrite updx_same. auto.
        -- discriminate.
      * injection E as <-. set (s1 := set_xt t _ s0). assert (R1 : x_room s1 = None) by exact R. destruct (ex_init_reg_spec t s1 R1) as (R2 & N2 & T2 & F2). injection F2 as F1 F2 F3 F4.
        subst s1. cbn [set_xt x_threads x_handlers] in *. rewrite updx_same in *. cbn [x_tls x_stage x_defers x_arr] in *.
        apply xinv_keep with s0 t; auto.
        -- discriminate.
        -- intros u U. rewrite T2 by assumption. now apply updx_other.
        -- intros _. rewrite F1, F4. apply C. congruence.
        -- intros _. exists t. auto.
        -- intros X. rewrite N2 in X. rewrite (B X t) in Q. discriminate.
      * injection E as <-. unfold atexit. cbn [set_xt x_room]. rewrite R. apply xinv_keep with s0 t; auto; cbn.
        -- discriminate.
        -- intros u U. now apply updx_other.
        -- rewrite updx_same. auto.
        -- rewrite updx_same. cbn. intros _. apply C. congruence.
        -- discriminate.
        -- discriminate.
      * injection E as <-. apply xinv_keep with s0 t; auto. { discriminate. } apply C.
    + assert (X : s = ex_init_reg t s0 /\ (x_stage (x_threads s0 t) = 0 \/ x_stage (x_threads s0 t) = 3)%nat). { destruct (x_stage (x_threads s0 t)) as [|[|[|[|k]]]] eqn:Q; try discriminate; injection E as <-; auto. }
      destruct X as [-> _]. destruct (ex_init_reg_spec t s0 R) as (R2 & N2 & T2 & F2). injection F2 as F1 F2 F3 F4.
      assert (SG : forall u, x_stage (x_threads (ex_init_reg t s0) u) = x_stage (x_threads s0 u)). { intros u. destruct (Nat.eq_dec u t) as [->|N]; [exact F2|]. now rewrite T2. }
      apply xinv_keep with s0 t; auto.
      * discriminate.
      * rewrite F1, F2, F4. apply C.
      * rewrite N2. intros X. destruct (A X) as [u U]. exists u. now rewrite SG.
      * rewrite N2. intros X u. rewrite SG. now apply B.
    + destruct (x_stage (x_threads s0 t)) as [|[|[|[|k]]]] eqn:Q; try discriminate. injection E as <-.
      assert (SG : forall u, x_stage (updx (x_threads s0) t {| x_tls := x_tls (x_threads s0 t); x_except := x_except (x_threads s0 t); x_stage := 3; x_defers := d :: x_defers (x_threads s0 t); x_arr := x_arr (x_threads s0 t) |} u) = x_stage (x_threads s0 u)).
      { intros u. unfold updx. destruct (Nat.eqb_spec u t) as [->|]; [now rewrite Q|reflexivity]. }
      split; [exact R|]. split; [|split].
      * cbn. intros X. destruct (A X) as [u U]. exists u. now rewrite SG.
      * cbn. intros X u. rewrite SG. now apply B.
      * intros u. rewrite deferred_snoc. cbn [snd fst set_xt x_threads]. destruct (Nat.eqb_spec t u) as [->|N].
        -- rewrite updx_same. cbn. split; [f_equal; apply C|]. intros _. apply C. congruence.
        -- rewrite updx_other by congruence. apply C.
Qed.

(** Once the type of the scope's array has been wiped, or the scope is gone, nothing more is called. *)
Lemma handlers_idle l t : forall s, x_tls (x_threads s t) && x_arr (x_threads s t) = false \/ x_defers (x_threads s t) = [] -> fst (run_handlers t l s) = [].
Proof.
  induction l as [|hd l IH]; intros s H; [reflexivity|]. cbn [run_handlers]. destruct (run_handler t hd s) as [a s1] eqn:E. destruct (run_handlers t l s1) as [b s2] eqn:E2. cbn [fst].
  assert (a = [] /\ (x_tls (x_threads s1 t) && x_arr (x_threads s1 t) = false \/ x_defers (x_threads s1 t) = [])) as [-> H1].
  { destruct hd; cbn [run_handler] in E.
    - injection E as <- <-. split; [reflexivity|]. cbn. rewrite updx_same. cbn. auto.
    - injection E as <- <-. split; [reflexivity|]. cbn. rewrite updx_same. cbn. auto.
    - unfold raii_destroy in E. destruct (x_tls _ && x_arr _) eqn:Q; injection E as <- <-.
      + destruct H as [H|H]; [discriminate|]. split; [exact H|]. cbn. rewrite updx_same. cbn. auto.
      + split; [reflexivity|]. now left. }
  specialize (IH s1 H1). rewrite E2 in IH. exact IH.
Qed.
Lemma handlers_once l t : forall s, newest l = Some HRaiiDestroy -> x_tls (x_threads s t) = true -> x_arr (x_threads s t) = true -> fst (run_handlers t l s) = x_defers (x_threads s t).
Proof.
  induction l as [|hd l IH]; intros s N T A; [discriminate|]. destruct hd; cbn [newest] in N; try discriminate; cbn [run_handlers run_handler].
  - match goal with |- context [run_handlers t l ?s1] => specialize (IH s1 N); destruct (run_handlers t l s1) as [b s2] end. cbn in IH. rewrite updx_same in IH. cbn in IH. cbn. now apply IH.
  - unfold raii_destroy. rewrite T, A. cbn [andb]. match goal with |- context [run_handlers t l ?s1] => pose proof (handlers_idle l t s1) as Q; destruct (run_handlers t l s1) as [b s2] end. cbn [fst] in *. rewrite Q; [apply app_nil_r|]. cbn. rewrite updx_same. auto.
Qed.
(** When thread [t] leaves the program (exit, end of main, uncaught exception) while no thread is inside raii_init, the functions it has
    deferred on its own scope run once each, newest first.  Missing from the full claim: the functions of other threads, an exit during
    another thread's raii_init, a full table of exit handlers (all refuted below). *)
Theorem exit_runs_deferred_partial h s t : xrun h (xstart None) = Some s -> settled s -> fst (xexit t s) = deferred_by t h /\ fst (xterminate t s) = deferred_by t h.
Proof.
  intros E S. pose proof (xrun_inv h s E) as (R & A & B & C). destruct (C t) as [D F].
  assert (X : fst (xexit t s) = deferred_by t h).
  { unfold xexit. destruct (newest (x_handlers s)) as [[]|] eqn:N.
    - destruct (A eq_refl) as [u U]. destruct (S u); lia.
    - exfalso. clear -N. induction (x_handlers s) as [|[] l IH]; cbn in N; try discriminate; auto.
    - destruct (S t) as [Z|Z].
      + rewrite <- D. assert (Q : deferred_by t h = []) by (eapply stage0_nodefers; eauto). rewrite D, Q. apply handlers_idle. right. congruence.
      + destruct F as [F1 F2]; [congruence|]. rewrite <- D. now apply handlers_once.
    - assert (Q : deferred_by t h = []) by (eapply stage0_nodefers; eauto). rewrite Q. apply handlers_idle. right. congruence. }
  split; [exact X|]. unfold xterminate. destruct (2 <=? x_stage (x_threads s t))%nat eqn:Q.
  - apply Nat.leb_le in Q. destruct F as [F1 F2]; [lia|]. unfold raii_destroy. rewrite F1, F2. cbn [andb].
    match goal with |- context [xexit t ?s1] => unfold xexit; pose proof (handlers_idle (x_handlers s1) t s1) as I; destruct (run_handlers t (x_handlers s1) s1) as [b s2] end. cbn [fst] in *. rewrite I; [rewrite app_nil_r; exact D|]. cbn. rewrite updx_same. auto.
  - destruct (xexit t s) as [b s2]. exact X.
Qed.
Definition main_and_worker : list (nat * xop) := [(0, TryFirst); (0, Init); (0, Init); (1, Init); (0, Init); (0, Deferred 10); (1, Init); (0, Deferred 11); (1, Init); (1, Deferred 20)]%nat.
Example exit_case : exists s, xrun main_and_worker (xstart None) = Some s /\ map (fun t => x_stage (x_threads s t)) [0; 1; 2]%nat = [3; 3; 0]%nat /\ fst (xexit 0 s) = [11; 10] /\ fst (xterminate 1 s) = [20].
Proof. eexists. split; [vm_compute; reflexivity|]. vm_compute. auto. Qed.

(** ** Refuted *)
(** A worker calls exit (or ends with an uncaught exception): main's functions never run; when main exits, the worker's do not. *)
Theorem exit_other_thread_refuted : exists h s, xrun h (xstart None) = Some s /\ deferred_by 0 h = [11; 10] /\ fst (xexit 1 s) = [20] /\ fst (xterminate 1 s) = [20] /\ fst (xexit 0 s) = [11; 10].
Proof. exists main_and_worker. eexists. split; [vm_compute; reflexivity|]. vm_compute. auto. Qed.
(** Main exits while a worker is between raii() and the end of raii_init: the worker's raii_del, registered last, clears main's
    scope pointer before main's raii_destroy runs. *)
Theorem exit_during_init_refuted : exists h s, xrun h (xstart None) = Some s /\ deferred_by 0 h = [10] /\ fst (xexit 0 s) = [].
Proof. exists [(0, Init); (0, Init); (0, Init); (0, Deferred 10); (1, Init)]%nat. eexists. split; [vm_compute; reflexivity|]. vm_compute. auto. Qed.
(** The results of atexit are ignored: with the table of 32 that ISO C guarantees and 30 handlers of the program, raii_destroy is
    not registered. *)
Theorem exit_table_full_refuted : exists room h s, (room <= 32)%nat /\ xrun h (xstart (Some room)) = Some s /\ settled s /\ deferred_by 0 h = [10] /\ fst (xexit 0 s) = [].
Proof.
  exists 2%nat, [(0, Init); (0, Init); (0, Init); (0, Deferred 10)]%nat. eexists. split; [lia|]. split; [vm_compute; reflexivity|]. split; [intros [|t]; cbn; auto|]. vm_compute. auto.
Qed.

Print Assumptions exit_runs_deferred_partial.
Print Assumptions exit_other_thread_refuted.
Print Assumptions exit_during_init_refuted.
Print Assumptions exit_table_full_refuted.
