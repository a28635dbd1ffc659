(** C66: the protector record of a scope and the exception context, for every
    history of allocations and deferred functions. *)
From Verif Require Import DeferCancel DeferNested PropDefer.

(** What a scope tells the exception context: its protector and the context's
    stack of protected pointers; also the two words that decide whether a
    release does anything. *)
Definition link (s : scope) : option prot * Z * Z * bool := (protector s, ctx_stack s, w_type s, live s).

Lemma link_store s a v s' : store64 s a v = Ok s' -> link s' = link s.
Proof.
  unfold store64. destruct (_ && _); [|discriminate]. destruct (blit _ _ _); cbn [bind]; try discriminate.
  intros X. injection X as <-. reflexivity.
Qed.
Lemma link_append E n s : link (snd (raii_array_append E n s)) = link s.
Proof.
  unfold raii_array_append. destruct (_ =? 0); [|reflexivity]. destruct (add_overflow _ _); [|reflexivity].
  destruct (realloc_array _ _ _ _ _) as [a b]. destruct (a =? 0); reflexivity.
Qed.
Lemma link_any E f d c s i s' : raii_deferred_any E f d c s = Ok (i, s') -> link s' = link s.
Proof.
  unfold raii_deferred_any. destruct (negb _); [discriminate|]. pose proof (link_append E DEFER_SIZE s) as L.
  destruct (raii_array_append E DEFER_SIZE s) as [a s1]. cbn [snd] in L. destruct (a =? 0).
  { intros X. injection X as _ <-. exact L. }
  destruct (store64 s1 _ _) as [s2| | |] eqn:S1; cbn [bind]; try discriminate.
  destruct (store64 s2 _ _) as [s3| | |] eqn:S2; cbn [bind]; try discriminate.
  destruct (store64 s3 _ _) as [s4| | |] eqn:S3; cbn [bind]; try discriminate.
  intros X. injection X as _ <-. rewrite (link_store _ _ _ _ S3), (link_store _ _ _ _ S2), (link_store _ _ _ _ S1). exact L.
Qed.
Lemma link_perform E l : forall s s', perform E l s = Ok s' -> link s' = link s.
Proof.
  induction l as [|[[f d] c] l IH]; cbn [perform]; intros s s'. { intros X. injection X as <-. reflexivity. }
  destruct (raii_deferred_any E f d c s) as [[i s1]| | |] eqn:D; cbn [bind]; try discriminate.
  intros X. rewrite (IH _ _ X). eapply link_any; eassumption.
Qed.
Lemma link_call E f d s s' : call E f d s = Ok s' -> link s' = link s.
Proof. unfold call. destruct (isfn E f); [|discriminate]. intros X. rewrite (link_perform _ _ _ _ X). reflexivity. Qed.
Lemma link_loop E b : forall i s s', run_loop E b i s = Ok s' -> link s' = link s.
Proof.
  induction i as [|i IH]; cbn [run_loop]; intros s s'. { intros X. injection X as <-. reflexivity. }
  destruct (negb _); [discriminate|].
  destruct (load64 s _) as [ck| | |]; cbn [bind]; try discriminate. cbv zeta.
  set (s1 := if _ && _ then _ else _). assert (L1 : link s1 = link s) by (unfold s1; destruct (_ && _); reflexivity).
  destruct (load64 s1 _) as [f| | |]; cbn [bind]; try discriminate.
  destruct (load64 s1 _) as [d| | |]; cbn [bind]; try discriminate.
  destruct (call E f d s1) as [s2| | |] eqn:C; cbn [bind]; try discriminate.
  destruct (negb (w_base s2 =? b)); [discriminate|].
  destruct (store64 s2 _ _) as [s3| | |] eqn:S3; cbn [bind]; try discriminate.
  intros X. rewrite (IH _ _ X), (link_store _ _ _ _ S3), (link_call _ _ _ _ _ C). exact L1.
Qed.

(** The number of allocations of a history. *)
Definition allocations (ops : list op) : nat :=
  length (filter (fun o => match o with Alloc _ _ => true | _ => false end) ops).

(** The link after [k] allocations, with [st] the stack before the first. *)
Definition linked (st : Z) (k : nat) (s : scope) : Prop :=
  match k with
  | O => protector s = None /\ ctx_stack s = st
  | _ => exists p, protector s = Some p /\ p_addr p <> 0 /\ p_type p = EX_PROTECTED /\ ctx_stack s = p_addr p /\
           p_next p = if Nat.eqb k 1 then st else p_addr p
  end.
Lemma linked_eq st k s s' : link s' = link s -> linked st k s -> linked st k s'.
Proof. unfold link, linked. intros X. injection X as X1 X2 _ _. rewrite X1, X2. auto. Qed.

Lemma malloc_linked E size func s a s' st k : linked st k s -> malloc_full E size func s = Ok (Some a, s') ->
  linked st (S k) s' /\ w_type s' = w_type s /\ live s' = live s.
Proof.
  unfold malloc_full. intros H. destruct (_ =? 0); [discriminate|]. cbn [tick protector].
  destruct k as [|k].
  - destruct H as (P & C). rewrite P. destruct (Z.eqb_spec (place E (ticks (tick s)) 32) 0) as [|N]; [discriminate|].
    cbn [bind]. set (q := place E (ticks (tick s)) 32) in *. unfold raii_deferred.
    set (s3 := set_flags _ _ _).
    destruct (raii_deferred_any E func _ 0 s3) as [[i s4]| | |] eqn:D; cbn [bind]; try discriminate.
    intros X. injection X as _ <-. pose proof (link_any _ _ _ _ _ _ _ D) as L. unfold link in L. injection L as L1 L2 L3 L4.
    cbn [set_mid w_type live]. rewrite L3, L4. split; [|split; reflexivity].
    eexists. cbn [set_mid protector ctx_stack]. rewrite L1, L2. split; [reflexivity|]. cbn. auto.
  - destruct H as (p & P & N & T & C & X). rewrite P. cbn [bind]. unfold raii_deferred.
    set (s3 := set_flags _ _ _).
    destruct (raii_deferred_any E func _ 0 s3) as [[i s4]| | |] eqn:D; cbn [bind]; try discriminate.
    intros Y. injection Y as _ <-. pose proof (link_any _ _ _ _ _ _ _ D) as L. unfold link in L. injection L as L1 L2 L3 L4.
    cbn [set_mid w_type live]. rewrite L3, L4. split; [|split; reflexivity].
    eexists. cbn [set_mid protector ctx_stack]. rewrite L1, L2. split; [reflexivity|]. cbn. auto.
Qed.

Lemma ops_linked E : forall ops s r s' st k, linked st k s -> run_ops E ops s = Ok (r, s') ->
  linked st (allocations ops + k) s' /\ w_type s' = w_type s /\ live s' = live s.
Proof.
  induction ops as [|[f d c|size func] ops IH]; cbn [run_ops]; intros s r s' st k H.
  - intros X. injection X as _ <-. auto.
  - destruct (raii_deferred_any E f d c s) as [[i s1]| | |] eqn:D; cbn [bind]; try discriminate.
    destruct (run_ops E ops s1) as [[r2 s2]| | |] eqn:R; cbn [bind]; try discriminate.
    intros X. injection X as _ <-. pose proof (link_any _ _ _ _ _ _ _ D) as L.
    destruct (IH _ _ _ st k (linked_eq _ _ _ _ L H) R) as (A & B & C). unfold link in L. injection L as _ _ L3 L4.
    split; [exact A|]. split; congruence.
  - destruct (malloc_full E size func s) as [[[a|] s1]| | |] eqn:M; cbn [bind]; try discriminate.
    destruct (run_ops E ops s1) as [[r2 s2]| | |] eqn:R; cbn [bind]; try discriminate.
    intros X. injection X as _ <-. destruct (malloc_linked _ _ _ _ _ _ _ _ H M) as (A & B & C).
    destruct (IH _ _ _ _ _ A R) as (A2 & B2 & C2). split; [|split; congruence].
    unfold allocations in *. cbn [filter length]. rewrite Nat.add_succ_comm. exact A2.
Qed.

Lemma free_linked E user s s' st k : linked st k s -> w_type s = RAII_DEF_ARR -> raii_deferred_free E user s = Ok s' ->
  protector s' = None /\
  ((k <= 1)%nat -> ctx_stack s' = st) /\
  ((1 <= k)%nat -> exists q, q <> 0 /\ ctx_stack s = q /\ In (Freed q) (trace s') /\ ((2 <= k)%nat -> ctx_stack s' = q)).
Proof.
  unfold raii_deferred_free. intros H T. destruct (negb _); [discriminate|]. rewrite T, Z.eqb_refl.
  unfold raii_deferred_run. cbv zeta. set (s0 := set_flags _ _ s).
  destruct (run_loop E _ _ s0) as [s1| | |] eqn:R; cbn [bind]; try discriminate.
  pose proof (link_loop _ _ _ _ _ R) as L1. assert (H1 : linked st k s1) by (eapply linked_eq; [exact L1|exact H]).
  assert (C01 : ctx_stack s = ctx_stack s1) by (unfold link in L1; injection L1 as _ L _ _; symmetry; exact L).
  clear R L1 H T.
  destruct k as [|k].
  - destruct H1 as (P & C). rewrite P. cbn [bind set_words protector]. rewrite P. cbn [bind]. intros X. injection X as <-.
    unfold raii_array_reset, raii_free. cbn. destruct (w_base s1 =? 0); cbn; (split; [exact P|]); (split; [intros _; exact C|intros; lia]).
  - destruct H1 as (p & P & N & Ty & C & X). rewrite P.
    set (mid := if is_protected s1 && negb (s_err s1 =? 0) then _ else _).
    destruct mid as [s2| | |] eqn:M; cbn [bind]; try discriminate.
    assert (L2 : link s2 = link s1).
    { unfold mid in M. destruct (is_protected s1 && negb (s_err s1 =? 0)); [|injection M as <-; reflexivity].
      destruct (w_elems s0 =? 0); [rewrite (link_call _ _ _ _ _ M); reflexivity|injection M as <-; reflexivity]. }
    unfold link in L2. injection L2 as L2 L3 _ _. cbn [set_words protector]. rewrite L2, P. cbn [bind].
    intros Y. injection Y as <-. unfold raii_array_reset, ex_unprotected_ptr. rewrite Ty, Z.eqb_refl.
    assert (N0 : (p_addr p =? 0) = false) by (apply Z.eqb_neq; exact N).
    unfold raii_free. rewrite N0. cbn [set_prot emit set_words w_base].
    assert (I : In (Freed (p_addr p)) (trace s2 ++ [Freed (p_addr p)])) by (apply in_or_app; right; left; reflexivity).
    destruct (w_base s2 =? 0); cbn; (split; [reflexivity|]); split.
    + intros K. rewrite X. destruct k; [reflexivity|lia].
    + intros _. exists (p_addr p). split; [auto|]. split; [congruence|]. split; [exact I|]. intros K. rewrite X. destruct k; [lia|reflexivity].
    + intros K. rewrite X. destruct k; [reflexivity|lia].
    + intros _. exists (p_addr p). split; [auto|]. split; [congruence|]. split; [apply in_or_app; left; exact I|]. intros K. rewrite X. destruct k; [lia|reflexivity].
Qed.

(** Whatever was deferred and allocated, whatever the allocator does and
    whatever the deferred functions do: after the release the context is as it was
    before iff at most one block was allocated; with two or more it
    points to the protector that the release has freed. *)
Theorem protector_exact : forall E user ops s0 r s er pa s',
  fresh s0 -> run_ops E ops s0 = Ok (r, s) -> raii_deferred_free E user (set_err er pa s) = Ok s' ->
  protector s' = None /\
  ((allocations ops <= 1)%nat -> ctx_stack s' = ctx_stack s0) /\
  ((2 <= allocations ops)%nat -> ctx_stack s' <> 0 /\ In (Freed (ctx_stack s')) (trace s')).
Proof.
  intros E user ops s0 r s er pa s' Fr R F. destruct (fresh_holds s0 Fr) as (_ & T & P & _).
  destruct (ops_linked E ops s0 r s (ctx_stack s0) O (conj P eq_refl) R) as (A & B & C).
  rewrite Nat.add_0_r in A.
  destruct (free_linked E user (set_err er pa s) s' (ctx_stack s0) (allocations ops)) as (Q1 & Q2 & Q3).
  { eapply linked_eq; [|exact A]. reflexivity. } { cbn. congruence. } { exact F. }
  split; [exact Q1|]. split; [exact Q2|]. intros K. destruct (Q3 ltac:(lia)) as (q & N & _ & I & Q). rewrite (Q K). auto.
Qed.
(** The context points to the protector, not to the user's older entries, from the first allocation to the
    release, and two allocations make the record its own successor: the older entries cannot be reached. *)
Theorem protector_cycle : forall E ops s0 r s,
  fresh s0 -> run_ops E ops s0 = Ok (r, s) -> (2 <= allocations ops)%nat ->
  exists p, protector s = Some p /\ ctx_stack s = p_addr p /\ p_next p = p_addr p.
Proof.
  intros E ops s0 r s Fr R K. destruct (fresh_holds s0 Fr) as (_ & T & P & _).
  destruct (ops_linked E ops s0 r s (ctx_stack s0) O (conj P eq_refl) R) as (A & B & C).
  rewrite Nat.add_0_r in A. destruct (allocations ops) as [|[|k]]; try lia.
  destruct A as (p & A1 & _ & _ & A2 & A3). exists p. auto.
Qed.

(** The hypotheses are met: one allocation, and three among deferred functions, with an error pending. *)
Definition one_op := [Defer 100 7 0; Alloc 24 200; Defer 100 5 0].
Definition three_ops := [Alloc 24 200; Defer 100 5 0; Alloc 8 200; Alloc 16 200].
Definition after_ops (ops : list op) := got ([], unique_init 0 0 0) (run_ops two_funcs ops (unique_init 5000 77 0)).
Definition released_ops (ops : list op) := got (unique_init 0 0 0) (raii_deferred_free two_funcs user0 (set_err 9 0 (snd (after_ops ops)))).
Lemma fresh_5000 : fresh (unique_init 5000 77 0).
Proof. exists 5000, 77, 0%nat. auto. Qed.
Example protector_one := protector_exact two_funcs user0 one_op (unique_init 5000 77 0) (fst (after_ops one_op)) (snd (after_ops one_op)) 9 0 (released_ops one_op)
  fresh_5000 ltac:(vm_compute; reflexivity) ltac:(vm_compute; reflexivity).
Example protector_one_case : allocations one_op = 1%nat /\ ctx_stack (released_ops one_op) = 77 /\
  trace (released_ops one_op) = [Call 100 5; Call 200 131072; Call 100 7; Freed 196608; Freed 65536].
Proof. vm_compute. repeat split. Qed.
Example protector_three := protector_exact two_funcs user0 three_ops (unique_init 5000 77 0) (fst (after_ops three_ops)) (snd (after_ops three_ops)) 9 0 (released_ops three_ops)
  fresh_5000 ltac:(vm_compute; reflexivity) ltac:(vm_compute; reflexivity).
Example protector_three_case : allocations three_ops = 3%nat /\ ctx_stack (released_ops three_ops) = 131072 /\
  trace (released_ops three_ops) = [Call 200 327680; Call 200 262144; Call 100 5; Call 200 65536; Freed 131072; Freed 196608].
Proof. vm_compute. repeat split. Qed.
Example protector_cycle_met := protector_cycle two_funcs three_ops (unique_init 5000 77 0) (fst (after_ops three_ops)) (snd (after_ops three_ops))
  fresh_5000 ltac:(vm_compute; reflexivity) ltac:(vm_compute; lia).

Print Assumptions protector_exact. Print Assumptions protector_cycle.
