(** Pools on the thread that opens them: the current pool (C78), protected pointers (C79), completion (C80). *)
From Verif Require Import Base PoolModel SpecPool PoolProofs PropSpawn.

(** ** C78: the pool a spawned thread joins *)
Definition fresh_thread : ast := Ast ANull [] [].
(** The full statement: whatever the specification says happens. *)
Definition current_pool : Prop := forall c s t, meaning c nothing = Some (s, t) -> exists st, exec false c fresh_thread = Ok (st, t) /\ log st = added s.

(** Programs without guards and without thrd_destroy; inside a guard ([h]) also without exceptions. *)
Fixpoint plain (h : bool) (c : cmd) : bool :=
  match c with
  | Skip | Scope | Spawn => true
  | Destroy _ | Guard _ => false
  | Throw => negb h
  | Seq a b => plain h a && plain h b
  | Try c => plain h c
  end.
(** The thread's state fits the specification's, the current pool aside. *)
Definition fits (st : ast) (s : pspec) : Prop :=
  length (pools st) = made s /\ log st = added s /\ (forall p, In p (live s) -> pool_live st p = true).
Lemma live_app st p a l : pool_live st p = true -> pool_live (Ast a (pools st ++ [true]) l) p = true.
Proof.
  unfold pool_live; cbn [pools]; intros H. destruct (Nat.lt_ge_cases p (length (pools st))) as [L|L].
  - rewrite app_nth1; assumption.
  - rewrite nth_overflow in H by assumption; discriminate.
Qed.
Lemma live_new st a l : pool_live (Ast a (pools st ++ [true]) l) (length (pools st)) = true.
Proof. unfold pool_live; cbn [pools]. rewrite app_nth2, Nat.sub_diag by lia. reflexivity. Qed.
Lemma plain_agrees h c : plain h c = true -> forall st s p l, fits st s -> live s = p :: l -> ar st = APool p ->
  exists st' s' t q l', exec h c st = Ok (st', t) /\ meaning c s = Some (s', t) /\ fits st' s' /\ live s' = q :: l' /\ ar st' = APool q.
Proof.
  induction c as [| | |p0| |a IHa b IHb|c IH|c IH]; cbn [plain exec meaning]; intros P st s p l F L A.
  - exists st, s, false, p, l. auto.
  - destruct F as (F1 & F2 & F3). eexists _, _, _, _, _. repeat split; eauto.
    + cbn [pools made]. rewrite app_length; cbn. lia.
    + cbn [live]. intros q [<-|Q]; [rewrite <- F1; apply live_new | apply live_app, F3, Q].
    + cbn [ar]. rewrite F1. reflexivity.
  - destruct F as (F1 & F2 & F3). rewrite A, L. rewrite (F3 p) by (rewrite L; left; reflexivity).
    eexists _, _, _, _, _. repeat split; try reflexivity.
    + exact F1.
    + cbn. rewrite F2. reflexivity.
    + cbn [live]. intros q Q. specialize (F3 q). rewrite L in F3. exact (F3 Q).
  - discriminate.
  - destruct h; [discriminate|]. exists st, s, true, p, l. auto.
  - apply andb_true_iff in P as [Pa Pb].
    destruct (IHa Pa st s p l F L A) as (st1 & s1 & t1 & q1 & l1 & E1 & M1 & F1 & L1 & A1). rewrite E1, M1. cbn [bind].
    destruct t1.
    + exists st1, s1, true, q1, l1. auto.
    + destruct (IHb Pb st1 s1 q1 l1 F1 L1 A1) as (st2 & s2 & t2 & q2 & l2 & R). exists st2, s2, t2, q2, l2. exact R.
  - discriminate.
  - destruct (IH P st s p l F L A) as (st1 & s1 & t1 & q1 & l1 & E1 & M1 & F1 & L1 & A1). rewrite E1, M1. cbn [bind].
    exists st1, s1, false, q1, l1. auto.
Qed.
(** What holds: from a thrd_scope on, and as long as no guard is entered or left and no pool destroyed, every thread joins the pool
    opened last, whatever was open before; also inside a guard as long as nothing is thrown. *)
Theorem current_pool_partial : forall h c st s, plain h c = true -> fits st s ->
  exists st' s' t, exec h (Seq Scope c) st = Ok (st', t) /\ meaning (Seq Scope c) s = Some (s', t) /\ fits st' s' /\ log st' = added s'.
Proof.
  intros h c st s P F. cbn [exec meaning bind]. destruct F as (F1 & F2 & F3).
  assert (F' : fits (Ast (APool (length (pools st))) (pools st ++ [true]) (log st)) (PSpec (made s :: live s) (S (made s)) (added s))).
  { repeat split; [| exact F2 |].
    - cbn [pools made]. rewrite app_length; cbn. lia.
    - cbn [live]. intros q [<-|Q]; [rewrite <- F1; apply live_new | apply live_app, F3, Q]. }
  destruct (plain_agrees h c P _ _ (made s) (live s) F') as (st' & s' & t & q & l' & E & M & G & _); [reflexivity | cbn; rewrite F1; reflexivity|].
  exists st', s', t. repeat split; try assumption; apply G.
Qed.
Example current_pool_ex : exec false (Seq Scope (Seq Spawn (Seq (Try (Seq Scope (Seq Spawn Throw))) Spawn))) fresh_thread
  = Ok (Ast (APool 1) [true; true] [0; 1; 1]%nat, false).
Proof. reflexivity. Qed.

(** The current pool after a guard is the one before it, whatever happened inside. *)
Theorem guard_restores_pool : forall h c st st' t, exec h (Guard c) st = Ok (st', t) -> ar st' = ar st.
Proof.
  intros h c st st' t. cbn [exec]. destruct (exec true c _) as [[s1 t1]| | |]; cbn [bind]; intros E; try discriminate. injection E as <- <-. reflexivity.
Qed.
Example guard_restores_pool_ex : exec false (Guard (Seq Scope Spawn)) (Ast (APool 0) [true] []) = Ok (Ast (APool 0) [true; true] [1]%nat, false).
Proof. reflexivity. Qed.

(** No pool is destroyed, and outside inner guards none is opened. *)
Fixpoint keeps (c : cmd) : bool :=
  match c with Destroy _ => false | Seq a b => keeps a && keeps b | Guard c | Try c => keeps c | _ => true end.
Fixpoint steady (c : cmd) : bool :=
  match c with Destroy _ | Scope => false | Seq a b => steady a && steady b | Try c => steady c | Guard c => keeps c | _ => true end.
Lemma throw_state h st st' t : throw_ h st = Ok (st', t) -> st' = st.
Proof. unfold throw_. destruct h; [destruct (guard_set st)|]; cbn [bind]; intros E; try discriminate; injection E; auto. Qed.
Lemma keeps_live c : keeps c = true -> forall h st st' t p, exec h c st = Ok (st', t) -> pool_live st p = true -> pool_live st' p = true.
Proof.
  induction c as [| | |p0| |a IHa b IHb|c IH|c IH]; cbn [keeps exec]; intros K h st st' t p E L; try discriminate.
  - injection E as <- <-. exact L.
  - injection E as <- <-. apply live_app, L.
  - destruct (ar st) as [| |q]; try discriminate.
    + apply throw_state in E. subst. exact L.
    + destruct (pool_live st q); [|discriminate]. injection E as <- <-. exact L.
  - apply throw_state in E. subst. exact L.
  - apply andb_true_iff in K as [Ka Kb]. destruct (exec h a st) as [[s1 t1]| | |] eqn:Ea; cbn [bind] in E; try discriminate.
    pose proof (IHa Ka _ _ _ _ _ Ea L) as L1. destruct t1; [injection E as <- <-; exact L1 | exact (IHb Kb _ _ _ _ _ E L1)].
  - destruct (exec true c _) as [[s1 t1]| | |] eqn:Ec; cbn [bind] in E; try discriminate. injection E as <- <-.
    exact (IH K _ _ _ _ _ Ec L).
  - destruct (exec h c st) as [[s1 t1]| | |] eqn:Ec; cbn [bind] in E; try discriminate. injection E as <- <-. exact (IH K _ _ _ _ _ Ec L).
Qed.
Lemma steady_keeps c : steady c = true -> keeps c = true.
Proof.
  induction c; cbn; auto. intros H. apply andb_true_iff in H as [? ?]. rewrite IHc1, IHc2 by assumption. reflexivity.
Qed.
Lemma steady_ar c : steady c = true -> forall h st st' t, exec h c st = Ok (st', t) -> ar st' = ar st.
Proof.
  induction c as [| | |p0| |a IHa b IHb|c IH|c IH]; intros K h st st' t E; cbn [steady] in K; try discriminate; cbn [exec] in E.
  - injection E as <- <-. reflexivity.
  - destruct (ar st) as [| |q] eqn:A; try discriminate.
    + apply throw_state in E. subst. exact A.
    + destruct (pool_live st q); [|discriminate]. injection E as <- <-. reflexivity.
  - apply throw_state in E. subst. reflexivity.
  - apply andb_true_iff in K as [Ka Kb]. destruct (exec h a st) as [[s1 t1]| | |] eqn:Ea; cbn [bind] in E; try discriminate.
    pose proof (IHa Ka _ _ _ _ Ea) as A1. destruct t1; [injection E as <- <-; exact A1 | rewrite (IHb Kb _ _ _ _ E); exact A1].
  - destruct (exec true c _) as [[s1 t1]| | |] eqn:Ec; cbn [bind] in E; try discriminate. injection E as <- <-. reflexivity.
  - destruct (exec h c st) as [[s1 t1]| | |] eqn:Ec; cbn [bind] in E; try discriminate. injection E as <- <-. exact (IH K _ _ _ _ Ec).
Qed.
Lemma set_dead_nth p : forall l, nth p (set_dead p l) false = false.
Proof. induction p as [|p IH]; intros [|b l]; cbn; auto. Qed.
(** After thrd_destroy the thread still points at the pool: every later thrd_spawn reads released memory, instead of panicking or
    going back to the pool opened before. *)
Theorem spawn_after_destroy : forall h c st st', steady c = true ->
  let p := length (pools st) in
  exec h (Seq Scope c) st = Ok (st', false) -> exec h (Seq (Seq Scope c) (Seq (Destroy p) Spawn)) st = Undef UseAfterFree.
Proof.
  intros h c st st' S p E. change (exec h (Seq (Seq Scope c) (Seq (Destroy p) Spawn)) st) with
    (let* (st, t) := exec h (Seq Scope c) st in if t : bool then Ok (st, true) else exec h (Seq (Destroy p) Spawn) st).
  rewrite E. cbn [bind exec] in E |- *. fold p in E.
  pose proof (steady_ar c S _ _ _ _ E) as A. cbn [ar] in A.
  pose proof (keeps_live c (steady_keeps c S) _ _ _ _ p E (live_new _ _ _)) as L. rewrite L. cbn [bind ar].
  rewrite A. unfold pool_live; cbn [pools]. rewrite set_dead_nth. reflexivity.
Qed.
Example spawn_after_destroy_ex : exec false (Seq Scope (Seq Spawn (Guard (Try Spawn)))) (Ast (APool 0) [true] []) = Ok (Ast (APool 1) [true; true] [1]%nat, false).
Proof. reflexivity. Qed.
(** In a guard, an exception after thrd_scope: the guard's error is stored 72 bytes into the pool, which has 64. *)
Theorem throw_after_scope_in_guard : forall h c st st', steady c = true ->
  exec true (Seq Scope c) (Ast AScope (pools st) (log st)) = Ok (st', false) -> exec h (Guard (Seq (Seq Scope c) Throw)) st = Undef OobWrite.
Proof.
  intros h c st st' S E. change (exec h (Guard (Seq (Seq Scope c) Throw)) st) with
    (let* (st', t) := (let* (st, t) := exec true (Seq Scope c) (Ast AScope (pools st) (log st)) in if t : bool then Ok (st, true) else exec true Throw st) in
     Ok (Ast (ar st) (pools st') (log st'), t)).
  rewrite E. cbn [bind exec pools] in E |- *.
  pose proof (steady_ar c S _ _ _ _ E) as A. cbn [ar pools] in A.
  pose proof (keeps_live c (steady_keeps c S) _ _ _ _ (length (pools st)) E) as L. cbn [log] in L.
  unfold throw_, guard_set. rewrite A, L; [reflexivity|]. apply (live_new (Ast AScope (pools st) (log st))).
Qed.
Example throw_after_scope_in_guard_ex : exec true (Seq Scope (Seq Spawn Spawn)) (Ast AScope [] []) = Ok (Ast (APool 0) [true] [0; 0]%nat, false).
Proof. reflexivity. Qed.
(** In a guard, an exception after thrd_destroy: the guard's error is stored in the released pool. *)
Theorem throw_after_destroy_in_guard : forall h c st st', steady c = true ->
  let p := length (pools st) in
  exec true (Seq Scope c) (Ast AScope (pools st) (log st)) = Ok (st', false) ->
  exec h (Guard (Seq (Seq Scope c) (Seq (Destroy p) Throw))) st = Undef UseAfterFree.
Proof.
  intros h c st st' S p E. change (exec h (Guard (Seq (Seq Scope c) (Seq (Destroy p) Throw))) st) with
    (let* (st', t) := (let* (st, t) := exec true (Seq Scope c) (Ast AScope (pools st) (log st)) in if t : bool then Ok (st, true) else exec true (Seq (Destroy p) Throw) st) in
     Ok (Ast (ar st) (pools st') (log st'), t)).
  rewrite E. cbn [bind exec pools] in E |- *.
  pose proof (steady_ar c S _ _ _ _ E) as A. cbn [ar pools] in A. fold p in A.
  pose proof (keeps_live c (steady_keeps c S) _ _ _ _ p E) as L. cbn [log] in L.
  rewrite L by apply (live_new (Ast AScope (pools st) (log st))). cbn [bind]. unfold throw_, guard_set. cbn [ar]. rewrite A.
  unfold pool_live; cbn [pools]. rewrite set_dead_nth. reflexivity.
Qed.
Example throw_after_destroy_in_guard_ex := throw_after_destroy_in_guard false (Seq Spawn Spawn) (Ast ANull [] []) _ eq_refl eq_refl.
(** Why: both words that guard_set writes lie wholly behind the pool's block. (Each member lies at the least multiple of its alignment that is free.) *)
Theorem pool_layout : err_at = 72 /\ panic_at = 80 /\ sizeof memory_s = 88 /\ sizeof future_pool = 64 /\ forall o a, 0 < a -> o <= align o a < o + a /\ (a | align o a).
Proof. do 4 (split; [reflexivity|]). intros o a H. unfold align. split; [|apply Z.divide_factor_r]. pose proof (Z.div_mod (o + a - 1) a ltac:(lia)). pose proof (Z.mod_pos_bound (o + a - 1) a H). nia. Qed.

(** Without a pool the promised panic is a NULL dereference. *)
Theorem spawn_no_pool_refuted : exists c s, meaning c nothing = Some (s, true) /\ exec false c fresh_thread = Undef NullDeref.
Proof. exists Spawn. eexists. split; vm_compute; reflexivity. Qed.
(** Two pools, the inner one destroyed: the next thread should join the outer one. *)
Theorem spawn_outer_pool_refuted : exists c s, meaning c nothing = Some (s, false) /\ added s = [0]%nat /\ exec false c fresh_thread = Undef UseAfterFree.
Proof. exists (Seq Scope (Seq Scope (Seq (Destroy 1) Spawn))). eexists. repeat split; vm_compute; reflexivity. Qed.
(** In a guard the pool opened before it is not seen: panic. *)
Theorem spawn_in_guard_refuted : exists c s, meaning c nothing = Some (s, false) /\ added s = [0]%nat /\ exists st, exec false c fresh_thread = Ok (st, true) /\ log st = [].
Proof. exists (Seq Scope (Guard Spawn)). eexists. repeat split; try (vm_compute; reflexivity). eexists. split; vm_compute; reflexivity. Qed.
(** A pool opened in a guard is forgotten at its end: the thread joins the older one. *)
Theorem spawn_after_guard_refuted : exists c s, meaning c nothing = Some (s, false) /\ added s = [1]%nat /\ exists st, exec false c fresh_thread = Ok (st, false) /\ log st = [0]%nat.
Proof. exists (Seq Scope (Seq (Guard Scope) Spawn)). eexists. repeat split; try (vm_compute; reflexivity). eexists. split; vm_compute; reflexivity. Qed.
(** A worker (whose function runs in a guard) opens a pool and throws: a store past the end of the pool. *)
Theorem throw_in_worker_refuted : exists c s, meaning c nothing = Some (s, true) /\ exec false c fresh_thread = Undef OobWrite.
Proof. exists (Guard (Seq Scope (Seq Spawn Throw))). eexists. repeat split; vm_compute; reflexivity. Qed.

(** ** C79: exceptions and the blocks of a pool *)
(** The caller protects [k] blocks of its own. *)
Fixpoint protect_n (k : nat) (s : hst) : hst :=
  match k with O => s | S k => let '(b, s) := new 0 (protect_n k s) in protect_var k b s end.
(** One successful thrd_spawn per element. *)
Fixpoint spawn_all (grows : list bool) (s : hst) : out hst :=
  match grows with [] => Ok s | g :: l => let* (s, _) := p_spawn 0 g true s in spawn_all l s end.
(** A try block in which [k] pointers are protected, a pool opened, threads added and, perhaps, collected. *)
Definition pool_use (k : nat) (grows : list bool) (sync : option (list (Z * bool))) : out hst :=
  let* s := spawn_all grows (p_scope (protect_n k hinit)) in match sync with Some l => p_sync l s | None => Ok s end.
(** The full statement: an exception at any such point releases the caller's pointers, with defined behaviour. *)
Definition exception_in_pool : Prop := forall k grows sync s, pool_use k grows sync = Ok s ->
  exists f s', throw_in_try f s = Ok s' /\ forall i, (i < k)%nat -> memb (var s i) (freed s') = true.

Lemma start_ok k : let s := protect_n k hinit in exists callers, length callers = k /\ K callers s /\ p1 s = 0 /\ p2 s = 0 /\ futs s = 0 /\ ress s = 0 /\ own1 s = [] /\ own2 s = [] /\ threads s = []
  /\ frame s = None /\ (forall n, 0 <= n -> n_fixed (nds s n) = false) /\ freed s = [] /\ (forall i, (i < k)%nat -> In (var s i) callers).
Proof.
  induction k as [|k IH]; cbv zeta in *; cbn [protect_n].
  - exists []. split; [reflexivity|]. split; [split; [|split; [|split; [|split]]]; cbn; intros; try lia; tauto|]. do 8 (split; [reflexivity|]). split; [reflexivity|]. split; [reflexivity | lia].
  - destruct IH as (cs & L & Ks & A1 & A2 & A3 & A4 & A5 & A6 & A7 & A8 & A9 & A10 & A11). set (s := protect_n k hinit) in *. cbn [new]. exists (brk s :: cs).
    pose proof (G_new _ _ 0 Ks) as G1. cbn [new snd] in G1. unfold protect_var. fields.
    split; [cbn; congruence|]. split.
    { unfold K. eapply G_ext; [eapply G_same; [exact G1 | reflexivity | reflexivity | reflexivity]|]. unfold blocks; fields. counts. }
    do 8 (split; [assumption|]). split; [|split; [assumption|]].
    + intros n Hn. rewrite !upd_other by lia. apply A9, Hn.
    + intros i Hi. destruct (Nat.eqb_spec i k) as [->|N]; [left; reflexivity | right; apply A11; lia].
Qed.
Lemma scope_ok k : let s := p_scope (protect_n k hinit) in exists callers, length callers = k /\ K callers s /\ D s /\ top s = p2 s
  /\ ress s = 0 /\ memb (pool_at s) (heap s) = true /\ n_loc (nds s (p2 s)) = LRes /\ freed s = [] /\ own1 s = [] /\ p1 s = 0 /\ threads s = [].
Proof.
  destruct (start_ok k) as (cs & L & Ks & A1 & A2 & A3 & A4 & A5 & A6 & A7 & A8 & A9 & A10 & A11). cbv zeta. exists cs. split; [exact L|].
  split; [apply K_scope; assumption|]. set (s := protect_n k hinit) in *. pose proof (G_brk _ _ Ks) as B. clearbody s.
  unfold p_scope, calloc2. cbn [new]. fields. rewrite A2. cbn [Z.eqb]. fields.
  split.
  { unfold D. fields. rewrite !upd_same. cbn [n_on n_next]. split; [lia|]. split; [lia|]. split; [|split; [exact A8 | split; [reflexivity | left; reflexivity]]].
    intros n Hn. unfold upd. repeat match goal with |- context [?a =? ?b] => destruct (Z.eqb_spec a b) end; subst; cbn [n_fixed]; auto; try (apply A9; lia). }
  rewrite !upd_same. cbn [n_loc]. repeat split; auto. apply memb_in. cbn. auto.
Qed.
Lemma spawn_all_ok grows : forall rest s, K rest s -> D s -> top s = p2 s -> exists s' args, spawn_all grows s = Ok s' /\ length args = length grows
  /\ K (args ++ rest) s' /\ D s' /\ top s' = p2 s'
  /\ (grows <> [] -> exists b, n_loc (nds s' (p2 s')) = LWord b /\ memb b (heap s') = true /\ word s' b = RAII_VALUE).
Proof.
  induction grows as [|g l IH]; cbn [spawn_all]; intros rest s Ks Ds T.
  - exists s, []. split; [reflexivity|]. split; [reflexivity|]. split; [exact Ks|]. split; [exact Ds|]. split; [exact T|]. congruence.
  - destruct Ds as (D1 & D2 & D3 & D4 & D5 & D6).
    destruct (spawn_ok 0 g rest s Ks) as (s1 & a & b & k & E & K1 & P2 & P1 & F & T1 & N2 & Mb & W & N1 & Fx); [lia | exact D3|].
    rewrite E. cbn [bind]. pose proof (K_nonneg _ _ K1) as [Q1 Q2]. pose proof (K_distinct _ _ K1 P1) as Di.
    assert (D' : D s1).
    { unfold D. rewrite P2, N2, N1 || rewrite P2, N2. cbn [n_on n_next]. split; [lia|]. split; [exact Q1|]. split; [exact Fx|]. split; [exact F|]. split; [reflexivity|].
      right. split; [exact P1|]. rewrite N1. cbn [n_fixed n_on n_loc]. split; [reflexivity|]. right. eauto. }
    destruct (IH (a :: rest) s1 K1 D') as (s2 & args & E2 & L2 & K2 & D2' & T2 & W2); [congruence|].
    exists s2, (args ++ [a]). split; [exact E2|]. split; [rewrite app_length; cbn; lia|]. split.
    { rewrite <- app_assoc. exact K2. }
    split; [exact D2'|]. split; [exact T2|]. intros _. destruct l as [|g' l']; [|apply W2; discriminate].
    cbn [spawn_all] in E2. injection E2 as <-. exists b. rewrite P2, N2. auto.
Qed.
Lemma K_live2 rest s : K rest s -> p2 s <> 0 -> memb (p2 s) (heap s) = true.
Proof.
  intros (A & _) N. apply memb_cnt. rewrite A. unfold blocks. rewrite (nz_pos (p2 s)) by exact N. repeat (rewrite cnt_app || rewrite cnt_cons1). unfold cnt1. destruct Z.eq_dec; [lia | congruence].
Qed.
(** A thrd_scope hides everything protected before it: an exception right after it releases nothing. *)
Theorem scope_hides_protected : forall k f, throw_in_try (S f) (p_scope (protect_n k hinit)) = Ok (set_top 0 (p_scope (protect_n k hinit)))
  /\ freed (p_scope (protect_n k hinit)) = [].
Proof.
  intros k f. destruct (scope_ok k) as (cs & _ & Ks & (D1 & _ & D3 & _ & D5 & _) & T & R & M & Lc & Fr & _). cbv zeta in *. set (s := p_scope (protect_n k hinit)) in *. clearbody s.
  split; [|exact Fr]. unfold throw_in_try. rewrite T. cbn [unwind]. destruct (Z.eqb_spec (p2 s) 0); [lia|]. rewrite D5, Lc.
  destruct (n_fixed (nds s (p2 s)) || memb (p2 s) (heap s)) eqn:E; cbn [negb].
  - cbn [deref]. rewrite M, R. reflexivity.
  - exfalso. apply orb_false_iff in E as [_ E]. revert E.
    rewrite (K_live2 _ _ Ks) by lia. discriminate.
Qed.
(** After one thrd_spawn or more an exception calls free on the number 49, the tag of the last result, before anything else. *)
Theorem throw_after_spawn : forall k grows f, grows <> [] -> exists s, pool_use k grows None = Ok s /\ throw_in_try (S f) s = Undef WildPointer.
Proof.
  intros k grows f Ne. destruct (scope_ok k) as (cs & _ & Ks & Ds & T & _). cbv zeta in *.
  destruct (spawn_all_ok grows cs _ Ks Ds T) as (s & args & E & _ & K2 & (D1 & _ & D3 & _ & D5 & _) & T2 & W). destruct (W Ne) as (b & Lc & Mb & Wd).
  exists s. unfold pool_use. rewrite E. split; [reflexivity|]. unfold throw_in_try. rewrite T2. cbn [unwind]. destruct (Z.eqb_spec (p2 s) 0); [lia|].
  rewrite (K_live2 _ _ K2) by lia. rewrite orb_true_r, D5, Lc. cbn [negb deref]. rewrite Mb, Wd. cbn [bind]. change (0 =? RAII_VALUE) with false. cbn iota.
  change (RAII_VALUE =? 0) with false. cbn iota. unfold free_. change (RAII_VALUE =? 0) with false. cbn iota. fields.
  destruct K2 as (_ & _ & Bh & _ & Bf). unfold RAII_VALUE.
  replace (memb 49 (heap s)) with false; [replace (memb 49 (freed s)) with false; [reflexivity|]|]; symmetry; apply memb_no; intros I; [apply Bf in I | apply Bh in I]; lia.
Qed.
(** thrd_destroy, after any number of threads, collected or not: each block of the pool is released once; what is left are the
    caller's blocks, the argument blocks that the workers release and, when not collected, the futures and the thread's own scope. *)
Theorem destroy_releases : forall k grows sync, exists s s' callers args, pool_use k grows sync = Ok s /\ p_destroy s = Ok s'
  /\ length callers = k /\ length args = length grows /\ (forall x, cnt x (heap s') = cnt x (nz (p1 s) ++ own1 s ++ threads s ++ args ++ callers)).
Proof.
  intros k grows sync. destruct (scope_ok k) as (cs & L & Ks & Ds & T & _). cbv zeta in *.
  destruct (spawn_all_ok grows cs _ Ks Ds T) as (s & args & E & La & K2 & D2 & T2 & _). unfold pool_use. rewrite E. cbn [bind]. destruct sync as [l|].
  - destruct (PoolProofs.sync_ok _ l s K2 D2 T2) as (s1 & E1 & K3 & D3). destruct (destroy_ok _ _ K3 D3) as (s2 & E2 & (G2 & _) & _).
    exists s1, s2, cs, args. auto.
  - destruct (destroy_ok _ _ K2 D2) as (s2 & E2 & (G2 & _) & _). exists s, s2, cs, args. auto.
Qed.
(** But it leaves the context with a protector that is released, or one that points into a finished call of thrd_spawn: any exception
    in the same block afterwards reads released memory. *)
Theorem throw_after_destroy : forall k grows sync f, exists s s', pool_use k grows sync = Ok s /\ p_destroy s = Ok s' /\ throw_in_try (S f) s' = Undef UseAfterFree.
Proof.
  intros k grows sync f. destruct (scope_ok k) as (cs & L & Ks & Ds & T & _). cbv zeta in *.
  destruct (spawn_all_ok grows cs _ Ks Ds T) as (s & args & E & La & K2 & D2 & T2 & _). unfold pool_use. rewrite E. cbn [bind]. destruct sync as [l|].
  - destruct (PoolProofs.sync_ok _ l s K2 D2 T2) as (s1 & E1 & K3 & D3). destruct (destroy_ok _ _ K3 D3) as (s2 & E2 & _ & Da & F).
    exists s1, s2. auto using throw_dangling.
  - destruct (destroy_ok _ _ K2 D2) as (s2 & E2 & _ & Da & F). exists s, s2. auto using throw_dangling.
Qed.
Lemma unwind_S fuel p temp s : unwind (S fuel) p temp s =
  if p =? 0 then Ok s
  else
    let n := nds s p in
    if negb (n_fixed n || memb p (heap s)) then Undef UseAfterFree
    else if negb (n_on n) then Ok s
    else
      let* v := deref (n_loc n) s in
      if temp =? v then Ok s
      else
        let* s := (if v =? 0 then Ok s else free_ v (set_nds (upd (nds s) p (Node (n_next n) (n_loc n) false (n_fixed n))) s)) in
        let* temp := deref (n_loc n) s in
        unwind fuel (n_next n) temp s.
Proof. reflexivity. Qed.
Lemma memb_remove x y l : memb x (remove1 y l) = memb x l && negb (x =? y).
Proof.
  destruct (memb x l) eqn:X; cbn [andb].
  - destruct (Z.eqb_spec x y) as [->|N]; cbn [negb].
    + apply memb_no. unfold remove1. rewrite filter_In, Z.eqb_refl. intros [_ Q]; discriminate.
    + apply memb_in. unfold remove1. rewrite filter_In. split; [apply memb_in, X|]. destruct (Z.eqb_spec x y); [contradiction | reflexivity].
  - apply memb_no. unfold remove1. rewrite filter_In. intros [I _]. apply memb_no in X. tauto.
Qed.
Lemma throw_frame f s k fut : top s <> 0 -> memb (top s) (heap s) = true -> nds s (top s) = Node (top s) (LFrame k) true (n_fixed (nds s (top s))) -> frame s = Some (k, fut) ->
  0 < fut -> memb fut (heap s) = true -> top s <> fut ->
  throw_in_try (S (S f)) s = Ok (set_top 0 (set_mem (word s) (remove1 fut (heap s)) (fut :: freed s) (brk s) (set_nds (upd (nds s) (top s) (Node (top s) (LFrame k) false (n_fixed (nds s (top s))))) s))).
Proof.
  intros T M N F P Mf Tf. unfold throw_in_try. rewrite unwind_S. cbv zeta. destruct (Z.eqb_spec (top s) 0); [contradiction|]. rewrite M, orb_true_r. cbn [negb].
  replace (n_on (nds s (top s))) with true by (rewrite N; reflexivity). replace (n_loc (nds s (top s))) with (LFrame k) by (rewrite N; reflexivity).
  replace (n_next (nds s (top s))) with (top s) by (rewrite N; reflexivity). cbn [negb]. unfold deref at 1. rewrite F, Nat.eqb_refl. cbn [bind].
  destruct (Z.eqb_spec 0 fut); [lia|]. destruct (Z.eqb_spec fut 0) as [|X]; [lia|]. unfold free_. apply Z.eqb_neq in X. rewrite X. fields. rewrite Mf. cbn [bind].
  unfold deref. fields. rewrite F, Nat.eqb_refl. cbn [bind]. rewrite unwind_S. cbv zeta. fields. destruct (Z.eqb_spec (top s) 0); [contradiction|].
  rewrite memb_remove, M. destruct (Z.eqb_spec (top s) fut); [contradiction|]. cbn [andb negb]. rewrite orb_true_r, upd_same. cbn [negb n_on bind]. reflexivity.
Qed.
Lemma calloc1_freed w s : freed (snd (calloc1 w s)) = freed s.
Proof. unfold calloc1; cbn [new]; fields; destruct (p1 s =? 0); reflexivity. Qed.
Lemma make_live_from rest s s1 s2 : K rest s -> G (blocks s2 ++ frame_future s2 :: brk s2 - 16 :: rest) s2 -> freed s1 = freed s ->
  (p1 s <> 0 -> p1 s1 = p1 s) -> (p1 s = 0 -> p1 s1 = brk s + 16) ->
  p1 s2 = p1 s1 -> top s2 = p1 s2 -> nds s2 (p1 s2) = Node (p1 s2) (LFrame (calls s)) true (n_fixed (nds s (p1 s2))) ->
  frame s2 = Some (calls s, brk s1) -> heap s2 = brk s1 + 16 :: brk s1 :: heap s1 -> brk s2 = brk s1 + 16 + 16 -> freed s2 = freed s1 ->
  top s2 <> 0 /\ memb (top s2) (heap s2) = true /\ nds s2 (top s2) = Node (top s2) (LFrame (calls s)) true (n_fixed (nds s2 (top s2))) /\ frame s2 = Some (calls s, frame_future s2)
  /\ 0 < frame_future s2 /\ memb (frame_future s2) (heap s2) = true /\ top s2 <> frame_future s2 /\ freed s2 = freed s
  /\ exists arg, memb arg (heap s2) = true /\ arg <> frame_future s2 /\ ~ In arg (blocks s2).
Proof.
  intros K0 GM FR C5 C6 M1 M3 M4 M6 M9 M10 M11. pose proof (G_brk _ _ K0) as B0.
  assert (FF : frame_future s2 = brk s1) by (unfold frame_future; rewrite M6; reflexivity). rewrite FF in GM |- *.
  assert (P1 : p1 s2 <> 0 /\ 0 <= p1 s2).
  { rewrite M1. pose proof (K_nonneg _ _ K0) as [Q _]. destruct (Z.eq_dec (p1 s) 0) as [X|X]; [rewrite (C6 X); lia | rewrite (C5 X); auto]. }
  destruct P1 as [P1 P1'].
  assert (Bf : 4096 <= brk s1 < brk s2) by (apply (G_in _ _ _ GM), in_or_app; right; left; reflexivity).
  destruct GM as (A & B & _). rewrite M3. split; [exact P1|]. split.
  { apply memb_cnt. rewrite A. unfold blocks. rewrite (nz_pos (p1 s2)) by exact P1. repeat (rewrite cnt_app || rewrite cnt_cons1). unfold cnt1 at 1. destruct Z.eq_dec; [lia | congruence]. }
  split; [rewrite M4; reflexivity|]. split; [exact M6|]. split; [lia|]. split; [apply memb_in; rewrite M9; cbn; auto|].
  split.
  { intros X. specialize (B (brk s1)). revert B. unfold blocks. rewrite (nz_pos (p1 s2)) by exact P1. repeat (rewrite cnt_app || rewrite cnt_cons1).
    rewrite X. unfold cnt1. destruct Z.eq_dec; [lia | congruence]. }
  split; [congruence|]. exists (brk s1 + 16). split; [apply memb_in; rewrite M9; cbn; auto|]. split; [lia|].
  intros I. specialize (B (brk s1 + 16)). revert B. rewrite M10. replace (brk s1 + 16 + 16 - 16) with (brk s1 + 16) by lia.
  rewrite cnt_app, !cnt_cons1. apply (count_occ_In Z.eq_dec) in I. fold (cnt (brk s1 + 16) (blocks s2)) in I. unfold cnt1 at 2. destruct Z.eq_dec; [lia | congruence].
Qed.
Lemma make_live rest s : K rest s -> let s2 := make_thread s in let fut := frame_future s2 in
  top s2 <> 0 /\ memb (top s2) (heap s2) = true /\ nds s2 (top s2) = Node (top s2) (LFrame (calls s)) true (n_fixed (nds s2 (top s2))) /\ frame s2 = Some (calls s, fut)
  /\ 0 < fut /\ memb fut (heap s2) = true /\ top s2 <> fut /\ freed s2 = freed s
  /\ exists arg, memb arg (heap s2) = true /\ arg <> fut /\ ~ In arg (blocks s2).
Proof.
  intros K0. destruct (make_facts s) as (M1 & _ & M3 & M4 & _ & M6 & _ & _ & M9 & M10 & M11 & _).
  destruct (calloc1_facts 1 s) as (_ & _ & _ & _ & C5 & C6 & _).
  exact (make_live_from rest s _ _ K0 (K_make _ s K0) (calloc1_freed 1 s) C5 C6 M1 M3 M4 M6 M9 M10 M11).
Qed.
Lemma fails_from s0 s2 fut arg f : top s2 <> 0 -> memb (top s2) (heap s2) = true -> nds s2 (top s2) = Node (top s2) (LFrame (calls s0)) true (n_fixed (nds s2 (top s2))) ->
  frame s2 = Some (calls s0, fut) -> 0 < fut -> memb fut (heap s2) = true -> top s2 <> fut -> freed s2 = freed s0 ->
  memb arg (heap s2) = true -> arg <> fut -> ~ In arg (blocks s2) ->
  exists s', throw_in_try (S (S f)) s2 = Ok s' /\ freed s' = fut :: freed s0 /\ (forall x, memb x (heap s') = memb x (heap s2) && negb (x =? fut))
  /\ memb arg (heap s') = true /\ ~ In arg (blocks s').
Proof.
  intros A1 A2 A3 A4 A5 A6 A7 A8 B1 B2 B3. eexists. split; [apply (throw_frame f s2 (calls s0) fut); assumption|].
  fields. split; [rewrite A8; reflexivity|]. split; [intros x; apply memb_remove|]. split; [rewrite memb_remove, B1; destruct (Z.eqb_spec arg fut); [contradiction | reflexivity]|].
  unfold blocks in B3 |- *. fields. exact B3.
Qed.
Lemma spawn_fails rest s0 f : K rest s0 -> exists s' fut arg, frame (make_thread s0) = Some (calls s0, fut) /\ throw_in_try (S (S f)) (make_thread s0) = Ok s'
  /\ freed s' = fut :: freed s0 /\ (forall x, memb x (heap s') = memb x (heap (make_thread s0)) && negb (x =? fut)) /\ memb arg (heap s') = true /\ ~ In arg (blocks s').
Proof.
  intros K0. destruct (make_live rest s0 K0) as (A1 & A2 & A3 & A4 & A5 & A6 & A7 & A8 & arg & B1 & B2 & B3).
  destruct (fails_from s0 _ _ arg f A1 A2 A3 A4 A5 A6 A7 A8 B1 B2 B3) as (s' & C). exists s', (frame_future (make_thread s0)), arg. split; [exact A4 | exact C].
Qed.
(** When thrd_create fails, future_error is thrown inside thrd_spawn: the future just made is released and nothing else; in
    particular the argument block, which no scope knows, stays. *)
Theorem spawn_failure_partial : forall k grows g f, exists s s0 s' fut arg, pool_use k grows None = Ok s /\ grow_tables g s = Ok s0
  /\ frame (make_thread s0) = Some (calls s0, fut) /\ p_spawn (S (S f)) g false s = Ok (s', true) /\ freed s' = fut :: freed s0
  /\ (forall x, memb x (heap s') = memb x (heap (make_thread s0)) && negb (x =? fut)) /\ memb arg (heap s') = true /\ ~ In arg (blocks s').
Proof.
  intros k grows g f. destruct (scope_ok k) as (cs & L & Ks & Ds & T & _). cbv zeta in *.
  destruct (spawn_all_ok grows cs _ Ks Ds T) as (s & args & E & La & K2 & _). destruct (grow_either g _ s K2) as (s0 & E0 & K0 & _).
  destruct (spawn_fails _ s0 f K0) as (s' & fut & arg & A1 & A2 & A3 & A4 & A5 & A6).
  exists s, s0, (set_frame None (S (calls s')) s'), fut, arg. unfold pool_use. rewrite E. split; [reflexivity|]. split; [exact E0|]. split; [exact A1|].
  split; [unfold p_spawn; rewrite E0; cbn [bind]; rewrite A2; reflexivity|]. split; [exact A3|]. split; [exact A4|]. split; [exact A5|]. exact A6.
Qed.
Example pool_use_ex : match pool_use 2 [true; false; true] (Some [(5, false); (7, true); (9, false)]) with Ok s => match p_destroy s with Ok s' => length (heap s') = 5%nat | _ => False end | _ => False end.
Proof. vm_compute. reflexivity. Qed.
(** Without a pool the same exception releases both pointers. *)
Example no_pool_ex : match throw_in_try 10 (protect_n 2 hinit) with Ok s => heap s = [] /\ length (freed s) = 2%nat | _ => False end.
Proof. vm_compute. auto. Qed.
(** A pointer protected before the pool was opened is not released. *)
Theorem exception_in_pool_refuted : exists k grows sync s s', pool_use k grows sync = Ok s /\ throw_in_try 10 s = Ok s' /\ (0 < k)%nat /\ memb (var s 0) (freed s') = false.
Proof. exists 1%nat, [], None. do 2 eexists. split; [vm_compute; reflexivity|]. split; [vm_compute; reflexivity|]. split; [lia | vm_compute; reflexivity]. Qed.

(** ** C80: completion and results of a pool *)
(** Before thrd_sync, thrd_is_finish says whether all promises are done, for every number of threads. *)
Theorem finish_before_sync : forall cpu ids done, 1 <= cpu < 2 ^ 31 -> Z.of_nat (length ids) < 2 ^ 31 ->
  exists p, spawns ids (SpawnModel.thrd_scope cpu) = Ok p /\ thrd_is_finish done p = Ok (forallb done ids).
Proof.
  intros cpu ids done Hc Hn. destruct (spawns_ok cpu Hc ids [] _ Hn (scope_holding cpu (proj1 Hc))) as (p & E & C & _ & _ & _ & _ & F & _ & Al). cbn [app] in *.
  exists p. split; [exact E|]. unfold thrd_is_finish. rewrite C, Nat2Z.id.
  assert (H : forall todo old, ids = old ++ todo -> finish_from (length todo) done (Z.of_nat (length old)) p = Ok (forallb done todo)).
  { induction todo as [|id todo IH]; intros old Ei; cbn [length finish_from forallb]; [reflexivity|].
    rewrite (fetch_ok (p_futures p) (length old) id) by (apply F; rewrite Ei, nth_error_app2, Nat.sub_diag by lia; reflexivity). cbn [bind].
    replace (existsb (Nat.eqb id) (alive p)) with true by (symmetry; apply existsb_exists; exists id; rewrite Al, Ei, Nat.eqb_refl; split; [apply in_or_app; right; left; reflexivity | reflexivity]).
    cbn [negb]. destruct (done id); cbn [andb]; [|reflexivity]. specialize (IH (old ++ [id])). rewrite app_length in IH. cbn [length] in IH.
    replace (Z.of_nat (length old) + 1) with (Z.of_nat (length old + 1)) by lia. apply IH. rewrite <- app_assoc. exact Ei. }
  exact (H ids [] eq_refl).
Qed.
Lemma sync_from_futures keep res err n : forall i p p', sync_from n keep res err i p = Ok p' -> p_futures p' = p_futures p.
Proof.
  induction n as [|n IH]; cbn [sync_from]; intros i p p' E; [injection E as <-; reflexivity|].
  destruct (sync_one keep res err i p) as [q| | |] eqn:Q; cbn [bind] in E; try discriminate. rewrite (IH _ _ _ E). clear - Q. unfold sync_one in Q.
  destruct (fetch (p_futures p) i) as [id| | |]; cbn [bind] in Q; try discriminate. destruct (negb _); [discriminate|]. destruct (res id) as [|v size ext]; [discriminate|].
  destruct ((0 <? size) && _); [discriminate|]. destruct (fetch (p_results p) i); cbn [bind] in Q; try discriminate. destruct (put _ _ _); cbn [bind] in Q; try discriminate.
  destruct keep; [|discriminate]. destruct (err id =? 0); [|discriminate]. injection Q as <-. reflexivity.
Qed.
(** After it, thrd_is_finish reads the futures that thrd_sync has freed, for every pool with a thread in it; thrd_result gives the i-th
    result. *)
Theorem finish_after_sync : forall cpu ids res err done, 1 <= cpu < 2 ^ 31 -> Z.of_nat (length ids) < 2 ^ 31 -> NoDup ids -> Forall (fun k => present (res k) /\ err k = 0) ids ->
  exists p p', spawns ids (SpawnModel.thrd_scope cpu) = Ok p /\ thrd_sync true res err p = Ok p'
    /\ (ids <> [] -> thrd_is_finish done p' = Undef UseAfterFree).
Proof.
  intros cpu ids res err done Hc Hn Nd Ok'. destruct (spawns_ok cpu Hc ids [] _ Hn (scope_holding cpu (proj1 Hc))) as (p & E & C & _ & Lr & L & _ & F & R & Al). cbn [app] in *.
  destruct (PropSpawn.sync_ok res err ids (p_futures p) ids [] p) as (p' & E' & T & A' & _ & N'); auto.
  - lia.
  - intros i Hi. destruct (nth_error ids i) as [x|] eqn:Hx; [eauto|]. apply nth_error_None in Hx. lia.
  - exists p, p'. split; [exact E|]. split; [unfold thrd_sync; rewrite C, Nat2Z.id; exact E'|]. intros Ne.
    unfold thrd_is_finish. rewrite T, C, Nat2Z.id. pose proof (sync_from_futures _ _ _ _ _ _ _ E') as Pf. destruct ids as [|id ids]; [contradiction|]. cbn [length finish_from].
    rewrite Pf. change 0 with (Z.of_nat 0) at 1. rewrite (fetch_ok (p_futures p) 0 id) by (apply F; reflexivity). cbn [bind]. rewrite A'. reflexivity.
Qed.
Theorem result_of_thread : forall cpu ids res err, 1 <= cpu < 2 ^ 31 -> Z.of_nat (length ids) < 2 ^ 31 -> NoDup ids -> Forall (fun k => present (res k) /\ err k = 0) ids ->
  exists p p', spawns ids (SpawnModel.thrd_scope cpu) = Ok p /\ thrd_sync true res err p = Ok p'
    /\ forall i id, nth_error ids i = Some id -> thrd_result (Z.of_nat i) p = Panics /\ exists v, copied (res id) = Some v /\ thrd_result (Z.of_nat i) p' = Ok v.
Proof.
  intros cpu ids res err Hc Hn Nd Ok'. destruct (sync_in_order_partial cpu ids res err Hc Hn Nd Ok') as (p & p' & E & E' & _ & N). exists p, p'. split; [exact E|]. split; [exact E'|].
  intros i id Hi. destruct (spawn_tables cpu ids Hc Hn) as (p0 & E0 & _ & T & _). assert (p0 = p) by congruence. subst p0. split.
  - unfold thrd_result. rewrite (fetch_ok _ _ _ (proj2 (T _ _ Hi))). reflexivity.
  - unfold thrd_result. rewrite (fetch_ok _ _ _ (N _ _ Hi)). cbn [bind is_ready r_value]. rewrite Forall_forall in Ok'. destruct (Ok' id) as [Pr _]; [eapply nth_error_In; eauto|].
    destruct (res id) as [|v size ext]; [destruct Pr|]. cbn [copied]. eauto.
Qed.
Example result_ex : match spawns [0%nat; 1%nat] (SpawnModel.thrd_scope 4) with
  | Ok p => thrd_result 1 p = Panics /\ match thrd_sync true some_res (fun _ => 0) p with Ok p' => thrd_result 1 p' = Ok (0, [8; 9]) | _ => False end
    /\ thrd_is_finish (fun _ => true) p = Ok true /\ thrd_is_finish (Nat.eqb 0) p = Ok false
  | _ => False end.
Proof. vm_compute. auto. Qed.
Theorem finish_after_sync_refuted : exists p p', spawns [0%nat] (SpawnModel.thrd_scope 4) = Ok p /\ thrd_sync true some_res (fun _ => 0) p = Ok p'
  /\ thrd_is_finish (fun _ => true) p' = Undef UseAfterFree.
Proof. do 2 eexists. split; [vm_compute; reflexivity|]. split; vm_compute; reflexivity. Qed.

Print Assumptions throw_after_destroy_in_guard.
Print Assumptions current_pool_partial.
Print Assumptions guard_restores_pool.
Print Assumptions spawn_after_destroy.
Print Assumptions throw_after_scope_in_guard.
Print Assumptions spawn_no_pool_refuted.
Print Assumptions spawn_outer_pool_refuted.
Print Assumptions spawn_in_guard_refuted.
Print Assumptions spawn_after_guard_refuted.
Print Assumptions throw_in_worker_refuted.
Print Assumptions scope_hides_protected.
Print Assumptions throw_after_spawn.
Print Assumptions destroy_releases.
Print Assumptions throw_after_destroy.
Print Assumptions spawn_failure_partial.
Print Assumptions exception_in_pool_refuted.
Print Assumptions finish_before_sync.
Print Assumptions finish_after_sync.
Print Assumptions result_of_thread.
Print Assumptions finish_after_sync_refuted.
Print Assumptions pool_layout.
