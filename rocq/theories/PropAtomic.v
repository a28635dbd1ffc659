(** Properties C60 (spinlock) and C61 (compare-and-swap loops). *)
From Verif Require Import Base AtomicModel.

Lemma upd_same {A} (f : nat -> A) i x : upd f i x i = x.
Proof. unfold upd. rewrite Nat.eqb_refl. reflexivity. Qed.
Lemma upd_other {A} (f : nat -> A) i j x : j <> i -> upd f i x j = f j.
Proof. intros. unfold upd. destruct (Nat.eqb j i) eqn:E; [apply Nat.eqb_eq in E; contradiction|reflexivity]. Qed.
Ltac who j i := destruct (Nat.eq_dec j i) as [->|?]; [rewrite upd_same in *|rewrite upd_other in * by auto].

(** * C60 *)
(** Specification: the thread is between a returned lock and the end of its unlock. *)
Definition holding (p : place) : Prop := match p with Inside _ | Read _ _ | Leave => True | _ => False end.
Definition waiting (p : place) : Prop := match p with Try _ | Spin _ => True | _ => False end.

(** The lock byte is 0 or 1, it is 0 exactly when nobody holds the lock, and holders are unique. *)
Definition lock_inv (v : Z) (s : lock_state) : Prop :=
  (flag s = 0 \/ flag s = 1) /\
  (flag s = 0 -> forall i, ~ holding (at_ s i)) /\
  (flag s = 1 -> exists i, holding (at_ s i)) /\
  (forall i j, holding (at_ s i) -> holding (at_ s j) -> i = j) /\
  (forall i f x, at_ s i = Read f x -> x = data s) /\
  data s = fold_left (fun a f => f a) (done s) v.

Lemma lock_inv_step v s t : lock_inv v s -> lock_step s t -> lock_inv v t.
Proof.
  intros (H1 & H2 & H3 & H4 & H5 & H6) St.
  inversion St as [i f ? E|i f ? E F|i f ? E F|i f ? E F|i f ? E F|i f ? E|i f x ? E|i ? E]; subst; clear St; unfold lock_inv; cbn [flag data at_ done].
  - (* call *) split; [auto|]. split. { intros F j. who j i; [cbn; tauto|apply H2; auto]. }
    split. { intros F. destruct (H3 F) as [j Hj]. exists j. who j i; auto. rewrite E in Hj. destruct Hj. }
    split. { intros j k. who j i; [cbn; tauto|]. who k i; [cbn; tauto|]. apply H4. }
    split; [|auto]. intros j g x. who j i; [discriminate|]. apply H5.
  - (* acquired *) specialize (H2 F). split; [auto|]. split; [discriminate|]. split. { intros _. exists i. rewrite upd_same. exact I. }
    split. { intros j k. who j i; who k i; auto; intros A B; [destruct (H2 _ B)|destruct (H2 _ A)]. }
    split; [|auto]. intros j g x. who j i; [discriminate|]. apply H5.
  - (* held *) assert (F1 : flag s = 1) by tauto. destruct (H3 F1) as [k Hk].
    split; [auto|]. split; [discriminate|]. split. { intros _. exists k. who k i; auto. rewrite E in Hk. destruct Hk. }
    split. { intros j m. who j i; [cbn; tauto|]. who m i; [cbn; tauto|]. apply H4. }
    split; [|auto]. intros j g x. who j i; [discriminate|]. apply H5.
  - (* spin *) split; [auto|]. split. { intros G j. who j i; [cbn; tauto|apply H2; auto]. }
    split. { intros G. destruct (H3 G) as [j Hj]. exists j. who j i; auto. rewrite E in Hj. destruct Hj. }
    split. { intros j k. who j i; [cbn; tauto|]. who k i; [cbn; tauto|]. apply H4. }
    split; [|auto]. intros j g x. who j i; [discriminate|]. apply H5.
  - split; [auto|]. split. { intros G j. who j i; [cbn; tauto|apply H2; auto]. }
    split. { intros G. contradiction. }
    split. { intros j k. who j i; [cbn; tauto|]. who k i; [cbn; tauto|]. apply H4. }
    split; [|auto]. intros j g x. who j i; [discriminate|]. apply H5.
  - (* read *) assert (Hi : holding (at_ s i)) by (rewrite E; exact I).
    split; [auto|]. split. { intros G. destruct (H2 G i Hi). } split. { intros G. exists i. rewrite upd_same. exact I. }
    split. { intros j k. who j i; who k i; auto. }
    split; [|auto]. intros j g x. who j i; [intros X; congruence|]. apply H5.
  - (* write *) assert (Hi : holding (at_ s i)) by (rewrite E; exact I).
    split; [auto|]. split. { intros G. destruct (H2 G i Hi). } split. { intros G. exists i. rewrite upd_same. exact I. }
    split. { intros j k. who j i; who k i; auto. }
    split. { intros j g y. who j i; [discriminate|]. intros X. assert (j = i); [|contradiction]. apply H4; auto. rewrite X. exact I. }
    rewrite fold_left_app. cbn. rewrite (H5 _ _ _ E), H6. reflexivity.
  - (* unlock *) assert (Hi : holding (at_ s i)) by (rewrite E; exact I).
    assert (N : forall j, j <> i -> ~ holding (at_ s j)) by (intros j Hj X; apply Hj, H4; auto).
    split; [auto|]. split. { intros _ j. who j i; [cbn; tauto|auto]. } split; [discriminate|].
    split. { intros j k. who j i; [cbn; tauto|]. intros A. destruct (N j ltac:(auto) A). }
    split; [|auto]. intros j g x. who j i; [discriminate|]. apply H5.
Qed.
Lemma lock_inv_reach v s : steps lock_step (lock_init v) s -> lock_inv v s.
Proof.
  remember (lock_init v) as s0. induction 1; [subst|eapply lock_inv_step; eauto].
  unfold lock_inv, lock_init. cbn. repeat split; auto; try discriminate; intros; try contradiction; try discriminate.
Qed.

(** At most one thread is between lock and unlock, in every reachable state. *)
Theorem spinlock_exclusion : forall v s i j, steps lock_step (lock_init v) s ->
  holding (at_ s i) -> holding (at_ s j) -> i = j.
Proof. intros v s i j H. destruct (lock_inv_reach v s H) as (_ & _ & _ & X & _). apply X. Qed.

(** No update made under the lock is lost: the variable holds the updates applied one after the other. *)
Theorem spinlock_updates : forall v s, steps lock_step (lock_init v) s -> data s = fold_left (fun a f => f a) (done s) v.
Proof. intros v s H. destruct (lock_inv_reach v s H) as (_ & _ & _ & _ & _ & X). exact X. Qed.

(** When nobody holds the lock a waiting thread can take it, alone, in at most two steps. *)
Theorem spinlock_progress : forall v s i, steps lock_step (lock_init v) s -> (forall j, ~ holding (at_ s j)) -> waiting (at_ s i) ->
  exists t, steps lock_step s t /\ holding (at_ t i) /\ (forall j, j <> i -> at_ t j = at_ s j).
Proof.
  intros v s i H N W. destruct (lock_inv_reach v s H) as (F & _ & X & _).
  assert (F0 : flag s = 0). { destruct F as [F|F]; auto. destruct (X F) as [k Hk]. destruct (N k Hk). }
  destruct (at_ s i) as [|f|f|f|f x|] eqn:E; try destruct W.
  - exists (LS 1 (data s) (upd (at_ s) i (Inside f)) (done s)). split.
    + eapply steps_cons; [apply steps_refl|]. eapply tas_free; eauto.
    + cbn. rewrite upd_same. split; [exact I|]. intros. apply upd_other. auto.
  - exists (LS 1 (data s) (upd (upd (at_ s) i (Try f)) i (Inside f)) (done s)). split.
    + eapply steps_cons; [eapply steps_cons; [apply steps_refl|]|].
      * eapply spin_free; eauto. congruence.
      * eapply (tas_free i f (LS (flag s) (data s) (upd (at_ s) i (Try f)) (done s))); cbn; auto. apply upd_same.
    + cbn. rewrite upd_same. split; [exact I|]. intros. rewrite !upd_other by auto. reflexivity.
Qed.
(** A holder can always leave, so the lock is never stuck. *)
Theorem spinlock_release : forall s i, holding (at_ s i) ->
  exists t, steps lock_step s t /\ flag t = 0 /\ at_ t i = Outside.
Proof.
  intros s i H.
  assert (L : forall s, at_ s i = Leave -> exists t, steps lock_step s t /\ flag t = 0 /\ at_ t i = Outside).
  { intros u E. eexists. split; [eapply steps_cons; [apply steps_refl|apply (unlock i); exact E]|]. cbn. rewrite upd_same. auto. }
  assert (R : forall s f x, at_ s i = Read f x -> exists t, steps lock_step s t /\ flag t = 0 /\ at_ t i = Outside).
  { intros u f x E. destruct (L (LS (flag u) (f x) (upd (at_ u) i Leave) (done u ++ [f]))) as (t & A & B). { cbn. apply upd_same. }
    exists t. split; auto. clear B. revert A. generalize (section_write i f x u E). clear.
    intros S A. remember (LS (flag u) (f x) (upd (at_ u) i Leave) (done u ++ [f])) as m. induction A; subst.
    - eapply steps_cons; [apply steps_refl|auto].
    - eapply steps_cons; [apply IHA; auto|auto]. }
  destruct (at_ s i) as [|f|f|f|f x|] eqn:E; try destruct H; eauto.
  destruct (R (LS (flag s) (data s) (upd (at_ s) i (Read f (data s))) (done s)) f (data s)) as (t & A & B). { cbn. apply upd_same. }
  exists t. split; auto. clear B. revert A. generalize (section_read i f s E). clear.
  intros S A. remember (LS (flag s) (data s) (upd (at_ s) i (Read f (data s))) (done s)) as m. induction A; subst.
  - eapply steps_cons; [apply steps_refl|auto].
  - eapply steps_cons; [apply IHA; auto|auto].
Qed.
(** Two threads, one inside and one spinning: reachable, so the hypotheses above are met. *)
Example spinlock_case : exists s, steps lock_step (lock_init 5) s /\ holding (at_ s 0%nat) /\ waiting (at_ s 1%nat) /\ flag s = 1.
Proof.
  eexists. split.
  - eapply steps_cons; [eapply steps_cons; [eapply steps_cons; [eapply steps_cons; [apply steps_refl|]|]|]|].
    + apply (call_lock 0 Z.succ). reflexivity.
    + apply (call_lock 1 Z.pred). reflexivity.
    + apply (tas_free 0 Z.succ); reflexivity.
    + apply (tas_held 1 Z.pred); [reflexivity|discriminate].
  - repeat split.
Qed.

(** * C61 *)
(** Specification: what one operation leaves in a variable of [w] bits that held [v], and a sequential history of operations
    on one variable, each returning the value before it. *)
Definition effect (w : Z) (o : rmw) (v r : Z) : Prop :=
  0 <= r < 2 ^ w /\
  match o with
  | Xchg src => exists q, r = src + q * 2 ^ w
  | Add src => exists q, r = v + src + q * 2 ^ w
  | Sub src => exists q, r + src = v + q * 2 ^ w
  | And src => forall k, 0 <= k < w -> Z.testbit r k = (Z.testbit v k && Z.testbit src k)%bool
  | Or src => forall k, 0 <= k < w -> Z.testbit r k = (Z.testbit v k || Z.testbit src k)%bool
  | Xor src => forall k, 0 <= k < w -> Z.testbit r k = xorb (Z.testbit v k) (Z.testbit src k)
  end.
Inductive sequential (w : Z) : Z -> list (nat * rmw * Z) -> Z -> Prop :=
| seq_nil v : sequential w v [] v
| seq_cons v i o r h v' : effect w o v r -> sequential w r h v' -> sequential w v ((i, o, v) :: h) v'.
Lemma effect_new w o v : 0 <= w -> effect w o v (new_value w o v).
Proof.
  intros Hw. assert (P : 0 < 2 ^ w) by (apply Z.pow_pos_nonneg; lia). split; [apply Z.mod_pos_bound; auto|].
  assert (M : forall x, x mod 2 ^ w = x + - (x / 2 ^ w) * 2 ^ w) by (intros x; pose proof (Z.div_mod x (2 ^ w)); lia).
  destruct o; unfold new_value; try (intros k Hk; rewrite Z.mod_pow2_bits_low by lia).
  - eexists. apply M.
  - eexists. apply M.
  - exists (- ((v - src) / 2 ^ w)). rewrite M. lia.
  - apply Z.land_spec.
  - apply Z.lxor_spec.
  - apply Z.lor_spec.
Qed.
(** An operation has one outcome. *)
Theorem effect_unique : forall w o v r r', 0 <= w -> effect w o v r -> effect w o v r' -> r = r'.
Proof.
  intros w o v r r' Hw (B & E) (B' & E').
  assert (C : forall q q' x, r = x + q * 2 ^ w -> r' = x + q' * 2 ^ w -> r = r').
  { intros q q' x -> ->. assert (q = q') by nia. congruence. }
  assert (T : (forall k, 0 <= k < w -> Z.testbit r k = Z.testbit r' k) -> r = r').
  { intros H. apply Z.bits_inj'. intros n Hn. destruct (Z_lt_dec n w); [auto|].
    rewrite <- (Z.mod_small r (2 ^ w)), <- (Z.mod_small r' (2 ^ w)) by auto. rewrite !Z.mod_pow2_bits_high by lia. reflexivity. }
  destruct o; try (apply T; intros k Hk; rewrite E, E' by auto; reflexivity).
  - destruct E as [q E], E' as [q' E']. eapply C; eauto.
  - destruct E as [q E], E' as [q' E']. eapply C; eauto.
  - destruct E as [q E], E' as [q' E']. apply (C q q' (v - src)); lia.
Qed.
(** The operations of thread [i] in a history. *)
Definition of_thread (i : nat) (h : list (nat * rmw * Z)) : list rmw :=
  map (fun e => snd (fst e)) (filter (fun e => Nat.eqb (fst (fst e)) i) h).
(** What a thread still has to complete. *)
Definition pending (c : caller) : list rmw :=
  match c with Between l => l | Loading o l => o :: l | Swapping o _ _ l => o :: l end.

Lemma sequential_snoc w v h x i o r : sequential w v h x -> effect w o x r -> sequential w v (h ++ [(i, o, x)]) r.
Proof. induction 1; intros E; cbn; [apply seq_cons with (r := r); [auto|constructor]|]. eapply seq_cons; eauto. Qed.
Lemma of_thread_app i a b : of_thread i (a ++ b) = of_thread i a ++ of_thread i b.
Proof. unfold of_thread. rewrite filter_app, map_app. reflexivity. Qed.

Definition rmw_inv (w v : Z) (prog : nat -> list rmw) (s : rmw_state) : Prop :=
  sequential w v (calls s) (var s) /\
  (forall i, of_thread i (calls s) ++ pending (caller_of s i) = prog i) /\
  (forall i o old new l, caller_of s i = Swapping o old new l -> new = new_value w o old).
Lemma rmw_inv_step w v prog s t : 0 <= w -> rmw_inv w v prog s -> rmw_step w s t -> rmw_inv w v prog t.
Proof.
  intros Hw (H1 & H2 & H3) St. inversion St as [i o l ? E|i o l x ? E|i o l old new ? E F|i o l old new ? E F]; subst; clear St; unfold rmw_inv; cbn [var caller_of calls].
  - split; [auto|]. split. { intros j. who j i; [rewrite <- (H2 i), E; reflexivity|auto]. }
    intros j ? ? ? ?. who j i; [discriminate|apply H3].
  - split; [auto|]. split. { intros j. who j i; [rewrite <- (H2 i), E; reflexivity|auto]. }
    intros j ? ? ? ?. who j i; [|apply H3]. intros X. injection X as <- <- <- <-. reflexivity.
  - rewrite (H3 _ _ _ _ _ E). split; [apply sequential_snoc; [auto|apply effect_new; auto]|]. split.
    { intros j. rewrite of_thread_app, <- app_assoc. rewrite <- (H2 j). f_equal. unfold of_thread. cbn. who j i.
      - rewrite Nat.eqb_refl, E. reflexivity.
      - destruct (Nat.eqb i j) eqn:Q; [apply Nat.eqb_eq in Q; congruence|reflexivity]. }
    intros j ? ? ? ?. who j i; [discriminate|apply H3].
  - split; [auto|]. split. { intros j. who j i; [rewrite <- (H2 i), E; reflexivity|auto]. }
    intros j ? ? ? ?. who j i; [discriminate|apply H3].
Qed.
Lemma rmw_inv_reach w v prog s : 0 <= w -> steps (rmw_step w) (rmw_init v prog) s -> rmw_inv w v prog s.
Proof.
  intros Hw. remember (rmw_init v prog) as s0. induction 1; [subst|eapply rmw_inv_step; eauto].
  split; [constructor|]. split; [reflexivity|discriminate].
Qed.

(** The completed calls, in the order of their successful compare-and-swap (which lies between call and return), are a
    sequential history that ends in the variable's value, and each thread's calls appear in its program order. *)
Theorem cas_loops_atomic : forall w v prog s, 0 <= w -> steps (rmw_step w) (rmw_init v prog) s ->
  sequential w v (calls s) (var s) /\ forall i, of_thread i (calls s) ++ pending (caller_of s i) = prog i.
Proof. intros w v prog s Hw H. destruct (rmw_inv_reach w v prog s Hw H) as (A & B & _). auto. Qed.

(** When everything has returned, all calls of all threads are in the history. *)
Theorem cas_loops_complete : forall w v prog s, 0 <= w -> steps (rmw_step w) (rmw_init v prog) s ->
  (forall i, caller_of s i = Between []) -> forall i, of_thread i (calls s) = prog i.
Proof.
  intros w v prog s Hw H F i. destruct (cas_loops_atomic w v prog s Hw H) as [_ B]. specialize (B i). rewrite F in B. cbn in B.
  rewrite app_nil_r in B. exact B.
Qed.

(** Lock-freedom: with whole reads, a compare-and-swap only fails when another call completed after this thread's read. *)
Theorem cas_failure_means_progress : forall w s0 i o l old new s,
  caller_of s0 i = Swapping o old new l -> var s0 = old ->
  steps (rmw_step_whole w) s0 s -> caller_of s i = Swapping o old new l -> var s <> old ->
  exists h, calls s = calls s0 ++ h /\ h <> [].
Proof.
  intros w s0 i o l old new s E0 V0 St E V.
  assert (G : (var s = var s0 \/ exists h, calls s = calls s0 ++ h /\ h <> []) /\ exists h, calls s = calls s0 ++ h).
  { clear E V. induction St as [|s0 t u St IH R]; [split; [auto|exists []; symmetry; apply app_nil_r]|].
    destruct (IH E0 V0) as [A [h B]]. inversion R; subst; cbn [var calls]; split; try (exists h; exact B); try exact A.
    - right. exists (h ++ [(i0, o0, var t)]). rewrite B, app_assoc. split; auto. destruct h; discriminate.
    - exists (h ++ [(i0, o0, var t)]). rewrite B, app_assoc. reflexivity. }
  destruct G as [[A|A] _]; [congruence|exact A].
Qed.
(** A thread that is alone completes its call in at most three steps. *)
Theorem cas_alone_completes : forall w s i o l, 0 <= w -> caller_of s i = Loading o l ->
  exists t, steps (rmw_step_whole w) s t /\ caller_of t i = Between l /\ effect w o (var s) (var t) /\ calls t = calls s ++ [(i, o, var s)].
Proof.
  intros w s i o l Hw E. exists (RS (new_value w o (var s)) (upd (upd (caller_of s) i (Swapping o (var s) (new_value w o (var s)) l)) i (Between l)) (calls s ++ [(i, o, var s)])). split.
  - eapply steps_cons; [eapply steps_cons; [apply steps_refl|]|].
    + eapply (whole_load w i); eauto.
    + eapply (whole_swap w i o l _ _ (RS _ _ _)); cbn; [apply upd_same|reflexivity].
  - cbn [caller_of var calls]. rewrite upd_same. split; [auto|]. split; [apply effect_new; auto|auto].
Qed.
(** fetch_sub wraps: 16-bit 3 - 5. *)
Example cas_case : sequential 16 3 [(0%nat, Sub 5, 3); (1%nat, And 255, 65534)] 254.
Proof.
  apply seq_cons with (r := 65534); [split; [lia|exists 1; reflexivity]|]. apply seq_cons with (r := 254); [split; [lia|]|apply seq_nil].
  intros k Hk. replace 254 with (Z.land 65534 255) by reflexivity. apply Z.land_spec.
Qed.
Example cas_run : exists s, steps (rmw_step 16) (rmw_init 3 (fun i => match i with O => [Sub 5] | 1%nat => [And 255] | _ => [] end)) s /\
  calls s = [(1%nat, And 255, 3)] /\ caller_of s 0%nat = Loading (Sub 5) [].
Proof.
  eexists. split.
  - eapply steps_cons; [eapply steps_cons; [eapply steps_cons; [eapply steps_cons; [eapply steps_cons; [eapply steps_cons; [apply steps_refl|]|]|]|]|]|].
    + apply (rmw_call 16 0 (Sub 5) []). reflexivity.
    + apply (rmw_load 16 0 (Sub 5) [] 77). reflexivity.
    + apply (rmw_call 16 1 (And 255) []). reflexivity.
    + apply (rmw_load 16 1 (And 255) [] 3). reflexivity.
    + eapply (rmw_swap 16 1 (And 255) []); reflexivity.
    + eapply (rmw_fail 16 0 (Sub 5) []); [reflexivity|vm_compute; discriminate].
  - split; reflexivity.
Qed.

Print Assumptions spinlock_exclusion. Print Assumptions spinlock_updates. Print Assumptions spinlock_progress. Print Assumptions spinlock_release.
Print Assumptions effect_unique. Print Assumptions cas_loops_atomic. Print Assumptions cas_loops_complete. Print Assumptions cas_failure_means_progress. Print Assumptions cas_alone_completes.
