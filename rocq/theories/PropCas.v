(** C144: compare and exchange (CasModel.v). *)
From Verif Require Import Base BaseLemmas CasModel.
Import ListNotations.

(** ** Specification: compare and exchange as one step *)

(** A call as it should take place: thread, expected and desired value, the value it finds. *)
Record atom := Atom { a_thread : nat; a_expected : Z; a_desired : Z; a_seen : Z }.
(** It finds the value of the variable, and exchanges it if it is the expected one. *)
Inductive sequential : Z -> list atom -> Z -> Prop :=
| seq_nil v : sequential v [] v
| seq_hit v l w i d : sequential v l w -> sequential v (l ++ [Atom i w d w]) d
| seq_miss v l w i e d : sequential v l w -> e <> w -> sequential v (l ++ [Atom i e d w]) w.
(** The calls of a thread and what they return. *)
Definition calls_of (i : nat) (l : list atom) : list (Z * Z * bool) := map (fun a => (a_expected a, a_desired a, a_seen a =? a_expected a)) (filter (fun a => Nat.eqb (a_thread a) i) l).
(** The calls of a thread that have returned. *)
Definition returned_of (i : nat) (l : list cas_done) : list (Z * Z * bool) := map (fun d => (d_expected d, d_desired d, d_result d)) (filter (fun d => Nat.eqb (d_thread d) i) l).
(** What the last call of a thread found; [x] if there is none. *)
Definition last_seen (i : nat) (x : Z) (l : list atom) : Z := last (map a_seen (filter (fun a => Nat.eqb (a_thread a) i) l)) x.
(** The calls thread [i] has yet to make are the rest of its program. *)
Definition todo_of (p : cas_place) : list cas_call := match p with Idle t | Loaded _ _ t | Failed _ _ _ t => t end.

(** Where a thread is, seen from the calls in order. *)
Definition at_place (i : nat) (s : cas_state) (l : list atom) : Prop :=
  match cas_at s i with
  | Idle _ => calls_of i l = returned_of i (cas_log s)
  | Loaded e d _ => calls_of i l = returned_of i (cas_log s) /\ cas_exp s i = e
  | Failed e d seen _ => calls_of i l = returned_of i (cas_log s) ++ [(e, d, false)] /\ last_seen i 0 l = seen /\ exists l', filter (fun a => Nat.eqb (a_thread a) i) l = l' ++ [Atom i e d seen]
  end.
(** Appending a call of thread [j]. *)
Lemma calls_snoc i l a : calls_of i (l ++ [a]) = if Nat.eqb (a_thread a) i then calls_of i l ++ [(a_expected a, a_desired a, a_seen a =? a_expected a)] else calls_of i l.
Proof. unfold calls_of. rewrite filter_app. cbn [List.filter]. destruct (Nat.eqb (a_thread a) i); [rewrite map_app; reflexivity|rewrite app_nil_r; reflexivity]. Qed.
(** Appending a returned call of thread [j]. *)
Lemma returned_snoc i l a : returned_of i (l ++ [a]) = if Nat.eqb (d_thread a) i then returned_of i l ++ [(d_expected a, d_desired a, d_result a)] else returned_of i l.
Proof. unfold returned_of. rewrite filter_app. cbn [List.filter]. destruct (Nat.eqb (d_thread a) i); [rewrite map_app; reflexivity|rewrite app_nil_r; reflexivity]. Qed.
(** What the last call found. *)
Lemma seen_snoc i x l a : last_seen i x (l ++ [a]) = if Nat.eqb (a_thread a) i then a_seen a else last_seen i x l.
Proof. unfold last_seen. rewrite filter_app. cbn [List.filter]. destruct (Nat.eqb (a_thread a) i); [rewrite map_app; cbn [map]; apply last_last|rewrite app_nil_r; reflexivity]. Qed.
(** The steps keep the order of calls. *)
Lemma cas_invariant v exp prog tr s : cas_run (cas_init v exp prog) tr s ->
  exists l, sequential v l (cas_var s) /\ (forall i, at_place i s l) /\ (forall i t, cas_at s i = Idle t -> filter (fun a => Nat.eqb (a_thread a) i) l <> [] -> cas_exp s i = last_seen i 0 l).
Proof.
  intros R. remember (cas_init v exp prog) as s0 eqn:E0. induction R as [s|s tr t i u R IH ST]; subst s.
  - exists []. split; [constructor|]. split; [intros i; reflexivity|]. intros i t _ N. exfalso. apply N. reflexivity.
  - destruct (IH eq_refl) as (l & S & P & X). clear IH R. inversion ST as [i' c todo s' A e|i' e d todo s' A V|i' e d todo s' A V|i' e d seen todo s' A]; subst i' s' u; pose proof (P i) as PI; unfold at_place in PI; rewrite A in PI; cbn [cas_var cas_exp cas_at cas_log].
    + exists l. split; [exact S|]. split.
      * intros j. unfold at_place. cbn [cas_at cas_exp cas_log]. unfold upd. destruct (Nat.eqb j i) eqn:J; [|exact (P j)]. apply Nat.eqb_eq in J. subst j. split; [exact PI|reflexivity].
      * intros j t0. cbn [cas_at cas_exp]. unfold upd. destruct (Nat.eqb j i) eqn:J; [discriminate|]. apply X.
    + destruct PI as (PI & EX). exists (l ++ [Atom i e d e]). split; [rewrite V in S; constructor; exact S|]. split.
      * intros j. unfold at_place. cbn [cas_at cas_exp cas_log]. unfold upd. rewrite calls_snoc, returned_snoc. cbn [a_thread a_expected a_desired a_seen d_thread d_expected d_desired d_result]. rewrite (Nat.eqb_sym i j). destruct (Nat.eqb j i) eqn:J.
        -- apply Nat.eqb_eq in J. subst j. rewrite PI, Z.eqb_refl. reflexivity.
        -- specialize (P j). unfold at_place in P. destruct (cas_at t j); [exact P|exact P|]. rewrite seen_snoc. cbn [a_thread]. rewrite (Nat.eqb_sym i j), J. rewrite filter_app. cbn [List.filter a_thread]. rewrite (Nat.eqb_sym i j), J, app_nil_r. exact P.
      * intros j t0. cbn [cas_at cas_exp]. unfold upd. rewrite seen_snoc. cbn [a_thread a_seen]. rewrite (Nat.eqb_sym i j). destruct (Nat.eqb j i) eqn:J; [apply Nat.eqb_eq in J; subst j; intros _ _; exact EX|]. rewrite filter_app. cbn [List.filter a_thread]. rewrite (Nat.eqb_sym i j), J, app_nil_r. apply X.
    + destruct PI as (PI & EX). exists (l ++ [Atom i e d (cas_var t)]). split; [apply seq_miss; [exact S|congruence]|]. split.
      * intros j. unfold at_place. cbn [cas_at cas_exp cas_log]. unfold upd. rewrite calls_snoc. cbn [a_thread a_expected a_desired a_seen]. rewrite (Nat.eqb_sym i j). destruct (Nat.eqb j i) eqn:J.
        -- apply Nat.eqb_eq in J. subst j. rewrite PI. rewrite (proj2 (Z.eqb_neq (cas_var t) e)) by exact V. split; [reflexivity|]. rewrite seen_snoc. cbn [a_thread]. rewrite Nat.eqb_refl. split; [reflexivity|]. eexists. rewrite filter_app. cbn [List.filter a_thread]. rewrite Nat.eqb_refl. reflexivity.
        -- specialize (P j). unfold at_place in P. destruct (cas_at t j); [exact P|exact P|]. rewrite seen_snoc. cbn [a_thread]. rewrite (Nat.eqb_sym i j), J. rewrite filter_app. cbn [List.filter a_thread]. rewrite (Nat.eqb_sym i j), J, app_nil_r. exact P.
      * intros j t0. cbn [cas_at cas_exp]. unfold upd. destruct (Nat.eqb j i) eqn:J; [discriminate|]. rewrite seen_snoc. cbn [a_thread]. rewrite (Nat.eqb_sym i j), J. rewrite filter_app. cbn [List.filter a_thread]. rewrite (Nat.eqb_sym i j), J, app_nil_r. apply X.
    + destruct PI as (PI & SE & _). exists l. split; [exact S|]. split.
      * intros j. unfold at_place. cbn [cas_at cas_exp cas_log]. unfold upd. rewrite returned_snoc. cbn [d_thread d_expected d_desired d_result]. rewrite (Nat.eqb_sym i j). destruct (Nat.eqb j i) eqn:J; [apply Nat.eqb_eq in J; subst j; exact PI|exact (P j)].
      * intros j t0. cbn [cas_at cas_exp]. unfold upd. destruct (Nat.eqb j i) eqn:J; [apply Nat.eqb_eq in J; subst j; intros _ _; symmetry; exact SE|]. apply X.
Qed.

(** C144: whatever the threads do, the calls take place one after the other: there is an order of them in which each finds the value of the variable and exchanges it exactly if it is
    the expected one, which leaves the variable as it is; each thread's calls that have returned are those of the order, in its order and with its results, except for at most one
    that has failed and not returned; and when a thread is between calls its expected value is what its last call found. *)
Theorem cas_atomic : forall v exp prog tr s, cas_run (cas_init v exp prog) tr s ->
  exists l, sequential v l (cas_var s) /\
    (forall i, calls_of i l = returned_of i (cas_log s) \/ exists e d, calls_of i l = returned_of i (cas_log s) ++ [(e, d, false)]) /\
    (forall i t, cas_at s i = Idle t -> calls_of i l = returned_of i (cas_log s) /\ (returned_of i (cas_log s) <> [] -> cas_exp s i = last_seen i 0 l)).
Proof.
  intros v exp prog tr s R. destruct (cas_invariant v exp prog tr s R) as (l & S & P & X). exists l. split; [exact S|]. split.
  - intros i. specialize (P i). unfold at_place in P. destruct (cas_at s i) as [t|e d t|e d seen t]; [left; exact P|left; exact (proj1 P)|right; exists e, d; exact (proj1 P)].
  - intros i t A. pose proof (P i) as PI. unfold at_place in PI. rewrite A in PI. split; [exact PI|]. intros N. apply (X i t A). intros F. apply N. rewrite <- PI. unfold calls_of. rewrite F. reflexivity.
Qed.
(** The number of calls that returned true. *)
Definition successes (l : list cas_done) : Z := Z.of_nat (length (filter d_result l)).
(** The log and the variable, step by step. *)
Lemma cas_counts (M D : Z) v exp prog tr s : 0 <= v < M -> (forall i c, In c (prog i) -> forall e, desired c e = (e + D) mod M) -> cas_run (cas_init v exp prog) tr s ->
  cas_var s = (v + D * successes (cas_log s)) mod M /\ (forall i, (forall c, In c (todo_of (cas_at s i)) -> forall e, desired c e = (e + D) mod M) /\ match cas_at s i with Loaded e d _ => d = (e + D) mod M | _ => True end).
Proof.
  intros VM H R. remember (cas_init v exp prog) as s0 eqn:E0. induction R as [s|s tr t i u R IH ST]; subst s.
  - split; [cbn [cas_init cas_var cas_log]; change (successes []) with 0; rewrite Z.mul_0_r, Z.add_0_r, Z.mod_small by exact VM; reflexivity|]. intros i. split; [exact (H i)|exact I].
  - destruct (IH eq_refl) as (V & T). clear IH R. pose proof (T i) as (TI & LI). inversion ST as [i' c todo s' A e|i' e d todo s' A W|i' e d todo s' A W|i' e d seen todo s' A]; subst i' s' u; rewrite A in TI, LI; cbn [todo_of] in TI; cbn [cas_var cas_exp cas_at cas_log].
    + split; [exact V|]. intros j. unfold upd. destruct (Nat.eqb j i); [|exact (T j)]. cbn [todo_of]. split; [intros c' I'; apply TI; right; exact I'|]. apply TI. left. reflexivity.
    + split; [|intros j; unfold upd; destruct (Nat.eqb j i); [split; [exact TI|exact I]|exact (T j)]]. unfold successes in *. rewrite filter_app, app_length. cbn [List.filter d_result length]. rewrite LI. rewrite <- W, V. rewrite Zplus_mod_idemp_l. f_equal. lia.
    + split; [exact V|]. intros j. unfold upd. destruct (Nat.eqb j i); [split; [exact TI|exact I]|exact (T j)].
    + split; [|intros j; unfold upd; destruct (Nat.eqb j i); [split; [exact TI|exact I]|exact (T j)]]. unfold successes in *. rewrite filter_app, app_length. cbn [List.filter d_result length]. rewrite V. f_equal. lia.
Qed.
(** C144: no exchange is lost: when every call wants to add D to the value it expects, modulo the size M of the type, the variable has grown by D for each call that returned true. *)
Theorem cas_counter : forall M D v exp prog tr s, 0 <= v < M -> (forall i c, In c (prog i) -> forall e, desired c e = (e + D) mod M) -> cas_run (cas_init v exp prog) tr s ->
  cas_var s = (v + D * Z.of_nat (length (filter d_result (cas_log s)))) mod M.
Proof. intros M D v exp prog tr s VM H R. exact (proj1 (cas_counts M D v exp prog tr s VM H R)). Qed.
(** C144: a call that runs alone from its load on returns whether the variable has the expected value, and leaves the value found as the expected one. *)
Theorem cas_alone : forall i c todo s, cas_at s i = Idle (c :: todo) -> let e := match set_expected c with Some e => e | None => cas_exp s i end in
  exists tr u, cas_run s tr u /\ Forall (eq i) tr /\ cas_at u i = Idle todo /\ cas_exp u i = cas_var s /\ cas_var u = (if cas_var s =? e then desired c e else cas_var s) /\
    cas_log u = cas_log s ++ [Done i e (desired c e) (cas_var s =? e)].
Proof.
  intros i c todo s A e. pose proof (cas_load i c todo s A) as L. cbv zeta in L. fold e in L. set (s1 := CS (cas_var s) (upd (cas_exp s) i e) (upd (cas_at s) i (Loaded e (desired c e) todo)) (cas_log s)) in L.
  assert (A1 : cas_at s1 i = Loaded e (desired c e) todo) by (cbn; unfold upd; rewrite Nat.eqb_refl; reflexivity).
  assert (R1 : cas_run s [i] s1) by (apply (cas_run_snoc s [] s i s1); [constructor|exact L]).
  destruct (cas_var s =? e) eqn:E.
  - apply Z.eqb_eq in E. exists [i; i]. eexists. split; [apply (cas_run_snoc s [i] s1 i); [exact R1|apply (cas_hit i e _ todo s1 A1); exact E]|]. split; [repeat constructor|]. cbn. unfold upd. rewrite Nat.eqb_refl. split; [reflexivity|]. split; [symmetry; exact E|]. split; reflexivity.
  - apply Z.eqb_neq in E. assert (S2 := cas_miss i e _ todo s1 A1 E). set (s2 := CS _ _ _ _) in S2. assert (A2 : cas_at s2 i = Failed e (desired c e) (cas_var s) todo) by (cbn; unfold upd; rewrite Nat.eqb_refl; reflexivity).
    exists [i; i; i]. eexists. split; [apply (cas_run_snoc s [i; i] s2 i); [apply (cas_run_snoc s [i] s1 i); [exact R1|exact S2]|apply (cas_store i e _ _ todo s2 A2)]|]. split; [repeat constructor|]. cbn. unfold upd. rewrite Nat.eqb_refl. split; [reflexivity|]. split; [reflexivity|]. split; reflexivity.
Qed.
(** A run from its first step on. *)
Lemma run_cons i s t l u : cas_step i s t -> cas_run t l u -> cas_run s (i :: l) u.
Proof. intros S R. induction R as [t|t l v j u R IH ST]; [apply (cas_run_snoc s [] s i t); [constructor|exact S]|]. apply (cas_run_snoc s (i :: l) v j u); [exact (IH S)|exact ST]. Qed.
(** Two threads that count: the second loads before the first exchanges, fails, takes the value it found and succeeds. *)
Example cas_holds : let inc e := Call e (fun x => (x + 1) mod 256) in exists s, cas_run (cas_init 255 (fun _ => 0) (fun i => match i with 0%nat => [inc (Some 255)] | 1%nat => [inc (Some 255); inc None] | _ => [] end)) [0; 1; 0; 1; 1; 1; 1]%nat s /\
  cas_var s = 1 /\ cas_log s = [Done 0 255 0 true; Done 1 255 0 false; Done 1 0 1 true] /\ cas_exp s 1%nat = 0.
Proof.
  intros inc. set (p := fun i => match i with 0%nat => [inc (Some 255)] | 1%nat => [inc (Some 255); inc None] | _ => [] end). set (a0 := fun i => Idle (p i)). set (e0 := fun _ : nat => 0).
  set (a1 := upd a0 0%nat (Loaded 255 0 [])). set (a2 := upd a1 1%nat (Loaded 255 0 [inc None])). set (a3 := upd a2 0%nat (Idle [])). set (a4 := upd a3 1%nat (Failed 255 0 0 [inc None])).
  set (a5 := upd a4 1%nat (Idle [inc None])). set (a6 := upd a5 1%nat (Loaded 0 1 [])). set (a7 := upd a6 1%nat (Idle [])).
  set (e1 := upd e0 0%nat 255). set (e2 := upd e1 1%nat 255). set (e5 := upd e2 1%nat 0). set (e6 := upd e5 1%nat 0).
  exists (CS 1 e6 a7 [Done 0 255 0 true; Done 1 255 0 false; Done 1 0 1 true]). split; [|repeat split].
  apply (run_cons 0 _ (CS 255 e1 a1 [])); [exact (cas_load 0 (inc (Some 255)) [] (CS 255 e0 a0 []) eq_refl)|]. apply (run_cons 1 _ (CS 255 e2 a2 [])); [exact (cas_load 1 (inc (Some 255)) [inc None] (CS 255 e1 a1 []) eq_refl)|].
  apply (run_cons 0 _ (CS 0 e2 a3 [Done 0 255 0 true])); [exact (cas_hit 0 255 0 [] (CS 255 e2 a2 []) eq_refl eq_refl)|]. apply (run_cons 1 _ (CS 0 e2 a4 [Done 0 255 0 true])); [refine (cas_miss 1 255 0 [inc None] (CS 0 e2 a3 [Done 0 255 0 true]) eq_refl _); discriminate|].
  apply (run_cons 1 _ (CS 0 e5 a5 [Done 0 255 0 true; Done 1 255 0 false])); [exact (cas_store 1 255 0 0 [inc None] (CS 0 e2 a4 [Done 0 255 0 true]) eq_refl)|].
  apply (run_cons 1 _ (CS 0 e6 a6 [Done 0 255 0 true; Done 1 255 0 false])); [exact (cas_load 1 (inc None) [] (CS 0 e5 a5 [Done 0 255 0 true; Done 1 255 0 false]) eq_refl)|].
  apply (run_cons 1 _ (CS 1 e6 a7 [Done 0 255 0 true; Done 1 255 0 false; Done 1 0 1 true])); [exact (cas_hit 1 0 1 [] (CS 0 e6 a6 [Done 0 255 0 true; Done 1 255 0 false]) eq_refl eq_refl)|]. constructor.
Qed.

Print Assumptions cas_atomic.
Print Assumptions cas_counter.
Print Assumptions cas_alone.
