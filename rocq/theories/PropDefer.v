(** C25-C32 and C66: deferred functions, scope-bound memory, the growable array. *)
From Verif Require Import DeferCancel DeferNested.

(** A scope nothing has been done to yet: one made by unique_init, or the
    thread's own one made by raii_init. *)
Definition fresh (s : scope) : Prop := exists a st n, s = unique_init a st n \/ s = raii_init a st n.
Lemma fresh_holds s : fresh s -> holds s [] /\ w_type s = RAII_DEF_ARR /\ protector s = None /\ trace s = [] /\
  base_ok s /\ w_tail s = 0 /\ is_protected s = false.
Proof.
  intros (a & st & n & [-> | ->]); (split; [apply holds_init; reflexivity|]);
  repeat split; try reflexivity; cbn; lia.
Qed.

(** The environment of the examples: the n-th block of up to 64 kB is at 65536 n. *)
Definition tidy (fs : list Z) (ac : Z -> Z -> list (Z * Z * Z)) : env :=
  Env (fun t n => if (0 <? n) && (n <? 65536) && (Z.of_nat t <? 1000) then 65536 * (1 + Z.of_nat t) else 0)
      (fun _ _ => 170) (fun f => existsb (Z.eqb f) fs) ac.
Lemma tidy_fits fs ac : fits (tidy fs ac).
Proof. intros t n Hn. cbn [tidy place]. destruct ((0 <? n) && (n <? 65536) && (Z.of_nat t <? 1000)) eqn:E; [right|left; auto]. lia. Qed.
Lemma tidy_aligned fs ac : aligned (tidy fs ac).
Proof. intros t n. cbn [tidy place]. destruct ((0 <? n) && (n <? 65536) && (Z.of_nat t <? 1000)) eqn:E; intros; lia. Qed.
Definition nothing : Z -> Z -> list (Z * Z * Z) := fun _ _ => [].
Definition user0 : Z -> Z := fun _ => 0.
Definition steps (n : nat) : list (Z * Z * Z) := map (fun k => (100, Z.of_nat k, 0)) (seq 0 n).

(** RAII_FREE on each of the addresses; a NULL address frees nothing. *)
Definition returned (l : list Z) : list ev := map Freed (filter (fun a => negb (a =? 0)) l).
Lemma returned_one a : returned [a] = freed a.
Proof. unfold returned, freed. cbn. destruct (a =? 0); reflexivity. Qed.
(** The address of the scope's protector, NULL when there is none. *)
Definition protector_at (s : scope) : Z := match protector s with Some p => p_addr p | None => 0 end.
Lemma returned_two s a : returned [protector_at s; a] = prot_free s ++ freed a.
Proof. unfold returned, freed, prot_free, freed, protector_at. destruct (protector s) as [p|]; cbn; [destruct (p_addr p =? 0), (a =? 0) | destruct (a =? 0)]; reflexivity. Qed.
Lemma returned_no_call l f d : ~ In (Call f d) (returned l).
Proof. unfold returned. rewrite in_map_iff. intros (x & X & _). discriminate. Qed.

(** * C25 *)
(** Whatever the allocator does ([m] says which defers it allowed; the others
    returned (size_t)-1), with or without a pending error, the release calls the
    accepted functions once each, newest first, and then frees the block that held them, once. *)
Theorem release_lifo : forall E user h s0 er pa,
  fits E -> Forall wordy h -> Forall (quiet E) h -> fresh s0 ->
  exists is s m s',
    defers E h s0 = Ok (is, s) /\ length m = length h /\
    (forall k, nth_error m k = Some false -> nth_error is k = Some 18446744073709551615) /\
    raii_deferred_count s = Z.of_nat (length (kept m h)) /\
    raii_deferred_free E user (set_err er pa s) = Ok s' /\
    trace s' = map (fun e => Call (fst (fst e)) (snd (fst e))) (rev (kept m h)) ++ returned [w_base s].
Proof.
  intros E user h s0 er pa F W Q Fr. destruct (fresh_holds s0 Fr) as (H & T & P & Tr & _ & _ & Ip).
  destruct (defers_ok E F h s0 [] H W) as (is & s & m & D & _ & L & Fm & Tt & _ & H2 & K). cbn [app] in H2.
  assert (Qk : Forall (quiet E) (kept m h)).
  { clear - Q. revert m. induction Q; destruct m; cbn; auto. destruct b; auto. }
  assert (Hs : holds (set_err er pa s) (kept m h)) by exact H2.
  assert (Ft : w_type s = w_type s0) by apply Fm. assert (Fp : is_protected s = is_protected s0) by apply Fm.
  assert (Fq : protector s = protector s0) by apply Fm.
  destruct (free_ok E user (set_err er pa s) (kept m h) Hs) as (s' & E1 & T1 & _).
  - cbn. congruence.
  - exact Qk.
  - intros _. right. left. cbn. congruence.
  - exists is, s, m, s'. repeat (split; [first [assumption | apply H2] |]).
    rewrite T1. unfold prot_free. cbn [set_err trace w_base protector]. rewrite Tt, Tr, Fq, P, returned_one. reflexivity.
Qed.
(** When every defer was accepted: all of them. *)
Theorem release_lifo_all : forall E user h s0 is s er pa,
  fits E -> Forall wordy h -> Forall (quiet E) h -> fresh s0 ->
  defers E h s0 = Ok (is, s) -> raii_deferred_count s = Z.of_nat (length h) ->
  exists s', raii_deferred_free E user (set_err er pa s) = Ok s' /\
    trace s' = map (fun e => Call (fst (fst e)) (snd (fst e))) (rev h) ++ returned [w_base s].
Proof.
  intros E user h s0 is s er pa F W Q Fr D C.
  destruct (release_lifo E user h s0 er pa F W Q Fr) as (is' & s1 & m & s' & D' & L & _ & C' & E1 & T1).
  rewrite D in D'. injection D' as <- <-. exists s'. split; [exact E1|]. rewrite T1.
  replace (kept m h) with h; [reflexivity|].
  assert (X : length (kept m h) = length h) by lia. clear - L X. revert m L X.
  assert (Y : forall (h : list (Z*Z*Z)) m, (length (kept m h) <= length h)%nat).
  { intros hh; induction hh as [|? ? IHh]; destruct m; cbn; try lia. specialize (IHh m). destruct b; cbn; lia. }
  induction h as [|x h IH]; destruct m; cbn; intros; try discriminate; auto.
  pose proof (Y h m). destruct b; cbn in *; [f_equal; apply IH; lia | lia].
Qed.
(** raii_delete: the same calls, and afterwards the scope object is freed (unless it is the thread's own). *)
Theorem delete_lifo : forall E user h s0 is s er pa,
  fits E -> Forall wordy h -> Forall (quiet E) h -> fresh s0 ->
  defers E h s0 = Ok (is, s) -> raii_deferred_count s = Z.of_nat (length h) ->
  exists s', raii_delete E user (set_err er pa s) = Ok s' /\ live s' = is_tls s0 /\
    trace s' = map (fun e => Call (fst (fst e)) (snd (fst e))) (rev h) ++ returned [w_base s] ++ (if is_tls s0 then [] else [Freed (self s0)]).
Proof.
  intros E user h s0 is s er pa F W Q Fr D C. destruct (fresh_holds s0 Fr) as (H & T & P & Tr & _ & _ & Ip).
  destruct (defers_ok E F h s0 [] H W) as (is2 & s2 & m & D2 & _ & _ & Fm & Tt & _). rewrite D in D2. injection D2 as <- <-.
  destruct (defers_count E h F W _ _ _ _ H D) as [_ Hh]. specialize (Hh C). cbn [app] in Hh.
  assert (Ft : w_type s = w_type s0) by apply Fm. assert (Fp : is_protected s = is_protected s0) by apply Fm.
  assert (Fq : protector s = protector s0) by apply Fm. assert (Fs : self s = self s0) by apply Fm.
  assert (Fi : is_tls s = is_tls s0) by apply Fm.
  destruct (free_ok E user (set_err er pa s) h Hh) as (s' & E1 & T1 & (R1 & _) & S1 & S2).
  - cbn. congruence.
  - exact Q.
  - intros _. right. left. cbn. congruence.
  - unfold raii_delete. rewrite E1. cbn [bind]. cbn [set_err is_tls self trace w_base prot_free protector] in *.
    unfold prot_free in T1. cbn [set_err protector] in T1. rewrite Fq, P, Tt, Tr in T1. cbn [app] in T1.
    rewrite S2, Fi. destruct (is_tls s0) eqn:I0.
    + exists s'. rewrite app_nil_r, returned_one. repeat split; auto.
    + eexists. split; [reflexivity|]. cbn [kill emit live trace]. split; [reflexivity|].
      rewrite T1, S1, Fs, returned_one, <- app_assoc. reflexivity.
Qed.
(** Which is which: the thread's own scope survives, one made by unique_init is freed as the last thing. *)
Theorem delete_own_or_made : forall E user h a st n is s er pa,
  fits E -> Forall wordy h -> Forall (quiet E) h -> raii_deferred_count s = Z.of_nat (length h) ->
  (defers E h (raii_init a st n) = Ok (is, s) -> exists s', raii_delete E user (set_err er pa s) = Ok s' /\ live s' = true /\
     trace s' = map (fun e => Call (fst (fst e)) (snd (fst e))) (rev h) ++ returned [w_base s]) /\
  (defers E h (unique_init a st n) = Ok (is, s) -> exists s', raii_delete E user (set_err er pa s) = Ok s' /\ live s' = false /\
     trace s' = map (fun e => Call (fst (fst e)) (snd (fst e))) (rev h) ++ returned [w_base s] ++ [Freed a]).
Proof.
  intros E user h a st n is s er pa F W Q C. split; intros D.
  - destruct (delete_lifo E user h (raii_init a st n) is s er pa F W Q) as (s' & A & B & T); auto; [exists a, st, n; right; reflexivity|]. exists s'. split; [exact A|]. split; [exact B|]. rewrite T. cbn [is_tls raii_init raii_deferred_init]. now rewrite app_nil_r.
  - destruct (delete_lifo E user h (unique_init a st n) is s er pa F W Q) as (s' & A & B & T); auto; [exists a, st, n; left; reflexivity|]. exists s'. split; [exact A|]. split; [exact B|exact T].
Qed.
Example delete_own_case : let E := tidy [100] nothing in
  match defers E (steps 3) (raii_init 5000 0 0), defers E (steps 3) (unique_init 5000 0 0) with
  | Ok (_, s), Ok (_, u) => raii_deferred_count s = 3 /\ match raii_delete E user0 s, raii_delete E user0 u with Ok s', Ok u' => live s' = true /\ live u' = false | _, _ => False end
  | _, _ => False
  end.
Proof. vm_compute. repeat split. Qed.
Example release_case :
  let E := tidy [100] nothing in
  Forall wordy (steps 40) /\ Forall (quiet E) (steps 40) /\
  match defers E (steps 40) (unique_init 5000 0 0) with
  | Ok (is, s) => raii_deferred_count s = 40 /\
     match raii_deferred_free E user0 (set_err 7 0 s) with
     | Ok s' => trace s' = map (fun k => Call 100 (Z.of_nat k)) (rev (seq 0 40)) ++ [Freed 196608]
     | _ => False
     end
  | _ => False
  end.
Proof.
  split. { apply Forall_forall. intros e He. apply in_map_iff in He. destruct He as (k & <- & Hk). apply in_seq in Hk. unfold wordy, word; cbn [fst snd]. lia. }
  split. { apply Forall_forall. intros e He. apply in_map_iff in He. destruct He as (k & <- & Hk). split; reflexivity. }
  vm_compute. split; reflexivity.
Qed.

(** * C26 *)
Theorem release_idempotent : forall E user h s0 is s er pa n,
  fits E -> Forall wordy h -> Forall (quiet E) h -> fresh s0 -> defers E h s0 = Ok (is, s) ->
  exists s', releases E user 1 (set_err er pa s) = Ok s' /\ releases E user (1 + n) (set_err er pa s) = Ok s'.
Proof.
  intros E user h s0 is s er pa n F W Q Fr D. destruct (fresh_holds s0 Fr) as (H & T & P & Tr & _ & _ & Ip).
  destruct (defers_ok E F h s0 [] H W) as (is2 & s2 & m & D2 & _ & L & Fm & Tt & _ & H2 & K). cbn [app] in H2.
  rewrite D in D2. injection D2 as <- <-.
  assert (Qk : Forall (quiet E) (kept m h)).
  { clear - Q. revert m. induction Q; destruct m; cbn; auto. destruct b; auto. }
  assert (Ft : w_type s = w_type s0) by apply Fm. assert (Fp : is_protected s = is_protected s0) by apply Fm.
  destruct (free_ok E user (set_err er pa s) (kept m h) H2) as (s' & E1 & _ & R1 & _).
  - cbn. congruence.
  - exact Qk.
  - intros _. right. left. cbn. congruence.
  - exists s'. cbn [releases Nat.add]. rewrite E1. cbn [bind]. split; [reflexivity|].
    clear - R1. induction n; cbn [releases]; auto. rewrite (free_released E user s' R1). cbn [bind]. exact IHn.
Qed.
(** raii_delete a second time: the thread's own scope is as it was, one made by unique_init has been freed and is used after that; so it is
    when a function is cancelled or fired afterwards. *)
Theorem delete_again : forall E user h a st n is s er pa, fits E -> Forall wordy h -> Forall (quiet E) h ->
  (defers E h (raii_init a st n) = Ok (is, s) -> exists s', raii_delete E user (set_err er pa s) = Ok s' /\ raii_delete E user s' = Ok s') /\
  (defers E h (unique_init a st n) = Ok (is, s) -> exists s', raii_delete E user (set_err er pa s) = Ok s' /\ raii_delete E user s' = Undef UseAfterFree /\
    forall i, raii_deferred_cancel i s' = Undef UseAfterFree /\ raii_deferred_fire E i s' = Undef UseAfterFree).
Proof.
  intros E user h a st n is s er pa F W Q.
  assert (G : forall s0, fresh s0 -> defers E h s0 = Ok (is, s) -> is_tls s = is_tls s0 /\ exists s', raii_deferred_free E user (set_err er pa s) = Ok s' /\ released s' /\ is_tls s' = is_tls s).
  { intros s0 Fr D. destruct (fresh_holds s0 Fr) as (H & T & P & _ & _ & _ & Ip). destruct (defers_ok E F h s0 [] H W) as (is2 & s2 & m & D2 & _ & L & Fm & _ & _ & H2 & _). cbn [app] in H2.
    rewrite D in D2. injection D2 as <- <-. assert (Qk : Forall (quiet E) (kept m h)) by (clear - Q; revert m; induction Q; destruct m; cbn; auto; destruct b; auto).
    assert (Ft : w_type s = w_type s0) by apply Fm. assert (Fp : is_protected s = is_protected s0) by apply Fm. split; [apply Fm|].
    destruct (free_ok E user (set_err er pa s) (kept m h) H2) as (s' & E1 & _ & R1 & _ & S2); [cbn; congruence|exact Qk|intros _; right; left; cbn; congruence|]. exists s'. auto. }
  split; intros D.
  - destruct (G (raii_init a st n)) as (T & s' & E1 & R1 & T1); [exists a, st, n; auto|exact D|]. cbn in T. exists s'. unfold raii_delete. rewrite E1. cbn [bind]. rewrite T1, T. split; [reflexivity|].
    rewrite (free_released E user s' R1). cbn [bind]. rewrite T1, T. reflexivity.
  - destruct (G (unique_init a st n)) as (T & s' & E1 & R1 & T1); [exists a, st, n; auto|exact D|]. cbn in T. eexists. unfold raii_delete. rewrite E1. cbn [bind]. rewrite T1, T. split; [reflexivity|]. split; [reflexivity|]. intros i. split; reflexivity.
Qed.
Example delete_again_case : let E := tidy [100] nothing in
  match defers E (steps 3) (unique_init 5000 0 0) with
  | Ok (_, s) => match raii_delete E user0 s with Ok s' => trace s' = [Call 100 2; Call 100 1; Call 100 0; Freed 65536; Freed 5000] /\ raii_delete E user0 s' = Undef UseAfterFree | _ => False end
  | _ => False
  end.
Proof. vm_compute. auto. Qed.
Example idempotent_case :
  let E := tidy [100] nothing in
  match defers E (steps 3) (unique_init 5000 0 0) with
  | Ok (is, s) => match releases E user0 5 s with Ok s' => length (trace s') = 4%nat | _ => False end
  | _ => False
  end.
Proof. vm_compute. reflexivity. Qed.

(** * C27 *)
(** Nothing deferred on a scope after its first release is ever called: the
    type tag that raii_deferred_free tests is cleared and never set again. *)
Theorem released_scope_loses_defers : forall E user s h n,
  fits E -> released s -> Forall wordy h ->
  exists is s1, defers E h s = Ok (is, s1) /\ releases E user n s1 = Ok s1 /\ trace s1 = trace s.
Proof.
  intros E user s h n F (R1 & R2 & R3 & R4 & R5 & R6) W.
  assert (H : holds s []).
  { split; [exact R1|]. split. { unfold arr_ok. rewrite R3, R4, R5. change (round_up 16 0) with 0. cbn [length]. repeat split; try lia; auto. }
    split; [exact R4|]. intros [|k] e; discriminate. }
  destruct (defers_ok E F h s [] H W) as (is & s1 & m & D & _ & _ & Fm & Tt & _ & H2 & _).
  exists is, s1. split; [exact D|]. split; [|exact Tt].
  assert (Ft : w_type s1 = w_type s) by apply Fm. assert (Fl : live s1 = live s) by apply Fm.
  induction n; cbn [releases]; auto. unfold raii_deferred_free. rewrite Fl, R1, Ft, R2. cbn. exact IHn.
Qed.
Theorem release_reuse_refuted : exists E user s0 tr,
  fits E /\ fresh s0 /\
  (let* (_, s1) := raii_deferred E 100 1 s0 in
   let* s2 := raii_deferred_free E user s1 in
   let* (_, s3) := raii_deferred E 100 2 s2 in
   let* s4 := raii_deferred_free E user s3 in
   Ok (raii_deferred_count s3, trace s4)) = Ok (1, tr) /\
  In (Call 100 1) tr /\ ~ In (Call 100 2) tr.
Proof.
  exists (tidy [100] nothing), user0, (unique_init 5000 0 0), [Call 100 1; Freed 65536].
  split; [apply tidy_fits|]. split; [exists 5000, 0, 0%nat; auto|]. 
  split; [vm_compute; reflexivity|]. split; [left; reflexivity|]. intros H; repeat destruct H as [H|H]; discriminate || contradiction.
Qed.
(** C27 holds only if the scope is initialised again, which no function of the library does. *)
Theorem release_reuse_partial : forall E user s h is s1 er pa,
  fits E -> released s -> is_protected s = false -> Forall wordy h -> Forall (quiet E) h ->
  defers E h (raii_deferred_init s) = Ok (is, s1) -> raii_deferred_count s1 = Z.of_nat (length h) ->
  exists s2, raii_deferred_free E user (set_err er pa s1) = Ok s2 /\
    trace s2 = trace s ++ map (fun e => Call (fst (fst e)) (snd (fst e))) (rev h) ++ returned [w_base s1].
Proof.
  intros E user s h is s1 er pa F (R1 & R2 & R3 & R4 & R5 & R6) Ip W Q D C.
  pose proof (holds_init s R1) as H.
  destruct (defers_ok E F h _ [] H W) as (is2 & s2 & m & D2 & _ & _ & Fm & Tt & _). rewrite D in D2. injection D2 as <- <-.
  destruct (defers_count E h F W _ _ _ _ H D) as [_ Hh]. specialize (Hh C). cbn [app] in Hh.
  assert (Ft : w_type s1 = RAII_DEF_ARR) by apply Fm. assert (Fp : is_protected s1 = is_protected s) by apply Fm.
  assert (Fq : protector s1 = protector s) by apply Fm.
  destruct (free_ok E user (set_err er pa s1) h Hh) as (s' & E1 & T1 & _).
  - exact Ft.
  - exact Q.
  - intros _. right. left. cbn. congruence.
  - exists s'. split; [exact E1|]. rewrite T1, returned_one. unfold prot_free. cbn [set_err trace protector w_base]. rewrite Fq, R6, Tt. reflexivity.
Qed.

(** * C28 *)
(** C28 restricted to the moments at which the index arithmetic comes out
    right: the number of functions registered when cancelling is the (k+1)
    rounded up to a multiple of 8.  (The index is a difference from the element
    count instead of the array, and the division by 24 drops the remainder
    modulo 8.)  Missing: every other moment, refuted below. *)
Theorem cancel_partial : forall E user s0 h1 h2 f d c is s i er pa,
  fits E -> aligned E -> fresh s0 -> Forall wordy (h1 ++ (f, d, c) :: h2) ->
  Forall (quiet E) h1 -> Forall (quiet E) h2 -> quiet E (CANCELED, d, 0) ->
  defers E (h1 ++ (f, d, c) :: h2) s0 = Ok (is, s) ->
  raii_deferred_count s = Z.of_nat (length (h1 ++ (f, d, c) :: h2)) ->
  nth_error is (length h1) = Some i ->
  Z.of_nat (length (h1 ++ (f, d, c) :: h2)) = round_up 8 (Z.of_nat (length h1) + 1) ->
  exists s' s2 fr, raii_deferred_cancel i s = Ok s' /\ raii_deferred_free E user (set_err er pa s') = Ok s2 /\
    trace s2 = map (fun e => Call (fst (fst e)) (snd (fst e))) (rev h2) ++ Call CANCELED d ::
               map (fun e => Call (fst (fst e)) (snd (fst e))) (rev h1) ++ fr /\
    (forall g x, ~ In (Call g x) fr).
Proof.
  intros E user s0 h1 h2 f d c is s i er pa F A Fr W Q1 Q2 Qc D C I N.
  destruct (fresh_holds s0 Fr) as (H & T & P & Tr & B & Tl & Ip).
  destruct (cancel_ok E s0 h1 h2 f d c is s i F A H B Tl W D C I N) as (s' & E1 & Fm & Tt & Bb & H2).
  destruct (defers_ok E F _ s0 [] H W) as (is2 & s3 & m & D2 & _ & _ & Fm2 & Tt2 & _). rewrite D in D2. injection D2 as <- <-.
  assert (Ft : w_type s' = w_type s0). { destruct Fm as (_ & _ & _ & X & _), Fm2 as (_ & _ & _ & Y & _). congruence. }
  assert (Fp : is_protected s' = is_protected s0). { destruct Fm as (_ & _ & _ & _ & _ & _ & _ & X & _), Fm2 as (_ & _ & _ & _ & _ & _ & _ & Y & _). congruence. }
  assert (Fq : protector s' = protector s0). { destruct Fm as (_ & _ & _ & _ & _ & _ & _ & _ & X & _), Fm2 as (_ & _ & _ & _ & _ & _ & _ & _ & Y & _). congruence. }
  destruct (free_ok E user (set_err er pa s') _ H2) as (s2 & E2 & T2 & _).
  - cbn. congruence.
  - apply Forall_app. split; auto.
  - intros X. destruct h1; discriminate X.
  - exists s', s2, (freed (w_base s')). split; [exact E1|]. split; [exact E2|]. split.
    + rewrite T2. unfold prot_free. cbn [set_err trace protector w_base]. rewrite Fq, P, Tt, Tt2, Tr, rev_app_distr. cbn [rev app].
      rewrite !map_app. cbn [map]. rewrite <- !app_assoc. reflexivity.
    + intros g x. unfold freed. destruct (w_base s' =? 0); cbn; intuition discriminate.
Qed.
Lemma tidy_quiet fs l : Forall (fun e => existsb (Z.eqb (fst (fst e))) fs = true) l -> Forall (quiet (tidy fs nothing)) l.
Proof. intros H. eapply Forall_impl; [|exact H]. intros e He. split; [exact He|reflexivity]. Qed.
(** The third of eight functions is cancelled. *)
Example cancel_case :
  let E := tidy [100; CANCELED] nothing in
  let h1 := [(100, 0, 0); (100, 1, 0)] in let h2 := [(100, 3, 0); (100, 4, 0); (100, 5, 0); (100, 6, 0); (100, 7, 0)] in
  (fits E /\ aligned E /\ fresh (unique_init 5000 0 0) /\ Forall wordy (h1 ++ (100, 2, 0) :: h2)) /\
  (Forall (quiet E) h1 /\ Forall (quiet E) h2 /\ quiet E (CANCELED, 2, 0)) /\
  Z.of_nat (length (h1 ++ (100, 2, 0) :: h2)) = round_up 8 (Z.of_nat (length h1) + 1) /\
  match defers E (h1 ++ (100, 2, 0) :: h2) (unique_init 5000 0 0) with
  | Ok (is, s) => raii_deferred_count s = 8 /\
    nth_error is 2 = Some (nth 2 is 0) /\ match raii_deferred_cancel (nth 2 is 0) s with
                  | Ok s' => match raii_deferred_free E user0 s' with
                             | Ok s2 => trace s2 = [Call 100 7; Call 100 6; Call 100 5; Call 100 4; Call 100 3; Call CANCELED 2; Call 100 1; Call 100 0; Freed 65536]
                             | _ => False end
                  | _ => False end
  | _ => False
  end.
Proof.
  intros E h1 h2. split.
  { split; [apply tidy_fits|]. split; [apply tidy_aligned|]. split; [exists 5000, 0, 0%nat; auto|].
    repeat constructor; unfold word; cbn; lia. }
  split. { split; [apply tidy_quiet; repeat constructor|]. split; [apply tidy_quiet; repeat constructor|]. split; reflexivity. }
  split; [reflexivity|]. vm_compute. repeat split.
Qed.
(** What cancelling does at every other moment.  With [n] functions registered, as
    long as the array has not been moved since function [k] was, the two words that
    should be func and check of entry [k] are written [n - round_up 8 (k + 1)] bytes
    after them, whatever is there: [at_entry] says which bytes of the block change. *)
Definition at_entry (k shift : Z) (old : list Z) (new : list Z) : Prop :=
  length new = length old /\
  forall j, 0 <= j < Z.of_nat (length old) ->
    nth (Z.to_nat j) new 0 =
    let o := j - (32 * k + shift) in
    if (8 <=? o) && (o <? 16) then nth (Z.to_nat (o - 8)) (to_le 8 CANCELED) 0
    else if (24 <=? o) && (o <? 32) then 0 else nth (Z.to_nat j) old 0.
Theorem cancel_writes : forall E s0 h1 h2 f d c is s i,
  fits E -> aligned E -> fresh s0 -> Forall wordy (h1 ++ (f, d, c) :: h2) ->
  defers E (h1 ++ (f, d, c) :: h2) s0 = Ok (is, s) ->
  raii_deferred_count s = Z.of_nat (length (h1 ++ (f, d, c) :: h2)) ->
  nth_error is (length h1) = Some i ->
  let k := Z.of_nat (length h1) in let n := Z.of_nat (length (h1 ++ (f, d, c) :: h2)) in
  n <= round_up 16 (k + 1) ->
  exists s', raii_deferred_cancel i s = Ok s' /\ at_entry k (n - round_up 8 (k + 1)) (blk s) (blk s') /\
    raii_deferred_count s' = n /\ w_base s' = w_base s /\ trace s' = trace s.
Proof.
  intros E s0 h1 h2 f d c is s i F A Fr W D C I k n N.
  destruct (fresh_holds s0 Fr) as (H & T & P & Tr & B & Tl & Ip).
  destruct (hist_address E s0 h1 h2 f d c is s i F A H B Tl W D C I) as (b & Hb1 & Hb2 & Hn & Hb3 & G).
  destruct (hist_index E s0 h1 h2 f d c is s i F A H B Tl W D C I) as (s1 & s2 & i1 & i2 & _ & _ & _ & _ & _ & _ & _ & (Hl & (A1 & A2 & A3 & A4) & He & _) & [B1 B2] & T3).
  fold k n in Hb2, Hb3, G, Hn, He. specialize (Hb3 N). subst b. rewrite He in *.
  assert (Kn : k + 1 <= n). { unfold k, n. rewrite app_length. cbn [length]. lia. }
  assert (R8 : k + 1 <= round_up 8 (k + 1) <= k + 8) by (unfold round_up; lia).
  assert (Sh : 32 * k + (n - round_up 8 (k + 1)) + 32 <= 32 * round_up 16 n). { unfold round_up in *. clear - N Kn. lia. }
  set (sh := n - round_up 8 (k + 1)) in *.
  unfold raii_deferred_cancel. rewrite Hl. cbn [negb]. rewrite G. unfold raii_deferred_internal, array_len. rewrite T3.
  assert (X : get_element s (u64 (0 - 1)) = if n <? 24 then 18446744073709551616 + n - 24 else n - 24).
  { unfold get_element, ARRAY_SIZE. rewrite He. change (u64 (0 - 1)) with 18446744073709551615. unfold u64.
    replace (n + 24 * 18446744073709551615) with (n - 24 + 24 * 18446744073709551616) by lia.
    rewrite Z.mod_add by lia. destruct (Z.ltb_spec n 24).
    - replace (n - 24) with (18446744073709551616 + n - 24 + (-1) * 18446744073709551616) by lia.
      rewrite Z.mod_add by lia. apply Z.mod_small. lia.
    - apply Z.mod_small. lia. }
  rewrite X. clear X.
  destruct (Z.eqb_spec (w_base s + 32 * k + sh) (if n <? 24 then 18446744073709551616 + n - 24 else n - 24)) as [Y|Y].
  { exfalso. destruct (Z.ltb_spec n 24); lia. }
  rewrite !u64_id by lia.
  destruct (store64_in s (w_base s + 32 * k + sh + 8) CANCELED ltac:(lia) ltac:(lia)) as (b1 & C1 & ->). cbn [bind].
  pose proof (blit_length _ _ _ _ C1) as L1.
  destruct (store64_in (set_blk b1 s) (w_base s + 32 * k + sh + 24) 0) as (b2 & C2 & ->); [cbn [set_blk w_base blk]; lia..|].
  cbn [set_blk w_base blk] in C2. pose proof (blit_length _ _ _ _ C2) as L2.
  eexists. split; [reflexivity|]. split; [|repeat split; exact He].
  cbn [set_blk blk]. split; [congruence|]. intros j Hj. cbv zeta.
  pose proof (blit_at _ _ _ _ j C2 ltac:(lia)) as X2. pose proof (blit_at _ _ _ _ j C1 ltac:(lia)) as X1.
  rewrite to_le_length in X1, X2. unfold at_ in X1, X2. rewrite X2, X1. change (Z.of_nat 8) with 8.
  replace (w_base s + 32 * k + sh + 24 - w_base s) with (32 * k + sh + 24) by lia.
  replace (w_base s + 32 * k + sh + 8 - w_base s) with (32 * k + sh + 8) by lia.
  destruct (Z.leb_spec (32 * k + sh + 24) j), (Z.ltb_spec j (32 * k + sh + 24 + 8)), (Z.leb_spec (32 * k + sh + 8) j),
    (Z.ltb_spec j (32 * k + sh + 8 + 8)), (Z.leb_spec 8 (j - (32 * k + sh))), (Z.ltb_spec (j - (32 * k + sh)) 16),
    (Z.leb_spec 24 (j - (32 * k + sh))), (Z.ltb_spec (j - (32 * k + sh)) 32); try lia; cbn [andb]; try reflexivity.
  - change (to_le 8 0) with (repeat 0 8). apply nth_repeat.
  - f_equal. lia.
Qed.
(** Cancelling the 8th of 16: its argument is overwritten with the address of
    deferred_canceled and it is still called. *)
Example cancel_writes_case :
  let E := tidy [100; CANCELED] nothing in
  match defers E (steps 16) (unique_init 5000 0 0) with
  | Ok (is, s) => raii_deferred_count s = 16 /\ 16 <= round_up 16 (7 + 1) /\ 16 - round_up 8 (7 + 1) = 8 /\
    nth_error is 7 = Some (nth 7 is 0) /\ match raii_deferred_cancel (nth 7 is 0) s with
                  | Ok s' => match raii_deferred_free E user0 s' with
                             | Ok s2 => In (Call 100 CANCELED) (trace s2) /\ length (trace s2) = 17%nat
                             | _ => False end
                  | _ => False end
  | _ => False
  end.
Proof. vm_compute. split; [reflexivity|]. split; [discriminate|]. split; [reflexivity|]. split; [reflexivity|]. split; [|reflexivity]. do 8 right. left. reflexivity. Qed.
(** Cancelling the only registered function: the release calls a garbage address. *)
Theorem cancel_refuted : exists E user s0,
  fits E /\ fresh s0 /\
  (let* (i, s1) := raii_deferred E 100 1 s0 in
   let* s2 := raii_deferred_cancel i s1 in
   Ok (raii_deferred_free E user s2)) = Ok (Undef WildPointer).
Proof.
  exists (tidy [100; CANCELED] nothing), user0, (unique_init 5000 0 0).
  split; [apply tidy_fits|]. split; [exists 5000, 0, 0%nat; auto|]. vm_compute. reflexivity.
Qed.
(** Cancelling the 8th of 40 functions, when the allocator grew the block in
    place, disarms the 9th instead. *)
Definition in_place : env :=
  Env (fun t n => if (0 <? n) && (n <? 65536) then 65536 else 0) (fun _ _ => 0) (fun f => (f =? 100) || (f =? CANCELED)) nothing.
Theorem cancel_wrong_one_refuted : exists E user s0 tr,
  fits E /\ fresh s0 /\
  (let* (is, s) := defers E (steps 40) s0 in
   let* s1 := raii_deferred_cancel (nth 7 is 0) s in
   let* s2 := raii_deferred_free E user s1 in
   Ok (trace s2)) = Ok tr /\
  In (Call 100 7) tr /\ ~ In (Call 100 8) tr.
Proof.
  exists in_place, user0, (unique_init 5000 0 0),
    (map (fun k => Call (if Nat.eqb k 8 then CANCELED else 100) (Z.of_nat k)) (rev (seq 0 40)) ++ [Freed 65536]).
  split. { intros t n Hn. cbn [in_place place]. destruct ((0 <? n) && (n <? 65536)) eqn:X; [right; lia|left; auto]. }
  split; [exists 5000, 0, 0%nat; auto|]. split; [vm_compute; reflexivity|].
  split. { apply in_or_app. left. apply in_map_iff. exists 7%nat. split; [reflexivity|]. apply in_rev. rewrite rev_involutive. apply in_seq. lia. }
  intros H. apply in_app_or in H. destruct H as [H|H]; [|destruct H as [H|[]]; discriminate].
  apply in_map_iff in H. destruct H as (k & H & _). destruct (Nat.eqb k 8) eqn:X; [discriminate|]. injection H as H. apply Nat.eqb_neq in X. lia.
Qed.

(** * C29 *)
(** C29 at the same moments as [cancel_partial]. *)
Theorem fire_partial : forall E user s0 h1 h2 f d c is s i er pa,
  fits E -> aligned E -> fresh s0 -> Forall wordy (h1 ++ (f, d, c) :: h2) ->
  Forall (quiet E) (h1 ++ (f, d, c) :: h2) -> quiet E (CANCELED, d, 0) ->
  defers E (h1 ++ (f, d, c) :: h2) s0 = Ok (is, s) ->
  raii_deferred_count s = Z.of_nat (length (h1 ++ (f, d, c) :: h2)) ->
  nth_error is (length h1) = Some i ->
  Z.of_nat (length (h1 ++ (f, d, c) :: h2)) = round_up 8 (Z.of_nat (length h1) + 1) ->
  exists s' s2 fr, raii_deferred_fire E i s = Ok s' /\ trace s' = [Call f d] /\
    raii_deferred_free E user (set_err er pa s') = Ok s2 /\
    trace s2 = Call f d :: map (fun e => Call (fst (fst e)) (snd (fst e))) (rev h2) ++ Call CANCELED d ::
               map (fun e => Call (fst (fst e)) (snd (fst e))) (rev h1) ++ fr /\
    (forall g x, ~ In (Call g x) fr).
Proof.
  intros E user s0 h1 h2 f d c is s i er pa F A Fr W Q Qc D C I N.
  destruct (fresh_holds s0 Fr) as (H & T & P & Tr & B & Tl & Ip).
  apply Forall_app in Q. destruct Q as [Q1 Q2]. inversion Q2 as [|? ? [Qf Qa] Q3]; subst. cbn [fst snd] in Qf, Qa.
  destruct (fire_ok E s0 h1 h2 f d c is s i F A H B Tl W D C I N Qf Qa) as (s' & E1 & Fm & Tt & Bb & H2).
  destruct (defers_ok E F _ s0 [] H W) as (is2 & s3 & m & D2 & _ & _ & Fm2 & Tt2 & _). rewrite D in D2. injection D2 as <- <-.
  assert (Ft : w_type s' = w_type s0). { destruct Fm as (_ & _ & _ & X & _), Fm2 as (_ & _ & _ & Y & _). congruence. }
  assert (Fp : is_protected s' = is_protected s0). { destruct Fm as (_ & _ & _ & _ & _ & _ & _ & X & _), Fm2 as (_ & _ & _ & _ & _ & _ & _ & Y & _). congruence. }
  assert (Fq : protector s' = protector s0). { destruct Fm as (_ & _ & _ & _ & _ & _ & _ & _ & X & _), Fm2 as (_ & _ & _ & _ & _ & _ & _ & _ & Y & _). congruence. }
  rewrite Tt2, Tr in Tt. cbn [app] in Tt.
  destruct (free_ok E user (set_err er pa s') _ H2) as (s2 & E2 & T2 & _).
  - cbn. congruence.
  - apply Forall_app. split; auto.
  - intros X. destruct h1; discriminate X.
  - exists s', s2, (freed (w_base s')). split; [exact E1|]. split; [exact Tt|]. split; [exact E2|]. split.
    + rewrite T2. unfold prot_free. cbn [set_err trace protector w_base]. rewrite Fq, P, Tt, rev_app_distr. cbn [rev app].
      rewrite !map_app. cbn [map]. rewrite <- !app_assoc. reflexivity.
    + intros g x. unfold freed. destruct (w_base s' =? 0); cbn; intuition discriminate.
Qed.
Example fire_case :
  let E := tidy [100; CANCELED] nothing in
  match defers E (steps 8) (unique_init 5000 0 0) with
  | Ok (is, s) => raii_deferred_count s = 8 /\ nth_error is 7 = Some (nth 7 is 0) /\ 8 = round_up 8 (7 + 1) /\
                  match raii_deferred_fire E (nth 7 is 0) s with
                  | Ok s' => trace s' = [Call 100 7]
                  | _ => False end
  | _ => False
  end.
Proof. vm_compute. repeat split. Qed.
(** What firing does at every other moment, as [cancel_writes]: the function and
    argument called are the two words found [n - round_up 8 (k + 1)] bytes after those of
    entry [k]; if the first is not the address of a function the behaviour is undefined,
    otherwise it is called and the same bytes are overwritten as by a cancellation. *)
Definition word_at (l : list Z) (o : Z) : Z := le_value (slice l o 8).
Lemma internal_emit a e s : raii_deferred_internal a (emit e s) = let* s' := raii_deferred_internal a s in Ok (emit e s').
Proof.
  unfold raii_deferred_internal, array_len, get_element. cbn [emit w_tail w_elems].
  destruct (a =? _); [reflexivity|]. unfold store64. cbn [emit w_base blk]. destruct (_ && _); [|reflexivity].
  destruct (blit _ _ _) as [b| | |]; cbn [bind]; try reflexivity. cbn [set_blk w_base blk]. destruct (_ && _); [|reflexivity].
  destruct (blit _ _ _); reflexivity.
Qed.
Theorem fire_reads : forall E s0 h1 h2 f d c is s i,
  fits E -> aligned E -> fresh s0 -> Forall wordy (h1 ++ (f, d, c) :: h2) ->
  defers E (h1 ++ (f, d, c) :: h2) s0 = Ok (is, s) ->
  raii_deferred_count s = Z.of_nat (length (h1 ++ (f, d, c) :: h2)) ->
  nth_error is (length h1) = Some i ->
  let k := Z.of_nat (length h1) in let n := Z.of_nat (length (h1 ++ (f, d, c) :: h2)) in
  let shift := n - round_up 8 (k + 1) in
  let g := word_at (blk s) (32 * k + shift + 8) in let x := word_at (blk s) (32 * k + shift + 16) in
  n <= round_up 16 (k + 1) ->
  (isfn E g = false -> raii_deferred_fire E i s = Undef WildPointer) /\
  (isfn E g = true -> act E g x = [] ->
   exists s', raii_deferred_fire E i s = Ok s' /\ trace s' = trace s ++ [Call g x] /\
     at_entry k shift (blk s) (blk s') /\ raii_deferred_count s' = n /\ w_base s' = w_base s).
Proof.
  intros E s0 h1 h2 f d c is s i F A Fr W D C I k n shift g x N.
  destruct (cancel_writes E s0 h1 h2 f d c is s i F A Fr W D C I N) as (s' & Ec & At & Cn & Bs & Ts).
  fold k n shift in At. fold n in Cn.
  destruct (fresh_holds s0 Fr) as (H & T & P & Tr & B & Tl & Ip).
  destruct (hist_address E s0 h1 h2 f d c is s i F A H B Tl W D C I) as (b & Hb1 & Hb2 & Hn & Hb3 & G).
  destruct (hist_index E s0 h1 h2 f d c is s i F A H B Tl W D C I) as (s1 & s2 & i1 & i2 & _ & _ & _ & _ & _ & _ & _ & (Hl & (A1 & A2 & A3 & A4) & He & _) & [B1 B2] & T3).
  fold k n in Hb2, Hb3, G, Hn, He. specialize (Hb3 N). subst b. rewrite He in *.
  assert (Kn : k + 1 <= n). { unfold k, n. rewrite app_length. cbn [length]. lia. }
  assert (R8 : k + 1 <= round_up 8 (k + 1) <= k + 8) by (unfold round_up; lia).
  assert (Sh : 32 * k + (n - round_up 8 (k + 1)) + 32 <= 32 * round_up 16 n). { unfold round_up in *. clear - N Kn. lia. }
  fold shift in Sh, G.
  assert (K0 : 0 <= k) by (unfold k; lia).
  assert (S0 : -7 <= shift) by (unfold shift; lia).
  unfold raii_deferred_cancel in Ec. rewrite Hl in Ec. cbn [negb] in Ec. rewrite G in Ec.
  unfold raii_deferred_fire. rewrite Hl. cbn [negb]. rewrite G.
  assert (L : forall o, 8 <= o <= 24 -> load64 s (u64 (w_base s + 32 * k + shift + o)) = Ok (word_at (blk s) (32 * k + shift + o))).
  { intros o Ho. rewrite u64_id by lia. unfold load64.
    destruct (Z.leb_spec (w_base s) (w_base s + 32 * k + shift + o)); [|lia].
    destruct (Z.leb_spec (w_base s + 32 * k + shift + o + 8) (w_base s + Z.of_nat (length (blk s)))); [|lia].
    cbn [andb]. unfold word_at, slice.
    replace (w_base s + 32 * k + shift + o - w_base s) with (32 * k + shift + o) by lia. reflexivity. }
  rewrite !L by lia. cbn [bind]. fold g x. unfold call. split.
  - intros X. rewrite X. reflexivity.
  - intros X Y. rewrite X, Y. cbn [perform bind]. rewrite internal_emit, Ec. cbn [bind].
    exists (emit (Call g x) s'). split; [reflexivity|]. cbn [emit trace blk w_base]. rewrite Ts. repeat split; auto; apply At.
Qed.
(** Firing the 8th of 16: its argument, 7, is taken for the function. *)
Example fire_reads_case :
  let E := tidy [100; CANCELED] nothing in
  match defers E (steps 16) (unique_init 5000 0 0) with
  | Ok (is, s) => raii_deferred_count s = 16 /\ 16 - round_up 8 (7 + 1) = 8 /\ word_at (blk s) (32 * 7 + 8 + 8) = 7 /\
      raii_deferred_fire E (nth 7 is 0) s = Undef WildPointer
  | _ => False
  end.
Proof. vm_compute. repeat split. Qed.
(** The record a registration leaves: raii_deferred and raii_recover_by put function,
    argument and check (0, or the address of "err") into the next entry, or are
    refused and leave the count as it is. *)
Definition recorded (s s' : scope) (i f d c : Z) : Prop :=
  (i = 2 ^ 64 - 1 /\ raii_deferred_count s' = raii_deferred_count s) \/
  (raii_deferred_count s' = raii_deferred_count s + 1 /\
   let k := raii_deferred_count s in
   word_at (blk s') (32 * k + 8) = f /\ word_at (blk s') (32 * k + 16) = d /\ word_at (blk s') (32 * k + 24) = c).
Theorem entry_written : forall E s0 h is s f d, fits E -> fresh s0 -> Forall wordy h -> word f -> word d ->
  defers E h s0 = Ok (is, s) ->
  (exists i s', raii_deferred E f d s = Ok (i, s') /\ recorded s s' i f d 0) /\
  (exists i s', raii_recover_by E f d s = Ok (i, s') /\ recorded s s' i f d 1).
Proof.
  intros E s0 h is s f d F Fr W Wf Wd D.
  destruct (fresh_holds s0 Fr) as (H & _).
  destruct (defers_ok E F h s0 [] H W) as (is2 & s2 & m & D2 & _ & _ & _ & _ & _ & H2 & _).
  rewrite D in D2. injection D2 as <- <-.
  assert (X : forall c, word c -> exists i s', raii_deferred_any E f d c s = Ok (i, s') /\ recorded s s' i f d c).
  { intros c Wc. destruct (deferred_any_ok E f d c s _ F H2 ltac:(split; [exact Wf|split; [exact Wd|exact Wc]])) as (i & s' & Ea & _ & _ & _ & Q).
    exists i, s'. split; [exact Ea|]. destruct H2 as (_ & _ & He & _). unfold recorded, raii_deferred_count.
    destruct Q as [(-> & (_ & _ & Q & _))|((_ & _ & Q & R) & _)].
    - left. split; [reflexivity|]. congruence.
    - right. rewrite He, Q, app_length. cbn [length]. split; [lia|].
      exact (R (length ([] ++ kept m h)) (f, d, c) ltac:(rewrite nth_error_app2, Nat.sub_diag by lia; reflexivity)). }
  split; apply X; unfold word; lia.
Qed.
Example entry_written_case : let E := tidy [100] nothing in
  match (let* (_, s) := defers E (steps 17) (unique_init 5000 0 0) in let* (i, s') := raii_recover_by E 100 7 s in Ok (s, s', i)) with
  | Ok (s, s', i) => recorded s s' i 100 7 1
  | _ => False
  end.
Proof. vm_compute. right. repeat split. Qed.
Example entry_written_met : (exists is s, defers (tidy [100] nothing) (steps 2) (unique_init 5000 0 0) = Ok (is, s)) /\
  fresh (unique_init 5000 0 0) /\ Forall wordy (steps 2).
Proof.
  split; [eexists; eexists; vm_compute; reflexivity|]. split; [exists 5000, 0, 0%nat; auto|].
  repeat constructor; vm_compute; congruence.
Qed.
(** Firing the only registered function calls a garbage address. *)
Theorem fire_refuted : exists E s0,
  fits E /\ fresh s0 /\
  (let* (i, s1) := raii_deferred E 100 1 s0 in Ok (raii_deferred_fire E i s1)) = Ok (Undef WildPointer).
Proof.
  exists (tidy [100; CANCELED] nothing), (unique_init 5000 0 0).
  split; [apply tidy_fits|]. split; [exists 5000, 0, 0%nat; auto|]. vm_compute. reflexivity.
Qed.

(** * C30 *)
(** C30 for histories in which every operation was accepted (the count equals
    their number).  [r] pairs each block with its release function; after these calls the protector and the array are freed, once each.  Missing:
    the case in which the deferred array could not grow, refuted below. *)
Theorem alloc_release_partial : forall E user ops a st n r s er pa,
  fits E -> Forall op_word ops ->
  run_ops E ops (unique_init a st n) = Ok (r, s) -> raii_deferred_count s = Z.of_nat (length ops) ->
  Forall (fun p => isfn E (fst p) = true /\ act E (fst p) (snd p) = []) r ->
  exists s', raii_deferred_free E user (set_err er pa s) = Ok s' /\
    trace s' = map (fun p => Call (fst p) (snd p)) (rev r) ++ returned [protector_at s; w_base s] /\ released s'.
Proof. intros E user ops a st n r s er pa. rewrite returned_two. apply release_ops. Qed.
Example alloc_case :
  let E := tidy [100; 200] nothing in
  match run_ops E [Alloc 24 200; Defer 100 5 0; Alloc 8 200] (unique_init 5000 0 0) with
  | Ok (r, s) => r = [(200, 65536); (100, 5); (200, 262144)] /\
      match raii_deferred_free E user0 (set_err 9 0 s) with
      | Ok s' => trace s' = [Call 200 262144; Call 100 5; Call 200 65536; Freed 131072; Freed 196608]
      | _ => False end
  | _ => False
  end.
Proof. vm_compute. split; reflexivity. Qed.
Lemma any_mid E f d c s i s' : raii_deferred_any E f d c s = Ok (i, s') -> mid s' = mid s.
Proof.
  unfold raii_deferred_any. destruct (live s); [|discriminate]. cbn [negb]. unfold raii_array_append.
  assert (St : forall x a v y, store64 x a v = Ok y -> mid y = mid x).
  { intros x a v y. unfold store64. destruct (_ && _); [|discriminate]. destruct (blit _ _ _); cbn [bind]; try discriminate. intros H. injection H as <-. reflexivity. }
  assert (G : forall dd s1, mid s1 = mid s -> (if dd =? 0 then Ok (18446744073709551615, s1) else
      let* s2 := store64 s1 (dd + 8) f in let* s3 := store64 s2 (dd + 16) d in let* s4 := store64 s3 (dd + 24) c in Ok (get_index s4 dd, s4)) = Ok (i, s') -> mid s' = mid s).
  { intros dd s1 M. destruct (dd =? 0); [intros H; injection H as <- <-; exact M|].
    destruct (store64 s1 _ _) as [s2| | |] eqn:E2; try discriminate. cbn [bind]. destruct (store64 s2 _ _) as [s3| | |] eqn:E3; try discriminate. cbn [bind].
    destruct (store64 s3 _ _) as [s4| | |] eqn:E4; try discriminate. cbn [bind]. intros H. injection H as <- <-. rewrite (St _ _ _ _ E4), (St _ _ _ _ E3), (St _ _ _ _ E2). exact M. }
  destruct (w_elems s mod INCREMENT =? 0); [|apply G; reflexivity]. destruct (add_overflow _ _); [|apply G; reflexivity].
  destruct (realloc_array _ _ _ _ _) as [x b]. destruct (x =? 0); apply G; reflexivity.
Qed.
Lemma malloc_base E sz f s a s' : aligned E -> base_ok s -> malloc_full E sz f s = Ok (Some a, s') -> base_ok s'.
Proof.
  intros A B. unfold malloc_full. destruct (place E (ticks s) sz =? 0); [discriminate|].
  assert (G : forall p s2, base_ok s2 -> (let* (m, s4) := raii_deferred E f (place E (ticks s) sz) (set_flags (is_recovered s2) true (ex_protect_ptr p (place E (ticks s) sz) f s2)) in Ok (Some (place E (ticks s) sz), set_mid m s4)) = Ok (Some a, s') -> base_ok s').
  { intros p s2 B2. unfold raii_deferred. destruct (raii_deferred_any _ _ _ _ _) as [[m s4]| | |] eqn:D; try discriminate. cbn [bind]. intros H. injection H as <- <-.
    assert (B4 : base_ok s4) by (eapply any_base; [exact A| |exact D]; exact B2). exact B4. }
  destruct (protector _); cbn [bind]; [apply G; exact B|]. destruct (_ =? 0); [discriminate|]. cbn [bind]. apply G. exact B.
Qed.
Lemma run_ops_base E : aligned E -> forall ops s r s', base_ok s -> run_ops E ops s = Ok (r, s') -> base_ok s'.
Proof.
  intros A. induction ops as [|[f d c|sz f] ops IH]; intros s r s' B R; cbn [run_ops] in R; [injection R as _ <-; exact B|..].
  - destruct (raii_deferred_any E f d c s) as [[i s1]| | |] eqn:D; try discriminate. cbn [bind] in R. destruct (run_ops E ops s1) as [[r1 s2]| | |] eqn:R1; try discriminate. cbn [bind] in R. injection R as _ <-.
    exact (IH _ _ _ (any_base _ _ _ _ _ _ _ A B D) R1).
  - destruct (malloc_full E sz f s) as [[[a|] s1]| | |] eqn:D; try discriminate. cbn [bind] in R. destruct (run_ops E ops s1) as [[r1 s2]| | |] eqn:R1; try discriminate. cbn [bind] in R. injection R as _ <-.
    exact (IH _ _ _ (malloc_base _ _ _ _ _ _ A B D) R1).
Qed.
(** What raii_last_mid (raii.c 135-137) and raii_mid tell: nothing ((size_t)-1) in a new scope and after an allocation that could not be registered, and otherwise a number
    that raii_deferred_cancel and raii_deferred_fire turn into the address of the entry of the last allocation, moved by the distance of the count from the next
    multiple of 8: the entry itself only when the count is a multiple of 8.  Deferring does not change it. *)
Theorem last_mid_exact : forall E ops s0 r s sz f a s', fits E -> aligned E -> fresh s0 -> Forall op_word ops -> 0 < sz -> word f ->
  run_ops E ops s0 = Ok (r, s) -> malloc_full E sz f s = Ok (Some a, s') ->
  mid s0 = 2 ^ 64 - 1 /\ (forall g d c i s2, raii_deferred_any E g d c s' = Ok (i, s2) -> mid s2 = mid s') /\
  ((raii_deferred_count s' = raii_deferred_count s /\ mid s' = 2 ^ 64 - 1) \/
   (let n := raii_deferred_count s' in n = raii_deferred_count s + 1 /\ word_at (blk s') (32 * (n - 1) + 8) = f /\ word_at (blk s') (32 * (n - 1) + 16) = a /\
    get_element s' (mid s') = w_base s' + 32 * (n - 1) + (n - round_up 8 n))).
Proof.
  intros E ops s0 r s sz f a s' F A Fr W Ps Wf R M. destruct (fresh_holds s0 Fr) as (H & _ & _ & _ & B & _).
  split; [destruct Fr as (x & y & z & [-> | ->]); reflexivity|]. split; [intros g d c i s2 D; exact (any_mid _ _ _ _ _ _ _ D)|].
  destruct (run_ops_ok E F ops s0 [] r s H W R) as (l & Hl & _). assert (Bs : base_ok s) by exact (run_ops_base E A _ _ _ _ B R).
  assert (Bs' : base_ok s') by exact (malloc_base _ _ _ _ _ _ A Bs M). assert (He : w_elems s = zlen l) by apply Hl.
  revert M. unfold malloc_full. set (b := place E (ticks s) sz). assert (Hb : b = 0 \/ (0 < b /\ b + sz < 18446744073709551616)) by (apply F; auto).
  destruct (Z.eqb_spec b 0) as [|Nb]; [discriminate|]. destruct Hb as [|[Hb1 Hb2]]; [contradiction|].
  assert (G : forall p s2, holds s2 l -> (let* (m, s4) := raii_deferred E f b (set_flags (is_recovered s2) true (ex_protect_ptr p b f s2)) in Ok (Some b, set_mid m s4)) = Ok (Some a, s') ->
    (raii_deferred_count s' = raii_deferred_count s /\ mid s' = 2 ^ 64 - 1) \/
    (let n := raii_deferred_count s' in n = raii_deferred_count s + 1 /\ word_at (blk s') (32 * (n - 1) + 8) = f /\ word_at (blk s') (32 * (n - 1) + 16) = a /\
     get_element s' (mid s') = w_base s' + 32 * (n - 1) + (n - round_up 8 n))).
  { intros p s2 H2 X. unfold raii_deferred in X. destruct (deferred_any_ok E f b 0 (set_flags (is_recovered s2) true (ex_protect_ptr p b f s2)) l F) as (i & s3 & Ea & _ & _ & _ & Q).
    { apply holds_prot. exact H2. } { unfold wordy, word; cbn [fst snd]. unfold word in Wf. lia. }
    rewrite Ea in X. cbn [bind] in X. injection X as <- <-. unfold raii_deferred_count. cbn [set_mid w_elems mid blk w_base]. destruct Q as [[-> Q]|(Q & Ei & _)].
    - left. assert (w_elems s3 = zlen l) by apply Q. split; [congruence|reflexivity].
    - right. assert (Q3 : w_elems s3 = zlen l + 1) by (destruct Q as (_ & _ & -> & _); rewrite app_length; cbn [length]; lia). rewrite Q3, He. split; [reflexivity|].
      replace (zlen l + 1 - 1) with (zlen l) by lia. destruct Q as (_ & (A1 & A2 & A3 & A4) & _ & Rp).
      pose proof (Rp (length l) (f, b, 0) ltac:(rewrite nth_error_app2, Nat.sub_diag by lia; reflexivity)) as (P1 & P2 & _). cbn [fst snd] in P1, P2.
      split; [exact P1|]. split; [exact P2|]. change (get_element (set_mid i s3) i) with (get_element s3 i). rewrite Ei.
      destruct Bs' as [Ba Bb]. cbn [set_mid w_base blk] in Ba, Bb. destruct A4 as [A4|A4]; [lia|].
      assert (Y : w_elems s3 + (w_base s3 + 32 * zlen l - w_elems s3) - (w_base s3 + 32 * zlen l - w_elems s3) mod 8 = w_base s3 + 32 * zlen l + (zlen l + 1 - round_up 8 (zlen l + 1))).
      { rewrite Q3. unfold round_up. clear -Ba. lia. }
      assert (R8 : zlen l + 1 <= round_up 8 (zlen l + 1) <= zlen l + 8) by (unfold round_up; lia). rewrite element_of_index; rewrite ?Y; unfold word; try lia. }
  cbn [tick protector]. destruct (protector s) as [p|]; cbn [bind]; [apply G; apply holds_tick; exact Hl|].
  destruct (_ =? 0); [discriminate|]. cbn [bind]. apply G. rewrite !holds_tick. exact Hl.
Qed.
(** Three blocks and five functions, the last a block: the number leads to its entry. *)
Example last_mid_case : let E := tidy [100; 200] nothing in
  match run_ops E [Alloc 24 200; Defer 100 5 0; Alloc 8 200; Defer 100 6 0; Defer 100 7 0; Defer 100 8 0; Defer 100 9 0] (unique_init 5000 0 0) with
  | Ok (r, s) => match malloc_full E 16 200 s with
                 | Ok (Some a, s') => raii_deferred_count s' = 8 /\ get_element s' (mid s') = w_base s' + 32 * 7 /\ match raii_deferred_fire E (mid s') s' with Ok s2 => trace s2 = [Call 200 a] | _ => False end
                 | _ => False end
  | _ => False
  end.
Proof. vm_compute. auto. Qed.
(** The third system allocation (the array) fails: malloc_full returns the block, nobody releases it. *)
Definition third_fails : env :=
  Env (fun t n => if Nat.eqb t 2 then 0 else if (0 <? n) && (n <? 65536) && (Z.of_nat t <? 1000) then 65536 * (1 + Z.of_nat t) else 0)
      (fun _ _ => 0) (fun f => f =? 200) nothing.
Theorem alloc_release_refuted : exists E user s0 a tr,
  fits E /\ fresh s0 /\
  (let* (r, s1) := malloc_full E 24 200 s0 in
   let* s2 := raii_deferred_free E user s1 in
   Ok (r, trace s2)) = Ok (Some a, tr) /\
  ~ In (Call 200 a) tr /\ ~ In (Freed a) tr.
Proof.
  exists third_fails, user0, (unique_init 5000 0 0), 65536, [Freed 131072].
  split. { intros t n Hn. cbn [third_fails place]. destruct (Nat.eqb t 2); [left; auto|].
    destruct ((0 <? n) && (n <? 65536) && (Z.of_nat t <? 1000)) eqn:X; [right; lia|left; auto]. }
  split; [exists 5000, 0, 0%nat; auto|]. split; [vm_compute; reflexivity|].
  split; intros H; repeat destruct H as [H|H]; discriminate || contradiction.
Qed.

(** * C31 *)
(** Arrays reachable by appends and removals of the last element (elements--, raii.c 371). *)
Inductive reach (E : env) (sz : Z) : scope -> Prop :=
| reach_init s : live s = true -> reach E sz (raii_deferred_init s)
| reach_append s d s' : reach E sz s -> raii_array_append E sz s = (d, s') -> reach E sz s'
| reach_remove s : reach E sz s -> 0 < w_elems s ->
    reach E sz (set_words (w_type s) (w_base s) (u64 (w_elems s - 1)) s).
Lemma reach_ok E sz s : fits E -> 0 < sz -> word sz -> reach E sz s -> arr_ok sz s.
Proof.
  intros F Hs W. induction 1 as [s Hl|s d s' R IH A|s R IH P].
  - unfold arr_ok. cbn [raii_deferred_init set_blk set_words w_elems w_base blk length]. change (round_up 16 0) with 0. repeat split; try lia; auto.
  - pose proof (append_ok E sz s F Hs W IH) as X. rewrite A in X.
    destruct X as [(_ & X1 & X2 & X3 & _)|X]; [|tauto]. unfold arr_ok in *. rewrite X1, X2, X3. exact IH.
  - unfold arr_ok in *. cbn [set_words w_elems w_base blk]. destruct IH as (I1 & I2 & I3 & I4).
    assert (zlen (blk s) < 18446744073709551616). { destruct I4 as [(? & ? & ->)|?]; cbn [length]; lia. }
    rewrite u64_id by nia. assert (round_up 16 (w_elems s - 1) <= round_up 16 (w_elems s)) by (unfold round_up; clear; lia).
    repeat split; try lia; nia.
Qed.
Theorem array_within_block : forall E sz s, fits E -> 0 < sz < 18446744073709551616 -> reach E sz s ->
  0 <= w_elems s /\ w_elems s * sz <= Z.of_nat (length (blk s)) /\
  let '(d, s') := raii_array_append E sz s in
    (d = 0 /\ w_elems s' = w_elems s /\ w_base s' = w_base s /\ blk s' = blk s) \/
    (w_elems s' = w_elems s + 1 /\ d = w_base s' + w_elems s * sz /\ 0 < w_base s' /\
     d + sz <= w_base s' + Z.of_nat (length (blk s')) /\
     (forall p, 0 <= p -> p + 8 <= w_elems s * sz -> ldw (blk s') p = ldw (blk s) p)).
Proof.
  intros E sz s F Hs R. pose proof (reach_ok E sz s F ltac:(lia) ltac:(unfold word; lia) R) as A.
  split; [apply A|]. split; [apply A|]. pose proof (append_ok E sz s F ltac:(lia) ltac:(unfold word; lia) A) as X.
  destruct (raii_array_append E sz s) as [d s']. destruct X as [X|(X1 & X2 & X3 & (Y1 & Y2 & Y3 & Y4) & X5 & _)]; [left; tauto|right].
  rewrite X3 in *. repeat split; auto; nia.
Qed.
Theorem umull_overflow_exact : forall a b, 0 <= a < 18446744073709551616 -> 0 <= b < 18446744073709551616 ->
  umull_overflow a b = if a * b <? 18446744073709551616 then Some (a * b) else None.
Proof. exact umull_exact. Qed.
Theorem add_overflow_exact : forall a, 0 <= a < 18446744073709551616 ->
  add_overflow a INCREMENT = if a + 16 <? 18446744073709551616 then Some (a + 16) else None.
Proof. exact add_exact. Qed.
Example array_case :
  umull_overflow 4294967296 4294967296 = None /\ umull_overflow 4294967295 4294967297 = Some 18446744073709551615 /\
  add_overflow 18446744073709551600 16 = None /\ add_overflow 18446744073709551599 16 = Some 18446744073709551615 /\
  exists s, reach (tidy [] nothing) 24 s /\ w_elems s = 1.
Proof.
  do 4 (split; [vm_compute; reflexivity|]). eexists. split.
  - eapply reach_append. apply (reach_init _ _ (unique_init 5000 0 0)); reflexivity. vm_compute. reflexivity.
  - reflexivity.
Qed.

(** * C32 *)
(** A deferred function that defers another one on the same scope: the second is never called. *)
Definition chain : Z -> Z -> list (Z * Z * Z) := fun f _ => if f =? 100 then [(200, 0, 0)] else [].
Theorem nested_defer_refuted : exists E user s0 tr,
  fits E /\ fresh s0 /\ act E 100 1 = [(200, 0, 0)] /\ isfn E 200 = true /\
  (let* (_, s1) := raii_deferred E 100 1 s0 in
   let* s2 := releases E user 3 s1 in
   Ok (trace s2)) = Ok tr /\
  In (Call 100 1) tr /\ ~ In (Call 200 0) tr.
Proof.
  exists (tidy [100; 200] chain), user0, (unique_init 5000 0 0), [Call 100 1; Freed 65536].
  split; [apply tidy_fits|]. split; [exists 5000, 0, 0%nat; auto|]. 
  do 3 (split; [vm_compute; reflexivity|]). split; [left; reflexivity|]. intros H; repeat destruct H as [H|H]; discriminate || contradiction.
Qed.
(** With 16 functions registered the nested defer moves the array under the running loop. *)
Theorem nested_defer_dangles_refuted : exists E user s0,
  fits E /\ fresh s0 /\
  (let* (_, s) := defers E (steps 16) s0 in Ok (raii_deferred_free E user s)) = Ok (Undef UseAfterFree).
Proof.
  exists (tidy [100; 200] chain), user0, (unique_init 5000 0 0).
  split; [apply tidy_fits|]. split; [exists 5000, 0, 0%nat; auto|]. vm_compute. reflexivity.
Qed.

(** What happens in general.  [busy]: the functions can be called and may defer
    anything; [nested]: all that they defer during the release.  However many
    releases follow, either the loop went on in an array that had been moved, or
    exactly the functions registered before the release were called, newest
    first: none of the nested ones ever is. *)
Theorem nested_never_called : forall E user h s0 is s er pa n,
  fits E -> Forall wordy h -> Forall (busy E) h -> fresh s0 ->
  defers E h s0 = Ok (is, s) -> raii_deferred_count s = Z.of_nat (length h) ->
  releases E user (1 + n) (set_err er pa s) = Undef UseAfterFree \/
  exists s', releases E user (1 + n) (set_err er pa s) = Ok s' /\
    trace s' = map (fun e => Call (fst (fst e)) (snd (fst e))) (rev h) ++ returned [w_base s].
Proof.
  intros E user h s0 is s er pa n F W Q Fr D C. destruct (fresh_holds s0 Fr) as (H & T & P & Tr & _ & _ & Ip).
  destruct (defers_ok E F h s0 [] H W) as (is2 & s2 & m & D2 & _ & _ & Fm & Tt & _). rewrite D in D2. injection D2 as <- <-.
  destruct (defers_count E h F W _ _ _ _ H D) as [_ Hh]. specialize (Hh C). cbn [app] in Hh.
  assert (Ft : w_type s = w_type s0) by apply Fm. assert (Fq : protector s = protector s0) by apply Fm.
  destruct (free_busy E user (set_err er pa s) h F Hh) as ([X|(s' & E1 & R1 & T1)] & _); [cbn; congruence..|assumption| |].
  - left. cbn [releases Nat.add]. rewrite X. reflexivity.
  - right. exists s'. cbn [releases Nat.add]. rewrite E1. cbn [bind]. split.
    + clear - R1. induction n; cbn [releases]; auto. rewrite (free_released E user s' R1). cbn [bind]. exact IHn.
    + rewrite T1. cbn [set_err trace w_base]. rewrite Tt, Tr, returned_one. reflexivity.
Qed.
(** Which of the two: with room for all of them in the array's last sixteen slots the release completes ... *)
Theorem nested_lost_in_room : forall E user h s0 is s er pa,
  fits E -> Forall wordy h -> Forall (busy E) h -> fresh s0 -> h <> [] ->
  defers E h s0 = Ok (is, s) -> raii_deferred_count s = Z.of_nat (length h) ->
  Z.of_nat (length h) + Z.of_nat (length (nested E h)) <= round_up 16 (Z.of_nat (length h)) ->
  exists s', raii_deferred_free E user (set_err er pa s) = Ok s' /\
    trace s' = map (fun e => Call (fst (fst e)) (snd (fst e))) (rev h) ++ returned [w_base s].
Proof.
  intros E user h s0 is s er pa F W Q Fr Ne D C Cap.
  destruct (nested_never_called E user h s0 is s er pa 0 F W Q Fr D C) as [X|(s' & X & T)].
  - exfalso. cbn in X. destruct (fresh_holds s0 Fr) as (H & Ty & P & _).
    destruct (defers_ok E F h s0 [] H W) as (is2 & s2 & m & D2 & _ & _ & Fm & Tt & _). rewrite D in D2. injection D2 as <- <-.
    destruct (defers_count E h F W _ _ _ _ H D) as [_ Hh]. specialize (Hh C). cbn [app] in Hh.
    assert (Ft : w_type s = w_type s0) by apply Fm. assert (Fq : protector s = protector s0) by apply Fm.
    destruct (free_busy E user (set_err er pa s) h F Hh) as (_ & Y & _); [cbn; congruence..|assumption|].
    apply Y; auto. { destruct h; [contradiction|cbn [length]; lia]. }
    destruct (raii_deferred_free E user (set_err er pa s)); cbn in X; congruence.
  - exists s'. split; [|exact T]. cbn in X. destruct (raii_deferred_free E user (set_err er pa s)); cbn in X; congruence.
Qed.
(** ... and without, if the allocator has memory for the larger array and does not
    give out the old block again ([ticks]: the requests made so far), the loop uses the freed block. *)
Theorem nested_moves_array : forall E user h s0 is s er pa,
  fits E -> Forall wordy h -> Forall (busy E) h -> fresh s0 ->
  defers E h s0 = Ok (is, s) -> raii_deferred_count s = Z.of_nat (length h) ->
  round_up 16 (Z.of_nat (length h)) < Z.of_nat (length h) + Z.of_nat (length (nested E h)) ->
  (forall t, place E t (32 * (round_up 16 (Z.of_nat (length h)) + 16)) <> 0) ->
  (forall t n, (ticks s <= t)%nat -> place E t n <> w_base s) ->
  raii_deferred_free E user (set_err er pa s) = Undef UseAfterFree.
Proof.
  intros E user h s0 is s er pa F W Q Fr D C Over Pl Mv. destruct (fresh_holds s0 Fr) as (H & Ty & P & _).
  destruct (defers_ok E F h s0 [] H W) as (is2 & s2 & m & D2 & _ & _ & Fm & Tt & _). rewrite D in D2. injection D2 as <- <-.
  destruct (defers_count E h F W _ _ _ _ H D) as [_ Hh]. specialize (Hh C). cbn [app] in Hh.
  assert (Ft : w_type s = w_type s0) by apply Fm. assert (Fq : protector s = protector s0) by apply Fm.
  destruct (free_busy E user (set_err er pa s) h F Hh) as (_ & _ & Y); [cbn; congruence..|assumption|].
  apply Y; auto.
Qed.
Example nested_moves_case :
  let E := Env (fun t n => if (0 <? n) && (n <? 65536) then 65536 * (1 + Z.of_nat (Nat.min t 1000)) else 0)
               (fun _ _ => 170) (fun f => existsb (Z.eqb f) [100; 200]) chain in
  match defers E (steps 9) (unique_init 5000 0 0) with
  | Ok (is, s) => raii_deferred_count s = 9 /\ round_up 16 9 < 9 + Z.of_nat (length (nested E (steps 9))) /\
     (forall t, place E t (32 * (round_up 16 9 + 16)) <> 0) /\
     (forall t n, (ticks s <= t)%nat -> place E t n <> w_base s) /\
     raii_deferred_free E user0 s = Undef UseAfterFree
  | _ => False
  end.
Proof.
  intros E.
  assert (K : exists is s, defers E (steps 9) (unique_init 5000 0 0) = Ok (is, s) /\ raii_deferred_count s = 9 /\
    ticks s = 1%nat /\ w_base s = 65536 /\ raii_deferred_free E user0 s = Undef UseAfterFree).
  { eexists. eexists. split; [vm_compute; reflexivity|]. vm_compute. auto. }
  destruct K as (is & s & -> & -> & K1 & K2 & K3). split; [reflexivity|]. split; [vm_compute; reflexivity|]. split; [|split; [|exact K3]].
  - intros t. change (32 * (round_up 16 9 + 16)) with 1024. cbn [place E]. change ((0 <? 1024) && (1024 <? 65536)) with true. cbv iota. lia.
  - rewrite K1, K2. intros t n Ht. cbn [place E]. destruct ((0 <? n) && (n <? 65536)); lia.
Qed.
Example nested_room_case :
  let E := tidy [100; 200] chain in
  Forall (busy E) (steps 8) /\ length (nested E (steps 8)) = 8%nat /\
  match defers E (steps 8) (unique_init 5000 0 0) with
  | Ok (is, s) => raii_deferred_count s = 8 /\
     match raii_deferred_free E user0 s with
     | Ok s' => trace s' = map (fun k => Call 100 (Z.of_nat k)) (rev (seq 0 8)) ++ [Freed 65536]
     | _ => False
     end
  | _ => False
  end.
Proof.
  split. { repeat constructor; unfold word; cbn; lia. }
  vm_compute. repeat split.
Qed.

(** * C66 *)
(** After two allocations on a scope the protector is linked to itself, and
    releasing the scope leaves the exception context pointing to the freed protector. *)
Theorem protector_dangles_refuted : exists E user s0 tr q,
  fits E /\ fresh s0 /\ ctx_stack s0 = 0 /\
  (let* (_, s1) := malloc_full E 24 200 s0 in
   let* (_, s2) := malloc_full E 24 200 s1 in
   let* s3 := raii_deferred_free E user s2 in
   Ok (trace s3, ctx_stack s3)) = Ok (tr, q) /\
  In (Freed q) tr.
Proof.
  exists (tidy [100; 200] nothing), user0, (unique_init 5000 0 0),
    [Call 200 262144; Call 200 65536; Freed 131072; Freed 196608], 131072.
  split; [apply tidy_fits|]. split; [exists 5000, 0, 0%nat; auto|]. 
  do 2 (split; [vm_compute; reflexivity|]). cbn. auto.
Qed.
(** With a single allocation the context is restored. *)
Theorem protector_restored_partial : forall E user s0 size func a s1 s2 er pa,
  fits E -> fresh s0 -> 0 < size -> word func -> isfn E func = true -> (forall d, act E func d = []) ->
  malloc_full E size func s0 = Ok (Some a, s1) -> raii_deferred_count s1 = 1 ->
  raii_deferred_free E user (set_err er pa s1) = Ok s2 -> ctx_stack s2 = ctx_stack s0 /\ protector s2 = None.
Proof.
  intros E user s0 size func a s1 s2 er pa F Fr Hs Wf Hf Ha M C R.
  destruct (fresh_holds s0 Fr) as (H & T & P & Tr & B & Tl & Ip).
  unfold malloc_full in M.
  destruct (Z.eqb_spec (place E (ticks s0) size) 0); [discriminate|].
  assert (Wa : 0 < place E (ticks s0) size < 18446744073709551616) by (destruct (F (ticks s0) size Hs); lia).
  cbn [tick protector] in M. rewrite P in M. 
  destruct (Z.eqb_spec (place E (ticks (tick s0)) 32) 0); [discriminate|]. cbn [bind] in M.
  set (q := place E (ticks (tick s0)) 32) in *. unfold raii_deferred in M.
  set (s3 := set_flags _ true (ex_protect_ptr q _ func (tick (tick s0)))) in M.
  assert (H3 : holds s3 []) by (apply holds_prot; rewrite !holds_tick; exact H).
  destruct (deferred_any_ok E func (place E (ticks s0) size) 0 s3 [] F H3) as (i & s4 & D & Fm & Tt & _ & Q).
  { unfold wordy, word in *; cbn [fst snd]; lia. }
  rewrite D in M. cbn [bind] in M. injection M as Ma Ms. subst a. subst s1.
  destruct Q as [[_ Q]|(Q & _)]. { destruct Q as (_ & _ & Q & _). unfold raii_deferred_count in C. cbn [set_mid w_elems length] in *. lia. }
  cbn [app] in Q.
  assert (Pr : protector s4 = Some (Prot q EX_PROTECTED (ctx_stack s0) func (place E (ticks s0) size))) by apply Fm.
  assert (Ft : w_type s4 = RAII_DEF_ARR). { destruct Fm as (_ & _ & _ & X & _). rewrite X. exact T. }
  destruct Q as (Ql & Qa & Qe & Qr).
  unfold raii_deferred_free in R. cbn [set_err set_mid live w_type] in R. rewrite Ql, Ft, Z.eqb_refl in R. cbn [negb] in R.
  unfold raii_deferred_run in R. cbv zeta in R.
  set (s5 := set_flags _ _ (set_err er pa (set_mid i s4))) in R.
  assert (E5 : w_elems s5 = 1) by exact Qe. rewrite E5 in R. change (Z.to_nat 1) with (length [(func, place E (ticks s0) size, 0)]) in R.
  destruct (run_loop_ok E [(func, place E (ticks s0) size, 0)] s5) as (s6 & E6 & Fm6 & _).
  { destruct Qa as (_ & A2 & _). rewrite Qe in A2. cbn [s5 set_flags set_err set_mid w_base blk length] in *. lia. }
  { exact Qr. } { constructor; auto. split; cbn [fst snd]; auto. }
  rewrite E6 in R. cbn [bind] in R.
  assert (P6 : protector s6 = protector s4) by apply Fm6. rewrite Pr in P6. rewrite P6 in R.
  change (1 =? 0) with false in R. cbv beta iota in R.
  destruct (is_protected s6 && negb (s_err s6 =? 0)); cbn [bind] in R; cbn [set_flags set_words protector] in R; rewrite P6 in R; cbn [bind] in R;
    injection R as <-; unfold raii_array_reset, ex_unprotected_ptr, raii_free; cbn [p_type p_addr p_next];
    change (EX_PROTECTED =? EX_PROTECTED) with true; repeat match goal with |- context[if ?c then _ else _] => destruct c end; cbn; auto.
Qed.

(** * The theorems above on concrete values: their hypotheses can be met. *)
Ltac calc := vm_compute; first [reflexivity | discriminate | (intros; discriminate)].
Ltac met := first [ lazymatch goal with |- _ = _ => vm_compute; reflexivity end | lia | apply tidy_fits | apply tidy_aligned | (exists 5000, 0, 0%nat; solve [auto])  | (repeat constructor; cbn; unfold SpecDefer.word; lia) | (left; discriminate) | (right; calc) | (intros; lia) | calc | (split; calc) ].
Definition three := [(100, 1, 0); (200, 2, 0); (100, 3, 0)].
Definition two_funcs := tidy [100; 200] nothing.
Definition got {A} (d : A) (o : out A) : A := match o with Ok a => a | _ => d end.
Definition three_in := got ([], unique_init 0 0 0) (defers two_funcs three (unique_init 5000 0 0)).
Example release_lifo_met := release_lifo two_funcs user0 three (unique_init 5000 0 0) 9 0 ltac:(met) ltac:(met) ltac:(met) ltac:(met).
Example release_lifo_all_met := release_lifo_all two_funcs user0 three (unique_init 5000 0 0) (fst three_in) (snd three_in) 9 0 ltac:(met) ltac:(met) ltac:(met) ltac:(met) ltac:(met) ltac:(met).
Example delete_lifo_met := delete_lifo two_funcs user0 three (unique_init 5000 0 0) (fst three_in) (snd three_in) 0 0 ltac:(met) ltac:(met) ltac:(met) ltac:(met) ltac:(met) ltac:(met).
Example release_idempotent_met := release_idempotent two_funcs user0 three (unique_init 5000 0 0) (fst three_in) (snd three_in) 0 0 4 ltac:(met) ltac:(met) ltac:(met) ltac:(met) ltac:(met).
Definition used_up : scope := match defers two_funcs three (unique_init 5000 0 0) with
  | Ok (_, s) => match raii_deferred_free two_funcs user0 s with Ok s' => s' | _ => s end
  | _ => unique_init 5000 0 0 end.
Example used_up_released : released used_up /\ is_protected used_up = false /\ trace used_up = [Call 100 3; Call 200 2; Call 100 1; Freed 65536].
Proof. vm_compute. repeat split. Qed.
Example released_scope_loses_defers_met := released_scope_loses_defers two_funcs user0 used_up three 3 ltac:(met) (proj1 used_up_released) ltac:(met).
Definition again := got ([], used_up) (defers two_funcs three (raii_deferred_init used_up)).
Example release_reuse_partial_met := release_reuse_partial two_funcs user0 used_up three (fst again) (snd again) 0 0 ltac:(met) (proj1 used_up_released) (proj1 (proj2 used_up_released))
  ltac:(met) ltac:(met) ltac:(met) ltac:(met).
Definition allocs := got ([], used_up) (run_ops two_funcs [Alloc 24 200; Defer 100 5 0; Alloc 8 200] (unique_init 5000 0 0)).
Definition sixteen := got ([], used_up) (defers two_funcs (steps 7 ++ (100, 100, 0) :: steps 8) (unique_init 5000 0 0)).
Example fire_reads_met := fire_reads two_funcs (unique_init 5000 0 0) (steps 7) (steps 8) 100 100 0 (fst sixteen) (snd sixteen) (nth 7 (fst sixteen) 0)
  ltac:(met) ltac:(met) ltac:(met) ltac:(met) ltac:(met) ltac:(met) ltac:(met) ltac:(vm_compute; discriminate).
Example sixteen_fires : match raii_deferred_fire two_funcs (nth 7 (fst sixteen) 0) (snd sixteen) with Ok s' => trace s' = [Call 100 0] | _ => False end.
Proof. vm_compute. reflexivity. Qed.
Example alloc_release_partial_met := alloc_release_partial two_funcs user0 [Alloc 24 200; Defer 100 5 0; Alloc 8 200] 5000 0 0 (fst allocs) (snd allocs) 9 0
  ltac:(met) ltac:(met) ltac:(met) ltac:(met) ltac:(vm_compute; repeat constructor).
Definition appended := raii_array_append two_funcs 40 (raii_deferred_init (unique_init 5000 0 0)).
Example array_within_block_met := array_within_block two_funcs 40 (snd appended) ltac:(met) ltac:(met)
  (reach_append two_funcs 40 _ (fst appended) (snd appended) (reach_init two_funcs 40 (unique_init 5000 0 0) eq_refl) ltac:(vm_compute; reflexivity)).

Print Assumptions release_lifo. Print Assumptions release_lifo_all. Print Assumptions delete_lifo.
Print Assumptions release_idempotent. Print Assumptions released_scope_loses_defers. Print Assumptions release_reuse_refuted.
Print Assumptions release_reuse_partial. Print Assumptions cancel_partial. Print Assumptions cancel_refuted.
Print Assumptions cancel_wrong_one_refuted. Print Assumptions fire_partial. Print Assumptions fire_reads. Print Assumptions entry_written.
Print Assumptions fire_refuted.
Print Assumptions alloc_release_partial. Print Assumptions alloc_release_refuted. Print Assumptions array_within_block.
Print Assumptions umull_overflow_exact. Print Assumptions add_overflow_exact. Print Assumptions nested_defer_refuted.
Print Assumptions nested_defer_dangles_refuted. Print Assumptions protector_dangles_refuted. Print Assumptions protector_restored_partial.
Print Assumptions nested_never_called. Print Assumptions nested_lost_in_room. Print Assumptions nested_moves_array.
Print Assumptions cancel_writes.
Print Assumptions delete_own_or_made. Print Assumptions delete_again. Print Assumptions last_mid_exact.
