(** C56, C57, C72: pools of threads. *)
From Verif Require Import BaseLemmas SpawnModel.

(** ** Tables *)
Lemma nth_put {A} (l l' : list (option A)) i x : put l i x = Ok l' ->
  0 <= i < Z.of_nat (length l) /\ length l' = length l /\ nth_error l' (Z.to_nat i) = Some (Some x) /\ (forall k, k <> Z.to_nat i -> nth_error l' k = nth_error l k).
Proof.
  unfold put. destruct ((0 <=? i) && (i <? Z.of_nat (length l))) eqn:E; [|discriminate]. intros [= <-]. assert (H : 0 <= i < Z.of_nat (length l)) by lia. split; [exact H|].
  assert (Hn : (Z.to_nat i < length l)%nat) by lia. revert Hn. generalize (Z.to_nat i). clear. induction l as [|a l IH]; intros n Hn; cbn [length] in Hn; [lia|].
  destruct n as [|n]; cbn [firstn app skipn length nth_error].
  - split; [reflexivity|]. split; [reflexivity|]. intros [|k] K; [congruence|reflexivity].
  - destruct (IH n) as (A1 & A2 & A3); [lia|]. split; [f_equal; exact A1|]. split; [exact A2|]. intros [|k] K; [reflexivity|]. apply A3. congruence.
Qed.
Lemma put_ok {A} (l : list (option A)) i x : 0 <= i < Z.of_nat (length l) -> exists l', put l i x = Ok l'.
Proof. intros H. unfold put. replace ((0 <=? i) && (i <? Z.of_nat (length l))) with true by lia. eauto. Qed.
Lemma nth_regrow {A} (l : list (option A)) n k : (length l <= Z.to_nat (n / 8) -> k < length l -> nth_error (regrow l n) k = nth_error l k)%nat.
Proof. intros H K. unfold regrow. rewrite firstn_all2 by exact H. apply nth_error_app1. exact K. Qed.
Lemma length_regrow {A} (l : list (option A)) n : (length l <= Z.to_nat (n / 8))%nat -> length (regrow l n) = Z.to_nat (n / 8).
Proof. intros H. unfold regrow. rewrite firstn_all2, app_length, repeat_length by exact H. lia. Qed.

(** What a pool looks like after spawning the threads [ids]. *)
Definition holding (cpu : Z) (ids : list nat) (p : pool) : Prop :=
  thread_count p = Z.of_nat (length ids) /\ cpu_present p = cpu /\ length (p_results p) = length (p_futures p) /\
  Z.of_nat (length ids) <= Z.of_nat (length (p_futures p)) < Z.of_nat (length ids) + cpu /\ Z.of_nat (length (p_futures p)) mod cpu = 0 /\
  (forall i id, nth_error ids i = Some id -> nth_error (p_futures p) i = Some (Some id)) /\
  (forall i id, nth_error ids i = Some id -> nth_error (p_results p) i = Some (Some (RData false None))) /\ alive p = ids.
Lemma spawn_one cpu ids id p : 1 <= cpu < 2 ^ 31 -> Z.of_nat (length ids) < 2 ^ 31 - 1 -> holding cpu ids p -> exists p', thrd_spawn id p = Ok p' /\ holding cpu (ids ++ [id]) p'.
Proof.
  intros Hc Hn (C & D & Lr & Lf & Lm & F & R & Al). unfold thrd_spawn. rewrite D. destruct (Z.eqb_spec cpu 0) as [|_]; [lia|]. rewrite C.
  set (n := Z.of_nat (length ids)) in *. unfold u64. rewrite (Z.mod_small n) by lia.
  assert (X : exists fs rs, (if n mod cpu =? 0 then (regrow (p_futures p) (((n + cpu) mod 18446744073709551616 * 8) mod 18446744073709551616), regrow (p_results p) (((n + cpu) mod 18446744073709551616 * 8) mod 18446744073709551616)) else (p_futures p, p_results p)) = (fs, rs) /\
    length rs = length fs /\ n < Z.of_nat (length fs) < n + 1 + cpu /\ Z.of_nat (length fs) mod cpu = 0 /\ (forall k, (k < length ids)%nat -> nth_error fs k = nth_error (p_futures p) k /\ nth_error rs k = nth_error (p_results p) k)).
  { destruct (Z.eqb_spec (n mod cpu) 0) as [E|E].
    - rewrite (Z.mod_small (n + cpu)) by lia. rewrite (Z.mod_small ((n + cpu) * 8)) by lia. eexists. eexists. split; [reflexivity|].
      assert (T : Z.to_nat ((n + cpu) * 8 / 8) = Z.to_nat (n + cpu)) by (rewrite Z.div_mul by lia; reflexivity).
      rewrite !length_regrow by (rewrite T; lia). rewrite T. rewrite Z2Nat.id by lia. split; [reflexivity|]. split; [lia|]. split; [rewrite Z.add_mod, Z.mod_same, E by lia; apply Z.mod_0_l; lia|].
      intros k Hk. rewrite !nth_regrow by lia. auto.
    - eexists. eexists. split; [reflexivity|]. split; [exact Lr|]. split; [|split; [exact Lm|auto]]. destruct (Z.eq_dec n (Z.of_nat (length (p_futures p)))); [congruence|lia]. }
  destruct X as (fs & rs & -> & Lrs & Lfs & Lmod & Old).
  destruct (put_ok fs n id) as (fs' & Ef); [lia|]. rewrite Ef. cbn [bind]. destruct (put_ok rs n (RData false None)) as (rs' & Er); [lia|]. rewrite Er. cbn [bind].
  destruct (Z.eqb_spec n 2147483647); [lia|]. eexists. split; [reflexivity|].
  destruct (nth_put _ _ _ _ Ef) as (_ & Lf' & Nf & Of). destruct (nth_put _ _ _ _ Er) as (_ & Lr' & Nr & Or). unfold n in *. rewrite Nat2Z.id in *.
  unfold holding. cbn [thread_count cpu_present p_futures p_results alive]. rewrite app_length. cbn [length].
  split; [lia|]. split; [reflexivity|]. split; [congruence|]. split; [lia|]. split; [rewrite Lf'; exact Lmod|].
  assert (G : forall i x, nth_error (ids ++ [id]) i = Some x -> (i < length ids /\ nth_error ids i = Some x)%nat \/ (i = length ids /\ x = id)).
  { intros i x H. destruct (Nat.lt_ge_cases i (length ids)) as [Hi|Hi]; [left; rewrite nth_error_app1 in H by exact Hi; auto|right].
    rewrite nth_error_app2 in H by exact Hi. destruct (i - length ids)%nat as [|m] eqn:Em; cbn in H; [injection H as <-; split; [lia|reflexivity]|destruct m; discriminate]. }
  split; [|split; [|congruence]].
  - intros i x H. destruct (G i x H) as [(Hi & Hx)|(-> & ->)]; [|exact Nf]. rewrite Of by lia. rewrite (proj1 (Old i Hi)). apply F. exact Hx.
  - intros i x H. destruct (G i x H) as [(Hi & Hx)|(-> & ->)]; [|exact Nr]. rewrite Or by lia. rewrite (proj2 (Old i Hi)). apply (R i x). exact Hx.
Qed.
Lemma spawns_ok cpu : 1 <= cpu < 2 ^ 31 -> forall ids old p, Z.of_nat (length (old ++ ids)) < 2 ^ 31 -> holding cpu old p -> exists p', spawns ids p = Ok p' /\ holding cpu (old ++ ids) p'.
Proof.
  intros Hc. induction ids as [|id ids IH]; intros old p Hn H; cbn [spawns]; [rewrite app_nil_r; eauto|].
  rewrite app_length in Hn. cbn [length] in Hn. destruct (spawn_one cpu old id p Hc) as (p1 & E1 & H1); [lia|exact H|]. rewrite E1. cbn [bind].
  destruct (IH (old ++ [id]) p1) as (p' & E' & H'); [rewrite !app_length; cbn [length]; lia|exact H1|]. exists p'. rewrite <- app_assoc in H'. auto.
Qed.
Lemma scope_holding cpu : 1 <= cpu -> holding cpu [] (thrd_scope cpu).
Proof. intros H. unfold holding. cbn. repeat split; auto; try lia; intros [|i] x; discriminate. Qed.

(** ** C56 *)
(** Any number of threads (an int), any processor count: nothing is written outside the tables, which hold each thread in its own
    place, in order. *)
Theorem spawn_tables : forall cpu ids, 1 <= cpu < 2 ^ 31 -> Z.of_nat (length ids) < 2 ^ 31 ->
  exists p, spawns ids (thrd_scope cpu) = Ok p /\ thread_count p = Z.of_nat (length ids) /\
    (forall i id, nth_error ids i = Some id -> nth_error (p_futures p) i = Some (Some id) /\ nth_error (p_results p) i = Some (Some (RData false None))) /\
    Z.of_nat (length (p_futures p)) < Z.of_nat (length ids) + cpu.
Proof.
  intros cpu ids Hc Hn. destruct (spawns_ok cpu Hc ids [] (thrd_scope cpu) Hn (scope_holding cpu (proj1 Hc))) as (p & E & C & _ & _ & L & _ & F & R & _). exists p. cbn [app] in *.
  split; [exact E|]. split; [exact C|]. split; [eauto|]. lia.
Qed.
Example spawn_case : match spawns (seq 0 10) (thrd_scope 4) with Ok p => length (p_futures p) = 12%nat /\ nth_error (p_futures p) 9 = Some (Some 9%nat) | _ => False end.
Proof. vm_compute. auto. Qed.
(** A failed thrd_cpu_count of 0 divides by zero. *)
Theorem spawn_no_cpu_refuted : exists id, thrd_spawn id (thrd_scope 0) = Undef DivZero.
Proof. exists 0%nat. reflexivity. Qed.

(** What thrd_sync hands over for a promise. *)
Definition copied (r : presult) : option (Z * list Z) :=
  match r with PRes v size ext => Some (if 0 <? size then (0, firstn (Z.to_nat size) ext) else (v, [])) | PNull => None end.
(** Non-NULL, with as many bytes as announced. *)
Definition present (r : presult) : Prop := match r with PRes _ size ext => size <= Z.of_nat (length ext) \/ size <= 0 | PNull => False end.
Lemma fetch_ok {A} (l : list (option A)) i x : nth_error l i = Some (Some x) -> fetch l (Z.of_nat i) = Ok x.
Proof. intros H. assert (i < length l)%nat by (apply nth_error_Some; congruence). unfold fetch. replace ((0 <=? Z.of_nat i) && (Z.of_nat i <? Z.of_nat (length l))) with true by lia. rewrite Nat2Z.id, H. reflexivity. Qed.
Lemma filter_gone id l : ~ In id l -> filter (fun k => negb (Nat.eqb k id)) l = l.
Proof. induction l as [|a l IH]; intros H; [reflexivity|]. cbn [filter]. destruct (Nat.eqb_spec a id) as [->|N]; [elim H; left; reflexivity|]. cbn [negb]. f_equal. apply IH. intros X. apply H. right. exact X. Qed.
Lemma sync_ok res err ids fs : forall todo done p, ids = done ++ todo -> NoDup ids -> Forall (fun k => present (res k) /\ err k = 0) ids ->
  p_futures p = fs -> (forall i id, nth_error ids i = Some id -> nth_error fs i = Some (Some id)) -> (length ids <= length (p_results p))%nat -> alive p = todo ->
  (forall i, (length done <= i < length ids)%nat -> exists r, nth_error (p_results p) i = Some (Some r)) ->
  exists p', sync_from (length todo) true res err (Z.of_nat (length done)) p = Ok p' /\ thread_count p' = thread_count p /\ alive p' = [] /\
    (forall i, (i < length done)%nat -> nth_error (p_results p') i = nth_error (p_results p) i) /\
    (forall i id, (length done <= i)%nat -> nth_error ids i = Some id -> nth_error (p_results p') i = Some (Some (RData true (copied (res id))))).
Proof.
  induction todo as [|id todo IH]; intros done p Hi Nd Ok' Pf F Lr Al Rs; cbn [length sync_from].
  - rewrite app_nil_r in Hi. subst done. exists p. repeat split; auto. intros i id Hl Hid. exfalso. assert (i < length ids)%nat by (apply nth_error_Some; congruence). lia.
  - assert (Nid : nth_error ids (length done) = Some id) by (rewrite Hi, nth_error_app2, Nat.sub_diag by lia; reflexivity).
    assert (Ll : length ids = (length done + S (length todo))%nat) by (rewrite Hi, app_length; reflexivity).
    assert (Pr : present (res id) /\ err id = 0) by (rewrite Forall_forall in Ok'; apply Ok'; eapply nth_error_In; eauto). destruct Pr as (Pr & Er).
    unfold sync_one. rewrite Pf, (fetch_ok fs (length done) id (F _ _ Nid)). cbn [bind]. rewrite Al. cbn [existsb]. rewrite Nat.eqb_refl. cbn [orb negb].
    destruct (res id) as [|v size ext] eqn:Rid; [destruct Pr|]. cbn [present] in Pr.
    replace ((0 <? size) && (Z.of_nat (length ext) <? size)) with false by lia.
    destruct (Rs (length done)) as (r0 & Hr0); [lia|]. rewrite (fetch_ok _ _ _ Hr0). cbn [bind].
    set (cp := if 0 <? size then _ else _). destruct (put_ok (p_results p) (Z.of_nat (length done)) (RData true (Some cp))) as (rs & Ers); [lia|]. rewrite Ers. cbn [bind]. rewrite Er. cbn [Z.eqb].
    destruct (nth_put _ _ _ _ Ers) as (_ & Lrs & Nrs & Ors). rewrite Nat2Z.id in *.
    assert (Nt : ~ In id todo) by (rewrite Hi in Nd; apply NoDup_remove_2 in Nd; intros X; apply Nd, in_or_app; auto).
    set (p1 := Pool _ _ _ rs _).
    destruct (IH (done ++ [id]) p1) as (p' & E' & T' & A' & O' & N').
    + rewrite <- app_assoc. exact Hi.
    + exact Nd.
    + exact Ok'.
    + exact eq_refl.
    + exact F.
    + change (p_results p1) with rs. lia.
    + unfold p1. cbn [alive filter]. rewrite Nat.eqb_refl. cbn [negb]. apply filter_gone. exact Nt.
    + intros i Hl. rewrite app_length in Hl. cbn [length] in Hl. change (p_results p1) with rs. rewrite Ors by lia. apply Rs. lia.
    + replace (Z.of_nat (length (done ++ [id]))) with (Z.of_nat (length done) + 1) in E' by (rewrite app_length; cbn [length]; lia).
      exists p'. split; [exact E'|]. split; [exact T'|]. split; [exact A'|]. split.
      * intros i Hl. rewrite O' by (rewrite app_length; lia). change (p_results p1) with rs. apply Ors. lia.
      * intros i x Hl Hx. destruct (Nat.eq_dec i (length done)) as [->|Ne].
        -- rewrite O' by (rewrite app_length; cbn [length]; lia). change (p_results p1) with rs. rewrite Nrs. assert (x = id) by congruence. subst x. rewrite Rid. reflexivity.
        -- apply N'; [rewrite app_length; cbn [length]; lia|exact Hx].
Qed.
(** Machine reading, results non-NULL and no exception: thrd_sync stores the result of the i-th thread spawned in the i-th place. *)
Theorem sync_in_order_partial : forall cpu ids res err, 1 <= cpu < 2 ^ 31 -> Z.of_nat (length ids) < 2 ^ 31 -> NoDup ids -> Forall (fun k => present (res k) /\ err k = 0) ids ->
  exists p p', spawns ids (thrd_scope cpu) = Ok p /\ thrd_sync true res err p = Ok p' /\ thread_count p' = Z.of_nat (length ids) /\
    forall i id, nth_error ids i = Some id -> nth_error (p_results p') i = Some (Some (RData true (copied (res id)))).
Proof.
  intros cpu ids res err Hc Hn Nd Ok'. destruct (spawns_ok cpu Hc ids [] (thrd_scope cpu) Hn (scope_holding cpu (proj1 Hc))) as (p & E & C & _ & Lr & L & _ & F & R & Al). cbn [app] in *.
  destruct (sync_ok res err ids (p_futures p) ids [] p) as (p' & E' & T & _ & _ & N'); auto.
  - lia.
  - intros i Hi. destruct (nth_error ids i) as [x|] eqn:Hx; [eauto|]. apply nth_error_None in Hx. lia.
  - exists p, p'. split; [exact E|]. split; [unfold thrd_sync; rewrite C, Nat2Z.id; exact E'|]. split; [congruence|]. intros i id Hx. apply N'; [cbn [length]; lia|exact Hx].
Qed.
Definition some_res (k : nat) : presult := if (k =? 1)%nat then PRes 77 2 [8; 9] else PRes (Z.of_nat k + 100) 0 [].
Example sync_case : match spawns (seq 0 5) (thrd_scope 2) with
  | Ok p => match thrd_sync true some_res (fun _ => 0) p with Ok p' => firstn 3 (p_results p') = [Some (RData true (Some (100, []))); Some (RData true (Some (0, [8; 9]))); Some (RData true (Some (102, [])))] | _ => False end
  | _ => False end /\ Forall (fun k => present (some_res k) /\ 0 = 0) (seq 0 5).
Proof. split; [vm_compute; reflexivity|]. repeat constructor; cbn; lia. Qed.
(** A thread function that returned NULL or ended with an exception: NULL is dereferenced, even before the exception is looked at. *)
Theorem sync_null_refuted : exists p, spawns [0%nat] (thrd_scope 4) = Ok p /\ thrd_sync true (fun _ => PNull) (fun _ => 9) p = Undef NullDeref.
Proof. eexists. split; [vm_compute; reflexivity|vm_compute; reflexivity]. Qed.
(** By the rules of C no non-empty pool can be collected: the future is read after it is freed. *)
Theorem sync_strict_refuted : exists p, spawns [0%nat] (thrd_scope 4) = Ok p /\ thrd_sync false some_res (fun _ => 0) p = Undef UseAfterFree.
Proof. eexists. split; [vm_compute; reflexivity|vm_compute; reflexivity]. Qed.
(** Spawning again after thrd_sync and collecting again reads the futures freed the first time. *)
Theorem sync_again_refuted : exists p, spawns [0%nat] (thrd_scope 4) = Ok p /\
  (let* p := thrd_sync true some_res (fun _ => 0) p in let* p := thrd_spawn 1 p in thrd_sync true some_res (fun _ => 0) p) = Undef UseAfterFree.
Proof. eexists. split; [vm_compute; reflexivity|vm_compute; reflexivity]. Qed.

(** ** C57 *)
(** The calls thrd_then should make for these values: each gets the result of the one before. *)
Fixpoint chain (cb : Z -> Z -> Z * list Z -> Z) (vs : list (Z * list Z)) (i acc : Z) : list (Z * Z * (Z * list Z)) :=
  match vs with [] => [] | v :: vs => (acc, i, v) :: chain cb vs (i + 1) (cb acc i v) end.
Theorem then_folds : forall cb p vs acc, thread_count p = Z.of_nat (length vs) ->
  (forall i v, nth_error vs i = Some v -> nth_error (p_results p) i = Some (Some (RData true (Some v)))) -> thrd_then cb p acc = Ok (chain cb vs 0 acc).
Proof.
  intros cb p vs acc C H. unfold thrd_then. rewrite C, Nat2Z.id. change 0 with (Z.of_nat 0).
  assert (G : forall vs k acc, (forall i v, nth_error vs i = Some v -> nth_error (p_results p) (k + i) = Some (Some (RData true (Some v)))) -> then_from (length vs) cb (p_results p) (Z.of_nat k) acc = Ok (chain cb vs (Z.of_nat k) acc)).
  { clear. induction vs as [|v vs IH]; intros k acc H; [reflexivity|]. cbn [length then_from chain]. rewrite (fetch_ok _ k (RData true (Some v))) by (rewrite <- (Nat.add_0_r k); apply (H 0%nat); reflexivity).
    cbn [bind is_ready r_value]. replace (Z.of_nat k + 1) with (Z.of_nat (S k)) by lia. rewrite IH; [reflexivity|]. intros i w Hw. replace (S k + i)%nat with (k + S i)%nat by lia. apply (H (S i)). exact Hw. }
  apply G. intros i v Hv. apply H. exact Hv.
Qed.
(** Results not ready are skipped, the others are called in order with the chained argument and their own index. *)
Fixpoint chain_ready (cb : Z -> Z -> Z * list Z -> Z) (rs : list rdata) (i acc : Z) : list (Z * Z * (Z * list Z)) :=
  match rs with
  | [] => []
  | RData true (Some v) :: rs => (acc, i, v) :: chain_ready cb rs (i + 1) (cb acc i v)
  | _ :: rs => chain_ready cb rs (i + 1) acc
  end.
Theorem then_skips : forall cb p rs acc, thread_count p = Z.of_nat (length rs) -> p_results p = map Some rs -> Forall (fun r => is_ready r = true -> r_value r <> None) rs ->
  thrd_then cb p acc = Ok (chain_ready cb rs 0 acc).
Proof.
  intros cb p rs acc C H W. unfold thrd_then. rewrite C, Nat2Z.id, H.
  assert (G : forall todo done acc, rs = done ++ todo -> then_from (length todo) cb (map Some rs) (Z.of_nat (length done)) acc = Ok (chain_ready cb todo (Z.of_nat (length done)) acc)).
  { clear C H. induction todo as [|r todo IH]; intros done a E; [reflexivity|]. cbn [length then_from chain_ready].
    rewrite (fetch_ok _ (length done) r) by (rewrite nth_error_map, E, nth_error_app2, Nat.sub_diag by lia; reflexivity). cbn [bind].
    assert (Wr : is_ready r = true -> r_value r <> None) by (rewrite Forall_forall in W; apply W; rewrite E; apply in_or_app; right; left; reflexivity).
    specialize (IH (done ++ [r])). rewrite <- app_assoc in IH. replace (Z.of_nat (length (done ++ [r]))) with (Z.of_nat (length done) + 1) in IH by (rewrite app_length; cbn [length]; lia).
    destruct r as [[|] [v|]]; cbn [is_ready r_value] in *; try (rewrite IH by exact E; reflexivity). elim (Wr eq_refl). reflexivity. }
  apply (G rs [] acc). reflexivity.
Qed.
Example then_case : thrd_then (fun a i v => 10 * a + fst v) (Pool 3 4 [] [Some (RData true (Some (1, []))); Some (RData false None); Some (RData true (Some (3, [])))] []) 5 = Ok [(5, 0, (1, [])); (51, 2, (3, []))].
Proof. vm_compute. reflexivity. Qed.

(** ** C72 *)
(** A future started before thrd_sync and not yet collected: its promise has been released. *)
Theorem sync_frees_others_refuted : exists o f, o = promise_create 1 (promise_create f (Owner [] [] false)) /\ promise_read f o = Ok tt /\ promise_read f (raii_deferred_clean o) = Undef UseAfterFree.
Proof. eexists. exists 0%nat. split; [reflexivity|]. split; reflexivity. Qed.
Theorem sync_frees_all : forall o id, over o = false -> In id (owned o) -> promise_read id (raii_deferred_clean o) = Undef UseAfterFree.
Proof.
  intros o id V H. unfold raii_deferred_clean, promise_read. rewrite V. cbn [gone]. rewrite existsb_app.
  replace (existsb (Nat.eqb id) (owned o)) with true by (symmetry; apply existsb_exists; exists id; split; [exact H|apply Nat.eqb_refl]). rewrite orb_true_r. reflexivity.
Qed.
(** From the second call on nothing is released any more: whatever was usable after the first call, and every promise made since,
    whichever they are, stays usable. *)
Theorem sync_keeps_partial : forall o ids id, promise_read id (raii_deferred_clean o) = Ok tt -> promise_read id (raii_deferred_clean (fold_left (fun o k => promise_create k o) ids (raii_deferred_clean o))) = Ok tt.
Proof.
  intros o0 ids id. assert (V : over (raii_deferred_clean o0) = true) by (unfold raii_deferred_clean; destruct (over o0) eqn:E; [exact E|reflexivity]).
  revert V. generalize (raii_deferred_clean o0). induction ids as [|k ids IH]; intros o V H; cbn [fold_left].
  - unfold raii_deferred_clean. rewrite V. exact H.
  - apply IH; assumption.
Qed.
Example sync_keeps_case : promise_read 2 (raii_deferred_clean (promise_create 2 (raii_deferred_clean (promise_create 1 (Owner [] [] false))))) = Ok tt.
Proof. reflexivity. Qed.

Print Assumptions spawn_tables. Print Assumptions spawn_no_cpu_refuted. Print Assumptions sync_in_order_partial. Print Assumptions sync_null_refuted. Print Assumptions sync_strict_refuted. Print Assumptions sync_again_refuted.
Print Assumptions then_folds. Print Assumptions then_skips. Print Assumptions sync_frees_others_refuted. Print Assumptions sync_frees_all. Print Assumptions sync_keeps_partial.
