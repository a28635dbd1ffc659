(** C148: threads entering their first blocks (SetupModel.v). *)
From Verif Require Import Base BaseLemmas SignalModel SetupModel.
Import ListNotations.

(** Steps of a single thread. *)
Fixpoint alone (n : nat) (st : sigs) (p : tplace) : sigs * tplace := match n with O => (st, p) | S n => let '(st, p) := setup_step st p in alone n st p end.
(** They add up. *)
Lemma alone_add n m st p : alone (n + m) st p = let '(st, p) := alone n st p in alone m st p.
Proof. revert st p. induction n as [|n IH]; intros st p; [reflexivity|]. cbn [Nat.add alone]. destruct (setup_step st p) as [st' p']. apply IH. Qed.
(** The search. *)
Lemma alone_search sig rest st : forall t pre, table st = pre ++ t ->
  exists n, alone n st (Search sig rest (length pre)) = (st, if Nat.ltb (length pre + free_or_same sig t) (length (table st)) then Install sig rest (length pre + free_or_same sig t) else next_signal rest).
Proof.
  induction t as [|s t IH]; intros pre E.
  - exists 1%nat. cbn [alone setup_step]. rewrite app_nil_r in E. rewrite E. rewrite (proj2 (nth_error_None pre (length pre)) (le_n _)). cbn [free_or_same]. rewrite Nat.add_0_r, Nat.ltb_irrefl. reflexivity.
  - assert (NE : nth_error (table st) (length pre) = Some s) by (rewrite E, nth_error_app2, Nat.sub_diag by lia; reflexivity).
    cbn [free_or_same]. destruct ((s_ex s =? 0) || (s_sig s =? sig)) eqn:Q.
    + exists 1%nat. cbn [alone setup_step]. rewrite NE, Q, Nat.add_0_r. destruct (Nat.ltb_spec (length pre) (length (table st))) as [L|L]; [reflexivity|]. rewrite E, app_length in L. cbn in L. lia.
    + destruct (IH (pre ++ [s])) as (n & R); [rewrite <- app_assoc; exact E|]. exists (S n). cbn [alone setup_step]. rewrite NE, Q. rewrite app_length in R. cbn [length] in R.
      replace (S (length pre)) with (length pre + 1)%nat by lia. rewrite R. replace (length pre + 1 + free_or_same sig t)%nat with (length pre + S (free_or_same sig t))%nat by lia. reflexivity.
Qed.
(** The search stops within the table or at its end. *)
Lemma free_or_same_le sig t : (free_or_same sig t <= length t)%nat.
Proof. induction t as [|s t IH]; cbn; [lia|]. destruct (_ || _); lia. Qed.
(** Storing twice. *)
Lemma set_slot_twice k : forall t x y, set_slot k x (set_slot k y t) = set_slot k x t.
Proof. induction k as [|k IH]; intros [|s t] x y; cbn; try reflexivity. f_equal. apply IH. Qed.
(** What was stored. *)
Lemma set_slot_get k : forall t x, (k < length t)%nat -> slot_at (set_slot k x t) k = x.
Proof. unfold slot_at. induction k as [|k IH]; intros [|s t] x L; cbn in *; try lia; [reflexivity|]. apply IH. lia. Qed.
(** One call of ex_signal. *)
Lemma alone_signal sig rest st : exists n, alone n st (Search sig rest 0) = (ex_signal (fun _ => true) sig (default_name sig) st, next_signal rest).
Proof.
  destruct (alone_search sig rest st (table st) [] eq_refl) as (n & R). cbn [length Nat.add] in R. unfold ex_signal. set (k := free_or_same sig (table st)) in *.
  destruct (Nat.ltb_spec k (length (table st))) as [L|L].
  - exists (n + 4)%nat. rewrite alone_add, R. cbn [alone setup_step table handled is_set]. rewrite (set_slot_get _ _ _ L). cbn [s_ex]. rewrite set_slot_twice. destruct (Nat.eqb_spec k (length (table st))); [lia|]. reflexivity.
  - exists n. rewrite R. assert (k = length (table st)) as -> by (pose proof (free_or_same_le sig (table st)); unfold k in *; lia). rewrite Nat.eqb_refl. reflexivity.
Qed.
(** C148, a thread whose entry does not overlap with that of another thread does what the sequential model (SignalModel.v, C42 and C43) says, for every state of the table. *)
Theorem setup_alone : forall st, exists n did, alone n st Before = (enter_block (fun _ => true) st, InBlock did) /\ (did = true <-> is_set st = false).
Proof.
  intros st. unfold enter_block. destruct (is_set st) eqn:S.
  - exists 1%nat, false. cbn [alone setup_step]. rewrite S. split; [reflexivity|]. split; discriminate.
  - assert (K : forall l st', exists n, alone n st' (next_signal l) = (fold_left (fun st sig => ex_signal (fun _ => true) sig (default_name sig) st) l st', InBlock true)).
    { induction l as [|sig l IH]; intros st'; [exists O; reflexivity|]. cbn [next_signal fold_left]. destruct (alone_signal sig l st') as (n & R). destruct (IH (ex_signal (fun _ => true) sig (default_name sig) st')) as (m & Q). exists (n + m)%nat. rewrite alone_add, R. exact Q. }
    destruct (K default_set st) as (n & R). exists (Datatypes.S n), true. cbn [alone setup_step]. rewrite S. split; [exact R|]. split; reflexivity.
Qed.

(** The signals that a thread has still to register, the present one included. *)
Definition coming (p : tplace) : option (list Z) :=
  match p with
  | Before | InBlock false => None
  | Search sig rest _ | Install sig rest _ | StoreEx sig rest _ | StoreSig sig rest _ => Some (sig :: rest)
  | StoreSet rest => Some rest
  | InBlock true => Some []
  end.
(** They are the last ones of the list. *)
Definition in_order (p : tplace) : Prop := match coming p with None => True | Some c => exists l, default_set = l ++ c end.
(** The ones before them, and the present one behind sigaction, are handled. *)
Definition installed (st : sigs) (p : tplace) : Prop :=
  (forall l c, coming p = Some c -> default_set = l ++ c -> forall x, In x l -> handled st x = true) /\
  match p with StoreEx sig _ _ | StoreSig sig _ _ => handled st sig = true | _ => True end.
(** The last slot is free. *)
Definition free_slot (st : sigs) : Prop := exists t s, table st = t ++ [s] /\ s_ex s = 0.
(** The search of a table with a free slot has not come to its end. *)
Definition within (st : sigs) (p : tplace) : Prop := match p with Search _ _ k => (k < length (table st))%nat | _ => True end.
(** The table keeps its length. *)
Lemma set_slot_length k : forall t x, length (set_slot k x t) = length t.
Proof. induction k as [|k IH]; intros [|s t] x; cbn; try reflexivity. f_equal. apply IH. Qed.
(** The last slot after a store. *)
Lemma set_slot_last k : forall t x t' s, set_slot k x t = t' ++ [s] -> exists t0 s0, t = t0 ++ [s0] /\ (s = s0 \/ (s = x /\ s0 = slot_at t k)).
Proof.
  induction k as [|k IH]; intros [|y t] x t' s H; cbn in H; try (destruct t'; discriminate H).
  - destruct t' as [|z t']; cbn in H.
    + injection H as -> ->. exists [], y. split; [reflexivity|]. right. split; reflexivity.
    + injection H as _ ->. exists (y :: t'), s. split; [reflexivity|]. left. reflexivity.
  - destruct t' as [|z t']; cbn in H.
    + injection H as -> H. destruct t; [|destruct k; discriminate H]. exists [], s. split; [reflexivity|]. left. reflexivity.
    + injection H as -> H. destruct (IH _ _ _ _ H) as (t0 & s0 & -> & C). exists (z :: t0), s0. split; [reflexivity|]. exact C.
Qed.
(** Default signals have names. *)
Lemma default_names l sig rest : default_set = l ++ sig :: rest -> default_name sig <> 0.
Proof. intros E. assert (I : In sig default_set) by (rewrite E; apply in_elt). unfold default_name. unfold default_set in I. repeat (destruct I as [<-|I]; [lia|]). destruct I. Qed.
(** No step frees the last slot, changes the length or removes a handler. *)
Lemma step_shared st p st' p' : in_order p -> setup_step st p = (st', p') ->
  (free_slot st' -> free_slot st) /\ length (table st') = length (table st) /\ forall x, handled st x = true -> handled st' x = true.
Proof.
  intros O H. assert (SAME : st' = st -> (free_slot st' -> free_slot st) /\ length (table st') = length (table st) /\ forall x, handled st x = true -> handled st' x = true) by (intros ->; tauto).
  destruct p as [|sig rest k|sig rest k|sig rest k|sig rest k|rest|d]; cbn [setup_step] in H; try (apply SAME; congruence).
  - apply SAME. destruct (nth_error (table st) k); congruence.
  - injection H as <- <-. cbn [table handled]. split; [tauto|]. split; [reflexivity|]. intros x X. unfold set_action. destruct (x =? sig); [reflexivity|exact X].
  - injection H as <- <-. cbn [table handled]. rewrite set_slot_length. split; [|tauto]. intros (t & s & T & F). cbn [table] in T. destruct (set_slot_last _ _ _ _ _ T) as (t0 & s0 & E & [->|(-> & _)]); [exists t0, s0; split; assumption|].
    destruct O as (l & O). destruct (default_names _ _ _ O). exact F.
  - injection H as <- <-. cbn [table handled]. rewrite set_slot_length. split; [|tauto]. intros (t & s & T & F). cbn [table] in T. destruct (set_slot_last _ _ _ _ _ T) as (t0 & s0 & E & [->|(-> & ->)]); [exists t0, s0; split; assumption|]. exists t0, (slot_at (table st) k). split; assumption.
  - injection H as <- <-. cbn [table handled]. tauto.
Qed.
(** The order of a thread. *)
Lemma next_order rest l : default_set = l ++ rest -> in_order (next_signal rest).
Proof. intros E. destruct rest as [|sig rest]; exists l; exact E. Qed.
(** Kept by its steps. *)
Lemma step_order st p st' p' : in_order p -> setup_step st p = (st', p') -> in_order p'.
Proof.
  intros O H. destruct p as [|sig rest k|sig rest k|sig rest k|sig rest k|rest|d]; cbn [setup_step] in H.
  - injection H as <- <-. destruct (is_set st); [exact I|]. apply (next_order default_set []). reflexivity.
  - destruct O as (l & O). destruct (nth_error (table st) k) as [s|]; injection H as <- <-; [destruct (_ || _); exists l; exact O|]. apply (next_order rest (l ++ [sig])). rewrite <- app_assoc. exact O.
  - injection H as <- <-. exact O.
  - injection H as <- <-. exact O.
  - injection H as <- <-. destruct O as (l & O). exists (l ++ [sig]). rewrite <- app_assoc. exact O.
  - injection H as <- <-. destruct O as (l & O). exact (next_order _ _ O).
  - injection H as <- <-. exact O.
Qed.
(** A new search is within a table that has a slot. *)
Lemma next_within st rest : free_slot st -> within st (next_signal rest).
Proof. intros (t & s & T & _). destruct rest; [exact I|]. cbn. rewrite T, app_length. cbn. lia. Qed.
(** What is installed when the next signal comes. *)
Lemma next_installed st rest : (forall l, default_set = l ++ rest -> forall x, In x l -> handled st x = true) -> installed st (next_signal rest).
Proof. intros H. destruct rest as [|sig rest]; (split; [|exact I]); cbn; intros l c E; injection E as <-; apply H. Qed.
(** A prefix of the list one longer. *)
Lemma prefix_snoc (l : list Z) sig rest : default_set = l ++ rest -> (exists l0, default_set = l0 ++ sig :: rest) -> exists l0, l = l0 ++ [sig] /\ default_set = l0 ++ sig :: rest.
Proof.
  intros E (l0 & E0). exists l0. split; [|exact E0]. apply (app_inv_tail rest). rewrite <- E, <- app_assoc. exact E0.
Qed.
(** Kept by its own steps. *)
Lemma step_installed st p st' p' : in_order p -> setup_step st p = (st', p') -> free_slot st' -> installed st p -> within st p -> installed st' p' /\ within st' p'.
Proof.
  intros O H F (A & B) C. destruct p as [|sig rest k|sig rest k|sig rest k|sig rest k|rest|d]; cbn [setup_step] in H.
  - injection H as <- <-. destruct (is_set st); [split; [split; [discriminate|]|]; exact I|]. split; [|exact (next_within _ default_set F)]. apply (next_installed st default_set). intros l E x X. assert (l = []) as -> by (apply (app_inv_tail default_set); symmetry; exact E). destruct X.
  - cbn in C. destruct (nth_error (table st) k) as [s|] eqn:N; [|apply nth_error_None in N; lia]. injection H as <- <-. destruct ((s_ex s =? 0) || (s_sig s =? sig)) eqn:Q; [split; [split; [exact A|exact I]|exact I]|]. split; [split; [exact A|exact I]|]. cbn.
    destruct F as (t & z & T & Z0). assert (k <> length t). { intros ->. rewrite T, nth_error_app2, Nat.sub_diag in N by lia. injection N as <-. rewrite Z0 in Q. discriminate Q. } rewrite T, app_length in *. cbn in *. lia.
  - injection H as <- <-. split; [|exact I]. split; [|cbn; unfold set_action; rewrite Z.eqb_refl; reflexivity]. intros l c E D x X. cbn [handled]. unfold set_action. destruct (x =? sig); [reflexivity|]. exact (A l c E D x X).
  - injection H as <- <-. split; [|exact I]. split; [exact A|exact B].
  - injection H as <- <-. split; [|exact I]. split; [|exact I]. intros l c E D x X. cbn in E. injection E as <-. destruct (prefix_snoc _ _ _ D O) as (l0 & -> & E0). cbn [handled]. apply in_app_or in X. destruct X as [X|[<-|[]]]; [exact (A l0 _ eq_refl E0 x X)|exact B].
  - injection H as <- <-. split; [|apply next_within; exact F]. apply next_installed. intros l E x X. exact (A l rest eq_refl E x X).
  - injection H as <- <-. split; [split; assumption|assumption].
Qed.
(** What holds in every state. *)
Definition sinv (s : setup_state) : Prop := forall i, in_order (places s i) /\ (free_slot (shared s) -> installed (shared s) (places s i) /\ within (shared s) (places s i)).
(** Kept by every step. *)
Lemma sinv_step s i : sinv s -> sinv (thread_step s i).
Proof.
  intros H j. unfold thread_step. destruct (setup_step (shared s) (places s i)) as [st p] eqn:E. cbn [shared places]. destruct (H i) as (Oi & Ii). destruct (step_shared _ _ _ _ Oi E) as (SF & SL & SH).
  destruct (Nat.eqb_spec j i) as [->|N].
  - split; [exact (step_order _ _ _ _ Oi E)|]. intros F. destruct (Ii (SF F)) as (A & B). exact (step_installed _ _ _ _ Oi E F A B).
  - destruct (H j) as (Oj & Ij). split; [exact Oj|]. intros F. destruct (Ij (SF F)) as ((A & B) & C). split; [split|].
    + intros l c X D y Y. apply SH. exact (A l c X D y Y).
    + destruct (places s j); try exact I; apply SH; exact B.
    + unfold within in *. rewrite SL. exact C.
Qed.
(** All reachable states. *)
Lemma sinv_schedule l st : sinv (schedule l (all_before st)).
Proof.
  unfold schedule. assert (I0 : sinv (all_before st)) by (intros i; split; [exact I|]; intros _; split; [split; [discriminate|exact I]|exact I]). revert I0. generalize (all_before st). induction l as [|i l IH]; intros s I0; [exact I0|]. cbn [fold_left]. apply IH. apply sinv_step. exact I0.
Qed.
(** C148, what holds however the threads interleave: a thread that did the set-up itself is in its block only when the action of every default signal is the handler (as long
    as the table is not full). *)
Theorem setup_handlers_partial : forall l st i sig, places (schedule l (all_before st)) i = InBlock true -> free_slot (shared (schedule l (all_before st))) -> In sig default_set -> handled (shared (schedule l (all_before st))) sig = true.
Proof.
  intros l st i sig P F X. destruct (sinv_schedule l st i) as (_ & J). destruct (J F) as ((A & _) & _). rewrite P in A. apply (A default_set [] eq_refl); [symmetry; apply app_nil_r|exact X].
Qed.
(** A slot that holds a default name. *)
Definition named_slot (s : slot) : Prop := In (s_ex s) (map default_name default_set) /\ (s_sig s = 0 \/ In (s_sig s) default_set).
(** A slot as it may be seen: untouched or named. *)
Definition good_slot (s : slot) : Prop := s = Slot 0 0 \/ named_slot s.
(** A thread that is about to store a number has stored a name. *)
Definition named_place (st : sigs) (p : tplace) : Prop := match p with StoreSig _ _ k => (k < length (table st))%nat -> named_slot (slot_at (table st) k) | _ => True end.
(** A slot behind a store. *)
Lemma slot_set k j x : forall t, slot_at (set_slot k x t) j = if Nat.eqb j k then (if Nat.ltb k (length t) then x else slot_at t j) else slot_at t j.
Proof.
  unfold slot_at. revert j. induction k as [|k IH]; intros [|j] [|y t]; cbn; try reflexivity; [destruct (Nat.eqb j k); reflexivity|]. rewrite IH. reflexivity.
Qed.
(** All slots are good behind a good store. *)
Lemma set_slot_good k x t : Forall good_slot t -> good_slot x -> Forall good_slot (set_slot k x t).
Proof. intros F X. revert k. induction F as [|y t Y F IH]; intros [|k]; cbn; constructor; auto. Qed.
(** A good slot of the table. *)
Lemma slot_good t k : Forall good_slot t -> good_slot (slot_at t k).
Proof. intros F. unfold slot_at. destruct (nth_in_or_default k t (Slot 0 0)) as [J|E]; [rewrite Forall_forall in F; exact (F _ J)|left; exact E]. Qed.
(** The name of a signal in turn. *)
Lemma order_default l sig rest : default_set = l ++ sig :: rest -> In sig default_set.
Proof. intros ->. apply in_elt. Qed.
(** Names in the table, step by step. *)
Lemma step_good st p st' p' : in_order p -> Forall good_slot (table st) -> named_place st p -> setup_step st p = (st', p') ->
  Forall good_slot (table st') /\ named_place st' p' /\ forall q, named_place st q -> named_place st' q.
Proof.
  intros O G N H. assert (NX : forall rest, named_place st' (next_signal rest)) by (intros [|? ?]; exact I).
  destruct p as [|sig rest k|sig rest k|sig rest k|sig rest k|rest|d]; cbn [setup_step] in H.
  - injection H as <- <-. split; [exact G|]. split; [|auto]. destruct (is_set st); [exact I|apply (NX default_set)].
  - assert (st' = st) as -> by (destruct (nth_error (table st) k); congruence). split; [exact G|]. split; [|auto]. destruct (nth_error (table st) k); injection H as <-; [destruct (_ || _); exact I|apply NX].
  - injection H as <- <-. split; [exact G|]. split; [exact I|auto].
  - injection H as <- <-. destruct O as (l & O). apply order_default in O. cbn [table]. assert (NM : named_slot (Slot (default_name sig) (s_sig (slot_at (table st) k)))).
    { split; [exact (in_map default_name _ _ O)|]. cbn [s_sig]. destruct (slot_good _ k G) as [->|(_ & X)]; [left; reflexivity|exact X]. }
    split; [apply set_slot_good; [exact G|right; exact NM]|]. split.
    + unfold named_place. cbn [table]. rewrite set_slot_length, slot_set, Nat.eqb_refl. intros L. rewrite (proj2 (Nat.ltb_lt _ _) L). exact NM.
    + intros q Q. destruct q as [| | | |sq rq kq| |]; try exact I. unfold named_place in *. cbn [table] in *. rewrite set_slot_length, slot_set. intros L. destruct (Nat.eqb kq k); [destruct (Nat.ltb k (length (table st)))|]; auto.
  - injection H as <- <-. destruct O as (l & O). apply order_default in O. cbn [table]. cbn in N.
    assert (NM : (k < length (table st))%nat -> named_slot (Slot (s_ex (slot_at (table st) k)) sig)) by (intros L; split; [apply (N L)|right; exact O]).
    split; [|split; [exact I|]].
    + destruct (Nat.ltb_spec k (length (table st))) as [L|L]; [apply set_slot_good; [exact G|right; exact (NM L)]|].
      assert (E : set_slot k (Slot (s_ex (slot_at (table st) k)) sig) (table st) = table st) by (clear -L; generalize (Slot (s_ex (slot_at (table st) k)) sig); revert k L; induction (table st) as [|y t IH]; intros [|k] L x; cbn in *; try reflexivity; [lia|]; f_equal; apply IH; lia).
      rewrite E. exact G.
    + intros q Q. destruct q as [| | | |sq rq kq| |]; try exact I. unfold named_place in *. cbn [table] in *. rewrite set_slot_length, slot_set. intros L. destruct (Nat.eqb kq k); [destruct (Nat.ltb_spec k (length (table st)))|]; auto.
  - injection H as <- <-. split; [exact G|]. split; [apply NX|auto].
  - injection H as <- <-. split; [exact G|]. split; [exact N|auto].
Qed.
(** C148, from program start, however the threads interleave: every slot is free or holds a default name, and its number, once stored, is one of a default signal; so a signal whose number is in
    the table is thrown under a default name, if not always its own. *)
Theorem setup_names_partial : forall l sig, let st := shared (schedule l (all_before sig_start)) in
  (forall s, In s (table st) -> s = Slot 0 0 \/ (In (s_ex s) (map default_name default_set) /\ (s_sig s = 0 \/ In (s_sig s) default_set))) /\
  (sig <> 0 -> In sig (map s_sig (table st)) -> In (name_of sig (table st)) (map default_name default_set)).
Proof.
  intros l sig st. assert (G : Forall good_slot (table st)).
  { unfold st, schedule. assert (K : forall s, (forall i, in_order (places s i)) -> Forall good_slot (table (shared s)) -> (forall i, named_place (shared s) (places s i)) -> Forall good_slot (table (shared (fold_left thread_step l s)))).
    { clear st. induction l as [|i l IH]; intros s O G N; [exact G|]. cbn [fold_left]. unfold thread_step. destruct (setup_step (shared s) (places s i)) as [st p] eqn:E. destruct (step_good _ _ _ _ (O i) G (N i) E) as (A & B & C).
      apply IH; cbn [shared places]; [|exact A|].
      - intros j. destruct (Nat.eqb j i); [exact (step_order _ _ _ _ (O i) E)|apply O].
      - intros j. destruct (Nat.eqb j i); [exact B|apply C; apply N]. }
    apply K; [intros i; exact I| |intros i; exact I]. apply Forall_forall. intros s S. apply repeat_spec in S. left. exact S. }
  split; [intros s S; rewrite Forall_forall in G; exact (G s S)|]. intros Z0. induction G as [|s t S G IH]; cbn; [tauto|]. destruct (Z.eqb_spec (s_sig s) sig) as [E|E]; [|intros [X|X]; [destruct (E X)|exact (IH X)]].
  intros _. destruct S as [->|(X & _)]; [destruct (Z0 (eq_sym E))|exact X].
Qed.
(** C148, threads that start when a block has been entered before: none of them touches the table, whatever the schedule. *)
Theorem setup_before : forall l st, is_set st = true -> shared (schedule l (all_before st)) = st.
Proof.
  intros l st S. unfold schedule. assert (K : forall s, shared s = st -> (forall i, places s i = Before \/ places s i = InBlock false) -> shared (fold_left thread_step l s) = st).
  { induction l as [|i l IH]; intros s E P; [exact E|]. cbn [fold_left]. apply IH; unfold thread_step; destruct (P i) as [Q|Q]; rewrite Q; cbn [setup_step]; rewrite ?E, ?S; cbn [shared places]; try reflexivity; intros j; (destruct (Nat.eqb j i); [right; reflexivity|apply P]). }
  apply K; [reflexivity|]. intros i. left. reflexivity.
Qed.
(** C148, the flag is not cleared again: a thread that comes behind a set flag skips the set-up, whatever the other threads still do. *)
Theorem setup_flag_stays : forall l l' i st, is_set (shared (schedule l (all_before st))) = true -> places (schedule l (all_before st)) i = Before ->
  is_set (shared (schedule (l ++ l') (all_before st))) = true /\ (places (schedule (l ++ l') (all_before st)) i = Before \/ places (schedule (l ++ l') (all_before st)) i = InBlock false).
Proof.
  intros l l' i st S P. unfold schedule in *. rewrite fold_left_app. set (s := fold_left thread_step l (all_before st)) in *. clearbody s. assert (P' : places s i = Before \/ places s i = InBlock false) by (left; exact P). clear P l.
  revert s S P'. induction l' as [|j l IH]; intros s S P; [split; assumption|]. cbn [fold_left]. apply IH.
  - unfold thread_step. destruct (places s j) as [|sig rest k|sig rest k|sig rest k|sig rest k|rest|d]; cbn [setup_step]; try exact S; [destruct (nth_error (table (shared s)) k); exact S|reflexivity].
  - unfold thread_step. destruct (Nat.eqb_spec i j) as [->|N].
    + destruct P as [P|P]; rewrite P; cbn [setup_step]; rewrite ?S; cbn [places]; rewrite Nat.eqb_refl; right; reflexivity.
    + destruct (setup_step (shared s) (places s j)) as [st' p']. cbn [places]. rewrite (proj2 (Nat.eqb_neq i j)) by exact N. exact P.
Qed.
(** C148 is refuted: exception_signal_set is stored behind the first signal, so thread 2 enters its block while thread 1 has registered SIGSEGV only: SIGABRT still ends the
    program. *)
Theorem setup_early_refuted : exists l, places (schedule l (all_before sig_start)) 2%nat = InBlock false /\ raised 6 (shared (schedule l (all_before sig_start))) = None /\
  raised 11 (shared (schedule l (all_before sig_start))) = Some (default_name 11).
Proof. exists (repeat 1%nat 6 ++ [2%nat]). vm_compute. repeat split. Qed.
(** C148, the window in between: thread 2 is in its block, thread 1 has called sigaction for SIGABRT and not yet stored its slot; the handler finds no slot and throws NULL. *)
Theorem setup_window_refuted : exists l, places (schedule l (all_before sig_start)) 2%nat = InBlock false /\ raised 6 (shared (schedule l (all_before sig_start))) = Some 0.
Proof. exists (repeat 1%nat 6 ++ [2%nat] ++ repeat 1%nat 3). vm_compute. split; reflexivity. Qed.
(** C148, the names are refuted too: two threads that look for a free slot at the same time both take slot 1, thread 2 for SIGSEGV (the slot of thread 1 for it is only half stored)
    and thread 1 for SIGABRT; with both in their blocks, SIGABRT is thrown under the name of SIGSEGV. *)
Theorem setup_name_refuted : exists l, places (schedule l (all_before sig_start)) 1%nat = InBlock true /\ places (schedule l (all_before sig_start)) 2%nat = InBlock true /\
  raised 6 (shared (schedule l (all_before sig_start))) = Some (default_name 11).
Proof.
  exists ([2%nat] ++ repeat 1%nat 4 ++ repeat 2%nat 2 ++ repeat 1%nat 6 ++ repeat 2%nat 6 ++ repeat 1%nat 200 ++ repeat 2%nat 200). vm_compute. repeat split.
Qed.
(** A thread that takes no step stays. *)
Lemma schedule_other i : forall l s, existsb (Nat.eqb i) l = false -> places (schedule l s) i = places s i.
Proof.
  unfold schedule. induction l as [|j l IH]; intros s H; [reflexivity|]. cbn [fold_left existsb] in *. apply orb_false_iff in H. destruct H as (H & H'). rewrite (IH _ H'). unfold thread_step. destruct (setup_step (shared s) (places s j)). cbn [places]. rewrite H. reflexivity.
Qed.
(** Behind the flag, with no thread in the set-up, nothing changes. *)
Lemma schedule_settled : forall l s, is_set (shared s) = true -> (forall i, places s i = Before \/ exists d, places s i = InBlock d) -> shared (schedule l s) = shared s.
Proof.
  unfold schedule. induction l as [|i l IH]; intros s A C; [reflexivity|]. cbn [fold_left].
  assert (E : shared (thread_step s i) = shared s) by (unfold thread_step; destruct (C i) as [P|(d & P)]; rewrite P; reflexivity). rewrite IH; [exact E|rewrite E; exact A|].
  intros j. unfold thread_step. destruct (C i) as [P|(d & P)]; rewrite P; cbn [setup_step]; rewrite ?A; cbn [places]; (destruct (Nat.eqb j i); [right; eexists; reflexivity|apply C]).
Qed.
(** Schedules one behind the other. *)
Lemma schedule_app l l' s : schedule (l ++ l') s = schedule l' (schedule l s).
Proof. apply fold_left_app. Qed.
(** Thread 1 and thread 2, each half done. *)
Definition bad_schedule : list nat := [2%nat] ++ repeat 1%nat 4 ++ repeat 2%nat 2 ++ repeat 1%nat 8 ++ repeat 2%nat 7 ++ repeat 1%nat 3 ++ repeat 2%nat 3 ++ repeat 1%nat 200 ++ repeat 2%nat 200.
(** C148, and for good: two threads overwrite each other's slots twice (slot 1: SIGABRT of thread 1 by SIGSEGV of thread 2; slot 2: SIGABRT of thread 2 by SIGFPE of thread 1); with both in their blocks
    SIGABRT has a handler and no slot, and is thrown as NULL whatever the threads do afterwards. *)
Theorem setup_lost_refuted : exists l, places (schedule l (all_before sig_start)) 1%nat = InBlock true /\ places (schedule l (all_before sig_start)) 2%nat = InBlock true /\
  forall l', raised 6 (shared (schedule (l ++ l') (all_before sig_start))) = Some 0.
Proof.
  exists bad_schedule. split; [vm_compute; reflexivity|]. split; [vm_compute; reflexivity|]. intros l'.
  assert (A : is_set (shared (schedule bad_schedule (all_before sig_start))) = true) by (vm_compute; reflexivity).
  assert (B : raised 6 (shared (schedule bad_schedule (all_before sig_start))) = Some 0) by (vm_compute; reflexivity).
  assert (P1 : places (schedule bad_schedule (all_before sig_start)) 1%nat = InBlock true) by (vm_compute; reflexivity).
  assert (P2 : places (schedule bad_schedule (all_before sig_start)) 2%nat = InBlock true) by (vm_compute; reflexivity).
  assert (O : forallb (fun j => (Nat.eqb j 1) || (Nat.eqb j 2)) bad_schedule = true) by (vm_compute; reflexivity).
  rewrite schedule_app. generalize dependent bad_schedule. intros l A B P1 P2 O. rewrite schedule_settled; [exact B|exact A|]. intros i.
  destruct (Nat.eq_dec i 1) as [->|N1]; [right; exists true; exact P1|]. destruct (Nat.eq_dec i 2) as [->|N2]; [right; exists true; exact P2|]. left. rewrite schedule_other; [reflexivity|].
  clear - O N1 N2. induction l as [|j l IH]; [reflexivity|]. cbn [forallb existsb] in *. apply andb_true_iff in O. destruct O as (O & O'). rewrite (IH O'), orb_false_r. apply Nat.eqb_neq. intros ->. apply orb_true_iff in O. destruct O as [O|O]; apply Nat.eqb_eq in O; congruence.
Qed.
(** Two threads one after the other: thread 1 does the set-up and all default signals are thrown under their names. *)
Example setup_run : let s := schedule (repeat 1%nat 140 ++ [2%nat]) (all_before sig_start) in
  places s 1%nat = InBlock true /\ places s 2%nat = InBlock false /\ free_slot (shared s) /\ is_set (shared s) = true /\ map (fun sig => raised sig (shared s)) default_set = map (fun sig => Some (default_name sig)) default_set.
Proof.
  cbv zeta. split; [vm_compute; reflexivity|]. split; [vm_compute; reflexivity|]. split; [|split; vm_compute; reflexivity].
  exists (removelast (table (shared (schedule (repeat 1%nat 140 ++ [2%nat]) (all_before sig_start))))), (Slot 0 0). split; vm_compute; reflexivity.
Qed.
Print Assumptions setup_alone.
Print Assumptions setup_handlers_partial.
Print Assumptions setup_names_partial.
Print Assumptions setup_before.
Print Assumptions setup_flag_stays.
Print Assumptions setup_early_refuted.
Print Assumptions setup_window_refuted.
Print Assumptions setup_name_refuted.
Print Assumptions setup_lost_refuted.
