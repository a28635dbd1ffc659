(** C89: the continuation of a group of tasks is started once, after the last of them. *)
From Verif Require Import GenericModel.
From Coq Require Import Lia.
Local Open Scope Z_scope.

Definition joined (g : group) : Prop := Forall (fun t => t = Joined) (tasks g).

Definition left (l : list tpos) : Z := Z.of_nat (length (filter (fun t => match t with Joined => false | _ => true end) l)).
Lemma left_cons x l : left (x :: l) = left l + match x with Joined => 0 | _ => 1 end.
Proof. unfold left. destruct x; cbn [filter length]; lia. Qed.
Lemma left_ran l : forall i, nth_error l i = Some Waiting -> left (sett i Ran l) = left l.
Proof. induction l as [|y l IH]; intros [|i] H; cbn [nth_error sett] in H |- *; try discriminate; rewrite !left_cons; [injection H as ->; lia|rewrite IH; auto]. Qed.
Lemma left_joined l : forall i, nth_error l i = Some Ran -> left (sett i Joined l) = left l - 1.
Proof. induction l as [|y l IH]; intros [|i] H; cbn [nth_error sett] in H |- *; try discriminate; rewrite !left_cons; [injection H as ->; lia|rewrite IH by auto; lia]. Qed.
Lemma left_pos l : forall i, nth_error l i = Some Ran -> 1 <= left l.
Proof. induction l as [|y l IH]; intros [|i] H; cbn [nth_error] in H; try discriminate; rewrite left_cons; [injection H as ->; unfold left; lia|specialize (IH _ H); destruct y; lia]. Qed.
Lemma left_0 l : left l = 0 <-> Forall (fun t => t = Joined) l.
Proof.
  induction l as [|y l IH]; [split; [constructor|reflexivity]|]. rewrite left_cons. assert (0 <= left l) by (unfold left; lia). split.
  - intros E. destruct y; try lia. constructor; [reflexivity|]. apply IH. lia.
  - intros F. inversion F; subst. apply IH in H3. lia.
Qed.
Lemma sett_length i x : forall l, length (sett i x l) = length l.
Proof. induction i; intros [|y l]; cbn; auto. Qed.
(** Invariant. *)
Definition good (n : Z) (g : group) : Prop := join_count g = left (tasks g) /\ left (tasks g) <= n /\ started g = (if left (tasks g) =? 0 then 1%nat else 0%nat).
Lemma s32_one c : 1 <= c -> c <= 2 ^ 32 -> (s32 c = 1 <-> c = 1).
Proof.
  intros H1 H2. change (2 ^ 32) with 4294967296 in H2. unfold s32. destruct (Z.eq_dec c 4294967296) as [E|E].
  - subst c. split; intros H; [vm_compute in H; discriminate|discriminate].
  - cbv zeta. unfold u32. rewrite Z.mod_small by lia. destruct (Z.ltb_spec c 2147483648); lia.
Qed.
Lemma step_good n i g g' : n <= 2 ^ 32 -> good n g -> task_step i g = Some g' -> good n g'.
Proof.
  intros Hn (C & L & S) E. unfold task_step in E. destruct (nth_error (tasks g) i) as [[]|] eqn:N; try discriminate; injection E as <-.
  - split; [|split]; cbn [join_count tasks started]; rewrite ?left_ran by auto; auto.
  - pose proof (left_pos _ _ N) as P. unfold good. cbn [join_count tasks started]. rewrite left_joined by auto. rewrite C.
    split; [unfold u64; rewrite Z.mod_small by (change (2 ^ 32) with 4294967296 in Hn; lia); reflexivity|]. split; [lia|].
    replace (left (tasks g) =? 0) with false in S by (symmetry; apply Z.eqb_neq; lia). rewrite S.
    assert (Q : s32 (left (tasks g)) = 1 <-> left (tasks g) = 1).
    { apply s32_one; lia. }
    destruct (Z.eqb_spec (s32 (left (tasks g))) 1) as [A|A]; destruct (Z.eqb_spec (left (tasks g) - 1) 0) as [B|B]; tauto || (exfalso; lia).
Qed.
Lemma run_good n s : n <= 2 ^ 32 -> forall g, good n g -> good n (group_run s g).
Proof. intros Hn. induction s as [|i s IH]; intros g G; [exact G|]. cbn [group_run]. apply IH. destruct (task_step i g) eqn:E; [eapply step_good; eauto|exact G]. Qed.
Lemma left_new n : left (repeat Waiting n) = Z.of_nat n.
Proof. unfold left. f_equal. induction n; cbn; auto. Qed.
Lemma new_good n : (0 < n)%nat -> good (Z.of_nat n) (new_group n).
Proof. intros H. unfold good, new_group. cbn [join_count tasks started]. rewrite left_new. replace (Z.of_nat n =? 0) with false by (symmetry; apply Z.eqb_neq; lia). repeat split; lia. Qed.

(** At most 2^32 tasks: whatever the schedule, the continuation was started (once) just when every task has joined. *)
Theorem join_once_partial : forall n s, (0 < n)%nat -> Z.of_nat n <= 2 ^ 32 ->
  (joined (group_run s (new_group n)) -> started (group_run s (new_group n)) = 1%nat) /\
  (~ joined (group_run s (new_group n)) -> started (group_run s (new_group n)) = 0%nat).
Proof.
  intros n s H0 Hn. destruct (run_good (Z.of_nat n) s Hn _ (new_good n H0)) as (_ & _ & S). unfold joined. rewrite S. split; intros J.
  - apply left_0 in J. rewrite J. reflexivity.
  - destruct (Z.eqb_spec (left (tasks (group_run s (new_group n)))) 0) as [E|_]; [|reflexivity]. apply left_0 in E. contradiction.
Qed.

(** A schedule that lets every task run and join starts it. *)
Definition rank (t : tpos) : nat := match t with Waiting => 0 | Ran => 1 | Joined => 2 end.
Lemma sett_same l : forall i x t, nth_error l i = Some t -> nth_error (sett i x l) i = Some x.
Proof. induction l as [|y l IH]; intros [|i] x t H; cbn in *; try discriminate; eauto. Qed.
Lemma sett_other l : forall i j x, i <> j -> nth_error (sett i x l) j = nth_error l j.
Proof. induction l as [|y l IH]; intros [|i] [|j] x H; cbn; auto; try congruence. Qed.
Lemma step_rank i j g t : nth_error (tasks g) j = Some t ->
  exists t', nth_error (tasks (match task_step i g with Some g => g | None => g end)) j = Some t' /\ (Nat.min 2 (rank t + if Nat.eqb i j then 1 else 0) <= rank t')%nat.
Proof.
  intros H. destruct (Nat.eqb_spec i j) as [->|N].
  - unfold task_step. rewrite H. destruct t; cbn [tasks].
    + exists Ran. split; [eapply sett_same; eauto|cbn; lia].
    + exists Joined. split; [eapply sett_same; eauto|cbn; lia].
    + exists Joined. split; [auto|cbn; lia].
  - exists t. split; [|lia]. unfold task_step. destruct (nth_error (tasks g) i) as [[]|]; cbn [tasks]; rewrite ?sett_other; auto.
Qed.
Lemma run_rank s : forall j g t, nth_error (tasks g) j = Some t ->
  exists t', nth_error (tasks (group_run s g)) j = Some t' /\ (Nat.min 2 (rank t + count_occ Nat.eq_dec s j) <= rank t')%nat.
Proof.
  induction s as [|i s IH]; intros j g t H; cbn [group_run count_occ]; [exists t; split; [auto|lia]|].
  destruct (step_rank i j g t H) as (t1 & H1 & R1). destruct (IH _ _ _ H1) as (t2 & H2 & R2). exists t2. split; [exact H2|].
  destruct (Nat.eqb_spec i j) as [E|E], (Nat.eq_dec i j) as [E'|E']; try contradiction; lia.
Qed.
Lemma run_length s : forall g, length (tasks (group_run s g)) = length (tasks g).
Proof.
  induction s as [|i s IH]; intros g; [reflexivity|]. cbn [group_run]. rewrite IH. unfold task_step.
  destruct (nth_error (tasks g) i) as [[]|]; cbn [tasks]; rewrite ?sett_length; auto.
Qed.
Theorem join_completes_partial : forall n s, (0 < n)%nat -> Z.of_nat n <= 2 ^ 32 -> (forall i, (i < n)%nat -> (2 <= count_occ Nat.eq_dec s i)%nat) ->
  started (group_run s (new_group n)) = 1%nat.
Proof.
  intros n s H0 Hn F. apply (join_once_partial n s H0 Hn). unfold joined. apply Forall_forall. intros t Ht. apply In_nth_error in Ht. destruct Ht as [j Hj].
  assert (L : (j < n)%nat). { assert (Q : nth_error (tasks (group_run s (new_group n))) j <> None) by congruence. apply nth_error_Some in Q. rewrite run_length in Q. cbn in Q. rewrite repeat_length in Q. exact Q. }
  destruct (run_rank s j (new_group n) Waiting) as (t' & H' & R). { cbn. apply nth_error_repeat. exact L. }
  rewrite Hj in H'. injection H' as <-. specialize (F j L). destruct t; cbn [rank] in R; try lia; reflexivity.
Qed.

(** One task more: the int that receives the old count holds 1 at the first join. *)
Theorem join_truncation_refuted : exists n s, (0 < n)%nat /\ started (group_run s (new_group n)) = 1%nat /\ ~ joined (group_run s (new_group n)).
Proof.
  exists (S (Z.to_nat (2 ^ 32))), [0%nat; 0%nat]. split; [lia|]. assert (E : Z.of_nat (S (Z.to_nat (2 ^ 32))) = 2 ^ 32 + 1) by (rewrite Nat2Z.inj_succ, Z2Nat.id; lia).
  assert (P : exists k, Z.to_nat (2 ^ 32) = S k) by (exists (Z.to_nat (2 ^ 32 - 1)); lia). destruct P as [k P]. rewrite P in *. clear P.
  unfold new_group. rewrite E. cbn [repeat group_run task_step nth_error tasks join_count started sett]. split; [reflexivity|].
  unfold joined. cbn [tasks]. intros F. inversion F as [|? ? _ F']; subst. inversion F' as [|? ? Q _]; subst. discriminate.
Qed.

(** Three tasks, interleaved. *)
Example join_case : started (group_run [2;0;0;1;2]%nat (new_group 3)) = 0%nat /\ started (group_run [2;0;0;1;2;1]%nat (new_group 3)) = 1%nat /\
  join_count (group_run [2;0;0;1;2;1]%nat (new_group 3)) = 0 /\ joined (group_run [2;0;0;1;2;1]%nat (new_group 3)).
Proof. repeat split; try (vm_compute; reflexivity). vm_compute. repeat constructor. Qed.

Print Assumptions join_once_partial.
Print Assumptions join_completes_partial.
Print Assumptions join_truncation_refuted.
