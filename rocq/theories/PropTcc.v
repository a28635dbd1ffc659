(** C147: the atomic operations as TinyCC compiles them (TccModel.v). *)
From Verif Require Import Base BaseLemmas AtomicModel TccModel.
Import ListNotations.

(** One more round at the front (no counterpart in the source). *)
Lemma iter_front k (f : Z -> Z) x : Nat.iter (S k) f x = Nat.iter k f (f x).
Proof. induction k as [|k IH]; [reflexivity|]. cbn [Nat.iter nat_rect] in *. f_equal. exact IH. Qed.
(** C147, loads: they leave the variable as it is but never return its value: 1 for 0, and 0 for everything else. *)
Theorem tcc_load_wrong : forall v, exists r, tcc_load v = (r, v) /\ r <> v /\ (r = 1 <-> v = 0) /\ (r = 0 <-> v <> 0).
Proof.
  intros v. unfold tcc_load, tcc_cas, c11_cas. destruct (v =? 0) eqn:E; [apply Z.eqb_eq in E; subst; exists 1|apply Z.eqb_neq in E; exists 0]; (split; [reflexivity|]); repeat split; lia.
Qed.
(** C147, fetch_sub, fetch_and, fetch_xor, fetch_or: the operation is repeated until the variable is 1, done once more, and 1 is returned; if the variable never is 1, the loop
    does not end. *)
Theorem tcc_fetch_exact : forall w o v, (forall fuel r v', tcc_fetch fuel w o v = Ok (r, v') -> r = 1 /\ v' = new_value w o 1 /\ exists k, Nat.iter k (new_value w o) v = 1) /\
  (forall k, Nat.iter k (new_value w o) v = 1 -> exists fuel r v', tcc_fetch fuel w o v = Ok (r, v')).
Proof.
  intros w o v. assert (ST : forall x, tcc_cas x x (new_value w o x) = (1, new_value w o x)) by (intros x; unfold tcc_cas, c11_cas; rewrite Z.eqb_refl; reflexivity). split.
  - intros fuel. revert v. induction fuel as [|fuel IH]; intros v r v' H; [discriminate H|]. cbn [tcc_fetch] in H. rewrite ST in H. destruct (1 =? v) eqn:E.
    + apply Z.eqb_eq in E. injection H as <- <-. subst v. split; [reflexivity|]. split; [reflexivity|]. exists O. reflexivity.
    + destruct (IH _ _ _ H) as (A & B & k & K). split; [exact A|]. split; [exact B|]. exists (S k). rewrite iter_front. exact K.
  - intros k. revert v. induction k as [|k IH]; intros v H.
    + cbn in H. subst v. exists 1%nat, 1, (new_value w o 1). cbn [tcc_fetch]. rewrite ST. reflexivity.
    + rewrite iter_front in H. destruct (IH _ H) as (fuel & r & v' & R). destruct (Z.eq_dec v 1) as [->|N].
      * exists 1%nat, 1, (new_value w o 1). cbn [tcc_fetch]. rewrite ST. reflexivity.
      * exists (S fuel), r, v'. cbn [tcc_fetch]. rewrite ST. destruct (1 =? v) eqn:E; [apply Z.eqb_eq in E; congruence|exact R].
Qed.
(** C147, so the fetch operations are right for a variable that is 1, and the result is the old value only then. *)
Theorem tcc_fetch_right_partial : forall w o v, (v = 1 -> forall fuel, tcc_fetch (S fuel) w o v = Ok (v, new_value w o v)) /\ forall fuel v', tcc_fetch fuel w o v = Ok (v, v') -> v = 1.
Proof. intros w o v. split; [intros ->; reflexivity|]. intros fuel v' H. exact (proj1 (proj1 (tcc_fetch_exact w o v) _ _ _ H)). Qed.
(** C147, compare_exchange exactly: it works as if the expected value were 0, if it is not, and 1, if it is 0; and with a success and a failure exchanged in the first case. *)
Theorem tcc_exchange_exact : forall v e d, (e <> 0 -> v = 0 -> tcc_exchange v e d = (false, d, 1)) /\ (e <> 0 -> v <> 0 -> tcc_exchange v e d = (true, v, e)) /\
  (e = 0 -> v = 1 -> tcc_exchange v e d = (true, d, 0)) /\ (e = 0 -> v <> 1 -> tcc_exchange v e d = (false, v, 0)).
Proof.
  intros v e d. unfold tcc_exchange, tcc_load, tcc_cas, c11_cas. split; [|split; [|split]]; intros E V.
  - rewrite (proj2 (Z.eqb_neq _ _) E), V. reflexivity.
  - rewrite (proj2 (Z.eqb_neq _ _) E). cbv beta iota. rewrite (proj2 (Z.eqb_neq _ _) V). reflexivity.
  - rewrite E, V. reflexivity.
  - rewrite E. change (0 =? 0) with true. cbv beta iota. rewrite (proj2 (Z.eqb_neq _ _) V). reflexivity.
Qed.
(** C147, so when the expected value is the one of the variable, the desired value is never stored; the answer is that it was stored, if the value is not 0. *)
Theorem tcc_exchange_wrong : forall v d, exists b e, tcc_exchange v v d = (b, v, e) /\ (b = true <-> v <> 0).
Proof.
  intros v d. destruct (tcc_exchange_exact v v d) as (_ & A & _ & B). destruct (Z.eq_dec v 0) as [->|N].
  - rewrite B by lia. exists false, 0. split; [reflexivity|]. split; congruence.
  - rewrite (A N N). exists true, v. split; [reflexivity|]. tauto.
Qed.
(** C147, the three functions of the Windows build: what decides is the address of the expected value; the expected value is never updated. *)
Theorem tcc_win_exact : forall v cmp e d, exists b v', tcc_cas_win v cmp e d = (b, v', e) /\ (b = true <-> v = cmp) /\ (v = cmp -> v' = d) /\ (v <> cmp -> v' = v).
Proof.
  intros v cmp e d. unfold tcc_cas_win, c11_cas. destruct (v =? cmp) eqn:E; [apply Z.eqb_eq in E|apply Z.eqb_neq in E]; eexists _, _; (split; [reflexivity|]); repeat split; congruence.
Qed.
(** C147, c89atomic_swap, in addition: what it stores is the address of its parameter. *)
Theorem tcc_swap_exact : forall v cmp e address, (v = cmp -> tcc_swap_win v cmp e address = (true, address, e)) /\ (v <> cmp -> tcc_swap_win v cmp e address = (false, v, e)).
Proof. intros v cmp e a. unfold tcc_swap_win, tcc_cas_win, c11_cas. split; intros H; [subst; rewrite Z.eqb_refl|rewrite (proj2 (Z.eqb_neq _ _) H)]; reflexivity. Qed.
(** C147 is refuted: a promise that is not done is read as done and one that is done as not done; the mask 4 on the value 6 never returns; 5 with expected value 5 is not replaced
    by 9, although the answer is yes; with an expected value at address 4096 the Windows form does not replace 5 by 9 and answers no. *)
Theorem tcc_refuted : exists s : Z, tcc_load 0 = (1, 0) /\ tcc_load s = (0, s) /\ s = 1 /\ (forall fuel, tcc_fetch fuel 32 (And 4) 6 = NoFuel) /\ tcc_exchange 5 5 9 = (true, 5, 5) /\ tcc_cas_win 5 4096 5 9 = (false, 5, 5).
Proof.
  exists 1. repeat split. intros fuel. assert (K : forall n, tcc_fetch n 32 (And 4) 4 = NoFuel) by (induction n as [|n IH]; [reflexivity|exact IH]). destruct fuel; [reflexivity|exact (K fuel)].
Qed.
(** Runs: 3 minus 1 at 8 bits takes three rounds and leaves 0; 1 minus 1 is right. *)
Example tcc_runs : tcc_fetch 5 8 (Sub 1) 3 = Ok (1, 0) /\ Nat.iter 2 (new_value 8 (Sub 1)) 3 = 1 /\ tcc_fetch 1 8 (Sub 1) 1 = Ok (1, 0) /\ tcc_exchange 0 0 7 = (false, 0, 0) /\ tcc_swap_win 4096 4096 5 8000 = (true, 8000, 5).
Proof. repeat split. Qed.

Print Assumptions tcc_load_wrong.
Print Assumptions tcc_fetch_exact.
Print Assumptions tcc_fetch_right_partial.
Print Assumptions tcc_exchange_exact.
Print Assumptions tcc_exchange_wrong.
Print Assumptions tcc_win_exact.
Print Assumptions tcc_swap_exact.
Print Assumptions tcc_refuted.
