(** C98: the value returned from a guard. *)
From Verif Require Import BaseLemmas ResultModel.

(** The variables and the blocks an expression reads in a state. *)
Inductive reads_var (st : rst) : expr -> Z -> Prop :=
| rv_local x : reads_var st (Local x) x
| rv_deref e x : reads_var st e x -> reads_var st (Deref e) x
| rv_add1 a b x : reads_var st a x -> reads_var st (Add a b) x
| rv_add2 a b x : reads_var st b x -> reads_var st (Add a b) x.
Inductive reads_block (st : rst) : expr -> Z -> Prop :=
| rb_here e a : eval e st = Ok a -> reads_block st (Deref e) a
| rb_deref e a : reads_block st e a -> reads_block st (Deref e) a
| rb_add1 a b x : reads_block st a x -> reads_block st (Add a b) x
| rb_add2 a b x : reads_block st b x -> reads_block st (Add a b) x.
(** What the deferred functions change. *)
Definition changes_var (l : list effect) (x : Z) : Prop := exists v, In (Assign x v) l.
Definition changes_block (l : list effect) (a : Z) : Prop := In (Free a) l \/ exists v, In (Store a v) l.

Lemma release_keeps l : forall st st', release l st = Ok st' ->
  (forall x, ~ changes_var l x -> locals st' x = locals st x) /\ (forall a, ~ changes_block l a -> heap st' a = heap st a).
Proof.
  induction l as [|f l IH]; intros st st' E; cbn [release] in E; [injection E as <-; auto|].
  destruct (apply f st) as [s| | |] eqn:A; try discriminate. cbn [bind] in E. destruct (IH _ _ E) as [L H]. clear IH E. split.
  - intros x N. rewrite L by (intros [v V]; apply N; exists v; now right). destruct f as [a|y v|a v]; cbn [apply] in A.
    + destruct (heap st a); [|discriminate]. injection A as <-. reflexivity.
    + injection A as <-. cbn. destruct (Z.eqb_spec x y) as [->|]; [|reflexivity]. exfalso. apply N. exists v. now left.
    + destruct (heap st a); [|discriminate]. injection A as <-. reflexivity.
  - intros b N. rewrite H by (intros [V|[v V]]; apply N; [left; now right|right; exists v; now right]). destruct f as [a|y v|a v]; cbn [apply] in A.
    + destruct (heap st a); [|discriminate]. injection A as <-. cbn. destruct (Z.eqb_spec b a) as [->|]; [|reflexivity]. exfalso. apply N. left. now left.
    + injection A as <-. reflexivity.
    + destruct (heap st a); [|discriminate]. injection A as <-. cbn. destruct (Z.eqb_spec b a) as [->|]; [|reflexivity]. exfalso. apply N. right. exists v. now left.
Qed.
Lemma eval_same e st st' : (forall x, reads_var st e x -> locals st' x = locals st x) -> (forall a, reads_block st e a -> heap st' a = heap st a) -> eval e st' = eval e st.
Proof.
  induction e as [z|x|e IH|a IHa b IHb]; intros V B; cbn [eval].
  - reflexivity.
  - rewrite V by constructor. reflexivity.
  - rewrite IH; [|intros x X; apply V; now constructor|intros x X; apply B; now constructor]. destruct (eval e st) as [a| | |] eqn:E; try reflexivity. cbn [bind]. rewrite B by now constructor. reflexivity.
  - rewrite IHa, IHb; [reflexivity| | | |]; intros x X; (apply V; now constructor) || (apply B; now constructor).
Qed.
(** The value is the one the expression had before the release if it reads nothing the deferred functions release or change.  The full claim has no such condition. *)
Theorem return_value_partial : forall l e st st', release l st = Ok st' ->
  (forall x, reads_var st e x -> ~ changes_var l x) -> (forall a, reads_block st e a -> ~ changes_block l a) -> return_value l e st = eval e st.
Proof.
  intros l e st st' R V B. unfold return_value. rewrite R. cbn [bind]. destruct (release_keeps l st st' R) as [L H]. apply eval_same; auto.
Qed.
Definition two_blocks : rst := Rst (fun x => if x =? 1 then 100 else 0) (fun a => if a =? 100 then Some 7 else if a =? 200 then Some 8 else None).
Example return_value_met := return_value_partial [Free 200; Assign 2 9] (Add (Deref (Local 1)) (Const 1)) two_blocks _ eq_refl
  ltac:(intros x X [v V]; inversion X as [|? ? Y|? ? ? Y|? ? ? Y]; subst; inversion Y as [|? ? W| |]; subst; inversion W; subst; repeat destruct V as [V|V]; try discriminate V; exact V)
  ltac:(intros a X H; inversion X as [|? ? Y|? ? ? Y|? ? ? Y]; subst; inversion Y as [? ? W|? ? W| |]; subst; [cbn in W; injection W as <-; destruct H as [H|[v H]]; repeat destruct H as [H|H]; try discriminate H; exact H|inversion W]).
Lemma freed_stays l : forall st st' a, release l st = Ok st' -> heap st a = None -> heap st' a = None.
Proof.
  induction l as [|f l IH]; intros st st' a E N; cbn [release] in E; [injection E as <-; exact N|]. destruct (apply f st) as [s| | |] eqn:A; try discriminate. cbn [bind] in E. apply (IH _ _ _ E).
  destruct f as [b|y v|b v]; cbn [apply] in A; [destruct (heap st b) eqn:Hb; [|discriminate]|..|destruct (heap st b) eqn:Hb; [|discriminate]]; injection A as <-; cbn; try exact N; destruct (Z.eqb_spec a b) as [->|]; congruence.
Qed.
Lemma freed_gone l : forall st st' a, release l st = Ok st' -> In (Free a) l -> heap st' a = None.
Proof.
  induction l as [|f l IH]; intros st st' a E I; [destruct I|]. cbn [release] in E. destruct (apply f st) as [s| | |] eqn:A; try discriminate. cbn [bind] in E. destruct I as [->|I]; [|eauto].
  apply (freed_stays l s st' a E). cbn [apply] in A. destruct (heap st a); [|discriminate]. injection A as <-. cbn. now rewrite Z.eqb_refl.
Qed.
(** Returning the contents of memory obtained in the guard is always undefined. *)
Theorem return_released : forall l e a st st', release l st = Ok st' -> eval e st' = Ok a -> In (Free a) l -> return_value l (Deref e) st = Undef UseAfterFree.
Proof. intros l e a st st' R E I. unfold return_value. rewrite R. cbn [bind eval]. rewrite E. cbn [bind]. now rewrite (freed_gone l st st' a R I). Qed.
Example return_released_met := return_released [Free 200; Free 100] (Local 1) 100 two_blocks _ eq_refl eq_refl ltac:(cbn; auto).
(** So there are an expression with a value and a guard from which returning it is undefined; and one that returns another value. *)
Theorem return_value_refuted : exists l e st v, eval e st = Ok v /\ return_value l e st = Undef UseAfterFree.
Proof. exists [Free 100], (Deref (Local 1)), two_blocks, 7. vm_compute. auto. Qed.
Theorem return_value_changed_refuted : exists l e st v w, eval e st = Ok v /\ return_value l e st = Ok w /\ v <> w.
Proof. exists [Assign 1 5], (Local 1), two_blocks, 100, 5. split; [reflexivity|]. split; [vm_compute; reflexivity|lia]. Qed.

Print Assumptions return_value_partial.
Print Assumptions return_released.
Print Assumptions return_value_refuted.
Print Assumptions return_value_changed_refuted.
