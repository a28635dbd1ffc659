(** The work-stealing deque of examples/work-steal.c (C63). *)
From Coq Require Import Permutation.
From Verif Require Import BaseLemmas DequeModel DequeProofs.

(** ** Specification *)
(** Items returned by the calls so far. *)
Definition given (q : deque) : list Z := flat_map (fun r => match r with Item w => [w] | _ => [] end) (took q ++ stole q).
(** A call returned a word that is not an item. *)
Definition gave_junk (q : deque) : Prop := In Junk (took q ++ stole q).
(** The whole history: the owner has nothing left to do and no thief is in a call. *)
Definition at_rest (q : deque) : Prop := oprog q = [] /\ opos q = OIdle /\ Forall (fun x => x = S0) (thieves q).

(** The full statement (C63) would be: for every size >= 1, program, number of thieves, and schedule, no step is undefined, no call gives
    junk, and the items given are, with those still in the deque, exactly those pushed.  It fails. *)

(** An item is given twice.  The owner pushes 10 and 20, and takes: it has read top = 0 and not yet stored bottom when a thief steals both. *)
Theorem item_twice_refuted : exists size prog n ts q, 0 < size /\ dsched ts (dinit size prog n) = Ok q /\ at_rest q /\ NoDup (pushed q) /\ ~ NoDup (given q).
Proof.
  exists 4, [Push 10; Push 20; Take], 1%nat, (repeat None 10 ++ [None; None] ++ repeat (Some 0%nat) 10 ++ [None; None])%list. eexists. split; [lia|]. split; [vm_compute; reflexivity|].
  split; [split; [reflexivity|]; split; [reflexivity|]; repeat constructor|]. split; [repeat constructor; cbn; intuition discriminate|].
  intros H. cbn in H. inversion H as [|? ? N _]. apply N. cbn. auto.
Qed.
(** The item can also go out twice with only one other item stolen in between: a second thief that saw the old bottom takes it later. *)
Theorem item_twice_late_refuted : exists size prog n ts q, 0 < size /\ dsched ts (dinit size prog n) = Ok q /\ at_rest q /\ NoDup (pushed q) /\ ~ NoDup (given q) /\ took q = [Item 20] /\ stole q = [Item 10; Item 20].
Proof.
  exists 4, [Push 10; Push 20; Take], 2%nat, (repeat None 10 ++ [None; None] ++ repeat (Some 0%nat) 5 ++ repeat (Some 1%nat) 4 ++ [None; None] ++ [Some 1%nat])%list. eexists. split; [lia|]. split; [vm_compute; reflexivity|].
  split; [split; [reflexivity|]; split; [reflexivity|]; repeat constructor|]. split; [repeat constructor; cbn; intuition discriminate|]. split; [|split; reflexivity].
  intros H. cbn in H. inversion H as [|? ? N _]. apply N. cbn. auto.
Qed.
(** An item is lost: after that bottom is below top; the next item pushed is given to nobody, though the owner then takes until the
    deque says EMPTY, and so does the thief. *)
Theorem item_lost_refuted : exists size prog n ts q, 0 < size /\ dsched ts (dinit size prog n) = Ok q /\ at_rest q /\ In 30 (pushed q) /\ ~ In 30 (given q) /\ top q = bottom q /\
  last (took q) Junk = Empty /\ last (stole q) Junk = Empty.
Proof.
  exists 4, [Push 10; Push 20; Take; Push 30; Take], 1%nat, (repeat None 10 ++ [None; None] ++ repeat (Some 0%nat) 10 ++ [None; None] ++ repeat None 12 ++ repeat (Some 0%nat) 2)%list. eexists. split; [lia|]. split; [vm_compute; reflexivity|].
  split; [split; [reflexivity|]; split; [reflexivity|]; repeat constructor|]. split; [cbn; auto|]. split; [cbn; intuition discriminate|]. repeat split; reflexivity.
Qed.
(** take on a deque nothing was pushed to returns a word of the array that was never written. *)
Theorem take_fresh_refuted : exists size prog ts q, 0 < size /\ dsched ts (dinit size prog 0) = Ok q /\ gave_junk q.
Proof. exists 4, [Take], [None; None; None; None]. eexists. split; [lia|]. split; [vm_compute; reflexivity|]. left. reflexivity. Qed.

(** ** What does hold *)
Lemma items_given l m : items l ++ items m = map Some (flat_map (fun r => match r with Item w => [w] | _ => [] end) (l ++ m)).
Proof.
  rewrite <- items_app. induction (l ++ m) as [|r k IH]; [reflexivity|]. cbn [items flat_map]. fold (items k). rewrite map_app, <- IH. destruct r; reflexivity.
Qed.
Lemma all_some (l : list (option Z)) : Forall (fun x => x <> None) l -> exists r, l = map Some r.
Proof. induction 1 as [|o l Hx F IH]; [exists (@nil Z); reflexivity|]. destruct IH as (r & ->). destruct o as [x|]; [exists (x :: r); reflexivity|congruence]. Qed.
Lemma map_some (l m : list Z) : map Some l = map Some m -> l = m.
Proof.
  revert m. induction l as [|a l IH]; intros [|b m] E; cbn [map] in E.
  - reflexivity.
  - discriminate.
  - discriminate.
  - injection E as -> E. f_equal. exact (IH m E).
Qed.
Lemma perm_some (l m : list Z) : Permutation (map Some l) (map Some m) -> Permutation l m.
Proof. intros H. apply Permutation_map_inv in H. destruct H as (k & E & P). apply map_some in E. subst k. symmetry. exact P. Qed.

(** In executions in which, between the load of top and the store to bottom of a take that saw more than one item, the thieves do not take
    all but the last ([calm]), for owners that do not begin with a take and push less than 2^63 times: no step is undefined, no call gives
    junk, the items given and some remaining ones are exactly those pushed, and while no take or push is under way the remaining ones are
    those between top and bottom. *)
Theorem exactly_once_partial : forall size prog n q, 0 < size < 2 ^ 64 -> pushes prog < 2 ^ 63 -> first_push prog -> calm (dinit size prog n) q ->
  (forall t, match dstep t q with Some (Ok _) | None => True | _ => False end) /\ ~ gave_junk q /\
  exists rest, Permutation (pushed q) (given q ++ rest) /\
    (opos q = OIdle -> 0 <= top q <= bottom q /\ length rest = Z.to_nat (bottom q - top q) /\ forall i, (i < length rest)%nat -> cell (cur q) (top q + Z.of_nat i) = nth_error rest i).
Proof.
  intros size prog n q S P F C. assert (I : inv q) by (apply (calm_inv _ _ C), start_inv; assumption).
  split; [intros t; apply inv_safe, I|]. split.
  { intros J. unfold gave_junk in J. destruct (i_junk q I) as (J1 & J2). unfold no_junk in *. rewrite Forall_forall in J1, J2. apply in_app_or in J. destruct J as [J|J]; [apply (J1 _ J)|apply (J2 _ J)]; reflexivity. }
  pose proof (i_items q I) as Pm. assert (Sm : Forall (fun x => x <> None) (hand q ++ content (cur q) (top q) (bot q))).
  { apply Forall_app. split.
    - pose proof (i_owner q I) as O. unfold owner_ok in O. unfold hand. destruct (opos q) as [ | | | | | | | | |b t| |b r]; try constructor.
      + destruct (Z.ltb_spec t b) as [L|L]; constructor; [apply O, L|constructor].
      + destruct r; repeat constructor. discriminate.
    - apply Forall_forall. intros x Hx. apply in_map_iff in Hx. destruct Hx as (i & <- & Hi). apply in_range in Hi. apply (i_cells q I). lia. }
  apply all_some in Sm. destruct Sm as (rest & Er). exists rest. rewrite Er, app_assoc, items_given, <- map_app in Pm. apply perm_some in Pm. split; [exact Pm|].
  intros Po. unfold hand, bot in Er. rewrite Po in Er. cbn [app] in Er. pose proof (i_bounds q I) as Bd. unfold bot in Bd. rewrite Po in Bd. split; [lia|].
  assert (Gen : forall k lo r, map (cell (cur q)) (range lo k) = map Some r -> length r = k /\ forall i, (i < length r)%nat -> cell (cur q) (lo + Z.of_nat i) = nth_error r i).
  { induction k as [|k IH]; intros lo [|x r] E; try discriminate; [split; [reflexivity|]; cbn; lia|]. cbn [range map] in E. injection E as E1 E2. destruct (IH _ _ E2) as (L & G). split; [cbn [length]; lia|].
    intros [|i] Hi; [cbn [nth_error]; rewrite <- E1; f_equal; lia|]. cbn [nth_error]. cbn [length] in Hi. rewrite <- (G i) by lia. f_equal. lia. }
  apply (Gen _ _ _ Er).
Qed.
(** At the end: all items have been given to exactly one call, if the deque is empty. *)
Corollary drained_partial : forall size prog n q, 0 < size < 2 ^ 64 -> pushes prog < 2 ^ 63 -> first_push prog -> calm (dinit size prog n) q ->
  opos q = OIdle -> bottom q <= top q -> Permutation (pushed q) (given q).
Proof.
  intros size prog n q S P F C Po E. destruct (exactly_once_partial _ _ _ _ S P F C) as (_ & _ & rest & Pm & R). destruct (R Po) as (B & L & _). replace (bottom q - top q) with 0 in L by lia. destruct rest; [|discriminate]. rewrite app_nil_r in Pm. exact Pm.
Qed.
(** A calm execution in which a steal falls into a take, with a resize. *)
Fixpoint run_calm (ts : list (option nat)) (q : deque) : option deque :=
  match ts with
  | [] => Some q
  | t :: ts => match dstep t q with
               | Some (Ok q') => if match opos q with T2 b x => (b <=? x) || (top q' <? b) | _ => true end then run_calm ts q' else None
               | _ => None
               end
  end.
Lemma run_calm_ok a ts : forall q q', calm a q -> run_calm ts q = Some q' -> calm a q'.
Proof.
  induction ts as [|t ts IH]; intros q q' C H; cbn [run_calm] in H; [injection H as <-; exact C|]. destruct (dstep t q) as [[q1| | | ]|] eqn:D; try discriminate.
  destruct (match opos q with T2 b x => (b <=? x) || (top q1 <? b) | _ => true end) eqn:E; try discriminate. apply (IH q1); [|exact H]. eapply calm_more; [exact C|]. split; [exact D|].
  intros b x Po Lt. rewrite Po in E. apply orb_prop in E. lia.
Qed.
Example calm_case : exists q, calm (dinit 2 [Push 10; Push 20; Push 30; Push 40; Take] 1) q /\ at_rest q /\ took q = [Item 40] /\ stole q = [Item 10; Item 20; Item 30] /\ length (arrays q) = 2%nat.
Proof.
  eexists. split.
  - eapply (run_calm_ok _ (repeat None 22 ++ repeat (Some 0%nat) 5 ++ [None; None] ++ repeat (Some 0%nat) 4 ++ repeat (Some 0%nat) 1 ++ [None; None] ++ repeat (Some 0%nat) 5)); [apply calm_refl|]. vm_compute. reflexivity.
  - repeat split; try reflexivity. repeat constructor.
Qed.

(** Owners that only push: every schedule. *)
Definition only_pushes (prog : list owner_op) : Prop := Forall (fun o => o <> Take) prog.
Definition pushing_pc (pc : opc) : Prop := match pc with OIdle | P1 _ _ | P2 _ _ _ | R1 _ _ | R2 _ _ _ | P4 _ _ | P5 _ _ => True | _ => False end.
Lemma only_step t q q' : dstep t q = Some (Ok q') -> only_pushes (oprog q) -> pushing_pc (opos q) -> only_pushes (oprog q') /\ pushing_pc (opos q').
Proof.
  intros H Pr Pc. destruct t as [i|]; cbn [dstep] in H.
  - unfold sstep in H. destruct (nth_error (thieves q) i) as [pc|]; try discriminate. injection H as H.
    assert (X : oprog q' = oprog q /\ opos q' = opos q); [|destruct X as (-> & ->); split; assumption].
    destruct pc as [ |t|t|t k|t x]; try (injection H as <-; split; reflexivity).
    + destruct (_ <? _); injection H as <-; split; reflexivity.
    + destruct (nth_error (arrays q) k) as [a|]; try discriminate. destruct (_ =? _); try discriminate. injection H as <-. split; reflexivity.
    + destruct (_ =? _); injection H as <-; split; reflexivity.
  - unfold ostep in H. destruct (opos q); try destruct Pc; try (injection H as <-; split; [exact Pr|exact Logic.I]).
    + destruct (oprog q) as [|[w|] l]; try discriminate; [|inversion Pr; congruence]. injection H as <-. split; [inversion Pr; assumption|exact Logic.I].
    + injection H as <-. split; [exact Pr|]. cbn [owner_at opos]. destruct (_ <? _); exact Logic.I.
    + destruct (_ =? _); try discriminate. injection H as <-. split; [exact Pr|exact Logic.I].
    + destruct (_ =? _); try discriminate. injection H as <-. split; [exact Pr|exact Logic.I].
Qed.
Theorem pushes_only_partial : forall size prog n ts, 0 < size < 2 ^ 64 -> pushes prog < 2 ^ 63 -> only_pushes prog ->
  exists q, dsched ts (dinit size prog n) = Ok q /\ ~ gave_junk q /\
  exists rest, Permutation (pushed q) (given q ++ rest) /\
    (opos q = OIdle -> 0 <= top q <= bottom q /\ length rest = Z.to_nat (bottom q - top q) /\ forall i, (i < length rest)%nat -> cell (cur q) (top q + Z.of_nat i) = nth_error rest i).
Proof.
  intros size prog n ts S P O. assert (F : first_push prog) by (destruct O as [|[|] l H]; cbn; auto; congruence).
  assert (G : forall ts q0, calm (dinit size prog n) q0 -> only_pushes (oprog q0) -> pushing_pc (opos q0) -> exists q, dsched ts q0 = Ok q /\ calm (dinit size prog n) q).
  { clear ts. induction ts as [|t ts IH]; intros q0 C O1 O2; cbn [dsched]; [eauto|]. destruct (exactly_once_partial _ _ _ _ S P F C) as (Safe & _). specialize (Safe t).
    destruct (dstep t q0) as [[q1| | | ]|] eqn:D; try destruct Safe.
    - cbn [bind]. destruct (only_step t q0 q1 D O1 O2) as (O3 & O4). apply IH; try assumption. eapply calm_more; [exact C|]. split; [exact D|]. intros b x E. rewrite E in O2. destruct O2.
    - apply IH; assumption. }
  destruct (G ts (dinit size prog n) (calm_refl _) O Logic.I) as (q & D & C). exists q. split; [exact D|]. apply (exactly_once_partial _ _ _ _ S P F C).
Qed.
Example pushes_only_case : only_pushes [Push 1; Push 2; Push 3] /\ exists q, dsched (repeat None 5 ++ repeat (Some 0%nat) 3 ++ repeat (Some 1%nat) 5 ++ repeat None 15 ++ repeat (Some 0%nat) 7) (dinit 1 [Push 1; Push 2; Push 3] 2) = Ok q /\
  given q = [1; 2] /\ stole q = [Item 1; Abort; Item 2].
Proof. split; [repeat constructor; discriminate|]. eexists. split; [vm_compute; reflexivity|]. split; reflexivity. Qed.

(** A size hint of 0: the first push divides by zero. *)
Theorem size_zero : forall w l n, exists ts, dsched ts (dinit 0 (Push w :: l) n) = Undef DivZero.
Proof. intros w l n. exists (repeat None 4). unfold dinit. destruct n; reflexivity. Qed.

Print Assumptions item_twice_refuted. Print Assumptions item_twice_late_refuted. Print Assumptions item_lost_refuted. Print Assumptions take_fresh_refuted. Print Assumptions exactly_once_partial.
Print Assumptions drained_partial. Print Assumptions pushes_only_partial. Print Assumptions size_zero.
