(** C108-C110: the red-black tree macros of the bundled sys/tree.h. *)
From Verif Require Import BaseLemmas TreeModel SpecTree TreeMem TreeBal TreeDel TreeOps TreeWalk TreeRun.
Import ListNotations.

(** Elements 1 … 13; the keys are not in the order of the addresses. *)
Definition ex_key (e : Z) : Z := (e * 5) mod 13.
Definition ex_cmp (e f : Z) : Z := ex_key e - ex_key f.
Definition ex_U : list Z := map Z.of_nat (seq 1 13).
(** Fresh memory: the entries hold anything. *)
Definition ex_mem : tmem := Tmem 77 (fun e => if (1 <=? e) && (e <=? 13) then Some (Entry (e + 1) (-7) e 3) else None).
Definition ex_ops : list rbop := map Insert ex_U ++ [Remove 5; Insert 7; Remove 1; Remove 8; Remove 13; Insert 5].
Example ex_compares : compares ex_cmp ex_key.
Proof. intros e f. unfold ex_cmp. lia. Qed.
Example ex_room : forall e, In e ex_U -> e <> 0 /\ nodes ex_mem e <> None.
Proof.
  intros e J. unfold ex_U in J. apply in_map_iff in J. destruct J as (i & <- & J). apply in_seq in J. cbn [nodes ex_mem].
  assert ((1 <=? Z.of_nat i) && (Z.of_nat i <=? 13) = true) as -> by (apply andb_true_iff; rewrite !Z.leb_le; lia). split; [lia|discriminate].
Qed.
Example ex_in : forall o, In o ex_ops -> In (op_elem o) ex_U.
Proof.
  intros o J. assert (F : forallb (fun o => existsb (Z.eqb (op_elem o)) ex_U) ex_ops = true) by (vm_compute; reflexivity).
  rewrite forallb_forall in F. specialize (F o J). apply existsb_exists in F. destruct F as (x & X & Q). apply Z.eqb_eq in Q. congruence.
Qed.
(** The meaning of such a history can be computed. *)
Fixpoint split_at (key : Z -> Z) (e : Z) (l : list Z) : list Z * list Z :=
  match l with [] => ([], []) | x :: l' => if key x <? key e then let (a, b) := split_at key e l' in (x :: a, b) else ([], l) end.
Fixpoint mean (key : Z -> Z) (l : list Z) (ops : list rbop) : option (list Z * list Z) :=
  match ops with
  | [] => Some ([], l)
  | Insert e :: ops =>
      let (a, b) := split_at key e l in
      match b with
      | x :: _ => if key x =? key e then option_map (fun '(rs, l) => (x :: rs, l)) (mean key l ops) else option_map (fun '(rs, l) => (0 :: rs, l)) (mean key (a ++ e :: b) ops)
      | [] => option_map (fun '(rs, l) => (0 :: rs, l)) (mean key (a ++ e :: b) ops)
      end
  | Remove e :: ops => if existsb (Z.eqb e) l then option_map (fun '(rs, l) => (e :: rs, l)) (mean key (filter (fun x => negb (x =? e)) l) ops) else None
  end.
Lemma split_ok key e l : let (a, b) := split_at key e l in l = a ++ b /\ lower key a e /\ (match b with [] => True | x :: _ => key e <= key x end).
Proof.
  induction l as [|x l IH]; cbn; [repeat split; auto; intros ? []|]. destruct (Z.ltb_spec (key x) (key e)).
  - destruct (split_at key e l) as [a b]. destruct IH as (-> & A & B). repeat split; auto. intros y [<- |J]; auto.
  - repeat split; auto. intros ? [].
Qed.
Lemma ordered_nodup key l : ordered key l -> NoDup l.
Proof. induction l as [|x l IH]; cbn; constructor; [intros J; apply H in J; lia|tauto]. Qed.
(** Every history that removes only what is there has a meaning. *)
Lemma mean_ok key ops : forall l rs l', ordered key l -> mean key l ops = Some (rs, l') -> turns key l ops rs l'.
Proof.
  induction ops as [|[e|e] ops IH]; intros l rs l' O M; cbn [mean] in M.
  - injection M as <- <-. constructor.
  - pose proof (split_ok key e l) as S0. destruct (split_at key e l) as [a b]. destruct S0 as (-> & A & B).
    pose proof O as O'. apply ordered_app in O'. destruct O' as (O1 & O2 & O3).
    assert (New : higher key e b -> forall rs l', mean key (a ++ e :: b) ops = Some (rs, l') -> turns key (a ++ b) (Insert e :: ops) (0 :: rs) l').
    { intros HB r2 l2 M2. apply t_new; auto. apply IH; auto. apply ordered_app. cbn. repeat split; auto. intros x y J [<- |K]; auto. }
    destruct b as [|x b].
    + destruct (mean key (a ++ [e]) ops) as [[r2 l2]|] eqn:M2; [|discriminate]. cbn in M. injection M as <- <-. apply New; auto. intros ? [].
    + destruct (Z.eqb_spec (key x) (key e)).
      * destruct (mean key (a ++ x :: b) ops) as [[r2 l2]|] eqn:M2; [|discriminate]. cbn in M. injection M as <- <-. apply t_dup; auto. rewrite in_app_iff. cbn. auto.
      * destruct (mean key (a ++ e :: x :: b) ops) as [[r2 l2]|] eqn:M2; [|discriminate]. cbn in M. injection M as <- <-. apply New; auto.
        intros y [<- |J]; [lia|]. cbn in O2. destruct O2 as (O2 & _). apply O2 in J. lia.
  - destruct (existsb (Z.eqb e) l) eqn:X; [|discriminate]. apply existsb_exists in X. destruct X as (y & J & Q). apply Z.eqb_eq in Q. subst y.
    apply in_split in J. destruct J as (a & b & ->). pose proof (ordered_nodup _ _ O) as ND. pose proof (NoDup_remove_2 _ _ _ ND) as NI. rewrite in_app_iff in NI.
    assert (F : filter (fun x => negb (x =? e)) (a ++ e :: b) = a ++ b).
    { rewrite filter_app. cbn. rewrite Z.eqb_refl. cbn.
      assert (G : forall c, ~ In e c -> filter (fun x => negb (x =? e)) c = c). { clear. induction c as [|y c IH]; cbn; auto. intros N. destruct (Z.eqb_spec y e); [tauto|]. cbn. rewrite IH; tauto. }
      rewrite !G; tauto. }
    rewrite F in M. destruct (mean key (a ++ b) ops) as [[r2 l2]|] eqn:M2; [|discriminate]. cbn in M. injection M as <- <-.
    apply t_del. apply IH; auto. apply ordered_app in O. destruct O as (O1 & (O2 & O3) & O4). apply ordered_app. repeat split; auto. intros; apply O4; cbn; auto.
Qed.
Example ex_turns : turns ex_key [] ex_ops [0;0;0;0;0;0;0;0;0;0;0;0;0; 5;7;1;8;13;0] [3;11;6;9;4;12;7;2;10;5].
Proof. apply mean_ok; [exact I|vm_compute; reflexivity]. Qed.

(** After any history of insertions and removals on an emptied tree, the tree is the list of its elements in the order of the keys: insertion gives NULL
    or the element with the same key, removal gives the element, and no call reads or writes anything but the entries of the [U] elements.  RB_FIND, RB_NFIND,
    RB_MIN, RB_MAX, RB_NEXT, RB_PREV, RB_FOREACH and RB_FOREACH_REVERSE answer for that list; 2 lg (n + 1) rounds of each loop are enough. *)
Theorem red_black_trees_are_ordered_sets : forall U cmp key fuel ops rs l m,
  compares cmp key -> (forall e, In e U -> e <> 0 /\ nodes m e <> None) -> (forall o, In o ops -> In (op_elem o) U) ->
  turns key [] ops rs l -> (rounds (length U) < fuel)%nat ->
  exists m', run_rb cmp fuel ops (set_root 0 m) = Ok (rs, m') /\ ordered key l /\ answers cmp key fuel m' l.
Proof.
  intros U cmp key fuel ops rs l m C UU OU T L.
  destruct (run_ok cmp key C U fuel L ops [] rs l (set_root 0 m) (holds_empty key m)) as (m' & E1 & H & I & _); auto; [intros ? []|].
  exists m'. split; [auto|]. split; [apply (holds_ordered _ _ _ H)|]. apply holds_answers; auto.
  pose proof (rounds_mono _ _ (holds_le key m' l U H I)). lia.
Qed.
Example ordered_sets_ex : exists m', run_rb ex_cmp 7 ex_ops (set_root 0 ex_mem) = Ok ([0;0;0;0;0;0;0;0;0;0;0;0;0; 5;7;1;8;13;0], m') /\ answers ex_cmp ex_key 7 m' [3;11;6;9;4;12;7;2;10;5].
Proof.
  destruct (red_black_trees_are_ordered_sets ex_U ex_cmp ex_key 7 ex_ops _ _ ex_mem ex_compares ex_room ex_in ex_turns (le_n 7)) as (m' & A & _ & B). eauto.
Qed.
Example ordered_sets_run : (let* (rs, m) := run_rb ex_cmp 7 ex_ops (set_root 0 ex_mem) in rb_foreach_reverse 11 7 m) = Ok [5;10;2;7;12;4;9;6;11;3].
Proof. vm_compute. reflexivity. Qed.
(** Three rounds of the search loop are too few for an absent key. *)
Example ordered_sets_short : (let* (rs, m) := run_rb ex_cmp 7 ex_ops (set_root 0 ex_mem) in rb_find ex_cmp 3 13 m) = NoFuel.
Proof. vm_compute. reflexivity. Qed.

(** RB_REMOVE needs an element of the tree: with one whose entry is all zeroes, which never was inserted, it empties the tree, whatever is in it. *)
Theorem removing_a_stranger_empties : forall fuel e m, e <> 0 -> nodes m e = Some (Entry 0 0 0 0) -> rb_remove (S fuel) e m = Ok (e, set_root 0 m).
Proof.
  intros fuel e m E0 N. unfold rb_remove. rewrite (left_k _ _ _ N E0), (right_k _ _ _ N E0). cbn [bind e_left e_right Z.eqb orb].
  rewrite (parent_k _ _ _ N E0), (color_k _ _ _ N E0). cbn. reflexivity.
Qed.
Example stranger_ex :
  let m := Tmem 0 (fun e => if (1 <=? e) && (e <=? 9) then Some (Entry 0 0 0 0) else None) in
  (let* (_, m) := run_rb ex_cmp 7 [Insert 1; Insert 2; Insert 3] m in let* (_, m) := rb_remove 7 9 m in rb_foreach 9 7 m) = Ok [].
Proof. vm_compute. reflexivity. Qed.

(** The header's conditions: after any history every way from the root to NULL passes the same number of black elements, a red element has a black parent, there is no other colour,
    and no way is longer than 2 lg (n + 1) of the [n] elements that are in the tree; so every further call needs no more rounds. *)
Theorem red_black_trees_stay_balanced : forall U cmp key fuel ops rs l m,
  compares cmp key -> (forall e, In e U -> e <> 0 /\ nodes m e <> None) -> (forall o, In o ops -> In (op_elem o) U) ->
  turns key [] ops rs l -> (rounds (length U) < fuel)%nat ->
  exists m', run_rb cmp fuel ops (set_root 0 m) = Ok (rs, m') /\ red_black m' l /\
    (forall f, (rounds (length l) < f)%nat -> answers cmp key f m' l /\
       forall o r l', In (op_elem o) U -> turns key l [o] [r] l' -> exists m2, do_rb cmp f o m' = Ok (r, m2) /\ red_black m2 l').
Proof.
  intros U cmp key fuel ops rs l m C UU OU T L.
  destruct (run_ok cmp key C U fuel L ops [] rs l (set_root 0 m) (holds_empty key m)) as (m' & E1 & H & I & U'); auto; [intros ? []|].
  exists m'. split; [auto|]. split; [apply (holds_red_black key); auto|]. intros f Lf. split; [apply holds_answers; auto|].
  intros o r l' OO T1. destruct o as [e|e]; cbn [op_elem do_rb] in *.
  - destruct (do_insert cmp key C m' l U f e H I U' OO Lf r l' T1) as (m2 & E2 & H2 & _). exists m2. split; [auto|apply (holds_red_black key); auto].
  - destruct (do_remove key m' l U f e H I U' Lf r l' T1) as (m2 & E2 & H2 & _). exists m2. split; [auto|apply (holds_red_black key); auto].
Qed.
Example balanced_ex : exists m', run_rb ex_cmp 7 ex_ops (set_root 0 ex_mem) = Ok ([0;0;0;0;0;0;0;0;0;0;0;0;0; 5;7;1;8;13;0], m') /\ red_black m' [3;11;6;9;4;12;7;2;10;5].
Proof.
  destruct (red_black_trees_stay_balanced ex_U ex_cmp ex_key 7 ex_ops _ _ ex_mem ex_compares ex_room ex_in ex_turns (le_n 7)) as (m' & A & B & _). eauto.
Qed.
(** The ways of that tree are not all of one length, and pass red elements. *)
Example balanced_ways : (let* (_, m) := run_rb ex_cmp 7 ex_ops (set_root 0 ex_mem) in
  Ok (way [true; true] (root m) m, way [false; false] (root m) m, way [false; false; false] (root m) m, way [false; false; false; false] (root m) m)) <> NoFuel /\
  match run_rb ex_cmp 7 ex_ops (set_root 0 ex_mem) with
  | Ok (_, m) => existsb (fun e => match nodes m e with Some n => e_color n =? RED | None => false end) ex_U = true
  | _ => False
  end.
Proof. vm_compute. split; [discriminate|reflexivity]. Qed.

(** RB_FOREACH_SAFE and RB_FOREACH_REVERSE_SAFE with a body that removes and frees the elements it does not keep: the kept ones stay, in order, the others are gone, nothing freed is read. *)
Theorem tree_safe_loops : forall U cmp key fuel ops rs l m keep,
  compares cmp key -> (forall e, In e U -> e <> 0 /\ nodes m e <> None) -> (forall o, In o ops -> In (op_elem o) U) ->
  turns key [] ops rs l -> (rounds (length U) < fuel)%nat ->
  exists m', run_rb cmp fuel ops (set_root 0 m) = Ok (rs, m') /\
    (exists m2, rb_foreach_safe (S (length l)) fuel keep m' = Ok m2 /\ answers cmp key fuel m2 (filter keep l) /\ red_black m2 (filter keep l) /\ forall e, In e l -> keep e = false -> nodes m2 e = None) /\
    (exists m2, rb_foreach_reverse_safe (S (length l)) fuel keep m' = Ok m2 /\ answers cmp key fuel m2 (filter keep l) /\ red_black m2 (filter keep l) /\ forall e, In e l -> keep e = false -> nodes m2 e = None).
Proof.
  intros U cmp key fuel ops rs l m keep C UU OU T L.
  destruct (run_ok cmp key C U fuel L ops [] rs l (set_root 0 m) (holds_empty key m)) as (m' & E1 & H & I & U'); auto; [intros ? []|].
  exists m'. split; [auto|]. pose proof (rounds_mono _ _ (holds_le key m' l U H I)) as LL.
  assert (LF : (rounds (length (filter keep l)) < fuel)%nat).
  { eapply Nat.le_lt_trans; [|exact L]. eapply Nat.le_trans; [|exact LL]. apply rounds_mono. clear. induction l as [|x l IH]; cbn; [lia|]. destruct (keep x); cbn; lia. }
  destruct (min_of key m' l fuel H ltac:(lia)) as (M1 & M2). split.
  - destruct (safe_next key fuel keep l [] m' l H eq_refl ltac:(lia)) as (m2 & E2 & H2 & F2 & _). exists m2.
    unfold rb_foreach_safe. rewrite M1. cbn [bind]. split; [exact E2|]. split; [apply holds_answers; auto|]. split; [apply (holds_red_black key); auto|auto].
  - destruct (safe_prev key fuel keep (rev l) [] m' l H) as (m2 & E2 & H2 & F2 & _); [rewrite rev_involutive, app_nil_r; reflexivity|lia|]. exists m2.
    rewrite rev_involutive, app_nil_r in H2. unfold rb_foreach_reverse_safe. rewrite M2. cbn [bind]. rewrite <- rev_length. split; [exact E2|]. split; [apply holds_answers; auto|]. split; [apply (holds_red_black key); auto|].
    intros e J. apply F2. rewrite <- in_rev. auto.
Qed.
Example safe_loops_run :
  (let* (rs, m) := run_rb ex_cmp 7 ex_ops (set_root 0 ex_mem) in let* m := rb_foreach_safe 11 7 (fun e => Z.even e) m in rb_foreach 11 7 m) = Ok [6;4;12;2;10] /\
  (let* (rs, m) := run_rb ex_cmp 7 ex_ops (set_root 0 ex_mem) in let* m := rb_foreach_reverse_safe 11 7 (fun e => e <? 7) m in rb_foreach 11 7 m) = Ok [3;6;4;2;5].
Proof. split; vm_compute; reflexivity. Qed.

(** The plain loops with the same body read an element after it was freed, as soon as one is not kept. *)
Theorem plain_tree_loops_read_freed : forall U cmp key fuel ops rs l m keep,
  compares cmp key -> (forall e, In e U -> e <> 0 /\ nodes m e <> None) -> (forall o, In o ops -> In (op_elem o) U) ->
  turns key [] ops rs l -> (rounds (length U) < fuel)%nat -> existsb (fun e => negb (keep e)) l = true ->
  exists m', run_rb cmp fuel ops (set_root 0 m) = Ok (rs, m') /\
    rb_foreach_plain (S (length l)) fuel keep m' = Undef WildPointer /\ rb_foreach_reverse_plain (S (length l)) fuel keep m' = Undef WildPointer.
Proof.
  intros U cmp key fuel ops rs l m keep C UU OU T L X.
  destruct (run_ok cmp key C U fuel L ops [] rs l (set_root 0 m) (holds_empty key m)) as (m' & E1 & H & I & U'); auto; [intros ? []|].
  exists m'. split; [auto|]. pose proof (rounds_mono _ _ (holds_le key m' l U H I)) as LL.
  destruct (min_of key m' l fuel H ltac:(lia)) as (M1 & M2). split.
  - destruct (first_bad keep l X) as (a & x & b & Q & A & KX). unfold rb_foreach_plain. rewrite M1. cbn [bind].
    assert (FF : first l = first (a ++ [x])) by (rewrite Q; destruct a; reflexivity). rewrite FF.
    apply (plain_next key fuel keep [] a m' l x b H Q A KX); [lia|]. rewrite Q, app_length. cbn. lia.
  - assert (X' : existsb (fun e => negb (keep e)) (rev l) = true).
    { apply existsb_exists in X. destruct X as (e & J & K). apply existsb_exists. exists e. rewrite <- in_rev. auto. }
    destruct (first_bad keep (rev l) X') as (a & x & b & Q & A & KX). unfold rb_foreach_reverse_plain. rewrite M2. cbn [bind].
    assert (FF : first (rev l) = first (a ++ [x])) by (rewrite Q; destruct a; reflexivity). rewrite FF.
    apply (plain_prev key fuel keep [] a m' l x b H Q A KX); [lia|]. pose proof (f_equal (@length Z) Q) as QL. rewrite rev_length, app_length in QL. cbn in QL. lia.
Qed.
Example plain_loops_run :
  (let* (rs, m) := run_rb ex_cmp 7 ex_ops (set_root 0 ex_mem) in rb_foreach_plain 11 7 (fun e => Z.even e) m) = Undef WildPointer.
Proof. vm_compute. reflexivity. Qed.

Print Assumptions red_black_trees_are_ordered_sets.
Print Assumptions removing_a_stranger_empties.
Print Assumptions red_black_trees_stay_balanced.
Print Assumptions tree_safe_loops.
Print Assumptions plain_tree_loops_read_freed.
