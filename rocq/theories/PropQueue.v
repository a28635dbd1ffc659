(** C104-C107: the list macros of include/compat/sys/queue.h. *)
From Verif Require Import Base BaseLemmas QueueModel SpecQueue QueueProofs QueueOps QueueLoops.

(** ** C104: tail queues *)
(** From any memory that holds two heads and the elements, the two queues initialised: any calls that have a meaning run without undefined
    behaviour and leave exactly the lists the calls mean.  TAILQ_FOREACH gives each list, TAILQ_FOREACH_REVERSE its reverse; FIRST, LAST,
    EMPTY, NEXT and PREV agree with it; no other memory changes. *)
Theorem tail_queues_are_lists F U hA hB m0 ops la lb :
  apart F true true false U hA hB -> (forall c, In c (cells F true true false U hA hB) -> m0 c <> None) ->
  forallb has_tailq ops = true -> meanings U ops ([], []) (la, lb) ->
  exists m1 m2 m, simpleq_init hA m0 = Ok m1 /\ simpleq_init hB m1 = Ok m2 /\ run (do_tailq F hA hB) ops m2 = Ok m /\
  (forall q, let h := head_of hA hB q in let l := pick q (la, lb) in
    first h m = Ok (hd 0 l) /\ tailq_last h m = Ok (last l 0) /\ empty h m = Ok (match l with [] => true | _ => false end) /\
    (forall fuel, (length l < fuel)%nat -> foreach F fuel h m = Ok l /\ foreach_reverse F fuel h m = Ok (rev l)) /\
    (forall a e b, l = a ++ e :: b -> next F e m = Ok (hd 0 b) /\ tailq_prev F e m = Ok (last a 0))) /\
  (forall c, ~ In c (cells F true true false U hA hB) -> m c = m0 c).
Proof.
  intros AP AL HT MS. destruct (two_init F U true m0 m0 hA hB AP AL (fun _ => eq_refl)) as (m1 & m2 & E1 & E2 & IV).
  destruct (run_ok U (do_tailq F hA hB) has_tailq (fun m s => inv F U true true false zero m0 m hA (fst s) hB (snd s)) (fun o s s' m => tailq_step F U hA hB m0 o s s' m) ops _ _ m2 MS HT IV) as (m & E & J).
  exists m1, m2, m. split; [exact E1|]. split; [exact E2|]. split; [exact E|]. split; [|exact (outside _ _ _ _ _ _ _ _ _ _ J)].
  intros q h l. apply (both F U hA hB _ _ _ _ _ _ _ q) in J. fold h l in J. split; [exact (first_ok _ _ _ _ _ _ _ _ _ _ J)|]. split; [exact (last_ok _ _ _ _ _ _ _ _ J)|].
  split; [exact (empty_ok _ _ _ _ _ _ _ _ _ _ J)|]. split.
  - intros fuel L. split; [exact (foreach_ok _ _ _ _ _ _ _ _ _ _ _ J L)|exact (foreach_reverse_ok _ _ _ _ _ _ _ _ _ J L)].
  - intros a e b E0. rewrite E0 in J. split; [exact (next_ok _ _ _ _ _ _ _ _ _ _ _ _ J)|exact (prev_ok _ _ _ _ _ _ _ _ _ _ J)].
Qed.
(** The precondition that the element is in no queue matters: an element inserted a second time at the head of the queue is its own successor,
    so no loop over the queue ends. *)
Theorem tail_insert_twice_never_ends F U hA hB m0 ops e la lb :
  apart F true true false U hA hB -> (forall c, In c (cells F true true false U hA hB) -> m0 c <> None) ->
  forallb has_tailq ops = true -> meanings U ops ([], []) (e :: la, lb) ->
  exists m1 m2 m m', simpleq_init hA m0 = Ok m1 /\ simpleq_init hB m1 = Ok m2 /\ run (do_tailq F hA hB) ops m2 = Ok m /\ tailq_insert_head F hA e m = Ok m' /\
  forall fuel, foreach F fuel hA m' = NoFuel.
Proof.
  intros AP AL HT MS. destruct (two_init F U true m0 m0 hA hB AP AL (fun _ => eq_refl)) as (m1 & m2 & E1 & E2 & IV).
  destruct (run_ok U (do_tailq F hA hB) has_tailq (fun m s => inv F U true true false zero m0 m hA (fst s) hB (snd s)) (fun o s s' m => tailq_step F U hA hB m0 o s s' m) ops _ _ m2 MS HT IV) as (m & E & J).
  cbn [fst snd] in J. exists m1, m2, m. pose proof (in_pos F U true true m0 _ _ [] _ _ _ _ J) as EP. pose proof (first_ok _ _ _ _ _ _ _ _ _ _ J) as E0. cbn [hd] in E0. pose proof (i_sep _ _ _ _ _ _ _ _ _ _ _ _ J) as SP.
  assert (Ie : In e U) by (apply (i_l _ _ _ _ _ _ _ _ _ _ _ _ J); left; reflexivity).
  pose proof (inv_end _ _ _ _ _ _ _ _ _ [] (e :: la) _ _ J) as M0. rewrite enc0 in M0. change (endc F hA []) with hA in M0. cbn [hd] in M0.
  facts_of F U true true false (fun _ : Z => 0) m0 J SP hA hB.
  unfold tailq_insert_head. ev. nz e. ev. eexists. split; [exact E1|]. split; [exact E2|]. split; [exact E|]. split; [reflexivity|].
  intros fuel. match goal with |- foreach F fuel hA ?mm = _ => set (m' := mm) end.
  assert (N : next F e m' = Ok e) by (unfold next; apply get_ok; [arith|unfold m'; look]).
  assert (G : first hA m' = Ok e) by (unfold first; apply get_ok; [arith|unfold m'; look]).
  unfold foreach. rewrite G. cbn [bind]. clear - N EP. induction fuel as [|fuel IH]; cbn [visit]; [reflexivity|]. rewrite (proj2 (Z.eqb_neq e 0)) by lia. rewrite N. cbn [bind]. rewrite IH. reflexivity.
Qed.
(** Three elements with their fields at offset 8, two heads, memory of 2000 cells. *)
Definition elems : list Z := [1000; 1100; 1200].
(** The memory. *)
Definition room : mem := fun c => if (0 <? c) && (c <? 2000) then Some 7 else None.
Example apart_ex : apart 8 true true false elems 100 200.
Proof. repeat split; try lia; [|repeat constructor; lia]. cbn. repeat constructor; cbn; intuition discriminate. Qed.
Example room_ex : forall c, In c (cells 8 true true false elems 100 200) -> room c <> None.
Proof. intros c J. cbn in J. repeat (destruct J as [<-|J]; [discriminate|]). destruct J. Qed.
(** Calls on both queues. *)
Definition calls : list qop := [InsTail true 1000; InsHead true 1100; InsBefore true 1000 1200; Remove true 1100; InsHead false 1100; Concat true].
Example tail_meaning_ex : meanings elems calls ([], []) ([1200; 1000; 1100], []).
Proof.
  eapply ms_cons; [apply m_tail; repeat split; cbn; intuition discriminate|]. eapply ms_cons; [apply m_head; repeat split; cbn; intuition discriminate|].
  eapply ms_cons; [apply (m_before _ true [1100] 1000 []); [repeat split; cbn; intuition discriminate|reflexivity]|]. eapply ms_cons; [apply (m_remove _ true [] 1100 [1200; 1000]); reflexivity|].
  eapply ms_cons; [apply m_head; repeat split; cbn; intuition discriminate|]. eapply ms_cons; [apply m_concat|]. apply ms_nil.
Qed.
Example tail_run_ex : match (let* m := simpleq_init 100 room in let* m := simpleq_init 200 m in run (do_tailq 8 100 200) calls m) with
  | Ok m => foreach 8 4 100 m = Ok [1200; 1000; 1100] /\ foreach_reverse 8 4 100 m = Ok [1100; 1000; 1200] /\ foreach 8 1 200 m = Ok [] | _ => False end.
Proof. vm_compute. repeat split. Qed.
Print Assumptions tail_queues_are_lists.
Print Assumptions tail_insert_twice_never_ends.

(** ** C105: simple queues and XOR simple queues *)
(** Simple queues: the calls they provide leave exactly the lists they mean. *)
Theorem simple_queues_are_lists F U hA hB m0 ops la lb :
  apart F false true false U hA hB -> (forall c, In c (cells F false true false U hA hB) -> m0 c <> None) ->
  forallb has_simpleq ops = true -> meanings U ops ([], []) (la, lb) ->
  exists m1 m2 m, simpleq_init hA m0 = Ok m1 /\ simpleq_init hB m1 = Ok m2 /\ run (do_simpleq F hA hB) ops m2 = Ok m /\
  (forall q, let h := head_of hA hB q in let l := pick q (la, lb) in
    first h m = Ok (hd 0 l) /\ empty h m = Ok (match l with [] => true | _ => false end) /\
    (forall fuel, (length l < fuel)%nat -> foreach F fuel h m = Ok l) /\ (forall a e b, l = a ++ e :: b -> next F e m = Ok (hd 0 b))) /\
  (forall c, ~ In c (cells F false true false U hA hB) -> m c = m0 c).
Proof.
  intros AP AL HT MS. destruct (two_init F U false m0 m0 hA hB AP AL (fun _ => eq_refl)) as (m1 & m2 & E1 & E2 & IV).
  destruct (run_ok U (do_simpleq F hA hB) has_simpleq (fun m s => inv F U false true false zero m0 m hA (fst s) hB (snd s)) (fun o s s' m => simpleq_step F U hA hB m0 o s s' m) ops _ _ m2 MS HT IV) as (m & E & J).
  exists m1, m2, m. split; [exact E1|]. split; [exact E2|]. split; [exact E|]. split; [|exact (outside _ _ _ _ _ _ _ _ _ _ J)].
  intros q h l. apply (both F U hA hB _ _ _ _ _ _ _ q) in J. fold h l in J. split; [exact (first_ok _ _ _ _ _ _ _ _ _ _ J)|].
  split; [exact (empty_ok _ _ _ _ _ _ _ _ _ _ J)|]. split.
  - intros fuel L. exact (foreach_ok _ _ _ _ _ _ _ _ _ _ _ J L).
  - intros a e b E0. rewrite E0 in J. exact (next_ok _ _ _ _ _ _ _ _ _ _ _ _ J).
Qed.
(** XOR simple queues, where an unsigned long has 64 bits: the same, whatever cookies the random generator gives. *)
Theorem xor_queues_are_lists F U hA hB m0 cA cB ops la lb :
  apart F false true true U hA hB -> (forall c, In c (cells F false true true U hA hB) -> m0 c <> None /\ c < 2 ^ 64) -> 0 <= cA < 2 ^ 64 -> 0 <= cB < 2 ^ 64 ->
  forallb has_xsimpleq ops = true -> meanings U ops ([], []) (la, lb) ->
  exists m1 m2 m, x_init 64 cA hA m0 = Ok m1 /\ x_init 64 cB hB m1 = Ok m2 /\ run (do_xsimpleq F 64 hA hB) ops m2 = Ok m /\
  (forall q, let h := head_of hA hB q in let l := pick q (la, lb) in
    x_first 64 h m = Ok (hd 0 l) /\ x_empty 64 h m = Ok (match l with [] => true | _ => false end) /\
    (forall fuel, (length l < fuel)%nat -> x_foreach F fuel 64 h m = Ok l) /\ (forall a e b, l = a ++ e :: b -> x_next F 64 h e m = Ok (hd 0 b))) /\
  (forall c, ~ In c (cells F false true true U hA hB) -> m c = m0 c).
Proof.
  intros AP AL CA CB HT MS. set (ck := fun h => if h =? hA then cA else cB).
  assert (CK : forall h, 0 <= ck h < 2 ^ 64) by (intros h; unfold ck; destruct (h =? hA); assumption).
  assert (NE : hB <> hA) by (intros ->; exact (sep_hg _ _ _ _ _ _ _ (apart_sep _ _ _ _ _ _ _ AP) hA (hc_first _ _ _) (hc_first _ _ _))).
  assert (KA : ck hA = cA) by (unfold ck; rewrite Z.eqb_refl; reflexivity). assert (KB : ck hB = cB) by (unfold ck; rewrite (proj2 (Z.eqb_neq hB hA) NE); reflexivity).
  assert (LA : hA < 2 ^ 64) by (apply AL; left; reflexivity). assert (LB : hB < 2 ^ 64) by (apply AL; apply in_or_app; right; left; reflexivity).
  assert (UB : forall e, In e U -> e + F < 2 ^ 64) by (intros e J; apply AL; apply in_or_app; right; apply in_or_app; right; apply in_flat_map; exists e; split; [exact J|left; reflexivity]).
  destruct (xq_init F U m0 ck CK UB m0 hA hB AP (fun c J => proj1 (AL c J)) (fun _ => eq_refl) LA LB) as (m1 & m2 & E1 & E2 & IV). rewrite KA in E1. rewrite KB in E2.
  destruct (run_ok U (do_xsimpleq F 64 hA hB) has_xsimpleq (fun m s => inv F U false true true ck m0 m hA (fst s) hB (snd s)) (fun o s s' m => xsimpleq_step F U hA hB ck m0 o s s' m CK UB LA LB) ops _ _ m2 MS HT IV) as (m & E & J).
  exists m1, m2, m. split; [exact E1|]. split; [exact E2|]. split; [exact E|]. split.
  - intros q h l. apply (both F U hA hB _ _ _ _ _ _ _ q) in J. fold h l in J. split; [exact (x_first_ok F U m0 ck CK UB _ _ _ _ _ J)|].
    split; [exact (x_empty_ok F U m0 ck CK UB _ _ _ _ _ J)|]. split.
    + intros fuel L. exact (x_foreach_ok F U m0 ck CK UB _ _ _ _ _ _ J L).
    + intros a e b E0. rewrite E0 in J. exact (x_next_ok F U m0 ck CK UB _ _ _ _ _ _ _ J).
  - intros c N. apply (i_fr _ _ _ _ _ _ _ _ _ _ _ _ J).
    + intros K. apply N, in_or_app. left; assumption.
    + intros K. apply N, in_or_app. right. apply in_or_app. left; assumption.
    + intros e K L. apply N, in_or_app. right. apply in_or_app. right. apply in_flat_map. exists e. split; assumption.
Qed.
(** Where an unsigned long has 32 bits and pointers 64 (64-bit Windows): the address of the last cell is stored cut to 32 bits, and the first
    insertion at the tail writes to memory that is not the queue's. *)
Theorem xor_queues_are_lists_refuted :
  exists F U hA hB m0 cA cB e m1 m2, apart F false true true U hA hB /\ (forall c, In c (cells F false true true U hA hB) -> m0 c <> None /\ c < 2 ^ 64) /\ 0 <= cA < 2 ^ 64 /\ 0 <= cB < 2 ^ 64 /\
  meanings U [InsTail true e] ([], []) ([e], []) /\ x_init 32 cA hA m0 = Ok m1 /\ x_init 32 cB hB m1 = Ok m2 /\ run (do_xsimpleq F 32 hA hB) [InsTail true e] m2 = Undef WildPointer.
Proof.
  exists 0, [2 ^ 32 + 1000], (2 ^ 32 + 100), (2 ^ 32 + 200), (fun c => if (2 ^ 32 <? c) && (c <? 2 ^ 32 + 2000) then Some 7 else None), 5, 6, (2 ^ 32 + 1000). do 2 eexists.
  split; [|split; [|split; [lia|split; [lia|split; [|split; [reflexivity|split; [reflexivity|vm_compute; reflexivity]]]]]]].
  - repeat split; try lia; [|repeat constructor; lia]. cbn. repeat constructor; cbn; intuition discriminate.
  - intros c J. cbn in J. repeat (destruct J as [<-|J]; [split; [discriminate|reflexivity]|]). destruct J.
  - eapply ms_cons; [apply m_tail; repeat split; cbn; intuition|apply ms_nil].
Qed.
Example simple_run_ex : match (let* m := simpleq_init 100 room in let* m := simpleq_init 200 m in run (do_simpleq 8 100 200) [InsTail true 1000; InsHead true 1100; InsAfter true 1000 1200; RemAfter true 1100; InsHead false 1000; Concat true; RemHead true] m) with
  | Ok m => foreach 8 4 100 m = Ok [1200; 1000] /\ foreach 8 1 200 m = Ok [] | _ => False end.
Proof. vm_compute. repeat split. Qed.
Example xor_apart_ex : apart 8 false true true elems 100 200.
Proof. repeat split; try lia; [|repeat constructor; lia]. cbn. repeat constructor; cbn; intuition discriminate. Qed.
Example xor_run_ex : match (let* m := x_init 64 77 100 room in let* m := x_init 64 (2 ^ 64 - 1) 200 m in run (do_xsimpleq 8 64 100 200) [InsTail true 1000; InsHead true 1100; InsAfter true 1000 1200; RemAfter true 1100; InsHead false 1000] m) with
  | Ok m => x_foreach 8 4 64 100 m = Ok [1100; 1200] /\ x_foreach 8 2 64 200 m = Ok [1000] | _ => False end.
Proof. vm_compute. repeat split. Qed.
Print Assumptions simple_queues_are_lists.
Print Assumptions xor_queues_are_lists.
Print Assumptions xor_queues_are_lists_refuted.

(** ** C106: singly and doubly linked lists *)
(** Doubly linked lists. *)
Theorem linked_lists_are_lists F U hA hB m0 ops la lb :
  apart F true false false U hA hB -> (forall c, In c (cells F true false false U hA hB) -> m0 c <> None) ->
  forallb has_list ops = true -> meanings U ops ([], []) (la, lb) ->
  exists m1 m2 m, slist_init hA m0 = Ok m1 /\ slist_init hB m1 = Ok m2 /\ run (do_list F hA hB) ops m2 = Ok m /\
  (forall q, let h := head_of hA hB q in let l := pick q (la, lb) in
    first h m = Ok (hd 0 l) /\ empty h m = Ok (match l with [] => true | _ => false end) /\
    (forall fuel, (length l < fuel)%nat -> foreach F fuel h m = Ok l) /\ (forall a e b, l = a ++ e :: b -> next F e m = Ok (hd 0 b))) /\
  (forall c, ~ In c (cells F true false false U hA hB) -> m c = m0 c).
Proof.
  intros AP AL HT MS. destruct (one_init F U true m0 m0 hA hB AP AL (fun _ => eq_refl)) as (m1 & m2 & E1 & E2 & IV).
  destruct (run_ok U (do_list F hA hB) has_list (fun m s => inv F U true false false zero m0 m hA (fst s) hB (snd s)) (fun o s s' m => list_step F U hA hB m0 o s s' m) ops _ _ m2 MS HT IV) as (m & E & J).
  exists m1, m2, m. split; [exact E1|]. split; [exact E2|]. split; [exact E|]. split; [|exact (outside _ _ _ _ _ _ _ _ _ _ J)].
  intros q h l. apply (both F U hA hB _ _ _ _ _ _ _ q) in J. fold h l in J. split; [exact (first_ok _ _ _ _ _ _ _ _ _ _ J)|].
  split; [exact (empty_ok _ _ _ _ _ _ _ _ _ _ J)|]. split.
  - intros fuel L. exact (foreach_ok _ _ _ _ _ _ _ _ _ _ _ J L).
  - intros a e b E0. rewrite E0 in J. exact (next_ok _ _ _ _ _ _ _ _ _ _ _ _ J).
Qed.
(** Singly linked lists; SLIST_REMOVE needs no more rounds than there are elements.  It does not look for the end of the list: an element that
    is not in the list makes it read through NULL. *)
Theorem singly_linked_lists_are_lists F U hA hB m0 n ops la lb :
  apart F false false false U hA hB -> (forall c, In c (cells F false false false U hA hB) -> m0 c <> None) -> (length U <= n)%nat ->
  forallb has_slist ops = true -> meanings U ops ([], []) (la, lb) ->
  exists m1 m2 m, slist_init hA m0 = Ok m1 /\ slist_init hB m1 = Ok m2 /\ run (do_slist F n hA hB) ops m2 = Ok m /\
  (forall q, let h := head_of hA hB q in let l := pick q (la, lb) in
    first h m = Ok (hd 0 l) /\ empty h m = Ok (match l with [] => true | _ => false end) /\
    (forall fuel, (length l < fuel)%nat -> foreach F fuel h m = Ok l) /\ (forall a e b, l = a ++ e :: b -> next F e m = Ok (hd 0 b)) /\
    (forall e fuel, e <> 0 -> ~ In e l -> (length l < fuel)%nat -> slist_remove F fuel h e m = Undef NullDeref)) /\
  (forall c, ~ In c (cells F false false false U hA hB) -> m c = m0 c).
Proof.
  intros AP AL LU HT MS. destruct (one_init F U false m0 m0 hA hB AP AL (fun _ => eq_refl)) as (m1 & m2 & E1 & E2 & IV).
  destruct (run_ok U (do_slist F n hA hB) has_slist (fun m s => inv F U false false false zero m0 m hA (fst s) hB (snd s)) (fun o s s' m A B => slist_step F U hA hB n m0 o s s' m A B LU) ops _ _ m2 MS HT IV) as (m & E & J).
  exists m1, m2, m. split; [exact E1|]. split; [exact E2|]. split; [exact E|]. split; [|exact (outside _ _ _ _ _ _ _ _ _ _ J)].
  intros q h l. apply (both F U hA hB _ _ _ _ _ _ _ q) in J. fold h l in J. split; [exact (first_ok _ _ _ _ _ _ _ _ _ _ J)|].
  split; [exact (empty_ok _ _ _ _ _ _ _ _ _ _ J)|]. split; [|split].
  - intros fuel L. exact (foreach_ok _ _ _ _ _ _ _ _ _ _ _ J L).
  - intros a e b E0. rewrite E0 in J. exact (next_ok _ _ _ _ _ _ _ _ _ _ _ _ J).
  - intros e fuel N0 NI L. exact (sl_remove_absent _ _ _ _ _ _ _ _ _ _ N0 J NI L).
Qed.
(** C106, the precondition of LIST_REMOVE and TAILQ_REMOVE: an element with cleared links, one that was in no list, makes both write through NULL. *)
Theorem remove_cleared F e h m : e <> 0 -> m (e + F) = Some 0 -> m (e + (F + 8)) = Some 0 -> m 0 = None -> h <> 0 -> m (h + 8) <> None ->
  h + 8 <> e + F -> h + 8 <> e + (F + 8) -> h + 8 <> 0 -> list_remove F e m = Undef NullDeref /\ tailq_remove F h e m = Undef NullDeref.
Proof.
  intros E N P Z0 H A D1 D2 D3. apply Z.eqb_neq in E, H. assert (G1 : get e F m = Ok 0) by (unfold get, fld, ld; rewrite E; cbn [bind]; rewrite N; reflexivity).
  assert (G2 : get e (F + 8) m = Ok 0) by (unfold get, fld, ld; rewrite E; cbn [bind]; rewrite P; reflexivity).
  split; [unfold list_remove; rewrite G1; cbn [bind Z.eqb]; rewrite G2, G1; cbn [bind]; unfold st; rewrite Z0; reflexivity|].
  unfold tailq_remove. rewrite G1. cbn [bind Z.eqb]. rewrite G2. cbn [bind]. unfold set, fld. rewrite H. cbn [bind]. unfold st at 1. destruct (m (h + 8)) as [v|]; [|congruence]. cbn [bind].
  unfold get, fld, ld. rewrite E. cbn [bind]. unfold upd at 1. rewrite (proj2 (Z.eqb_neq (e + (F + 8)) (h + 8))) by lia. rewrite P. cbn [bind]. unfold upd at 1. rewrite (proj2 (Z.eqb_neq (e + F) (h + 8))) by lia. rewrite N. cbn [bind].
  unfold st, upd at 1. rewrite (proj2 (Z.eqb_neq 0 (h + 8))) by lia. rewrite Z0. reflexivity.
Qed.
Example remove_cleared_ex : let m := upd (upd room 1008 0) 1016 0 in m (1000 + 8) = Some 0 /\ m (1000 + (8 + 8)) = Some 0 /\ m 0 = None /\ m (100 + 8) <> None /\ list_remove 8 1000 m = Undef NullDeref.
Proof. vm_compute. repeat split. discriminate. Qed.
Print Assumptions remove_cleared.
Example list_run_ex : match (let* m := slist_init 100 room in let* m := slist_init 200 m in run (do_list 8 100 200) [InsHead true 1000; InsHead true 1100; InsAfter true 1000 1200; Remove true 1000; InsBefore true 1200 1000; Remove true 1100; Replace true 1200 1100] m) with
  | Ok m => foreach 8 4 100 m = Ok [1000; 1100] /\ foreach 8 1 200 m = Ok [] | _ => False end.
Proof. vm_compute. repeat split. Qed.
Example slist_run_ex : match (let* m := slist_init 100 room in let* m := slist_init 200 m in run (do_slist 8 3 100 200) [InsHead true 1000; InsHead true 1100; InsAfter true 1000 1200; Remove true 1000; InsHead false 1000] m) with
  | Ok m => foreach 8 4 100 m = Ok [1100; 1200] /\ foreach 8 2 200 m = Ok [1000] /\ slist_remove 8 9 100 1000 m = Undef NullDeref | _ => False end.
Proof. vm_compute. repeat split. Qed.
Print Assumptions linked_lists_are_lists.
Print Assumptions singly_linked_lists_are_lists.

(** ** C107: loops whose body removes and frees the visited element *)
(** Tail queues: TAILQ_FOREACH_SAFE and TAILQ_FOREACH_REVERSE_SAFE visit every element once and leave the elements that were not dropped;
    the other queue and the rest of memory stay. *)
Theorem tail_safe_loops F U hA hB m0 ops la lb (P : Z -> bool) :
  apart F true true false U hA hB -> (forall c, In c (cells F true true false U hA hB) -> m0 c <> None) ->
  forallb has_tailq ops = true -> meanings U ops ([], []) (la, lb) ->
  exists m1 m2 m, simpleq_init hA m0 = Ok m1 /\ simpleq_init hB m1 = Ok m2 /\ run (do_tailq F hA hB) ops m2 = Ok m /\
  forall fuel, (length la < fuel)%nat ->
  let keep := filter (fun e => negb (P e)) la in
  (exists m', foreach_safe F fuel (drop F true (tailq_remove F hA) P) hA m = Ok (la, m') /\
    foreach F fuel hA m' = Ok keep /\ foreach_reverse F fuel hA m' = Ok (rev keep) /\ (forall n, (length lb < n)%nat -> foreach F n hB m' = Ok lb) /\
    forall c, ~ In c (cells F true true false U hA hB) -> m' c = m c) /\
  (exists m', foreach_reverse_safe F fuel (drop F true (tailq_remove F hA) P) hA m = Ok (rev la, m') /\
    foreach F fuel hA m' = Ok keep /\ foreach_reverse F fuel hA m' = Ok (rev keep) /\ (forall n, (length lb < n)%nat -> foreach F n hB m' = Ok lb) /\
    forall c, ~ In c (cells F true true false U hA hB) -> m' c = m c).
Proof.
  intros AP AL HT MS. destruct (two_init F U true m0 m0 hA hB AP AL (fun _ => eq_refl)) as (m1 & m2 & E1 & E2 & IV).
  destruct (run_ok U (do_tailq F hA hB) has_tailq (fun m s => inv F U true true false zero m0 m hA (fst s) hB (snd s)) (fun o s s' m => tailq_step F U hA hB m0 o s s' m) ops _ _ m2 MS HT IV) as (m & E & J).
  cbn [fst snd] in J. exists m1, m2, m. split; [exact E1|]. split; [exact E2|]. split; [exact E|]. intros fuel L keep. pose proof (kept_length P la) as KL. fold keep in KL. split.
  - destruct (foreach_safe_ok F true true hA hB (tailq_remove F hA) (length la) (fun U m0 m a' e b' k' IV' L' => tq_rm F hA hB U m0 m a' e b' k' IV' _ L') P lb fuel U m0 m la J L (le_n _)) as (m' & U' & E' & J' & FR).
    exists m'. split; [exact E'|]. split; [apply (foreach_ok _ _ _ _ _ _ _ _ _ _ _ J'); fold keep; lia|]. split; [apply (foreach_reverse_ok _ _ _ _ _ _ _ _ _ J'); fold keep; lia|].
    split; [|exact FR]. intros n Ln. exact (foreach_ok _ _ _ _ _ _ _ _ _ _ _ (inv_swap _ _ _ _ _ _ _ _ _ _ _ _ J') Ln).
  - destruct (foreach_reverse_safe_ok F hA hB P lb fuel U m0 m la J L) as (m' & U' & E' & J' & FR).
    exists m'. split; [exact E'|]. split; [apply (foreach_ok _ _ _ _ _ _ _ _ _ _ _ J'); fold keep; lia|]. split; [apply (foreach_reverse_ok _ _ _ _ _ _ _ _ _ J'); fold keep; lia|].
    split; [|exact FR]. intros n Ln. exact (foreach_ok _ _ _ _ _ _ _ _ _ _ _ (inv_swap _ _ _ _ _ _ _ _ _ _ _ _ J') Ln).
Qed.
(** Doubly and singly linked lists. *)
Theorem list_safe_loops F U hA hB m0 ops la lb (P : Z -> bool) :
  (apart F true false false U hA hB -> (forall c, In c (cells F true false false U hA hB) -> m0 c <> None) ->
   forallb has_list ops = true -> meanings U ops ([], []) (la, lb) ->
   exists m1 m2 m, slist_init hA m0 = Ok m1 /\ slist_init hB m1 = Ok m2 /\ run (do_list F hA hB) ops m2 = Ok m /\
   forall fuel, (length la < fuel)%nat -> exists m', foreach_safe F fuel (drop F true (list_remove F) P) hA m = Ok (la, m') /\
     foreach F fuel hA m' = Ok (filter (fun e => negb (P e)) la) /\ (forall n, (length lb < n)%nat -> foreach F n hB m' = Ok lb) /\
     forall c, ~ In c (cells F true false false U hA hB) -> m' c = m c) /\
  (apart F false false false U hA hB -> (forall c, In c (cells F false false false U hA hB) -> m0 c <> None) ->
   forallb has_slist ops = true -> meanings U ops ([], []) (la, lb) ->
   exists m1 m2 m, slist_init hA m0 = Ok m1 /\ slist_init hB m1 = Ok m2 /\ run (do_slist F (length U) hA hB) ops m2 = Ok m /\
   forall fuel, (length la < fuel)%nat -> exists m', foreach_safe F fuel (drop F false (slist_remove F fuel hA) P) hA m = Ok (la, m') /\
     foreach F fuel hA m' = Ok (filter (fun e => negb (P e)) la) /\ (forall n, (length lb < n)%nat -> foreach F n hB m' = Ok lb) /\
     forall c, ~ In c (cells F false false false U hA hB) -> m' c = m c).
Proof.
  split; intros AP AL HT MS.
  - destruct (one_init F U true m0 m0 hA hB AP AL (fun _ => eq_refl)) as (m1 & m2 & E1 & E2 & IV).
    destruct (run_ok U (do_list F hA hB) has_list (fun m s => inv F U true false false zero m0 m hA (fst s) hB (snd s)) (fun o s s' m => list_step F U hA hB m0 o s s' m) ops _ _ m2 MS HT IV) as (m & E & J).
    cbn [fst snd] in J. exists m1, m2, m. split; [exact E1|]. split; [exact E2|]. split; [exact E|]. intros fuel L. pose proof (kept_length P la) as KL.
    destruct (foreach_safe_ok F true false hA hB (list_remove F) (length la) (fun U m0 m a' e b' k' IV' L' => li_remove F U m0 m hA a' e b' hB k' IV') P lb fuel U m0 m la J L (le_n _)) as (m' & U' & E' & J' & FR).
    exists m'. split; [exact E'|]. split; [apply (foreach_ok _ _ _ _ _ _ _ _ _ _ _ J'); lia|]. split; [|exact FR]. intros n Ln. exact (foreach_ok _ _ _ _ _ _ _ _ _ _ _ (inv_swap _ _ _ _ _ _ _ _ _ _ _ _ J') Ln).
  - destruct (one_init F U false m0 m0 hA hB AP AL (fun _ => eq_refl)) as (m1 & m2 & E1 & E2 & IV).
    destruct (run_ok U (do_slist F (length U) hA hB) has_slist (fun m s => inv F U false false false zero m0 m hA (fst s) hB (snd s)) (fun o s s' m A B => slist_step F U hA hB _ m0 o s s' m A B (le_n _)) ops _ _ m2 MS HT IV) as (m & E & J).
    cbn [fst snd] in J. exists m1, m2, m. split; [exact E1|]. split; [exact E2|]. split; [exact E|]. intros fuel L. pose proof (kept_length P la) as KL.
    destruct (foreach_safe_ok F false false hA hB (slist_remove F fuel hA) fuel (fun U m0 m a' e b' k' IV' L' => sl_remove F U m0 m hA a' e b' hB k' fuel IV' L') P lb fuel U m0 m la J L ltac:(lia)) as (m' & U' & E' & J' & FR).
    exists m'. split; [exact E'|]. split; [apply (foreach_ok _ _ _ _ _ _ _ _ _ _ _ J'); lia|]. split; [|exact FR]. intros n Ln. exact (foreach_ok _ _ _ _ _ _ _ _ _ _ _ (inv_swap _ _ _ _ _ _ _ _ _ _ _ _ J') Ln).
Qed.
(** The plain loop with the same body is undefined as soon as an element is dropped: the successor is read from the freed element. *)
Theorem plain_loop_reads_freed F U hA hB m0 ops b x c lb (P : Z -> bool) :
  apart F true true false U hA hB -> (forall c, In c (cells F true true false U hA hB) -> m0 c <> None) ->
  forallb has_tailq ops = true -> meanings U ops ([], []) (b ++ x :: c, lb) -> (forall e, In e b -> P e = false) -> P x = true ->
  exists m1 m2 m, simpleq_init hA m0 = Ok m1 /\ simpleq_init hB m1 = Ok m2 /\ run (do_tailq F hA hB) ops m2 = Ok m /\
  forall fuel, (length b < fuel)%nat -> foreach_with F fuel (drop F true (tailq_remove F hA) P) hA m = Undef WildPointer.
Proof.
  intros AP AL HT MS PB Px. destruct (two_init F U true m0 m0 hA hB AP AL (fun _ => eq_refl)) as (m1 & m2 & E1 & E2 & IV).
  destruct (run_ok U (do_tailq F hA hB) has_tailq (fun m s => inv F U true true false zero m0 m hA (fst s) hB (snd s)) (fun o s s' m => tailq_step F U hA hB m0 o s s' m) ops _ _ m2 MS HT IV) as (m & E & J).
  cbn [fst snd] in J. exists m1, m2, m. split; [exact E1|]. split; [exact E2|]. split; [exact E|]. intros fuel L. unfold foreach_with. rewrite (first_ok _ _ _ _ _ _ _ _ _ _ J). cbn [bind].
  assert (Q : hd 0 (b ++ x :: c) = hd 0 (b ++ [x])) by (destruct b; reflexivity). rewrite Q.
  apply (with_undef F true true hA hB (tailq_remove F hA) (length b) (fun U m0 m a' e b' k' IV' L' => tq_rm F hA hB U m0 m a' e b' k' IV' _ L') P lb b [] x c fuel U m0 m J); try assumption; [|cbn; lia].
  apply forallb_forall. intros e I. rewrite (PB e I). reflexivity.
Qed.
(** The same for the plain loops over doubly and singly linked lists. *)
Theorem plain_list_loops_read_freed F U hA hB m0 ops b x c lb (P : Z -> bool) :
  meanings U ops ([], []) (b ++ x :: c, lb) -> (forall e, In e b -> P e = false) -> P x = true ->
  (apart F true false false U hA hB -> (forall c, In c (cells F true false false U hA hB) -> m0 c <> None) -> forallb has_list ops = true ->
   exists m1 m2 m, slist_init hA m0 = Ok m1 /\ slist_init hB m1 = Ok m2 /\ run (do_list F hA hB) ops m2 = Ok m /\
   forall fuel, (length b < fuel)%nat -> foreach_with F fuel (drop F true (list_remove F) P) hA m = Undef WildPointer) /\
  (apart F false false false U hA hB -> (forall c, In c (cells F false false false U hA hB) -> m0 c <> None) -> forallb has_slist ops = true ->
   exists m1 m2 m, slist_init hA m0 = Ok m1 /\ slist_init hB m1 = Ok m2 /\ run (do_slist F (length U) hA hB) ops m2 = Ok m /\
   forall fuel, (length b < fuel)%nat -> foreach_with F fuel (drop F false (slist_remove F fuel hA) P) hA m = Undef WildPointer).
Proof.
  intros MS PB Px. assert (Q : hd 0 (b ++ x :: c) = hd 0 (b ++ [x])) by (destruct b; reflexivity).
  assert (PB' : forallb (fun e => negb (P e)) b = true) by (apply forallb_forall; intros e I; rewrite (PB e I); reflexivity). split; intros AP AL HT.
  - destruct (one_init F U true m0 m0 hA hB AP AL (fun _ => eq_refl)) as (m1 & m2 & E1 & E2 & IV).
    destruct (run_ok U (do_list F hA hB) has_list (fun m s => inv F U true false false zero m0 m hA (fst s) hB (snd s)) (fun o s s' m => list_step F U hA hB m0 o s s' m) ops _ _ m2 MS HT IV) as (m & E & J).
    cbn [fst snd] in J. exists m1, m2, m. split; [exact E1|]. split; [exact E2|]. split; [exact E|]. intros fuel L. unfold foreach_with. rewrite (first_ok _ _ _ _ _ _ _ _ _ _ J). cbn [bind]. rewrite Q.
    apply (with_undef F true false hA hB (list_remove F) (length b) (fun U m0 m a' e b' k' IV' L' => li_remove F U m0 m hA a' e b' hB k' IV') P lb b [] x c fuel U m0 m J); try assumption. cbn; lia.
  - destruct (one_init F U false m0 m0 hA hB AP AL (fun _ => eq_refl)) as (m1 & m2 & E1 & E2 & IV).
    destruct (run_ok U (do_slist F (length U) hA hB) has_slist (fun m s => inv F U false false false zero m0 m hA (fst s) hB (snd s)) (fun o s s' m A B => slist_step F U hA hB _ m0 o s s' m A B (le_n _)) ops _ _ m2 MS HT IV) as (m & E & J).
    cbn [fst snd] in J. exists m1, m2, m. split; [exact E1|]. split; [exact E2|]. split; [exact E|]. intros fuel L. unfold foreach_with. rewrite (first_ok _ _ _ _ _ _ _ _ _ _ J). cbn [bind]. rewrite Q.
    apply (with_undef F false false hA hB (slist_remove F fuel hA) fuel (fun U m0 m a' e b' k' IV' L' => sl_remove F U m0 m hA a' e b' hB k' fuel IV' L') P lb b [] x c fuel U m0 m J); try assumption. cbn; lia.
Qed.
Example safe_ex : match (let* m := simpleq_init 100 room in let* m := simpleq_init 200 m in run (do_tailq 8 100 200) [InsTail true 1000; InsTail true 1100; InsTail true 1200] m) with
  | Ok m => match foreach_safe 8 9 (drop 8 true (tailq_remove 8 100) (Z.eqb 1100)) 100 m with
            | Ok (l, m') => l = [1000; 1100; 1200] /\ foreach 8 9 100 m' = Ok [1000; 1200] /\ m' 1108 = None | _ => False end /\
            foreach_with 8 9 (drop 8 true (tailq_remove 8 100) (Z.eqb 1100)) 100 m = Undef WildPointer
  | _ => False end.
Proof. vm_compute. repeat split. Qed.
Print Assumptions tail_safe_loops.
Print Assumptions list_safe_loops.
Print Assumptions plain_loop_reads_freed.
Print Assumptions plain_list_loops_read_freed.
