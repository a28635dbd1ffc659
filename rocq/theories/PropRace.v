(** C59: deferral on one scope by several threads. *)
From Coq Require Import Permutation.
From Verif Require Import BaseLemmas RaceModel.

(** ** Refuted *)
Definition one_entry (ts : list Z) : race := Race 1 (Some 0%nat) [ABlock true (Some 7 :: repeat None 15)] (map (fun d => (d, A0)) ts).
Definition full_block (ts : list Z) : race := Race 16 (Some 0%nat) [ABlock true (repeat (Some 7) 16)] (map (fun d => (d, A0)) ts).
(** Two workers store results at the same time: one of the two blocks is not deferred and never released. *)
Theorem defer_race_refuted : exists ts r, rsched ts (one_entry [100; 200]) = Ok r /\ map snd (threads r) = [AEnd; AEnd] /\ entries r = [Some 7; Some 200] /\ ~ In (Some 100) (entries r).
Proof. exists [0; 1; 0; 1; 0; 1; 0; 1; 0; 1]%nat. eexists. split; [vm_compute; reflexivity|]. split; [reflexivity|]. split; [reflexivity|]. cbn. intuition discriminate. Qed.
(** Here an entry that was never written is called. *)
Theorem defer_race_uninit_refuted : exists ts r, rsched ts (one_entry [100; 200]) = Ok r /\ map snd (threads r) = [A6 (Some 0%nat) 1; AEnd] /\ entries r = [Some 7; None; Some 200].
Proof. exists [0; 0; 0; 0; 1; 1; 1; 1; 1]%nat. eexists. split; [vm_compute; reflexivity|]. split; reflexivity. Qed.
(** When the array has to grow: the old block is released twice, or written after it was released. *)
Theorem defer_race_double_free_refuted : exists ts, rsched ts (full_block [100; 200]) = Undef DoubleFree.
Proof. exists [0; 1; 0; 1]%nat. vm_compute. reflexivity. Qed.
Theorem defer_race_after_free_refuted : exists ts, rsched ts (Race 15 (Some 0%nat) [ABlock true (repeat (Some 7) 15 ++ [None])] [(100, A0); (200, A0)]) = Undef UseAfterFree.
Proof. exists [0; 0; 0; 0; 1; 1; 0]%nat. vm_compute. reflexivity. Qed.

(** ** Deferrals that do not overlap *)
(** A step of [t] while no other thread is inside raii_deferred. *)
Definition outside (x : Z * apc) : Prop := snd x = A0 \/ snd x = AEnd.
Definition alone (t : nat) (r : race) : Prop := forall k x, k <> t -> nth_error (threads r) k = Some x -> outside x.
Inductive serial (a : race) : race -> Prop :=
| serial_refl : serial a a
| serial_step t b c : serial a b -> alone t b -> rstep t b = Some (Ok c) -> serial a c.

Lemma setn_length {A} (l : list A) i x : length (setn l i x) = length l.
Proof. revert i. induction l as [|a l IH]; intros [|i]; try reflexivity. change (S (length (setn l i x)) = S (length l)). f_equal. apply IH. Qed.
Lemma setn_same {A} (l : list A) i x y : nth_error l i = Some y -> nth_error (setn l i x) i = Some x.
Proof. revert i. induction l as [|a l IH]; intros [|i] H; try discriminate; [reflexivity|]. change (nth_error (setn l i x) i = Some x). apply IH. exact H. Qed.
Lemma setn_other {A} (l : list A) i x k : k <> i -> nth_error (setn l i x) k = nth_error l k.
Proof. revert i k. induction l as [|a l IH]; intros [|i] [|k] H; try reflexivity; try congruence. change (nth_error (setn l i x) k = nth_error l k). apply IH. congruence. Qed.
Lemma setn_snoc {A} (l : list A) i x : (i < length l)%nat -> firstn (S i) (setn l i x) = firstn i l ++ [x].
Proof.
  revert i. induction l as [|a l IH]; intros i H; cbn [length] in H; [lia|]. destruct i as [|i]; [reflexivity|]. change (setn (a :: l) (S i) x) with (a :: setn l i x). cbn [firstn app]. f_equal. apply IH. lia.
Qed.
Lemma setn_firstn {A} (l : list A) i x n : (n <= i)%nat -> firstn n (setn l i x) = firstn n l.
Proof. revert i n. induction l as [|a l IH]; intros i n H; [destruct i, n; reflexivity|]. destruct n as [|n]; [reflexivity|]. destruct i as [|i]; [lia|]. change (setn (a :: l) (S i) x) with (a :: setn l i x). cbn [firstn]. f_equal. apply IH. lia. Qed.

(** The array holds [es]; its capacity [cap]. *)
Definition holds_array (es : list Z) (cap : nat) (b : option nat) (bs : list ablock) : Prop :=
  match b with
  | None => es = [] /\ cap = 0%nat
  | Some k => exists x, nth_error bs k = Some x /\ b_live x = true /\ length (cells x) = cap /\ firstn (length es) (cells x) = map Some es /\ (length es <= cap)%nat
  end.
(** Room for the next entry unless the count is a multiple of 16. *)
Definition quiet (es : list Z) (r : race) : Prop := elems r = length es /\ exists cap, holds_array es cap (base r) (blocks r) /\ (length es mod 16 <> 0 -> length es < cap)%nat /\ (cap mod 16 = 0)%nat.
Definition finished_data (l : list (Z * apc)) : list Z := flat_map (fun x => match snd x with AEnd => [fst x] | _ => [] end) l.

(** Between deferrals the array is in order; during one, its thread is the only one inside. *)
Definition mid (es : list Z) (pc : apc) (r : race) : Prop :=
  match pc with
  | A0 | AEnd => False
  | A1 n => quiet es r /\ n = length es /\ (n mod 16 = 0)%nat
  | A2 k => elems r = length es /\ holds_array es (length es + 16) (Some k) (blocks r) /\ (length es mod 16 = 0)%nat
  | A3 => elems r = length es /\ exists cap, holds_array es cap (base r) (blocks r) /\ (length es < cap)%nat /\ (cap mod 16 = 0)%nat
  | A4 b => b = base r /\ elems r = length es /\ exists cap, holds_array es cap (base r) (blocks r) /\ (length es < cap)%nat /\ (cap mod 16 = 0)%nat
  | A5 b n => b = base r /\ n = length es /\ exists cap, holds_array es cap (base r) (blocks r) /\ (length es < cap)%nat /\ (cap mod 16 = 0)%nat
  | A6 b n => b = base r /\ n = length es /\ elems r = S n /\ exists cap, holds_array es cap (base r) (blocks r) /\ (length es < cap)%nat /\ (cap mod 16 = 0)%nat
  end.
Definition inv (pre : list Z) (ds : list Z) (r : race) : Prop :=
  map fst (threads r) = ds /\ exists added, Permutation added (finished_data (threads r)) /\
    ((forall k x, nth_error (threads r) k = Some x -> outside x) /\ quiet (pre ++ added) r \/
     exists t d pc, nth_error (threads r) t = Some (d, pc) /\ ~ outside (d, pc) /\ alone t r /\ mid (pre ++ added) pc r).

Lemma map_fst_setn l t d pc pc' : nth_error l t = Some (d, pc) -> map fst (setn l t (d, pc') : list (Z * apc)) = map fst l.
Proof. revert t. induction l as [|a l IH]; intros [|t] H; try discriminate; [injection H as ->; reflexivity|]. change (fst a :: map fst (setn l t (d, pc')) = fst a :: map fst l). f_equal. apply IH. exact H. Qed.
Lemma finished_setn l t d pc pc' : nth_error l t = Some (d, pc) -> pc <> AEnd -> pc' <> AEnd -> finished_data (setn l t (d, pc')) = finished_data l.
Proof.
  intros H A B. revert t H. induction l as [|a l IH]; intros [|t] H; try discriminate.
  - injection H as ->. cbn [setn firstn skipn app finished_data flat_map snd]. destruct pc, pc'; congruence.
  - change (setn (a :: l) (S t) (d, pc')) with (a :: setn l t (d, pc')). cbn [finished_data flat_map]. f_equal. apply IH. exact H.
Qed.
Lemma finished_end l t d pc : nth_error l t = Some (d, pc) -> pc <> AEnd -> Permutation (finished_data (setn l t (d, AEnd))) (d :: finished_data l).
Proof.
  intros H A. revert t H. induction l as [|a l IH]; intros [|t] H; try discriminate.
  - injection H as ->. cbn [setn firstn skipn app finished_data flat_map snd fst]. destruct pc; try apply Permutation_refl. congruence.
  - change (setn (a :: l) (S t) (d, AEnd)) with (a :: setn l t (d, AEnd)). cbn [finished_data flat_map]. fold (finished_data (setn l t (d, AEnd))). fold (finished_data l). rewrite (IH t H). rewrite Permutation_middle. reflexivity.
Qed.
Lemma alone_setn l t x y : nth_error l t = Some x -> forall e b bs e' b' bs', alone t (Race e b bs l) -> alone t (Race e' b' bs' (setn l t y)).
Proof. intros H e b bs e' b' bs' A k z Nk Hz. cbn [threads] in *. rewrite setn_other in Hz by exact Nk. apply (A k z Nk Hz). Qed.

Lemma realloc_holds es cap b bs : holds_array es cap b bs -> (length es mod 16 = 0)%nat -> exists bs', realloc b (length es + 16) bs = Ok bs' /\ holds_array es (length es + 16) (Some (length bs)) bs'.
Proof.
  intros H M. unfold realloc. destruct b as [k|]; cbn [holds_array] in H.
  - destruct H as (x & Nx & Lv & Lc & F & Le). rewrite Nx, Lv. eexists. split; [reflexivity|]. exists (ABlock true (firstn (length es + 16) (cells x) ++ repeat None (length es + 16 - length (cells x)))).
    split; [rewrite nth_error_app2; rewrite setn_length; [rewrite Nat.sub_diag; reflexivity|lia]|]. split; [reflexivity|]. cbn [cells]. split; [rewrite app_length, firstn_length, repeat_length; lia|]. split; [|lia].
    rewrite firstn_app, firstn_firstn. replace (Nat.min (length es) (length es + 16)) with (length es) by lia. rewrite F.
    replace (length es - length (firstn (length es + 16) (cells x)))%nat with 0%nat by (rewrite firstn_length; lia). cbn [firstn]. apply app_nil_r.
  - destruct H as (-> & ->). eexists. split; [reflexivity|]. exists (ABlock true (repeat None 16)). split; [rewrite nth_error_app2, Nat.sub_diag by lia; reflexivity|]. repeat split. cbn. lia.
Qed.
Lemma fill_holds es cap b bs d : holds_array es cap b bs -> (length es < cap)%nat -> exists bs', fill b (length es) d bs = Ok bs' /\ holds_array (es ++ [d]) cap b bs'.
Proof.
  intros H L. unfold fill. destruct b as [k|]; cbn [holds_array] in H; [|lia]. destruct H as (x & Nx & Lv & Lc & F & Le). rewrite Nx, Lv. cbn [negb]. rewrite Lc. destruct (Nat.ltb_spec (length es) cap); [|lia].
  eexists. split; [reflexivity|]. exists (ABlock true (setn (cells x) (length es) (Some d))). split; [eapply setn_same; eauto|]. split; [reflexivity|]. cbn [cells]. split; [rewrite setn_length; exact Lc|].
  rewrite app_length. cbn [length]. rewrite Nat.add_1_r. split; [|lia]. rewrite setn_snoc by lia. rewrite F, map_app. reflexivity.
Qed.

Lemma serial_inv pre ds r t o : inv pre ds r -> alone t r -> rstep t r = Some o -> exists r', o = Ok r' /\ inv pre ds r'.
Proof.
  intros (Mf & added & Pm & St) Al H. unfold rstep in H. destruct (nth_error (threads r) t) as [[d pc]|] eqn:N; try discriminate.
  assert (Case : (pc = A0 /\ quiet (pre ++ added) r) \/ (pc <> A0 /\ pc <> AEnd /\ mid (pre ++ added) pc r)).
  { destruct pc; try discriminate; (destruct St as [(Out & Q)|(t' & d' & pc' & N' & NO & Al' & Mi)];
      [destruct (Out t _ N) as [X|X]; cbn [snd] in X; try discriminate; auto|]);
      (destruct (Nat.eq_dec t t') as [->|Ne]; [rewrite N in N'; injection N' as <- <-|elim NO; apply (Al t'); [congruence|exact N']]);
      try (right; split; [discriminate|]; split; [discriminate|exact Mi]); try (destruct Mi). }
  assert (Go : forall pc' e b bs, pc <> AEnd -> pc' <> A0 -> pc' <> AEnd -> mid (pre ++ added) pc' (Race e b bs (setn (threads r) t (d, pc'))) -> inv pre ds (Race e b bs (setn (threads r) t (d, pc')))).
  { intros pc' e b bs P1 P0 P2 M. unfold inv. split; [cbn [threads]; rewrite (map_fst_setn _ _ _ pc); assumption|]. exists added. cbn [threads]. rewrite (finished_setn _ _ _ pc) by assumption. split; [exact Pm|]. right. exists t, d, pc'.
    split; [eapply setn_same; eauto|]. split; [intros [X|X]; cbn [snd] in X; contradiction|]. split; [|exact M]. destruct r as [e0 b0 bs0 l0]. cbn [threads] in *. eapply alone_setn; eauto. }
  destruct Case as [(-> & Q)|(P0 & P1 & M)].
  - match type of H with Some ?x = Some _ => assert (Ho : o = x) by congruence end. subst o. clear H. eexists. split; [reflexivity|]. pose proof Q as (Qe & cap & Qh & Qr & Qm). destruct (Nat.eqb_spec (elems r mod 16) 0) as [E|E].
    + apply Go; try discriminate. cbn [mid]. split; [|split; [exact Qe|exact E]]. split; [exact Qe|]. exists cap. auto.
    + apply Go; try discriminate. cbn [mid elems base blocks]. split; [exact Qe|]. exists cap. rewrite Qe in E. auto.
  - destruct pc as [ |n|k| |b|b n|b n| ]; try congruence; cbn [mid] in M.
    + destruct M as ((Qe & cap & Qh & Qr & Qm) & -> & E). destruct (realloc_holds _ _ _ _ Qh E) as (bs' & Eb & Hb). rewrite Eb in H. cbn [bind] in H. injection H as <-. eexists. split; [reflexivity|].
      apply Go; try discriminate. cbn [mid elems blocks]. auto.
    + destruct M as (Qe & Qh & E). injection H as <-. eexists. split; [reflexivity|]. apply Go; try discriminate. cbn [mid elems base blocks]. split; [exact Qe|]. exists (length (pre ++ added) + 16)%nat. split; [exact Qh|]. split; [lia|]. rewrite Nat.add_mod, E by lia. reflexivity.
    + destruct M as (Qe & Q). injection H as <-. eexists. split; [reflexivity|]. apply Go; try discriminate. cbn [mid elems base blocks]. auto.
    + destruct M as (-> & Qe & Q). injection H as <-. eexists. split; [reflexivity|]. apply Go; try discriminate. cbn [mid elems base blocks]. auto.
    + destruct M as (-> & -> & Q). injection H as <-. eexists. split; [reflexivity|]. apply Go; try discriminate. cbn [mid elems base blocks]. auto.
    + destruct M as (-> & -> & Qe & cap & Qh & Qc & Qm). destruct (fill_holds _ _ _ _ d Qh Qc) as (bs' & Eb & Hb). rewrite Eb in H. cbn [bind] in H. injection H as <-. eexists. split; [reflexivity|].
      split; [cbn [threads]; rewrite (map_fst_setn _ _ _ (A6 (base r) (length (pre ++ added)))); assumption|]. exists (added ++ [d]). cbn [threads]. split; [rewrite (finished_end _ _ _ _ N) by discriminate; rewrite <- Pm; symmetry; apply Permutation_cons_append|].
      left. split.
      * intros k x Hx. destruct (Nat.eq_dec k t) as [->|Nk]; [rewrite (setn_same _ _ _ _ N) in Hx; injection Hx as <-; right; reflexivity|]. rewrite setn_other in Hx by exact Nk. apply (Al k x Nk Hx).
      * rewrite app_assoc. split; [cbn [elems]; rewrite app_length; cbn [length]; lia|]. exists cap. split; [exact Hb|]. split; [|exact Qm]. rewrite app_length. cbn [length]. intros X.
        assert (length (pre ++ added) + 1 <> cap)%nat by congruence. lia.
Qed.

(** Any number of threads on an array in order, with any contents: as long as the deferrals do not overlap nothing undefined happens, and
    once all have ended the array holds what it held before and exactly what they deferred. *)
Theorem serial_defers_partial : forall pre r0 r, quiet pre r0 -> Forall (fun x => snd x = A0) (threads r0) -> serial r0 r ->
  (forall t, alone t r -> match rstep t r with Some (Ok _) | None => True | _ => False end) /\
  (Forall (fun x => snd x = AEnd) (threads r) -> exists added, entries r = map Some (pre ++ added) /\ Permutation added (map fst (threads r0))).
Proof.
  intros pre r0 r Q0 F0 S. assert (I : inv pre (map fst (threads r0)) r).
  { induction S as [|t b c S IH Al H].
    - split; [reflexivity|]. exists []. rewrite app_nil_r. split.
      + replace (finished_data (threads r0)) with (@nil Z); [constructor|]. clear - F0. induction F0 as [|x l Hx F IH]; [reflexivity|]. cbn [finished_data flat_map]. rewrite Hx. exact IH.
      + left. split; [|exact Q0]. intros k x Hx. left. rewrite Forall_forall in F0. apply F0. eapply nth_error_In; eauto.
    - destruct (serial_inv _ _ _ t (Ok c) IH Al H) as (r' & [= <-] & X). exact X. }
  split.
  - intros t Al. destruct (rstep t r) as [o|] eqn:E; [|exact Logic.I]. destruct (serial_inv _ _ _ t o I Al E) as (r' & -> & _). exact Logic.I.
  - intros Fe. destruct I as (Mf & added & Pm & St). exists added. split.
    + destruct St as [(_ & (Qe & cap & Qh & _))|(t & d & pc & N & NO & _)].
      * unfold entries. rewrite Qe. destruct (base r) as [k|]; cbn [holds_array] in Qh; [|destruct Qh as (-> & _); reflexivity]. destruct Qh as (x & -> & _ & _ & -> & _). reflexivity.
      * elim NO. right. rewrite Forall_forall in Fe. apply (Fe _ (nth_error_In _ _ N)).
    + rewrite Pm, <- Mf. clear - Fe. induction Fe as [|x l Hx F IH]; [reflexivity|]. cbn [finished_data flat_map map]. rewrite Hx. cbn [app]. apply perm_skip. exact IH.
Qed.
(** A schedule that runs the threads one after the other. *)
Example serial_case : let r0 := Race 0 None [] [(100, A0); (200, A0)] in
  quiet [] r0 /\ exists r, rsched (repeat 1 7 ++ repeat 0 5)%nat r0 = Ok r /\ entries r = [Some 200; Some 100] /\ map snd (threads r) = [AEnd; AEnd].
Proof.
  split; [split; [reflexivity|]; exists 0%nat; split; [split; reflexivity|]; split; [intros H; elim H; reflexivity|reflexivity]|].
  eexists. split; [vm_compute; reflexivity|]. split; reflexivity.
Qed.

Print Assumptions defer_race_refuted. Print Assumptions defer_race_uninit_refuted. Print Assumptions defer_race_double_free_refuted. Print Assumptions defer_race_after_free_refuted. Print Assumptions serial_defers_partial.
