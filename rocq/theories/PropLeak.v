(** C100: what becomes of the memory when a request to the allocator fails. *)
From Verif Require Import LeakModel.
Open Scope Z_scope.

(** Everything a scope will release. *)
Definition held (c : hold) : list Z :=
  kept c ++ (match shield c with Some p => [p] | None => [] end) ++ (match table c with Some t => [t] | None => [] end).
(** The array is none of the other blocks of the scope, the heap knows the blocks of the scope, and new blocks are new. *)
Definition fits (c : hold) (h : heap) : Prop :=
  (forall t, table c = Some t -> ~ In t (kept c) /\ shield c <> Some t) /\ (forall b, In b (held c) -> In b (live h)) /\ (forall b, In b (live h) -> b < fresh h).
(** A block that is not released and that releasing the scope will not release. *)
Definition lost (c : hold) (h : heap) (b : Z) : Prop := In b (live h) /\ ~ In b (held c).
(** Between the two moments exactly the blocks of [l] were lost. *)
Definition loses (c : hold) (h : heap) (c' : hold) (h' : heap) (l : list Z) : Prop := forall b, lost c' h' b <-> lost c h b \/ In b l.

Lemma drop_in b x h : In b (live (drop x h)) <-> In b (live h) /\ b <> x.
Proof. unfold drop. cbn [live]. split; [intros H; apply in_remove in H; exact H|intros [H N]; apply in_in_remove; assumption]. Qed.
Lemma release_in b c h : In b (live (release c h)) <-> lost c h b.
Proof.
  assert (K : forall l h, In b (live (fold_left (fun h b => drop b h) l h)) <-> In b (live h) /\ ~ In b l).
  { induction l as [|x l IH]; intros g; cbn [fold_left In]; [tauto|]. rewrite IH, drop_in. intuition congruence. }
  unfold lost, release, held. rewrite !in_app_iff. destruct (table c) as [t|], (shield c) as [p|]; rewrite ?drop_in, ?K; cbn [In]; intuition congruence.
Qed.
Lemma fits_none c h : fits c h -> ~ In (fresh h) (held c) /\ ~ In (fresh h) (live h).
Proof. intros (_ & W1 & W2). split; intros X; [apply W1 in X|]; apply W2 in X; lia. Qed.
Definition more (h : heap) : heap := Heap (S (asked h)) (fresh h + 1) (fresh h :: live h).
Lemma fits_more c h : fits c h -> fits c (more h).
Proof. intros (W0 & W1 & W2). unfold more. split; [exact W0|]. split; cbn [live fresh In]; [auto|]. intros b [<- |B]; [lia|apply W2 in B; lia]. Qed.

Lemma in_held b c : In b (held c) <-> In b (kept c) \/ shield c = Some b \/ table c = Some b.
Proof.
  unfold held. rewrite !in_app_iff. assert (O : forall o : option Z, In b (match o with Some p => [p] | None => [] end) <-> o = Some b).
  { intros [p|]; cbn [In]; split; try contradiction; try discriminate; [intros [-> |[]]; reflexivity|intros [= ->]; auto]. }
  rewrite !O. reflexivity.
Qed.
Lemma register_spec F b c h : fits c h -> In b (live h) -> ~ In b (held c) ->
  let '(c', h') := register F b c h in
  if (entries c mod 16 =? 0)%nat && F (asked h) then c' = c /\ h' = Heap (S (asked h)) (fresh h) (live h)
  else fits c' h' /\ shield c' = shield c /\ entries c' = S (entries c) /\ (forall x, lost c' h' x <-> lost c h x /\ x <> b) /\
    asked h' = (asked h + (if (entries c mod 16 =? 0)%nat then 1 else 0))%nat /\ fresh h' = fresh h + (if (entries c mod 16 =? 0)%nat then 1 else 0).
Proof.
  intros W B Nb. destruct (fits_none _ _ W) as [N1 N2]. destruct W as (W0 & W1 & W2). unfold register. destruct (entries c mod 16 =? 0)%nat; cbn [andb].
  - unfold ask. destruct (F (asked h)); [split; reflexivity|]. fold (more h).
    assert (Wb : b < fresh h) by (apply W2, B).
    assert (To : forall o, table c = Some o -> o < fresh h) by (intros o T; apply W2, W1, in_held; auto).
    set (h' := match table c with None => more h | Some o => drop o (more h) end).
    assert (L : forall x, In x (live h') <-> x = fresh h \/ In x (live h) /\ table c <> Some x).
    { intros x. unfold h'. destruct (table c) as [o|] eqn:T; [rewrite drop_in|]; cbn [more live In].
      - specialize (To o eq_refl). split; [intros [[<- |X] Y]; [auto|right; split; [exact X|congruence]]|]. intros [-> |[X Y]]; split; auto; try lia. congruence.
      - split; [intros [<- |X]; [auto|right; split; [exact X|discriminate]]|intros [-> |[X _]]; auto]. }
    assert (A : asked h' = (asked h + 1)%nat /\ fresh h' = fresh h + 1) by (unfold h'; destruct (table c); cbn; split; lia). destruct A as [A1 A2].
    clearbody h'. rewrite in_held in Nb, N1. split; [|split; [reflexivity|split; [reflexivity|split; [|auto]]]].
    + split; [|split].
      * cbn [table kept shield In]. intros t [= <-]. split; [intros [X|X]; [lia|tauto]|tauto].
      * intros x. rewrite in_held, L. cbn [kept shield table In]. intros [[<- |X]|[X|X]].
        { right. split; [exact B|tauto]. }
        { right. split; [apply W1, in_held; auto|]. intros T. apply W0 in T. tauto. }
        { right. split; [apply W1, in_held; auto|]. intros T. apply W0 in T. tauto. }
        { injection X as <-. auto. }
      * intros x. rewrite L, A2. intros [-> |[X _]]; [lia|apply W2 in X; lia].
    + intros x. unfold lost. rewrite !in_held, L. cbn [kept shield table In]. split.
      * intros [[-> |[X T]] N]; [elim N; auto|]. repeat split; [exact X| |intros ->; apply N; auto]. intros [Y|[Y|Y]]; [apply N; auto..|apply T, Y].
      * intros [[X N] D]. split; [right; split; [exact X|intros T; apply N; auto]|]. intros [[Y|Y]|[Y|Y]]; [congruence|apply N; auto..|]. injection Y as <-. contradiction.
  - rewrite in_held in Nb. split; [|split; [reflexivity|split; [reflexivity|split; [|lia]]]].
    + split; [|split; [|exact W2]].
      * cbn [table kept shield In]. intros t T. destruct (W0 t T). split; [intros [<- |X]; [apply Nb; auto|contradiction]|assumption].
      * intros x. rewrite in_held. cbn [kept shield table In]. intros [[<- |X]|X]; [exact B|apply W1, in_held; auto..].
    + intros x. unfold lost. rewrite !in_held. cbn [kept shield table In]. intuition congruence.
Qed.

(** One call of malloc_full, for every scope and every pattern of failures: if the block cannot be had nothing is lost; if the block was
    had and the protector was not, the block is lost; otherwise the call returns the block, which the scope owns unless the array of deferred
    functions was full and could not grow. *)
Theorem malloc_loses : forall F c h, fits c h -> let n := asked h in
  (F n = true -> exists h', malloc_full F c h = Thrown c h' /\ loses c h c h' []) /\
  (F n = false -> shield c = None -> F (S n) = true -> exists h', malloc_full F c h = Thrown c h' /\ loses c h c h' [fresh h]) /\
  (F n = false -> (shield c = None -> F (S n) = false) -> let m := match shield c with None => S (S n) | Some _ => S n end in
     exists c' h', malloc_full F c h = Done (fresh h) c' h' /\ fits c' h' /\ shield c' <> None /\
     (if (entries c mod 16 =? 0)%nat && F m then loses c h c' h' [fresh h] /\ asked h' = S m /\ entries c' = entries c
      else loses c h c' h' [] /\ asked h' = (m + if (entries c mod 16 =? 0)%nat then 1 else 0)%nat /\ entries c' = S (entries c) /\
           fresh h' - fresh h = Z.of_nat (asked h' - n))).
Proof.
  intros F c h W n. destruct (fits_none _ _ W) as [N1 N2].
  split; [intros H0|split; [intros H0 Hs H1|intros H0 H1 m]]; unfold malloc_full, try_malloc, ask; fold n; rewrite H0.
  - eexists. split; [reflexivity|]. intros b. unfold lost. cbn [live In]. tauto.
  - change (Heap (S n) (fresh h + 1) (fresh h :: live h)) with (more h). rewrite Hs. cbn [more asked fresh live]. fold n. rewrite H1. eexists. split; [reflexivity|]. intros b. unfold lost. cbn [live In].
    intuition (subst; auto).
  - change (Heap (S n) (fresh h + 1) (fresh h :: live h)) with (more h). destruct (shield c) as [p|] eqn:Es.
    + pose proof (register_spec F (fresh h) c (more h) (fits_more _ _ W) (or_introl eq_refl) N1) as R. change (asked (more h)) with m in R.
      destruct (register F (fresh h) c (more h)) as [c' h']. exists c', h'. split; [reflexivity|].
      destruct ((entries c mod 16 =? 0)%nat && F m).
      * destruct R as [-> ->]. split; [apply (fits_more _ _ W)|]. split; [congruence|]. split; [|split; reflexivity].
        intros b. unfold lost. cbn [live more In]. intuition (subst; auto).
      * destruct R as (R1 & R2 & R3 & R4 & R5 & R6). split; [exact R1|]. split; [congruence|]. split; [|split; [exact R5|split; [exact R3|]]].
        { intros b. rewrite R4. unfold lost. cbn [live more In]. intuition (subst; auto). }
        { rewrite R5, R6. unfold m. cbn [more fresh]. destruct (_ =? 0)%nat; lia. }
    + cbn [more asked]. fold n. rewrite (H1 eq_refl). cbn [fresh live more].
      set (c1 := Hold (kept c) (Some (fresh h + 1)) (table c) (entries c)). set (h1 := Heap (S (S n)) (fresh h + 1 + 1) (fresh h + 1 :: fresh h :: live h)).
      assert (Hc : forall b, In b (held c1) <-> b = fresh h + 1 \/ In b (held c)). { intros b. rewrite !in_held, Es. cbn. intuition (try discriminate; try congruence; subst; auto). }
      assert (W' : fits c1 h1).
      { destruct W as (W0 & W1 & W2). split; [|split].
        - cbn [table kept shield c1]. intros t T. destruct (W0 t T). split; [assumption|]. intros [= X]. assert (t < fresh h) by (apply W2, W1, in_held; auto). lia.
        - intros b. rewrite Hc. cbn [live h1 In]. intros [-> |X]; auto.
        - cbn [live h1 In fresh]. intros b [<- |[<- |X]]; [lia..|apply W2 in X; lia]. }
      assert (N1' : ~ In (fresh h) (held c1)) by (rewrite Hc; intros [X|X]; [lia|contradiction]).
      pose proof (register_spec F (fresh h) c1 h1 W' (or_intror (or_introl eq_refl)) N1') as R. change (asked h1) with m in R. change (entries c1) with (entries c) in R.
      destruct (register F (fresh h) c1 h1) as [c' h']. exists c', h'. split; [reflexivity|].
      assert (Lb : forall b, b < fresh h + 1 \/ b > fresh h + 1 -> (lost c1 h1 b <-> lost c h b \/ b = fresh h)).
      { intros b D. unfold lost. rewrite Hc. cbn [live h1 In]. intuition (subst; auto; try lia). }
      assert (L1 : ~ lost c1 h1 (fresh h + 1)) by (unfold lost; rewrite Hc; tauto).
      assert (L2 : ~ lost c h (fresh h + 1)) by (intros [X _]; destruct W as (_ & _ & W2); apply W2 in X; lia).
      destruct ((entries c mod 16 =? 0)%nat && F m).
      * destruct R as [-> ->]. split; [exact W'|]. split; [discriminate|]. split; [|split; reflexivity].
        intros b. transitivity (lost c1 h1 b); [reflexivity|]. cbn [In].
        destruct (Z.eq_dec b (fresh h + 1)) as [-> |D]; [split; [intros X; contradiction|intros [X|[X|[]]]; [contradiction|lia]]|]. rewrite Lb by lia. intuition congruence.
      * destruct R as (R1 & R2 & R3 & R4 & R5 & R6). split; [exact R1|]. split; [rewrite R2; discriminate|]. split; [|split; [exact R5|split; [exact R3|]]].
        { intros b. rewrite R4. cbn [In]. destruct (Z.eq_dec b (fresh h + 1)) as [-> |D]; [split; [intros [X _]; contradiction|intros [X|[]]; contradiction]|]. rewrite Lb by lia.
          split; [intros [[X|X] Y]; [auto|contradiction]|intros [X|[]]]. split; [auto|]. intros ->. destruct X as [X _]. contradiction. }
        { rewrite R5, R6. unfold m, h1. cbn [fresh]. destruct (_ =? 0)%nat; lia. }
Qed.
Example malloc_loses_case : (forall F, F 0%nat = false -> F 1%nat = true -> malloc_full F bare (Heap 0 1 []) = Thrown bare (Heap 2 2 [1])) /\
  malloc_full (fun n => (n =? 1)%nat) (Hold [1; 2] (Some 3) (Some 4) 16) (Heap 0 5 [1; 2; 3; 4]) = Done 5 (Hold [1; 2] (Some 3) (Some 4) 16) (Heap 2 6 [5; 1; 2; 3; 4]).
Proof. split; [intros F H0 H1; unfold malloc_full, try_malloc, ask; cbn; rewrite H0; cbn; rewrite H1; reflexivity|reflexivity]. Qed.

Lemma out_of_memory F k : forall c h b, (forall n, (asked h <= n)%nat -> F n = true) -> In b (remains (mallocs F k c h)) <-> lost c h b.
Proof.
  destruct k as [|k]; intros c h b H; cbn [mallocs].
  - cbn [remains]. apply release_in.
  - unfold malloc_full, try_malloc, ask. rewrite (H (asked h)) by lia. cbn [remains]. rewrite release_in. reflexivity.
Qed.
(** The requests that [j] successful calls on a new scope make. *)
Definition spent (j : nat) : nat := match j with O => 0 | S _ => 1 + j + (j + 15) / 16 end.
(** Memory runs out after [N] requests, during any number [k] of allocations on a new scope; then the scope is released.  All memory obtained
    is released except that one block is lost if the first request to fail was for the protector or for a larger array: that is, if [N] is 1 or
    2 more than a multiple of 17, and enough calls are made to get there. *)
Theorem exhaustion_exact : forall N k h, (forall b, In b (live h) -> b < fresh h) -> forall b,
  In b (remains (mallocs (fun n => (asked h + N <=? n)%nat) k bare h)) <->
  In b (live h) \/ ((N = 1 \/ N mod 17 = 2) /\ 16 * (N / 17) < k)%nat /\ b = fresh h + Z.of_nat (if (N <=? 2)%nat then 0 else N - 1).
Proof.
  intros N k h Wh. set (F := fun n => (asked h + N <=? n)%nat).
  assert (FT : forall n, F n = true <-> (asked h + N <= n)%nat) by (intros n; apply Nat.leb_le).
  assert (FF : forall n, F n = false <-> (n < asked h + N)%nat) by (intros n; apply Nat.leb_gt).
  assert (G : forall k j c1 h1, fits c1 h1 -> entries c1 = j -> (j = 0%nat <-> shield c1 = None) -> asked h1 = (asked h + spent j)%nat -> fresh h1 = fresh h + Z.of_nat (spent j) ->
    (forall b, lost c1 h1 b <-> In b (live h)) -> forall b, In b (remains (mallocs F k c1 h1)) <->
    In b (live h) \/ ((N = 1 \/ N mod 17 = 2) /\ j <= 16 * (N / 17) < j + k)%nat /\ b = fresh h + Z.of_nat (if (N <=? 2)%nat then 0 else N - 1)).
  { clear k. induction k as [|k IH]; intros j c1 h1 W Ej Sj Aj Rj Lj b.
    { cbn [mallocs remains]. rewrite release_in, Lj. split; [auto|intros [X|[X _]]; [exact X|lia]]. }
    cbn [mallocs]. destruct (malloc_loses F c1 h1 W) as (M1 & M2 & M3).
    destruct (F (asked h1)) eqn:F0.
    { destruct (M1 eq_refl) as (h' & -> & L'). cbn [remains]. rewrite release_in, (L' b), Lj. cbn [In]. apply FT in F0.
      split; [tauto|]. intros [X|[X _]]; [auto|]. exfalso. destruct j; unfold spent in Aj; lia. }
    clear M1. specialize (M2 eq_refl). specialize (M3 eq_refl). apply FF in F0.
    destruct (shield c1) as [p|] eqn:Es.
    - assert (J : (0 < j)%nat) by (destruct j; [destruct Sj as [X _]; specialize (X eq_refl); discriminate|lia]).
      destruct M3 as (c' & h' & E & W' & S' & M); [discriminate|]. rewrite E. rewrite Ej in M.
      assert (Sp : spent j = (1 + j + (j + 15) / 16)%nat) by (destruct j; [lia|reflexivity]).
      assert (Sp' : spent (S j) = (2 + j + (j + 16) / 16)%nat) by (unfold spent; cbn [Nat.add]; f_equal; f_equal; f_equal; f_equal; lia).
      assert (Rm : forall A (x : left (list A)) (y : A), remains (match x with Thrown c h => Thrown c h | Done l c h => Done (y :: l) c h end) = remains x) by (intros A [l c h0|c h0] y; reflexivity).
      rewrite Rm. clear Rm. destruct (j mod 16 =? 0)%nat eqn:E16; cbn [andb] in M.
      + apply Nat.eqb_eq in E16. destruct (F (S (asked h1))) eqn:F1.
        * apply FT in F1. destruct M as (M1 & M4 & M5). rewrite out_of_memory by (intros n Hn; apply FT; lia). rewrite (M1 b), Lj. cbn [In].
          replace (N <=? 2)%nat with false by (symmetry; apply Nat.leb_gt; lia). split; (intros [X|X]; [auto|]).
          { right. destruct X as [<- |[]]. split; lia. }
          { right. left. lia. }
        * apply FF in F1. destruct M as (M1 & M4 & M5 & M6). rewrite (IH (S j) c' h' W' M5).
          { split; (intros [X|[X Y]]; [auto|]); right; (split; [|exact Y]); lia. }
          { split; [discriminate|intros X; contradiction]. } { lia. } { lia. } { intros x. rewrite (M1 x), Lj. cbn [In]. tauto. }
      + apply Nat.eqb_neq in E16. destruct M as (M1 & M4 & M5 & M6). rewrite (IH (S j) c' h' W' M5).
        { split; (intros [X|[X Y]]; [auto|]); right; (split; [|exact Y]); lia. }
        { split; [discriminate|intros X; contradiction]. } { lia. } { lia. } { intros x. rewrite (M1 x), Lj. cbn [In]. tauto. }
    - assert (J : j = 0%nat) by (apply Sj; reflexivity). subst j. rewrite J in *. cbn [spent] in *. specialize (M2 eq_refl).
      destruct (F (S (asked h1))) eqn:F1.
      + apply FT in F1. destruct (M2 eq_refl) as (h' & E & L'). rewrite E. cbn [remains]. rewrite release_in, (L' b), Lj. cbn [In].
        replace (N <=? 2)%nat with true by (symmetry; apply Nat.leb_le; lia). split; (intros [X|X]; [auto|]); right.
        { destruct X as [<- |[]]. split; lia. } { left. lia. }
      + apply FF in F1. destruct M3 as (c' & h' & E & W' & S' & M); [auto|]. rewrite E. change (0 mod 16 =? 0)%nat with true in M. cbn [andb] in M.
        assert (Rm : forall A (x : left (list A)) (y : A), remains (match x with Thrown c h => Thrown c h | Done l c h => Done (y :: l) c h end) = remains x) by (intros A [l c h0|c h0] y; reflexivity).
        rewrite Rm. clear Rm. destruct (F (S (S (asked h1)))) eqn:F2.
        * apply FT in F2. destruct M as (M1 & M4 & M5). rewrite out_of_memory by (intros n Hn; apply FT; lia). rewrite (M1 b), Lj. cbn [In].
          replace (N <=? 2)%nat with true by (symmetry; apply Nat.leb_le; lia). split; (intros [X|X]; [auto|]); right.
          { destruct X as [<- |[]]. split; lia. } { left. lia. }
        * apply FF in F2. destruct M as (M1 & M4 & M5 & M6). rewrite (IH 1%nat c' h' W' M5).
          { split; (intros [X|[X Y]]; [auto|]); right; (split; [|exact Y]); lia. }
          { split; [discriminate|intros X; contradiction]. } { cbn. lia. } { cbn. lia. } { intros x. rewrite (M1 x), Lj. cbn [In]. tauto. } }
  intros b. rewrite (G k 0%nat bare h).
  - split; (intros [X|[X Y]]; [auto|]); right; (split; [|exact Y]); lia.
  - split; [discriminate|]. split; [intros x []|exact Wh].
  - reflexivity.
  - split; reflexivity.
  - cbn. lia.
  - cbn. lia.
  - intros x. unfold lost. cbn. tauto.
Qed.
Example exhaustion_met := exhaustion_exact 19 20 (Heap 3 9 [7; 8]) ltac:(cbn; lia).
(** The nineteenth block is lost: it is the seventeenth of the program, for which the array had to grow. *)
Example exhaustion_case : remains (mallocs (fun n => (19 <=? n)%nat) 20 bare (Heap 0 1 [])) = [19] /\ remains (mallocs (fun n => (18 <=? n)%nat) 20 bare (Heap 0 1 [])) = [].
Proof. vm_compute. split; reflexivity. Qed.

(** The full claim is false: the very first allocation of a guard can lose its block. *)
Theorem failed_request_refuted : exists N, remains (mallocs (fun n => (N <=? n)%nat) 1 bare (Heap 0 1 [])) = [1] /\ (forall c h, mallocs (fun n => (N <=? n)%nat) 1 bare (Heap 0 1 []) = Thrown c h -> held c = []).
Proof. exists 1%nat. split; [vm_compute; reflexivity|]. intros c h H. vm_compute in H. injection H as <- _. reflexivity. Qed.

Lemma request F c h : fits c h -> forall A (k : Z -> hold -> heap -> left A),
  (F (asked h) = true -> exists h', try_malloc F c h k = Thrown c h' /\ loses c h c h' []) /\
  (F (asked h) = false -> try_malloc F c h k = k (fresh h) c (more h) /\ fits c (more h) /\ loses c h c (more h) [fresh h]).
Proof.
  intros W A k. destruct (fits_none _ _ W) as [N1 N2]. unfold try_malloc, ask. split; intros H; rewrite H.
  - eexists. split; [reflexivity|]. intros b. unfold lost. cbn. tauto.
  - split; [reflexivity|]. split; [apply fits_more, W|]. intros b. unfold lost, more. cbn [live In]. intuition (subst; auto).
Qed.
Lemma loses_trans c h c1 h1 c2 h2 l1 l2 : loses c h c1 h1 l1 -> loses c1 h1 c2 h2 l2 -> loses c h c2 h2 (l1 ++ l2).
Proof. intros H1 H2 b. rewrite (H2 b), (H1 b), in_app_iff. tauto. Qed.
(** unique_init_arena and raii_args_ex make two requests: when the second fails, the block of the first is lost. *)
Theorem pair_loses : forall F c h make, In make [unique_init_arena; raii_args] -> fits c h -> let n := asked h in
  (F n = true -> exists h', make F c h = Thrown c h' /\ loses c h c h' []) /\
  (F n = false -> F (S n) = true -> exists h', make F c h = Thrown c h' /\ loses c h c h' [fresh h]) /\
  (F n = false -> F (S n) = false -> exists h', make F c h = Done (fresh h, fresh h + 1) c h' /\ loses c h c h' [fresh h; fresh h + 1]).
Proof.
  intros F c h make Hm W n.
  assert (E : make F c h = try_malloc F c h (fun u c h => try_malloc F c h (fun a c h => Done (u, a) c h))) by (destruct Hm as [<- |[<- |[]]]; reflexivity).
  rewrite E. destruct (request F c h W _ (fun u c h => try_malloc F c h (fun a c h => Done (u, a) c h))) as [R1 R2].
  split; [exact R1|]. split; intros H0 H1; destruct (R2 H0) as (-> & W' & L'); destruct (request F c (more h) W' _ (fun a c h0 => Done (fresh h, a) c h0)) as [Q1 Q2].
  - destruct (Q1 H1) as (h' & -> & L2). exists h'. split; [reflexivity|]. exact (loses_trans _ _ _ _ _ _ _ _ L' L2).
  - destruct (Q2 H1) as (-> & _ & L2). eexists. split; [reflexivity|]. exact (loses_trans _ _ _ _ _ _ _ _ L' L2).
Qed.
Example pair_loses_case : raii_args (fun n => (n =? 1)%nat) bare (Heap 0 1 []) = Thrown bare (Heap 2 2 [1]) /\ loses bare (Heap 0 1 []) bare (Heap 2 2 [1]) [1].
Proof. split; [reflexivity|]. intros b. unfold lost. cbn. intuition. Qed.

(** thrd_async, once the promise was made (which loses what malloc_full loses): a failing request for the future loses nothing; one for the block
    of the new thread loses the future; a thread that cannot be created loses the future and that block.  When it succeeds the two belong
    to the caller and to the new thread. *)
Theorem async_loses : forall F starts c h p c1 h1, fits c h -> malloc_full F c h = Done p c1 h1 -> fits c1 h1 /\ let n := asked h1 in
  (F n = true -> exists h', thrd_async F starts c h = Thrown c1 h' /\ loses c1 h1 c1 h' []) /\
  (F n = false -> F (S n) = true -> exists h', thrd_async F starts c h = Thrown c1 h' /\ loses c1 h1 c1 h' [fresh h1]) /\
  (F n = false -> F (S n) = false -> exists h', loses c1 h1 c1 h' [fresh h1; fresh h1 + 1] /\
     thrd_async F starts c h = if starts then Done (p, fresh h1, fresh h1 + 1) c1 h' else Thrown c1 h').
Proof.
  intros F starts c h p c1 h1 W E. assert (W1 : fits c1 h1).
  { destruct (malloc_loses F c h W) as (M1 & M2 & M3). destruct (F (asked h)) eqn:F0; [destruct (M1 eq_refl) as (x & X & _); congruence|].
    destruct (shield c) as [q|] eqn:Es; [|destruct (F (S (asked h))) eqn:F1; [destruct (M2 eq_refl eq_refl eq_refl) as (x & X & _); congruence|]];
    (destruct M3 as (c2 & h2 & X & Y & _); [reflexivity|first [discriminate|auto]|]; rewrite E in X; injection X as -> -> ->; exact Y). }
  split; [exact W1|]. intros n. unfold thrd_async. rewrite E.
  destruct (request F c1 h1 W1 _ (fun f c h => try_malloc F c h (fun g c h => if starts then Done (p, f, g) c h else Thrown c h))) as [R1 R2].
  split; [exact R1|]. split; intros H0 H1; destruct (R2 H0) as (-> & W' & L'); destruct (request F c1 (more h1) W' _ (fun g c h0 => if starts then Done (p, fresh h1, g) c h0 else Thrown c h0)) as [Q1 Q2].
  - destruct (Q1 H1) as (h' & -> & L2). exists h'. split; [reflexivity|]. exact (loses_trans _ _ _ _ _ _ _ _ L' L2).
  - destruct (Q2 H1) as (-> & _ & L2). eexists. split; [exact (loses_trans _ _ _ _ _ _ _ _ L' L2)|]. destruct starts; reflexivity.
Qed.
Example async_loses_case : thrd_async (fun _ => false) false bare (Heap 0 1 []) = Thrown (Hold [1] (Some 2) (Some 3) 1) (Heap 5 6 [5; 4; 3; 2; 1]) /\
  live (release (Hold [1] (Some 2) (Some 3) 1) (Heap 5 6 [5; 4; 3; 2; 1])) = [5; 4].
Proof. split; reflexivity. Qed.

(** thrd_scope: without memory for the pool the new scope is lost, without memory for its protector the pool too; without memory for its array
    the pool is handed out but thrd_destroy, which releases what the new scope holds, will not release it. *)
Theorem scope_loses : forall F c h, fits c h -> let n := asked h in let u := fresh h in
  (F n = true -> exists h', thrd_scope F c h = Thrown c h' /\ loses c h c h' []) /\
  (F n = false -> F (S n) = true -> exists h', thrd_scope F c h = Thrown c h' /\ loses c h c h' [u]) /\
  (F n = false -> F (S n) = false -> F (S (S n)) = true -> exists h', thrd_scope F c h = Thrown c h' /\ loses c h c h' [u; u + 1]) /\
  (F n = false -> F (S n) = false -> F (S (S n)) = false -> exists m h', thrd_scope F c h = Done (u, u + 1, m) c h' /\
     forall b, u <= b -> (In b (live (release m (drop u h'))) <-> F (S (S (S n))) = true /\ b = u + 1)).
Proof.
  intros F c h W n u. destruct (request F c h W _ (fun u c h => match malloc_full F bare h with Thrown _ h => Thrown c h | Done p n h => Done (u, p, n) c h end)) as [R1 R2].
  unfold thrd_scope. fold n in R1, R2. split; [exact R1|]. clear R1.
  assert (Wb : fits bare (more h)) by (split; [discriminate|]; split; [intros x []|apply (fits_more _ _ W)]).
  assert (Up : forall h1 l, loses bare (more h) bare h1 l -> loses c h c (more h) [u] -> (forall b, In b l -> u < b) -> loses c h c h1 (u :: l)).
  { intros h1 l H1 H2 Hl b. specialize (H1 b). specialize (H2 b). unfold lost in *. cbn [In held bare kept shield table app] in *.
    assert (In b l -> ~ In b (held c)) by (intros X Y; apply Hl in X; destruct W as (_ & W1 & W2); apply W1, W2 in Y; unfold u in X; lia). tauto. }
  destruct (malloc_loses F bare (more h) Wb) as (M1 & M2 & M3). change (asked (more h)) with (S n) in *. change (fresh (more h)) with (u + 1) in *.
  split; [|split].
  - intros H0 H1. destruct (R2 H0) as (-> & _ & L'). destruct (M1 H1) as (h' & -> & L2). exists h'. split; [reflexivity|]. apply (Up _ _ L2 L'). intros b [].
  - intros H0 H1 H2. destruct (R2 H0) as (-> & _ & L'). destruct (M2 H1 eq_refl H2) as (h' & -> & L2). exists h'. split; [reflexivity|]. apply (Up _ _ L2 L'). intros b [<- |[]]. lia.
  - intros H0 H1 H2. destruct (R2 H0) as (-> & _ & L'). destruct (M3 H1 (fun _ => H2)) as (m & h' & -> & W' & _ & M). exists m, h'. split; [reflexivity|].
    intros b B. rewrite release_in. change (entries bare) with 0%nat in M. change (0 mod 16 =? 0)%nat with true in M. cbn [andb shield bare] in M.
    assert (Lo : forall l, loses bare (more h) m h' l -> lost m (drop u h') b <-> b <> u /\ In b l).
    { intros l H. specialize (H b). unfold lost in *. rewrite drop_in. cbn [held bare kept shield table app more live In] in H.
      assert (K : In b (live h) -> False) by (intros X; apply (proj2 (proj2 W)) in X; unfold u in B; lia). change (fresh h) with u in H. clear -H K.
      destruct (Z.eq_dec b u) as [-> |D]; [tauto|]. assert (u <> b) by congruence. tauto. }
    destruct (F (S (S (S n)))) eqn:F3.
    + destruct M as (M & _ & _). rewrite (Lo _ M). cbn [In]. intuition lia.
    + destruct M as (M & _ & _). rewrite (Lo _ M). cbn [In]. split; [tauto|intros [X _]; discriminate].
Qed.
Example scope_loses_case : thrd_scope (fun n => (n =? 2)%nat) bare (Heap 0 1 []) = Thrown bare (Heap 3 3 [2; 1]).
Proof. reflexivity. Qed.

(** The structure made by raii_array_new is lost in every case, also when no request fails: nothing ever releases it. *)
Theorem array_structure_lost : forall F c h b c' h', fits c h -> raii_array_new F c h = Done b c' h' -> lost c' h' b /\ In b (live (release c' h')).
Proof.
  intros F [k s t e] h b c' h' W E. enough (L : lost c' h' b) by (split; [exact L|apply release_in, L]).
  destruct (fits_none _ _ W) as [N1 N2]. rewrite in_held in N1. cbn [kept shield table] in N1.
  assert (T : forall o, t = Some o -> o < fresh h) by (intros o O; destruct W as (_ & W1 & W2); apply W2, W1, in_held; auto).
  assert (Go : forall s h1, s <> Some (fresh h) -> In (fresh h) (live h1) -> fresh h < fresh h1 ->
    (if (e mod 16 =? 0)%nat then match ask F h1 with (None, h2) => Done (fresh h) (Hold k s t e) h2
       | (Some t', h2) => Done (fresh h) (Hold k s (Some t') (S e)) (match t with None => h2 | Some o => drop o h2 end) end
     else Done (fresh h) (Hold k s t (S e)) h1) = Done b c' h' -> lost c' h' b).
  { intros s' h1 Hs L1 L2 E1. destruct (e mod 16 =? 0)%nat.
    - unfold ask in E1. destruct (F (asked h1)); injection E1 as <- <- <-; split.
      + exact L1.
      + rewrite in_held. cbn [kept shield table]. tauto.
      + destruct t as [o|]; [rewrite drop_in; split; [right; exact L1|intros X; apply N1; right; right; congruence]|right; exact L1].
      + rewrite in_held. cbn [kept shield table]. intros [X|[X|X]]; [tauto..|injection X; lia].
    - injection E1 as <- <- <-. split; [exact L1|]. rewrite in_held. cbn [kept shield table]. tauto. }
  unfold raii_array_new, try_malloc in E. unfold ask in E at 1. destruct (F (asked h)); [discriminate|]. cbn [shield kept table entries] in E. destruct s as [p|].
  - apply (Go (Some p) _) in E; [exact E|tauto|cbn; auto|cbn; lia].
  - unfold ask in E at 1. cbn [asked fresh live] in E. destruct (F (S (asked h))); [discriminate|]. apply (Go (Some (fresh h + 1))) in E; [exact E| |cbn; auto|cbn; lia]. intros [= X]. lia.
Qed.
Example array_structure_case : raii_array_new (fun _ => false) bare (Heap 0 1 []) = Done 1 (Hold [] (Some 2) (Some 3) 1) (Heap 3 4 [3; 2; 1]) /\
  live (release (Hold [] (Some 2) (Some 3) 1) (Heap 3 4 [3; 2; 1])) = [1].
Proof. split; reflexivity. Qed.
Print Assumptions malloc_loses. Print Assumptions exhaustion_exact. Print Assumptions failed_request_refuted. Print Assumptions pair_loses.
Print Assumptions async_loses. Print Assumptions scope_loses. Print Assumptions array_structure_lost.
