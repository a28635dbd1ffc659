(** Splay trees: include/compat/sys/tree.h 59-290. *)
From Verif Require Import BaseLemmas SplayModel SpecTree SpecSplay SplayTree SplayLoop SplayAbs SplayOps SplayRun.
Import ListNotations.

Lemma st_new key m : st key (set_sroot 0 m) SE [].
Proof. repeat split. Qed.
Lemma new_le U key m t l : st key m t l -> incl l U -> (size t <= length U)%nat.
Proof. intros H I. rewrite <- size_elems. apply NoDup_incl_length; [apply once_nodup; exact (st_once key m t l H)|]. destruct H as (_ & _ & -> & _). auto. Qed.

(** C111.  Every history of calls of the macros on a tree initialised with SPLAY_INIT gives the results of a set in the order of the keys, never dereferences NULL or an element
    that is not there, and leaves every element where it was.  [U] are the elements that there are. *)
Theorem splay_trees_are_ordered_sets : forall U cmp key fuel ops rs l m, compares cmp key -> (forall e, In e U -> 0 < e /\ alive m e = true) ->
  (forall o e, In o ops -> sop_elem o = Some e -> In e U) -> sturns key [] ops rs l -> (length U < fuel)%nat ->
  exists m', run_splay cmp fuel ops (set_sroot 0 m) = Ok (rs, m') /\ ordered key l /\ incl l U /\ (forall e, 0 < e -> alive m' e = alive m e).
Proof.
  intros U cmp key fuel ops rs l m CMP AL OU ST F.
  destruct (run_ok cmp key CMP (zlen U + 2) fuel U eq_refl F ops rs [] l ST OU (set_sroot 0 m) SE (st_new key m) AL (incl_nil_l U)) as (m' & t' & E & H & A & I & _).
  exists m'. split; [auto|]. split; [apply H|]. split; [auto|]. exact A.
Qed.

Definition m0 : smem := Smem 5 (fun e => (0 <? e) && (e <? 100)) (fun e => e * 7) (fun e => e + 3) 0.
(** 21 and 31 have the key of 11, and so on. *)
Definition tens (e : Z) : Z := e mod 10.
Definition by_tens (a b : Z) : Z := tens a - tens b.
Definition hist : list sop := [SMin; SForeach; SInsert 3; SInsert 1; SInsert 5; SInsert 13; SInsert 2; SInsert 4; SMin; SMax; SNext 2; SNext 5; SFind 23; SFind 9; SRemove 23; SForeach; SRemove 13; SRemove 5; SInsert 13; SForeach; SNext 2].
Definition hist_rs : list (list Z) := [[0]; []; [0]; [0]; [0]; [3]; [0]; [0]; [1]; [5]; [3]; [0]; [3]; [0]; [23]; [1; 2; 4; 5]; [0]; [5]; [0]; [1; 2; 13; 4]; [13]].
Lemma by_tens_compares : compares by_tens tens.
Proof. intros a b. unfold by_tens. lia. Qed.
Ltac lowhigh := intros ? ?; cbn in *; repeat match goal with H : _ \/ _ |- _ => destruct H | H : False |- _ => destruct H end; subst; cbv; auto.
Lemma hist_turns : sturns tens [] hist hist_rs [1; 2; 13; 4].
Proof.
  unfold hist, hist_rs. apply s_min with (l := []), s_each. apply (s_new tens [] 3 []); [lowhigh|lowhigh|]. apply (s_new tens [] 1 [3]); [lowhigh|lowhigh|]. apply (s_new tens [1; 3] 5 []); [lowhigh|lowhigh|].
  apply (s_dup tens 3 13); [cbn; auto|reflexivity|]. apply (s_new tens [1] 2 [3; 5]); [lowhigh|lowhigh|]. apply (s_new tens [1; 2; 3] 4 [5]); [lowhigh|lowhigh|].
  apply s_min with (l := [1; 2; 3; 4; 5]), s_max with (l := [1; 2; 3; 4; 5]), (s_next tens [1] 2 [3; 4; 5]), (s_next tens [1; 2; 3; 4] 5 []). apply (s_find tens 3 23); [cbn; auto|reflexivity|]. apply (s_lost tens _ 9).
  { intros x J. cbn in J. repeat destruct J as [<- |J]; try contradiction; vm_compute; discriminate. }
  apply (s_del tens [1; 2] 3 [4; 5] 23); [reflexivity|]. apply s_each. apply (s_none tens).
  { intros x J. cbn in J. repeat destruct J as [<- |J]; try contradiction; vm_compute; discriminate. }
  apply (s_del tens [1; 2; 4] 5 [] 5); [reflexivity|]. apply (s_new tens [1; 2] 13 [4]); [lowhigh|lowhigh|]. apply s_each. apply (s_next tens [1] 2 [13; 4]). apply s_nil.
Qed.
Example splay_trees_are_ordered_sets_holds : exists m', run_splay by_tens 30 hist (set_sroot 0 m0) = Ok (hist_rs, m') /\ (forall e, 0 < e -> alive m' e = alive m0 e).
Proof.
  destruct (splay_trees_are_ordered_sets [1; 2; 3; 4; 5; 13; 23; 9] by_tens tens 30 hist hist_rs [1; 2; 13; 4] m0 by_tens_compares) as (m' & E & _ & _ & A).
  - intros e J. cbn in J. repeat destruct J as [<- |J]; try contradiction; split; vm_compute; reflexivity.
  - intros o e J E. cbn in J. repeat destruct J as [<- |J]; try contradiction; cbn in E; try discriminate; injection E as <-; cbn; tauto.
  - exact hist_turns.
  - cbn. lia.
  - eauto.
Qed.
Example hist_computed : match run_splay by_tens 30 hist (set_sroot 0 m0) with Ok (rs, m') => (rs, ticks m') = (hist_rs, 51%nat) | _ => False end.
Proof. vm_compute. reflexivity. Qed.

(** C111, what SPLAY_NEXT relies on: on an empty tree it dereferences NULL, with an element that has been freed it reads that element. *)
Theorem splay_next_preconditions : forall cmp fuel e m, 0 < e -> (fuel <> 0)%nat ->
  (alive m e = true -> sroot m = 0 -> splay_next cmp fuel e m = Undef NullDeref) /\ (alive m e = false -> splay_next cmp fuel e m = Undef WildPointer).
Proof.
  intros cmp fuel e m E0 F. destruct fuel as [|fuel]; [contradiction|]. unfold splay_next, splay. cbn [splay_loop]. unfold compare, there, open_node. cbn. destruct (Z.eqb_spec e 0); [lia|].
  rewrite upd_other by (unfold NODE; lia). split.
  - intros -> ->. reflexivity.
  - intros ->. reflexivity.
Qed.
Example splay_next_preconditions_holds : splay_next by_tens 9 4 (set_sroot 0 m0) = Undef NullDeref /\ splay_next by_tens 9 104 m0 = Undef WildPointer.
Proof. split; apply splay_next_preconditions; (lia || reflexivity). Qed.

(** C112.  After any history on elements [U], calls other than SPLAY_NEXT by itself cost, all together, no more rounds than a constant times (m + n) lg n. *)
Theorem splay_costs_amortised : forall U cmp key fuel ops0 rs0 l0 ops rs l m m1, compares cmp key -> (forall e, In e U -> 0 < e /\ alive m e = true) ->
  (forall o e, In o (ops0 ++ ops) -> sop_elem o = Some e -> In e U) -> sturns key [] ops0 rs0 l0 -> sturns key l0 ops rs l -> (length U < fuel)%nat -> (forall o, In o ops -> is_next o = false) ->
  run_splay cmp fuel ops0 (set_sroot 0 m) = Ok (rs0, m1) ->
  exists m2, run_splay cmp fuel ops m1 = Ok (rs, m2) /\ Z.of_nat (ticks m2) <= Z.of_nat (ticks m1) + 3 * (5 * Z.of_nat (accesses ops rs) + zlen l0) * Z.log2_up (zlen U + 2).
Proof.
  intros U cmp key fuel ops0 rs0 l0 ops rs l m m1 CMP AL OU ST0 ST F N R1.
  destruct (run_ok cmp key CMP (zlen U + 2) fuel U eq_refl F ops0 rs0 [] l0 ST0) with (m := set_sroot 0 m) (t := SE) as (m1' & t1 & E & H & A & I & _); auto using st_new, incl_nil_l.
  { intros o e J. apply OU. rewrite in_app_iff. auto. }
  rewrite R1 in E. injection E as <-.
  destruct (run_ok cmp key CMP (zlen U + 2) fuel U eq_refl F ops rs l0 l ST) with (m := m1) (t := t1) as (m2 & t2 & E2 & H2 & A2 & I2 & C2); auto.
  { intros o e J. apply OU. rewrite in_app_iff. auto. }
  { intros e J. destruct (AL e J). split; [auto|]. rewrite A; auto. }
  exists m2. split; [auto|]. assert (FB : forallb (fun o => negb (is_next o)) ops = true) by (apply forallb_forall; intros o J; rewrite N; auto).
  pose proof (new_le U _ _ _ _ H I). pose proof (st_size key m1 t1 l0 H) as SZ. apply (cost_ticks (zlen U + 2)) in C2; auto; [|lia|unfold wt; lia]. rewrite SZ in C2. lia.
Qed.
Example splay_costs_amortised_holds : exists m1 m2, run_splay by_tens 30 [SInsert 3; SInsert 1; SInsert 5] (set_sroot 0 m0) = Ok ([[0]; [0]; [0]], m1) /\
  run_splay by_tens 30 [SForeach; SMin; SRemove 5] m1 = Ok ([[1; 3; 5]; [1]; [5]], m2) /\ Z.of_nat (ticks m2) <= Z.of_nat (ticks m1) + 3 * (5 * 6 + 3) * 3.
Proof.
  assert (S0 : sturns tens [] [SInsert 3; SInsert 1; SInsert 5] [[0]; [0]; [0]] [1; 3; 5]).
  { apply (s_new tens [] 3 []); [lowhigh|lowhigh|]. apply (s_new tens [] 1 [3]); [lowhigh|lowhigh|]. apply (s_new tens [1; 3] 5 []); [lowhigh|lowhigh|]. apply s_nil. }
  assert (AL : forall e, In e [1; 3; 5] -> 0 < e /\ alive m0 e = true). { intros e J. cbn in J. repeat destruct J as [<- |J]; try contradiction; split; vm_compute; reflexivity. }
  assert (OU : forall o e, In o ([SInsert 3; SInsert 1; SInsert 5] ++ [SForeach; SMin; SRemove 5]) -> sop_elem o = Some e -> In e [1; 3; 5]).
  { intros o e J E. cbn in J. repeat destruct J as [<- |J]; try contradiction; cbn in E; try discriminate; injection E as <-; cbn; tauto. }
  destruct (splay_trees_are_ordered_sets [1; 3; 5] by_tens tens 30 [SInsert 3; SInsert 1; SInsert 5] [[0]; [0]; [0]] [1; 3; 5] m0 by_tens_compares AL (fun o e J => OU o e (in_or_app _ _ _ (or_introl J))) S0) as (m1 & E & _); [cbn; lia|].
  assert (S1 : sturns tens [1; 3; 5] [SForeach; SMin; SRemove 5] [[1; 3; 5]; [1]; [5]] [1; 3]).
  { apply s_each, s_min with (l := [1; 3; 5]). apply (s_del tens [1; 3] 5 [] 5); [reflexivity|]. apply s_nil. }
  destruct (splay_costs_amortised [1; 3; 5] by_tens tens 30 _ _ _ _ _ _ m0 m1 by_tens_compares AL OU S0 S1) as (m2 & E2 & C); [cbn; lia| |exact E|].
  - intros o J. cbn in J. repeat destruct J as [<- |J]; try contradiction; reflexivity.
  - exists m1, m2. auto.
Qed.

(** The tree that 1 to [n] make, inserted in this order. *)
Fixpoint chain (n : nat) : stree := match n with O => SE | S k => SN (chain k) (Z.of_nat n) SE end.
Lemma upto_S n : upto (S n) = upto n ++ [Z.of_nat (S n)].
Proof. unfold upto. rewrite seq_S, map_app. reflexivity. Qed.
Lemma upto_in n x : In x (upto n) <-> 1 <= x <= Z.of_nat n.
Proof.
  induction n as [|n IH]; [cbn; lia|]. rewrite upto_S, in_app_iff, IH. cbn [In]. lia.
Qed.
Lemma upto_len n : length (upto n) = n.
Proof. unfold upto. rewrite map_length, seq_length. reflexivity. Qed.
Lemma sub_compares : compares Z.sub (fun x => x).
Proof. intros a b. lia. Qed.
Lemma grow : forall n m k, (n <= k)%nat -> (forall e, 1 <= e <= Z.of_nat n -> alive m e = true) ->
  exists m', run_splay Z.sub (S k) (map SInsert (upto n)) (set_sroot 0 m) = Ok (map (fun _ => [0]) (upto n), m') /\ st (fun x => x) m' (chain n) (upto n) /\ (forall e, 0 < e -> alive m' e = alive m e).
Proof.
  assert (APP : forall cmp f a b m, run_splay cmp f (a ++ b) m = let* (x, m) := run_splay cmp f a m in let* (y, m) := run_splay cmp f b m in Ok (x ++ y, m)).
  { intros cmp f a. induction a as [|o a IH]; intros b m; cbn [app run_splay bind]; [destruct (run_splay cmp f b m) as [[? ?]| | |]; reflexivity|]. destruct (do_splay cmp f o m) as [[r m1]| | |]; cbn [bind]; try reflexivity. rewrite IH.
    destruct (run_splay cmp f a m1) as [[x m2]| | |]; cbn [bind]; try reflexivity. destruct (run_splay cmp f b m2) as [[y m3]| | |]; reflexivity. }
  induction n as [|n IH]; intros m k K AL; [exists (set_sroot 0 m); repeat split|]. destruct (IH m k ltac:(lia) ltac:(intros; apply AL; lia)) as (m1 & E1 & H1 & A1). rewrite upto_S, !map_app, APP, E1. cbn [bind map run_splay do_splay].
  destruct (insert_ok Z.sub (fun x => x) sub_compares (wt (chain n) + 1) (S k) (Z.of_nat (S n)) m1 (chain n) (upto n) H1) as (x & m2 & t2 & l2 & E & H2 & A & _ & _ & D & SH); [lia|rewrite A1 by lia; apply AL; lia|lia|rewrite upto_len; lia|].
  destruct (D (upto n) []) as (-> & ->); [rewrite app_nil_r; reflexivity|intros y J; apply upto_in in J; lia|intros ? []|]. rewrite E. cbn [bind]. exists m2. split; [reflexivity|]. split; [|intros e P; rewrite A, A1 by auto; reflexivity].
  destruct n as [|n].
  - destruct H2 as (R0 & R & EL & O). destruct t2 as [|a z b]; [discriminate|]. cbn in EL. destruct (elems a) as [|? [|? ?]] eqn:EA; try discriminate. injection EL as -> EB. apply elems_nil in EA, EB. subst a b. split; [exact R0|]. split; [exact R|]. split; [reflexivity|exact O].
  - assert (t2 = chain (S (S n))) as <-; [|exact H2]. cbn [chain]. apply (SH (chain n) (Z.of_nat (S n)) SE 1%nat); [|lia]. cbn [chain spl]. destruct (Z.eqb_spec (Z.of_nat (S (S n)) - Z.of_nat (S n)) 0); [lia|].
    destruct (Z.ltb_spec (Z.of_nat (S (S n)) - Z.of_nat (S n)) 0); [lia|]. reflexivity.
Qed.
Lemma fall : forall n, exists b c, spl (Z.sub 1) (chain (S n)) = (SN SE 1 b, c) /\ (n = 0%nat -> b = SE) /\ (n <> 0%nat -> b <> SE /\ S (spine b) = Nat.div2 (S n)).
Proof.
  intros n. assert (G : forall k, (exists b c, spl (Z.sub 1) (chain (S k)) = (SN SE 1 b, c) /\ (k = 0%nat -> b = SE) /\ (k <> 0%nat -> b <> SE /\ S (spine b) = Nat.div2 (S k))) /\
    (exists b c, spl (Z.sub 1) (chain (S (S k))) = (SN SE 1 b, c) /\ (S k = 0%nat -> b = SE) /\ (S k <> 0%nat -> b <> SE /\ S (spine b) = Nat.div2 (S (S k))))); [|apply G].
  clear n. induction k as [|k (IH0 & IH1)].
  - split; [exists SE, 1%nat; repeat split; congruence|]. exists (SN SE 2 SE), 2%nat. repeat split; congruence.
  - split; [exact IH1|]. destruct IH0 as (b & c & Q & B0 & B1). change (chain (S (S (S k)))) with (SN (SN (chain (S k)) (Z.of_nat (S (S k))) SE) (Z.of_nat (S (S (S k)))) SE). cbn [spl].
    destruct (Z.eqb_spec (1 - Z.of_nat (S (S (S k)))) 0); [lia|]. destruct (Z.ltb_spec (1 - Z.of_nat (S (S (S k)))) 0); [|lia]. destruct (Z.ltb_spec (1 - Z.of_nat (S (S k))) 0); [|lia].
    rewrite Q. cbn [chain]. eexists _, _. split; [reflexivity|]. split; [discriminate|]. intros _. split; [discriminate|]. cbn [spine]. destruct k as [|k]; [rewrite B0 by reflexivity; reflexivity|].
    destruct B1 as (NB & SB); [discriminate|]. destruct b as [|bl y br]; [contradiction|]. cbn [Nat.div2] in *. lia.
Qed.
Lemma again : forall k n m b f, (length (upto n) <= f)%nat -> st (fun x => x) m (SN SE 1 b) (upto n) -> b <> SE ->
  exists m', run_splay Z.sub f (repeat (SNext 1) k) m = Ok (repeat [2] k, m') /\ st (fun x => x) m' (SN SE 1 b) (upto n) /\ ticks m' = (ticks m + k * S (spine b))%nat.
Proof.
  induction k as [|k IH]; intros n m b f F H NB; [exists m; repeat split; try apply H; lia|].
  assert (HL : upto n = [] ++ 1 :: elems b). { destruct H as (_ & _ & <- & _). reflexivity. }
  pose proof H as H'. rewrite HL in H'. destruct (next_ok Z.sub (fun x => x) sub_compares f 1 [] (elems b) m (SN SE 1 b) H') as (m1 & a' & b' & c & E & H1 & EA & EB & Q & T & _); [rewrite <- HL; auto|].
  cbn [spl] in Q. change (1 - 1 =? 0) with true in Q. cbn [negb] in Q. injection Q as <- <- <-. rewrite <- HL in H1. destruct (IH n m1 b f F H1 NB) as (m2 & E2 & H2 & T2).
  cbn [repeat run_splay do_splay]. rewrite E. cbn [bind]. rewrite E2. cbn [bind]. assert (FB : first (elems b) = 2).
  { destruct n as [|[|n]]; [discriminate|cbn in HL; injection HL as HB; symmetry in HB; apply elems_nil in HB; contradiction|]. cbn in HL. injection HL as HB. rewrite <- HB. reflexivity. }
  rewrite FB. exists m2. split; [reflexivity|]. split; [auto|]. lia.
Qed.
(** C112.  SPLAY_NEXT by itself walks down the left edge of the right subtree without splaying it, so the same call can cost half the elements every time: after 1 to n have been inserted
    and SPLAY_NEXT(1) has been called once, each further SPLAY_NEXT(1) takes n/2 rounds. *)
Theorem splay_next_alone_is_linear : forall n k fuel m, (2 <= n < fuel)%nat -> (forall e, 1 <= e <= Z.of_nat n -> alive m e = true) ->
  exists rs m1 m2, run_splay Z.sub fuel (map SInsert (upto n) ++ [SNext 1]) (set_sroot 0 m) = Ok (rs, m1) /\ run_splay Z.sub fuel (repeat (SNext 1) k) m1 = Ok (repeat [2] k, m2) /\
    ticks m2 = (ticks m1 + k * Nat.div2 n)%nat.
Proof.
  intros n k fuel m B AL. destruct fuel as [|f]; [lia|]. destruct (grow n m f ltac:(lia) AL) as (m1 & E1 & H1 & A1). destruct n as [|n]; [lia|].
  assert (HL : exists s, upto (S n) = [] ++ 1 :: s) by (eexists; reflexivity). destruct HL as (s & HL). pose proof H1 as H1'. rewrite HL in H1'.
  destruct (next_ok Z.sub (fun x => x) sub_compares (S f) 1 [] s m1 (chain (S n)) H1') as (m2 & a & b & c & E2 & H2 & EA & EB & Q & T & A2); [rewrite <- HL, upto_len; lia|].
  destruct (fall n) as (b' & c' & Q' & _ & FB). rewrite Q' in Q. injection Q as <- <- <-. destruct FB as (NB & SB); [lia|]. rewrite <- HL in H2.
  destruct (again k (S n) m2 b' (S f)) as (m3 & E3 & _ & T3); auto; [rewrite upto_len; lia|]. exists (map (fun _ => [0]) (upto (S n)) ++ [[first s]]), m2, m3. split; [|split; [exact E3|rewrite <- SB; exact T3]].
  assert (APP : forall cmp f a b m, run_splay cmp f (a ++ b) m = let* (x, m) := run_splay cmp f a m in let* (y, m) := run_splay cmp f b m in Ok (x ++ y, m)).
  { intros cmp f' a'. induction a' as [|o a' IH]; intros b m'; cbn [app run_splay bind]; [destruct (run_splay cmp f' b m') as [[? ?]| | |]; reflexivity|]. destruct (do_splay cmp f' o m') as [[r m4]| | |]; cbn [bind]; try reflexivity. rewrite IH.
    destruct (run_splay cmp f' a' m4) as [[x m5]| | |]; cbn [bind]; try reflexivity. destruct (run_splay cmp f' b m5) as [[y m6]| | |]; reflexivity. }
  rewrite APP, E1. cbn [bind run_splay do_splay]. rewrite E2. reflexivity.
Qed.
Example splay_next_alone_is_linear_holds : match run_splay Z.sub 20 (map SInsert (upto 9) ++ [SNext 1]) (set_sroot 0 m0) with Ok (_, m1) => match run_splay Z.sub 20 (repeat (SNext 1) 10) m1 with Ok (_, m2) => (ticks m2 = ticks m1 + 40)%nat | _ => False end | _ => False end.
Proof. vm_compute. reflexivity. Qed.
(** C112.  With SPLAY_NEXT among the calls the bound of [splay_costs_amortised] does not hold. *)
Theorem splay_next_amortised_refuted : exists U cmp key fuel ops0 rs0 l0 ops rs l m m1 m2, compares cmp key /\ (forall e, In e U -> 0 < e /\ alive m e = true) /\
  (forall o e, In o (ops0 ++ ops) -> sop_elem o = Some e -> In e U) /\ sturns key [] ops0 rs0 l0 /\ sturns key l0 ops rs l /\ (length U < fuel)%nat /\
  run_splay cmp fuel ops0 (set_sroot 0 m) = Ok (rs0, m1) /\ run_splay cmp fuel ops m1 = Ok (rs, m2) /\
  Z.of_nat (ticks m1) + 3 * (5 * Z.of_nat (accesses ops rs) + zlen l0) * Z.log2_up (zlen U + 2) < Z.of_nat (ticks m2).
Proof.
  set (n := 510%nat). set (k := 200%nat). set (m := Smem 0 (fun _ => true) (fun _ => 0) (fun _ => 0) 0).
  assert (T0 : forall j, sturns (fun x => x) [] (map SInsert (upto j) ++ [SNext 1]) (map (fun _ => [0]) (upto j) ++ [[2]]) (upto j) \/ (j < 2)%nat).
  { intros j. destruct (Nat.lt_ge_cases j 2); [auto|left].
    assert (G : forall i p ops rs l, sturns (fun x => x) (map Z.of_nat (seq 1 (p + i))) ops rs l -> sturns (fun x => x) (map Z.of_nat (seq 1 p)) (map SInsert (map Z.of_nat (seq (S p) i)) ++ ops) (map (fun _ => [0]) (map Z.of_nat (seq (S p) i)) ++ rs) l).
    { induction i as [|i IH]; intros p ops rs l SS; [rewrite Nat.add_0_r in SS; exact SS|]. cbn [seq map app]. rewrite <- (app_nil_r (map Z.of_nat (seq 1 p))). apply s_new.
      - intros x J. apply upto_in in J. lia.
      - intros ? [].
      - assert (Q : map Z.of_nat (seq 1 p) ++ [Z.of_nat (S p)] = map Z.of_nat (seq 1 (S p))) by (symmetry; apply upto_S). rewrite Q. apply IH. replace (S p + i)%nat with (p + S i)%nat by lia. exact SS. }
    apply (G j 0%nat). cbn [Nat.add]. fold (upto j). destruct j as [|[|j]]; [lia|lia|]. apply (s_next _ [] 1 (map Z.of_nat (seq 2 (S j)))). apply s_nil. }
  assert (T1 : forall i s, sturns (fun x => x) (1 :: 2 :: s) (repeat (SNext 1) i) (repeat [2] i) (1 :: 2 :: s)).
  { intros i s. induction i as [|i IH]; [apply s_nil|]. cbn [repeat]. apply (s_next _ [] 1 (2 :: s)). exact IH. }
  destruct (splay_next_alone_is_linear n k 600 m ltac:(subst n; lia) (fun _ _ => eq_refl)) as (rs & m1 & m2 & E1 & E2 & T).
  assert (AL : forall e, In e (upto n) -> 0 < e /\ alive m e = true) by (intros e J; apply upto_in in J; split; [lia|reflexivity]).
  assert (OU : forall o e, In o (map SInsert (upto n) ++ [SNext 1]) -> sop_elem o = Some e -> In e (upto n)).
  { intros o e J Q. rewrite in_app_iff, in_map_iff in J. destruct J as [(y & <- & J)|[<- |[]]]; cbn in Q; injection Q as <-; auto. apply upto_in. subst n. lia. }
  destruct (T0 n) as [TT|]; [|subst n; lia]. assert (L : (length (upto n) < 600)%nat) by (rewrite upto_len; subst n; lia).
  destruct (splay_trees_are_ordered_sets (upto n) Z.sub (fun x => x) 600 _ _ _ m sub_compares AL OU TT L) as (m1' & E1' & _). rewrite E1 in E1'. injection E1' as -> <-.
  exists (upto n), Z.sub, (fun x => x), 600%nat, (map SInsert (upto n) ++ [SNext 1]), (map (fun _ => [0]) (upto n) ++ [[2]]), (upto n), (repeat (SNext 1) k), (repeat [2] k), (upto n), m, m1, m2.
  split; [exact sub_compares|]. split; [exact AL|]. split; [|split; [exact TT|split; [exact (T1 k _)|split; [exact L|split; [exact E1|split; [exact E2|]]]]]].
  - intros o e J Q. rewrite in_app_iff in J. destruct J as [J|J]; [eapply OU; eauto|]. apply repeat_spec in J. subst o. cbn in Q. injection Q as <-. apply upto_in. subst n. lia.
  - rewrite T, upto_len. assert (AC : forall i, accesses (repeat (SNext 1) i) (repeat [2] i) = i) by (induction i as [|i IH]; cbn; auto). rewrite AC. subst n k. rewrite Nat2Z.inj_add. change (Z.log2_up (Z.of_nat 510 + 2)) with 9. change (Nat.div2 510) with 255%nat. lia.
Qed.

(** C113.  SPLAY_FOREACH over a tree with elements, with a body that takes each element out of the tree and frees it, reads the freed element: its step is SPLAY_NEXT of the element just freed.
    (There is no SPLAY_FOREACH_SAFE.) *)
Theorem splay_foreach_reads_freed : forall U cmp key fuel ops rs l m m1, compares cmp key -> (forall e, In e U -> 0 < e /\ alive m e = true) ->
  (forall o e, In o ops -> sop_elem o = Some e -> In e U) -> sturns key [] ops rs l -> (length U < fuel)%nat -> run_splay cmp fuel ops (set_sroot 0 m) = Ok (rs, m1) -> l <> [] ->
  splay_weed cmp true fuel fuel m1 = Undef WildPointer.
Proof.
  intros U cmp key fuel ops rs l m m1 CMP AL OU ST F R1 NE.
  destruct (run_ok cmp key CMP (zlen U + 2) fuel U eq_refl F ops rs [] l ST OU (set_sroot 0 m) SE (st_new key m) AL (incl_nil_l U)) as (m1' & t1 & E & H & A & I & _). rewrite R1 in E. injection E as <-.
  pose proof (new_le U _ _ _ _ H I) as LE. unfold splay_weed. pose proof (st_size key m1 t1 l H) as SZ.
  destruct (minmax_ok key (zlen U + 2) fuel (-1) m1 t1 l H (or_introl eq_refl)) as (m2 & t2 & E2 & H2 & A2 & _); [unfold wt; lia|lia|]. rewrite E2. cbn [bind]. change (-1 =? -1) with true. destruct l as [|x s]; [contradiction|]. cbn [first].
  assert (X0 : 0 < x /\ alive m2 x = true). { destruct H2 as (_ & Rep & EL & _). apply (rep_pos _ _ _ Rep). rewrite EL. apply cnt_in. cbn. auto. } destruct X0 as (X0 & XA). destruct fuel as [|f]; [lia|]. cbn [sweed]. destruct (Z.eqb_spec x 0); [lia|].
  pose proof (st_size key m2 t2 _ H2) as SZ2. destruct (remove_ok cmp key CMP (zlen U + 2) (S f) x m2 t2 (x :: s) H2 X0 XA) as (y & m3 & t3 & l3 & E3 & _); [unfold wt; lia|lia|]. rewrite E3. cbn [bind].
  destruct (splay_next_preconditions cmp (S f) x (sfree x m3) X0 ltac:(discriminate)) as (_ & D). rewrite D; [reflexivity|]. cbn. apply upd_same.
Qed.
Example splay_foreach_reads_freed_holds : exists m1, run_splay by_tens 30 hist (set_sroot 0 m0) = Ok (hist_rs, m1) /\ splay_weed by_tens true 30 30 m1 = Undef WildPointer.
Proof.
  assert (AL : forall e, In e [1; 2; 3; 4; 5; 13; 23; 9] -> 0 < e /\ alive m0 e = true) by (intros e J; cbn in J; repeat destruct J as [<- |J]; try contradiction; split; vm_compute; reflexivity).
  assert (OU : forall o e, In o hist -> sop_elem o = Some e -> In e [1; 2; 3; 4; 5; 13; 23; 9]) by (intros o e J E; cbn in J; repeat destruct J as [<- |J]; try contradiction; cbn in E; try discriminate; injection E as <-; cbn; tauto).
  destruct (splay_trees_are_ordered_sets _ by_tens tens 30 hist hist_rs _ m0 by_tens_compares AL OU hist_turns ltac:(cbn; lia)) as (m1 & E & _). exists m1. split; [exact E|].
  eapply splay_foreach_reads_freed; [exact by_tens_compares|exact AL|exact OU|exact hist_turns|cbn; lia|exact E|discriminate].
Qed.
(** C113.  Taking the element out without freeing it does not help: on a tree with one element the step of the loop dereferences NULL. *)
Theorem splay_foreach_remove_last : forall U cmp key fuel ops rs x m m1, compares cmp key -> (forall e, In e U -> 0 < e /\ alive m e = true) ->
  (forall o e, In o ops -> sop_elem o = Some e -> In e U) -> sturns key [] ops rs [x] -> (length U < fuel)%nat -> run_splay cmp fuel ops (set_sroot 0 m) = Ok (rs, m1) ->
  splay_weed cmp false fuel fuel m1 = Undef NullDeref.
Proof.
  intros U cmp key fuel ops rs x m m1 CMP AL OU ST F R1.
  destruct (run_ok cmp key CMP (zlen U + 2) fuel U eq_refl F ops rs [] [x] ST OU (set_sroot 0 m) SE (st_new key m) AL (incl_nil_l U)) as (m1' & t1 & E & H & A & I & _). rewrite R1 in E. injection E as <-.
  pose proof (new_le U _ _ _ _ H I) as LE. unfold splay_weed. pose proof (st_size key m1 t1 _ H) as SZ.
  destruct (minmax_ok key (zlen U + 2) fuel (-1) m1 t1 [x] H (or_introl eq_refl)) as (m2 & t2 & E2 & H2 & A2 & _); [unfold wt; lia|lia|]. rewrite E2. cbn [bind]. change (-1 =? -1) with true. cbn [first].
  assert (X0 : 0 < x /\ alive m2 x = true). { destruct H2 as (_ & Rep & EL & _). apply (rep_pos _ _ _ Rep). rewrite EL. apply cnt_in. cbn. auto. } destruct X0 as (X0 & XA). destruct fuel as [|f]; [lia|]. cbn [sweed]. destruct (Z.eqb_spec x 0); [lia|].
  pose proof (st_size key m2 t2 _ H2) as SZ2. destruct (remove_ok cmp key CMP (zlen U + 2) (S f) x m2 t2 [x] H2 X0 XA) as (y & m3 & t3 & l3 & E3 & H3 & A3 & _ & D & _); [unfold wt; lia|lia|]. rewrite E3. cbn [bind].
  destruct (D [] x [] eq_refl eq_refl) as (_ & ->). assert (t3 = SE) as -> by (apply elems_nil; apply H3). 
  destruct (splay_next_preconditions cmp (S f) x m3 X0 ltac:(discriminate)) as (N & _). rewrite N; [reflexivity|rewrite A3; auto|apply H3].
Qed.
Example splay_foreach_remove_last_holds : exists m1, run_splay Z.sub 20 [SInsert 7] (set_sroot 0 m0) = Ok ([[0]], m1) /\ splay_weed Z.sub false 20 20 m1 = Undef NullDeref.
Proof.
  assert (AL : forall e, In e [7] -> 0 < e /\ alive m0 e = true) by (intros e [<- |[]]; split; reflexivity).
  assert (OU : forall o e, In o [SInsert 7] -> sop_elem o = Some e -> In e [7]) by (intros o e [<- |[]] E; injection E as <-; cbn; auto).
  assert (S0 : sturns (fun x => x) [] [SInsert 7] [[0]] [7]) by (apply (s_new _ [] 7 []); [lowhigh|lowhigh|apply s_nil]).
  destruct (splay_trees_are_ordered_sets [7] Z.sub (fun x => x) 20 _ _ _ m0 sub_compares AL OU S0 ltac:(cbn; lia)) as (m1 & E & _). exists m1. split; [exact E|].
  eapply splay_foreach_remove_last; [exact sub_compares|exact AL|exact OU|exact S0|cbn; lia|exact E].
Qed.
(** C113.  With more elements such a loop may visit them out of order, or end normally without having visited them all: with 1, 3, 4 and 5 in the tree it visits 1, 3 and 5, and 4 stays. *)
Theorem splay_foreach_remove_refuted : exists ops seen rest m, run_splay Z.sub 20 ops (set_sroot 0 m0) = Ok ([[0]; [0]; [0]; [0]; [5]], m) /\
  match splay_foreach Z.sub 20 20 m with Ok (r, _) => r = [1; 3; 4; 5] | _ => False end /\
  match splay_weed Z.sub false 20 20 m with Ok (s, m') => s = seen /\ match splay_foreach Z.sub 20 20 m' with Ok (r, _) => r = rest | _ => False end | _ => False end /\ seen = [1; 3; 5] /\ rest = [4].
Proof.
  set (ops := [SInsert 4; SInsert 5; SInsert 3; SInsert 1; SFind 5]).
  assert (C : match run_splay Z.sub 20 ops (set_sroot 0 m0) with Ok (rs, m) => rs = [[0]; [0]; [0]; [0]; [5]] /\ match splay_foreach Z.sub 20 20 m with Ok (r, _) => r = [1; 3; 4; 5] | _ => False end /\
     match splay_weed Z.sub false 20 20 m with Ok (s, m') => s = [1; 3; 5] /\ match splay_foreach Z.sub 20 20 m' with Ok (r, _) => r = [4] | _ => False end | _ => False end | _ => False end) by (vm_compute; repeat split; reflexivity).
  destruct (run_splay Z.sub 20 ops (set_sroot 0 m0)) as [[rs m]| | |] eqn:E; try contradiction. destruct C as (-> & C0 & C). exists ops, [1; 3; 5], [4], m. split; [exact E|]. split; [exact C0|]. split; [exact C|auto].
Qed.
Print Assumptions splay_trees_are_ordered_sets.
Print Assumptions splay_next_preconditions.
Print Assumptions splay_costs_amortised.
Print Assumptions splay_next_alone_is_linear.
Print Assumptions splay_next_amortised_refuted.
Print Assumptions splay_foreach_reads_freed.
Print Assumptions splay_foreach_remove_last.
Print Assumptions splay_foreach_remove_refuted.
