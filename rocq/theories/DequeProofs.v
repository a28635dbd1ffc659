(** Invariant of DequeModel for executions in which, between the load of top and the store to bottom of a take that saw more than one item,
    thieves do not take all items but the owner's. *)
From Coq Require Import Permutation.
From Verif Require Import BaseLemmas DequeModel.

(** One step, during which top stays below the owner's item if the owner is between them and saw other items. *)
Definition calm_step (t : option nat) (q q' : deque) : Prop := dstep t q = Some (Ok q') /\ (forall b x, opos q = T2 b x -> x < b -> top q' < b).
Inductive calm (a : deque) : deque -> Prop :=
| calm_refl : calm a a
| calm_more t b c : calm a b -> calm_step t b c -> calm a c.

Fixpoint range (lo : Z) (n : nat) : list Z := match n with O => [] | S n => lo :: range (lo + 1) n end.
Lemma range_snoc lo n : range lo (S n) = range lo n ++ [lo + Z.of_nat n].
Proof. revert lo. induction n as [|n IH]; intros lo; [cbn; do 2 f_equal; lia|]. change (range lo (S (S n))) with (lo :: range (lo + 1) (S n)). rewrite IH. cbn [range app]. do 3 f_equal. lia. Qed.
Lemma in_range i lo n : In i (range lo n) <-> lo <= i < lo + Z.of_nat n.
Proof. revert lo. induction n as [|n IH]; intros lo; cbn [range In]; [lia|]. rewrite IH. lia. Qed.
(** The items between two indices. *)
Definition content (a : warray) (lo hi : Z) : list (option Z) := map (cell a) (range lo (Z.to_nat (hi - lo))).
Lemma content_first a lo hi : lo < hi -> content a lo hi = cell a lo :: content a (lo + 1) hi.
Proof. intros H. unfold content. replace (Z.to_nat (hi - lo)) with (S (Z.to_nat (hi - (lo + 1)))) by lia. reflexivity. Qed.
Lemma content_last a lo hi : lo <= hi -> content a lo (hi + 1) = content a lo hi ++ [cell a hi].
Proof. intros H. unfold content. replace (Z.to_nat (hi + 1 - lo)) with (S (Z.to_nat (hi - lo))) by lia. rewrite range_snoc, map_app. cbn [map]. do 3 f_equal. lia. Qed.
Lemma content_empty a lo hi : hi <= lo -> content a lo hi = [].
Proof. intros H. unfold content. replace (Z.to_nat (hi - lo)) with 0%nat by lia. reflexivity. Qed.
Lemma content_ext a a' lo hi : (forall i, lo <= i < hi -> cell a' i = cell a i) -> content a' lo hi = content a lo hi.
Proof. intros H. unfold content. apply map_ext_in. intros i Hi. apply in_range in Hi. apply H. lia. Qed.

(** ** Slots *)
Lemma mod_differs i j n : 0 < n -> i < j < i + n -> i mod n <> j mod n.
Proof.
  intros Hn H E. assert (X : (j - i) mod n = 0) by (rewrite Zminus_mod, E, Z.sub_diag; apply Z.mod_0_l; lia). rewrite Z.mod_small in X by lia. lia.
Qed.
Lemma cell_put a i w : 0 < a_size a -> cell (put_cell a i w) i = Some w.
Proof. intros H. unfold cell, put_cell. cbn [a_size a_buf]. rewrite Z.eqb_refl. reflexivity. Qed.
Lemma cell_put_other a i w k : 0 < a_size a -> k < i < k + a_size a -> cell (put_cell a i w) k = cell a k.
Proof. intros H K. unfold cell, put_cell. cbn [a_size a_buf]. destruct (Z.eqb_spec (k mod a_size a) (i mod a_size a)) as [E|E]; [|reflexivity]. elim (mod_differs k i (a_size a) H K E). Qed.
Lemma copy_size n : forall i a new, a_size (copy n i a new) = a_size new.
Proof. induction n as [|n IH]; intros; cbn [copy]; [reflexivity|]. rewrite IH. reflexivity. Qed.
Lemma copy_before n : forall i a new k, 0 < a_size new -> k < i -> i + Z.of_nat n <= k + a_size new -> cell (copy n i a new) k = cell new k.
Proof.
  induction n as [|n IH]; intros i a new k H K L; cbn [copy]; [reflexivity|]. rewrite IH by (cbn [a_size]; lia). unfold cell at 1 3. cbn [a_size a_buf].
  destruct (Z.eqb_spec (k mod a_size new) (i mod a_size new)) as [E|E]; [|reflexivity]. elim (mod_differs k i (a_size new)); [exact H|lia|exact E].
Qed.
Lemma copy_cell n : forall i a new k, 0 < a_size new -> Z.of_nat n <= a_size new -> i <= k < i + Z.of_nat n -> cell (copy n i a new) k = cell a k.
Proof.
  induction n as [|n IH]; intros i a new k H L K; [lia|]. cbn [copy]. destruct (Z.eq_dec k i) as [->|N].
  - rewrite copy_before by (cbn [a_size]; lia). unfold cell at 1. cbn [a_size a_buf]. rewrite Z.eqb_refl. reflexivity.
  - apply IH; cbn [a_size]; lia.
Qed.
Lemma cur_snoc q l a : arrays q = l ++ [a] -> cur q = a.
Proof. intros H. unfold cur. rewrite H. apply last_last. Qed.

(** ** The invariant *)
Definition bot (q : deque) : Z :=
  match opos q with T3 b t => if t <? b then b else b + 1 | T4 b _ _ => b + 1 | T5 b _ => b + 1 | _ => bottom q end.
(** What the owner has taken but not returned yet. *)
Definition hand (q : deque) : list (option Z) :=
  match opos q with T3 b t => if t <? b then [cell (cur q) b] else [] | T5 _ (Item w) => [Some w] | _ => [] end.
Definition items (l : list wres) : list (option Z) := flat_map (fun r => match r with Item w => [Some w] | _ => [] end) l.
Definition no_junk (l : list wres) : Prop := Forall (fun r => r <> Junk) l.
Fixpoint pushes (l : list owner_op) : Z := match l with [] => 0 | Push _ :: l => 1 + pushes l | Take :: l => pushes l end.
Definition pushing (q : deque) : Z := match opos q with P1 _ _ | P2 _ _ _ | R1 _ _ | R2 _ _ _ | P4 _ _ | P5 _ _ => 1 | _ => 0 end.
Definition first_push (l : list owner_op) : Prop := match l with Take :: _ => False | _ => True end.
Definition LIMIT : Z := 2 ^ 63.
Definition owner_ok (q : deque) : Prop :=
  match opos q with
  | OIdle => 1 <= bottom q \/ first_push (oprog q)
  | P1 w b => b = bottom q
  | P2 w b t => b = bottom q /\ 0 <= t <= top q
  | R1 w b => b = bottom q /\ a_size (cur q) < LIMIT
  | R2 w b t => b = bottom q /\ 0 <= t <= top q /\ b - t <= a_size (cur q) < LIMIT
  | P4 w b => b = bottom q /\ b - top q < a_size (cur q)
  | P5 w b => b = bottom q /\ b - top q < a_size (cur q) /\ cell (cur q) b = Some w
  | T1 b => b = bottom q - 1 /\ 0 <= b
  | T2 b t => b = bottom q - 1 /\ 0 <= b /\ 0 <= t <= top q /\ (t < b -> top q < b)
  | T3 b t => b = bottom q /\ 0 <= b /\ 0 <= t <= top q /\ (t < b -> cell (cur q) b <> None)
  | T4 b t x => b = bottom q /\ 0 <= b /\ t = b /\ b <= top q /\ x = cell (cur q) b
  | T5 b r => b = bottom q /\ 0 <= b /\ top q = b + 1 /\ r <> Junk
  end.
Definition thief_ok (q : deque) (pc : tpc) : Prop :=
  match pc with
  | S0 => True
  | S1 t => 0 <= t <= top q
  | S2 t => 0 <= t <= top q /\ (top q = t -> t < bot q)
  | S3 t k => 0 <= t <= top q /\ (top q = t -> t < bot q) /\ exists a, nth_error (arrays q) k = Some a /\ (top q = t -> cell a t = cell (cur q) t)
  | S4 t x => 0 <= t <= top q /\ (top q = t -> t < bot q /\ x = cell (cur q) t)
  end.
Record inv (q : deque) : Prop := Inv {
  i_arrays : exists l a, arrays q = l ++ [a];
  i_sizes : Forall (fun a => 0 < a_size a < 2 ^ 64) (arrays q);
  i_bounds : 0 <= top q <= bot q /\ bot q <= top q + a_size (cur q);
  i_count : bot q + pushing q + pushes (oprog q) < LIMIT;
  i_cells : forall i, top q <= i < bot q -> cell (cur q) i <> None;
  i_items : Permutation (map Some (pushed q)) (items (took q) ++ items (stole q) ++ hand q ++ content (cur q) (top q) (bot q));
  i_junk : no_junk (took q) /\ no_junk (stole q);
  i_owner : owner_ok q;
  i_thieves : Forall (thief_ok q) (thieves q) }.

Lemma pushes_nonneg l : 0 <= pushes l.
Proof. induction l as [|[w|] l IH]; cbn [pushes]; lia. Qed.
Lemma cur_size q : inv q -> 0 < a_size (cur q) < 2 ^ 64.
Proof. intros I. destruct (i_arrays q I) as (l & a & E). rewrite (cur_snoc q l a E). pose proof (i_sizes q I) as F. rewrite E in F. apply Forall_app in F. destruct F as (_ & F). inversion F; assumption. Qed.
Lemma pushing_bounds q : 0 <= pushing q <= 1.
Proof. unfold pushing. destruct (opos q); lia. Qed.

Lemma sett_forall (P : tpc -> Prop) l i x : Forall P l -> P x -> Forall P (sett l i x).
Proof.
  intros F X. unfold sett. apply Forall_app. split; [apply Forall_forall; intros y Hy; rewrite Forall_forall in F; apply F; rewrite <- (firstn_skipn i l); apply in_or_app; auto|].
  destruct (skipn i l) as [|a r] eqn:E; [constructor|]. constructor; [exact X|]. apply Forall_forall. intros y Hy. rewrite Forall_forall in F. apply F. rewrite <- (firstn_skipn i l), E. apply in_or_app. right. right. exact Hy.
Qed.
Lemma items_app l m : items (l ++ m) = items l ++ items m.
Proof. apply flat_map_app. Qed.

(** ** Thieves *)
(** Steps of a thief that change nothing shared but its own place, and perhaps report EMPTY or ABORT. *)
Lemma same_inv q pcs st : inv q -> Forall (thief_ok q) pcs -> items st = items (stole q) -> no_junk st ->
  inv (Deque (top q) (bottom q) (arrays q) (oprog q) (opos q) pcs (pushed q) (took q) st).
Proof.
  intros [A B C D E F G H K] P Q J. set (q' := Deque _ _ _ _ _ _ _ _ _).
  assert (X : bot q' = bot q) by reflexivity. assert (Y : hand q' = hand q) by reflexivity.
  constructor; try assumption.
  - unfold q'. cbn [took stole pushed]. rewrite Q. exact F.
  - split; [apply G|exact J].
Qed.
Lemma steal_inv q i q' : inv q -> calm_step (Some i) q q' -> inv q'.
Proof.
  intros I (H & W). cbn [dstep] in H. unfold sstep in H. destruct (nth_error (thieves q) i) as [pc|] eqn:N; try discriminate.
  assert (Ok1 : thief_ok q pc) by (pose proof (i_thieves q I) as F; rewrite Forall_forall in F; apply F; eapply nth_error_In; eauto).
  pose proof (i_bounds q I) as Bd. pose proof (i_count q I) as Cn. pose proof (pushes_nonneg (oprog q)) as Pn. pose proof (pushing_bounds q) as Pb.
  assert (Hb : bottom q <= bot q).
  { pose proof (i_owner q I) as O. unfold owner_ok in O. unfold bot. destruct (opos q) as [ | | | | | | | | |b t|b t x|b r]; try lia. destruct (Z.ltb_spec t b); lia. }
  assert (Keep : forall p, thief_ok q p -> inv (thief_at q i p)).
  { intros p Hp. apply (same_inv q _ (stole q) I); [|reflexivity|apply (i_junk q I)]. apply sett_forall; [apply (i_thieves q I)|exact Hp]. }
  assert (Fail : forall r, (r = Empty \/ r = Abort) -> inv (stealing q i (top q) r)).
  { intros r Hr. apply (same_inv q _ (stole q ++ [r]) I); [apply sett_forall; [apply (i_thieves q I)|exact Logic.I]| |].
    - rewrite items_app. destruct Hr as [-> | -> ]; cbn [items flat_map]; rewrite app_nil_r; reflexivity.
    - apply Forall_app. split; [apply (i_junk q I)|]. constructor; [destruct Hr; congruence|constructor]. }
  injection H as H. destruct pc as [ |t|t|t k|t x]; cbn [thief_ok] in Ok1.
  - injection H as <-. apply Keep. cbn [thief_ok]. lia.
  - destruct (Z.ltb_spec t (bottom q)) as [L|L]; injection H as <-; [|apply Fail; auto]. apply Keep. cbn [thief_ok]. lia.
  - injection H as <-. apply Keep. cbn [thief_ok]. destruct (i_arrays q I) as (l & a & E). split; [apply Ok1|]. split; [apply Ok1|]. exists a. rewrite E, app_length. cbn [length].
    rewrite Nat.add_1_r. cbn [Nat.pred]. rewrite nth_error_app2, Nat.sub_diag by lia. split; [reflexivity|]. intros _. rewrite (cur_snoc q l a E). reflexivity.
  - destruct Ok1 as (T & L & a & Na & Ca). rewrite Na in H. destruct (a_size a =? 0); try discriminate. injection H as <-. apply Keep. cbn [thief_ok]. split; [exact T|]. auto.
  - destruct Ok1 as (T & L). destruct (Z.eqb_spec (top q) t) as [E|E]; injection H as <-; [|apply Fail; auto].
    destruct (L E) as (Lt & ->). clear L. unfold LIMIT in Cn. replace (u64 (t + 1)) with (t + 1) in * by (unfold u64; rewrite Z.mod_small; lia).
    pose proof (i_cells q I t) as Ct. destruct (cell (cur q) t) as [w|] eqn:Cw; [|elim Ct; [lia|reflexivity]]. clear Ct. cbn [res_of] in *.
    set (q' := stealing q i (t + 1) (Item w)) in *.
    assert (X : bot q' = bot q) by reflexivity. assert (Y : hand q' = hand q) by reflexivity. assert (Z1 : cur q' = cur q) by reflexivity. assert (Z2 : top q' = t + 1) by reflexivity.
    destruct I as [A B C D Ei F G O K]. constructor; try assumption.
    + rewrite X, Z1, Z2. lia.
    + intros j. rewrite X, Z1, Z2. intros Hj. apply Ei. lia.
    + rewrite X, Y, Z1, Z2. change (pushed q') with (pushed q). change (took q') with (took q). change (stole q') with (stole q ++ [Item w]). rewrite items_app. cbn [items flat_map app].
      rewrite E, content_first in F by lia. rewrite F, Cw. rewrite <- !app_assoc. do 2 apply Permutation_app_head. cbn [app]. symmetry. apply Permutation_middle.
    + split; [apply G|]. change (stole q') with (stole q ++ [Item w]). apply Forall_app. split; [apply G|]. constructor; [discriminate|constructor].
    + unfold owner_ok in *. rewrite Z2, Z1. change (opos q') with (opos q). change (bottom q') with (bottom q). change (oprog q') with (oprog q). unfold bot in Lt.
      destruct (opos q) as [ | | | | | | |b|b y|b y|b y x|b r] eqn:Po; try lia; try (destruct O as (O1 & O2 & O3); repeat split; try assumption; lia).
      * specialize (W b y eq_refl). rewrite Z2 in W. lia.
      * destruct O as (O1 & O2 & O3 & O4). repeat split; try assumption; lia.
      * destruct O as (O1 & O2 & O3 & O4 & O5). repeat split; try assumption; lia.
    + change (thieves q') with (sett (thieves q) i S0). apply sett_forall; [|exact Logic.I]. eapply Forall_impl; [|exact K]. intros p Hp.
      destruct p as [ |s|s|s k|s x]; cbn [thief_ok] in *; rewrite ?Z2.
      * exact Logic.I.
      * lia.
      * lia.
      * destruct Hp as (P1 & P2 & a & P3 & P4). split; [lia|]. split; [lia|]. exists a. split; [exact P3|]. lia.
      * destruct Hp as (P1 & P2). split; [lia|]. lia.
Qed.

(** ** The owner *)
Lemma thieves_same q q' : top q' = top q -> bot q <= bot q' -> arrays q' = arrays q -> Forall (thief_ok q) (thieves q) -> Forall (thief_ok q') (thieves q).
Proof.
  intros T B A F. assert (C : cur q' = cur q) by (unfold cur; rewrite A; reflexivity). eapply Forall_impl; [|exact F].
  intros [ |t|t|t k|t x] H; cbn [thief_ok] in *; rewrite ?T, ?A, ?C; try lia.
  - destruct H as (H1 & H2 & a & H3 & H4). split; [lia|]. split; [lia|]. exists a. split; assumption.
  - destruct H as (H1 & H2). split; [lia|]. intros E. destruct (H2 E). split; [lia|assumption].
Qed.
(** The owner only moves on: same memory. *)
Lemma moves_inv q l pc : inv q -> let q' := Deque (top q) (bottom q) (arrays q) l pc (thieves q) (pushed q) (took q) (stole q) in
  bot q' = bot q -> hand q' = hand q -> pushing q' + pushes l = pushing q + pushes (oprog q) -> owner_ok q' -> inv q'.
Proof.
  intros I q' B Hd Pu O. assert (C : cur q' = cur q) by reflexivity. destruct I as [A1 A2 A3 A4 A5 A6 A7 A8 A9]. constructor; try assumption.
  - rewrite B, C. exact A3.
  - rewrite B. change (oprog q') with l. lia.
  - intros i. rewrite B, C. apply A5.
  - rewrite B, C, Hd. exact A6.
  - apply (thieves_same q); [reflexivity|lia|reflexivity|exact A9].
Qed.
(** take returns [r], which the owner had in hand. *)
Lemma returns_inv q b r : inv q -> let q' := Deque (top q) b (arrays q) (oprog q) OIdle (thieves q) (pushed q) (took q ++ [r]) (stole q) in
  b = bot q -> 1 <= b -> pushing q = 0 -> hand q = items [r] -> r <> Junk -> inv q'.
Proof.
  intros I q' B B1 Pu Hd J. assert (C : cur q' = cur q) by reflexivity. assert (B' : bot q' = bot q) by (rewrite <- B; reflexivity).
  destruct I as [A1 A2 A3 A4 A5 A6 A7 A8 A9]. constructor; try assumption.
  - rewrite B', C. exact A3.
  - rewrite B'. change (pushing q') with 0. change (oprog q') with (oprog q). lia.
  - intros i. rewrite B', C. apply A5.
  - rewrite B', C. change (hand q') with (@nil (option Z)). change (took q') with (took q ++ [r]). change (stole q') with (stole q). change (pushed q') with (pushed q). change (top q') with (top q).
    rewrite items_app, <- Hd. rewrite A6. rewrite <- !app_assoc. apply Permutation_app_head. cbn [app]. rewrite !app_assoc. apply Permutation_app_tail. apply Permutation_app_comm.
  - split; [|apply A7]. apply Forall_app. split; [apply A7|]. constructor; [exact J|constructor].
  - cbn [owner_ok opos q']. left. exact B1.
  - apply (thieves_same q); [reflexivity|lia|reflexivity|exact A9].
Qed.

Lemma u64_small x : 0 <= x < 2 ^ 64 -> u64 x = x.
Proof. intros H. unfold u64. apply Z.mod_small. exact H. Qed.
Lemma owner_inv q q' : inv q -> ostep q = Some (Ok q') -> inv q'.
Proof.
  intros I H. pose proof (i_owner q I) as O. pose proof (i_bounds q I) as Bd. pose proof (i_count q I) as Cn. pose proof (pushes_nonneg (oprog q)) as Pn. pose proof (cur_size q I) as Sz. assert (Lm : LIMIT < 2 ^ 64) by reflexivity.
  unfold ostep in H. unfold owner_ok in O. destruct (opos q) as [ |w b|w b t|w b|w b t|w b|w b|b|b t|b t|b t x|b r] eqn:Po.
  - destruct (oprog q) as [|[w|] l] eqn:Pr; try discriminate.
    + injection H as <-. apply moves_inv; [exact I|unfold bot; rewrite Po; reflexivity|unfold hand; rewrite Po; reflexivity| |reflexivity]. unfold pushing. rewrite Po, Pr. cbn [pushes opos]. lia.
    + injection H as <-. destruct O as [O|O]; [|destruct O]. unfold bot in Bd, Cn. rewrite Po in Bd, Cn. unfold pushing in Cn. rewrite Po in Cn.
      rewrite u64_small by lia. apply moves_inv; [exact I|unfold bot; rewrite Po; reflexivity|unfold hand; rewrite Po; reflexivity| |]; [unfold pushing; rewrite Po, Pr; reflexivity|]. cbn [owner_ok opos bottom]. lia.
  - injection H as <-. apply moves_inv; [exact I|unfold bot; rewrite Po; reflexivity|unfold hand; rewrite Po; reflexivity|unfold pushing; rewrite Po; reflexivity|]. cbn [owner_ok opos bottom top]. lia.
  - unfold bot in Bd, Cn. rewrite Po in Bd, Cn. unfold pushing in Cn. rewrite Po in Cn. rewrite !u64_small in H by lia.
    injection H as <-. destruct (Z.ltb_spec (a_size (cur q) - 1) (b - t)) as [L|L].
    + apply moves_inv; [exact I|unfold bot; rewrite Po; reflexivity|unfold hand; rewrite Po; reflexivity|unfold pushing; rewrite Po; reflexivity|]. unfold owner_ok. cbn [opos bottom]. change (cur _) with (cur q). lia.
    + apply moves_inv; [exact I|unfold bot; rewrite Po; reflexivity|unfold hand; rewrite Po; reflexivity|unfold pushing; rewrite Po; reflexivity|]. unfold owner_ok. cbn [opos bottom top]. change (cur _) with (cur q). lia.
  - unfold bot in Bd, Cn. rewrite Po in Bd, Cn. injection H as <-. apply moves_inv; [exact I|unfold bot; rewrite Po; reflexivity|unfold hand; rewrite Po; reflexivity|unfold pushing; rewrite Po; reflexivity|]. unfold owner_ok. cbn [opos bottom top]. change (cur _) with (cur q). lia.
  - (* resize *)
    destruct (Z.eqb_spec (a_size (cur q)) 0) as [E|_]; try discriminate. injection H as <-. destruct O as (Ob & Ot & Os). set (n := resized (cur q) t b). set (q' := with_arrays q _ _).
    assert (Lim : LIMIT * 2 = 2 ^ 64) by reflexivity. assert (Ns : a_size n = a_size (cur q) * 2) by (unfold n, resized; rewrite copy_size; cbn [a_size]; apply u64_small; lia).
    assert (C : cur q' = n) by (apply (cur_snoc q' (arrays q)); reflexivity). assert (B : bot q' = bottom q) by reflexivity. assert (B' : bot q = bottom q) by (unfold bot; rewrite Po; reflexivity).
    assert (Ce : forall i, top q <= i < bottom q -> cell n i = cell (cur q) i) by (intros i Hi; unfold n, resized; rewrite u64_small by lia; apply copy_cell; cbn [a_size]; lia).
    unfold pushing in Cn. rewrite Po in Cn. destruct I as [A1 A2 A3 A4 A5 A6 A7 A8 A9]. rewrite B' in *. constructor; try assumption.
    + exists (arrays q), n. reflexivity.
    + change (arrays q') with (arrays q ++ [n]). apply Forall_app. split; [exact A2|]. constructor; [lia|constructor].
    + rewrite B, C. change (top q') with (top q). lia.
    + rewrite B, C. change (top q') with (top q). intros i Hi. rewrite Ce by exact Hi. apply A5, Hi.
    + rewrite B, C. change (top q') with (top q). change (hand q') with (@nil (option Z)). unfold hand in A6. rewrite Po in A6. rewrite (content_ext (cur q) n) by exact Ce. exact A6.
    + unfold owner_ok. change (opos q') with (P4 w b). cbv iota beta. change (bottom q') with (bottom q). change (top q') with (top q). rewrite C. lia.
    + change (thieves q') with (thieves q). eapply Forall_impl; [|exact A9]. intros [ |s|s|s k|s x] Hs; cbn [thief_ok] in *; rewrite ?B, ?C; change (top q') with (top q); rewrite ?B' in Hs.
      * exact Logic.I.
      * exact Hs.
      * exact Hs.
      * destruct Hs as (H1 & H2 & a & H3 & H4). split; [lia|]. split; [lia|]. exists a. split; [change (arrays q') with (arrays q ++ [n]); rewrite nth_error_app1; [exact H3|apply nth_error_Some; congruence]|]. intros E2. rewrite Ce by lia. auto.
      * destruct Hs as (H1 & H2). split; [lia|]. intros E2. destruct (H2 E2) as (H3 & H4). split; [lia|]. rewrite Ce by lia. exact H4.
  - (* store to the buffer *)
    destruct (Z.eqb_spec (a_size (cur q)) 0) as [E|_]; try discriminate. injection H as <-. destruct O as (Ob & Os). set (n := put_cell (cur q) b w). set (q' := with_arrays q _ _).
    assert (C : cur q' = n) by (apply (cur_snoc q' (removelast (arrays q))); reflexivity). assert (B : bot q' = bottom q) by reflexivity. assert (B' : bot q = bottom q) by (unfold bot; rewrite Po; reflexivity).
    assert (Ce : forall i, top q <= i < bottom q -> cell n i = cell (cur q) i) by (intros i Hi; apply cell_put_other; lia).
    unfold pushing in Cn. rewrite Po in Cn. destruct I as [A1 A2 A3 A4 A5 A6 A7 A8 A9]. rewrite B' in *. destruct A1 as (l & a & Al). assert (Rl : removelast (arrays q) = l) by (rewrite Al; apply removelast_last). assert (Ca : cur q = a) by (apply (cur_snoc q l a Al)).
    constructor; try assumption.
    + exists (removelast (arrays q)), n. reflexivity.
    + change (arrays q') with (removelast (arrays q) ++ [n]). rewrite Rl. rewrite Al in A2. apply Forall_app in A2. apply Forall_app. split; [apply A2|]. constructor; [exact Sz|constructor].
    + rewrite B, C. change (top q') with (top q). change (a_size n) with (a_size (cur q)). lia.
    + rewrite B, C. change (top q') with (top q). intros i Hi. rewrite Ce by exact Hi. apply A5, Hi.
    + rewrite B, C. change (top q') with (top q). change (hand q') with (@nil (option Z)). unfold hand in A6. rewrite Po in A6. rewrite (content_ext (cur q) n) by exact Ce. exact A6.
    + unfold owner_ok. change (opos q') with (P5 w b). cbv iota beta. change (bottom q') with (bottom q). change (top q') with (top q). rewrite C. split; [exact Ob|]. split; [exact Os|]. apply cell_put. lia.
    + change (thieves q') with (thieves q). eapply Forall_impl; [|exact A9]. intros [ |s|s|s k|s x] Hs; cbn [thief_ok] in *; rewrite ?B, ?C; change (top q') with (top q); rewrite ?B' in Hs.
      * exact Logic.I.
      * exact Hs.
      * exact Hs.
      * destruct Hs as (H1 & H2 & a0 & H3 & H4). split; [lia|]. split; [lia|]. change (arrays q') with (removelast (arrays q) ++ [n]). rewrite Rl. rewrite Al in H3.
        destruct (Nat.lt_ge_cases k (length l)) as [L|L].
        -- exists a0. rewrite nth_error_app1 in * by exact L. split; [exact H3|]. intros E2. rewrite Ce by lia. auto.
        -- exists n. rewrite nth_error_app2 in * by exact L. destruct (k - length l)%nat as [|k']; [|destruct k'; discriminate]. split; [reflexivity|]. reflexivity.
      * destruct Hs as (H1 & H2). split; [lia|]. intros E2. destruct (H2 E2) as (H3 & H4). split; [lia|]. rewrite Ce by lia. exact H4.
  - (* publish *)
    injection H as <-. destruct O as (Ob & Os & Oc). unfold bot in Bd, Cn. rewrite Po in Bd, Cn. unfold pushing in Cn. rewrite Po in Cn. rewrite u64_small by lia. set (q' := Deque _ _ _ _ _ _ _ _ _).
    assert (C : cur q' = cur q) by reflexivity. assert (B : bot q' = bottom q + 1) by (rewrite <- Ob; reflexivity). assert (B' : bot q = bottom q) by (unfold bot; rewrite Po; reflexivity).
    destruct I as [A1 A2 A3 A4 A5 A6 A7 A8 A9]. rewrite B' in *. constructor; try assumption.
    + rewrite B, C. change (top q') with (top q). lia.
    + rewrite B. change (pushing q') with 0. change (oprog q') with (oprog q). lia.
    + rewrite B, C. change (top q') with (top q). intros i Hi. destruct (Z.eq_dec i b) as [->|N]; [rewrite Oc; discriminate|]. apply A5. lia.
    + rewrite B, C. change (top q') with (top q). change (hand q') with (@nil (option Z)). change (took q') with (took q). change (stole q') with (stole q). change (pushed q') with (pushed q ++ [w]).
      rewrite map_app, content_last by lia. rewrite <- Ob, Oc. unfold hand in A6. rewrite Po in A6. rewrite <- Ob in A6. cbn [map app] in *. rewrite !app_assoc in *. apply Permutation_app_tail. exact A6.
    + unfold owner_ok, q'. cbn [opos bottom]. left. lia.
    + apply (thieves_same q); [reflexivity|lia|reflexivity|exact A9].
  - injection H as <-. apply moves_inv; [exact I|unfold bot; rewrite Po; reflexivity|unfold hand; rewrite Po; reflexivity|unfold pushing; rewrite Po; reflexivity|]. unfold owner_ok. cbn [opos bottom top]. lia.
  - (* take stores bottom *)
    injection H as <-. destruct O as (Ob & O0 & Ot & Ow). unfold bot in Bd, Cn. rewrite Po in Bd, Cn. unfold pushing in Cn. rewrite Po in Cn. set (q' := with_bottom _ _ _).
    assert (C : cur q' = cur q) by reflexivity. assert (B' : bot q = b + 1) by (unfold bot; rewrite Po; lia). assert (B : bot q' = if t <? b then b else b + 1) by reflexivity.
    destruct I as [A1 A2 A3 A4 A5 A6 A7 A8 A9]. rewrite B' in *. unfold hand in A6. rewrite Po in A6. cbn [app] in A6.
    assert (Hh : hand q' = if t <? b then [cell (cur q) b] else []) by reflexivity.
    destruct (Z.ltb_spec t b) as [L|L].
    + constructor; try assumption.
      * rewrite B, C. change (top q') with (top q). lia.
      * rewrite B. change (pushing q') with 0. change (oprog q') with (oprog q). lia.
      * rewrite B, C. change (top q') with (top q). intros i Hi. apply A5. lia.
      * rewrite B, C, Hh. change (top q') with (top q). change (took q') with (took q). change (stole q') with (stole q). change (pushed q') with (pushed q). rewrite A6. rewrite content_last by lia. do 2 apply Permutation_app_head. apply Permutation_app_comm.
      * unfold owner_ok. change (opos q') with (T3 b t). cbv iota beta. change (bottom q') with b. change (top q') with (top q). rewrite C. repeat split; try lia. intros _. apply A5. lia.
      * change (thieves q') with (thieves q). eapply Forall_impl; [|exact A9]. intros [ |s|s|s k|s x] Hs; cbn [thief_ok] in *; rewrite ?B, ?C; change (top q') with (top q); rewrite ?B' in Hs.
        -- exact Logic.I.
        -- exact Hs.
        -- lia.
        -- destruct Hs as (H1 & H2 & H3). split; [lia|]. split; [lia|]. exact H3.
        -- destruct Hs as (H1 & H2). split; [lia|]. intros E2. destruct (H2 E2). split; [lia|assumption].
    + constructor; try assumption.
      * rewrite B, C. change (top q') with (top q). lia.
      * rewrite B. change (pushing q') with 0. change (oprog q') with (oprog q). lia.
      * rewrite B, C. change (top q') with (top q). intros i Hi. apply A5. lia.
      * rewrite B, C, Hh. exact A6.
      * unfold owner_ok. change (opos q') with (T3 b t). cbv iota beta. change (bottom q') with b. change (top q') with (top q). rewrite C. repeat split; lia.
      * apply (thieves_same q); [reflexivity|lia|reflexivity|exact A9].
  - (* take looks at the item *)
    destruct O as (Ob & O0 & Ot & Oc). unfold bot in Bd. rewrite Po in Bd. destruct (Z.leb_spec t b) as [L|L].
    + destruct (a_size (cur q) =? 0); try discriminate. destruct (Z.eqb_spec t b) as [E|E].
      * injection H as <-. destruct (Z.ltb_spec t b) as [L2|L2]; [lia|]. apply moves_inv; [exact I| | |unfold pushing; rewrite Po; reflexivity|].
        -- unfold bot. rewrite Po. cbn [opos]. destruct (Z.ltb_spec t b); lia.
        -- unfold hand. rewrite Po. cbn [opos]. destruct (Z.ltb_spec t b); [lia|reflexivity].
        -- unfold owner_ok. cbn [opos bottom top]. change (cur _) with (cur q). repeat split; lia.
      * destruct (Z.ltb_spec t b) as [L2|L2]; [|lia]. injection H as <-. destruct (cell (cur q) b) as [w|] eqn:Cw; [|elim (Oc L2); reflexivity]. cbn [res_of].
        apply (returns_inv q (bottom q) (Item w)); [exact I| |lia|unfold pushing; rewrite Po; reflexivity| |discriminate].
        -- unfold bot. rewrite Po. destruct (Z.ltb_spec t b); lia.
        -- unfold hand. rewrite Po, Cw. destruct (Z.ltb_spec t b); [reflexivity|lia].
    + destruct (Z.ltb_spec t b) as [L2|L2]; [lia|]. injection H as <-. apply moves_inv; [exact I| | |unfold pushing; rewrite Po; reflexivity|].
      * unfold bot. rewrite Po. cbn [opos]. destruct (Z.ltb_spec t b); lia.
      * unfold hand. rewrite Po. cbn [opos]. destruct (Z.ltb_spec t b); [lia|reflexivity].
      * unfold owner_ok. cbn [opos bottom top]. repeat split; try lia. discriminate.
  - (* compare and exchange *)
    destruct O as (Ob & O0 & Ot & Op & Ox). unfold bot in Bd, Cn. rewrite Po in Bd, Cn. unfold pushing in Cn. rewrite Po in Cn. destruct (Z.eqb_spec (top q) t) as [E|E]; injection H as <-.
    + rewrite u64_small by lia. pose proof (i_cells q I b) as Cb. unfold bot in Cb. rewrite Po in Cb. subst x. destruct (cell (cur q) b) as [w|] eqn:Cw; [|elim Cb; [lia|reflexivity]]. cbn [res_of]. set (q' := Deque _ _ _ _ _ _ _ _ _).
      assert (C : cur q' = cur q) by reflexivity. assert (B : bot q' = b + 1) by reflexivity. assert (B' : bot q = b + 1) by (unfold bot; rewrite Po; reflexivity). assert (T : top q' = b + 1) by (subst t; reflexivity).
      destruct I as [A1 A2 A3 A4 A5 A6 A7 A8 A9]. rewrite B' in *. unfold hand in A6. rewrite Po in A6. cbn [app] in A6. constructor; try assumption.
      * rewrite B, C, T. lia.
      * rewrite B, C, T. intros i Hi. lia.
      * rewrite B, C, T. change (hand q') with [Some w]. change (took q') with (took q). change (stole q') with (stole q). change (pushed q') with (pushed q). rewrite A6. rewrite E, Ot, content_last, Cw by lia.
        rewrite !(content_empty) by lia. reflexivity.
      * unfold owner_ok. rewrite T. cbn [opos bottom q']. repeat split; try lia. discriminate.
      * change (thieves q') with (thieves q). eapply Forall_impl; [|exact A9]. intros [ |s|s|s k|s x] Hs; cbn [thief_ok] in *; rewrite ?B, ?C, ?T; rewrite ?B' in Hs.
        -- exact Logic.I.
        -- lia.
        -- lia.
        -- destruct Hs as (H1 & H2 & a & H3 & H4). split; [lia|]. split; [lia|]. exists a. split; [exact H3|]. lia.
        -- destruct Hs as (H1 & H2). split; [lia|]. lia.
    + apply moves_inv; [exact I|unfold bot; rewrite Po; reflexivity|unfold hand; rewrite Po; reflexivity|unfold pushing; rewrite Po; reflexivity|]. unfold owner_ok. cbn [opos bottom top]. repeat split; try lia. discriminate.
  - (* take restores bottom *)
    destruct O as (Ob & O0 & Ot & Oj). unfold bot in Bd, Cn. rewrite Po in Bd, Cn. unfold pushing in Cn. rewrite Po in Cn. injection H as <-. rewrite u64_small by lia.
    apply (returns_inv q (b + 1) r); [exact I|unfold bot; rewrite Po; reflexivity|lia|unfold pushing; rewrite Po; reflexivity| |exact Oj]. unfold hand. rewrite Po. destruct r; reflexivity.
Qed.

Lemma start_inv size prog n : 0 < size < 2 ^ 64 -> pushes prog < LIMIT -> first_push prog -> inv (dinit size prog n).
Proof.
  intros S P F. unfold dinit. constructor; cbn [top bottom arrays oprog opos thieves pushed took stole]; try (split; constructor); try (constructor; [exact S|constructor]); unfold bot, pushing, hand, cur; cbn [top bottom arrays oprog opos last a_size]; try lia.
  - exists [], (WArray size (fun _ => None)). reflexivity.
  - reflexivity.
  - unfold owner_ok. cbn [opos]. right. exact F.
  - apply Forall_forall. intros x Hx. apply repeat_spec in Hx. subst x. exact Logic.I.
Qed.
Lemma calm_inv a b : calm a b -> inv a -> inv b.
Proof. induction 1 as [|t b c _ IH S]; intros I; [exact I|]. specialize (IH I). destruct t as [i|]; [exact (steal_inv b i c IH S)|exact (owner_inv b c IH (proj1 S))]. Qed.
(** No step goes wrong. *)
Lemma inv_safe q t : inv q -> match dstep t q with Some (Ok _) | None => True | _ => False end.
Proof.
  intros I. pose proof (cur_size q I) as Sz. destruct t as [i|]; cbn [dstep].
  - unfold sstep. destruct (nth_error (thieves q) i) as [pc|] eqn:N; [|exact Logic.I]. assert (K : thief_ok q pc) by (pose proof (i_thieves q I) as F; rewrite Forall_forall in F; apply F; eapply nth_error_In; eauto).
    destruct pc as [ |t|t|t k|t x]; try exact Logic.I.
    + destruct (t <? bottom q); exact Logic.I.
    + destruct K as (_ & _ & a & Na & _). rewrite Na. pose proof (i_sizes q I) as F. rewrite Forall_forall in F. specialize (F a (nth_error_In _ _ Na)). destruct (Z.eqb_spec (a_size a) 0); [lia|exact Logic.I].
    + destruct (top q =? t); exact Logic.I.
  - unfold ostep. destruct (opos q); try exact Logic.I.
    + destruct (oprog q) as [|[]]; exact Logic.I.
    + destruct (Z.eqb_spec (a_size (cur q)) 0); [lia|exact Logic.I].
    + destruct (Z.eqb_spec (a_size (cur q)) 0); [lia|exact Logic.I].
    + destruct (Z.eqb_spec (a_size (cur q)) 0); [lia|]. destruct (_ <=? _); [|exact Logic.I]. destruct (_ =? _); exact Logic.I.
    + destruct (top q =? t); exact Logic.I.
Qed.
