(** Splay trees as trees, and what memory holds when a loop of SPLAY is under way. *)
From Verif Require Import BaseLemmas SplayModel.
Import ListNotations.

Inductive stree := SE | SN (l : stree) (x : Z) (r : stree).
Fixpoint elems (t : stree) : list Z := match t with SE => [] | SN l x r => elems l ++ x :: elems r end.
Fixpoint size (t : stree) : nat := match t with SE => 0 | SN l _ r => S (size l + size r) end.
Definition rt (t : stree) : Z := match t with SE => 0 | SN _ x _ => x end.
Lemma size_elems t : length (elems t) = size t.
Proof. induction t; cbn; auto. rewrite app_length. cbn. lia. Qed.

(** What the loop does: the tree, and how many rounds. *)
Fixpoint spl (dir : Z -> Z) (t : stree) : stree * nat :=
  match t with
  | SE => (SE, 0%nat)
  | SN l x r =>
      if dir x =? 0 then (t, 1%nat)
      else if dir x <? 0 then
        match l with
        | SE => (t, 1%nat)
        | SN ll y lr =>
            if dir y <? 0 then
              match ll with
              | SE => (SN SE y (SN lr x r), 1%nat)
              | SN _ _ _ => match spl dir ll with (SN a z b, c) => (SN a z (SN b y (SN lr x r)), S c) | (SE, c) => (SE, c) end
              end
            else match spl dir l with (SN a z b, c) => (SN a z (SN b x r), S c) | (SE, c) => (SE, c) end
        end
      else
        match r with
        | SE => (t, 1%nat)
        | SN rl y rr =>
            if 0 <? dir y then
              match rr with
              | SE => (SN (SN l x rl) y SE, 1%nat)
              | SN _ _ _ => match spl dir rr with (SN a z b, c) => (SN (SN (SN l x rl) y a) z b, S c) | (SE, c) => (SE, c) end
              end
            else match spl dir r with (SN a z b, c) => (SN (SN l x a) z b, S c) | (SE, c) => (SE, c) end
        end
  end.

(** How often a number is in a list. *)
Fixpoint cnt (e : Z) (l : list Z) : nat := match l with [] => 0 | x :: l => (if x =? e then 1 else 0) + cnt e l end.
Lemma cnt_app e a b : cnt e (a ++ b) = (cnt e a + cnt e b)%nat.
Proof. induction a; cbn; lia. Qed.
Lemma cnt_in e l : In e l <-> (0 < cnt e l)%nat.
Proof. induction l as [|x l IH]; cbn; [lia|]. destruct (Z.eqb_spec x e); split; intros; try tauto; try lia; try (apply IH in H; lia). Qed.
Definition once (l : list Z) : Prop := forall e, (cnt e l <= 1)%nat.
Lemma once_nodup l : once l <-> NoDup l.
Proof.
  split; intros H.
  - induction l as [|x l IH]; constructor.
    + rewrite cnt_in. specialize (H x). cbn in H. rewrite Z.eqb_refl in H. lia.
    + apply IH. intros e. specialize (H e). cbn in H. lia.
  - induction H as [|x l N H IH]; intros e; cbn; [lia|]. specialize (IH e). destruct (Z.eqb_spec x e); [|lia]. subst. rewrite cnt_in in N. lia.
Qed.

Definition updL (e v : Z) (m : smem) : smem := Smem (sroot m) (alive m) (upd (lefts m) e v) (rights m) (ticks m).
Definition updR (e v : Z) (m : smem) : smem := Smem (sroot m) (alive m) (lefts m) (upd (rights m) e v) (ticks m).
Lemma there_ok e m : e <> 0 -> alive m e = true -> there e m = Ok tt.
Proof. unfold there. intros. destruct (Z.eqb_spec e 0); [contradiction|]. rewrite H0. reflexivity. Qed.
Lemma sleft_k e m : e <> 0 -> alive m e = true -> sleft e m = Ok (lefts m e).
Proof. intros. unfold sleft. rewrite there_ok; auto. Qed.
Lemma sright_k e m : e <> 0 -> alive m e = true -> sright e m = Ok (rights m e).
Proof. intros. unfold sright. rewrite there_ok; auto. Qed.
Lemma set_sleft_k e v m : e <> 0 -> alive m e = true -> set_sleft e v m = Ok (updL e v m).
Proof. intros. unfold set_sleft. rewrite there_ok; auto. Qed.
Lemma set_sright_k e v m : e <> 0 -> alive m e = true -> set_sright e v m = Ok (updR e v m).
Proof. intros. unfold set_sright. rewrite there_ok; auto. Qed.
Lemma upd_same {A} (f : Z -> A) e v : upd f e v e = v.
Proof. unfold upd. rewrite Z.eqb_refl. reflexivity. Qed.
Lemma upd_other {A} (f : Z -> A) e v c : c <> e -> upd f e v c = f c.
Proof. unfold upd. intros. destruct (Z.eqb_spec c e); [contradiction|reflexivity]. Qed.

(** Memory holds the tree. *)
Fixpoint rep (m : smem) (t : stree) : Prop :=
  match t with SE => True | SN l x r => 0 < x /\ alive m x = true /\ lefts m x = rt l /\ rights m x = rt r /\ rep m l /\ rep m r end.
(** Two memories agree on an element. *)
Definition eqat (m m' : smem) (e : Z) : Prop := alive m' e = alive m e /\ lefts m' e = lefts m e /\ rights m' e = rights m e.
Lemma rep_eq m m' t : (forall e, (0 < cnt e (elems t))%nat -> eqat m m' e) -> rep m t -> rep m' t.
Proof.
  induction t as [|l IHl x r IHr]; cbn; auto. intros H (A & B & C & D & E & F).
  destruct (H x) as (H1 & H2 & H3). { rewrite cnt_app. cbn. rewrite Z.eqb_refl. lia. }
  rewrite H1, H2, H3. repeat (split; [assumption|]). split; [apply IHl|apply IHr]; auto; intros e J; apply H; rewrite cnt_app; cbn; lia.
Qed.
Lemma rep_pos m t e : rep m t -> (0 < cnt e (elems t))%nat -> 0 < e /\ alive m e = true.
Proof.
  induction t as [|l IHl x r IHr]; cbn; [lia|]. intros (A & B & _ & _ & C & D). rewrite cnt_app. cbn.
  destruct (Z.eqb_spec x e); [subst; auto|]. intros J. destruct (cnt e (elems l)) eqn:Q; [apply IHr; auto; lia|apply IHl; auto; lia].
Qed.

(** The tree of lesser elements, cut off so far; the nearest frame first. *)
Fixpoint plugL (fs : list (stree * Z)) (t : stree) : stree := match fs with [] => t | (l, x) :: fs => plugL fs (SN l x t) end.
Fixpoint lel (fs : list (stree * Z)) : list Z := match fs with [] => [] | (l, x) :: fs => lel fs ++ elems l ++ [x] end.
Lemma elems_plugL fs : forall t, elems (plugL fs t) = lel fs ++ elems t.
Proof. induction fs as [|[l x] fs IH]; intros t; cbn; auto. rewrite IH. cbn. rewrite <- !app_assoc. reflexivity. Qed.
Definition lptr (fs : list (stree * Z)) : Z := match fs with [] => NODE | (_, x) :: _ => x end.
Fixpoint lchain (m : smem) (tgt : Z) (fs : list (stree * Z)) : Prop :=
  match fs with
  | [] => rights m NODE = tgt
  | (l, x) :: fs => 0 < x /\ alive m x = true /\ lefts m x = rt l /\ rights m x = tgt /\ rep m l /\ lchain m x fs
  end.
Definition lopen (m : smem) (fs : list (stree * Z)) : Prop :=
  match fs with [] => True | (l, x) :: fs => 0 < x /\ alive m x = true /\ lefts m x = rt l /\ rep m l /\ lchain m x fs end.
Lemma lchain_eq m m' fs : forall tgt, (forall e, (0 < cnt e (lel fs))%nat -> eqat m m' e) -> rights m' NODE = rights m NODE -> lchain m tgt fs -> lchain m' tgt fs.
Proof.
  induction fs as [|[l x] fs IH]; cbn; intros tgt H N; [congruence|]. intros (A & B & C & D & E & F).
  destruct (H x) as (H1 & H2 & H3). { cbn [cnt]. rewrite ?cnt_app. cbn [cnt]. rewrite Z.eqb_refl. lia. }
  rewrite H1, H2, H3. repeat (split; [assumption|]). split; [apply (rep_eq m); auto|apply IH; auto]; intros e J; apply H; cbn [cnt]; rewrite ?cnt_app; lia.
Qed.
Lemma lopen_eq m m' fs : (forall e, (0 < cnt e (lel fs))%nat -> eqat m m' e) -> rights m' NODE = rights m NODE -> lopen m fs -> lopen m' fs.
Proof.
  destruct fs as [|[l x] fs]; cbn; auto. intros H N (A & B & C & E & F).
  destruct (H x) as (H1 & H2 & H3). { cbn [cnt]. rewrite ?cnt_app. cbn [cnt]. rewrite Z.eqb_refl. lia. }
  rewrite H1, ?H2, ?H3. repeat (split; [assumption|]). split; [apply (rep_eq m); auto|apply (lchain_eq m); auto]; intros e J; apply H; cbn [cnt]; rewrite ?cnt_app; lia.
Qed.
(** The open end is tied to [v]. *)
Lemma lopen_tie m fs v : once (lel fs) -> lopen m fs -> lchain (updR (lptr fs) v m) v fs.
Proof.
  destruct fs as [|[l x] fs]; cbn; intros O; [intros _; unfold upd; rewrite ?Z.eqb_refl; reflexivity|]. intros (A & B & C & E & F). rewrite ?upd_same. repeat (split; [assumption|]). split; [reflexivity|].
  assert (X : (cnt x (lel fs) + cnt x (elems l) = 0)%nat). { specialize (O x). cbn [cnt] in O. rewrite ?cnt_app in O. cbn [cnt] in O. rewrite Z.eqb_refl, ?cnt_app in O. lia. }
  assert (Y : forall e, e <> x -> eqat m (updR x v m) e). { intros e N. unfold eqat. cbn. rewrite upd_other by auto. auto. }
  split; [apply (rep_eq m); auto|apply (lchain_eq m); auto].
  - intros e J. apply Y. intros ->. lia.
  - intros e J. apply Y. intros ->. lia.
  - cbn. apply upd_other. unfold NODE. lia.
Qed.
Lemma lchain_top m fs : forall t, lchain m (rt t) fs -> rep m t -> rights m NODE = rt (plugL fs t) /\ rep m (plugL fs t).
Proof. induction fs as [|[l x] fs IH]; cbn; intros t; [auto|]. intros (A & B & C & D & E & F) R. apply (IH (SN l x t)); cbn; auto 12. Qed.
Lemma lptr_ok m fs : lopen m fs -> alive m NODE = true -> lptr fs <> 0 /\ alive m (lptr fs) = true.
Proof. destruct fs as [|[l x] fs]; cbn; [unfold NODE; split; [lia|auto]|]. intros (A & B & _) _. split; [lia|auto]. Qed.
Lemma lptr_el fs : lptr fs = NODE \/ (0 < cnt (lptr fs) (lel fs))%nat.
Proof. destruct fs as [|[l x] fs]; cbn; auto. right. cbn [cnt]. rewrite ?cnt_app. cbn [cnt]. rewrite Z.eqb_refl. lia. Qed.

(** The tree of greater elements, cut off so far; the nearest frame first. *)
Fixpoint plugR (fs : list (stree * Z)) (t : stree) : stree := match fs with [] => t | (l, x) :: fs => plugR fs (SN t x l) end.
Fixpoint rel (fs : list (stree * Z)) : list Z := match fs with [] => [] | (l, x) :: fs => x :: elems l ++ rel fs end.
Lemma elems_plugR fs : forall t, elems (plugR fs t) = elems t ++ rel fs.
Proof. induction fs as [|[l x] fs IH]; intros t; cbn; [rewrite app_nil_r; reflexivity|]. rewrite IH. cbn. rewrite <- !app_assoc. reflexivity. Qed.
Definition rptr (fs : list (stree * Z)) : Z := match fs with [] => NODE | (_, x) :: _ => x end.
Fixpoint rchain (m : smem) (tgt : Z) (fs : list (stree * Z)) : Prop :=
  match fs with
  | [] => lefts m NODE = tgt
  | (l, x) :: fs => 0 < x /\ alive m x = true /\ rights m x = rt l /\ lefts m x = tgt /\ rep m l /\ rchain m x fs
  end.
Definition ropen (m : smem) (fs : list (stree * Z)) : Prop :=
  match fs with [] => True | (l, x) :: fs => 0 < x /\ alive m x = true /\ rights m x = rt l /\ rep m l /\ rchain m x fs end.
Lemma rchain_eq m m' fs : forall tgt, (forall e, (0 < cnt e (rel fs))%nat -> eqat m m' e) -> lefts m' NODE = lefts m NODE -> rchain m tgt fs -> rchain m' tgt fs.
Proof.
  induction fs as [|[l x] fs IH]; cbn; intros tgt H N; [congruence|]. intros (A & B & C & D & E & F).
  destruct (H x) as (H1 & H2 & H3). { cbn [cnt]. rewrite ?cnt_app. cbn [cnt]. rewrite Z.eqb_refl. lia. }
  rewrite H1, H2, H3. repeat (split; [assumption|]). split; [apply (rep_eq m); auto|apply IH; auto]; intros e J; apply H; cbn [cnt]; rewrite ?cnt_app; lia.
Qed.
Lemma ropen_eq m m' fs : (forall e, (0 < cnt e (rel fs))%nat -> eqat m m' e) -> lefts m' NODE = lefts m NODE -> ropen m fs -> ropen m' fs.
Proof.
  destruct fs as [|[l x] fs]; cbn; auto. intros H N (A & B & C & E & F).
  destruct (H x) as (H1 & H2 & H3). { cbn [cnt]. rewrite ?cnt_app. cbn [cnt]. rewrite Z.eqb_refl. lia. }
  rewrite H1, ?H2, ?H3. repeat (split; [assumption|]). split; [apply (rep_eq m); auto|apply (rchain_eq m); auto]; intros e J; apply H; cbn [cnt]; rewrite ?cnt_app; lia.
Qed.
(** The open end is tied to [v]. *)
Lemma ropen_tie m fs v : once (rel fs) -> ropen m fs -> rchain (updL (rptr fs) v m) v fs.
Proof.
  destruct fs as [|[l x] fs]; cbn; intros O; [intros _; unfold upd; rewrite ?Z.eqb_refl; reflexivity|]. intros (A & B & C & E & F). rewrite ?upd_same. repeat (split; [assumption|]). split; [reflexivity|].
  assert (X : (cnt x (rel fs) + cnt x (elems l) = 0)%nat). { specialize (O x). cbn [cnt] in O. rewrite ?cnt_app in O. cbn [cnt] in O. rewrite Z.eqb_refl, ?cnt_app in O. lia. }
  assert (Y : forall e, e <> x -> eqat m (updL x v m) e). { intros e N. unfold eqat. cbn. rewrite upd_other by auto. auto. }
  split; [apply (rep_eq m); auto|apply (rchain_eq m); auto].
  - intros e J. apply Y. intros ->. lia.
  - intros e J. apply Y. intros ->. lia.
  - cbn. apply upd_other. unfold NODE. lia.
Qed.
Lemma rchain_top m fs : forall t, rchain m (rt t) fs -> rep m t -> lefts m NODE = rt (plugR fs t) /\ rep m (plugR fs t).
Proof. induction fs as [|[l x] fs IH]; cbn; intros t; [auto|]. intros (A & B & C & D & E & F) R. apply (IH (SN t x l)); cbn; auto 12. Qed.
Lemma rptr_ok m fs : ropen m fs -> alive m NODE = true -> rptr fs <> 0 /\ alive m (rptr fs) = true.
Proof. destruct fs as [|[l x] fs]; cbn; [unfold NODE; split; [lia|auto]|]. intros (A & B & _) _. split; [lia|auto]. Qed.
Lemma rptr_el fs : rptr fs = NODE \/ (0 < cnt (rptr fs) (rel fs))%nat.
Proof. destruct fs as [|[l x] fs]; cbn; auto. right. cbn [cnt]. rewrite ?cnt_app. cbn [cnt]. rewrite Z.eqb_refl. lia. Qed.
