(** Each call on a splay tree does what SpecSplay says, and what it costs. *)
From Verif Require Import BaseLemmas SplayModel SpecTree SpecSplay SplayTree SplayLoop SplayAbs.
Import ListNotations.

Definition keeps (l : list Z) (m m' : smem) : Prop :=
  (forall e, 0 < e -> alive m' e = alive m e) /\ (forall e, 0 < e -> cnt e l = 0%nat -> lefts m' e = lefts m e /\ rights m' e = rights m e).
Lemma rep_eqp m m' t : (forall e, 0 < e -> (0 < cnt e (elems t))%nat -> eqat m m' e) -> rep m t -> rep m' t.
Proof. intros H R. apply (rep_eq m); auto. intros e J. apply H; auto. apply (rep_pos m t e R J). Qed.

Lemma loop_ok call dir fuel m t : (forall x m', alive m' = upd (alive m) NODE true -> 0 < x -> alive m' x = true -> call x m' = Ok (dir x)) ->
  sroot m = rt t -> rep m t -> t <> SE -> once (elems t) -> (size t <= fuel)%nat ->
  exists a z b c m', spl dir t = (SN a z b, c) /\ (let* (lf, rt, m) := gloop call fuel NODE NODE (open_node m) in let* m := assemble lf rt m in Ok (close_node m)) = Ok m' /\
    sroot m' = z /\ rep m' (SN a z b) /\ ticks m' = (ticks m + c)%nat /\ keeps (elems t) m m'.
Proof.
  intros Call R0 R NE O F. set (m0 := open_node m).
  assert (P : forall e, (0 < cnt e (elems t))%nat -> 0 < e /\ alive m e = true) by (intros; eapply rep_pos; eauto).
  assert (E0 : forall e, 0 < e -> eqat m m0 e). { intros e E. unfold eqat, m0, open_node. cbn. rewrite !upd_other by (unfold NODE; lia). auto. }
  assert (I : inv m0 [] t []).
  { split; [exact R0|]. split; [apply (rep_eqp m); auto|]. split; [exact I|]. split; [exact I|]. split; [apply upd_same|]. intros e. unfold allof. cbn [lel rel app]. rewrite app_nil_r. apply O. }
  destruct (gloop_ok call dir (alive m0)) with (n := size t) (t := t) (fsL := @nil (stree * Z)) (fsR := @nil (stree * Z)) (m := m0) (fuel := fuel) as (lf & rt' & m1 & E1 & L); auto.
  { intros x m' Q X0 XA. apply Call; auto. rewrite Q. exact XA. }
  destruct L as (a & z & b & c & fsL' & l & x & r & fsR' & Q & -> & -> & I1 & (On1 & On2) & T & -> & PL & PR). cbn [plugL plugR] in PL, PR.
  destruct (assemble_ok _ _ _ _ _ _ I1) as (m2 & E2 & R2 & Rep & (Om1 & Om2) & T2). rewrite PL, PR in Rep.
  assert (EL : forall e, cnt e (allof fsL' (SN l z r) fsR') = cnt e (elems t)).
  { intros e. rewrite <- (spl_elems _ _ _ _ _ _ Q), <- PL, <- PR, elems_plugL, elems_plugR. unfold allof. cbn [elems]. rewrite !cnt_app. cbn [cnt]. rewrite !cnt_app. lia. }
  exists a, z, b, c, (close_node m2). split; [exact Q|]. cbn [lptr rptr] in E1. rewrite E1. cbn [bind]. rewrite E2. cbn [bind]. split; [reflexivity|]. split; [exact R2|]. split; [|split].
  - apply (rep_eqp m2); auto. intros e E _. unfold eqat, close_node. cbn. rewrite upd_other by (unfold NODE; lia). auto.
  - unfold close_node. cbn. rewrite T2, T. reflexivity.
  - split.
    + intros e E. unfold close_node. cbn. rewrite upd_other by (unfold NODE; lia). rewrite Om1, On1. apply E0. auto.
    + intros e E J. assert (EN : e <> NODE) by (unfold NODE; lia). destruct (Om2 e EN) as (A & B); [rewrite EL; auto|].
      destruct (On2 e EN) as (C & D); [unfold allof; cbn [lel rel app]; rewrite app_nil_r; auto|]. destruct (E0 e E) as (_ & F1 & F2). unfold close_node. cbn. split; congruence.
Qed.
Lemma splay_ok cmp fuel elm m t : 0 < elm -> alive m elm = true -> sroot m = rt t -> rep m t -> t <> SE -> once (elems t) -> (size t <= fuel)%nat ->
  exists a z b c m', spl (cmp elm) t = (SN a z b, c) /\ splay cmp fuel elm m = Ok m' /\ sroot m' = z /\ rep m' (SN a z b) /\ ticks m' = (ticks m + c)%nat /\ keeps (elems t) m m'.
Proof.
  intros E0 EA R0 R NE O F. unfold splay. rewrite splay_loop_g. apply loop_ok; auto. intros x m' Q X0 XA. unfold compare.
  rewrite there_ok; [|lia|rewrite Q, upd_other by (unfold NODE; lia); auto]. rewrite there_ok by (lia || auto). reflexivity.
Qed.
Lemma sminmax_ok fuel comp m t : comp <> 0 -> sroot m = rt t -> rep m t -> t <> SE -> once (elems t) -> (size t <= fuel)%nat ->
  exists a z b c m', spl (fun _ => comp) t = (SN a z b, c) /\ sminmax fuel comp m = Ok m' /\ sroot m' = z /\ rep m' (SN a z b) /\ ticks m' = (ticks m + c)%nat /\ keeps (elems t) m m'.
Proof. intros C R0 R NE O F. unfold sminmax. rewrite sminmax_loop_g by auto. apply loop_ok; auto. Qed.

(** The walk to the least element of a subtree. *)
Fixpoint spine (t : stree) : nat := match t with SE => 0 | SN l _ _ => match l with SE => 0 | SN _ _ _ => S (spine l) end end.
Definition after (k : nat) (m m' : smem) : Prop := sroot m' = sroot m /\ alive m' = alive m /\ lefts m' = lefts m /\ rights m' = rights m /\ ticks m' = (ticks m + k)%nat.
Lemma sleftmost_ok : forall t fuel m, rep m t -> t <> SE -> (size t <= fuel)%nat -> exists m', sleftmost fuel (rt t) m = Ok (first (elems t), m') /\ after (spine t) m m'.
Proof.
  induction t as [|l IHl x r _]; intros fuel m R NE F; [congruence|]. cbn [rep] in R. destruct R as (X0 & XA & XL & XR & RL & RR). cbn [size] in F. destruct fuel as [|fuel]; [lia|].
  cbn [sleftmost rt]. rewrite sleft_k by (lia || auto). cbn [bind]. rewrite XL. destruct l as [|ll y lr].
  - cbn [rt Z.eqb]. exists m. split; [reflexivity|]. unfold after. cbn [spine]. rewrite Nat.add_0_r. auto.
  - assert (Y0 : 0 < y) by apply RL. change (rt (SN ll y lr)) with y. destruct (Z.eqb_spec y 0); [lia|].
    assert (RT : rep (tick m) (SN ll y lr)) by (apply (rep_eq m); auto; intros; split; auto).
    destruct (IHl fuel (tick m) RT ltac:(discriminate) ltac:(lia)) as (m' & E & (A1 & A2 & A3 & A4 & A5)). change (rt (SN ll y lr)) with y in E. exists m'. split.
    + rewrite E. f_equal. f_equal. cbn [elems]. destruct (elems ll); reflexivity.
    + unfold after. change (spine (SN (SN ll y lr) x r)) with (S (spine (SN ll y lr))). rewrite A1, A2, A3, A4, A5. cbn [tick sroot alive lefts rights ticks]. repeat (split; [reflexivity|]). lia.
Qed.
(** The way of a search is at most twice as long as the loop takes rounds. *)
Fixpoint plen (dir : Z -> Z) (t : stree) : nat :=
  match t with SE => 0 | SN l x r => if dir x =? 0 then 1 else if dir x <? 0 then S (plen dir l) else S (plen dir r) end.
Lemma plen_le dir : forall t, (plen dir t <= 2 * snd (spl dir t))%nat.
Proof.
  apply (spl_ind dir (fun t => (plen dir t <= 2 * snd (spl dir t))%nat)); [cbn; lia|]. intros l x r IH. cbn [spl plen].
  destruct (Z.eqb_spec (dir x) 0); [cbn; lia|]. destruct (Z.ltb_spec (dir x) 0).
  - destruct l as [|ll y lr]; [cbn; lia|]. destruct (Z.ltb_spec (dir y) 0) as [E|E].
    + cbn [plen]. destruct (Z.eqb_spec (dir y) 0); [lia|]. destruct (Z.ltb_spec (dir y) 0); [|lia]. destruct ll as [|lll w llr]; [cbn; lia|].
      set (ll := SN lll w llr) in *. pose proof (IH ll ltac:(cbn [size]; lia)) as H1. destruct (spl_shape dir ll) as (a & z & b & c & Q); [discriminate|]. rewrite Q in *. cbn [snd] in *. lia.
    + set (l := SN ll y lr) in *. pose proof (IH l ltac:(cbn [size]; lia)) as H1. destruct (spl_shape dir l) as (a & z & b & c & Q); [discriminate|]. rewrite Q in *. cbn [snd] in *. lia.
  - destruct r as [|rl y rr]; [cbn; lia|]. destruct (Z.ltb_spec 0 (dir y)) as [E|E].
    + cbn [plen]. destruct (Z.eqb_spec (dir y) 0); [lia|]. destruct (Z.ltb_spec (dir y) 0); [lia|]. destruct rr as [|rrl w rrr]; [cbn; lia|].
      set (rr := SN rrl w rrr) in *. pose proof (IH rr ltac:(cbn [size]; lia)) as H1. destruct (spl_shape dir rr) as (a & z & b & c & Q); [discriminate|]. rewrite Q in *. cbn [snd] in *. lia.
    + set (r := SN rl y rr) in *. pose proof (IH r ltac:(cbn [size]; lia)) as H1. destruct (spl_shape dir r) as (a & z & b & c & Q); [discriminate|]. rewrite Q in *. cbn [snd] in *. lia.
Qed.
Lemma plen_spine dir : forall t, t <> SE -> mono dir (elems t) -> dir (first (elems t)) = 0 -> plen dir t = S (spine t).
Proof.
  induction t as [|l IHl x r _]; [congruence|]. intros _ M D. cbn [plen]. destruct l as [|ll y lr].
  - cbn [elems app first] in D. rewrite D. reflexivity.
  - set (l := SN ll y lr) in *. assert (QF : first (elems (SN l x r)) = first (elems l)). { cbn [elems]. unfold l. cbn [elems]. destruct (elems ll); reflexivity. }
    rewrite QF in D. assert (exists q, elems l = first (elems l) :: q) as (q & Q). { unfold l. cbn [elems]. destruct (elems ll); cbn [app first]; eauto. }
    destruct (M [] (first (elems l)) (q ++ x :: elems r)) as (A & _). { cbn [elems app]. rewrite Q at 1. reflexivity. }
    assert (X : dir x < 0). { apply A; [lia|]. rewrite in_app_iff. cbn. auto. }
    destruct (Z.eqb_spec (dir x) 0); [lia|]. destruct (Z.ltb_spec (dir x) 0); [|lia]. rewrite IHl; [reflexivity|discriminate| |auto].
    apply (mono_sub dir [] _ (x :: elems r)). exact M.
Qed.
