(** Lemmas about linked lists in memory. *)
From Coq Require Import Permutation.
From Verif Require Import Base BaseLemmas QueueModel SpecQueue.

Lemma upd_eq m a v : upd m a v a = Some v. Proof. unfold upd. now rewrite Z.eqb_refl. Qed.
Lemma upd_neq m a v c : c <> a -> upd m a v c = m c. Proof. unfold upd. intros N. apply Z.eqb_neq in N. now rewrite N. Qed.
Lemma upd_alloc m a v c : m c <> None -> upd m a v c <> None. Proof. unfold upd. destruct (c =? a); congruence. Qed.
Lemma get_ok e o m v : e <> 0 -> m (e + o) = Some v -> get e o m = Ok v.
Proof. unfold get, fld, ld. intros N M. apply Z.eqb_neq in N. rewrite N. cbn [bind]. now rewrite M. Qed.
Lemma st_ok a v m : m a <> None -> st a v m = Ok (upd m a v).
Proof. unfold st. destruct (m a); congruence. Qed.
Lemma set_ok e o v m : e <> 0 -> m (e + o) <> None -> set e o v m = Ok (upd m (e + o) v).
Proof. unfold set, fld. intros N M. apply Z.eqb_neq in N. rewrite N. cbn [bind]. now apply st_ok. Qed.

Lemma last_shift (l : list Z) x d : last (x :: l) d = last l x.
Proof. revert x d; induction l as [|y l IH]; intros x d; [reflexivity|]. change (last (x :: y :: l) d) with (last (y :: l) d). now rewrite !IH. Qed.

Section Queue.
Variables (F : Z) (U : list Z) (dbl tl xq : bool) (ck : Z -> Z) (m0 : mem).
Notation nx e := (e + F).
Notation pv e := (e + (F + 8)).
Notation hc := (head_cells tl xq).
Notation ec := (elem_cells F dbl).
Definition enc (h v : Z) : Z := Z.lxor (ck h) v.

(** The cell behind the elements [a] of the queue at [h]. *)
Definition endc (h : Z) (a : list Z) : Z := last (map (fun e => nx e) a) h.
Lemma endc_snoc h a e : endc h (a ++ [e]) = nx e.
Proof. unfold endc. rewrite map_app. cbn [map]. apply last_last. Qed.
Lemma endc_cons h e a : endc h (e :: a) = endc (nx e) a.
Proof. unfold endc. cbn [map]. apply last_shift. Qed.
Lemma endc_app h a b : endc h (a ++ b) = endc (endc h a) b.
Proof. revert h; induction a as [|x a IH]; intros h; [reflexivity|]. cbn [app]. rewrite !endc_cons. apply IH. Qed.
Lemma endc_in h a : endc h a = h /\ a = [] \/ exists e, In e a /\ endc h a = nx e /\ exists a', a = a' ++ [e].
Proof.
  destruct a as [|x a] using rev_ind; [left; split; reflexivity|]. right. exists x. rewrite endc_snoc. split; [apply in_or_app; right; left; reflexivity|].
  split; [reflexivity|]. exists a. reflexivity.
Qed.
Lemma endc_base h g a : a <> [] -> endc h a = endc g a.
Proof. destruct a as [|x a]; [congruence|]. intros _. rewrite !endc_cons. reflexivity. Qed.

Definition linked (m : mem) (h : Z) (l : list Z) : Prop := forall a b, l = a ++ b -> m (endc h a) = Some (enc h (hd 0 b)).
Definition backed (m : mem) (h : Z) (l : list Z) : Prop := forall a e b, l = a ++ e :: b -> m (pv e) = Some (endc h a).
Definition repr (m : mem) (h : Z) (l : list Z) : Prop :=
  linked m h l /\ (dbl = true -> backed m h l) /\ (tl = true -> m (h + 8) = Some (enc h (endc h l))) /\ (xq = true -> m (h + 16) = Some (ck h)).

(** Distinctness, as used in the proofs. *)
Record sep (h g : Z) : Prop := Sep {
  sep_hg : forall c, In c (hc h) -> In c (hc g) -> False;
  sep_h : forall c e, In c (hc h) -> In e U -> In c (ec e) -> False;
  sep_g : forall c e, In c (hc g) -> In e U -> In c (ec e) -> False;
  sep_e : forall c e e', In e U -> In e' U -> In c (ec e) -> In c (ec e') -> e = e';
  sep_F : 0 <= F; sep_ph : 0 < h; sep_pg : 0 < g; sep_U : forall e, In e U -> 0 < e }.
Lemma sep_swap h g : sep h g -> sep g h.
Proof. intros [A B C D P Q R T]. constructor; auto. intros c X Y. exact (A c Y X). Qed.
Lemma NoDup_app_l {A} (a b : list A) : NoDup (a ++ b) -> NoDup a /\ NoDup b /\ forall x, In x a -> In x b -> False.
Proof.
  induction a as [|x a IH]; cbn [app]; intros N; [repeat split; [constructor|assumption|intros y []]|].
  inversion N as [|x' l' NI N']; subst. destruct (IH N') as (P & Q & R). split; [|split; [assumption|]].
  - constructor; [|assumption]. intros I. apply NI, in_or_app. left; assumption.
  - intros y [->|I] J; [apply NI, in_or_app; right; assumption|exact (R y I J)].
Qed.
Lemma apart_sep h g : apart F dbl tl xq U h g -> sep h g.
Proof.
  intros (N & Fp & Hp & Gp & Up). apply NoDup_app_l in N. destruct N as (_ & N & D1). apply NoDup_app_l in N. destruct N as (_ & N & D2).
  assert (IF : forall c e, In e U -> In c (ec e) -> In c (flat_map ec U)) by (intros c e I J; apply in_flat_map; exists e; split; assumption).
  constructor; try assumption.
  - intros c X Y. apply (D1 c X). apply in_or_app. left; assumption.
  - intros c e X I J. apply (D1 c X). apply in_or_app. right. exact (IF c e I J).
  - intros c e X I J. exact (D2 c X (IF c e I J)).
  - clear - N. induction U as [|x V IH]; cbn [flat_map] in N; [intros c e e' []|].
    apply NoDup_app_l in N. destruct N as (_ & N & D).
    assert (IF : forall c e, In e V -> In c (ec e) -> In c (flat_map ec V)) by (intros c e I J; apply in_flat_map; exists e; split; assumption).
    intros c e e' [<-|I] [<-|I'] J J'.
    + reflexivity.
    + exfalso. exact (D c J (IF c e' I' J')).
    + exfalso. exact (D c J' (IF c e I J)).
    + exact (IH N c e e' I I' J J').
  - intros e I. rewrite Forall_forall in Up. exact (Up e I).
Qed.

Record inv (m : mem) (h : Z) (l : list Z) (g : Z) (k : list Z) : Prop := Inv {
  i_sep : sep h g;
  i_l : incl l U; i_k : incl k U; i_nd : NoDup (l ++ k);
  i_rl : repr m h l; i_rk : repr m g k;
  i_al : forall c, In c (hc h) \/ In c (hc g) \/ (exists e, In e U /\ In c (ec e)) -> m c <> None;
  i_fr : forall c, ~ In c (hc h) -> ~ In c (hc g) -> (forall e, In e U -> ~ In c (ec e)) -> m c = m0 c }.
Lemma nodup_swap {A} (l k : list A) : NoDup (l ++ k) -> NoDup (k ++ l).
Proof. intros N. apply (Permutation_NoDup (Permutation_app_comm l k) N). Qed.
Lemma inv_swap m h l g k : inv m h l g k -> inv m g k h l.
Proof.
  intros [A B C D P Q R T]. constructor; auto using sep_swap, nodup_swap.
  intros c [X|[X|X]]; apply R; auto.
Qed.

Lemma hc_first h : In h (hc h). Proof. left; reflexivity. Qed.
Lemma hc_last h : tl = true -> In (h + 8) (hc h). Proof. intros ->. right. left. reflexivity. Qed.
Lemma hc_cookie h : xq = true -> In (h + 16) (hc h). Proof. intros ->. right. apply in_or_app. right. left. reflexivity. Qed.
Lemma ec_nx e : In (nx e) (ec e). Proof. left; reflexivity. Qed.
Lemma ec_pv e : dbl = true -> In (pv e) (ec e). Proof. intros ->. right. left. reflexivity. Qed.
Lemma hc_cases c h : In c (hc h) -> c = h \/ tl = true /\ c = h + 8 \/ xq = true /\ c = h + 16.
Proof. unfold head_cells. intros [<-|I]; [left; reflexivity|]. right. apply in_app_or in I. destruct tl, xq; cbn in I; intuition. Qed.
Lemma ec_cases c e : In c (ec e) -> c = nx e \/ dbl = true /\ c = pv e.
Proof. unfold elem_cells. intros [<-|I]; [left; reflexivity|]. right. destruct dbl; cbn in I; intuition. Qed.

(** Distinctness of the cells of one queue. *)
Section Sep.
Variables (h g : Z).
Hypothesis SP : sep h g.
Lemma h_nx e : In e U -> h <> nx e.
Proof. intros I E. apply (sep_h _ _ SP h e (hc_first h) I). rewrite E. apply ec_nx. Qed.
Lemma h_pv e : dbl = true -> In e U -> h <> pv e.
Proof. intros D I E. apply (sep_h _ _ SP h e (hc_first h) I). rewrite E. apply ec_pv, D. Qed.
Lemma last_nx e : tl = true -> In e U -> h + 8 <> nx e.
Proof. intros T I E. apply (sep_h _ _ SP (h + 8) e (hc_last h T) I). rewrite E. apply ec_nx. Qed.
Lemma last_pv e : tl = true -> dbl = true -> In e U -> h + 8 <> pv e.
Proof. intros T D I E. apply (sep_h _ _ SP (h + 8) e (hc_last h T) I). rewrite E. apply ec_pv, D. Qed.
Lemma cookie_nx e : xq = true -> In e U -> h + 16 <> nx e.
Proof. intros T I E. apply (sep_h _ _ SP (h + 16) e (hc_cookie h T) I). rewrite E. apply ec_nx. Qed.
Lemma cookie_pv e : xq = true -> dbl = true -> In e U -> h + 16 <> pv e.
Proof. intros T D I E. apply (sep_h _ _ SP (h + 16) e (hc_cookie h T) I). rewrite E. apply ec_pv, D. Qed.
Lemma nx_pv e e' : dbl = true -> In e U -> In e' U -> nx e <> pv e'.
Proof.
  intros D I I' E. assert (e = e'); [|subst e'; clear - E; lia]. apply (sep_e _ _ SP (nx e)); auto using ec_nx. rewrite E. apply ec_pv, D.
Qed.
Lemma endc_cases a : incl a U -> endc h a = h \/ exists e, In e U /\ In e a /\ endc h a = nx e.
Proof. intros I. destruct (endc_in h a) as [[E _]|(e & J & E & _)]; [left; assumption|right; exists e; auto]. Qed.
Lemma endc_nx a e : incl a U -> In e U -> ~ In e a -> endc h a <> nx e.
Proof. intros I J N. destruct (endc_cases a I) as [E|(x & Ix & Jx & E)]; rewrite E; [apply h_nx, J|]. intros Q. apply N. replace e with x by lia. assumption. Qed.
Lemma endc_pv a e : dbl = true -> incl a U -> In e U -> endc h a <> pv e.
Proof. intros D I J. destruct (endc_cases a I) as [E|(x & Ix & Jx & E)]; rewrite E; [apply h_pv; assumption|apply nx_pv; assumption]. Qed.
Lemma endc_last a : tl = true -> incl a U -> endc h a <> h + 8.
Proof. intros D I. destruct (endc_cases a I) as [E|(x & Ix & Jx & E)]; rewrite E; [lia|]. intros Q. symmetry in Q. revert Q. apply last_nx; assumption. Qed.
Lemma endc_cookie a : xq = true -> incl a U -> endc h a <> h + 16.
Proof. intros D I. destruct (endc_cases a I) as [E|(x & Ix & Jx & E)]; rewrite E; [lia|]. intros Q. symmetry in Q. revert Q. apply cookie_nx; assumption. Qed.
Lemma endc_pos a : incl a U -> 0 < endc h a.
Proof. intros I. destruct (endc_cases a I) as [E|(x & Ix & Jx & E)]; rewrite E; [apply (sep_ph _ _ SP)|]. pose proof (sep_U _ _ SP x Ix). pose proof (sep_F _ _ SP). lia. Qed.
(** Different prefixes end at different cells. *)
Lemma endc_inj l a b a' b' : incl l U -> NoDup l -> l = a ++ b -> l = a' ++ b' -> endc h a = endc h a' -> a = a'.
Proof.
  intros I N E E' Q. subst l.
  destruct (endc_in h a) as [[Ea Na]|(e & J & Ea & x & Xa)], (endc_in h a') as [[Eb Nb]|(e' & J' & Eb & x' & Xb)].
  - congruence.
  - exfalso. rewrite Ea, Eb in Q. revert Q. apply h_nx. apply I. rewrite E'. apply in_or_app; left; assumption.
  - exfalso. rewrite Ea, Eb in Q. symmetry in Q. revert Q. apply h_nx. apply I. apply in_or_app; left; assumption.
  - rewrite Ea, Eb in Q. assert (e = e') by lia. subst e'. subst a a'. f_equal.
    rewrite <- !app_assoc in E'. cbn [app] in E'. rewrite <- app_assoc in N. cbn [app] in N. clear - E' N.
    revert x' E'. induction x as [|y x IH]; intros [|y' x'] E; cbn [app] in *.
    + reflexivity.
    + injection E as <- E. exfalso. inversion N as [|? ? NI _]; subst. apply NI. apply in_or_app. right. left. reflexivity.
    + injection E as -> E. exfalso. inversion N as [|? ? NI _]; subst. apply NI. apply in_or_app. right. left. reflexivity.
    + injection E as <- E. f_equal. apply IH; [inversion N; assumption|assumption].
Qed.
End Sep.

Lemma repr_frame m m' h l : repr m h l -> (forall c, In c (hc h) -> m' c = m c) -> (forall c e, In e l -> In c (ec e) -> m' c = m c) -> repr m' h l.
Proof.
  intros (L & B & T & X) Hh He. split; [|split; [|split]].
  - intros a b E. rewrite <- (L a b E). destruct (endc_in h a) as [[-> _]|(e & J & -> & _)]; [apply Hh, hc_first|].
    apply (He _ e); [rewrite E; apply in_or_app; left; assumption|apply ec_nx].
  - intros D a e b E. rewrite <- (B D a e b E). apply (He _ e); [rewrite E; apply in_or_app; right; left; reflexivity|apply ec_pv, D].
  - intros D. rewrite <- (T D). apply Hh, hc_last, D.
  - intros D. rewrite <- (X D). apply Hh, hc_cookie, D.
Qed.

(** An element put between [a] and [b]. *)
Lemma ins_linked m m' h g a e b :
  sep h g -> incl (a ++ e :: b) U -> NoDup (a ++ e :: b) -> linked m h (a ++ b) -> m' (endc h a) = Some (enc h e) -> m' (nx e) = Some (enc h (hd 0 b)) ->
  (forall c, (c = h \/ exists x, In x (a ++ b) /\ c = nx x) -> c <> endc h a -> m' c = m c) -> linked m' h (a ++ e :: b).
Proof.
  intros SP I N L H1 H2 FR a' b' E.
  assert (K : forall p, (exists q, a ++ b = p ++ q) -> endc h p = h \/ exists x, In x (a ++ b) /\ endc h p = nx x).
  { intros p [q Q]. destruct (endc_in h p) as [[-> _]|(x & J & -> & _)]; [left; reflexivity|right; exists x; split; [rewrite Q; apply in_or_app; left; assumption|reflexivity]]. }
  assert (Iab : incl (a ++ b) U) by (intros x J; apply I; apply in_app_or in J; apply in_or_app; destruct J; [left|right; right]; assumption).
  assert (Nab : NoDup (a ++ b)) by (apply NoDup_remove_1 in N; assumption).
  assert (D : forall p q, a ++ b = p ++ q -> p <> a -> endc h p <> endc h a).
  { intros p q Q P Y. apply P. exact (endc_inj h g SP (a ++ b) p q a b Iab Nab Q eq_refl Y). }
  apply app_eq_app in E. destruct E as [r [[E1 E2]|[E1 E2]]].
  - subst a b'. destruct r as [|x r].
    + rewrite app_nil_r in *. cbn [app hd]. exact H1.
    + rewrite FR; [|apply K; exists ((x :: r) ++ b); rewrite <- app_assoc; reflexivity|].
      * rewrite (L a' ((x :: r) ++ b)) by (rewrite <- app_assoc; reflexivity). reflexivity.
      * apply (D a' ((x :: r) ++ b)); [rewrite <- app_assoc; reflexivity|]. intros Y. apply (f_equal (@length Z)) in Y. rewrite app_length in Y. cbn in Y. lia.
  - subst a'. destruct r as [|x r]; cbn [app] in E2.
    + subst b'. rewrite app_nil_r. exact H1.
    + injection E2 as <- ->. destruct r as [|y r].
      * rewrite endc_snoc. exact H2.
      * assert (Q : endc h (a ++ e :: y :: r) = endc h (a ++ y :: r)) by (rewrite !endc_app, !endc_cons; reflexivity). rewrite Q.
        assert (EQ : a ++ (y :: r) ++ b' = (a ++ y :: r) ++ b') by apply app_assoc.
        rewrite FR; [exact (L _ _ EQ)|apply K; exists b'; exact EQ|].
        apply (D _ b' EQ). intros Y. apply (f_equal (@length Z)) in Y. rewrite app_length in Y. cbn in Y. lia.
Qed.
Lemma ins_backed m m' h a e b :
  NoDup (a ++ e :: b) -> backed m h (a ++ b) -> m' (pv e) = Some (endc h a) -> (forall e2 b', b = e2 :: b' -> m' (pv e2) = Some (nx e)) ->
  (forall x, In x (a ++ b) -> (forall e2 b', b = e2 :: b' -> x <> e2) -> m' (pv x) = m (pv x)) -> backed m' h (a ++ e :: b).
Proof.
  intros N B H1 H2 FR a' x b' E.
  assert (Nab : NoDup (a ++ b)) by (apply NoDup_remove_1 in N; assumption).
  apply app_eq_app in E. destruct E as [r [[E1 E2]|[E1 E2]]].
  - subst a. destruct r as [|y r]; cbn [app] in E2; injection E2 as -> ->.
    + rewrite app_nil_r in H1. exact H1.
    + rewrite FR.
      * apply (B a' y (r ++ b)). rewrite <- app_assoc. reflexivity.
      * apply in_or_app. left. apply in_or_app. right. left. reflexivity.
      * intros e2 b2 -> ->. rewrite <- app_assoc in Nab. apply NoDup_app_l in Nab. destruct Nab as (_ & Nab & _). cbn [app] in Nab. inversion Nab as [|? ? NI _]; subst.
        apply NI. apply in_or_app. right. left. reflexivity.
  - subst a'. destruct r as [|y r]; cbn [app] in E2.
    + injection E2 as <- <-. rewrite app_nil_r. exact H1.
    + injection E2 as <- ->. destruct r as [|y r].
      * rewrite endc_snoc. exact (H2 x b' eq_refl).
      * cbn [app]. rewrite FR.
        -- rewrite (B (a ++ y :: r) x b') by (rewrite <- app_assoc; reflexivity). f_equal. rewrite !endc_app, !endc_cons. reflexivity.
        -- cbn [app]. apply in_or_app. right. right. apply in_or_app. right. left. reflexivity.
        -- intros e2 b2 Q. cbn [app] in Q. injection Q as <- <-. intros ->. apply NoDup_app_l in Nab. destruct Nab as (_ & Nab & _). cbn [app] in Nab.
           inversion Nab as [|? ? NI _]; subst. apply NI. apply in_or_app. right. left. reflexivity.
Qed.
(** An element taken out. *)
Lemma rem_linked m m' h g a e b :
  sep h g -> incl (a ++ e :: b) U -> NoDup (a ++ e :: b) -> linked m h (a ++ e :: b) -> m' (endc h a) = Some (enc h (hd 0 b)) ->
  (forall c, (c = h \/ exists x, In x (a ++ b) /\ c = nx x) -> c <> endc h a -> m' c = m c) -> linked m' h (a ++ b).
Proof.
  intros SP I N L H1 FR a' b' E.
  assert (K : forall p, (exists q, a ++ b = p ++ q) -> endc h p = h \/ exists x, In x (a ++ b) /\ endc h p = nx x).
  { intros p [q Q]. destruct (endc_in h p) as [[-> _]|(x & J & -> & _)]; [left; reflexivity|right; exists x; split; [rewrite Q; apply in_or_app; left; assumption|reflexivity]]. }
  assert (Iab : incl (a ++ b) U) by (intros x J; apply I; apply in_app_or in J; apply in_or_app; destruct J; [left|right; right]; assumption).
  assert (Nab : NoDup (a ++ b)) by (apply NoDup_remove_1 in N; assumption).
  assert (D : forall p q, a ++ b = p ++ q -> p <> a -> endc h p <> endc h a).
  { intros p q Q P Y. apply P. exact (endc_inj h g SP (a ++ b) p q a b Iab Nab Q eq_refl Y). }
  pose proof E as E0. apply app_eq_app in E. destruct E as [r [[E1 E2]|[E1 E2]]].
  - subst a b'. destruct r as [|x r].
    + rewrite app_nil_r in *. cbn [app]. exact H1.
    + rewrite FR; [|apply K; exists ((x :: r) ++ b); exact E0|].
      * rewrite (L a' ((x :: r) ++ e :: b)) by (rewrite <- app_assoc; reflexivity). reflexivity.
      * apply (D a' ((x :: r) ++ b) E0). intros Y. apply (f_equal (@length Z)) in Y. rewrite app_length in Y. cbn in Y. lia.
  - subst a'. destruct r as [|x r]; cbn [app] in E2.
    + subst b. rewrite app_nil_r. exact H1.
    + subst b. rewrite FR; [|apply K; exists b'; exact E0|].
      * assert (Q : endc h (a ++ e :: x :: r) = endc h (a ++ x :: r)) by (rewrite !endc_app, !endc_cons; reflexivity). rewrite <- Q.
        apply L. rewrite <- app_assoc. reflexivity.
      * apply (D _ b' E0). intros Y. apply (f_equal (@length Z)) in Y. rewrite app_length in Y. cbn in Y. lia.
Qed.
Lemma rem_backed m m' h a e b :
  NoDup (a ++ e :: b) -> backed m h (a ++ e :: b) -> (forall e2 b', b = e2 :: b' -> m' (pv e2) = Some (endc h a)) ->
  (forall x, In x (a ++ b) -> (forall e2 b', b = e2 :: b' -> x <> e2) -> m' (pv x) = m (pv x)) -> backed m' h (a ++ b).
Proof.
  intros N B H2 FR a' x b' E.
  assert (Nab : NoDup (a ++ b)) by (apply NoDup_remove_1 in N; assumption).
  apply app_eq_app in E. destruct E as [r [[E1 E2]|[E1 E2]]].
  - subst a. destruct r as [|y r]; cbn [app] in E2.
    + subst b. rewrite (H2 x b' eq_refl). rewrite app_nil_r. reflexivity.
    + injection E2 as -> ->. rewrite FR.
      * apply (B a' y (r ++ e :: b)). rewrite <- app_assoc. reflexivity.
      * apply in_or_app. left. apply in_or_app. right. left. reflexivity.
      * intros e2 b2 -> ->. rewrite <- app_assoc in Nab. apply NoDup_app_l in Nab. destruct Nab as (_ & Nab & _). cbn [app] in Nab. inversion Nab as [|? ? NI _]; subst.
        apply NI. apply in_or_app. right. left. reflexivity.
  - subst a' b. destruct r as [|y r].
    + rewrite app_nil_r. exact (H2 x b' eq_refl).
    + rewrite FR.
      * rewrite (B (a ++ e :: y :: r) x b') by (rewrite <- app_assoc; reflexivity). f_equal. rewrite !endc_app, !endc_cons. reflexivity.
      * apply in_or_app. right. right. apply in_or_app. right. left. reflexivity.
      * intros e2 b2 Q. cbn [app] in Q. injection Q as <- <-. intros ->. apply NoDup_app_l in Nab. destruct Nab as (_ & Nab & _). cbn [app] in Nab.
        inversion Nab as [|? ? NI _]; subst. apply NI. apply in_or_app. right. left. reflexivity.
Qed.

(** The cells an insertion or removal at the end of [a] may change. *)
Definition touched (h : Z) (a : list Z) (es : list Z) (b : list Z) (c : Z) : Prop :=
  c = endc h a \/ (exists e, In e es /\ In c (ec e)) \/ (dbl = true /\ exists e2 b', b = e2 :: b' /\ c = pv e2) \/ (tl = true /\ b = [] /\ c = h + 8).
Lemma touched_own h a es b c : incl a U -> incl es U -> incl b U -> touched h a es b c -> In c (hc h) \/ exists e, In e (a ++ es ++ b) /\ In c (ec e).
Proof.
  intros Ia Ie Ib [->|[(e & I & J)|[(D & e2 & b' & -> & ->)|(T & -> & ->)]]].
  - destruct (endc_in h a) as [[-> _]|(e & J & -> & _)]; [left; apply hc_first|right; exists e; split; [apply in_or_app; left; assumption|apply ec_nx]].
  - right. exists e. split; [apply in_or_app; right; apply in_or_app; left; assumption|assumption].
  - right. exists e2. split; [apply in_or_app; right; apply in_or_app; right; left; reflexivity|apply ec_pv, D].
  - left. apply hc_last, T.
Qed.
Lemma nodup_parts {A} (a es b k : list A) : NoDup ((a ++ es ++ b) ++ k) -> forall x, In x (a ++ es ++ b) -> ~ In x k.
Proof. intros N x I J. apply NoDup_app_l in N. destruct N as (_ & _ & N). exact (N x I J). Qed.

Ltac ins := repeat (apply in_or_app; cbn [In]); intuition.
(** The other queue and everything else is as before when only touched cells change. *)
Lemma others m m' h l g k a es b :
  inv m h l g k -> incl (a ++ es ++ b) U -> NoDup ((a ++ es ++ b) ++ k) -> (forall c, ~ touched h a es b c -> m' c = m c) -> (forall c, m c <> None -> m' c <> None) ->
  forall l', incl l' U -> NoDup (l' ++ k) -> repr m' h l' -> inv m' h l' g k.
Proof.
  intros [SP IL IK ND RL RK AL FR] IU NK FC AC l' IL' ND' RL'.
  assert (Ia : incl a U) by (intros x J; apply IU; apply in_or_app; left; assumption).
  assert (Ie : incl es U) by (intros x J; apply IU; apply in_or_app; right; apply in_or_app; left; assumption).
  assert (Ib : incl b U) by (intros x J; apply IU; apply in_or_app; right; apply in_or_app; right; assumption).
  constructor; try assumption.
  - apply (repr_frame m); [assumption| |].
    + intros c J. apply FC. intros T. apply touched_own in T; try assumption. destruct T as [T|(e & I & T)]; [exact (sep_hg _ _ SP c T J)|].
      exact (sep_g _ _ SP c e J (IU e I) T).
    + intros c e I J. apply FC. intros T. apply touched_own in T; try assumption. destruct T as [T|(e' & I' & T)]; [exact (sep_h _ _ SP c e T (IK e I) J)|].
      assert (e = e') by exact (sep_e _ _ SP c e e' (IK e I) (IU e' I') J T). subst e'. exact (nodup_parts _ _ _ _ NK e I' I).
  - intros c J. apply AC, AL, J.
  - intros c J1 J2 J3. rewrite FC; [apply FR; assumption|]. intros T. apply touched_own in T; try assumption. destruct T as [T|(e & I & T)]; [exact (J1 T)|].
    exact (J3 e (IU e I) T).
Qed.

Lemma touched_nx h g a es b x : sep h g -> incl b U -> incl es U -> In x U -> ~ In x es -> nx x <> endc h a -> ~ touched h a es b (nx x).
Proof.
  intros SP Ib Ie I N E [T|[(e & J & T)|[(D & e2 & b' & -> & T)|(T & -> & Q)]]].
  - exact (E T).
  - apply N. replace x with e; [assumption|]. exact (eq_sym (sep_e _ _ SP (nx x) x e I (Ie e J) (ec_nx x) T)).
  - revert T. apply (nx_pv h g SP _ _ D I). apply Ib. left; reflexivity.
  - symmetry in Q. revert Q. apply (last_nx h g SP); assumption.
Qed.
Lemma touched_pv h g a es b x : sep h g -> dbl = true -> incl a U -> incl b U -> incl es U -> In x U -> ~ In x es -> (forall e2 b', b = e2 :: b' -> x <> e2) -> ~ touched h a es b (pv x).
Proof.
  intros SP D Ia Ib Ie I N E [T|[(e & J & T)|[(_ & e2 & b' & Q & T)|(T & -> & Q)]]].
  - symmetry in T. revert T. apply (endc_pv h g SP); assumption.
  - apply N. replace x with e; [assumption|]. exact (eq_sym (sep_e _ _ SP (pv x) x e I (Ie e J) (ec_pv x D) T)).
  - apply (E e2 b' Q). lia.
  - symmetry in Q. revert Q. apply (last_pv h g SP); assumption.
Qed.
Lemma touched_h h g a es b : sep h g -> incl b U -> incl es U -> h <> endc h a -> ~ touched h a es b h.
Proof.
  intros SP Ib Ie E [T|[(e & J & T)|[(D & e2 & b' & -> & T)|(T & -> & Q)]]].
  - exact (E T).
  - exact (sep_h _ _ SP h e (hc_first h) (Ie e J) T).
  - revert T. apply (h_pv h g SP); [assumption|apply Ib; left; reflexivity].
  - lia.
Qed.
Lemma touched_last h g a es b : sep h g -> tl = true -> incl a U -> incl b U -> incl es U -> b <> [] -> ~ touched h a es b (h + 8).
Proof.
  intros SP TL Ia Ib Ie NB [T|[(e & J & T)|[(D & e2 & b' & -> & T)|(_ & Q & _)]]].
  - symmetry in T. revert T. apply (endc_last h g SP); assumption.
  - exact (sep_h _ _ SP (h + 8) e (hc_last h TL) (Ie e J) T).
  - revert T. apply (last_pv h g SP); [assumption..|apply Ib; left; reflexivity].
  - exact (NB Q).
Qed.
Lemma touched_cookie h g a es b : sep h g -> xq = true -> incl a U -> incl b U -> incl es U -> ~ touched h a es b (h + 16).
Proof.
  intros SP X Ia Ib Ie [T|[(e & J & T)|[(D & e2 & b' & -> & T)|(T & -> & Q)]]].
  - symmetry in T. revert T. apply (endc_cookie h g SP); assumption.
  - exact (sep_h _ _ SP (h + 16) e (hc_cookie h X) (Ie e J) T).
  - revert T. apply (cookie_pv h g SP); [assumption..|apply Ib; left; reflexivity].
  - lia.
Qed.

(** Insertion. *)
Lemma ins_inv m m' h a b g k e :
  inv m h (a ++ b) g k -> In e U -> ~ In e (a ++ b) -> ~ In e k ->
  m' (endc h a) = Some (enc h e) -> m' (nx e) = Some (enc h (hd 0 b)) -> (dbl = true -> m' (pv e) = Some (endc h a)) ->
  (dbl = true -> forall e2 b', b = e2 :: b' -> m' (pv e2) = Some (nx e)) -> (tl = true -> b = [] -> m' (h + 8) = Some (enc h (nx e))) ->
  (forall c, ~ touched h a [e] b c -> m' c = m c) -> (forall c, m c <> None -> m' c <> None) -> inv m' h (a ++ e :: b) g k.
Proof.
  intros IV IE NE NK H1 H2 H3 H4 H5 FC AC. pose proof IV as [SP IL IK ND (RL & RB & RT & RX) RK AL FR].
  assert (Ia : incl a U) by (intros x J; apply IL; apply in_or_app; left; assumption).
  assert (Ib : incl b U) by (intros x J; apply IL; apply in_or_app; right; assumption).
  assert (Ie : incl [e] U) by (intros x [<-|[]]; assumption).
  assert (IU : incl (a ++ [e] ++ b) U) by (intros x J; apply in_app_or in J; destruct J as [J|[<-|J]]; auto).
  assert (N1 : NoDup ((a ++ e :: b) ++ k)).
  { rewrite <- app_assoc in ND |- *. cbn [app]. apply (Permutation_NoDup (Permutation_middle a (b ++ k) e)).
    constructor; [|assumption]. intros J. rewrite app_assoc in J. apply in_app_or in J. destruct J; auto. }
  assert (N2 : NoDup (a ++ e :: b)) by (apply NoDup_app_l in N1; apply N1).
  apply (others m m' h (a ++ b) g k a [e] b IV IU N1 FC AC); [exact IU|exact N1|].
  split; [|split; [|split]].
  - apply (ins_linked m m' h g); try assumption.
    intros c [->|(x & J & ->)] NE2; apply FC.
    + apply (touched_h h g); assumption.
    + apply (touched_nx h g); try assumption; [apply IL, J|]. intros [<-|[]]. exact (NE J).
  - intros D. apply (ins_backed m); [exact N2|exact (RB D)|exact (H3 D)|exact (H4 D)|].
    intros x J X. apply FC. apply (touched_pv h g); try assumption; [apply IL, J|]. intros [<-|[]]. exact (NE J).
  - intros T. destruct b as [|e2 b'].
    + rewrite endc_snoc. auto.
    + rewrite FC by (apply (touched_last h g); auto; congruence). rewrite (RT T). do 2 f_equal. rewrite !endc_app, !endc_cons. reflexivity.
  - intros X. rewrite FC; [auto|]. apply (touched_cookie h g); assumption.
Qed.
(** Removal. *)
Lemma rem_inv m m' h a e b g k :
  inv m h (a ++ e :: b) g k ->
  m' (endc h a) = Some (enc h (hd 0 b)) -> (dbl = true -> forall e2 b', b = e2 :: b' -> m' (pv e2) = Some (endc h a)) ->
  (tl = true -> b = [] -> m' (h + 8) = Some (enc h (endc h a))) ->
  (forall c, ~ touched h a [e] b c -> m' c = m c) -> (forall c, m c <> None -> m' c <> None) -> inv m' h (a ++ b) g k.
Proof.
  intros IV H1 H4 H5 FC AC. pose proof IV as [SP IL IK ND (RL & RB & RT & RX) RK AL FR].
  assert (Ia : incl a U) by (intros x J; apply IL; apply in_or_app; left; assumption).
  assert (Ib : incl b U) by (intros x J; apply IL; apply in_or_app; right; right; assumption).
  assert (Ie : incl [e] U) by (intros x [<-|[]]; apply IL; apply in_or_app; right; left; reflexivity).
  assert (Iab : incl (a ++ b) U) by (intros x J; apply in_app_or in J; destruct J; auto).
  assert (N2 : NoDup (a ++ e :: b)) by (apply NoDup_app_l in ND; apply ND).
  assert (NE : ~ In e (a ++ b)) by (apply NoDup_remove_2 in N2; assumption).
  assert (N3 : NoDup ((a ++ b) ++ k)) by (rewrite <- app_assoc in ND |- *; cbn [app] in ND; apply NoDup_remove_1 in ND; assumption).
  apply (others m m' h (a ++ e :: b) g k a [e] b IV IL ND FC AC); [exact Iab|exact N3|].
  split; [|split; [|split]].
  - apply (rem_linked m m' h g a e b); try assumption.
    intros c [->|(x & J & ->)] NE2; apply FC.
    + apply (touched_h h g); assumption.
    + apply (touched_nx h g); try assumption; [apply Iab, J|]. intros [<-|[]]. exact (NE J).
  - intros D. apply (rem_backed m m' h a e b); [exact N2|exact (RB D)|exact (H4 D)|].
    intros x J X. apply FC. apply (touched_pv h g); try assumption; [apply Iab, J|]. intros [<-|[]]. exact (NE J).
  - intros T. destruct b as [|e2 b'].
    + rewrite app_nil_r. auto.
    + rewrite FC by (apply (touched_last h g); auto; congruence). rewrite (RT T). do 2 f_equal. rewrite !endc_app, !endc_cons. reflexivity.
  - intros X. rewrite FC; [auto|]. apply (touched_cookie h g); assumption.
Qed.

(** Memory changed at some addresses only. *)
Inductive mods (T : Z -> Prop) (m : mem) : mem -> Prop :=
| mods_nil : mods T m m
| mods_upd m' a v : T a -> mods T m m' -> mods T m (upd m' a v).
Lemma mods_frame T m m' : mods T m m' -> forall c, ~ T c -> m' c = m c.
Proof. induction 1 as [|m' a v H _ IH]; intros c N; [reflexivity|]. rewrite upd_neq; [auto|]. intros ->. exact (N H). Qed.
Lemma mods_alloc T m m' : mods T m m' -> forall c, m c <> None -> m' c <> None.
Proof. induction 1 as [|m' a v H _ IH]; intros c N; [assumption|]. apply upd_alloc, IH, N. Qed.

(** One element put in the place of another. *)
Lemma rep_inv m m' h a e b g k e2 :
  inv m h (a ++ e :: b) g k -> In e2 U -> ~ In e2 (a ++ e :: b) -> ~ In e2 k ->
  m' (endc h a) = Some (enc h e2) -> m' (nx e2) = Some (enc h (hd 0 b)) -> (dbl = true -> m' (pv e2) = Some (endc h a)) ->
  (dbl = true -> forall x b', b = x :: b' -> m' (pv x) = Some (nx e2)) -> (tl = true -> b = [] -> m' (h + 8) = Some (enc h (nx e2))) ->
  (forall c, ~ touched h a [e2] b c -> m' c = m c) -> (forall c, m c <> None -> m' c <> None) -> inv m' h (a ++ e2 :: b) g k.
Proof.
  intros IV IE NE NK H1 H2 H3 H4 H5 FC AC. pose proof IV as [SP IL IK ND (RL & RB & RT & RX) RK AL FR].
  assert (Ia : incl a U) by (intros x J; apply IL; apply in_or_app; left; assumption).
  assert (Ib : incl b U) by (intros x J; apply IL; apply in_or_app; right; right; assumption).
  set (m1 := fun c => if c =? endc h a then Some (enc h (hd 0 b))
    else if dbl && match b with x :: _ => c =? pv x | [] => false end then Some (endc h a)
    else if tl && match b with [] => c =? h + 8 | _ => false end then Some (enc h (endc h a)) else m c).
  assert (F1 : forall c, ~ touched h a [] b c -> m1 c = m c).
  { intros c N. unfold m1. destruct (Z.eqb_spec c (endc h a)) as [->|_]; [exfalso; apply N; left; reflexivity|].
    destruct dbl eqn:D, tl eqn:T, b as [|x b']; cbn [andb]; try reflexivity.
    - destruct (Z.eqb_spec c (h + 8)) as [->|_]; [|reflexivity]. exfalso; apply N. right; right; right. auto.
    - destruct (Z.eqb_spec c (pv x)) as [->|_]; [|reflexivity]. exfalso; apply N. right; right; left. split; [assumption|]. exists x, b'. auto.
    - destruct (Z.eqb_spec c (pv x)) as [->|_]; [|reflexivity]. exfalso; apply N. right; right; left. split; [assumption|]. exists x, b'. auto.
    - destruct (Z.eqb_spec c (h + 8)) as [->|_]; [|reflexivity]. exfalso; apply N. right; right; right. auto. }
  assert (SUB : forall x c, ~ touched h a [x] b c -> ~ touched h a [] b c).
  { intros x c N T. apply N. destruct T as [T|[(y & [] & _)|[T|T]]]; [left|right; right; left|right; right; right]; assumption. }
  assert (IV1 : inv m1 h (a ++ b) g k).
  { apply (rem_inv m m1 h a e b g k IV).
    - unfold m1. rewrite Z.eqb_refl. reflexivity.
    - intros D x b' ->. unfold m1. destruct (Z.eqb_spec (pv x) (endc h a)) as [E|_].
      + exfalso. symmetry in E. revert E. apply (endc_pv h g SP); [assumption..|]. apply Ib. left; reflexivity.
      + rewrite D, Z.eqb_refl. reflexivity.
    - intros T ->. unfold m1. destruct (Z.eqb_spec (h + 8) (endc h a)) as [E|_].
      + exfalso. symmetry in E. revert E. apply (endc_last h g SP); assumption.
      + rewrite T, andb_false_r, Z.eqb_refl. reflexivity.
    - intros c N. apply F1, (SUB e), N.
    - intros c N. unfold m1. destruct (c =? endc h a); [congruence|]. destruct (dbl && _); [congruence|]. destruct (tl && _); congruence. }
  assert (NE' : ~ In e2 (a ++ b)) by (intros J; apply NE; apply in_app_or in J; apply in_or_app; destruct J; [left|right; right]; assumption).
  apply (ins_inv m1 m' h a b g k e2 IV1 IE NE' NK H1 H2 H3 H4 H5).
  - intros c N. rewrite (FC c N). symmetry. apply F1, (SUB e2), N.
  - intros c N. apply AC. intros Q. apply N. rewrite F1; [assumption|]. intros T. apply (touched_own h a [] b c Ia (fun x (J : In x []) => match J with end) Ib) in T.
    revert Q. apply AL. destruct T as [T|(x & J & T)]; [left; assumption|right; right; exists x; split; [|assumption]].
    apply IL. apply in_app_or in J. apply in_or_app. destruct J; [left|right; right]; assumption.
Qed.

(** The elements of the second queue appended to the first. *)
Lemma cat_inv m m' h l g x k :
  xq = false -> ck h = ck g -> inv m h l g (x :: k) ->
  m' (endc h l) = Some (enc h x) -> (dbl = true -> m' (pv x) = Some (endc h l)) -> (tl = true -> m' (h + 8) = Some (enc h (endc g (x :: k)))) ->
  m' g = Some (enc g 0) -> (tl = true -> m' (g + 8) = Some (enc g g)) ->
  (forall c, c <> endc h l -> (dbl = true -> c <> pv x) -> (tl = true -> c <> h + 8) -> c <> g -> (tl = true -> c <> g + 8) -> m' c = m c) ->
  (forall c, m c <> None -> m' c <> None) -> inv m' h (l ++ x :: k) g [].
Proof.
  intros XQ CK [SP IL IK ND (RL & RB & RT & RX) (SL & SB & ST & SX) AL FR] H1 H2 H3 H4 H5 FC AC.
  pose proof (sep_swap _ _ SP) as SP'.
  assert (Ix : In x U) by (apply IK; left; reflexivity).
  assert (ENC : forall v, enc g v = enc h v) by (intros v; unfold enc; rewrite CK; reflexivity).
  pose proof (NoDup_app_l _ _ ND) as (Nl & Nk & Nlk).
  assert (EC : endc h l = h \/ exists y, In y l /\ In y U /\ endc h l = nx y) by (destruct (endc_in h l) as [[-> _]|(y & J & -> & _)]; [left; reflexivity|right; exists y; auto]).
  assert (NXl : forall y, In y U -> ~ In y l -> nx y <> endc h l) by (intros y I J E; symmetry in E; revert E; apply (endc_nx h g SP); assumption).
  assert (NX : forall y, In y U -> nx y <> endc h l -> m' (nx y) = m (nx y)).
  { intros y I E. apply FC; [assumption| | | |].
    - intros D. apply (nx_pv h g SP); assumption.
    - intros T Q. symmetry in Q. revert Q. apply (last_nx h g SP); assumption.
    - intros Q. symmetry in Q. revert Q. apply (h_nx g h SP'); assumption.
    - intros T Q. symmetry in Q. revert Q. apply (last_nx g h SP'); assumption. }
  assert (PV : dbl = true -> forall y, In y U -> y <> x -> m' (pv y) = m (pv y)).
  { intros D y I E. apply FC.
    - intros Q. symmetry in Q. revert Q. apply (endc_pv h g SP); assumption.
    - intros _. lia.
    - intros T Q. symmetry in Q. revert Q. apply (last_pv h g SP); assumption.
    - intros Q. symmetry in Q. revert Q. apply (h_pv g h SP'); assumption.
    - intros T Q. symmetry in Q. revert Q. apply (last_pv g h SP'); assumption. }
  constructor.
  - assumption.
  - intros y J. apply in_app_or in J. destruct J; auto.
  - intros y [].
  - rewrite app_nil_r. assumption.
  - split; [|split; [|split]].
    + intros a b E. pose proof E as E0. apply app_eq_app in E. destruct E as [r [[E1 E2]|[E1 E2]]].
      * destruct r as [|y r]; [rewrite app_nil_r in E1; cbn [app] in E2; subst a b; exact H1|].
        assert (NEQ : endc h a <> endc h l).
        { intros Q. assert (a = l) by exact (endc_inj h g SP l a (y :: r) l [] IL Nl E1 (eq_sym (app_nil_r l)) Q).
          subst a. apply (f_equal (@length Z)) in E1. rewrite app_length in E1. cbn in E1. lia. }
        destruct (endc_in h a) as [[Q Na]|(z & J & Q & _)].
        -- rewrite Q in NEQ |- *. rewrite FC.
           ++ pose proof (RL a (y :: r) E1) as R. rewrite Q in R. rewrite R. subst b. reflexivity.
           ++ assumption.
           ++ intros D. apply (h_pv h g SP); assumption.
           ++ intros T. lia.
           ++ intros ->. exact (sep_hg _ _ SP g (hc_first g) (hc_first g)).
           ++ intros T Q2. apply (sep_hg _ _ SP h (hc_first h)). rewrite Q2. apply hc_last, T.
        -- rewrite Q in NEQ |- *. rewrite NX; [|apply IL; rewrite E1; apply in_or_app; left; assumption|assumption]. pose proof (RL a (y :: r) E1) as R. rewrite Q in R. rewrite R. subst b. reflexivity.
      * subst a. destruct r as [|y r]; [cbn [app] in E2; subst b; rewrite app_nil_r; exact H1|].
        assert (Q : endc h (l ++ y :: r) = endc g (y :: r)) by (rewrite endc_app, !endc_cons; reflexivity). rewrite Q.
        assert (IR : incl (y :: r) (x :: k)) by (intros z J; rewrite E2; apply in_or_app; left; assumption).
        destruct (endc_in g (y :: r)) as [[_ N0]|(z & J & Q2 & _)]; [discriminate|]. rewrite Q2.
        rewrite NX; [rewrite <- Q2; rewrite (SL (y :: r) b E2); rewrite ENC; reflexivity|apply IK, IR, J|]. apply NXl; [apply IK, IR, J|]. intros J2. exact (Nlk z J2 (IR z J)).
    + intros D a y b E. pose proof E as E0. apply app_eq_app in E. destruct E as [r [[E1 E2]|[E1 E2]]].
      * destruct r as [|z r]; cbn [app] in E2.
        -- rewrite app_nil_r in E1. subst a. injection E2 as -> _. exact (H2 D).
        -- injection E2 as <- _. subst l. rewrite PV; [apply (RB D a y r eq_refl)|assumption|apply IL; apply in_or_app; right; left; reflexivity|].
           intros ->. apply (Nlk x); [apply in_or_app; right; left; reflexivity|left; reflexivity].
      * subst a. destruct r as [|z r]; cbn [app] in E2; injection E2 as E3 E2.
        -- subst y. rewrite app_nil_r. exact (H2 D).
        -- subst z. rewrite PV; [|assumption|apply IK; rewrite E2; right; apply in_or_app; right; left; reflexivity|].
           ++ rewrite (SB D (x :: r) y b) by (rewrite E2; reflexivity). f_equal. rewrite endc_app, !endc_cons. reflexivity.
           ++ intros ->. inversion Nk as [|? ? NI _]; subst. apply NI. apply in_or_app. right. left. reflexivity.
    + intros T. rewrite (H3 T). do 2 f_equal. rewrite endc_app, !endc_cons. reflexivity.
    + congruence.
  - split; [|split; [|split]].
    + intros a b E. symmetry in E. apply app_eq_nil in E. destruct E as [-> ->]. exact H4.
    + intros D a y b E. symmetry in E. apply app_eq_nil in E. destruct E; discriminate.
    + intros T. exact (H5 T).
    + congruence.
  - intros c J. apply AC, AL, J.
  - intros c J1 J2 J3. rewrite FC; [apply FR; assumption| | | | |].
    + intros ->. destruct EC as [Q|(y & I & I2 & Q)]; [apply J1; rewrite Q; apply hc_first|apply (J3 y I2); rewrite Q; apply ec_nx].
    + intros D ->. apply (J3 x Ix). apply ec_pv, D.
    + intros T ->. apply J1, hc_last, T.
    + intros ->. apply J2, hc_first.
    + intros T ->. apply J2, hc_last, T.
Qed.

(** Two empty queues. *)
Lemma init_inv m h g :
  sep h g -> (forall c, In c (hc h) \/ In c (hc g) \/ (exists e, In e U /\ In c (ec e)) -> m c <> None) ->
  (forall c, ~ In c (hc h) -> ~ In c (hc g) -> m c = m0 c) ->
  m h = Some (enc h 0) -> (tl = true -> m (h + 8) = Some (enc h h)) -> (xq = true -> m (h + 16) = Some (ck h)) ->
  m g = Some (enc g 0) -> (tl = true -> m (g + 8) = Some (enc g g)) -> (xq = true -> m (g + 16) = Some (ck g)) -> inv m h [] g [].
Proof.
  intros SP AL FR A1 A2 A3 B1 B2 B3. constructor; auto; try (intros x []; fail); try (constructor; fail).
  - split; [|split; [|split]]; auto.
    + intros a b E. symmetry in E. apply app_eq_nil in E. destruct E as [-> ->]. exact A1.
    + intros D a y b E. symmetry in E. apply app_eq_nil in E. destruct E; discriminate.
  - split; [|split; [|split]]; auto.
    + intros a b E. symmetry in E. apply app_eq_nil in E. destruct E as [-> ->]. exact B1.
    + intros D a y b E. symmetry in E. apply app_eq_nil in E. destruct E; discriminate.
Qed.

(** What [inv] says about single cells. *)
Lemma inv_end m h a b g k : inv m h (a ++ b) g k -> m (endc h a) = Some (enc h (hd 0 b)).
Proof. intros IV. apply (i_rl _ _ _ _ _ IV). reflexivity. Qed.
Lemma inv_pv m h a e b g k : dbl = true -> inv m h (a ++ e :: b) g k -> m (pv e) = Some (endc h a).
Proof. intros D IV. destruct (i_rl _ _ _ _ _ IV) as (_ & B & _). exact (B D a e b eq_refl). Qed.
Lemma inv_last m h l g k : tl = true -> inv m h l g k -> m (h + 8) = Some (enc h (endc h l)).
Proof. intros D IV. destruct (i_rl _ _ _ _ _ IV) as (_ & _ & T & _). exact (T D). Qed.
Lemma inv_cookie m h l g k : xq = true -> inv m h l g k -> m (h + 16) = Some (ck h).
Proof. intros D IV. destruct (i_rl _ _ _ _ _ IV) as (_ & _ & _ & X). exact (X D). Qed.
Lemma inv_nx m h l g k e : inv m h l g k -> In e U -> m (nx e) <> None.
Proof. intros IV I. apply (i_al _ _ _ _ _ IV). right; right. exists e. split; [assumption|apply ec_nx]. Qed.
Lemma inv_pvn m h l g k e : dbl = true -> inv m h l g k -> In e U -> m (pv e) <> None.
Proof. intros D IV I. apply (i_al _ _ _ _ _ IV). right; right. exists e. split; [assumption|apply ec_pv, D]. Qed.
Lemma inv_nodup m h a e b g k : inv m h (a ++ e :: b) g k -> ~ In e a /\ ~ In e b /\ ~ In e k.
Proof.
  intros IV. pose proof (i_nd _ _ _ _ _ IV) as N. rewrite <- app_assoc in N. cbn [app] in N. apply NoDup_remove_2 in N.
  split; [|split]; intros J; apply N; apply in_or_app; [left; assumption|right; apply in_or_app; left; assumption|right; apply in_or_app; right; assumption].
Qed.
Lemma t_end h a es b : touched h a es b (endc h a). Proof. left. reflexivity. Qed.
Lemma t_nx h a e es b : In e es -> touched h a es b (nx e). Proof. intros I. right; left. exists e. split; [assumption|apply ec_nx]. Qed.
Lemma t_pv h a e es b : dbl = true -> In e es -> touched h a es b (pv e). Proof. intros D I. right; left. exists e. split; [assumption|apply ec_pv, D]. Qed.
Lemma t_b h a es e2 b : dbl = true -> touched h a es (e2 :: b) (pv e2). Proof. intros D. right; right; left. split; [assumption|]. exists e2, b. auto. Qed.
Lemma t_last h a es : tl = true -> touched h a es [] (h + 8). Proof. intros D. right; right; right. auto. Qed.
End Queue.
