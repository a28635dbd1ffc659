(** The loops of SPLAY and SPLAY_MINMAX rebuild the tree as [spl] says. *)
From Verif Require Import BaseLemmas SplayModel SplayTree.
Import ListNotations.

Definition allof (fsL : list (stree * Z)) (t : stree) (fsR : list (stree * Z)) : list Z := lel fsL ++ elems t ++ rel fsR.
Definition inv (m : smem) (fsL : list (stree * Z)) (t : stree) (fsR : list (stree * Z)) : Prop :=
  sroot m = rt t /\ rep m t /\ lopen m fsL /\ ropen m fsR /\ alive m NODE = true /\ once (allof fsL t fsR).
(** Only the fields of the elements of [l] and of the local structure are changed. *)
Definition only (l : list Z) (m m' : smem) : Prop :=
  alive m' = alive m /\ forall e, e <> NODE -> cnt e l = 0%nat -> lefts m' e = lefts m e /\ rights m' e = rights m e.
Lemma only_refl l m : only l m m.
Proof. split; auto. Qed.
Lemma only_trans l l' a b c : (forall e, cnt e l = cnt e l') -> only l a b -> only l' b c -> only l a c.
Proof.
  intros Q (A & B) (C & D). split; [congruence|]. intros e N J. destruct (B e N J) as (-> & ->) || idtac.
  destruct (B e N J), (D e N ltac:(rewrite <- Q; auto)). split; congruence.
Qed.
Ltac cn := unfold allof in *; cbn [lel rel elems cnt app] in *; rewrite ?cnt_app in *; cbn [cnt] in *; rewrite ?cnt_app in *; cbn [cnt] in *; rewrite ?Z.eqb_refl in *.

Lemma lchain_pos m fs e : forall tgt, lchain m tgt fs -> (0 < cnt e (lel fs))%nat -> 0 < e /\ alive m e = true.
Proof.
  induction fs as [|[l x] fs IH]; cbn [lchain lel cnt]; [cbn; lia|]. intros tgt (A & B & _ & _ & C & D). cn.
  destruct (Z.eqb_spec x e); [subst; auto|]. intros J. destruct (cnt e (elems l)) eqn:Q; [apply (IH _ D); lia|apply (rep_pos m l); auto; lia].
Qed.
Lemma lopen_pos m fs e : lopen m fs -> (0 < cnt e (lel fs))%nat -> 0 < e /\ alive m e = true.
Proof.
  destruct fs as [|[l x] fs]; cbn [lopen lel]; [cbn; lia|]. intros (A & B & _ & C & D). cn.
  destruct (Z.eqb_spec x e); [subst; auto|]. intros J. destruct (cnt e (elems l)) eqn:Q; [apply (lchain_pos m fs _ _ D); lia|apply (rep_pos m l); auto; lia].
Qed.

Lemma rchain_pos m fs e : forall tgt, rchain m tgt fs -> (0 < cnt e (rel fs))%nat -> 0 < e /\ alive m e = true.
Proof.
  induction fs as [|[l x] fs IH]; cbn [rchain rel cnt]; [cbn; lia|]. intros tgt (A & B & _ & _ & C & D). cn.
  destruct (Z.eqb_spec x e); [subst; auto|]. intros J. destruct (cnt e (elems l)) eqn:Q; [apply (IH _ D); lia|apply (rep_pos m l); auto; lia].
Qed.
Lemma ropen_pos m fs e : ropen m fs -> (0 < cnt e (rel fs))%nat -> 0 < e /\ alive m e = true.
Proof.
  destruct fs as [|[l x] fs]; cbn [ropen rel]; [cbn; lia|]. intros (A & B & _ & C & D). cn.
  destruct (Z.eqb_spec x e); [subst; auto|]. intros J. destruct (cnt e (elems l)) eqn:Q; [apply (rchain_pos m fs _ _ D); lia|apply (rep_pos m l); auto; lia].
Qed.

(** SPLAY_LINKLEFT: the root goes to the tree of greater elements. *)
Lemma linkleft_ok m fsL l x r fsR : inv m fsL (SN l x r) fsR ->
  exists m', linkleft (rptr fsR) m = Ok (x, m') /\ inv m' fsL l ((r, x) :: fsR) /\ only (allof fsL (SN l x r) fsR) m m' /\ ticks m' = ticks m /\ sroot m' = rt l.
Proof.
  intros (A & R & LO & RO & N & O). cbn [rep] in R. destruct R as (X0 & XA & XL & XR & RL & RR). cbn [rt] in A.
  destruct (rptr_ok m fsR RO N) as (P0 & PA).
  assert (PX : rptr fsR <> x). { intros Q. destruct (rptr_el fsR) as [K|K]; [unfold NODE in K; lia|]. pose proof (O x) as O'. rewrite Q in K. cn. lia. }
  unfold linkleft. rewrite set_sleft_k by auto. cbn [bind]. rewrite A. cbn [updL sroot].
  rewrite A. rewrite sleft_k; [|lia|auto]. cbn [bind updL lefts]. rewrite upd_other by auto. rewrite XL.
  eexists. split; [reflexivity|].
  assert (Y : forall e, e <> rptr fsR -> eqat m (updL (rptr fsR) x m) e). { intros e NE. unfold eqat. cbn. rewrite upd_other by auto. auto. }
  assert (Z0 : forall e, (0 < cnt e (allof fsL (SN l x r) []))%nat -> e <> rptr fsR).
  { intros e J ->. destruct (rptr_el fsR) as [K|K].
    - rewrite K in J. assert (0 < NODE); [|unfold NODE in *; lia]. cn. destruct (Z.eqb_spec x NODE); [lia|].
      destruct (cnt NODE (lel fsL)) eqn:Q1; [|clear -LO Q1; exact (match lopen_pos m fsL NODE LO ltac:(lia) with conj p _ => p end)].
      destruct (cnt NODE (elems l)) eqn:Q2; [|exact (proj1 (rep_pos m l NODE RL ltac:(lia)))].
      destruct (cnt NODE (elems r)) eqn:Q3; [|exact (proj1 (rep_pos m r NODE RR ltac:(lia)))]. lia.
    - pose proof (O (rptr fsR)) as O'. cn. lia. }
  split; [|split; [|split; reflexivity]].
  - unfold inv, set_sroot. cbn [sroot]. split; [reflexivity|]. split; [|split; [|split; [|split]]].
    + apply (rep_eq m); auto. intros e J. apply Y, Z0. cn. lia.
    + apply (lopen_eq m); auto. intros e J. apply Y, Z0. cn. lia.
    + cbn [ropen]. split; [auto|]. split; [auto|]. split; [exact XR|]. split; [apply (rep_eq m); auto; intros e J; apply Y, Z0; cn; lia|].
      apply (rchain_eq (updL (rptr fsR) x m)); [intros; split; auto|reflexivity|]. apply ropen_tie; auto. intros e. pose proof (O e). cn. lia.
    + exact N.
    + intros e. pose proof (O e). cn. lia.
  - split; [reflexivity|]. intros e NE J. cbn [lefts rights set_sroot updL]. split; [|reflexivity]. apply upd_other. intros ->.
    destruct (rptr_el fsR) as [K|K]; [contradiction|]. cn. lia.
Qed.
(** SPLAY_ROTATE_RIGHT. *)
Lemma srotate_right_ok m fsL ll y lr x r fsR : inv m fsL (SN (SN ll y lr) x r) fsR ->
  exists m', srotate_right y m = Ok m' /\ inv m' fsL (SN ll y (SN lr x r)) fsR /\ only (allof fsL (SN (SN ll y lr) x r) fsR) m m' /\ ticks m' = ticks m.
Proof.
  intros (A & R & LO & RO & N & O). cbn [rep rt] in R. destruct R as (X0 & XA & XL & XR & (Y0 & YA & YL & YR & RLL & RLR) & RR). cbn [rt] in A.
  assert (XY : x <> y). { intros ->. pose proof (O y). cn. lia. }
  unfold srotate_right. rewrite sright_k by (lia || auto). cbn [bind]. rewrite A. rewrite set_sleft_k by (lia || auto). cbn [bind updL sroot]. rewrite A.
  rewrite set_sright_k; [|lia|auto]. cbn [bind]. rewrite YR.
  eexists. split; [reflexivity|].
  set (m' := set_sroot y _).
  assert (Y : forall e, e <> x -> e <> y -> eqat m m' e). { intros e N1 N2. unfold eqat, m'. cbn. rewrite !upd_other by auto. auto. }
  assert (Z0 : forall e, (0 < cnt e (lel fsL ++ elems ll ++ elems lr ++ elems r ++ rel fsR))%nat -> e <> x /\ e <> y).
  { intros e J. split; intros ->; pose proof (O x); pose proof (O y); cn; lia. }
  split; [|split; [|reflexivity]].
  - unfold inv. split; [reflexivity|]. split; [|split; [|split; [|split]]].
    + cbn [rep rt]. unfold m' at 1 2 3. cbn [alive lefts rights set_sroot updR updL]. rewrite upd_same, (upd_other _ x) by auto. repeat (split; [assumption || reflexivity|]).
      split; [apply (rep_eq m); auto; intros e J; apply Y; apply Z0; rewrite !cnt_app; lia|].
      split; [auto|]. split; [exact XA|]. unfold m' at 1 2. cbn [lefts rights set_sroot updR updL]. rewrite upd_same, upd_other by auto. repeat (split; [assumption || reflexivity|]).
      split; apply (rep_eq m); auto; intros e J; apply Y; apply Z0; rewrite !cnt_app; lia.
    + apply (lopen_eq m); auto. intros e J; apply Y; apply Z0; rewrite !cnt_app; lia. cbn. rewrite ?upd_other by (unfold NODE; lia). reflexivity.
    + apply (ropen_eq m); auto. intros e J; apply Y; apply Z0; rewrite !cnt_app; lia. cbn. rewrite ?upd_other by (unfold NODE; lia). reflexivity.
    + exact N.
    + intros e. pose proof (O e). cn. lia.
  - split; [reflexivity|]. intros e NE J. unfold m'. cbn [lefts rights set_sroot updL updR].
    assert (e <> x /\ e <> y) as (N1 & N2). { split; intros ->; cn; lia. } rewrite !upd_other by auto. auto.
Qed.
(** SPLAY_LINKRIGHT: the root goes to the tree of lesser elements. *)
Lemma linkright_ok m fsL l x r fsR : inv m fsL (SN l x r) fsR ->
  exists m', linkright (lptr fsL) m = Ok (x, m') /\ inv m' ((l, x) :: fsL) r fsR /\ only (allof fsL (SN l x r) fsR) m m' /\ ticks m' = ticks m /\ sroot m' = rt r.
Proof.
  intros (A & R & LO & RO & N & O). cbn [rep] in R. destruct R as (X0 & XA & XL & XR & RL & RR). cbn [rt] in A.
  destruct (lptr_ok m fsL LO N) as (P0 & PA).
  assert (PX : lptr fsL <> x). { intros Q. destruct (lptr_el fsL) as [K|K]; [unfold NODE in K; lia|]. pose proof (O x) as O'. rewrite Q in K. cn. lia. }
  unfold linkright. rewrite set_sright_k by auto. cbn [bind]. rewrite A. cbn [updR sroot].
  rewrite A. rewrite sright_k; [|lia|auto]. cbn [bind updR rights]. rewrite upd_other by auto. rewrite XR.
  eexists. split; [reflexivity|].
  assert (Y : forall e, e <> lptr fsL -> eqat m (updR (lptr fsL) x m) e). { intros e NE. unfold eqat. cbn. rewrite upd_other by auto. auto. }
  assert (Z0 : forall e, (0 < cnt e (allof [] (SN l x r) fsR))%nat -> e <> lptr fsL).
  { intros e J ->. destruct (lptr_el fsL) as [K|K].
    - rewrite K in J. assert (0 < NODE); [|unfold NODE in *; lia]. cn. destruct (Z.eqb_spec x NODE); [lia|].
      destruct (cnt NODE (rel fsR)) eqn:Q1; [|clear -RO Q1; exact (match ropen_pos m fsR NODE RO ltac:(lia) with conj p _ => p end)].
      destruct (cnt NODE (elems l)) eqn:Q2; [|exact (proj1 (rep_pos m l NODE RL ltac:(lia)))].
      destruct (cnt NODE (elems r)) eqn:Q3; [|exact (proj1 (rep_pos m r NODE RR ltac:(lia)))]. lia.
    - pose proof (O (lptr fsL)) as O'. cn. lia. }
  split; [|split; [|split; reflexivity]].
  - unfold inv, set_sroot. cbn [sroot]. split; [reflexivity|]. split; [|split; [|split; [|split]]].
    + apply (rep_eq m); auto. intros e J. apply Y, Z0. cn. lia.
    + cbn [lopen]. split; [auto|]. split; [auto|]. split; [exact XL|]. split; [apply (rep_eq m); auto; intros e J; apply Y, Z0; cn; lia|].
      apply (lchain_eq (updR (lptr fsL) x m)); [intros; split; auto|reflexivity|]. apply lopen_tie; auto. intros e. pose proof (O e). cn. lia.
    + apply (ropen_eq m); auto. intros e J. apply Y, Z0. cn. lia.
    + exact N.
    + intros e. pose proof (O e). cn. lia.
  - split; [reflexivity|]. intros e NE J. cbn [lefts rights set_sroot updR]. split; [reflexivity|]. apply upd_other. intros ->.
    destruct (lptr_el fsL) as [K|K]; [contradiction|]. cn. lia.
Qed.
(** SPLAY_ROTATE_LEFT. *)
Lemma srotate_left_ok m fsL l x rl y rr fsR : inv m fsL (SN l x (SN rl y rr)) fsR ->
  exists m', srotate_left y m = Ok m' /\ inv m' fsL (SN (SN l x rl) y rr) fsR /\ only (allof fsL (SN l x (SN rl y rr)) fsR) m m' /\ ticks m' = ticks m.
Proof.
  intros (A & R & LO & RO & N & O). cbn [rep rt] in R. destruct R as (X0 & XA & XL & XR & RL & (Y0 & YA & YL & YR & RRL & RRR)). cbn [rt] in A.
  assert (XY : x <> y). { intros ->. pose proof (O y). cn. lia. }
  unfold srotate_left. rewrite sleft_k by (lia || auto). cbn [bind]. rewrite A. rewrite set_sright_k by (lia || auto). cbn [bind updR sroot]. rewrite A.
  rewrite set_sleft_k; [|lia|auto]. cbn [bind]. rewrite YL.
  eexists. split; [reflexivity|].
  set (m' := set_sroot y _).
  assert (Y : forall e, e <> x -> e <> y -> eqat m m' e). { intros e N1 N2. unfold eqat, m'. cbn. rewrite !upd_other by auto. auto. }
  assert (Z0 : forall e, (0 < cnt e (lel fsL ++ elems l ++ elems rl ++ elems rr ++ rel fsR))%nat -> e <> x /\ e <> y).
  { intros e J. split; intros ->; pose proof (O x); pose proof (O y); cn; lia. }
  split; [|split; [|reflexivity]].
  - unfold inv. split; [reflexivity|]. split; [|split; [|split; [|split]]].
    + cbn [rep rt]. unfold m' at 1 2 3. cbn [alive lefts rights set_sroot updR updL]. rewrite upd_same, (upd_other _ x) by auto. repeat (split; [assumption || reflexivity|]).
      split; [|apply (rep_eq m); auto; intros e J; apply Y; apply Z0; rewrite !cnt_app; lia].
      split; [auto|]. split; [exact XA|]. unfold m' at 1 2. cbn [lefts rights set_sroot updR updL]. rewrite upd_same, upd_other by auto. repeat (split; [assumption || reflexivity|]).
      split; apply (rep_eq m); auto; intros e J; apply Y; apply Z0; rewrite !cnt_app; lia.
    + apply (lopen_eq m); auto. intros e J; apply Y; apply Z0; rewrite !cnt_app; lia. cbn. rewrite ?upd_other by (unfold NODE; lia). reflexivity.
    + apply (ropen_eq m); auto. intros e J; apply Y; apply Z0; rewrite !cnt_app; lia. cbn. rewrite ?upd_other by (unfold NODE; lia). reflexivity.
    + exact N.
    + intros e. pose proof (O e). cn. lia.
  - split; [reflexivity|]. intros e NE J. unfold m'. cbn [lefts rights set_sroot updL updR].
    assert (e <> x /\ e <> y) as (N1 & N2). { split; intros ->; cn; lia. } rewrite !upd_other by auto. auto.
Qed.

(** SPLAY_ASSEMBLE. *)
Lemma assemble_ok m fsL l x r fsR : inv m fsL (SN l x r) fsR ->
  exists m', assemble (lptr fsL) (rptr fsR) m = Ok m' /\ sroot m' = x /\ rep m' (SN (plugL fsL l) x (plugR fsR r)) /\ only (allof fsL (SN l x r) fsR) m m' /\ ticks m' = ticks m.
Proof.
  intros (A & R & LO & RO & N & O). cbn [rep] in R. destruct R as (X0 & XA & XL & XR & RL & RR). cbn [rt] in A.
  destruct (lptr_ok m fsL LO N) as (P0 & PA). destruct (rptr_ok m fsR RO N) as (Q0 & QA).
  assert (PX : lptr fsL <> x). { intros Q. destruct (lptr_el fsL) as [K|K]; [unfold NODE in K; lia|]. pose proof (O x) as O'. rewrite Q in K. cn. lia. }
  assert (QX : rptr fsR <> x). { intros Q. destruct (rptr_el fsR) as [K|K]; [unfold NODE in K; lia|]. pose proof (O x) as O'. rewrite Q in K. cn. lia. }
  unfold assemble. rewrite A, sleft_k by (lia || auto). cbn [bind]. rewrite set_sright_k by auto. unfold updR. cbn [bind sroot]. rewrite A.
  rewrite sright_k by (lia || auto). cbn [bind rights]. rewrite upd_other by auto. rewrite set_sleft_k by auto. unfold updL. cbn [bind sroot lefts rights alive ticks].
  rewrite sright_k by (unfold NODE; lia || auto). cbn [bind sroot]. rewrite ?A. rewrite set_sleft_k by (lia || auto). unfold updL. cbn [bind sroot lefts rights alive ticks].
  rewrite sleft_k by (unfold NODE; lia || auto). cbn [bind sroot]. rewrite ?A. rewrite set_sright_k by (lia || auto). unfold updR. cbn [lefts rights alive ticks sroot].
  eexists. split; [reflexivity|].
  set (m1 := Smem (sroot m) (alive m) (upd (lefts m) (rptr fsR) (rights m x)) (upd (rights m) (lptr fsL) (lefts m x)) (ticks m)).
  assert (NP : forall e, (0 < cnt e (allof fsL (SN l x r) fsR))%nat -> e <> NODE).
  { intros e J ->. assert (0 < NODE); [|unfold NODE in *; lia]. cn. destruct (Z.eqb_spec x NODE); [lia|].
    destruct (cnt NODE (lel fsL)) eqn:Q1; [|exact (proj1 (lopen_pos m fsL NODE LO ltac:(lia)))].
    destruct (cnt NODE (rel fsR)) eqn:Q2; [|exact (proj1 (ropen_pos m fsR NODE RO ltac:(lia)))].
    destruct (cnt NODE (elems l)) eqn:Q3; [|exact (proj1 (rep_pos m l NODE RL ltac:(lia)))].
    destruct (cnt NODE (elems r)) eqn:Q4; [|exact (proj1 (rep_pos m r NODE RR ltac:(lia)))]. lia. }
  assert (ML : forall e, (0 < cnt e (elems l ++ elems r ++ rel fsR))%nat -> e <> lptr fsL).
  { intros e J ->. destruct (lptr_el fsL) as [K|K]; [apply (NP (lptr fsL)); auto; cn; lia|]. pose proof (O (lptr fsL)). cn. lia. }
  assert (MR : forall e, (0 < cnt e (lel fsL ++ elems l ++ elems r))%nat -> e <> rptr fsR).
  { intros e J ->. destruct (rptr_el fsR) as [K|K]; [apply (NP (rptr fsR)); auto; cn; lia|]. pose proof (O (rptr fsR)). cn. lia. }
  assert (OL : once (lel fsL)) by (intros e; pose proof (O e); cn; lia).
  assert (OR : once (rel fsR)) by (intros e; pose proof (O e); cn; lia).
  assert (C1 : lchain m1 (rt l) fsL).
  { rewrite <- XL. apply (lchain_eq (updR (lptr fsL) (lefts m x) m)); [|reflexivity|apply lopen_tie; auto].
    intros e J. unfold eqat. cbn. rewrite (upd_other (lefts m)); auto. apply MR. rewrite cnt_app. lia. }
  assert (C2 : rchain m1 (rt r) fsR).
  { rewrite <- XR. apply (rchain_eq (updL (rptr fsR) (rights m x) m)); [|reflexivity|apply ropen_tie; auto].
    intros e J. unfold eqat. cbn. rewrite (upd_other (rights m)); auto. apply ML. rewrite !cnt_app. lia. }
  assert (R1 : rep m1 l). { apply (rep_eq m); auto. intros e J. unfold eqat. cbn. rewrite !upd_other; auto; [apply ML|apply MR]; rewrite !cnt_app; lia. }
  assert (R2 : rep m1 r). { apply (rep_eq m); auto. intros e J. unfold eqat. cbn. rewrite !upd_other; auto; [apply ML|apply MR]; rewrite !cnt_app; lia. }
  destruct (lchain_top m1 fsL l C1 R1) as (T1 & T2). destruct (rchain_top m1 fsR r C2 R2) as (T3 & T4).
  cbn [m1 rights lefts] in T1, T3.
  assert (NX : x <> NODE) by (unfold NODE; lia).
  split; [reflexivity|]. split; [|split; [|reflexivity]].
  - cbn [rep]. cbn [alive lefts rights]. rewrite !upd_same. rewrite (upd_other _ x _ NODE) by auto. rewrite T1, T3. repeat (split; [assumption || reflexivity|]).
    split; apply (rep_eq m1); auto; intros e J; unfold eqat; cbn; rewrite (upd_other _ x), (upd_other _ x); auto;
      intros ->; pose proof (O x); rewrite ?elems_plugL, ?elems_plugR in J; cn; lia.
  - split; [reflexivity|]. intros e NE J. cbn [lefts rights]. rewrite !upd_other; auto; intros ->;
      first [cn; lia | destruct (lptr_el fsL) as [K|K]; [contradiction|cn; lia] | destruct (rptr_el fsR) as [K|K]; [contradiction|cn; lia]].
Qed.

(** One loop for both functions; [call] is the comparison. *)
Section Loop.
Variable call : Z -> smem -> out Z.
Fixpoint gloop (fuel : nat) (lf rt : Z) (m : smem) : out (Z * Z * smem) :=
  match fuel with
  | O => NoFuel
  | S fuel =>
      let* comp := call (sroot m) m in
      let m := tick m in
      if comp =? 0 then Ok (lf, rt, m)
      else if comp <? 0 then
        let* tmp := sleft (sroot m) m in
        if tmp =? 0 then Ok (lf, rt, m)
        else
          let* c := call tmp m in
          let* (stop, m) := (if c <? 0 then let* m := srotate_right tmp m in let* l := sleft (sroot m) m in Ok (l =? 0, m) else Ok (false, m)) in
          if stop : bool then Ok (lf, rt, m)
          else let* (rt, m) := linkleft rt m in gloop fuel lf rt m
      else
        let* tmp := sright (sroot m) m in
        if tmp =? 0 then Ok (lf, rt, m)
        else
          let* c := call tmp m in
          let* (stop, m) := (if 0 <? c then let* m := srotate_left tmp m in let* r := sright (sroot m) m in Ok (r =? 0, m) else Ok (false, m)) in
          if stop : bool then Ok (lf, rt, m)
          else let* (lf, m) := linkright lf m in gloop fuel lf rt m
  end.
Variable dir : Z -> Z.
Variable live : Z -> bool.
Hypothesis Call : forall x m, alive m = live -> 0 < x -> live x = true -> call x m = Ok (dir x).
Lemma inv_tick m fsL t fsR : inv m fsL t fsR -> inv (tick m) fsL t fsR.
Proof.
  intros (A & R & LO & RO & N & O). split; [exact A|]. split; [apply (rep_eq m); auto; intros; split; auto|].
  split; [apply (lopen_eq m); auto; intros; split; auto|]. split; [apply (ropen_eq m); auto; intros; split; auto|]. split; auto.
Qed.
Definition leads (m : smem) (fsL : list (stree * Z)) (t : stree) (fsR : list (stree * Z)) (lf rt : Z) (m' : smem) : Prop :=
  exists a z b c fsL' l x r fsR', spl dir t = (SN a z b, c) /\ lf = lptr fsL' /\ rt = rptr fsR' /\ inv m' fsL' (SN l x r) fsR' /\ only (allof fsL t fsR) m m' /\ ticks m' = (ticks m + c)%nat /\
    x = z /\ plugL fsL' l = plugL fsL a /\ plugR fsR' r = plugR fsR b.
Lemma gloop_ok n : forall t fsL fsR m fuel, (size t <= n)%nat -> t <> SE -> (size t <= fuel)%nat -> alive m = live -> inv m fsL t fsR ->
  exists lf rt m', gloop fuel (lptr fsL) (rptr fsR) m = Ok (lf, rt, m') /\ leads m fsL t fsR lf rt m'.
Proof.
  induction n as [|n IH]; intros t fsL fsR m fuel Sz NE Fu Al I; (destruct t as [|l x r]; [congruence|]); [cbn in Sz; lia|].
  destruct fuel as [|fuel]; [cbn in Fu; lia|]. cbn [size] in Sz, Fu. cbn [gloop].
  pose proof I as (A & (X0 & XA & XL & XR & RL & RR) & _). cbn [rt] in A. rewrite A.
  rewrite Call by (auto; rewrite <- Al; auto). cbn [bind]. pose proof (inv_tick m _ _ _ I) as I1. set (m1 := tick m) in *.
  assert (Al1 : alive m1 = live) by exact Al. assert (T1 : ticks m1 = S (ticks m)) by reflexivity.
  assert (On1 : only (allof fsL (SN l x r) fsR) m m1) by (split; auto).
  change (sroot m1) with (sroot m). rewrite A.
  assert (Stop : spl dir (SN l x r) = (SN l x r, 1%nat) -> leads m fsL (SN l x r) fsR (lptr fsL) (rptr fsR) m1).
  { intros Q. exists l, x, r, 1%nat, fsL, l, x, r, fsR. rewrite Q, T1. repeat (split; [auto; try reflexivity; lia|]). reflexivity. }
  destruct (Z.eqb_spec (dir x) 0) as [D0|D0]; [do 3 eexists; split; [reflexivity|]; apply Stop; cbn; rewrite D0; reflexivity|].
  assert (XA1 : alive m1 x = true) by exact XA.
  destruct (Z.ltb_spec (dir x) 0) as [D|D].
  - rewrite sleft_k by (lia || auto). cbn [bind]. change (lefts m1 x) with (lefts m x). rewrite XL. destruct l as [|ll y lr].
    { cbn [rt Z.eqb]. do 3 eexists; split; [reflexivity|]; apply Stop. cbn. apply Z.eqb_neq in D0. rewrite D0. apply Z.ltb_lt in D. rewrite D. reflexivity. }
    cbn [rt]. destruct RL as (Y0 & YA & YL & YR & RLL & RLR). destruct (Z.eqb_spec y 0) as [?|_]; [lia|].
    rewrite Call by (auto; rewrite <- Al; auto). cbn [bind]. destruct (Z.ltb_spec (dir y) 0) as [E|E].
    + destruct (srotate_right_ok _ _ _ _ _ _ _ _ I1) as (m2 & E2 & I2 & On2 & T2). rewrite E2. cbn [bind].
      pose proof I2 as (A2 & (_ & YA2 & YL2 & _) & _). cbn [rt] in A2. rewrite A2, sleft_k by (lia || auto). cbn [bind]. rewrite YL2.
      assert (On2' : only (allof fsL (SN (SN ll y lr) x r) fsR) m m2) by (eapply only_trans; [|exact On1|exact On2]; reflexivity).
      destruct ll as [|lll w llr].
      * cbn [rt Z.eqb]. do 3 eexists. split; [reflexivity|]. exists SE, y, (SN lr x r), 1%nat, fsL, SE, y, (SN lr x r), fsR.
        cbn [spl]. apply Z.eqb_neq in D0. rewrite D0. apply Z.ltb_lt in D, E. rewrite D, E, T2, T1. repeat (split; [auto; try reflexivity; lia|]). reflexivity.
      * set (ll := SN lll w llr) in *. cbn [rt]. destruct RLL as (W0 & _). unfold ll at 1. cbn [rt]. destruct (Z.eqb_spec w 0) as [?|_]; [lia|].
        destruct (linkleft_ok _ _ _ _ _ _ I2) as (m3 & E3 & I3 & On3 & T3 & _). rewrite E3. cbn [bind].
        assert (Al3 : alive m3 = live). { destruct On3 as (-> & _). destruct On2 as (-> & _). auto. }
        change y with (rptr ((SN lr x r, y) :: fsR)) at 1. cbn [size] in Sz, Fu.
        destruct (IH ll fsL ((SN lr x r, y) :: fsR) m3 fuel) as (lf & rt' & m4 & E4 & a & z & b & c & fsL' & l4 & x4 & r4 & fsR' & Q & L1 & L2 & I4 & On4 & T4 & L3 & L4 & L5);
          [lia|discriminate|lia|auto|auto|]. do 3 eexists. split; [exact E4|]. cbn [plugR] in L5.
        exists a, z, (SN b y (SN lr x r)), (S c), fsL', l4, x4, r4, fsR'. split; [|repeat (split; [auto; fail|])].
        { cbn [spl]. fold ll. apply Z.eqb_neq in D0. rewrite D0. apply Z.ltb_lt in D, E. rewrite D, E. unfold ll at 1. rewrite Q. reflexivity. }
        split; [|split; [lia|auto]]. eapply only_trans; [|exact On2'|eapply only_trans; [|exact On3|exact On4]]; intros e; cn; lia.
    + cbn [bind]. destruct (linkleft_ok _ _ _ _ _ _ I1) as (m3 & E3 & I3 & On3 & T3 & _). rewrite E3. cbn [bind].
      assert (Al3 : alive m3 = live). { destruct On3 as (-> & _). auto. }
      change x with (rptr ((r, x) :: fsR)) at 1. set (l := SN ll y lr) in *.
      destruct (IH l fsL ((r, x) :: fsR) m3 fuel) as (lf & rt' & m4 & E4 & a & z & b & c & fsL' & l4 & x4 & r4 & fsR' & Q & L1 & L2 & I4 & On4 & T4 & L3 & L4 & L5);
        [lia|discriminate|lia|auto|auto|]. do 3 eexists. split; [exact E4|]. cbn [plugR] in L5.
      exists a, z, (SN b x r), (S c), fsL', l4, x4, r4, fsR'. split; [|repeat (split; [auto; fail|])].
      { cbn [spl]. apply Z.eqb_neq in D0. rewrite D0. apply Z.ltb_lt in D. rewrite D. unfold l at 1. apply Z.ltb_ge in E. rewrite E. fold l. rewrite Q. reflexivity. }
      split; [|split; [lia|auto]]. eapply only_trans; [|exact On1|eapply only_trans; [|exact On3|exact On4]]; intros e; cn; lia.
  - assert (D1 : 0 < dir x) by lia. rewrite sright_k by (lia || auto). cbn [bind]. change (rights m1 x) with (rights m x). rewrite XR. destruct r as [|rl y rr].
    { cbn [rt Z.eqb]. do 3 eexists; split; [reflexivity|]; apply Stop. cbn. apply Z.eqb_neq in D0. rewrite D0. apply Z.ltb_ge in D. rewrite D. reflexivity. }
    cbn [rt]. destruct RR as (Y0 & YA & YL & YR & RRL & RRR). destruct (Z.eqb_spec y 0) as [?|_]; [lia|].
    rewrite Call by (auto; rewrite <- Al; auto). cbn [bind]. destruct (Z.ltb_spec 0 (dir y)) as [E|E].
    + destruct (srotate_left_ok _ _ _ _ _ _ _ _ I1) as (m2 & E2 & I2 & On2 & T2). rewrite E2. cbn [bind].
      pose proof I2 as (A2 & (_ & YA2 & _ & YR2 & _) & _). cbn [rt] in A2. rewrite A2, sright_k by (lia || auto). cbn [bind]. rewrite YR2.
      assert (On2' : only (allof fsL (SN l x (SN rl y rr)) fsR) m m2) by (eapply only_trans; [|exact On1|exact On2]; reflexivity).
      destruct rr as [|rrl w rrr].
      * cbn [rt Z.eqb]. do 3 eexists. split; [reflexivity|]. exists (SN l x rl), y, SE, 1%nat, fsL, (SN l x rl), y, SE, fsR.
        cbn [spl]. apply Z.eqb_neq in D0. rewrite D0. apply Z.ltb_ge in D. apply Z.ltb_lt in E. rewrite D, E, T2, T1. repeat (split; [auto; try reflexivity; lia|]). reflexivity.
      * set (rr := SN rrl w rrr) in *. cbn [rt]. destruct RRR as (W0 & _). unfold rr at 1. cbn [rt]. destruct (Z.eqb_spec w 0) as [?|_]; [lia|].
        destruct (linkright_ok _ _ _ _ _ _ I2) as (m3 & E3 & I3 & On3 & T3 & _). rewrite E3. cbn [bind].
        assert (Al3 : alive m3 = live). { destruct On3 as (-> & _). destruct On2 as (-> & _). auto. }
        change y with (lptr ((SN l x rl, y) :: fsL)) at 1. cbn [size] in Sz, Fu.
        destruct (IH rr ((SN l x rl, y) :: fsL) fsR m3 fuel) as (lf & rt' & m4 & E4 & a & z & b & c & fsL' & l4 & x4 & r4 & fsR' & Q & L1 & L2 & I4 & On4 & T4 & L3 & L4 & L5);
          [lia|discriminate|lia|auto|auto|]. do 3 eexists. split; [exact E4|]. cbn [plugL] in L4.
        exists (SN (SN l x rl) y a), z, b, (S c), fsL', l4, x4, r4, fsR'. split; [|repeat (split; [auto; fail|])].
        { cbn [spl]. fold rr. apply Z.eqb_neq in D0. rewrite D0. apply Z.ltb_ge in D. apply Z.ltb_lt in E. rewrite D, E. unfold rr at 1. rewrite Q. reflexivity. }
        split; [|split; [lia|auto]]. eapply only_trans; [|exact On2'|eapply only_trans; [|exact On3|exact On4]]; intros e; cn; lia.
    + cbn [bind]. destruct (linkright_ok _ _ _ _ _ _ I1) as (m3 & E3 & I3 & On3 & T3 & _). rewrite E3. cbn [bind].
      assert (Al3 : alive m3 = live). { destruct On3 as (-> & _). auto. }
      change x with (lptr ((l, x) :: fsL)) at 1. set (r := SN rl y rr) in *.
      destruct (IH r ((l, x) :: fsL) fsR m3 fuel) as (lf & rt' & m4 & E4 & a & z & b & c & fsL' & l4 & x4 & r4 & fsR' & Q & L1 & L2 & I4 & On4 & T4 & L3 & L4 & L5);
        [lia|discriminate|lia|auto|auto|]. do 3 eexists. split; [exact E4|]. cbn [plugL] in L4.
      exists (SN l x a), z, b, (S c), fsL', l4, x4, r4, fsR'. split; [|repeat (split; [auto; fail|])].
      { cbn [spl]. apply Z.eqb_neq in D0. rewrite D0. apply Z.ltb_ge in D. rewrite D. unfold r at 1. apply Z.ltb_ge in E. rewrite E. fold r. rewrite Q. reflexivity. }
      split; [|split; [lia|auto]]. eapply only_trans; [|exact On1|eapply only_trans; [|exact On3|exact On4]]; intros e; cn; lia.
Qed.
End Loop.

Lemma splay_loop_g cmp elm fuel : forall lf rt m, splay_loop cmp fuel elm lf rt m = gloop (compare cmp elm) fuel lf rt m.
Proof.
  induction fuel as [|fuel IH]; intros lf rt m; cbn; [reflexivity|]. destruct (compare cmp elm (sroot m) m) as [c| | |]; cbn; auto. destruct (c =? 0); [reflexivity|].
  destruct (c <? 0).
  - destruct (sleft (sroot m) (tick m)) as [tmp| | |]; cbn; auto. destruct (tmp =? 0); [reflexivity|]. destruct (compare cmp elm tmp (tick m)) as [d| | |]; cbn; auto.
    match goal with |- bind ?x _ = _ => destruct x as [[[|] m2]| | |]; cbn; auto end. destruct (linkleft rt m2) as [[? ?]| | |]; cbn; auto.
  - destruct (sright (sroot m) (tick m)) as [tmp| | |]; cbn; auto. destruct (tmp =? 0); [reflexivity|]. destruct (compare cmp elm tmp (tick m)) as [d| | |]; cbn; auto.
    match goal with |- bind ?x _ = _ => destruct x as [[[|] m2]| | |]; cbn; auto end. destruct (linkright lf m2) as [[? ?]| | |]; cbn; auto.
Qed.
Lemma sminmax_loop_g comp fuel : comp <> 0 -> forall lf rt m, sminmax_loop fuel comp lf rt m = gloop (fun _ _ => Ok comp) fuel lf rt m.
Proof.
  intros C. induction fuel as [|fuel IH]; intros lf rt m; cbn; [reflexivity|]. destruct (Z.eqb_spec comp 0); [contradiction|].
  destruct (Z.ltb_spec comp 0).
  - destruct (sleft (sroot m) (tick m)) as [tmp| | |]; cbn; auto. destruct (tmp =? 0); [reflexivity|].
    match goal with |- bind ?x _ = _ => destruct x as [[[|] m2]| | |]; cbn; auto end. destruct (linkleft rt m2) as [[? ?]| | |]; cbn; auto.
  - destruct (Z.ltb_spec 0 comp); [|lia]. destruct (sright (sroot m) (tick m)) as [tmp| | |]; cbn; auto. destruct (tmp =? 0); [reflexivity|].
    match goal with |- bind ?x _ = _ => destruct x as [[[|] m2]| | |]; cbn; auto end. destruct (linkright lf m2) as [[? ?]| | |]; cbn; auto.
Qed.
