(** Loops over the queues, and sequences of calls. *)
From Verif Require Import Base BaseLemmas QueueModel SpecQueue QueueProofs QueueOps.

Notation zero := (fun _ : Z => 0).
Section Walk.
Variables (F : Z) (U : list Z) (D T : bool) (m0 : mem).
Notation I := (inv F U D T false zero m0).
Lemma in_pos m h a e b g k : I m h (a ++ e :: b) g k -> 0 < e.
Proof. intros IV. exact (sep_U _ _ _ _ _ _ _ (i_sep _ _ _ _ _ _ _ _ _ _ _ _ IV) e (i_l _ _ _ _ _ _ _ _ _ _ _ _ IV e (in_mid _ _ _))). Qed.
Lemma next_ok m h a e b g k : I m h (a ++ e :: b) g k -> next F e m = Ok (hd 0 b).
Proof.
  intros IV. pose proof (in_pos _ _ _ _ _ _ _ IV). pose proof IV as IV'. rewrite app_mid in IV'. pose proof (inv_end _ _ _ _ _ _ _ _ _ _ _ _ _ IV') as E. rewrite enc0, endc_snoc in E.
  unfold next. apply get_ok; [lia|exact E].
Qed.
Lemma first_ok m h l g k : I m h l g k -> first h m = Ok (hd 0 l).
Proof.
  intros IV. pose proof (inv_end _ _ _ _ _ _ _ _ _ [] l _ _ IV) as E. rewrite enc0 in E. change (endc F h []) with h in E.
  unfold first. apply get_ok; [pose proof (sep_ph _ _ _ _ _ _ _ (i_sep _ _ _ _ _ _ _ _ _ _ _ _ IV)); lia|rewrite Z.add_0_r; exact E].
Qed.
Lemma empty_ok m h l g k : I m h l g k -> empty h m = Ok (match l with [] => true | _ => false end).
Proof.
  intros IV. unfold empty. rewrite (first_ok _ _ _ _ _ IV). cbn [bind]. destruct l as [|x l]; [reflexivity|]. pose proof (in_pos _ _ [] _ _ _ _ IV). cbn [hd]. do 2 f_equal. apply Z.eqb_neq. lia.
Qed.
Lemma visit_ok m h g k : forall b a fuel, I m h (a ++ b) g k -> (length b < fuel)%nat -> visit fuel (next F) (hd 0 b) m = Ok b.
Proof.
  induction b as [|x b IH]; intros a fuel IV L; (destruct fuel as [|fuel]; [cbn in L; lia|]); cbn [visit hd]; [reflexivity|].
  pose proof (in_pos _ _ _ _ _ _ _ IV). rewrite (proj2 (Z.eqb_neq x 0)) by lia. rewrite (next_ok _ _ _ _ _ _ _ IV). cbn [bind].
  rewrite app_mid in IV. rewrite (IH (a ++ [x]) fuel IV) by (cbn in L; lia). reflexivity.
Qed.
Lemma foreach_ok m h l g k fuel : I m h l g k -> (length l < fuel)%nat -> foreach F fuel h m = Ok l.
Proof. intros IV L. unfold foreach. rewrite (first_ok _ _ _ _ _ IV). cbn [bind]. exact (visit_ok m h g k l [] fuel IV L). Qed.
End Walk.

Section Back.
Variables (F : Z) (U : list Z) (m0 : mem).
Notation I := (inv F U true true false zero m0).
(** What the two-word cell behind [a] holds in its second word, seen as a head. *)
Lemma back_ok m h a b g k : I m h (a ++ b) g k -> exists p, (b = [] -> m (h + 8) = Some (endc F h a)) /\ (forall e b', b = e :: b' -> m (e + (F + 8)) = Some (endc F h a)) /\
  0 < endc F h a /\ m (endc F h a + 8) = Some p /\ m p = Some (last a 0).
Proof.
  intros IV. pose proof (i_sep _ _ _ _ _ _ _ _ _ _ _ _ IV) as SP. pose proof (sep_ph _ _ _ _ _ _ _ SP) as HP.
  assert (A : b = [] -> m (h + 8) = Some (endc F h a)).
  { intros ->. rewrite app_nil_r in IV. pose proof (inv_last _ _ _ _ _ _ _ _ _ _ _ _ eq_refl IV) as E. rewrite enc0 in E. exact E. }
  assert (B : forall e b', b = e :: b' -> m (e + (F + 8)) = Some (endc F h a)) by (intros e b' ->; exact (inv_pv _ _ _ _ _ _ _ _ _ a e b' _ _ eq_refl IV)).
  assert (IA : incl a U) by (exact (incl_pre _ _ _ (i_l _ _ _ _ _ _ _ _ _ _ _ _ IV))).
  assert (C : 0 < endc F h a) by (pose proof (endc_pos F U true true false zero h g SP a IA); lia).
  destruct a as [|e a _] using rev_ind.
  - change (endc F h []) with h in *. cbn [app] in IV.
    pose proof (inv_last _ _ _ _ _ _ _ _ _ _ _ _ eq_refl IV) as E. rewrite enc0 in E. destruct b as [|x b].
    + exists h. repeat split; auto. pose proof (inv_end _ _ _ _ _ _ _ _ _ [] [] _ _ IV) as E0. exact E0.
    + exists (endc F h (x :: b)). assert (IV' : I m h ((x :: b) ++ []) g k) by (rewrite app_nil_r; exact IV). pose proof (inv_end _ _ _ _ _ _ _ _ _ (x :: b) [] _ _ IV') as E0. repeat split; auto.
  - rewrite endc_snoc in *. rewrite <- app_assoc in IV. cbn [app] in IV. exists (endc F h a).
    pose proof (inv_pv _ _ _ _ _ _ _ _ _ a e b _ _ eq_refl IV) as E. pose proof (inv_end _ _ _ _ _ _ _ _ _ a (e :: b) _ _ IV) as E0. rewrite enc0 in E0. cbn [hd] in E0.
    repeat split; auto; [replace (e + F + 8) with (e + (F + 8)) by ring; exact E|rewrite last_last; exact E0].
Qed.
Lemma last_ok m h l g k : I m h l g k -> tailq_last h m = Ok (last l 0).
Proof.
  intros IV. pose proof (sep_ph _ _ _ _ _ _ _ (i_sep _ _ _ _ _ _ _ _ _ _ _ _ IV)) as HP. assert (IV' : I m h (l ++ []) g k) by (rewrite app_nil_r; exact IV). destruct (back_ok _ _ _ _ _ _ IV') as (p & A & _ & C & E & G).
  unfold tailq_last. rewrite (get_ok h 8 m _) with (2 := A eq_refl) by lia. cbn [bind]. rewrite (get_ok _ 8 m p) by (lia || exact E). cbn [bind]. unfold ld. rewrite G. reflexivity.
Qed.
Lemma prev_ok m h a e b g k : I m h (a ++ e :: b) g k -> tailq_prev F e m = Ok (last a 0).
Proof.
  intros IV. pose proof (in_pos F U true true m0 _ _ _ _ _ _ _ IV). destruct (back_ok _ _ _ _ _ _ IV) as (p & _ & B & C & E & G).
  unfold tailq_prev. rewrite (get_ok e (F + 8) m _) with (2 := B _ _ eq_refl) by lia. cbn [bind]. rewrite (get_ok _ 8 m p) by (lia || exact E). cbn [bind]. unfold ld. rewrite G. reflexivity.
Qed.
Lemma visit_back m h g k : forall a b fuel, I m h (a ++ b) g k -> (length a < fuel)%nat -> visit fuel (tailq_prev F) (last a 0) m = Ok (rev a).
Proof.
  induction a as [|x a IH] using rev_ind; intros b fuel IV L; (destruct fuel as [|fuel]; [lia|]); cbn [visit]; [reflexivity|].
  rewrite last_last. rewrite <- app_assoc in IV. cbn [app] in IV. pose proof (in_pos F U true true m0 _ _ _ _ _ _ _ IV). rewrite (proj2 (Z.eqb_neq x 0)) by lia. rewrite (prev_ok _ _ _ _ _ _ _ IV). cbn [bind].
  rewrite app_length in L. cbn in L. rewrite (IH (x :: b) fuel IV) by lia. cbn [bind]. rewrite rev_app_distr. reflexivity.
Qed.
Lemma foreach_reverse_ok m h l g k fuel : I m h l g k -> (length l < fuel)%nat -> foreach_reverse F fuel h m = Ok (rev l).
Proof. intros IV L. unfold foreach_reverse. rewrite (last_ok _ _ _ _ _ IV). cbn [bind]. apply (visit_back m h g k l [] fuel); [rewrite app_nil_r; exact IV|exact L]. Qed.
End Back.

Section Xwalk.
Variables (F : Z) (U : list Z) (m0 : mem) (ck : Z -> Z).
Hypothesis CK : forall h, 0 <= ck h < 2 ^ 64.
Hypothesis UB : forall e, In e U -> e + F < 2 ^ 64.
Notation I := (inv F U false true true ck m0).
Lemma x_range m h a b g k : I m h (a ++ b) g k -> 0 <= hd 0 b < 2 ^ 64.
Proof.
  intros IV. destruct b as [|x b]; [cbn [hd]; lia|]. apply (range_e F U m0 ck UB _ _ _ _ _ x IV). apply (i_l _ _ _ _ _ _ _ _ _ _ _ _ IV), in_mid.
Qed.
Lemma x_pos m h a e b g k : I m h (a ++ e :: b) g k -> 0 < e.
Proof. intros IV. exact (sep_U _ _ _ _ _ _ _ (i_sep _ _ _ _ _ _ _ _ _ _ _ _ IV) e (i_l _ _ _ _ _ _ _ _ _ _ _ _ IV e (in_mid _ _ _))). Qed.
Lemma x_first_ok m h l g k : I m h l g k -> x_first 64 h m = Ok (hd 0 l).
Proof.
  intros IV. pose proof (sep_ph _ _ _ _ _ _ _ (i_sep _ _ _ _ _ _ _ _ _ _ _ _ IV)) as HP. pose proof (inv_end _ _ _ _ _ _ _ _ _ [] l _ _ IV) as E. change (endc F h []) with h in E.
  pose proof (inv_cookie _ _ _ _ _ _ _ _ _ _ _ _ eq_refl IV) as EC. pose proof (x_range _ _ [] l _ _ IV).
  unfold x_first. rewrite (get_ok h 0 m (enc ck h (hd 0 l))) by (lia || (rewrite Z.add_0_r; exact E)). cbn [bind]. apply xor_dec; auto. lia.
Qed.
Lemma x_next_ok m h a e b g k : I m h (a ++ e :: b) g k -> x_next F 64 h e m = Ok (hd 0 b).
Proof.
  intros IV. pose proof (sep_ph _ _ _ _ _ _ _ (i_sep _ _ _ _ _ _ _ _ _ _ _ _ IV)) as HP. pose proof (x_pos _ _ _ _ _ _ _ IV). rewrite app_mid in IV. pose proof (inv_end _ _ _ _ _ _ _ _ _ _ _ _ _ IV) as E. rewrite endc_snoc in E.
  pose proof (inv_cookie _ _ _ _ _ _ _ _ _ _ _ _ eq_refl IV) as EC. pose proof (x_range _ _ _ _ _ _ IV).
  unfold x_next. rewrite (get_ok e F m (enc ck h (hd 0 b))) by (lia || exact E). cbn [bind]. apply xor_dec; auto. lia.
Qed.
Lemma x_empty_ok m h l g k : I m h l g k -> x_empty 64 h m = Ok (match l with [] => true | _ => false end).
Proof.
  intros IV. unfold x_empty. rewrite (x_first_ok _ _ _ _ _ IV). cbn [bind]. destruct l as [|x l]; [reflexivity|]. pose proof (x_pos _ _ [] _ _ _ _ IV). cbn [hd]. do 2 f_equal. apply Z.eqb_neq. lia.
Qed.
Lemma x_visit_ok m h g k : forall b a fuel, I m h (a ++ b) g k -> (length b < fuel)%nat -> visit fuel (x_next F 64 h) (hd 0 b) m = Ok b.
Proof.
  induction b as [|x b IH]; intros a fuel IV L; (destruct fuel as [|fuel]; [cbn in L; lia|]); cbn [visit hd]; [reflexivity|].
  pose proof (x_pos _ _ _ _ _ _ _ IV). rewrite (proj2 (Z.eqb_neq x 0)) by lia. rewrite (x_next_ok _ _ _ _ _ _ _ IV). cbn [bind].
  rewrite app_mid in IV. rewrite (IH (a ++ [x]) fuel IV) by (cbn in L; lia). reflexivity.
Qed.
Lemma x_foreach_ok m h l g k fuel : I m h l g k -> (length l < fuel)%nat -> x_foreach F fuel 64 h m = Ok l.
Proof. intros IV L. unfold x_foreach. rewrite (x_first_ok _ _ _ _ _ IV). cbn [bind]. exact (x_visit_ok m h g k l [] fuel IV L). Qed.
End Xwalk.

(** ** Calls *)
Section Steps.
Variables (F : Z) (U : list Z) (hA hB : Z).
(** From statements about the first queue to statements about both. *)
Lemma both D T X ck m0 m s q : inv F U D T X ck m0 m hA (fst s) hB (snd s) -> inv F U D T X ck m0 m (head_of hA hB q) (pick q s) (head_of hA hB (negb q)) (pick (negb q) s).
Proof. intros IV. destruct q; [exact IV|exact (inv_swap _ _ _ _ _ _ _ _ _ _ _ _ IV)]. Qed.
Lemma back_both D T X ck m0 m s l q : inv F U D T X ck m0 m (head_of hA hB q) l (head_of hA hB (negb q)) (pick (negb q) s) -> inv F U D T X ck m0 m hA (fst (put q l s)) hB (snd (put q l s)).
Proof. intros IV. destruct q; [exact IV|exact (inv_swap _ _ _ _ _ _ _ _ _ _ _ _ IV)]. Qed.
Lemma unused_pick q e s : unused U e s -> In e U /\ ~ In e (pick q s) /\ ~ In e (pick (negb q) s).
Proof. intros (A & B & C). destruct q; cbn [pick negb]; auto. Qed.
Ltac start IV q := apply (both _ _ _ _ _ _ _ q) in IV;
  repeat match goal with H : unused _ _ _ |- _ => apply (unused_pick q) in H; destruct H as (? & ? & ?) end;
  repeat match goal with H : pick q _ = _ |- _ => rewrite H in * end.
Ltac done_ R := let m' := fresh "m" in let E := fresh "E" in let J := fresh "J" in
  edestruct R as (m' & E & J); [..|exists m'; split; [exact E|apply back_both; exact J]]; eauto.

Lemma tailq_step m0 o s s' m : meaning U o s s' -> has_tailq o = true -> inv F U true true false zero m0 m hA (fst s) hB (snd s) ->
  exists m', do_tailq F hA hB o m = Ok m' /\ inv F U true true false zero m0 m' hA (fst s') hB (snd s').
Proof.
  intros M HT IV. destruct M; try discriminate HT; cbn [do_tailq]; start IV q.
  - done_ tq_insert_head.
  - done_ tq_insert_tail.
  - done_ tq_insert_after.
  - done_ tq_insert_before.
  - done_ tq_remove.
  - done_ tq_replace.
  - edestruct tq_concat as (m' & E & J); [exact IV|]. exists m'. split; [exact E|]. destruct q; [exact J|exact (inv_swap _ _ _ _ _ _ _ _ _ _ _ _ J)].
Qed.
Lemma list_step m0 o s s' m : meaning U o s s' -> has_list o = true -> inv F U true false false zero m0 m hA (fst s) hB (snd s) ->
  exists m', do_list F hA hB o m = Ok m' /\ inv F U true false false zero m0 m' hA (fst s') hB (snd s').
Proof.
  intros M HT IV. destruct M; try discriminate HT; cbn [do_list]; start IV q.
  - done_ li_insert_head.
  - done_ li_insert_after.
  - done_ li_insert_before.
  - done_ li_remove.
  - done_ li_replace.
Qed.
Lemma slist_step fuel m0 o s s' m : meaning U o s s' -> has_slist o = true -> (length U <= fuel)%nat -> inv F U false false false zero m0 m hA (fst s) hB (snd s) ->
  exists m', do_slist F fuel hA hB o m = Ok m' /\ inv F U false false false zero m0 m' hA (fst s') hB (snd s').
Proof.
  intros M HT L IV. destruct M; try discriminate HT; cbn [do_slist]; start IV q.
  - done_ sl_insert_head.
  - done_ sl_insert_after.
  - done_ sl_remove. assert (length (a ++ e :: b) <= length U)%nat.
    { apply NoDup_incl_length; [|exact (i_l _ _ _ _ _ _ _ _ _ _ _ _ IV)]. exact (proj1 (NoDup_app_l _ _ (i_nd _ _ _ _ _ _ _ _ _ _ _ _ IV))). }
    rewrite app_length in H0. lia.
  - done_ sl_remove_head.
  - done_ sl_remove_after.
Qed.
Lemma simpleq_step m0 o s s' m : meaning U o s s' -> has_simpleq o = true -> inv F U false true false zero m0 m hA (fst s) hB (snd s) ->
  exists m', do_simpleq F hA hB o m = Ok m' /\ inv F U false true false zero m0 m' hA (fst s') hB (snd s').
Proof.
  intros M HT IV. destruct M; try discriminate HT; cbn [do_simpleq]; start IV q.
  - done_ sq_insert_head.
  - done_ sq_insert_tail.
  - done_ sq_insert_after.
  - done_ sq_remove_head.
  - done_ sq_remove_after.
  - edestruct sq_concat as (m' & E & J); [exact IV|]. exists m'. split; [exact E|]. destruct q; [exact J|exact (inv_swap _ _ _ _ _ _ _ _ _ _ _ _ J)].
Qed.
Lemma xsimpleq_step ck m0 o s s' m : (forall h, 0 <= ck h < 2 ^ 64) -> (forall e, In e U -> e + F < 2 ^ 64) -> hA < 2 ^ 64 -> hB < 2 ^ 64 ->
  meaning U o s s' -> has_xsimpleq o = true -> inv F U false true true ck m0 m hA (fst s) hB (snd s) ->
  exists m', do_xsimpleq F 64 hA hB o m = Ok m' /\ inv F U false true true ck m0 m' hA (fst s') hB (snd s').
Proof.
  intros CK UB LA LB M HT IV. assert (LQ : forall q, head_of hA hB q < 2 ^ 64) by (intros []; assumption). destruct M; try discriminate HT; cbn [do_xsimpleq]; start IV q.
  - done_ xq_insert_head.
  - done_ xq_insert_tail.
  - done_ xq_insert_after.
  - done_ xq_remove_head.
  - done_ xq_remove_after.
Qed.
Lemma run_ok (f : qop -> mem -> out mem) (has : qop -> bool) (J : mem -> list Z * list Z -> Prop) :
  (forall o s s' m, meaning U o s s' -> has o = true -> J m s -> exists m', f o m = Ok m' /\ J m' s') ->
  forall os s s' m, meanings U os s s' -> forallb has os = true -> J m s -> exists m', run f os m = Ok m' /\ J m' s'.
Proof.
  intros ST os s s' m MS. revert m. induction MS as [s|o os s s1 s2 M MS IH]; intros m HA IV; cbn [run forallb] in *; [eauto|].
  apply andb_prop in HA. destruct HA as [H1 H2]. destruct (ST _ _ _ _ M H1 IV) as (m1 & E1 & IV1). rewrite E1. cbn [bind]. exact (IH m1 H2 IV1).
Qed.
End Steps.

(** ** Loops whose body removes and frees *)
Lemma kept_length (P : Z -> bool) l : (length (filter (fun e => negb (P e)) l) <= length l)%nat.
Proof. induction l as [|x l IH]; cbn [filter length]; [lia|]. destruct (negb (P x)); cbn [length]; lia. Qed.
Section Safe.
Variables (F : Z) (D T : bool) (h g : Z).
Notation I U m0 := (inv F U D T false zero m0).
Lemma release_other e m c : ~ In c (elem_cells F D e) -> release F D e m c = m c.
Proof.
  intros N. unfold release. destruct (Z.eqb_spec c (e + F)) as [-> |N1]; [destruct N; left; reflexivity|]. cbn [orb].
  destruct D; [|reflexivity]. cbn [andb]. destruct (Z.eqb_spec c (e + (F + 8))) as [-> |N2]; [destruct N; right; left; reflexivity|reflexivity].
Qed.
Lemma release_inv U m0 m l k e : I U m0 m h l g k -> In e U -> ~ In e l -> ~ In e k -> I (remove Z.eq_dec e U) (release F D e m) (release F D e m) h l g k.
Proof.
  intros [SP IL IK ND RL RK AL FR] Ie Nl Nk.
  assert (SUB : forall x, In x (remove Z.eq_dec e U) -> In x U /\ x <> e) by (intros x J; exact (in_remove _ _ _ _ J)).
  assert (RH : forall c, In c (head_cells T false h) -> release F D e m c = m c) by (intros c J; apply release_other; intros K; exact (sep_h _ _ _ _ _ _ _ SP c e J Ie K)).
  assert (RG : forall c, In c (head_cells T false g) -> release F D e m c = m c) by (intros c J; apply release_other; intros K; exact (sep_g _ _ _ _ _ _ _ SP c e J Ie K)).
  assert (RE : forall x c, In x U -> x <> e -> In c (elem_cells F D x) -> release F D e m c = m c).
  { intros x c J N K. apply release_other. intros K'. apply N. exact (sep_e _ _ _ _ _ _ _ SP c x e J Ie K K'). }
  assert (RP : forall j y, (forall c, In c (head_cells T false j) -> release F D e m c = m c) -> incl y U -> ~ In e y -> repr F D T false zero m j y -> repr F D T false zero (release F D e m) j y).
  { intros j y RJ IY NY (R1 & R2 & R3 & R4).
    assert (EC : forall a b, y = a ++ b -> release F D e m (endc F j a) = m (endc F j a)).
    { intros a b E. destruct (endc_in F j a) as [[-> _]|(x & J & -> & _)]; [apply RJ, hc_first|]. assert (In x y) by (rewrite E; apply in_or_app; left; assumption).
      apply (RE x); [apply IY; assumption|intros ->; apply NY; assumption|apply ec_nx]. }
    split; [|split; [|split]].
    - intros a b E. rewrite (EC a b E). exact (R1 a b E).
    - intros DB a x b E. assert (In x y) by (rewrite E; apply in_mid). rewrite (RE x); [exact (R2 DB a x b E)|apply IY; assumption|intros ->; apply NY; assumption|apply ec_pv, DB].
    - intros TT. rewrite RJ; [exact (R3 TT)|apply hc_last, TT].
    - discriminate. }
  constructor; auto.
  - destruct SP as [A B C E P Q R S0]. constructor; auto.
    + intros c x J K. exact (B c x J (proj1 (SUB x K))).
    + intros c x J K. exact (C c x J (proj1 (SUB x K))).
    + intros c x y J K. exact (E c x y (proj1 (SUB x J)) (proj1 (SUB y K))).
    + intros x J. exact (S0 x (proj1 (SUB x J))).
  - intros x J. apply in_in_remove; [intros ->; apply Nl; assumption|apply IL; assumption].
  - intros x J. apply in_in_remove; [intros ->; apply Nk; assumption|apply IK; assumption].
  - intros c [J|[J|(x & J & K)]]; [rewrite RH by assumption; apply AL; left; assumption|rewrite RG by assumption; apply AL; right; left; assumption|].
    destruct (SUB x J) as (J1 & J2). rewrite (RE x c J1 J2 K). apply AL. right. right. exists x. split; assumption.
Qed.
Lemma reset U m0 m l k : I U m0 m h l g k -> I U m m h l g k.
Proof. intros [SP IL IK ND RL RK AL FR]. constructor; auto. Qed.
(** [rm] removes an element that has at most [N] elements before it. *)
Variables (rm : Z -> mem -> out mem) (N : nat).
Hypothesis RM : forall U m0 m a e b k, I U m0 m h (a ++ e :: b) g k -> (length a <= N)%nat -> exists m', rm e m = Ok m' /\ I U m0 m' h (a ++ b) g k.
Variable P : Z -> bool.
Notation body := (drop F D rm P).
Notation kept := (filter (fun e => negb (P e))).
Lemma outside U (m m' : mem) l k : I U m m' h l g k -> forall c, ~ In c (cells F D T false U h g) -> m' c = m c.
Proof.
  intros IV c J. apply (i_fr _ _ _ _ _ _ _ _ _ _ _ _ IV).
  - intros K. apply J, in_or_app. left; assumption.
  - intros K. apply J, in_or_app. right. apply in_or_app. left; assumption.
  - intros e K L. apply J, in_or_app. right. apply in_or_app. right. apply in_flat_map. exists e. split; assumption.
Qed.
Lemma cells_remove U e c : In c (cells F D T false (remove Z.eq_dec e U) h g) -> In c (cells F D T false U h g).
Proof.
  unfold cells. rewrite !in_app_iff, !in_flat_map. intros [J|[J|(x & J & K)]]; auto. right. right. exists x. split; [exact (proj1 (in_remove _ _ _ _ J))|assumption].
Qed.
Lemma body_ok U m0 m a e b k : I U m0 m h (a ++ e :: b) g k -> (length a <= N)%nat ->
  exists m' U', body e m = Ok m' /\ I U' m' m' h (a ++ kept [e] ++ b) g k /\ incl U' U /\ (forall c, ~ In c (cells F D T false U h g) -> m' c = m c) /\ (P e = false -> m' = m).
Proof.
  intros IV L. assert (Ie : In e U) by (apply (i_l _ _ _ _ _ _ _ _ _ _ _ _ IV), in_mid). unfold drop. cbn [filter]. destruct (P e) eqn:Pe; cbn [negb app].
  - destruct (inv_nodup _ _ _ _ _ _ _ _ _ _ _ _ _ _ IV) as (N1 & N2 & N3). apply reset in IV. destruct (RM _ _ _ _ _ _ _ IV L) as (m' & -> & IV'). cbn [bind].
    assert (N4 : ~ In e (a ++ b)) by (intros J; apply in_app_or in J; destruct J; auto).
    exists (release F D e m'), (remove Z.eq_dec e U). split; [reflexivity|]. split; [exact (release_inv _ _ _ _ _ _ IV' Ie N4 N3)|]. split; [intros x J; exact (proj1 (in_remove _ _ _ _ J))|].
    split; [|discriminate]. intros c J. rewrite release_other; [exact (outside _ _ _ _ _ IV' c J)|]. intros K. apply J, in_or_app. right. apply in_or_app. right. apply in_flat_map. exists e. split; assumption.
  - exists m, U. split; [reflexivity|]. split; [exact (reset _ _ _ _ _ IV)|]. split; [apply incl_refl|]. split; reflexivity.
Qed.
Lemma cells_incl U U' c : incl U' U -> In c (cells F D T false U' h g) -> In c (cells F D T false U h g).
Proof. intros IN. unfold cells. rewrite !in_app_iff, !in_flat_map. intros [J|[J|(x & J & K)]]; auto. right. right. exists x. split; auto. Qed.
Lemma safe_ok k : forall b a fuel U m0 m, I U m0 m h (a ++ b) g k -> (length b < fuel)%nat -> (length a + length b <= N)%nat ->
  exists m' U', visit_safe fuel (next F) body (hd 0 b) m = Ok (b, m') /\ I U' m' m' h (a ++ kept b) g k /\ (forall c, ~ In c (cells F D T false U h g) -> m' c = m c).
Proof.
  induction b as [|x b IH]; intros a fuel U m0 m IV L LN; (destruct fuel as [|fuel]; [cbn in L; lia|]); cbn [visit_safe hd].
  - exists m, U. split; [reflexivity|]. split; [exact (reset _ _ _ _ _ IV)|reflexivity].
  - pose proof (in_pos _ _ _ _ _ _ _ _ _ _ _ _ IV). rewrite (proj2 (Z.eqb_neq x 0)) by lia. rewrite (next_ok _ _ _ _ _ _ _ _ _ _ _ _ IV). cbn [bind].
    destruct (body_ok _ _ _ _ _ _ _ IV ltac:(lia)) as (m1 & U1 & -> & IV1 & IN & FR & _). cbn [bind]. rewrite app_assoc in IV1.
    destruct (IH (a ++ kept [x]) fuel U1 m1 m1 IV1) as (m2 & U2 & E2 & IV2 & FR2); [cbn in L; lia|rewrite app_length; pose proof (kept_length P [x]) as KL; cbn [length] in *; lia|].
    rewrite E2. cbn [bind]. exists m2, U2. split; [reflexivity|]. split.
    + rewrite <- app_assoc in IV2. cbn [filter] in IV2 |- *. destruct (negb (P x)); exact IV2.
    + intros c J. rewrite FR2 by (intros K; apply J; exact (cells_incl _ _ _ IN K)). exact (FR c J).
Qed.
Lemma foreach_safe_ok k fuel U m0 m l : I U m0 m h l g k -> (length l < fuel)%nat -> (length l <= N)%nat ->
  exists m' U', foreach_safe F fuel body h m = Ok (l, m') /\ I U' m' m' h (kept l) g k /\ (forall c, ~ In c (cells F D T false U h g) -> m' c = m c).
Proof. intros IV L LN. unfold foreach_safe. rewrite (first_ok _ _ _ _ _ _ _ _ _ _ IV). cbn [bind]. exact (safe_ok k l [] fuel U m0 m IV L LN). Qed.
(** The plain loop reads the freed element. *)
Lemma with_undef k : forall b a x c fuel U m0 m, I U m0 m h (a ++ b ++ x :: c) g k -> forallb (fun e => negb (P e)) b = true -> P x = true -> (length b < fuel)%nat -> (length a + length b <= N)%nat ->
  visit_with fuel (next F) body (hd 0 (b ++ [x])) m = Undef WildPointer.
Proof.
  induction b as [|y b IH]; intros a x c fuel U m0 m IV PB Px L LN; (destruct fuel as [|fuel]; [cbn in L; lia|]); cbn [visit_with app hd forallb] in *.
  - pose proof (in_pos _ _ _ _ _ _ _ _ _ _ _ _ IV) as XP. pose proof (sep_F _ _ _ _ _ _ _ (i_sep _ _ _ _ _ _ _ _ _ _ _ _ IV)) as FP. rewrite (proj2 (Z.eqb_neq x 0)) by lia. unfold drop. rewrite Px. destruct (RM _ _ _ _ _ _ _ IV ltac:(lia)) as (m' & -> & _). cbn [bind].
    unfold next, get, fld, ld. rewrite (proj2 (Z.eqb_neq x 0)) by lia. cbn [bind]. unfold release. rewrite Z.eqb_refl. cbn [orb]. rewrite (proj2 (Z.eqb_neq (x + F) 0)) by lia. reflexivity.
  - apply andb_prop in PB. destruct PB as [Py PB]. pose proof (in_pos _ _ _ _ _ _ _ _ _ _ _ _ IV). rewrite (proj2 (Z.eqb_neq y 0)) by lia. unfold drop at 1. destruct (P y); [discriminate Py|]. cbn [bind].
    rewrite (next_ok _ _ _ _ _ _ _ _ _ _ _ _ IV). cbn [bind]. rewrite app_mid in IV. assert (E : hd 0 (b ++ x :: c) = hd 0 (b ++ [x])) by (destruct b; reflexivity). rewrite E.
    rewrite (IH (a ++ [y]) x c fuel U m0 m IV PB Px); [reflexivity|cbn in L; lia|rewrite app_length; cbn [length] in *; lia].
Qed.
End Safe.

Section SafeBack.
Variables (F h g : Z) (P : Z -> bool).
Notation I U m0 := (inv F U true true false zero m0).
Notation body := (drop F true (tailq_remove F h) P).
Notation kept := (filter (fun e => negb (P e))).
Lemma tq_rm : forall U m0 m a e b k, I U m0 m h (a ++ e :: b) g k -> forall N, (length a <= N)%nat -> exists m', tailq_remove F h e m = Ok m' /\ I U m0 m' h (a ++ b) g k.
Proof. intros U m0 m a e b k IV N _. exact (tq_remove _ _ _ _ _ _ _ _ _ _ IV). Qed.
Lemma safe_back k : forall a b fuel U m0 m, I U m0 m h (a ++ b) g k -> (length a < fuel)%nat ->
  exists m' U', visit_safe fuel (tailq_prev F) body (last a 0) m = Ok (rev a, m') /\ I U' m' m' h (kept a ++ b) g k /\ (forall c, ~ In c (cells F true true false U h g) -> m' c = m c).
Proof.
  induction a as [|x a IH] using rev_ind; intros b fuel U m0 m IV L; (destruct fuel as [|fuel]; [cbn in L; lia|]); cbn [visit_safe].
  - exists m, U. split; [reflexivity|]. split; [exact (reset _ _ _ _ _ _ _ _ _ _ IV)|reflexivity].
  - rewrite last_last. rewrite <- app_assoc in IV. cbn [app] in IV. pose proof (in_pos _ _ _ _ _ _ _ _ _ _ _ _ IV). rewrite (proj2 (Z.eqb_neq x 0)) by lia. rewrite (prev_ok _ _ _ _ _ _ _ _ _ _ IV). cbn [bind].
    destruct (body_ok F true true h g (tailq_remove F h) (length a) (fun U m0 m a' e b' k' IV' L' => tq_rm U m0 m a' e b' k' IV' _ L') P _ _ _ _ _ _ _ IV (le_n _)) as (m1 & U1 & -> & IV1 & IN & FR & _). cbn [bind].
    rewrite app_length in L. cbn [length] in L.
    destruct (IH (kept [x] ++ b) fuel U1 m1 m1 IV1) as (m2 & U2 & E2 & IV2 & FR2); [lia|].
    rewrite E2. cbn [bind]. exists m2, U2. split; [rewrite rev_app_distr; reflexivity|]. split.
    + rewrite app_assoc in IV2. rewrite filter_app. exact IV2.
    + intros c J. rewrite FR2 by (intros K; apply J; exact (cells_incl _ _ _ _ _ _ _ _ IN K)). exact (FR c J).
Qed.
Lemma foreach_reverse_safe_ok k fuel U m0 m l : I U m0 m h l g k -> (length l < fuel)%nat ->
  exists m' U', foreach_reverse_safe F fuel body h m = Ok (rev l, m') /\ I U' m' m' h (kept l) g k /\ (forall c, ~ In c (cells F true true false U h g) -> m' c = m c).
Proof.
  intros IV L. unfold foreach_reverse_safe. rewrite (last_ok _ _ _ _ _ _ _ _ IV). cbn [bind]. assert (IV' : I U m0 m h (l ++ []) g k) by (rewrite app_nil_r; exact IV).
  destruct (safe_back k l [] fuel U m0 m IV' L) as (m' & U' & E & J & FR). rewrite app_nil_r in J. exists m', U'. auto.
Qed.
End SafeBack.

(** SLIST_REMOVE of an element that is not in the list runs off its end. *)
Lemma sl_find_absent F U m0 m h g k e : e <> 0 -> forall b y p fuel, inv F U false false false zero m0 m h (p ++ y :: b) g k -> ~ In e b -> (length b + 1 < fuel)%nat -> slist_find F fuel y e m = Undef NullDeref.
Proof.
  intros E0. induction b as [|z b IH]; intros y p fuel IV NI L; (destruct fuel as [|fuel]; [lia|]); cbn [slist_find].
  - fold (next F y m). rewrite (next_ok _ _ _ _ _ _ _ _ _ _ _ _ IV). cbn [bind hd]. rewrite (proj2 (Z.eqb_neq 0 e)) by lia. cbn [bind]. destruct fuel as [|fuel]; [lia|]. reflexivity.
  - fold (next F y m). rewrite (next_ok _ _ _ _ _ _ _ _ _ _ _ _ IV). cbn [bind hd]. rewrite (proj2 (Z.eqb_neq z e)) by (intros ->; apply NI; left; reflexivity). cbn [bind].
    rewrite app_mid in IV. apply (IH z (p ++ [y]) fuel IV); [intros J; apply NI; right; assumption|cbn in L; lia].
Qed.
Lemma sl_remove_absent F U m0 m h l g k e fuel : e <> 0 -> inv F U false false false zero m0 m h l g k -> ~ In e l -> (length l < fuel)%nat -> slist_remove F fuel h e m = Undef NullDeref.
Proof.
  intros E0 IV NI L. unfold slist_remove. fold (first h m). rewrite (first_ok _ _ _ _ _ _ _ _ _ _ IV). cbn [bind]. destruct l as [|y b]; cbn [hd].
  - rewrite (proj2 (Z.eqb_neq 0 e)) by lia. destruct fuel; [cbn in L; lia|reflexivity].
  - rewrite (proj2 (Z.eqb_neq y e)) by (intros ->; apply NI; left; reflexivity). destruct b as [|z b].
    + destruct fuel as [|[|fuel]]; cbn in L; try lia.
      rewrite (sl_find_absent F U m0 m h g k e E0 [] y [] _ IV); [reflexivity|intros []|cbn; lia].
    + rewrite (sl_find_absent F U m0 m h g k e E0 (z :: b) y [] _ IV); [reflexivity|intros J; apply NI; right; assumption|cbn [length] in *; lia].
Qed.
