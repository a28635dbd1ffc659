(** Red-black trees: the answers of a tree that holds a list, whole histories, the colours, loops that remove. *)
From Verif Require Import BaseLemmas TreeModel SpecTree TreeMem TreeBal TreeDel TreeOps TreeWalk.
From Coq Require Import Permutation.
Import ListNotations.

Lemma rounds_mono a b : (a <= b)%nat -> (rounds a <= rounds b)%nat.
Proof. intros. unfold rounds. assert (Nat.log2 (a + 1) <= Nat.log2 (b + 1))%nat by (apply Nat.log2_le_mono; lia). lia. Qed.
Lemma first_nz l m t : Rep m t -> elems t = l -> forall x b a, l = a ++ x :: b -> x <> 0.
Proof. intros R Q x b a ->. apply (rep_some m t x R). rewrite Q, in_app_iff. cbn. auto. Qed.

Section Key.
Variables (cmp : Z -> Z -> Z) (key : Z -> Z).
Hypothesis CMP : compares cmp key.

Lemma next_of m l fuel : holds key m l -> (rounds (length l) < fuel)%nat -> forall a x b, l = a ++ x :: b -> x <> 0 /\ rb_next fuel x m = Ok (first b) /\ rb_prev fuel x m = Ok (first (rev a)).
Proof.
  intros (t & R & K & Q & O) L a x b ->. pose proof (height_rb t K) as Hh. rewrite Q in Hh.
  destruct (in_plug t x) as (k & c & l & r & ->); [rewrite Q, in_app_iff; cbn; auto|].
  assert (ND : NoDup (a ++ x :: b)) by (rewrite <- Q; apply R).
  assert (AB : a = before k ++ elems l /\ b = elems r ++ after k).
  { pose proof Q as Q'. rewrite elems_around in Q'. cbn [elems] in Q'. rewrite <- app_assoc in Q'. cbn [app] in Q'. rewrite app_assoc in Q'. symmetry in Q'. apply (nodup_split _ _ _ _ x ND Q'). }
  destruct AB as (-> & ->). destruct (t_node _ _ _ _ _ _ R) as (_ & X0). split; [auto|].
  split; [apply (next_ok m k c l x r fuel R)|apply (prev_ok m k c l x r fuel R)]; lia.
Qed.
Lemma walk_next m l fuel : holds key m l -> (rounds (length l) < fuel)%nat -> forall b a, l = a ++ b -> walk (S (length b)) (rb_next fuel) (first b) m = Ok b.
Proof.
  intros H L. induction b as [|x b IH]; intros a Q; [reflexivity|]. cbn [first length]. 
  destruct (next_of m l fuel H L a x b Q) as (X0 & N & _). remember (S (length b)) as n. cbn [walk]. destruct (Z.eqb_spec x 0); [congruence|].
  rewrite N. cbn [bind]. subst n. rewrite (IH (a ++ [x])); [reflexivity|]. rewrite <- app_assoc. exact Q.
Qed.
Lemma walk_prev m l fuel : holds key m l -> (rounds (length l) < fuel)%nat -> forall b a, rev l = a ++ b -> walk (S (length b)) (rb_prev fuel) (first b) m = Ok b.
Proof.
  intros H L. induction b as [|x b IH]; intros a Q; [reflexivity|]. cbn [first length].
  assert (Q' : l = rev b ++ x :: rev a). { rewrite <- (rev_involutive l), Q, rev_app_distr. cbn. rewrite <- app_assoc. reflexivity. }
  destruct (next_of m l fuel H L _ _ _ Q') as (X0 & _ & N). rewrite rev_involutive in N.
  remember (S (length b)) as n. cbn [walk]. destruct (Z.eqb_spec x 0); [congruence|].
  rewrite N. cbn [bind]. subst n. rewrite (IH (a ++ [x])); [reflexivity|]. rewrite <- app_assoc. exact Q.
Qed.
Lemma min_of m l fuel : holds key m l -> (rounds (length l) < fuel)%nat -> rb_minmax fuel (-1) m = Ok (first l) /\ rb_minmax fuel 1 m = Ok (first (rev l)).
Proof.
  intros (t & R & K & Q & O) L. pose proof (height_rb t K) as Hh. rewrite Q in Hh. unfold rb_minmax. rewrite (proj1 R).
  rewrite (min_ok t [] fuel 0 m R), (max_ok t [] fuel 0 m R) by lia. rewrite Q. split; reflexivity.
Qed.
Lemma holds_answers m l fuel : holds key m l -> (rounds (length l) < fuel)%nat -> answers cmp key fuel m l.
Proof.
  intros H L. destruct (min_of m l fuel H L) as (M1 & M2). pose proof H as (t & R & K & Q & O). pose proof (height_rb t K) as Hh. rewrite Q in Hh.
  pose proof O as O'. rewrite <- Q in O'.
  constructor; auto.
  - intros e x J1 J2. unfold rb_find. rewrite (proj1 R). apply (find_ok cmp key CMP t fuel [] e m R O'); [lia| |auto]. rewrite Q. auto.
  - intros e N. unfold rb_find. rewrite (proj1 R). apply (find_ok cmp key CMP t fuel [] e m R O'); [lia|]. rewrite Q. auto.
  - intros e a b QQ A B. unfold rb_nfind. rewrite (proj1 R). rewrite (nfind_ok cmp key CMP t fuel [] e 0 m R O' ltac:(lia) a b); auto; congruence.
  - intros a x b QQ. apply (next_of m l fuel H L a x b QQ).
  - intros a x b QQ. apply (next_of m l fuel H L a x b QQ).
  - unfold rb_foreach. rewrite M1. cbn [bind]. apply (walk_next m l fuel H L l []). reflexivity.
  - unfold rb_foreach_reverse. rewrite M2. cbn [bind]. rewrite <- rev_length. apply (walk_prev m l fuel H L (rev l) []). reflexivity.
Qed.

(** Histories. *)
Lemma holds_le m l U : holds key m l -> incl l U -> (length l <= length U)%nat.
Proof. intros (t & R & _ & Q & _) I. apply NoDup_incl_length; auto. rewrite <- Q. apply R. Qed.
Lemma holds_some m l z : holds key m l -> In z l -> nodes m z <> None /\ z <> 0.
Proof. intros (t & R & _ & Q & _) J. apply (rep_some m t); auto. rewrite Q. auto. Qed.
Lemma do_insert m l U fuel e : holds key m l -> incl l U -> (forall x, In x U -> x <> 0 /\ nodes m x <> None) -> In e U -> (rounds (length l) < fuel)%nat -> 
  forall r l', turns key l [Insert e] [r] l' -> exists m', rb_insert cmp fuel e m = Ok (r, m') /\ holds key m' l' /\ incl l' U /\ (forall x, In x U -> x <> 0 /\ nodes m' x <> None).
Proof.
  intros H I UU EU L r l' T. inversion T as [|a e' b ops rs l0 A B T' Q1 Q2 Q3 Q4|x e' l0 ops rs l1 J1 J2 T' Q1 Q2 Q3 Q4|]; subst; inversion T'; subst.
  - destruct (UU e EU) as (E0 & EN). destruct (nodes m e) as [n|] eqn:N; [|congruence].
    destruct (insert_new cmp key CMP m a e b fuel n H A B E0 N L) as (m' & E1 & H' & S1). exists m'. split; [auto|]. split; [auto|]. split.
    + intros z J. apply in_app_iff in J. destruct J as [J|[<- |J]]; auto; apply I; rewrite in_app_iff; auto.
    + intros x J. destruct (UU x J) as (X0 & XN). split; [auto|]. destruct (in_dec Z.eq_dec x (a ++ e :: b)) as [K|K]; [apply (holds_some _ _ _ H' K)|]. rewrite (S1 x K). auto.
  - exists m. rewrite (insert_dup cmp key CMP m l' e r fuel); auto.
Qed.
Lemma do_remove m l U fuel e : holds key m l -> incl l U -> (forall x, In x U -> x <> 0 /\ nodes m x <> None) -> (rounds (length l) < fuel)%nat -> 
  forall r l', turns key l [Remove e] [r] l' -> exists m', rb_remove fuel e m = Ok (r, m') /\ holds key m' l' /\ incl l' U /\ (forall x, In x U -> x <> 0 /\ nodes m' x <> None).
Proof.
  intros (t & R & K & Q & O) I UU L r l' T. inversion T as [| | |a e' b ops rs l0 T' Q1 Q2 Q3 Q4]; subst; inversion T'; subst.
  match goal with Q : _ = elems t |- _ => symmetry in Q; rename Q into Q0 end.
  destruct (remove_ok m a r b fuel t R K Q0) as (m' & t' & E1 & R' & K' & Q' & S'); [rewrite <- Q0; auto|].
  destruct S' as (S' & _). exists m'. split; [auto|]. split; [exists t'; split; [auto|]; split; [auto|]; split; [auto|]|split].
  - rewrite Q0 in O. apply ordered_app in O. destruct O as (O1 & (O2 & O3) & O4). apply ordered_app. repeat split; auto. intros x y J1 J2. apply O4; cbn; auto.
  - intros z J. apply I. rewrite Q0. apply in_app_iff in J. rewrite in_app_iff. cbn. tauto.
  - intros x J. destruct (UU x J) as (X0 & XN). split; auto.
Qed.
Lemma turns_one l o ops rs l' : turns key l (o :: ops) rs l' -> exists r rs' l1, rs = r :: rs' /\ turns key l [o] [r] l1 /\ turns key l1 ops rs' l'.
Proof.
  intros T. inversion T; subst.
  - do 3 eexists. split; [reflexivity|]. split; [apply t_new; [auto|auto|apply t_nil]|auto].
  - do 3 eexists. split; [reflexivity|]. split; [eapply t_dup; [eauto|auto|apply t_nil]|auto].
  - do 3 eexists. split; [reflexivity|]. split; [apply t_del; apply t_nil|auto].
Qed.
Lemma run_ok U fuel : (rounds (length U) < fuel)%nat -> forall ops l rs l' m, holds key m l -> incl l U -> (forall x, In x U -> x <> 0 /\ nodes m x <> None) ->
  (forall o, In o ops -> In (op_elem o) U) -> turns key l ops rs l' ->
  exists m', run_rb cmp fuel ops m = Ok (rs, m') /\ holds key m' l' /\ incl l' U /\ (forall x, In x U -> x <> 0 /\ nodes m' x <> None).
Proof.
  intros L. induction ops as [|o ops IH]; intros l rs l' m H I UU OU T.
  - inversion T; subst. exists m. cbn. auto.
  - apply turns_one in T. destruct T as (r & rs' & l1 & -> & T1 & T2). pose proof (rounds_mono _ _ (holds_le m l U H I)) as LL.
    assert (S1 : exists m', do_rb cmp fuel o m = Ok (r, m') /\ holds key m' l1 /\ incl l1 U /\ (forall x, In x U -> x <> 0 /\ nodes m' x <> None)).
    { destruct o as [e|e]; cbn [do_rb]; [apply (do_insert m l U fuel e)|apply (do_remove m l U fuel e)]; auto; try lia. apply (OU (Insert e)). cbn; auto. }
    destruct S1 as (m1 & E1 & H1 & I1 & U1). cbn [run_rb]. rewrite E1. cbn [bind].
    destruct (IH l1 rs' l' m1 H1 I1 U1) as (m2 & E2 & H2 & I2 & U2); auto; [intros; apply OU; cbn; auto|]. rewrite E2. cbn [bind]. eauto.
Qed.
Lemma holds_empty m : holds key (set_root 0 m) [].
Proof. exists E. repeat split; cbn; auto; [constructor|exists 0%nat; reflexivity]. Qed.
Lemma holds_ordered m l : holds key m l -> ordered key l.
Proof. intros (t & _ & _ & _ & O). exact O. Qed.

(** The colours. *)
Lemma way_ok t : forall k m w p, Rep m (plug k t) -> way w (ptr t) m = Some p -> forall n, bal t n -> blacks m p = n /\ (length p <= height t)%nat.
Proof.
  induction t as [|c l IHl x r IHr]; intros k m w p R W n B.
  - destruct w; cbn in W; [|discriminate]. injection W as <-. cbn in B. subst. split; [reflexivity|cbn; lia].
  - destruct (t_node _ _ _ _ _ _ R) as (K & X0). cbn [ptr height] in *. destruct w as [|d w]; cbn [way] in W; (destruct (Z.eqb_spec x 0); [congruence|]); [discriminate|].
    rewrite K in W. cbn [e_left e_right] in W.
    assert (G : exists q n', p = x :: q /\ (blacks m q = n' /\ (length q <= Nat.max (height l) (height r))%nat) /\ n = (if c then n' else S n')).
    { destruct d; (destruct (way w _ m) as [q|] eqn:EW; [|discriminate]); cbn in W; injection W as <-; exists q; destruct c; cbn [bal] in B.
      - exists n. split; [reflexivity|]. split; [|reflexivity]. destruct (IHl (Fr true true x r :: k) m w q R EW n) as (A1 & A2); [tauto|]. split; [auto|lia].
      - destruct n as [|n]; [tauto|]. exists n. split; [reflexivity|]. split; [|reflexivity]. destruct (IHl (Fr true false x r :: k) m w q R EW n) as (A1 & A2); [tauto|]. split; [auto|lia].
      - exists n. split; [reflexivity|]. split; [|reflexivity]. destruct (IHr (Fr false true x l :: k) m w q R EW n) as (A1 & A2); [tauto|]. split; [auto|lia].
      - destruct n as [|n]; [tauto|]. exists n. split; [reflexivity|]. split; [|reflexivity]. destruct (IHr (Fr false false x l :: k) m w q R EW n) as (A1 & A2); [tauto|]. split; [auto|lia]. }
    destruct G as (q & n' & -> & (G1 & G2) & ->). split; [|cbn [length]; lia].
    unfold blacks in *. cbn [filter]. rewrite K. cbn [e_color]. destruct c; cbn; congruence.
Qed.
Lemma holds_red_black m l : holds key m l -> red_black m l.
Proof.
  intros (t & R & K & Q & O). pose proof (height_rb t K) as Hh. rewrite Q in Hh. pose proof K as ((n & B) & N & RT). rewrite <- Q in *.
  unfold red_black. rewrite (proj1 R). split; [|split; [|split]].
  - intros w w' p p' W W'. destruct (way_ok t [] m w p R W n B) as (-> & _). destruct (way_ok t [] m w' p' R W' n B) as (-> & _). reflexivity.
  - intros e ne J NE C. destruct (in_plug t e J) as (k & c & a & b & ->). destruct (t_node _ _ _ _ _ _ R) as (KE & E0). rewrite KE in NE. injection NE as <-. cbn [e_color e_parent] in *.
    assert (c = true) as -> by (destruct c; [auto|discriminate]). destruct (okc_plug _ _ K) as (n1 & OC & _ & _ & HR).
    destruct k as [|[d q p s] k]; [specialize (HR eq_refl); discriminate|]. cbn [hred f_c] in HR. destruct q; [specialize (HR eq_refl); discriminate|].
    destruct (frame_node _ _ _ _ _ _ _ R) as (KP & P0). cbn [top f_x]. eexists. split; [auto|]. split; [exact KP|]. destruct d; reflexivity.
  - intros e ne J NE. destruct (in_plug t e J) as (k & c & a & b & ->). destruct (t_node _ _ _ _ _ _ R) as (KE & E0). rewrite KE in NE. injection NE as <-. destruct c; cbn; auto.
  - intros w p W. destruct (way_ok t [] m w p R W n B) as (_ & H). lia.
Qed.

(** Loops that remove. *)
Lemma release_holds m l x : holds key m l -> ~ In x l -> holds key (release x m) l.
Proof.
  intros (t & (R1 & R2 & R3) & K & Q & O) N. exists t. split; [|auto]. split; [exact R1|]. split; [|exact R3].
  apply (rep_frame (nodes m)); auto. intros z J. cbn [release nodes]. destruct (Z.eqb_spec z x); [subst; congruence|reflexivity].
Qed.
Lemma weed_ok m a x b f keep : holds key m (a ++ x :: b) -> (rounds (length (a ++ x :: b)) < f)%nat ->
  exists m', weed f keep x m = Ok m' /\ holds key m' (a ++ (if keep x then [x] else []) ++ b) /\ (keep x = false -> nodes m' x = None) /\ (forall z, nodes m z <> None -> z <> x -> nodes m' z <> None) /\
    (forall z, nodes m z = None -> ~ In z (a ++ x :: b) -> nodes m' z = None).
Proof.
  intros H L. unfold weed. destruct (keep x) eqn:KX.
  - exists m. split; [reflexivity|]. split; [exact H|]. split; [discriminate|]. auto.
  - pose proof H as (t & R & K & Q & O). assert (L' := L). 
    destruct (remove_ok m a x b f t R K Q L) as (m' & t' & E1 & R' & K' & Q' & S' & S2). rewrite E1. cbn [bind].
    assert (ND : NoDup (a ++ x :: b)) by (rewrite <- Q; apply R).
    exists (release x m'). split; [reflexivity|]. split; [|split; [intros _; cbn; rewrite Z.eqb_refl; reflexivity|split]].
    + apply release_holds; [|apply NoDup_remove_2; auto]. exists t'. split; [auto|]. split; [auto|]. split; [auto|].
      rewrite ordered_app in O |- *. destruct O as (O1 & (O2 & O3) & O4). repeat split; auto. intros u v J1 J2. apply O4; cbn; auto.
    + intros z NZ ZX. cbn. destruct (Z.eqb_spec z x); [congruence|]. auto.
    + intros z NZ ZN. cbn. destruct (Z.eqb_spec z x); [reflexivity|]. rewrite S2; auto.
Qed.

Lemma safe_next f keep : forall b a m l, holds key m l -> l = a ++ b -> (rounds (length l) < f)%nat ->
  exists m', safe_walk (S (length b)) f (rb_next f) keep (first b) m = Ok m' /\ holds key m' (a ++ filter keep b) /\ (forall e, In e b -> keep e = false -> nodes m' e = None) /\
    (forall z, nodes m z = None -> ~ In z l -> nodes m' z = None).
Proof.
  induction b as [|x b IH]; intros a m l H Q L.
  - exists m. rewrite app_nil_r in Q. subst a. cbn [first length safe_walk Z.eqb filter]. rewrite app_nil_r. split; [reflexivity|]. split; [auto|]. split; [intros ? []|auto].
  - destruct (next_of m l f H L a x b Q) as (X0 & N & _). cbn [first length]. remember (S (length b)) as n. cbn [safe_walk]. destruct (Z.eqb_spec x 0); [congruence|].
    rewrite N. cbn [bind]. subst l n. destruct (weed_ok m a x b f keep H L) as (m1 & E1 & H1 & F1 & _ & G1). rewrite E1. cbn [bind].
    rewrite app_assoc in H1.
    assert (ND : NoDup (a ++ x :: b)) by (destruct H as (t & R & _ & <- & _); apply R).
    destruct (IH (a ++ (if keep x then [x] else [])) m1 _ H1 eq_refl) as (m2 & E2 & H2 & F2 & G2).
    { eapply Nat.le_lt_trans; [|exact L]. apply rounds_mono. rewrite !app_length. destruct (keep x); cbn; lia. }
    exists m2. split; [exact E2|]. split; [|split].
    + cbn [filter]. destruct (keep x); rewrite <- app_assoc in H2; exact H2.
    + intros e [<- |J] KE; [|auto]. apply G2; auto. rewrite KE, app_nil_r. apply NoDup_remove_2. auto.
    + intros z NZ ZI. apply G2; auto. intros J. apply ZI. rewrite !in_app_iff in *. cbn. destruct (keep x); cbn in J; tauto.
Qed.
Lemma safe_prev f keep : forall b a m l, holds key m l -> l = rev b ++ a -> (rounds (length l) < f)%nat ->
  exists m', safe_walk (S (length b)) f (rb_prev f) keep (first b) m = Ok m' /\ holds key m' (filter keep (rev b) ++ a) /\ (forall e, In e b -> keep e = false -> nodes m' e = None) /\
    (forall z, nodes m z = None -> ~ In z l -> nodes m' z = None).
Proof.
  induction b as [|x b IH]; intros a m l H Q L.
  - exists m. cbn in Q. subst a. cbn [first length safe_walk Z.eqb filter rev app]. split; [reflexivity|]. split; [auto|]. split; [intros ? []|auto].
  - cbn [rev] in Q. rewrite <- app_assoc in Q. cbn [app] in Q.
    destruct (next_of m l f H L (rev b) x a Q) as (X0 & _ & N). rewrite rev_involutive in N. cbn [first length]. remember (S (length b)) as n. cbn [safe_walk]. destruct (Z.eqb_spec x 0); [congruence|].
    rewrite N. cbn [bind]. subst l n. destruct (weed_ok m (rev b) x a f keep H L) as (m1 & E1 & H1 & F1 & _ & G1). rewrite E1. cbn [bind].
    assert (ND : NoDup (rev b ++ x :: a)) by (destruct H as (t & R & _ & <- & _); apply R).
    destruct (IH ((if keep x then [x] else []) ++ a) m1 _ H1 eq_refl) as (m2 & E2 & H2 & F2 & G2).
    { eapply Nat.le_lt_trans; [|exact L]. apply rounds_mono. rewrite !app_length. destruct (keep x); cbn; lia. }
    exists m2. split; [exact E2|]. split; [|split].
    + cbn [rev]. rewrite filter_app. cbn [filter]. destruct (keep x); rewrite <- app_assoc; exact H2.
    + intros e [<- |J] KE; [|auto]. apply G2; auto. rewrite KE. cbn [app]. apply NoDup_remove_2. auto.
    + intros z NZ ZI. apply G2; auto. intros J. apply ZI. rewrite !in_app_iff in *. cbn. destruct (keep x); cbn in J; tauto.
Qed.
Lemma freed_read x m fuel : x <> 0 -> nodes m x = None -> rb_next fuel x m = Undef WildPointer /\ rb_prev fuel x m = Undef WildPointer.
Proof. intros X0 N. unfold rb_next, rb_prev, left, right, node. destruct (Z.eqb_spec x 0); [congruence|]. rewrite N. split; reflexivity. Qed.
Lemma plain_next f keep : forall a0 a m l x b, holds key m l -> l = a0 ++ a ++ x :: b -> (forall e, In e a -> keep e = true) -> keep x = false -> (rounds (length l) < f)%nat ->
  forall n, (length a < n)%nat -> plain_walk n f (rb_next f) keep (first (a ++ [x])) m = Undef WildPointer.
Proof.
  intros a0 a. revert a0. induction a as [|y a IH]; intros a0 m l x b H Q KA KX L n LN; (destruct n as [|n]; [cbn in LN; lia|]); cbn [app first plain_walk] in *.
  - destruct (next_of m l f H L _ x b Q) as (X0 & _ & _). destruct (Z.eqb_spec x 0); [congruence|]. subst l.
    destruct (weed_ok m a0 x b f keep H L) as (m1 & E1 & _ & F1 & _). rewrite E1. cbn [bind]. rewrite (proj1 (freed_read x m1 f X0 (F1 KX))). reflexivity.
  - destruct (next_of m l f H L a0 y (a ++ x :: b)) as (X0 & N & _); [rewrite Q; reflexivity|]. destruct (Z.eqb_spec y 0); [congruence|].
    unfold weed. rewrite KA by (cbn; auto). cbn [bind]. rewrite N. cbn [bind].
    assert (FF : first (a ++ x :: b) = first (a ++ [x])) by (destruct a; reflexivity). rewrite FF.
    apply (IH (a0 ++ [y]) m l x b); auto; [rewrite Q, <- app_assoc; reflexivity|intros; apply KA; cbn; auto|cbn in LN; lia].
Qed.
Lemma plain_prev f keep : forall a0 a m l x b, holds key m l -> rev l = a0 ++ a ++ x :: b -> (forall e, In e a -> keep e = true) -> keep x = false -> (rounds (length l) < f)%nat ->
  forall n, (length a < n)%nat -> plain_walk n f (rb_prev f) keep (first (a ++ [x])) m = Undef WildPointer.
Proof.
  intros a0 a. revert a0. induction a as [|y a IH]; intros a0 m l x b H Q KA KX L n LN; (destruct n as [|n]; [cbn in LN; lia|]); cbn [app first plain_walk] in *.
  - assert (Q' : l = rev b ++ x :: rev a0). { rewrite <- (rev_involutive l), Q, rev_app_distr. cbn. rewrite <- app_assoc. reflexivity. }
    destruct (next_of m l f H L _ x _ Q') as (X0 & _ & _). destruct (Z.eqb_spec x 0); [congruence|]. subst l.
    destruct (weed_ok m _ x _ f keep H L) as (m1 & E1 & _ & F1 & _). rewrite E1. cbn [bind]. rewrite (proj2 (freed_read x m1 f X0 (F1 KX))). reflexivity.
  - assert (Q' : l = rev (a ++ x :: b) ++ y :: rev a0). { rewrite <- (rev_involutive l), Q, rev_app_distr. cbn [rev]. rewrite <- app_assoc. reflexivity. }
    destruct (next_of m l f H L _ y _ Q') as (X0 & _ & N). rewrite rev_involutive in N. destruct (Z.eqb_spec y 0); [congruence|].
    unfold weed. rewrite KA by (cbn; auto). cbn [bind]. rewrite N. cbn [bind].
    assert (FF : first (a ++ x :: b) = first (a ++ [x])) by (destruct a; reflexivity). rewrite FF.
    apply (IH (a0 ++ [y]) m l x b); auto; [rewrite Q, <- app_assoc; reflexivity|intros; apply KA; cbn; auto|cbn in LN; lia].
Qed.
Lemma first_bad keep (l : list Z) : existsb (fun e => negb (keep e)) l = true -> exists a x b, l = a ++ x :: b /\ (forall e, In e a -> keep e = true) /\ keep x = false.
Proof.
  induction l as [|y l IH]; cbn; [discriminate|]. destruct (keep y) eqn:KY; cbn.
  - intros J. destruct (IH J) as (a & x & b & -> & A & X). exists (y :: a), x, b. split; [reflexivity|]. split; [|auto]. intros e [<- |K]; auto.
  - intros _. exists [], y, l. split; [reflexivity|]. split; [intros e []|auto].
Qed.
End Key.
