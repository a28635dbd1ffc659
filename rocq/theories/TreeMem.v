(** The red-black trees of TreeModel in memory: what the elementary steps of the macros do to the tree that the memory holds. *)
From Verif Require Import BaseLemmas TreeModel.
From Coq Require Import Permutation.
Import ListNotations.

(** A tree of elements; [true]: red. *)
Inductive tree := E | T (c : bool) (l : tree) (x : Z) (r : tree).
(** The node whose child on side [d] ([true]: left) is [a]. *)
Definition mk (d c : bool) (a : tree) (x : Z) (b : tree) : tree := if d then T c a x b else T c b x a.
(** The pointer to a tree. *)
Definition ptr (t : tree) : Z := match t with E => 0 | T _ _ x _ => x end.
Fixpoint elems (t : tree) : list Z := match t with E => [] | T _ l x r => elems l ++ x :: elems r end.
(** The way up from a subtree: on which side it hangs, the colour and the element above, the other child. *)
Record frame := Fr { f_d : bool; f_c : bool; f_x : Z; f_t : tree }.
Fixpoint plug (k : list frame) (t : tree) : tree := match k with [] => t | f :: k => plug k (mk (f_d f) (f_c f) t (f_x f) (f_t f)) end.
Definition top (k : list frame) : Z := match k with [] => 0 | f :: _ => f_x f end.
Fixpoint rootp (k : list frame) (p : Z) : Z := match k with [] => p | f :: k => rootp k (f_x f) end.
Fixpoint celems (k : list frame) : list Z := match k with [] => [] | f :: k => f_x f :: elems (f_t f) ++ celems k end.
Definition col (c : bool) : Z := if c then RED else BLACK.
Definition ent (d : bool) (a b p c : Z) : entry := if d then Entry a b p c else Entry b a p c.
(** The memory holds the tree, below [p]. *)
Fixpoint rep (m : Z -> option entry) (p : Z) (t : tree) : Prop :=
  match t with E => True | T c l x r => m x = Some (Entry (ptr l) (ptr r) p (col c)) /\ rep m x l /\ rep m x r end.
Fixpoint repc (m : Z -> option entry) (k : list frame) (p : Z) : Prop :=
  match k with
  | [] => True
  | f :: k => m (f_x f) = Some (ent (f_d f) p (ptr (f_t f)) (top k) (col (f_c f))) /\ rep m (f_x f) (f_t f) /\ repc m k (f_x f)
  end.
Definition Rep (m : tmem) (t : tree) : Prop :=
  root m = ptr t /\ rep (nodes m) 0 t /\ NoDup (elems t) /\ ~ In 0 (elems t).
Definition off (m m' : tmem) (t : tree) : Prop := forall z, ~ In z (elems t) -> nodes m' z = nodes m z.

Lemma ptr_mk d c a x b : ptr (mk d c a x b) = x.
Proof. destruct d; reflexivity. Qed.
Lemma rep_mk m p d c a x b : rep m p (mk d c a x b) <-> m x = Some (ent d (ptr a) (ptr b) p (col c)) /\ rep m x a /\ rep m x b.
Proof. destruct d; cbn; tauto. Qed.
Lemma elems_mk d c a x b : Permutation (elems (mk d c a x b)) (x :: elems a ++ elems b).
Proof.
  destruct d; cbn [mk elems]; [symmetry; apply Permutation_middle|].
  transitivity (x :: elems b ++ elems a); [symmetry; apply Permutation_middle|constructor; apply Permutation_app_comm].
Qed.
Lemma elems_plug k : forall t, Permutation (elems (plug k t)) (elems t ++ celems k).
Proof.
  induction k as [|f k IH]; intros t; cbn [plug celems]; [rewrite app_nil_r; reflexivity|].
  rewrite IH, elems_mk. cbn. rewrite <- app_assoc. apply Permutation_middle.
Qed.
Lemma ptr_plug k : forall t, ptr (plug k t) = rootp k (ptr t).
Proof. induction k as [|f k IH]; intros t; cbn; [reflexivity|]. rewrite IH, ptr_mk. reflexivity. Qed.
Lemma rep_plug m k : forall t, rep m 0 (plug k t) <-> repc m k (ptr t) /\ rep m (top k) t.
Proof.
  induction k as [|f k IH]; intros t; cbn [plug repc top]; [tauto|].
  rewrite IH, rep_mk, ptr_mk. tauto.
Qed.
Lemma ptr_in t : ptr t <> 0 -> In (ptr t) (elems t).
Proof. destruct t; cbn; [congruence|]. intros. apply in_app_iff. cbn. auto. Qed.
Lemma top_in k : top k <> 0 -> In (top k) (celems k).
Proof. destruct k; cbn; [congruence|auto]. Qed.
Lemma top_plug k : forall t, top k <> 0 -> In (top k) (elems (plug k t)).
Proof. intros. rewrite elems_plug, in_app_iff. right. apply top_in; auto. Qed.

(** The focused form. *)
Definition At (m : tmem) (k : list frame) (t : tree) : Prop :=
  root m = rootp k (ptr t) /\ repc (nodes m) k (ptr t) /\ rep (nodes m) (top k) t /\
  NoDup (elems t ++ celems k) /\ ~ In 0 (elems t ++ celems k).
Lemma at_rep m k t : At m k t <-> Rep m (plug k t).
Proof.
  unfold At, Rep. rewrite ptr_plug, rep_plug. pose proof (elems_plug k t) as P.
  assert (N : NoDup (elems (plug k t)) <-> NoDup (elems t ++ celems k)) by (split; apply Permutation_NoDup; [|symmetry]; auto).
  assert (I : In 0 (elems (plug k t)) <-> In 0 (elems t ++ celems k)) by (split; apply Permutation_in; [|symmetry]; auto).
  rewrite N, I. tauto.
Qed.

Lemma rep_frame m m' t : forall p, (forall z, In z (elems t) -> m' z = m z) -> rep m p t -> rep m' p t.
Proof.
  induction t as [|c l IHl x r IHr]; intros p F; cbn; [auto|]. intros (A & B & C).
  rewrite F by (cbn; rewrite in_app_iff; cbn; auto).
  split; [auto|]. split; [apply IHl|apply IHr]; auto; intros; apply F; cbn; rewrite in_app_iff; cbn; auto.
Qed.
Lemma repc_frame m m' k : forall p, (forall z, In z (celems k) -> m' z = m z) -> repc m k p -> repc m' k p.
Proof.
  induction k as [|f k IH]; intros p F; cbn; [auto|]. intros (A & B & C).
  rewrite F by (cbn; auto).
  split; [auto|]. split; [apply (rep_frame m); auto|apply IH; auto]; intros; apply F; cbn; rewrite in_app_iff; auto.
Qed.

(** Reading and writing a known element. *)
Definition mupd (m : Z -> option entry) (e : Z) (n : entry) : Z -> option entry := fun c => if c =? e then Some n else m c.
Lemma mupd_eq m e n : mupd m e n e = Some n.
Proof. unfold mupd. rewrite Z.eqb_refl. reflexivity. Qed.
Lemma mupd_ne m e n c : c <> e -> mupd m e n c = m c.
Proof. intros. unfold mupd. destruct (Z.eqb_spec c e); congruence. Qed.
Definition child (d : bool) : Z -> tmem -> out Z := if d then left else right.
Definition set_child (d : bool) : Z -> Z -> tmem -> out tmem := if d then set_left else set_right.
Section Known.
Variables (m : tmem) (e : Z) (n : entry).
Hypothesis (K : nodes m e = Some n) (NZ : e <> 0).
Lemma node_k : node e m = Ok n.
Proof. unfold node. destruct (Z.eqb_spec e 0); [congruence|]. rewrite K. reflexivity. Qed.
Lemma put_k n' : put e n' m = Ok (Tmem (root m) (mupd (nodes m) e n')).
Proof. unfold put. rewrite node_k. reflexivity. Qed.
Lemma left_k : left e m = Ok (e_left n).
Proof. unfold left. rewrite node_k. reflexivity. Qed.
Lemma right_k : right e m = Ok (e_right n).
Proof. unfold right. rewrite node_k. reflexivity. Qed.
Lemma parent_k : parent e m = Ok (e_parent n).
Proof. unfold parent. rewrite node_k. reflexivity. Qed.
Lemma color_k : color e m = Ok (e_color n).
Proof. unfold color. rewrite node_k. reflexivity. Qed.
Lemma set_left_k v : set_left e v m = Ok (Tmem (root m) (mupd (nodes m) e (Entry v (e_right n) (e_parent n) (e_color n)))).
Proof. unfold set_left. rewrite node_k. cbn [bind]. apply put_k. Qed.
Lemma set_right_k v : set_right e v m = Ok (Tmem (root m) (mupd (nodes m) e (Entry (e_left n) v (e_parent n) (e_color n)))).
Proof. unfold set_right. rewrite node_k. cbn [bind]. apply put_k. Qed.
Lemma set_parent_k v : set_parent e v m = Ok (Tmem (root m) (mupd (nodes m) e (Entry (e_left n) (e_right n) v (e_color n)))).
Proof. unfold set_parent. rewrite node_k. cbn [bind]. apply put_k. Qed.
Lemma set_color_k v : set_color e v m = Ok (Tmem (root m) (mupd (nodes m) e (Entry (e_left n) (e_right n) (e_parent n) v))).
Proof. unfold set_color. rewrite node_k. cbn [bind]. apply put_k. Qed.
End Known.
Section KnownD.
Variables (m : tmem) (e : Z) (d : bool) (a b p c : Z).
Hypothesis (K : nodes m e = Some (ent d a b p c)) (NZ : e <> 0).
Lemma child_k : child d e m = Ok a.
Proof. destruct d; cbn [child]; [rewrite (left_k _ _ _ K NZ)|rewrite (right_k _ _ _ K NZ)]; reflexivity. Qed.
Lemma other_k : child (negb d) e m = Ok b.
Proof. destruct d; cbn [child negb]; [rewrite (right_k _ _ _ K NZ)|rewrite (left_k _ _ _ K NZ)]; reflexivity. Qed.
Lemma par_k : parent e m = Ok p.
Proof. rewrite (parent_k _ _ _ K NZ). destruct d; reflexivity. Qed.
Lemma col_k : color e m = Ok c.
Proof. rewrite (color_k _ _ _ K NZ). destruct d; reflexivity. Qed.
Lemma set_child_k v : set_child d e v m = Ok (Tmem (root m) (mupd (nodes m) e (ent d v b p c))).
Proof. destruct d; cbn [set_child]; [rewrite (set_left_k _ _ _ K NZ)|rewrite (set_right_k _ _ _ K NZ)]; reflexivity. Qed.
Lemma set_other_k v : set_child (negb d) e v m = Ok (Tmem (root m) (mupd (nodes m) e (ent d a v p c))).
Proof. destruct d; cbn [set_child negb]; [rewrite (set_right_k _ _ _ K NZ)|rewrite (set_left_k _ _ _ K NZ)]; reflexivity. Qed.
Lemma set_par_k v : set_parent e v m = Ok (Tmem (root m) (mupd (nodes m) e (ent d a b v c))).
Proof. rewrite (set_parent_k _ _ _ K NZ). destruct d; reflexivity. Qed.
Lemma set_col_k v : set_color e v m = Ok (Tmem (root m) (mupd (nodes m) e (ent d a b p v))).
Proof. rewrite (set_color_k _ _ _ K NZ). destruct d; reflexivity. Qed.
End KnownD.

(** [v] is hung where [e] was, below [p]. *)
Definition link (p e v : Z) (m : tmem) : out tmem :=
  if p =? 0 then Ok (set_root v m) else let* l := left p m in if l =? e then set_left p v m else set_right p v m.
Lemma link_ok m k e v : root m = rootp k e -> repc (nodes m) k e -> e <> 0 -> ~ In e (celems k) -> NoDup (celems k) -> ~ In 0 (celems k) ->
  exists m', link (top k) e v m = Ok m' /\ root m' = rootp k v /\ repc (nodes m') k v /\ (forall z, ~ In z (celems k) -> nodes m' z = nodes m z).
Proof.
  intros R C NE NI ND N0. destruct k as [|f k]; cbn [top repc rootp celems] in *.
  - exists (set_root v m). cbn. auto.
  - destruct C as (A & B & C). assert (X0 : f_x f <> 0) by (intros J; apply N0; rewrite J; cbn; auto).
    unfold link. destruct (Z.eqb_spec (f_x f) 0); [congruence|].
    inversion ND as [|? ? NX ND']; subst.
    assert (PE : ptr (f_t f) <> e).
    { intros J. apply NI. right. apply in_app_iff. left. rewrite <- J. apply ptr_in. congruence. }
    exists (Tmem (root m) (mupd (nodes m) (f_x f) (ent (f_d f) v (ptr (f_t f)) (top k) (col (f_c f))))).
    split; [|cbn [root nodes]; repeat split; auto].
    + destruct (f_d f) eqn:D; rewrite (left_k _ _ _ A X0); cbn [bind ent e_left].
      * rewrite Z.eqb_refl. rewrite (set_left_k _ _ _ A X0). reflexivity.
      * destruct (Z.eqb_spec (ptr (f_t f)) e); [congruence|]. rewrite (set_right_k _ _ _ A X0). reflexivity.
    + apply mupd_eq.
    + eapply rep_frame; [|exact B]. intros z J. apply mupd_ne. intros ->. apply NX. apply in_app_iff; auto.
    + eapply repc_frame; [|exact C]. intros z J. apply mupd_ne. intros ->. apply NX. apply in_app_iff; auto.
    + intros z J. apply mupd_ne. intros ->. apply J. cbn. auto.
Qed.
(** The child [b] gets a new parent. *)
Definition adopt (v e : Z) (m : tmem) : out tmem := if v =? 0 then Ok m else set_parent v e m.
Lemma adopt_ok m p b e : rep (nodes m) p b -> NoDup (elems b) -> ~ In 0 (elems b) ->
  exists m', adopt (ptr b) e m = Ok m' /\ root m' = root m /\ rep (nodes m') e b /\ (forall z, ~ In z (elems b) -> nodes m' z = nodes m z).
Proof.
  intros R ND N0. destruct b as [|c l x r]; cbn [ptr] in *.
  - exists m. cbn. auto.
  - cbn in R. destruct R as (A & B & C). unfold adopt.
    assert (X0 : x <> 0) by (intros ->; apply N0; cbn; rewrite in_app_iff; cbn; auto).
    destruct (Z.eqb_spec x 0); [congruence|].
    rewrite (set_parent_k _ _ _ A X0). eexists. split; [reflexivity|]. cbn [root nodes e_left e_right e_color].
    cbn [elems] in ND. pose proof (NoDup_remove_2 _ _ _ ND) as NX. rewrite in_app_iff in NX.
    split; [auto|]. split.
    + cbn. rewrite mupd_eq. repeat split; auto; (eapply rep_frame; [|eassumption]); intros z J; apply mupd_ne; intros ->; tauto.
    + intros z J. apply mupd_ne. intros ->. apply J. cbn. rewrite in_app_iff. cbn. auto.
Qed.

Lemma nd_app (A B : list Z) : NoDup (A ++ B) <-> NoDup A /\ NoDup B /\ (forall z, In z A -> ~ In z B).
Proof.
  induction A as [|x A IH]; cbn [app].
  - split; [intros; repeat split; auto; constructor|tauto].
  - split.
    + inversion 1 as [|? ? N H']; subst. apply IH in H'. destruct H' as (P & Q & R). rewrite in_app_iff in N.
      repeat split; auto; [constructor; tauto|]. intros z [<- | J]; [tauto|auto].
    + intros (P & Q & R). inversion P; subst. constructor; [rewrite in_app_iff; intros [J|J]; [auto|apply (R x); cbn; auto]|].
      apply IH. repeat split; auto. intros z J. apply R. cbn; auto.
Qed.
Lemma dis_app (A B C : list Z) : (forall z, In z A -> ~ In z (B ++ C)) -> (forall z, In z A -> ~ In z B) /\ (forall z, In z A -> ~ In z C).
Proof. intros H. split; intros z J K; apply (H z J); apply in_app_iff; auto. Qed.
Lemma dis_cons (A : list Z) x C : (forall z, In z A -> ~ In z (x :: C)) -> ~ In x A /\ (forall z, In z A -> ~ In z C).
Proof. intros H. split; [intros J; apply (H x J); cbn; auto|]; intros z J K; apply (H z J); cbn; auto. Qed.
Lemma nin_app (x : Z) (B C : list Z) : ~ In x (B ++ C) -> ~ In x B /\ ~ In x C.
Proof. rewrite in_app_iff. tauto. Qed.
Lemma nin_cons (x y : Z) (C : list Z) : ~ In x (y :: C) -> x <> y /\ ~ In x C.
Proof. cbn. firstorder. Qed.
Ltac nd1 :=
  match goal with
  | H : NoDup (_ ++ _) |- _ => apply nd_app in H; destruct H as (? & ? & ?)
  | H : NoDup (_ :: _) |- _ => apply NoDup_cons_iff in H; destruct H as (? & ?)
  | H : ~ In _ (_ ++ _) |- _ => apply nin_app in H; destruct H as (? & ?)
  | H : ~ In _ (_ :: _) |- _ => apply nin_cons in H; destruct H as (? & ?)
  | H : forall z, In z _ -> ~ In z (_ ++ _) |- _ => apply dis_app in H; destruct H as (? & ?)
  | H : forall z, In z _ -> ~ In z (_ :: _) |- _ => apply dis_cons in H; destruct H as (? & ?)
  end.
Ltac nds := repeat nd1.
Ltac absurd_in := match goal with
  | N : ~ In ?z ?l, J : In ?z ?l |- _ => exfalso; exact (N J)
  | D : forall z, In z ?l -> ~ In z ?k, J : In ?z ?l, K : In ?z ?k |- _ => exfalso; exact (D z J K)
  end.
Ltac ns := first [assumption | congruence | (let J := fresh in intros J; first [absurd_in | (subst; first [absurd_in | congruence])])].
Ltac lk := repeat first [rewrite mupd_eq | rewrite mupd_ne by ns].

Definition stays (m m' : tmem) (l : list Z) : Prop := forall z, ~ In z l -> nodes m' z = nodes m z.
Lemma stays_trans m1 m2 m3 l : stays m1 m2 l -> stays m2 m3 l -> stays m1 m3 l.
Proof. intros A B z J. rewrite (B z J). auto. Qed.
Lemma perm2 d c a x e k b y w C : Permutation (elems (mk d c a x (mk e k b y w)) ++ C) (x :: y :: elems a ++ elems b ++ elems w ++ C).
Proof.
  rewrite elems_mk, elems_mk. cbn [app]. constructor.
  rewrite <- !app_assoc. cbn [app]. symmetry. rewrite <- app_assoc. apply Permutation_middle.
Qed.
Lemma perm1 d c a x b C : Permutation (elems (mk d c a x b) ++ C) (x :: elems a ++ elems b ++ C).
Proof. rewrite elems_mk. cbn. rewrite <- app_assoc. reflexivity. Qed.
Lemma nd_perm (A B : list Z) : Permutation A B -> NoDup A -> NoDup B.
Proof. apply Permutation_NoDup. Qed.
Lemma nin_perm (A B : list Z) z : Permutation A B -> ~ In z A -> ~ In z B.
Proof. intros P H J. apply H. eapply Permutation_in; [symmetry; exact P|exact J]. Qed.

Lemma at_node m k d c a x b : At m k (mk d c a x b) -> nodes m x = Some (ent d (ptr a) (ptr b) (top k) (col c)) /\ x <> 0.
Proof.
  intros (_ & _ & R & _ & N). rewrite rep_mk in R. split; [tauto|].
  intros ->. apply N. rewrite elems_mk. cbn. auto.
Qed.

Lemma set_color_ok m k d c a x b c' : Rep m (plug k (mk d c a x b)) ->
  exists m', set_color x (col c') m = Ok m' /\ Rep m' (plug k (mk d c' a x b)) /\ stays m m' (elems (plug k (mk d c' a x b))).
Proof.
  rewrite <- at_rep. intros H. pose proof (at_node _ _ _ _ _ _ _ H) as (K & X0). destruct H as (R & C & P & N & I).
  rewrite (set_col_k _ _ _ _ _ _ _ K X0). eexists. split; [reflexivity|].
  apply rep_mk in P. destruct P as (_ & PA & PB).
  assert (W : Permutation (elems (mk d c a x b) ++ celems k) (elems (mk d c' a x b) ++ celems k)) by (rewrite !perm1; reflexivity).
  pose proof (nd_perm _ _ W N) as GN. pose proof (nin_perm _ _ 0 W I) as GI. revert GN GI.
  apply (nd_perm _ _ (perm1 _ _ _ _ _ _)) in N. intros GN GI. split.
  - apply at_rep. unfold At. cbn [root nodes]. rewrite ptr_mk in *. split; [auto|]. revert GN GI. nds. intros GN GI.
    split; [eapply repc_frame; [|exact C]; intros z J; lk; auto|].
    split; [|split; auto].
    apply rep_mk. cbn. lk. split; [auto|]. split; (eapply rep_frame; [|eassumption]); intros z J; lk; auto.
  - intros z J. cbn [nodes]. apply mupd_ne. intros ->. apply J. rewrite elems_plug. rewrite perm1. cbn. auto.
Qed.

(** Both rotations at once. *)
Definition rot (d : bool) (e : Z) (m : tmem) : out (Z * tmem) :=
  let* tmp := child (negb d) e m in
  let* v := child d tmp m in let* m := set_child (negb d) e v m in
  let* m := (if v =? 0 then Ok m else let* w := child d tmp m in set_parent w e m) in
  let* m := relink e tmp m in
  let* m := set_child d tmp e m in
  let* m := set_parent e tmp m in
  let* _ := parent tmp m in Ok (tmp, m).
Lemma rot_left e m : rotate_left e m = rot true e m.
Proof. reflexivity. Qed.
Lemma rot_right e m : rotate_right e m = rot false e m.
Proof. reflexivity. Qed.

Lemma rot_ok m k d c q a x b y w : Rep m (plug k (mk d c a x (mk d q b y w))) ->
  exists m', rot d x m = Ok (y, m') /\ Rep m' (plug k (mk d q (mk d c a x b) y w)) /\ stays m m' (elems (plug k (mk d q (mk d c a x b) y w))).
Proof.
  rewrite <- at_rep. intros H. destruct (at_node _ _ _ _ _ _ _ H) as (K & X0). destruct H as (R & C & P & N & I).
  rewrite ptr_mk in *. apply rep_mk in P. destruct P as (_ & PA & P). apply rep_mk in P. destruct P as (KY & PB & PW).
  assert (W : Permutation (elems (mk d c a x (mk d q b y w)) ++ celems k) (elems (mk d q (mk d c a x b) y w) ++ celems k)).
  { rewrite perm2. rewrite perm1. rewrite (elems_mk d c a x b). cbn [app]. rewrite <- app_assoc. constructor. }
  pose proof (nd_perm _ _ W N) as GN. pose proof (nin_perm _ _ 0 W I) as GI.
  apply (nd_perm _ _ (perm2 _ _ _ _ _ _ _ _ _ _)) in N. apply (nin_perm _ _ 0 (perm2 _ _ _ _ _ _ _ _ _ _)) in I.
  assert (Goal0 : exists m', rot d x m = Ok (y, m') /\ root m' = rootp k y /\ repc (nodes m') k y /\
    nodes m' y = Some (ent d x (ptr w) (top k) (col q)) /\ nodes m' x = Some (ent d (ptr a) (ptr b) y (col c)) /\
    rep (nodes m') x a /\ rep (nodes m') x b /\ rep (nodes m') y w /\
    (forall z, z <> x -> z <> y -> ~ In z (elems b) -> ~ In z (celems k) -> nodes m' z = nodes m z)).
  { clear W GN GI. nds. unfold rot.
    rewrite (other_k _ _ _ _ _ _ _ K X0). cbn [bind]. assert (Y0 : y <> 0) by congruence.
    rewrite (child_k _ _ _ _ _ _ _ KY Y0). cbn [bind].
    rewrite (set_other_k _ _ _ _ _ _ _ K X0). cbn [bind].
    set (m1 := Tmem _ _).
    assert (A1 : nodes m1 y = Some (ent d (ptr b) (ptr w) x (col q))) by (unfold m1; cbn [nodes]; lk; auto).
    assert (B1 : rep (nodes m1) y b) by (apply (rep_frame (nodes m)); auto; intros z J; unfold m1; cbn [nodes]; lk; auto).
    destruct (adopt_ok m1 y b x B1) as (m2 & E2 & R2 & B2 & F2); [auto..|].
    assert (E2' : (if ptr b =? 0 then Ok m1 else let* w0 := child d y m1 in set_parent w0 x m1) = Ok m2).
    { rewrite <- E2. unfold adopt. destruct (ptr b =? 0); [reflexivity|]. rewrite (child_k _ _ _ _ _ _ _ A1 Y0). reflexivity. }
    rewrite E2'. cbn [bind].
    assert (AY : nodes m2 y = Some (ent d (ptr b) (ptr w) x (col q))) by (rewrite F2; auto).
    assert (AX : nodes m2 x = Some (ent d (ptr a) (ptr b) (top k) (col c))) by (rewrite F2; [|auto]; unfold m1; cbn [nodes]; lk; auto).
    unfold relink at 1.
    rewrite (par_k _ _ _ _ _ _ _ AX X0). cbn [bind]. rewrite (set_par_k _ _ _ _ _ _ _ AY Y0). cbn [bind].
    set (m3 := Tmem _ _).
    assert (AX3 : nodes m3 x = Some (ent d (ptr a) (ptr b) (top k) (col c))) by (unfold m3; cbn [nodes]; lk; auto).
    assert (C3 : repc (nodes m3) k x).
    { apply (repc_frame (nodes m)); auto. intros z J. unfold m3. cbn [nodes]. rewrite mupd_ne by ns. rewrite F2 by ns. unfold m1. cbn [nodes]. apply mupd_ne; ns. }
    destruct (link_ok m3 k x y) as (m4 & E4 & R4 & C4 & F4); auto.
    { unfold m3. cbn [root]. rewrite R2. exact R. }
    assert (E4' : (if top k =? 0 then Ok (set_root y m3) else
       let* p := parent x m3 in let* l := left p m3 in let* p0 := parent x m3 in if x =? l then set_left p0 y m3 else set_right p0 y m3) = Ok m4).
    { rewrite <- E4. unfold link. destruct (top k =? 0); [reflexivity|].
      rewrite !(par_k _ _ _ _ _ _ _ AX3 X0). cbn [bind]. destruct (left (top k) m3); cbn [bind]; auto.
      rewrite (Z.eqb_sym x). reflexivity. }
    rewrite E4'. cbn [bind].
    assert (AY4 : nodes m4 y = Some (ent d (ptr b) (ptr w) (top k) (col q))) by (rewrite F4 by auto; unfold m3; cbn [nodes]; lk; auto).
    assert (AX4 : nodes m4 x = Some (ent d (ptr a) (ptr b) (top k) (col c))) by (rewrite F4 by auto; auto).
    rewrite (set_child_k _ _ _ _ _ _ _ AY4 Y0). cbn [bind].
    set (m5 := Tmem _ _).
    assert (AX5 : nodes m5 x = Some (ent d (ptr a) (ptr b) (top k) (col c))) by (unfold m5; cbn [nodes]; lk; auto).
    rewrite (set_par_k _ _ _ _ _ _ _ AX5 X0). cbn [bind].
    set (m6 := Tmem _ _).
    assert (AY6 : nodes m6 y = Some (ent d x (ptr w) (top k) (col q))) by (unfold m6, m5; cbn [nodes]; lk; auto).
    rewrite (par_k _ _ _ _ _ _ _ AY6 Y0). cbn [bind].
    assert (F : forall z, z <> x -> z <> y -> nodes m6 z = nodes m4 z) by (intros; unfold m6, m5; cbn [nodes]; lk; auto).
    assert (F' : forall z, z <> x -> z <> y -> ~ In z (elems b) -> ~ In z (celems k) -> nodes m6 z = nodes m z).
    { intros z Z1 Z2 Z3 Z4. rewrite F by auto. rewrite F4 by auto. unfold m3. cbn [nodes]. rewrite mupd_ne by auto. rewrite F2 by auto. unfold m1. cbn [nodes]. lk. auto. }
    exists m6. split; [reflexivity|]. split; [exact R4|]. split; [|split; [exact AY6|split; [unfold m6; cbn [nodes]; lk; auto|]]].
    - apply (repc_frame (nodes m4)); auto. intros z J. apply F; ns.
    - split; [|split; [|split]]; auto.
      + apply (rep_frame (nodes m)); auto. intros z J. apply F'; ns.
      + apply (rep_frame (nodes m2)); auto. intros z J. rewrite F by ns. rewrite F4 by ns. unfold m3; cbn [nodes]. apply mupd_ne; ns.
      + apply (rep_frame (nodes m)); auto. intros z J. apply F'; ns. }
  destruct Goal0 as (m' & E1 & R' & C' & Y & X & A' & B' & W' & F). exists m'. split; [auto|]. split.
  - apply at_rep. split; [rewrite ptr_mk; auto|]. split; [rewrite ptr_mk; auto|]. split; [|auto].
    apply rep_mk. rewrite ptr_mk. split; [auto|]. split; [|auto]. apply rep_mk. auto.
  - intros z J. rewrite elems_plug, perm1, (elems_mk d c a x b) in J. cbn [app] in J. rewrite <- app_assoc in J. nds. auto.
Qed.

Lemma unlink_ok m k d c a x : Rep m (plug k (mk d c a x E)) ->
  exists m', unlink x (top k) (ptr a) m = Ok m' /\ Rep m' (plug k a) /\ stays m m' (elems (plug k a)).
Proof.
  rewrite <- at_rep. intros H. destruct (at_node _ _ _ _ _ _ _ H) as (K & X0). destruct H as (R & C & P & N & I).
  rewrite ptr_mk in *. apply rep_mk in P. destruct P as (_ & PA & _).
  apply (nd_perm _ _ (perm1 _ _ _ _ _ _)) in N. apply (nin_perm _ _ 0 (perm1 _ _ _ _ _ _)) in I. cbn [elems app] in N, I.
  assert (GN : NoDup (elems a ++ celems k)) by (inversion N; auto).
  assert (GI : ~ In 0 (elems a ++ celems k)) by (intros J; apply I; cbn; auto).
  assert (Goal0 : exists m', unlink x (top k) (ptr a) m = Ok m' /\ root m' = rootp k (ptr a) /\ repc (nodes m') k (ptr a) /\ rep (nodes m') (top k) a /\
    (forall z, ~ In z (elems a) -> ~ In z (celems k) -> nodes m' z = nodes m z)).
  { clear GN GI. nds. change (unlink x (top k) (ptr a) m) with (let* m := adopt (ptr a) (top k) m in link (top k) x (ptr a) m).
    destruct (adopt_ok m x a (top k) PA) as (m2 & E2 & R2 & B2 & F2); [auto..|]. rewrite E2. cbn [bind].
    destruct (link_ok m2 k x (ptr a)) as (m4 & E4 & R4 & C4 & F4); auto.
    { congruence. }
    { apply (repc_frame (nodes m)); auto; intros z J; apply F2; ns. }
    exists m4. split; [auto|]. split; [auto|]. split; [auto|]. split.
    - apply (rep_frame (nodes m2)); auto; intros z J; apply F4; ns.
    - intros z J1 J2. rewrite F4 by auto. auto. }
  destruct Goal0 as (m' & E1 & R' & C' & A' & F). exists m'. split; [auto|]. split.
  - apply at_rep. unfold At. auto.
  - intros z J. rewrite elems_plug in J. nds. auto.
Qed.

Lemma replace_ok m k c a x b y n : Rep m (plug k (T c a x b)) -> a <> E -> nodes m y = Some n -> y <> 0 -> ~ In y (elems (plug k (T c a x b))) ->
  exists m', replace x y m = Ok m' /\ Rep m' (plug k (T c a y b)) /\ stays m m' (elems (plug k (T c a y b))).
Proof.
  rewrite <- at_rep. change (T c a x b) with (mk true c a x b). intros H AE NY Y0 YI. destruct (at_node _ _ _ _ _ _ _ H) as (K & X0). destruct H as (R & C & P & N & I).
  rewrite ptr_mk in *. apply rep_mk in P. destruct P as (_ & PA & PB). rewrite elems_plug in YI.
  apply (nd_perm _ _ (perm1 _ _ _ _ _ _)) in N. apply (nin_perm _ _ 0 (perm1 _ _ _ _ _ _)) in I. apply (nin_perm _ _ y (perm1 _ _ _ _ _ _)) in YI.
  assert (GN : NoDup (elems (mk true c a y b) ++ celems k)).
  { eapply nd_perm; [symmetry; apply perm1|]. inversion N; subst. constructor; auto. intros J. apply YI. cbn. auto. }
  assert (GI : ~ In 0 (elems (mk true c a y b) ++ celems k)).
  { eapply nin_perm; [symmetry; apply perm1|]. intros [J|J]; [congruence|]. apply I. cbn. auto. }
  assert (Goal0 : exists m', replace x y m = Ok m' /\ root m' = rootp k y /\ repc (nodes m') k y /\
    nodes m' y = Some (ent true (ptr a) (ptr b) (top k) (col c)) /\ rep (nodes m') y a /\ rep (nodes m') y b /\
    (forall z, z <> y -> ~ In z (elems a) -> ~ In z (elems b) -> ~ In z (celems k) -> nodes m' z = nodes m z)).
  { clear GN GI. nds. unfold replace. rewrite (node_k _ _ _ K X0). cbn [bind]. rewrite (put_k _ _ _ NY Y0). cbn [bind].
    set (m1 := Tmem _ _).
    assert (K1 : nodes m1 x = Some (ent true (ptr a) (ptr b) (top k) (col c))) by (unfold m1; cbn [nodes]; lk; auto).
    rewrite (par_k _ _ _ _ _ _ _ K1 X0). cbn [bind].
    destruct (link_ok m1 k x y) as (m2 & E2 & R2 & C2 & F2); auto.
    { apply (repc_frame (nodes m)); auto; intros z J; unfold m1; cbn [nodes]; lk; auto. }
    change (if top k =? 0 then Ok (set_root y m1) else let* l := left (top k) m1 in if l =? x then set_left (top k) y m1 else set_right (top k) y m1) with (link (top k) x y m1).
    rewrite E2. cbn [bind].
    assert (K2 : nodes m2 x = Some (ent true (ptr a) (ptr b) (top k) (col c))) by (rewrite F2; auto).
    rewrite (left_k _ _ _ K2 X0). cbn [bind ent e_left].
    destruct (adopt_ok m2 x a y) as (m3 & E3 & R3 & A3 & F3); [|auto..|].
    { apply (rep_frame (nodes m)); auto; intros z J; rewrite F2 by ns; unfold m1; cbn [nodes]; lk; auto. }
    unfold adopt in E3. destruct (Z.eqb_spec (ptr a) 0) as [Q|Q].
    { exfalso. destruct a as [|? ? v ?]; [congruence|]. cbn in Q. subst v. match goal with N : ~ In 0 (elems (T _ _ _ _)) |- _ => apply N end. cbn. rewrite in_app_iff. cbn. auto. }
    rewrite E3. cbn [bind].
    assert (K3 : nodes m3 x = Some (ent true (ptr a) (ptr b) (top k) (col c))) by (rewrite F3; auto).
    rewrite !(right_k _ _ _ K3 X0). cbn [bind ent e_right].
    destruct (adopt_ok m3 x b y) as (m4 & E4 & R4 & A4 & F4); [|auto..|].
    { apply (rep_frame (nodes m)); auto; intros z J; rewrite F3 by ns; rewrite F2 by ns; unfold m1; cbn [nodes]; lk; auto. }
    unfold adopt in E4. rewrite E4. exists m4. split; [reflexivity|]. split; [congruence|].
    assert (F : forall z, z <> y -> ~ In z (elems a) -> ~ In z (elems b) -> ~ In z (celems k) -> nodes m4 z = nodes m z).
    { intros. rewrite F4, F3, F2 by auto. unfold m1; cbn [nodes]. lk; auto. }
    split; [apply (repc_frame (nodes m2)); auto; intros z J; rewrite F4, F3 by ns; auto|].
    split; [rewrite F4, F3, F2 by auto; unfold m1; cbn [nodes]; lk; auto|].
    split; [|auto]. apply (rep_frame (nodes m3)); auto; intros z J; apply F4; ns. }
  destruct Goal0 as (m' & E1 & R' & C' & Y & A' & B' & F). exists m'. split; [auto|]. split.
  - apply at_rep. change (T c a y b) with (mk true c a y b). split; [rewrite ptr_mk; auto|]. split; [rewrite ptr_mk; auto|]. split; [|auto].
    apply rep_mk. auto.
  - intros z J. change (T c a y b) with (mk true c a y b) in J. rewrite elems_plug, perm1 in J. nds. auto.
Qed.

Lemma attach_ok m k x n comp : Rep m (plug k E) -> nodes m x = Some n -> x <> 0 -> ~ In x (elems (plug k E)) ->
  (match k with [] => True | f :: _ => f_d f = (comp <? 0) end) ->
  exists m', (let* m := rb_set x (top k) m in
    if top k =? 0 then Ok (set_root x m) else if comp <? 0 then set_left (top k) x m else set_right (top k) x m) = Ok m' /\
    Rep m' (plug k (T true E x E)) /\ stays m m' (elems (plug k (T true E x E))).
Proof.
  rewrite <- at_rep. intros (R & C & P & N & I) NX X0 XI D. rewrite elems_plug in XI. cbn [elems app ptr] in *.
  unfold rb_set. rewrite (set_parent_k _ _ _ NX X0). cbn [bind].
  set (m1 := Tmem _ _). assert (K1 : nodes m1 x = Some (Entry (e_left n) (e_right n) (top k) (e_color n))) by (unfold m1; cbn [nodes]; lk; auto).
  rewrite (set_right_k _ _ _ K1 X0). cbn [bind e_left e_right e_parent e_color].
  set (m2 := Tmem _ _). assert (K2 : nodes m2 x = Some (Entry (e_left n) 0 (top k) (e_color n))) by (unfold m2; cbn [nodes]; lk; auto).
  rewrite (set_left_k _ _ _ K2 X0). cbn [bind e_left e_right e_parent e_color].
  set (m3 := Tmem _ _). assert (K3 : nodes m3 x = Some (Entry 0 0 (top k) (e_color n))) by (unfold m3; cbn [nodes]; lk; auto).
  rewrite (set_color_k _ _ _ K3 X0). cbn [bind e_left e_right e_parent e_color].
  set (m4 := Tmem _ _). assert (K4 : nodes m4 x = Some (Entry 0 0 (top k) RED)) by (unfold m4; cbn [nodes]; lk; auto).
  assert (F4 : forall z, z <> x -> nodes m4 z = nodes m z) by (intros; unfold m4, m3, m2, m1; cbn [nodes]; lk; auto).
  assert (GN : NoDup (elems (T true E x E) ++ celems k)) by (cbn; constructor; auto).
  assert (GI : ~ In 0 (elems (T true E x E) ++ celems k)) by (cbn; intros [J|J]; auto).
  destruct k as [|f k]; cbn [top repc rootp celems plug] in *.
  - eexists. split; [reflexivity|]. split.
    + apply (at_rep _ []). unfold At. cbn [set_root root nodes rootp repc top]. split; [reflexivity|]. split; [auto|]. split; [|auto]. cbn. auto.
    + intros z J. cbn in J. cbn [set_root nodes]. apply F4. intros ->. tauto.
  - destruct C as (KF & CF & CC). assert (FX : f_x f <> 0) by (intros J; apply I; rewrite J; cbn; auto).
    assert (FN : f_x f <> x) by (intros J; apply XI; rewrite J; cbn; auto).
    destruct (Z.eqb_spec (f_x f) 0); [congruence|].
    assert (KF4 : nodes m4 (f_x f) = Some (ent (f_d f) 0 (ptr (f_t f)) (top k) (col (f_c f)))) by (rewrite F4; auto).
    assert (EL : (if comp <? 0 then set_left (f_x f) x m4 else set_right (f_x f) x m4) = set_child (f_d f) (f_x f) x m4) by (rewrite D; destruct (comp <? 0); reflexivity).
    rewrite EL. rewrite (set_child_k _ _ _ _ _ _ _ KF4 FX). eexists. split; [reflexivity|].
    pose proof (conj N XI) as NN. destruct NN as (N1 & N2). cbn [app] in N1. revert GN GI. clear N I XI. nds. intros GN GI. split.
    + apply (at_rep _ (f :: k)). unfold At. cbn [root nodes rootp repc top]. split; [exact R|].
      split; [split; [apply mupd_eq|split]|split; [|auto]].
      * apply (rep_frame (nodes m)); auto; intros z J; rewrite mupd_ne by ns; apply F4; ns.
      * apply (repc_frame (nodes m)); auto; intros z J; rewrite mupd_ne by ns; apply F4; ns.
      * cbn. rewrite mupd_ne by ns. auto.
    + intros z J. pose proof (elems_plug (f :: k) (T true E x E)) as EP. cbn [plug] in EP. rewrite EP in J. cbn in J. cbn [nodes]. rewrite mupd_ne by (intros ->; tauto). apply F4. intros ->. tauto.
Qed.
