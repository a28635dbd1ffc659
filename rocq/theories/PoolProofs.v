(** Lemmas for the protected pointers and the blocks of a pool. *)
From Verif Require Import Base PoolModel.

Definition cnt (x : Z) (l : list Z) : nat := count_occ Z.eq_dec l x.
Lemma cnt_app x a b : cnt x (a ++ b) = (cnt x a + cnt x b)%nat.
Proof. apply count_occ_app. Qed.
Lemma cnt_cons x a b : cnt x (a :: b) = (cnt x [a] + cnt x b)%nat.
Proof. apply (cnt_app x [a] b). Qed.
Lemma memb_in x l : memb x l = true <-> In x l.
Proof.
  unfold memb. rewrite existsb_exists. split.
  - intros (y & I & E). apply Z.eqb_eq in E. subst. exact I.
  - intros I. exists x. rewrite Z.eqb_refl. auto.
Qed.
Lemma memb_cnt x l : memb x l = true <-> (1 <= cnt x l)%nat.
Proof. rewrite memb_in. unfold cnt. rewrite (count_occ_In Z.eq_dec). lia. Qed.
Lemma memb_no x l : memb x l = false <-> ~ In x l.
Proof. rewrite <- memb_in. destruct (memb x l); intuition congruence. Qed.
Lemma cnt_remove x y l : cnt x (remove1 y l) = if Z.eq_dec y x then 0%nat else cnt x l.
Proof.
  unfold cnt, remove1. induction l as [|a l IH]; cbn.
  - destruct (Z.eq_dec y x); reflexivity.
  - destruct (Z.eqb_spec a y) as [->|N]; cbn; [rewrite IH; destruct (Z.eq_dec y x); reflexivity|].
    rewrite IH. destruct (Z.eq_dec y x), (Z.eq_dec a x); congruence || reflexivity.
Qed.
(** The live blocks are exactly those of [L], each once. *)
Definition G (L : list Z) (s : hst) : Prop :=
  (forall x, cnt x (heap s) = cnt x L) /\ (forall x, (cnt x L <= 1)%nat) /\ (forall b, In b (heap s) -> 4096 <= b < brk s) /\ 4096 <= brk s
  /\ (forall b, In b (freed s) -> 4096 <= b).
Lemma G_in L s b : G L s -> In b L -> 4096 <= b < brk s.
Proof. intros (A & _ & C & _) I. apply C. apply (count_occ_In Z.eq_dec). fold (cnt b (heap s)). rewrite A. apply count_occ_In, I. Qed.
Lemma G_ext L L' s : G L s -> (forall x, cnt x L' = cnt x L) -> G L' s.
Proof. intros (A & B & C) E. split; [|split; [|exact C]]; intros x; rewrite E; auto. Qed.
Lemma G_same L s s' : G L s -> heap s' = heap s -> brk s' = brk s -> freed s' = freed s -> G L s'.
Proof. unfold G. intros A H B F. rewrite H, B, F. exact A. Qed.
Lemma G_new L s w : G L s -> G (brk s :: L) (snd (new w s)).
Proof.
  intros (A & B & C & D & F). cbn [new snd]. unfold set_mem, G; cbn [heap brk freed].
  assert (Z : cnt (brk s) L = 0%nat). { rewrite <- A. unfold cnt. apply count_occ_not_In. intros I. apply C in I. lia. }
  split; [|split; [|split; [|split; [lia | exact F]]]].
  - intros x. rewrite cnt_cons, (cnt_cons x _ L), A. reflexivity.
  - intros x. rewrite cnt_cons. destruct (Z.eq_dec (brk s) x) as [<-|N]; [rewrite Z; cbn; destruct Z.eq_dec; lia|].
    cbn. destruct Z.eq_dec; [congruence|]. apply B.
  - intros b [<-|I]; [lia | apply C in I; lia].
Qed.
Lemma G_free L s b : G (b :: L) s -> exists h, free_ b s = Ok (set_mem (word s) h (b :: freed s) (brk s) s) /\ G L (set_mem (word s) h (b :: freed s) (brk s) s)
  /\ memb b h = false /\ (forall x, memb x (heap s) = false -> memb x h = false).
Proof.
  intros Gs. pose proof Gs as (A & B & C & D & F). exists (remove1 b (heap s)).
  pose proof (G_in _ _ b Gs (or_introl eq_refl)) as R. unfold free_.
  replace (b =? 0) with false by (symmetry; apply Z.eqb_neq; lia).
  replace (memb b (heap s)) with true by (symmetry; apply memb_cnt; rewrite A, cnt_cons; cbn; destruct Z.eq_dec; [lia|congruence]).
  assert (Hb : cnt b L = 0%nat). { specialize (B b). rewrite cnt_cons in B. cbn in B. destruct Z.eq_dec; [lia|congruence]. }
  split; [reflexivity|]. split; [split; [|split; [|split; [|split; [exact D|]]]]|].
  - intros x. cbn [heap set_mem]. rewrite cnt_remove, A, cnt_cons. cbn. destruct (Z.eq_dec b x) as [<-|N]; lia.
  - intros x. specialize (B x). rewrite cnt_cons in B. lia.
  - intros x. cbn [heap set_mem brk]. unfold remove1. rewrite filter_In. intros [I _]. apply C, I.
  - cbn [freed set_mem]. intros x [<-|I]; [lia | apply F, I].
  - split; [apply memb_no; unfold remove1; rewrite filter_In, Z.eqb_refl; intros [_ K]; discriminate|].
    intros x N. apply memb_no. unfold remove1. rewrite filter_In. intros [I _]. apply memb_no in N. tauto.
Qed.
(** Only the memory differs. *)
Definition mem_of (s s' : hst) : Prop := exists h f, s' = set_mem (word s) h f (brk s) s /\ (forall x, memb x (heap s) = false -> memb x h = false).
Lemma mem_refl s : mem_of s s.
Proof. exists (heap s), (freed s). destruct s. split; auto. Qed.
Lemma mem_trans a b c : mem_of a b -> mem_of b c -> mem_of a c.
Proof. intros (h & f & -> & X) (h' & f' & -> & Y). exists h', f'. split; [reflexivity|]. cbn [heap set_mem] in Y. auto. Qed.
Lemma free_mem b s s' : free_ b s = Ok s' -> mem_of s s' /\ (b <> 0 -> memb b (heap s') = false).
Proof.
  unfold free_. destruct (Z.eqb_spec b 0) as [->|N].
  - intros [= <-]. split; [apply mem_refl | congruence].
  - destruct (memb b (heap s)); [|destruct (memb b (freed s)); discriminate]. intros [= <-]. split.
    + exists (remove1 b (heap s)), (b :: freed s). split; [reflexivity|]. intros x X. apply memb_no. unfold remove1. rewrite filter_In.
      intros [I _]. apply memb_no in X. tauto.
    + intros _. cbn. apply memb_no. unfold remove1. rewrite filter_In, Z.eqb_refl. intros [_ K]; discriminate.
Qed.
Lemma free_all_mem l : forall s s', free_all l s = Ok s' -> mem_of s s'.
Proof.
  induction l as [|b l IH]; cbn [free_all]; intros s s' E.
  - injection E as <-. apply mem_refl.
  - destruct (free_ b s) eqn:F; cbn [bind] in E; try discriminate. apply free_mem in F. eapply mem_trans; [apply F | apply IH, E].
Qed.
Lemma G_free_all own : forall L s, G (own ++ L) s -> exists s', free_all own s = Ok s' /\ G L s'.
Proof.
  induction own as [|b own IH]; cbn [free_all app]; intros L s Gs; [eauto|].
  destruct (G_free _ _ _ Gs) as (h & -> & G1 & _). cbn [bind]. apply IH, G1.
Qed.
Definition nz (x : Z) : list Z := if x =? 0 then [] else [x].
Lemma G_free_nz b L s : G (nz b ++ L) s -> exists s', free_ b s = Ok s' /\ G L s' /\ mem_of s s'.
Proof.
  unfold nz. destruct (Z.eqb_spec b 0) as [->|N]; cbn [app]; intros Gs.
  - exists s. split; [reflexivity|]. split; [exact Gs | apply mem_refl].
  - destruct (G_free _ _ _ Gs) as (h & E & G1 & _). eexists. split; [exact E|]. split; [exact G1|]. apply (free_mem b), E.
Qed.
Lemma G_release own p L s : G (own ++ nz p ++ L) s -> exists s', release own p s = Ok s' /\ G L s'.
Proof.
  intros Gs. destruct (G_free_all _ _ _ Gs) as (s1 & E1 & G1). unfold release. rewrite E1. cbn [bind]. unfold nz in G1.
  destruct (Z.eqb_spec p 0) as [->|N]; cbn [app] in G1; [eauto|].
  assert (G2 : G (p :: L) (unprotect p s1)). { unfold unprotect. destruct (n_on (nds s1 p)); [eapply G_same; eauto | exact G1]. }
  destruct (G_free _ _ _ G2) as (h & E & G3 & _). eauto.
Qed.

(** All blocks the pool and the thread's scope know. *)
Definition blocks (s : hst) : list Z := nz (futs s) ++ nz (ress s) ++ nz (p1 s) ++ nz (p2 s) ++ own1 s ++ own2 s ++ threads s.
Definition K (rest : list Z) (s : hst) : Prop := G (blocks s ++ rest) s.
Definition cnt1 (x a : Z) : nat := if Z.eq_dec a x then 1%nat else 0%nat.
Lemma cnt_cons1 x a l : cnt x (a :: l) = (cnt1 x a + cnt x l)%nat.
Proof. unfold cnt, cnt1. cbn. destruct (Z.eq_dec a x); reflexivity. Qed.
Ltac counts := intros ?; unfold blocks; cbn [app]; repeat (rewrite cnt_app || rewrite cnt_cons1); repeat change (cnt ?x (@nil Z)) with 0%nat; lia.
Lemma nz_new s L : G L s -> nz (brk s) = [brk s].
Proof. intros (_ & _ & _ & D & _). unfold nz. destruct (Z.eqb_spec (brk s) 0); [lia | reflexivity]. Qed.
Lemma nz_pos x : x <> 0 -> nz x = [x].
Proof. intros N. unfold nz. destruct (Z.eqb_spec x 0); [contradiction | reflexivity]. Qed.
Lemma G_brk L s : G L s -> 4096 <= brk s.
Proof. intros (_ & _ & _ & D & _). exact D. Qed.
Ltac fields := cbn [blocks new snd fst set_top set_nds set_var set_pool set_tables set_p1 set_p2 set_own1 set_own2 set_frame set_mem set_threads protect top nds var pool_at futs ress p1 p2 own1 own2 frame calls word heap freed brk threads].
Lemma K_calloc1 rest w s : K rest s -> K rest (snd (calloc1 w s)).
Proof.
  unfold K. intros Gs. pose proof (G_brk _ _ Gs) as B. pose proof (G_new _ _ w Gs) as G1. pose proof (G_new _ _ 0 G1) as G2. revert G1 G2.
  unfold calloc1; fields. destruct (Z.eqb_spec (p1 s) 0) as [Z0|N]; fields; intros G1 G2.
  - eapply G_ext; [eapply G_same; [exact G2 | reflexivity | reflexivity | reflexivity]|]. unfold blocks; fields. rewrite Z0. rewrite (nz_pos (brk s + 16)) by lia. change (nz 0) with (@nil Z). counts.
  - eapply G_ext; [eapply G_same; [exact G1 | reflexivity | reflexivity | reflexivity]|]. unfold blocks; fields. counts.
Qed.
Lemma K_calloc2 rest w s : K rest s -> K rest (snd (calloc2 w s)).
Proof.
  unfold K. intros Gs. pose proof (G_brk _ _ Gs) as B. pose proof (G_new _ _ w Gs) as G1. pose proof (G_new _ _ 0 G1) as G2. revert G1 G2.
  unfold calloc2; fields. destruct (Z.eqb_spec (p2 s) 0) as [Z0|N]; fields; intros G1 G2.
  - eapply G_ext; [eapply G_same; [exact G2 | reflexivity | reflexivity | reflexivity]|]. unfold blocks; fields. rewrite Z0. rewrite (nz_pos (brk s + 16)) by lia. change (nz 0) with (@nil Z). counts.
  - eapply G_ext; [eapply G_same; [exact G1 | reflexivity | reflexivity | reflexivity]|]. unfold blocks; fields. counts.
Qed.
(** *** The calls *)
Lemma K_same rest s s' : K rest s -> heap s' = heap s -> brk s' = brk s -> freed s' = freed s -> blocks s' = blocks s -> K rest s'.
Proof. unfold K. intros Gs H B F E. rewrite E. eapply G_same; eauto. Qed.
Lemma K_scope rest s : K rest s -> futs s = 0 -> ress s = 0 -> K rest (p_scope s).
Proof.
  intros Ks F R. pose proof (K_calloc2 rest 1 s Ks) as K1. unfold p_scope. destruct (calloc2 1 s) as [b s1] eqn:E. cbn [snd] in K1.
  eapply K_same; [exact K1 | reflexivity | reflexivity | reflexivity|].
  assert (futs s1 = 0 /\ ress s1 = 0) as [F1 R1].
  { unfold calloc2 in E. cbn [new] in E. revert E. fields. destruct (p2 s =? 0); intros E; injection E as <- <-; fields; auto. }
  unfold blocks; fields. rewrite F1, R1. reflexivity.
Qed.
Lemma K_grow rest s : K rest s -> exists s', grow_tables true s = Ok s' /\ K rest s'
  /\ exists w h f a b, s' = set_tables a b (set_mem w h f (brk s + 16 + 16) s).
Proof.
  intros Ks. unfold K in Ks. unfold grow_tables.
  assert (G0 : G (nz (futs s) ++ (nz (ress s) ++ nz (p1 s) ++ nz (p2 s) ++ own1 s ++ own2 s ++ threads s ++ rest)) s).
  { eapply G_ext; [exact Ks|]. counts. }
  destruct (G_free_nz _ _ _ G0) as (s1 & E1 & G1 & (h1 & f1 & Q1 & _)). rewrite E1. cbn [bind].
  pose proof (G_brk _ _ G1) as B1. pose proof (G_new _ _ 0 G1) as G2. cbn [new] in G2 |- *. cbn [snd] in G2.
  set (s2 := set_mem _ _ _ _ s1) in *.
  assert (G2' : G (nz (ress s2) ++ (brk s1 :: nz (p1 s) ++ nz (p2 s) ++ own1 s ++ own2 s ++ threads s ++ rest)) s2).
  { eapply G_ext; [exact G2|]. replace (ress s2) with (ress s) by (unfold s2; rewrite Q1; reflexivity). counts. }
  destruct (G_free_nz _ _ _ G2') as (s3 & E3 & G3 & (h3 & f3 & Q3 & _)). rewrite E3. cbn [bind].
  pose proof (G_brk _ _ G3) as B3. pose proof (G_new _ _ 0 G3) as G4. cbn [new] in G4 |- *. cbn [snd] in G4.
  set (s4 := set_mem _ _ _ _ s3) in *. eexists. split; [reflexivity|]. split.
  - unfold K. eapply G_ext; [eapply G_same; [exact G4 | reflexivity | reflexivity | reflexivity]|].
    unfold blocks. fields. rewrite !nz_pos by lia.
    replace (p1 s4) with (p1 s) by (unfold s4; rewrite Q3; unfold s2; rewrite Q1; reflexivity).
    replace (p2 s4) with (p2 s) by (unfold s4; rewrite Q3; unfold s2; rewrite Q1; reflexivity).
    replace (own1 s4) with (own1 s) by (unfold s4; rewrite Q3; unfold s2; rewrite Q1; reflexivity).
    replace (own2 s4) with (own2 s) by (unfold s4; rewrite Q3; unfold s2; rewrite Q1; reflexivity).
    replace (threads s4) with (threads s) by (unfold s4; rewrite Q3; unfold s2; rewrite Q1; reflexivity). counts.
  - unfold s4. rewrite Q3. unfold s2. rewrite Q1. fields. eexists _, _, _, _, _. reflexivity.
Qed.
(** The nodes of the protectors. *)
Definition dangling (q : Z) (s : hst) : Prop :=
  q <> 0 /\ n_fixed (nds s q) = false /\ (memb q (heap s) = false \/ n_on (nds s q) = true /\ exists k, n_loc (nds s q) = LFrame k).
Definition D (s : hst) : Prop :=
  0 < p2 s /\ 0 <= p1 s /\ (forall n, 0 <= n -> n_fixed (nds s n) = false) /\ frame s = None
  /\ n_on (nds s (p2 s)) = true /\ (n_next (nds s (p2 s)) = p2 s \/ dangling (n_next (nds s (p2 s))) s).
Lemma K_distinct rest s : K rest s -> p1 s <> 0 -> p1 s <> p2 s.
Proof.
  intros (_ & B & _) N E. specialize (B (p1 s)). revert B. unfold blocks. rewrite <- E, (nz_pos (p1 s)) by assumption.
  repeat (rewrite cnt_app || rewrite cnt_cons1). unfold cnt1. destruct Z.eq_dec; [lia | congruence].
Qed.
Lemma K_nonneg rest s : K rest s -> 0 <= p1 s /\ 0 <= p2 s.
Proof.
  intros Ks. split.
  - destruct (Z.eq_dec (p1 s) 0) as [E|N]; [lia|]. assert (4096 <= p1 s < brk s); [|lia]. eapply G_in; [exact Ks|].
    unfold blocks. rewrite (nz_pos (p1 s)) by assumption. rewrite !in_app_iff. cbn. tauto.
  - destruct (Z.eq_dec (p2 s) 0) as [E|N]; [lia|]. assert (4096 <= p2 s < brk s); [|lia]. eapply G_in; [exact Ks|].
    unfold blocks. rewrite (nz_pos (p2 s)) by assumption. rewrite !in_app_iff. cbn. tauto.
Qed.
Lemma grow_either grow rest s : K rest s -> exists s', grow_tables grow s = Ok s' /\ K rest s'
  /\ nds s' = nds s /\ p1 s' = p1 s /\ p2 s' = p2 s /\ frame s' = frame s /\ top s' = top s /\ brk s <= brk s'.
Proof.
  intros Ks. destruct grow.
  - destruct (K_grow rest s Ks) as (s' & E & K1 & (w & h & f & a & b & ->)). eexists. split; [exact E|]. split; [exact K1|]. fields. do 5 (split; [reflexivity|]). lia.
  - exists s. split; [reflexivity|]. split; [exact Ks|]. do 5 (split; [reflexivity|]). lia.
Qed.
Lemma upd_same {A} (f : Z -> A) k v : upd f k v k = v.
Proof. unfold upd. rewrite Z.eqb_refl. reflexivity. Qed.
Lemma upd_other {A} (f : Z -> A) k v x : x <> k -> upd f k v x = f x.
Proof. unfold upd. intros N. destruct (Z.eqb_spec x k); [contradiction | reflexivity]. Qed.
Lemma calloc1_facts w s : let s' := snd (calloc1 w s) in
  p2 s' = p2 s /\ frame s' = frame s /\ calls s' = calls s /\ threads s' = threads s /\ (p1 s <> 0 -> p1 s' = p1 s) /\ (p1 s = 0 -> p1 s' = brk s + 16) /\ top s' = p1 s'
  /\ n_on (nds s' (p1 s')) = true /\ (forall n, n <> p1 s' -> nds s' n = nds s n) /\ (forall n, n_fixed (nds s' n) = n_fixed (nds s n)) /\ own2 s' = own2 s /\ futs s' = futs s /\ ress s' = ress s.
Proof.
  unfold calloc1. cbn [new]. fields. destruct (Z.eqb_spec (p1 s) 0) as [E|N]; fields; repeat split; intros; try congruence;
    try (rewrite upd_other by congruence; reflexivity); try (rewrite upd_same; reflexivity); try tauto;
    unfold upd; match goal with |- context [?a =? ?b] => destruct (Z.eqb_spec a b) as [->|] end; reflexivity.
Qed.
Lemma calloc2_facts w s : let s' := snd (calloc2 w s) in
  p1 s' = p1 s /\ frame s' = frame s /\ calls s' = calls s /\ threads s' = threads s /\ (p2 s <> 0 -> p2 s' = p2 s) /\ (p2 s = 0 -> p2 s' = brk s + 16) /\ top s' = p2 s'
  /\ nds s' = upd (nds s) (p2 s') (Node (top s) (LWord (brk s)) true (n_fixed (nds s (p2 s')))) /\ own1 s' = own1 s /\ futs s' = futs s /\ ress s' = ress s
  /\ memb (brk s) (heap s') = true /\ (p2 s <> 0 -> word s' (brk s) = w).
Proof.
  unfold calloc2. cbn [new]. fields. destruct (Z.eqb_spec (p2 s) 0) as [E|N]; fields; repeat split; intros; try congruence; try tauto.
  - apply memb_in. cbn. auto.
  - apply memb_in. cbn. auto.
  - apply upd_same.
Qed.
Lemma make_facts s : let s' := make_thread s in let s1 := snd (calloc1 1 s) in
  p1 s' = p1 s1 /\ p2 s' = p2 s /\ top s' = p1 s' /\ nds s' (p1 s') = Node (p1 s') (LFrame (calls s)) true (n_fixed (nds s (p1 s')))
  /\ (forall n, n <> p1 s' -> nds s' n = nds s n) /\ frame s' = Some (calls s, brk s1) /\ calls s' = calls s /\ threads s' = threads s
  /\ heap s' = brk s1 + 16 :: brk s1 :: heap s1 /\ brk s' = brk s1 + 16 + 16 /\ freed s' = freed s1 /\ blocks s' = blocks s1.
Proof.
  pose proof (calloc1_facts 1 s) as F. cbv zeta in F |- *. unfold make_thread. set (s1 := snd (calloc1 1 s)) in *.
  destruct F as (F1 & F2 & F3 & F4 & F5 & F6 & F7 & F8 & F9 & F10 & _). cbn [new]. fields. rewrite F3, F4, F7.
  repeat split; auto.
  - rewrite upd_same, F10. reflexivity.
  - intros n N. rewrite upd_other by exact N. apply F9, N.
Qed.
Lemma K_make rest s : K rest s -> let s' := make_thread s in G (blocks s' ++ frame_future s' :: brk s' - 16 :: rest) s'.
Proof.
  intros Ks. pose proof (K_calloc1 rest 1 s Ks) as K1. pose proof (make_facts s) as F. cbv zeta in F |- *. set (s1 := snd (calloc1 1 s)) in *.
  destruct F as (_ & _ & _ & _ & _ & F6 & _ & _ & F9 & F10 & F11 & F12). unfold K in K1.
  pose proof (G_new _ _ 1 K1) as G1. pose proof (G_new _ _ 1 G1) as G2. cbn [new snd] in G2. cbn [brk set_mem] in G2.
  rewrite F12, F10. unfold frame_future. rewrite F6. replace (brk s1 + 16 + 16 - 16) with (brk s1 + 16) by lia.
  eapply G_ext; [eapply G_same; [exact G2 | rewrite F9; reflexivity | rewrite F10; reflexivity | rewrite F11; reflexivity]|]. counts.
Qed.
(** A successful thrd_spawn. *)
Lemma spawn_ok fuel grow rest s : K rest s -> p2 s <> 0 -> (forall n, 0 <= n -> n_fixed (nds s n) = false) ->
  exists s' a b k, p_spawn fuel grow true s = Ok (s', false) /\ K (a :: rest) s' /\ p2 s' = p2 s /\ p1 s' <> 0 /\ frame s' = None /\ top s' = p2 s
    /\ nds s' (p2 s) = Node (p1 s') (LWord b) true false /\ memb b (heap s') = true /\ word s' b = RAII_VALUE
    /\ nds s' (p1 s') = Node (p1 s') (LFrame k) true false /\ (forall n, 0 <= n -> n_fixed (nds s' n) = false).
Proof.
  intros Ks P2 Fx. destruct (grow_either grow rest s Ks) as (s0 & E0 & K0 & N0 & Q1 & Q2 & _ & _ & _). unfold p_spawn. rewrite E0. cbn [bind].
  pose proof (K_make rest s0 K0) as GM. pose proof (make_facts s0) as M. cbv zeta in M, GM.
  pose proof (calloc1_facts 1 s0) as C1. cbv zeta in C1. set (s1 := snd (calloc1 1 s0)) in *. set (s2 := make_thread s0) in *.
  destruct M as (M1 & M2 & M3 & M4 & M5 & M6 & M7 & M8 & _ & M10 & _ & _). destruct C1 as (_ & _ & _ & _ & C5 & C6 & _).
  assert (P1 : p1 s2 <> 0). { rewrite M1. pose proof (G_brk _ _ K0). destruct (Z.eq_dec (p1 s0) 0) as [X|X]; [rewrite (C6 X); lia | rewrite (C5 X); exact X]. }
  pose proof (K_calloc2 (frame_future s2 :: brk s2 - 16 :: rest) RAII_VALUE s2 GM) as K3.
  pose proof (calloc2_facts RAII_VALUE s2) as C2. cbv zeta in C2. set (s3 := snd (calloc2 RAII_VALUE s2)) in *.
  destruct C2 as (A1 & A2 & A3 & A4 & A5 & _ & A7 & A8 & A9 & A10 & A11 & A12 & A13).
  assert (P2' : p2 s2 <> 0) by (rewrite M2, Q2; exact P2). rewrite (A5 P2') in *.
  pose proof (K_nonneg _ _ K3) as [Np1 Np2]. rewrite A1 in Np1. rewrite (A5 P2') in Np2.
  pose proof (K_distinct _ _ K3) as Di. rewrite A1, (A5 P2') in Di. specialize (Di P1).
  assert (E2 : p2 s2 = p2 s) by congruence. rewrite E2 in *.
  assert (Fx2 : forall n, 0 <= n -> n_fixed (nds s2 n) = false).
  { intros n Hn. destruct (Z.eq_dec n (p1 s2)) as [->|N]; [rewrite M4; cbn; rewrite N0; apply Fx, Np1 | rewrite M5, N0 by exact N; apply Fx, Hn]. }
  exists (set_frame None (S (calls (set_threads (frame_future s2 :: threads s2) s3))) (set_threads (frame_future s2 :: threads s2) s3)), (brk s2 - 16), (brk s2), (calls s0).
  fields. split; [reflexivity|]. split.
  { unfold K in *. eapply G_ext; [eapply G_same; [exact K3 | reflexivity | reflexivity | reflexivity]|]. unfold blocks. fields. rewrite A4. counts. }
  rewrite A1, A8. split; [exact (A5 P2')|]. split; [exact P1|]. split; [reflexivity|]. split; [exact A7|]. split; [|split; [exact A12|split; [exact (A13 P2')|split]]].
  - rewrite upd_same, M3, Fx2 by exact Np2. reflexivity.
  - rewrite upd_other by exact Di. rewrite M4, N0, Fx by exact Np1. reflexivity.
  - intros n Hn. unfold upd. destruct (Z.eqb_spec n (p2 s)) as [->|]; cbn [n_fixed]; apply Fx2; assumption.
Qed.
Lemma dangling_mem q s s' : mem_of s s' -> dangling q s -> dangling q s'.
Proof. intros (h & f & -> & H) (A & B & C). split; [exact A|]. split; [exact B|]. cbn [heap nds set_mem]. destruct C as [C|C]; auto. Qed.
Lemma D_mem s s' : mem_of s s' -> D s -> D s'.
Proof.
  intros M (A1 & A2 & A3 & A4 & A5 & A6). pose proof M as (h & f & -> & H). unfold D. fields. split; [exact A1|]. split; [exact A2|]. split; [exact A3|].
  split; [exact A4|]. split; [exact A5|]. destruct A6 as [A6|A6]; [auto|]. right. exact (dangling_mem _ _ _ M A6).
Qed.
Lemma throw_dangling fuel s : dangling (top s) s -> frame s = None -> throw_in_try (S fuel) s = Undef UseAfterFree.
Proof.
  intros (A & B & C) F. unfold throw_in_try. cbn [unwind]. destruct (Z.eqb_spec (top s) 0); [contradiction|]. rewrite B. cbn [orb].
  destruct C as [C|(C & k & C')]; [rewrite C; reflexivity|]. destruct (memb (top s) (heap s)); [|reflexivity]. cbn [negb]. rewrite C, C'. cbn [negb deref].
  rewrite F. reflexivity.
Qed.
Definition ready_pool (rest : list Z) (s : hst) : Prop := K rest s /\ D s.
Lemma sync_results_ok rest l : forall s, K rest s -> D s -> top s = p2 s -> let s' := sync_results l s in
  K rest s' /\ D s' /\ top s' = p2 s' /\ threads s' = threads s.
Proof.
  assert (step : forall v s, K rest s -> D s -> top s = p2 s -> let s' := snd (calloc2 v s) in K rest s' /\ D s' /\ top s' = p2 s' /\ threads s' = threads s).
  { intros v s Ks Ds T. pose proof (K_calloc2 rest v s Ks) as K1. pose proof (calloc2_facts v s) as C. cbv zeta in C |- *.
    set (s1 := snd (calloc2 v s)) in *. destruct C as (A1 & A2 & A3 & A4 & A5 & _ & A7 & A8 & _). destruct Ds as (D1 & D2 & D3 & D4 & D5 & D6).
    assert (P : p2 s1 = p2 s) by (apply A5; lia). split; [exact K1|]. split; [|split; assumption].
    unfold D. rewrite P, A1, A2, A8, P. rewrite upd_same. cbn [n_on n_next]. split; [exact D1|]. split; [exact D2|]. split; [|auto].
    intros n Hn. unfold upd. destruct (Z.eqb_spec n (p2 s)) as [->|]; cbn [n_fixed]; apply D3; lia. }
  induction l as [|[v ext] l IH]; cbn [sync_results]; intros s Ks Ds T; cbv zeta; [auto|].
  destruct (calloc2 v s) as [b s1] eqn:E. destruct (step v s Ks Ds T) as (K1 & D1 & T1 & H1). rewrite E in *. cbn [snd] in *. destruct ext.
  - destruct (step v s1 K1 D1 T1) as (K2 & D2 & T2 & H2). destruct (IH _ K2 D2 T2) as (K3 & D3 & T3 & H3). split; [exact K3|]. split; [exact D3|]. split; [exact T3|]. congruence.
  - destruct (IH _ K1 D1 T1) as (K3 & D3 & T3 & H3). split; [exact K3|]. split; [exact D3|]. split; [exact T3|]. congruence.
Qed.
Lemma unprotect_other p s n : n <> p -> nds (unprotect p s) n = nds s n.
Proof. unfold unprotect. intros N. destruct (n_on (nds s p)); fields; [apply upd_other, N | reflexivity]. Qed.
Lemma unprotect_fixed p s n : n_fixed (nds (unprotect p s) n) = n_fixed (nds s n).
Proof. unfold unprotect. destruct (n_on (nds s p)); fields; [|reflexivity]. unfold upd. destruct (Z.eqb_spec n p) as [->|]; reflexivity. Qed.
Lemma unprotect_rest p s : heap (unprotect p s) = heap s /\ brk (unprotect p s) = brk s /\ frame (unprotect p s) = frame s /\ p1 (unprotect p s) = p1 s /\ p2 (unprotect p s) = p2 s
  /\ freed (unprotect p s) = freed s /\ own1 (unprotect p s) = own1 s /\ own2 (unprotect p s) = own2 s /\ futs (unprotect p s) = futs s /\ ress (unprotect p s) = ress s /\ threads (unprotect p s) = threads s.
Proof. unfold unprotect. destruct (n_on (nds s p)); fields; repeat split. Qed.
(** thrd_sync. *)
Lemma sync_ok rest l s : K rest s -> D s -> top s = p2 s -> exists s', p_sync l s = Ok s' /\ K rest s' /\ D s'.
Proof.
  intros Ks Ds T. destruct (sync_results_ok rest l s Ks Ds T) as (K1 & D1 & T1 & _). unfold p_sync. set (s1 := sync_results l s) in *. clearbody s1. clear Ks Ds T s.
  unfold K in K1.
  assert (G1 : G (threads s1 ++ (own1 s1 ++ nz (p1 s1) ++ (nz (futs s1) ++ nz (ress s1) ++ nz (p2 s1) ++ own2 s1 ++ rest))) s1) by (eapply G_ext; [exact K1 | counts]).
  destruct (G_free_all _ _ _ G1) as (s2 & E2 & G2). rewrite E2. cbn [bind]. pose proof (free_all_mem _ _ _ E2) as M2.
  assert (D2 : D s2) by exact (D_mem _ _ M2 D1).
  assert (Q : own1 s2 = own1 s1 /\ p1 s2 = p1 s1 /\ futs s2 = futs s1 /\ ress s2 = ress s1 /\ p2 s2 = p2 s1 /\ own2 s2 = own2 s1) by (destruct M2 as (h & f & -> & _); repeat split).
  destruct Q as (Q1 & Q2 & Q3 & Q4 & Q5 & Q6). rewrite <- Q1, <- Q2, <- Q3, <- Q4, <- Q5, <- Q6 in G2.
  pose proof (K_distinct rest s1 K1) as Di. rewrite <- Q2, <- Q5 in Di. clear - G2 D2 Di.
  unfold release. destruct (G_free_all _ _ _ G2) as (s3 & E3 & G3). rewrite E3. cbn [bind]. pose proof (free_all_mem _ _ _ E3) as M3.
  assert (D3 : D s3) by exact (D_mem _ _ M3 D2).
  assert (Q : p1 s3 = p1 s2 /\ futs s3 = futs s2 /\ ress s3 = ress s2 /\ p2 s3 = p2 s2 /\ own2 s3 = own2 s2) by (destruct M3 as (h & f & -> & _); repeat split).
  destruct Q as (Q2 & Q3 & Q4 & Q5 & Q6). rewrite <- Q2, <- Q3, <- Q4, <- Q5, <- Q6 in G3. rewrite <- Q2, <- Q5 in Di. rewrite <- Q2. clear - G3 D3 Di.
  destruct (Z.eqb_spec (p1 s3) 0) as [Z0|N].
  - rewrite Z0 in G3. cbn [nz Z.eqb app] in G3. eexists. split; [reflexivity|]. split.
    + unfold K. eapply G_ext; [eapply G_same; [exact G3 | reflexivity | reflexivity | reflexivity]|]. unfold blocks; fields. change (nz 0) with (@nil Z). counts.
    + destruct D3 as (A1 & A2 & A3 & A4 & A5 & A6). unfold D. fields. split; [exact A1|]. split; [lia|]. split; [exact A3|]. split; [exact A4|]. split; [exact A5|].
      destruct A6 as [A6|A6]; auto.
  - rewrite (nz_pos _ N) in G3. cbn [app] in G3. specialize (Di N).
    destruct (unprotect_rest (p1 s3) s3) as (U1 & U2 & U3 & U4 & U5 & UF & U6 & U7 & U8 & U9 & U10).
    assert (G4 : G (p1 s3 :: nz (futs s3) ++ nz (ress s3) ++ nz (p2 s3) ++ own2 s3 ++ rest) (unprotect (p1 s3) s3)) by (eapply G_same; eauto).
    destruct (G_free _ _ _ G4) as (h & E & G5 & M & Mh). rewrite E. cbn [bind]. set (s4 := unprotect (p1 s3) s3) in *.
    eexists. split; [reflexivity|]. split.
    + unfold K. eapply G_ext; [eapply G_same; [exact G5 | reflexivity | reflexivity | reflexivity]|]. unfold blocks; fields. rewrite U5, U7, U8, U9. change (nz 0) with (@nil Z). counts.
    + destruct D3 as (A1 & A2 & A3 & A4 & A5 & A6). unfold D. fields. rewrite U5, U3. assert (X : nds s4 (p2 s3) = nds s3 (p2 s3)) by (apply unprotect_other; auto).
      rewrite X. split; [exact A1|]. split; [lia|]. split; [intros n Hn; unfold s4; rewrite unprotect_fixed; apply A3, Hn|]. split; [exact A4|]. split; [exact A5|].
      destruct A6 as [A6|A6]; [auto|]. right. set (q := n_next (nds s3 (p2 s3))) in *. destruct A6 as (B1 & B2 & B3). split; [exact B1|]. fields.
      split; [unfold s4; rewrite unprotect_fixed; exact B2|].
      destruct (Z.eq_dec q (p1 s3)) as [->|Nq]; [left; exact M|]. destruct B3 as [B3|B3]; [left; apply Mh; rewrite U1; exact B3|].
      right. unfold s4. rewrite unprotect_other by exact Nq. exact B3.
Qed.
(** thrd_destroy, and an exception afterwards. *)
Lemma destroy_ok rest s : K rest s -> D s -> exists s', p_destroy s = Ok s' /\ G (nz (p1 s) ++ own1 s ++ threads s ++ rest) s' /\ dangling (top s') s' /\ frame s' = None.
Proof.
  intros Ks Ds. unfold p_destroy. unfold K in Ks.
  assert (G0 : G (nz (futs s) ++ (nz (ress s) ++ (own2 s ++ nz (p2 s) ++ (nz (p1 s) ++ own1 s ++ threads s ++ rest)))) s) by (eapply G_ext; [exact Ks | counts]).
  destruct (G_free_nz _ _ _ G0) as (s1 & E1 & G1 & M1). rewrite E1. cbn [bind].
  assert (Q : ress s1 = ress s) by (destruct M1 as (h & f & -> & _); reflexivity). rewrite <- Q in G1 at 1.
  destruct (G_free_nz _ _ _ G1) as (s2 & E2 & G2 & M2). rewrite E2. cbn [bind].
  pose proof (D_mem _ _ M2 (D_mem _ _ M1 Ds)) as D2.
  assert (Q' : own2 s2 = own2 s /\ p2 s2 = p2 s) by (destruct M2 as (h & f & -> & _), M1 as (h' & f' & -> & _); split; reflexivity). destruct Q' as [Q1 Q2].
  rewrite <- Q1, <- Q2 in G2. set (R := nz (p1 s) ++ own1 s ++ threads s ++ rest) in *. clearbody R. clear - G2 D2.
  destruct D2 as (A1 & A2 & A3 & A4 & A5 & A6).
  assert (U : unprotect (p2 s2) s2 = set_top (n_next (nds s2 (p2 s2))) (set_nds (upd (nds s2) (p2 s2) (Node (n_next (nds s2 (p2 s2))) (n_loc (nds s2 (p2 s2))) false (n_fixed (nds s2 (p2 s2))))) s2))
    by (unfold unprotect; rewrite A5; reflexivity).
  set (q := n_next (nds s2 (p2 s2))) in *. set (s3 := unprotect (p2 s2) s2) in *.
  assert (G3 : G (own2 s2 ++ nz (p2 s2) ++ R) s3) by (eapply G_same; [exact G2 | rewrite U; reflexivity | rewrite U; reflexivity | rewrite U; reflexivity]).
  assert (D3 : top s3 = q /\ frame s3 = None /\ own2 s3 = own2 s2 /\ p2 s3 = p2 s2 /\ n_on (nds s3 (p2 s2)) = false /\ n_fixed (nds s3 (p2 s2)) = false /\ (q = p2 s2 \/ dangling q s3)).
  { rewrite U. fields. rewrite upd_same. cbn [n_on n_fixed]. split; [reflexivity|]. split; [exact A4|]. do 3 (split; [reflexivity|]). split; [apply A3; lia|].
    destruct (Z.eq_dec q (p2 s2)) as [Eq|Nq]; [auto|]. right. destruct A6 as [A6|A6]; [contradiction|]. destruct A6 as (B1 & B2 & B3).
    split; [exact B1|]. fields. rewrite upd_other by exact Nq. split; assumption. }
  clearbody s3. destruct D3 as (T3 & F3 & O3 & P3 & N3 & X3 & D3). unfold release.
  destruct (G_free_all _ _ _ G3) as (s4 & E4 & G4). rewrite E4. cbn [bind]. pose proof (free_all_mem _ _ _ E4) as M4.
  destruct (Z.eqb_spec (p2 s2) 0); [lia|]. rewrite nz_pos in G4 by assumption. cbn [app] in G4.
  assert (N4 : unprotect (p2 s2) s4 = s4). { unfold unprotect. replace (n_on (nds s4 (p2 s2))) with false; [reflexivity|]. destruct M4 as (h & f & -> & _). fields. symmetry. exact N3. }
  rewrite N4. destruct (G_free _ _ _ G4) as (h & E5 & G5 & M5 & Mh). rewrite E5. cbn [bind]. eexists. split; [reflexivity|]. fields.
  split; [eapply G_same; [exact G5 | reflexivity | reflexivity | reflexivity]|]. 
  assert (T4 : top s4 = q /\ frame s4 = None /\ nds s4 = nds s3) by (destruct M4 as (h4 & f4 & -> & _); auto). destruct T4 as (T4 & F4 & X4).
  split; [|exact F4]. rewrite T4. destruct D3 as [->|D3].
  - split; [assumption|]. fields. split; [rewrite X4; exact X3 | left; exact M5].
  - destruct (dangling_mem _ _ _ M4 D3) as (B1 & B2 & B3). split; [exact B1|]. fields. split; [exact B2|]. destruct B3 as [B3|B3]; auto.
Qed.
