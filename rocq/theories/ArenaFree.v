(** Proofs about arena_free on arenas built by arena_init and arena_alloc. *)
From Verif Require Import Base BaseLemmas SpecArena ArenaProofs ArenaAlloc.

(** The chunks of an arena in order, with the threshold [t] copied to each. *)
Inductive chain (m : mem) (t : Z) : Z -> list Z -> Prop :=
| chain_end c b h : find c (heap m) = Some b -> b_hdr b = Some h -> h_threshold h = t -> h_next h = 0 -> chain m t c []
| chain_more c b h d bd hd l : find c (heap m) = Some b -> b_hdr b = Some h -> h_threshold h = t -> h_next h = d -> d <> 0 ->
    find d (heap m) = Some bd -> b_hdr bd = Some hd -> h_type hd = RAII_ARENA -> chain m t d l -> chain m t c (d :: l).

Definition chains (m : mem) : Prop :=
  num_free m = 0 /\ forall a, In a (handles m) -> exists t l, 0 < t < 2147483647 /\ chain m t a l.

Lemma chain_same m m' t c l : (forall d b h, find d (heap m) = Some b -> b_hdr b = Some h -> d = c \/ In d l ->
    exists b' h', find d (heap m') = Some b' /\ b_hdr b' = Some h' /\ h_next h' = h_next h /\ h_threshold h' = h_threshold h /\ h_type h' = h_type h) ->
  chain m t c l -> chain m' t c l.
Proof.
  intros S C. induction C as [c b h F E T N|c b h d bd hd l F E T N Nz F' E' Ty C IH].
  - destruct (S c b h F E (or_introl eq_refl)) as (b' & h' & F2 & E2 & N2 & T2 & _). econstructor; eauto; congruence.
  - destruct (S c b h F E (or_introl eq_refl)) as (b' & h' & F2 & E2 & N2 & T2 & _).
    destruct (S d bd hd F' E' (or_intror (or_introl eq_refl))) as (b3 & h3 & F3 & E3 & N3 & T3 & Y3).
    eapply chain_more; [exact F2|exact E2|congruence|congruence|auto|exact F3|exact E3|congruence|].
    apply IH. intros e b0 h0 X Y Z. apply (S _ _ _ X Y). cbn. destruct Z; auto.
Qed.
Lemma chain_det m t c l : chain m t c l -> forall l', chain m t c l' -> l' = l.
Proof.
  induction 1 as [c b h F E T N|c b h d bd hd l F E T N Nz F' E' Ty C IH]; intros l' C'; inversion C'; subst; auto.
  - match goal with A : find c _ = Some ?x |- _ => rewrite F in A; injection A as <- end. congruence.
  - match goal with A : find c _ = Some ?x |- _ => rewrite F in A; injection A as <- end. congruence.
  - match goal with A : find c _ = Some ?x |- _ => rewrite F in A; injection A as <- end.
    match goal with A : b_hdr b = Some ?x |- _ => rewrite E in A; injection A as <- end. f_equal. auto.
Qed.
Lemma chain_tail m t c l : chain m t c l -> forall d, In d l -> exists l', chain m t d l' /\ (length l' < length l)%nat.
Proof.
  induction 1 as [c b h F E T N|c b h d bd hd l F E T N Nz F' E' Ty C IH]; intros e He; [destruct He|].
  destruct He as [<-|He]; [exists l; cbn; auto|]. destruct (IH _ He) as (l' & ? & ?). exists l'. cbn. auto.
Qed.
Lemma chain_nodup m t c l : chain m t c l -> NoDup (c :: l).
Proof.
  induction 1 as [c b h F E T N|c b h d bd hd l F E T N Nz F' E' Ty C IH]; constructor; auto.
  - constructor.
  - intros X. assert (K : chain m t c (d :: l)) by (eapply chain_more; eauto). destruct (chain_tail _ _ _ _ K _ X) as (l' & C1 & Q).
    rewrite (chain_det _ _ _ _ K _ C1) in Q. lia.
Qed.
Lemma chain_owned m t a l : chain m t a l -> forall c, In c l <-> owned m a c.
Proof.
  intros C. assert (D : forall x l, chain m t x l -> (x = a \/ owned m a x) -> forall c, In c l -> owned m a c).
  { clear. induction 1 as [c b h F E T N|c b h d bd hd l F E T N Nz F' E' Ty C IH]; intros O e He; [destruct He|].
    assert (Od : owned m a d). { subst d. destruct O as [->|O]; [eapply owned_first|eapply owned_next]; eauto. }
    destruct He as [<-|He]; auto. }
  intros c. split; [apply (D a l C); auto|].
  induction 1 as [b h F E N|c b h O IH F E N].
  - inversion C; subst; rewrite F in H; injection H as <-; rewrite E in H0; injection H0 as <-; [contradiction|left; reflexivity].
  - destruct (chain_tail _ _ _ _ C _ IH) as (l' & C' & _).
    assert (Y : In (h_next h) l'). { inversion C'; subst; rewrite F in H; injection H as <-; rewrite E in H0; injection H0 as <-; [contradiction|left; reflexivity]. }
    clear - C IH C' Y. revert IH C'. induction C as [x b0 h0 F0 E0 T0 N0|x b0 h0 d bd hd l F0 E0 T0 N0 Nz F' E' Ty C IHC]; intros IH C'; [destruct IH|].
    destruct IH as [->|IH]; [rewrite (chain_det _ _ _ _ C _ C') in Y; right; auto|right; auto].
Qed.

(** ** chains through arena_init and arena_alloc *)
Lemma chains_modify L a f m m' : (forall h, h_next (f h) = h_next h /\ h_threshold (f h) = h_threshold h /\ h_type (f h) = h_type h) ->
  modify L a f m = Ok m' -> chains m -> chains m'.
Proof.
  intros Hf M [N C]. destruct (modify_inv _ _ _ _ _ M) as (b & h & F & E & ->). split; [exact N|]. cbn [set_heap handles heap]. intros c Hc.
  destruct (C c Hc) as (t & l & B & K). exists t, l. split; [auto|]. eapply chain_same; [|exact K]. intros d x y X Y _. cbn [set_heap heap].
  destruct (Z.eq_dec d a) as [->|]; [|rewrite find_put_other by auto; exists x, y; auto].
  rewrite F in X. injection X as <-. rewrite E in Y. injection Y as <-. exists (rehdr (f h) b), (f h). rewrite (find_put_same _ _ _ _ F).
  destruct (Hf h) as (? & ? & ?). auto.
Qed.

Lemma chains_heap m m' : heap m' = heap m -> handles m' = handles m -> num_free m' = num_free m -> chains m -> chains m'.
Proof.
  intros H1 H2 H3 [N C]. split; [congruence|]. rewrite H2. intros a Ha. destruct (C a Ha) as (t & l & B & K). exists t, l. split; [auto|].
  eapply chain_same; [|exact K]. rewrite H1. intros d b h X Y _. exists b, h. auto.
Qed.

Lemma store_num L a h m m' : store L a h m = Ok m' -> num_free m' = num_free m.
Proof. unfold store. repeat (match goal with |- (match ?x with _ => _ end) = _ -> _ => destruct x end; try discriminate). intros X. injection X as <-. reflexivity. Qed.
Lemma modify_num L a f m m' : modify L a f m = Ok m' -> num_free m' = num_free m.
Proof. intros M. destruct (modify_inv _ _ _ _ _ M) as (? & ? & _ & _ & ->). reflexivity. Qed.
Lemma grow_num L P a n m go m' : free_list m = 0 -> grow L P a n m = Ok (go, m') -> num_free m' = num_free m.
Proof.
  intros Z0. unfold grow. rewrite Z0. cbn [Z.eqb negb].
  destruct (load L a m) as [h| | |]; cbn [bind]; try discriminate. set (tt := u64 _).
  destruct (modify L a (with_total tt) m) as [m1| | |] eqn:M1; cbn [bind]; try discriminate. apply modify_num in M1. rewrite <- M1. clear M1.
  unfold raii_malloc. set (p := P _ _ _). destruct (p =? 0) eqn:P0. { cbn [bind Z.eqb]. intros X. injection X as _ <-. reflexivity. }
  rewrite P0.
  set (m2 := set_heap _ _). change (num_free m1) with (num_free m2).
  destruct (if h_base h =? 0 then modify L a (with_base p) m2 else Ok m2) as [m3| | |] eqn:M3; cbn [bind]; try discriminate.
  assert (N3 : num_free m3 = num_free m2). { destruct (h_base h =? 0); [eapply modify_num; eauto|injection M3 as <-; reflexivity]. }
  rewrite P0, <- N3. destruct (load L a m3) as [h3| | |]; cbn [bind]; try discriminate.
  destruct (store L p h3 m3) as [m4| | |] eqn:M4; cbn [bind]; try discriminate. apply store_num in M4. rewrite <- M4.
  match goal with |- context [modify L a ?f m4] => destruct (modify L a f m4) as [m5| | |] eqn:M5; cbn [bind]; try discriminate end. apply modify_num in M5. rewrite <- M5.
  destruct (modify L p (with_type RAII_ARENA) m5) as [m6| | |] eqn:M6; cbn [bind]; try discriminate. apply modify_num in M6. intros X. injection X as _ <-. auto.
Qed.

Lemma grow_chains L P m own a n go m' : honest P -> inv m own -> In a (handles m) -> grow L P a n m = Ok (go, m') -> chains m -> chains m' /\ exists own', inv m' own' /\ handles m' = handles m.
Proof.
  intros HP I Ha G [N C]. pose proof (grow_num _ _ _ _ _ _ _ (i_free _ _ I) G) as Nn.
  destruct (i_hdl _ _ I a Ha) as (Oa & b & h & F & E & _).
  assert (Inn : forall a0 t l, In a0 (handles m) -> chain m t a0 l -> forall d, In d l -> own d = a0 /\ d <> a).
  { intros a0 t l H0 K d Hd. pose proof (owned_own _ _ _ _ I H0 (proj1 (chain_owned _ _ _ _ K d) Hd)) as O. split; [auto|]. intros ->.
    destruct (i_hdl _ _ I a0 H0) as (_ & b2 & ? & F2 & _). destruct (i_blk _ _ I _ _ F2). lia. }
  destruct (grow_ok L P m own a b h n HP I Ha F E) as [(m1 & G1 & I1 & H1 & H2 & H3 & H4 & _)|[(_ & G1)|(m1 & p & h1 & G1 & Tk & P0 & Pf & Q1 & Q2 & I1)]]; rewrite G in G1; [|discriminate|].
  - injection G1 as -> <-. split; [|eauto]. split; [congruence|]. rewrite H1. intros a0 H0. destruct (C a0 H0) as (t & l & B & K). exists t, l. split; [auto|].
    eapply chain_same; [|exact K]. intros d x y X Y _. destruct (Z.eq_dec d a) as [->|]; [|rewrite H4 by auto; exists x, y; auto].
    rewrite F in X. injection X as <-. rewrite E in Y. injection Y as <-. eexists _, _. split; [exact H3|]. split; [reflexivity|]. auto.
  - injection G1 as -> <-. destruct Tk as (T1 & T2 & T3 & T4 & T5 & T6 & T7 & T8). split; [|eauto]. split; [congruence|]. rewrite T2. intros a0 H0.
    assert (Np : forall x, In x (handles m) -> p <> x). { intros x Hx ->. rewrite <- T2 in Hx. destruct (i_hdl _ _ I1 x Hx) as [Q _]. rewrite Z.eqb_refl in Q. destruct (i_blk _ _ I _ _ F). lia. }
    destruct (C a0 H0) as (t & l & B & K).
    assert (Pl : forall d, In d l -> d <> p).
    { intros d Hd ->. destruct (i_chunk _ _ I p) as (_ & x & ? & ? & _); [|congruence]. destruct (Inn _ _ _ H0 K _ Hd) as [-> _].
      destruct (i_hdl _ _ I a0 H0) as (_ & b2 & ? & F2 & _). destruct (i_blk _ _ I _ _ F2). lia. }
    assert (Keep : forall c l', (forall d, In d (c :: l') -> d <> p /\ d <> a) -> chain m t c l' -> chain m' t c l').
    { intros c l' Q. apply chain_same. intros d x y X Y Z. exists x, y. destruct (Q d). { destruct Z; [left; auto|right; auto]. } rewrite T6 by auto. auto. }
    destruct (Z.eq_dec a0 a) as [->|].
    2:{ exists t, l. split; [auto|]. apply Keep; [|auto]. intros d [<-|Hd]; [split; auto; apply not_eq_sym; auto|]. split; [auto|]. apply (Inn _ _ _ H0 K _ Hd). }
    exists t, (p :: l). split; [auto|].
    assert (Th : h_threshold h1 = t). { rewrite Q2. inversion K; subst; rewrite F in H; injection H as <-; rewrite E in H1; injection H1 as <-; reflexivity. }
    eapply chain_more; [exact T5|reflexivity|exact Th|reflexivity|exact P0|exact T4|reflexivity|reflexivity|].
    inversion K as [c b' h' F' E' T' N'|c b' h' d bd hd l' F' E' T' N' Nz Fd Ed Ty K']; subst.
    + eapply chain_end; [exact T4|reflexivity|cbn; congruence|]. cbn. rewrite F in F'. injection F' as <-. rewrite E in E'. injection E' as <-. congruence.
    + rewrite F in F'. injection F' as <-. rewrite E in E'. injection E' as <-. set (d := h_next h) in *.
      assert (Kd : forall e, In e (d :: l') -> e <> p /\ e <> a). { intros e He. split; [apply Pl; auto|]. apply (Inn _ _ _ Ha K _ He). }
      eapply chain_more; [exact T4|reflexivity|cbn; congruence|exact T7|auto| |exact Ed|exact Ty|apply Keep; auto].
      destruct (Kd d (or_introl eq_refl)). rewrite T6 by auto. exact Fd.
Qed.

Lemma grow_loop_chains L P a n fuel : honest P -> forall m own go m', inv m own -> In a (handles m) -> grow_loop L P fuel a n m = Ok (go, m') -> chains m -> chains m'.
Proof.
  intros HP. induction fuel as [|fuel IH]; intros m own go m' I Ha; cbn [grow_loop]; destruct (load L a m) as [h| | |]; cbn [bind]; try discriminate;
  destruct (short_of h n); try discriminate; try (intros X C; injection X as _ <-; exact C).
  destruct (grow L P a n m) as [[g m1]| | |] eqn:G; cbn [bind]; try discriminate. intros X C.
  destruct (grow_chains _ _ _ _ _ _ _ _ HP I Ha G C) as (C1 & own1 & I1 & H1). destruct g; [|injection X as _ <-; auto].
  eapply IH; eauto. congruence.
Qed.

Lemma alloc_chains L P fuel m own a n p m' : honest P -> inv m own -> In a (handles m) -> arena_alloc L P fuel a n m = Ok (p, m') -> chains m -> chains m'.
Proof.
  intros HP I Ha. unfold arena_alloc. destruct (a =? 0); [discriminate|]. set (k := s64 _).
  destruct (grow_loop L P fuel a k m) as [[go m1]| | |] eqn:G; cbn [bind]; try discriminate. intros X C.
  pose proof (grow_loop_chains _ _ _ _ _ HP _ _ _ _ I Ha G C) as C1. destruct go; cbn [negb] in X; [|injection X as _ <-; auto].
  destruct (load L a m1) as [h| | |]; cbn [bind] in X; try discriminate.
  assert (K : forall m2, (if h_next h =? 0 then Ok m1 else modify L (h_next h) (with_bytes (h_bytes h)) m1) = Ok m2 -> chains m2).
  { destruct (h_next h =? 0); intros m2 Y; [injection Y as <-; auto|]. eapply chains_modify; [|exact Y|auto]. auto. }
  destruct (if h_next h =? 0 then Ok m1 else modify L (h_next h) (with_bytes (h_bytes h)) m1) as [m2| | |]; cbn [bind] in X; try discriminate.
  specialize (K m2 eq_refl). set (f := fun h0 : hdr => with_avail (u64 (h_avail h0 + k)) (with_bytes (u64 k) h0)) in X.
  destruct (modify L a f m2) as [m3| | |] eqn:M; cbn [bind] in X; try discriminate. injection X as _ <-.
  assert (K3 : chains m3). { eapply chains_modify; [|exact M|auto]. auto. }
  destruct (h_avail h =? 0); auto. eapply chains_heap; [| | |exact K3]; reflexivity.
Qed.

Lemma init_num P t m a m' : arena_init P t m = Ok (a, m') -> num_free m' = num_free m.
Proof.
  unfold arena_init, raii_malloc. destruct (P _ _ _ =? 0) eqn:Q; [discriminate|]. rewrite Q.
  match goal with |- context [store false ?p ?h ?m0] => destruct (store false p h m0) as [m2| | |] eqn:S; cbn [bind]; try discriminate end.
  apply store_num in S. intros X. injection X as _ <-. cbn. auto.
Qed.

Lemma init_chains P t m own a m' : honest P -> t < 2147483647 -> inv m own -> arena_init P t m = Ok (a, m') -> chains m -> chains m'.
Proof.
  intros HP Ht I G [N C]. pose proof (init_num _ _ _ _ _ G) as Nn.
  destruct (init_ok P t m own HP I) as [X|(a' & m1 & X & Q & I1 & H1 & H2 & H3 & H4 & H5)]; rewrite G in X; [discriminate|]. injection X as <- <-.
  split; [congruence|]. rewrite H1. intros a0 H0. destruct (Z.eq_dec a0 a) as [->|].
  - exists (if t <=? 0 then 10 else t), []. split; [destruct (Z.leb_spec t 0); lia|]. eapply chain_end; [exact H3|reflexivity|reflexivity|reflexivity].
  - apply in_app_or in H0. destruct H0 as [H0|[|[]]]; [|congruence]. destruct (C a0 H0) as (t0 & l & B & K). exists t0, l. split; [auto|].
    eapply chain_same; [|exact K]. intros d x y X Y Z. exists x, y. destruct (Z.eq_dec d a) as [->|]; [|rewrite H4 by auto; auto].
    exfalso. destruct Z as [|Z]; [congruence|]. pose proof (owned_own _ _ _ _ I H0 (proj1 (chain_owned _ _ _ _ K a) Z)) as O.
    destruct (i_hdl _ _ I1 a) as (Oa & _). { rewrite H1. apply in_or_app. right. left. reflexivity. }
    destruct (i_hdl _ _ I a0 H0) as (_ & b2 & ? & F2 & _). destruct (i_blk _ _ I _ _ F2). lia.
Qed.

Definition small_threshold (o : aop) : Prop := match o with AInit t => t < 2147483647 | _ => True end.
Lemma run_chains L P fuel l : honest P -> Forall alloc_only l -> Forall small_threshold l -> forall m own, inv m own -> chains m ->
  forall m', arena_run L P fuel l m = Ok m' -> chains m' /\ exists own', inv m' own'.
Proof.
  intros HP Hl. induction Hl as [|o l Ho Hl IH]; intros Hs m own I C m' R; cbn [arena_run] in R.
  - injection R as <-. eauto.
  - inversion Hs as [|? ? Hs1 Hs2]; subst. destruct o as [t|k n|k|k]; try contradiction; cbn [arena_step] in R.
    + destruct (init_ok P t m own HP I) as [X|(a & m1 & X & _ & I1 & _)]; rewrite X in R; cbn [bind] in R; [discriminate|].
      apply (IH Hs2 m1 own I1); [|exact R]. apply (init_chains P t m own a m1 HP Hs1 I X C).
    + destruct (in_dec Z.eq_dec (nth k (handles m) 0) (handles m)) as [Ha|Na].
      * destruct (alloc_ok L P fuel m own _ n HP I Ha Ho) as [(m1 & own1 & X & I1 & _)|[(_ & X)|[(_ & X)|(p & m1 & own1 & X & _ & I1 & _)]]];
        rewrite X in R; cbn [bind] in R; try discriminate; (apply (IH Hs2 m1 own1 I1); [|exact R]; exact (alloc_chains L P fuel m own _ n _ m1 HP I Ha X C)).
      * rewrite nth_overflow in R. { cbn in R. discriminate. }
        destruct (Nat.le_gt_cases (length (handles m)) k); auto. destruct Na. apply nth_In. auto.
Qed.
Lemma chains_start : chains arena_start.
Proof. split; [reflexivity|]. intros a []. Qed.

(** ** arena_clear in the releasing mode *)
Definition released (b : block) : block := Block (b_addr b) (b_size b) false (b_hdr b).
Lemma load_len m a b h : a <> 0 -> find a (heap m) = Some b -> 72 <= b_size b -> b_hdr b = Some h -> load true a m = Ok h.
Proof.
  intros H1 H2 H4 H5. unfold load. destruct (Z.eqb_spec a 0); [contradiction|]. rewrite H2. rewrite orb_true_r. cbn [negb].
  change HDR_SIZE with 72. replace (b_size b <? 72) with false by lia. rewrite H5. reflexivity.
Qed.
Lemma modify_len m a b h f : a <> 0 -> find a (heap m) = Some b -> 72 <= b_size b -> b_hdr b = Some h ->
  modify true a f m = Ok (set_heap (put a (rehdr (f h)) (heap m)) m).
Proof.
  intros. unfold modify. erewrite load_len by eauto. cbn [bind]. unfold store. destruct (Z.eqb_spec a 0); [contradiction|]. rewrite H0. rewrite orb_true_r. cbn [negb].
  change HDR_SIZE with 72. replace (b_size b <? 72) with false by lia. reflexivity.
Qed.
Lemma find_release_other a c l : c <> a -> find c (put a released l) = find c l.
Proof. intros F. rewrite find_put by reflexivity. destruct (Z.eqb_spec a c); congruence. Qed.
Lemma find_release_same a l b : find a l = Some b -> find a (put a released l) = Some (released b).
Proof. intros F. rewrite find_put by reflexivity. rewrite Z.eqb_refl, F. reflexivity. Qed.

(** One turn of the loop that releases a chunk. *)
Lemma clear_turn L fuel m t c d bc hc bd hd :
  c <> 0 -> c <> d -> d <> 0 -> find c (heap m) = Some bc -> (b_live bc || L = true)%bool -> 72 <= b_size bc -> b_hdr bc = Some hc -> h_threshold hc = t -> h_next hc = d ->
  find d (heap m) = Some bd -> b_live bd = true -> 72 <= b_size bd -> b_hdr bd = Some hd -> h_type hd = RAII_ARENA -> s32 t <= num_free m ->
  exists m', clear_loop L (Datatypes.S fuel) c m = clear_loop L fuel d m' /\
    find d (heap m') = Some (released (rehdr (with_type 4294967295 hd) bd)) /\ find c (heap m') = Some (rehdr (with_next 0 hc) bc) /\
    (forall x, x <> c -> x <> d -> find x (heap m') = find x (heap m)) /\
    num_free m' = num_free m /\ free_list m' = free_list m /\ handles m' = handles m /\ given m' = given m.
Proof.
  intros C0 Cd D0 Fc Lc Sc Ec Tc Nc Fd Ld Sd Ed Td Nf.
  assert (LdC : forall m0 h, find c (heap m0) = Some (rehdr h bc) \/ (find c (heap m0) = Some bc /\ h = hc) -> load L c m0 = Ok h).
  { intros m0 h [X|[X ->]]; unfold load; destruct (Z.eqb_spec c 0); try contradiction; rewrite X; cbn [rehdr b_live b_size b_hdr]; rewrite Lc; cbn [negb];
    change HDR_SIZE with 72; replace (b_size bc <? 72) with false by lia; [reflexivity|rewrite Ec; reflexivity]. }
  cbn [clear_loop]. rewrite (LdC m hc) by auto. cbn [bind]. rewrite Nc. replace (d =? 0) with false by lia.
  erewrite (load_ok L d) by eauto. cbn [bind]. rewrite Td. replace (negb (RAII_ARENA =? RAII_ARENA)) with false by reflexivity.
  rewrite Tc. replace (num_free m <? s32 t) with false by lia.
  erewrite modify_ok by eauto. cbn [bind]. set (h' := with_type 4294967295 hd). set (m1 := set_heap (put d (rehdr h') (heap m)) m).
  assert (F1 : find d (heap m1) = Some (rehdr h' bd)) by (cbn; apply find_put_same; auto).
  unfold raii_free. replace (d =? 0) with false by lia. rewrite F1. cbn [rehdr b_live]. rewrite Ld. cbn [bind].
  change (fun b : block => Block (b_addr b) (b_size b) false (b_hdr b)) with released.
  set (m2 := set_heap (put d released (heap m1)) m1).
  assert (F2 : find c (heap m2) = Some bc). { cbn. rewrite find_release_other by auto. rewrite find_put_other by auto. auto. }
  assert (M : modify L c (with_next 0) m2 = Ok (set_heap (put c (rehdr (with_next 0 hc)) (heap m2)) m2)).
  { unfold modify. rewrite (LdC m2 hc) by auto. cbn [bind]. unfold store. replace (c =? 0) with false by lia. rewrite F2, Lc. cbn [negb].
    change HDR_SIZE with 72; replace (b_size bc <? 72) with false by lia. reflexivity. }
  rewrite M. cbn [bind]. eexists. split; [reflexivity|]. cbn [set_heap heap num_free free_list handles given].
  split. { rewrite find_put_other by auto. cbn. apply find_release_same. exact F1. }
  split. { apply find_put_same. auto. }
  split. { intros x ? ?. rewrite find_put_other by auto. cbn. rewrite find_release_other by auto. apply find_put_other. auto. }
  auto.
Qed.

Lemma clear_release t l : forall fuel m c bc, chain m t c l -> find c (heap m) = Some bc -> c <> 0 -> 72 <= b_size bc -> NoDup (c :: l) ->
  (forall d b, In d l -> find d (heap m) = Some b -> b_live b = true /\ 72 <= b_size b) -> s32 t <= num_free m -> (length l <= fuel)%nat ->
  exists m' bc', clear_loop true fuel c m = Ok m' /\ (forall d, In d l -> exists b, find d (heap m') = Some b /\ b_live b = false) /\
    find c (heap m') = Some bc' /\ b_live bc' = b_live bc /\ b_size bc' = b_size bc /\ (exists h', b_hdr bc' = Some h') /\
    (forall x, x <> c -> ~ In x l -> find x (heap m') = find x (heap m)).
Proof.
  induction l as [|d l IH]; intros fuel m c bc C F C0 S Nd Q Nf Fu; inversion C as [? b h F' E' T' N'|? b h ? bd hd ? F' E' T' N' Nz Fd Ed Ty C']; subst;
  rewrite F in F'; injection F' as <-.
  - exists m, bc. destruct fuel; cbn [clear_loop]; (erewrite load_len; [|auto|exact F|auto|exact E']); cbn [bind]; rewrite N'; cbn [Z.eqb]; (split; [reflexivity|]); (split; [intros ? []|]); eauto 10.
  - destruct fuel as [|fuel]; [cbn in Fu; lia|]. destruct (Q _ _ (or_introl eq_refl) Fd) as [Lv Sd].
    inversion Nd as [|? ? Nc Nd']; subst. assert (Ncd : c <> h_next h) by (intros X; apply Nc; left; auto).
    destruct (clear_turn true fuel m (h_threshold h) c (h_next h) bc h bd hd C0 Ncd Nz F (orb_true_r _) S E' eq_refl eq_refl Fd Lv Sd Ed Ty Nf) as (m1 & -> & F1 & G1 & H1 & N1 & _).
    set (d := h_next h) in *. inversion Nd' as [|? ? Nd1 Nd2]; subst.
    assert (Ch : chain m1 (h_threshold h) d l).
    { inversion C' as [? b2 h2 F2 E2 T2 N2|? b2 h2 e be he l' F2 E2 T2 N2 Nz2 Fe Ee Te C2]; subst; rewrite Fd in F2; injection F2 as <-; rewrite Ed in E2; injection E2 as <-.
      - eapply chain_end; [exact F1|reflexivity|exact T2|exact N2].
      - eapply chain_more; [exact F1|reflexivity|exact T2|reflexivity|auto| |exact Ee|exact Te|].
        + rewrite H1; [exact Fe|intros X; apply Nc; right; left; auto|intros X; apply Nd1; left; auto].
        + eapply chain_same; [|exact C2]. intros x y z X Y W. exists y, z.
          assert (In x (h_next hd :: l')) by (destruct W; [left|right]; auto).
          rewrite H1; [auto|intros ->; apply Nc; right; auto|intros ->; apply Nd1; auto]. }
    destruct (IH fuel m1 d _ Ch F1 Nz ltac:(cbn; lia) Nd') as (m' & bc' & R & A1 & A2 & A3 & A4 & A5 & A6).
    { intros x y Hx X. rewrite H1 in X; [apply (Q x y); [right; auto|auto]|intros ->; apply Nc; right; auto|intros ->; auto]. }
    { rewrite N1. auto. } { cbn in Fu. lia. }
    assert (Fc : find c (heap m') = Some (rehdr (with_next 0 h) bc)). { rewrite A6; [auto|auto|]. intros X. apply Nc. right. auto. }
    exists m', (rehdr (with_next 0 h) bc). split; [exact R|]. split.
    { intros x [<-|Hx]; [exists bc'; auto|auto]. }
    split; [exact Fc|]. split; [reflexivity|]. split; [reflexivity|]. split; [eexists; reflexivity|].
    intros x X Y. rewrite A6; [apply H1; [auto|intros ->; apply Y; left; auto]|intros ->; apply Y; left; auto|intros Z; apply Y; right; auto].
Qed.

(** ** arena_free *)
Lemma free_ok m own a : inv m own -> chains m -> In a (handles m) -> exists k, forall fuel, (k <= fuel)%nat ->
  exists m', arena_free true fuel a m = Ok m' /\
    (forall c, c = a \/ owned m a c -> exists b, find c (heap m') = Some b /\ b_live b = false) /\
    (forall c, c <> a -> ~ owned m a c -> find c (heap m') = find c (heap m)).
Proof.
  intros I [N C] Ha. destruct (C a Ha) as (t & l & B & K). destruct (i_hdl _ _ I a Ha) as (Oa & b & h & F & E & Ty & _).
  destruct (i_blk _ _ I _ _ F) as (A1 & A2 & A3 & _).
  assert (Th : h_threshold h = t). { inversion K; subst; rewrite F in H; injection H as <-; rewrite E in H0; injection H0 as <-; reflexivity. }
  exists (length l). intros fuel Fu. unfold arena_free, add_int. replace (a =? 0) with false by lia. erewrite load_ok by (eauto; lia). cbn [bind].
  rewrite Ty, Th. cbn [Z.eqb negb ARENA_TAG]. replace (negb _) with false by reflexivity. rewrite s32_id by lia.
  replace ((-2147483648 <=? t + 1) && (t + 1 <? 2147483648))%bool with true by (symmetry; lia). cbn [bind]. rewrite N.
  replace ((-2147483648 <=? 0 + (t + 1)) && (0 + (t + 1) <? 2147483648))%bool with true by (symmetry; lia). cbn [bind].
  set (m1 := set_free (free_list m) (0 + (t + 1)) m). unfold arena_clear. replace (a =? 0) with false by lia.
  assert (K1 : chain m1 t a l). { eapply chain_same; [|exact K]. intros d x y X Y _. exists x, y. auto. }
  destruct (clear_release t l fuel m1 a b K1 F ltac:(lia) A3 (chain_nodup _ _ _ _ K)) as (m' & bc' & R & Q1 & Q2 & Q3 & Q4 & (h' & Q5) & Q6); auto.
  { intros d x _ X. destruct (i_blk _ _ I _ _ X) as (? & ? & ? & _). auto. } { unfold m1. cbn [num_free set_free]. rewrite s32_id by lia. lia. }
  rewrite R. cbn [bind]. erewrite modify_ok; [|lia|exact Q2|congruence|lia|exact Q5]. cbn [bind]. unfold raii_free. replace (a =? 0) with false by lia.
  cbn [set_heap heap]. rewrite (find_put_same _ _ _ _ Q2). cbn [rehdr b_live]. rewrite Q3, A2. eexists. split; [reflexivity|]. cbn [set_heap heap].
  change (fun b : block => Block (b_addr b) (b_size b) false (b_hdr b)) with released. set (m2 := put a _ (heap m')).
  assert (F2 : find a m2 = Some (rehdr (with_type 4294967295 h') bc')) by (apply find_put_same; auto).
  assert (F2o : forall c, c <> a -> find c m2 = find c (heap m')) by (intros; apply find_put_other; auto).
  split.
  - intros c O. destruct (Z.eq_dec c a) as [->|]; [eexists; split; [apply find_release_same; eauto|reflexivity]|].
    rewrite find_release_other by auto. rewrite F2o by auto. apply Q1. apply (chain_owned _ _ _ _ K). destruct O; [contradiction|auto].
  - intros c X Y. rewrite find_release_other by auto. rewrite F2o by auto. rewrite Q6; auto. intros Z. apply Y. apply (chain_owned _ _ _ _ K). auto.
Qed.

Lemma free_strict m own a c fuel : inv m own -> chains m -> In a (handles m) -> owned m a c -> arena_free false (Datatypes.S fuel) a m = Undef UseAfterFree.
Proof.
  intros I [N C] Ha O. destruct (C a Ha) as (t & l & B & K). destruct (i_hdl _ _ I a Ha) as (Oa & b & h & F & E & Ty & _).
  destruct (i_blk _ _ I _ _ F) as (A1 & A2 & A3 & _). apply (chain_owned _ _ _ _ K) in O.
  pose proof (chain_nodup _ _ _ _ K) as Nd.
  inversion K as [? b' h' F' E' T' N'|? b' h' d bd hd l' F' E' T' N' Nz Fd Ed Td C']; subst; [destruct O|]. rewrite F in F'. injection F' as <-. rewrite E in E'. injection E' as <-.
  unfold arena_free, add_int. replace (a =? 0) with false by lia. erewrite load_ok by (eauto; lia). cbn [bind].
  rewrite Ty. replace (negb (ARENA_TAG =? ARENA_TAG)) with false by reflexivity. rewrite s32_id by lia. set (t := h_threshold h) in *.
  replace ((-2147483648 <=? t + 1) && (t + 1 <? 2147483648))%bool with true by (symmetry; lia). cbn [bind]. rewrite N.
  replace ((-2147483648 <=? 0 + (t + 1)) && (0 + (t + 1) <? 2147483648))%bool with true by (symmetry; lia). cbn [bind].
  set (m1 := set_free (free_list m) (0 + (t + 1)) m). unfold arena_clear. replace (a =? 0) with false by lia.
  inversion Nd as [|? ? Nc Nd']; subst. assert (Ncd : a <> h_next h) by (intros X; apply Nc; left; auto).
  destruct (i_blk _ _ I _ _ Fd) as (D1 & D2 & D3 & _).
  destruct (clear_turn false fuel m1 t a (h_next h) b h bd hd ltac:(lia) Ncd Nz F ltac:(rewrite A2; reflexivity) A3 E eq_refl eq_refl Fd D2 D3 Ed Td) as (m2 & -> & F2 & _).
  { unfold m1. cbn [num_free set_free]. rewrite s32_id by lia. lia. }
  assert (X : load false (h_next h) m2 = Undef UseAfterFree). { unfold load. destruct (Z.eqb_spec (h_next h) 0); [contradiction|]. rewrite F2. reflexivity. }
  destruct fuel; cbn [clear_loop]; rewrite X; reflexivity.
Qed.

(** ** arena_clear in the recycling mode, and allocations that fit the window left *)
Lemma fit_alloc L P fuel m a b h n c bc hc : find a (heap m) = Some b -> b_live b = true -> 72 <= b_size b -> b_hdr b = Some h -> 0 < a ->
  h_next h = c -> c <> 0 -> c <> a -> find c (heap m) = Some bc -> b_live bc = true -> 72 <= b_size bc -> b_hdr bc = Some hc ->
  0 < h_avail h -> h_limit h < 9223372036854775808 -> 0 < n < 9223372036854775807 -> h_avail h + 2 * ((n + 1) / 2) <= h_limit h ->
  exists m' b' h' bc' hc', arena_alloc L P fuel a n m = Ok (h_avail h, m') /\ given m' = (a, h_avail h, n) :: given m /\ free_list m' = free_list m /\ handles m' = handles m /\
    find a (heap m') = Some b' /\ b_live b' = true /\ 72 <= b_size b' /\ b_hdr b' = Some h' /\ h_next h' = c /\ h_limit h' = h_limit h /\ h_avail h' = h_avail h + 2 * ((n + 1) / 2) /\
    find c (heap m') = Some bc' /\ b_live bc' = true /\ b_size bc' = b_size bc /\ b_hdr bc' = Some hc'.
Proof.
  intros F Lv S E A Nx C0 Ca Fc Lc Sc Ec Av Lim Hn Fit. destruct (request_val n Hn) as (R0 & R1 & R2). rewrite <- R0 in *.
  unfold arena_alloc. replace (a =? 0) with false by lia. fold (request n).
  assert (G : grow_loop L P fuel a (request n) m = Ok (true, m)).
  { assert (Sh : short_of h (request n) = false) by (unfold short_of; rewrite s64_id by lia; lia).
    destruct fuel; cbn [grow_loop]; erewrite load_ok by (eauto; lia); cbn [bind]; rewrite Sh; reflexivity. }
  rewrite G. cbn [bind negb]. erewrite load_ok by (eauto; lia). cbn [bind]. rewrite Nx. replace (c =? 0) with false by lia.
  erewrite modify_ok by eauto. cbn [bind]. set (m1 := set_heap _ m).
  assert (F1 : find a (heap m1) = Some b) by (cbn; rewrite find_put_other by auto; auto).
  assert (F1c : find c (heap m1) = Some (rehdr (with_bytes (h_bytes h) hc) bc)) by (cbn; apply find_put_same; auto).
  erewrite modify_ok; [|lia|exact F1|auto|auto|exact E]. cbn [bind]. replace (h_avail h =? 0) with false by lia. rewrite u64_id by lia.
  eexists _, _, _, _, _. split; [reflexivity|]. cbn [note_given given set_heap free_list handles heap].
  split; [reflexivity|]. split; [reflexivity|]. split; [reflexivity|]. split; [apply find_put_same; exact F1|]. split; [exact Lv|]. split; [exact S|]. split; [reflexivity|].
  cbn [with_avail with_bytes h_next h_limit h_avail]. split; [auto|]. split; [auto|]. split; [auto|]. split; [rewrite find_put_other by auto; exact F1c|]. cbn. auto.
Qed.
