(** Proofs about arenas used only through arena_init and arena_alloc, continued. *)
From Verif Require Import Base BaseLemmas SpecArena ArenaProofs.

Lemma owned_same m m' a c :
  (forall c b h, find c (heap m) = Some b -> b_hdr b = Some h -> exists b' h', find c (heap m') = Some b' /\ b_hdr b' = Some h' /\ h_next h' = h_next h) ->
  owned m a c -> owned m' a c.
Proof.
  intros S. induction 1 as [b h F E N|c b h O IH F E N]; destruct (S _ _ _ F E) as (b' & h' & F' & E' & Q); rewrite <- Q.
  - eapply owned_first; eauto. congruence.
  - eapply owned_next; eauto. congruence.
Qed.

Lemma inv_heap m m' own : heap m' = heap m -> free_list m' = free_list m -> handles m' = handles m -> given m' = given m -> inv m own -> inv m' own.
Proof.
  intros H1 H2 H3 H4 I. constructor; rewrite ?H1, ?H2, ?H3, ?H4; try apply I.
  - intros a Ha. destruct (i_hdl _ _ I a Ha) as (A & b & h & B). split; [auto|]. exists b, h. unfold cursor. rewrite H1. exact B.
  - intros [[a p] n] Hg. destruct (i_given _ _ I _ Hg) as (A & B & C & c & x & D1 & D2 & D3). unfold placed. rewrite H1, H3.
    split; [auto|]. split; [auto|]. split; [auto|]. exists c, x. split; [auto|]. split; [|auto]. eapply owned_same; [|exact D2]. rewrite H1. eauto.
Qed.

(** [m'] differs from [m] in the structure at [a0] only, whose next, type, and (for an arena) window stay. *)
Definition retouched (m m' : mem) (a0 : Z) (b0 : block) (h0 h' : hdr) : Prop :=
  free_list m' = free_list m /\ handles m' = handles m /\ given m' = given m /\
  find a0 (heap m) = Some b0 /\ b_hdr b0 = Some h0 /\
  find a0 (heap m') = Some (rehdr h' b0) /\ (forall c, c <> a0 -> find c (heap m') = find c (heap m)) /\
  h_next h' = h_next h0 /\ h_type h' = h_type h0 /\ h_limit h' = h_limit h0 /\ 0 <= h_total h' < 18446744073709551616.

Lemma retouched_owned m m' a0 b0 h0 h' a c : retouched m m' a0 b0 h0 h' -> owned m a c -> owned m' a c.
Proof.
  intros (_ & _ & _ & F & E & F' & S & N & _). apply owned_same. intros d b h X Y. destruct (Z.eq_dec d a0) as [->|].
  - rewrite F in X. injection X as <-. rewrite E in Y. injection Y as <-. eexists _, _. split; [exact F'|]. split; [reflexivity|auto].
  - rewrite S by auto. eauto.
Qed.
Lemma retouched_find m m' a0 b0 h0 h' c x : retouched m m' a0 b0 h0 h' -> find c (heap m') = Some x ->
  exists y, find c (heap m) = Some y /\ b_size y = b_size x /\ b_live y = b_live x.
Proof.
  intros (_ & _ & _ & F & E & F' & S & _) X. destruct (Z.eq_dec c a0) as [->|]; [rewrite F' in X; injection X as <-; exists b0; auto|].
  rewrite S in X by auto. eauto.
Qed.
Lemma retouched_find' m m' a0 b0 h0 h' c y : retouched m m' a0 b0 h0 h' -> find c (heap m) = Some y ->
  exists x, find c (heap m') = Some x /\ b_size y = b_size x /\ b_live y = b_live x.
Proof.
  intros (_ & _ & _ & F & E & F' & S & _) X. destruct (Z.eq_dec c a0) as [->|].
  - rewrite F in X; injection X as <-; exists (rehdr h' b0); auto.
  - rewrite <- S in X by auto. eauto.
Qed.

(** Rewriting one structure; the window of an arena may only move up by an even amount inside the chunk. *)
Lemma inv_retouched m m' own a0 b0 h0 h' : inv m own -> retouched m m' a0 b0 h0 h' ->
  (In a0 (handles m) -> h_avail h' = h_avail h0 \/
     (h_avail h0 <= h_avail h' <= h_limit h0 /\ h_avail h' mod 2 = 0 /\ h_next h0 <> 0)) ->
  inv m' own.
Proof.
  intros I T W. pose proof T as (T1 & T2 & T3 & F & E & F' & S & N & Ty & Li & To).
  assert (Old : forall c x, find c (heap m') = Some x -> exists y, find c (heap m) = Some y /\ b_size y = b_size x /\ b_live y = b_live x) by (intros; eapply retouched_find; eauto).
  assert (New : forall c x, find c (heap m) = Some x -> exists y, find c (heap m') = Some y /\ b_size x = b_size y /\ b_live x = b_live y) by (intros; eapply retouched_find'; eauto).
  constructor.
  - rewrite T1. apply (i_free _ _ I).
  - intros c x X. destruct (Old _ _ X) as (y & Y & <- & <-). apply (i_blk _ _ I _ _ Y).
  - intros c d x y X Y Q. destruct (Old _ _ X) as (x' & X' & <- & _). destruct (Old _ _ Y) as (y' & Y' & <- & _). apply (i_apart _ _ I _ _ _ _ X' Y' Q).
  - rewrite T2. intros a Ha. destruct (i_hdl _ _ I a Ha) as (Oa & b & h & Fa & Ea & C1 & C2 & C3). split; [auto|].
    destruct (Z.eq_dec a a0) as [->|].
    + rewrite F in Fa. injection Fa as <-. rewrite E in Ea. injection Ea as <-. eexists _, _. split; [exact F'|]. split; [reflexivity|].
      split; [congruence|]. split; [auto|]. rewrite N, Li. specialize (W Ha). destruct C3 as [(C3 & C4 & C5)|(C3 & C4 & x & C5 & C6 & C7 & C8 & C9)].
      * left. split; [auto|]. split; [|auto]. destruct W as [W|(_ & _ & W)]; [congruence|contradiction].
      * right. split; [auto|]. split; [auto|]. destruct (New _ _ C5) as (y & Y & Z1 & _). exists y. split; [auto|]. rewrite <- Z1.
        destruct W as [->|(W1 & W2 & W3)]; [repeat split; auto|]. repeat split; auto; lia.
    + exists b, h. rewrite S by auto. split; [auto|]. split; [auto|]. split; [auto|]. split; [auto|].
      destruct C3 as [?|(C3 & C4 & x & C5 & C6)]; [auto|]. right. split; [auto|]. split; [auto|]. destruct (New _ _ C5) as (y & Y & Q & _). exists y. rewrite <- Q. auto.
  - intros c Hc. rewrite T2. destruct (i_chunk _ _ I c Hc) as (A & b & h & Fc & Ec & D). split; [auto|].
    destruct (Z.eq_dec c a0) as [->|]; [|exists b, h; rewrite S by auto; auto].
    rewrite F in Fc. injection Fc as <-. rewrite E in Ec. injection Ec as <-. eexists _, _. split; [exact F'|]. split; [reflexivity|]. rewrite N. auto.
  - rewrite T3. intros [[a p] n] Hg. destruct (i_given _ _ I _ Hg) as (A & B & C & c & x & D1 & D2 & D3 & D4 & D5 & D6).
    split; [rewrite T2; auto|]. split; [auto|]. split; [auto|]. destruct (New _ _ D3) as (y & Y & Z1 & _). exists c, y.
    split; [auto|]. split; [eapply retouched_owned; eauto|]. split; [auto|]. split; [auto|]. split; [lia|].
    intros bd hd X Y1 Z2. destruct (Z.eq_dec a a0) as [->|].
    + rewrite F' in X. injection X as <-. injection Y1 as <-. specialize (D6 _ _ F E ltac:(congruence)). destruct (W A) as [->|W1]; [auto|lia].
    + rewrite S in X by auto. eauto.
  - rewrite T3. apply (i_pairs _ _ I).
Qed.

Lemma find_put_same a h l b : find a l = Some b -> find a (put a (rehdr h) l) = Some (rehdr h b).
Proof. intros F. rewrite find_put by reflexivity. rewrite Z.eqb_refl, F. reflexivity. Qed.
Lemma find_put_other a c h l : c <> a -> find c (put a (rehdr h) l) = find c l.
Proof. intros F. rewrite find_put by reflexivity. destruct (Z.eqb_spec a c); congruence. Qed.

Lemma modify_retouched L m own a b h f : inv m own -> find a (heap m) = Some b -> b_hdr b = Some h ->
  h_next (f h) = h_next h -> h_type (f h) = h_type h -> h_limit (f h) = h_limit h -> 0 <= h_total (f h) < 18446744073709551616 ->
  exists m', modify L a f m = Ok m' /\ retouched m m' a b h (f h) /\ asked m' = asked m /\ num_free m' = num_free m.
Proof.
  intros I F E H1 H2 H3 H4. destruct (i_blk _ _ I _ _ F) as (A & B & C & _).
  eexists. split; [eapply modify_ok; eauto; lia|]. split; [|auto]. unfold retouched. cbn.
  split; [auto|]. split; [auto|]. split; [auto|]. split; [auto|]. split; [auto|].
  split; [apply find_put_same; auto|]. split; [intros; apply find_put_other; auto|]. auto.
Qed.

(** The size of the next chunk of an arena (arena.c 61-66). *)
Definition chunk_size (h : hdr) (n : Z) : Z := u64 (h_total h + s64 (align2 (u64 (HEADER + n + h_threshold h * 1024)))).

Lemma grow_ok L P m own a b h n : honest P -> inv m own -> In a (handles m) -> find a (heap m) = Some b -> b_hdr b = Some h ->
  (exists m', grow L P a n m = Ok (false, m') /\ inv m' own /\ handles m' = handles m /\ given m' = given m /\
     find a (heap m') = Some (rehdr (with_total (chunk_size h n) h) b) /\ (forall c, c <> a -> find c (heap m') = find c (heap m)) /\
     P (asked m) (heap (set_heap (put a (rehdr (with_total (chunk_size h n) h)) (heap m)) m)) (chunk_size h n) = 0) \/
  (chunk_size h n < 72 /\ grow L P a n m = Undef OobWrite) \/
  (exists m' p h1, grow L P a n m = Ok (true, m') /\ took m m' a p (chunk_size h n) b h h1 /\ p <> 0 /\ find p (heap m) = None /\ h_total h1 = chunk_size h n /\ h_threshold h1 = h_threshold h /\
     inv m' (fun c => if c =? p then a else own c)).
Proof.
  intros HP I Ha F E. pose proof (i_blk _ _ I _ _ F) as (A & B & C & D & D').
  set (cs := chunk_size h n). assert (Cs : 0 <= cs < 18446744073709551616) by (unfold cs, chunk_size, u64; lia).
  destruct (modify_retouched L m own a b h (with_total cs) I F E eq_refl eq_refl eq_refl Cs) as (m1 & E1 & R1 & K1 & K2).
  assert (M1 : m1 = set_heap (put a (rehdr (with_total cs h)) (heap m)) m).
  { erewrite modify_ok in E1 by (eauto; lia). injection E1 as E1. auto. }
  assert (I1 : inv m1 own) by (eapply inv_retouched; [exact I|exact R1|auto]).
  unfold grow. rewrite (i_free _ _ I). cbn [Z.eqb negb].
  erewrite load_ok by (eauto; lia). cbn [bind]. fold (chunk_size h n). fold cs. rewrite E1. cbn [bind].
  unfold raii_malloc. rewrite K1. pose proof (HP (asked m) (heap m1) cs ltac:(lia)) as HPs. set (p := P (asked m) (heap m1) cs) in *.
  destruct (Z.eqb_spec p 0) as [Z0|Z0].
  { left. eexists. split; [reflexivity|]. split; [|cbn].
    - eapply inv_heap; [| | | |exact I1]; reflexivity.
    - destruct R1 as (R1 & R2 & R3 & _ & _ & R4 & R5 & _). repeat (split; [assumption|]). subst m1. auto. }
  right. destruct HPs as [|(P1 & P2 & P3 & P4)]; [contradiction|].
  pose proof R1 as (R2 & R3 & R4 & _ & _ & R5 & R6 & _).
  assert (Pf : 72 <= cs -> find p (heap m) = None).
  { intros G. destruct (find p (heap m1)) as [x|] eqn:X; [|destruct (Z.eq_dec p a) as [Q|]; [congruence|rewrite R6 in X; auto]].
    destruct (find_addr _ _ _ X) as [X1 X2]. destruct (i_blk _ _ I1 _ _ X) as (? & X3 & ? & _). specialize (P4 x X2 X3). unfold apart in P4. lia. }
  assert (Pa : p <> a). { intros Q. destruct (find_addr _ _ _ R5) as [X1 X2]. specialize (P4 _ X2 B). unfold apart in P4. cbn in *. lia. }
  set (mm := Mem (heap m1) (free_list m1) (num_free m1) (Datatypes.S (asked m)) (handles m1) (given m1)).
  set (m2 := set_heap (Block p cs true None :: heap mm) mm).
  assert (F2 : find a (heap m2) = Some (rehdr (with_total cs h) b)). { cbn. replace (p =? a) with false by lia. exact R5. }
  assert (F2p : find p (heap m2) = Some (Block p cs true None)). { cbn. rewrite Z.eqb_refl. reflexivity. }
  assert (F2o : forall c, c <> p -> c <> a -> find c (heap m2) = find c (heap m)). { intros c ? ?. cbn. replace (p =? c) with false by lia. apply R6. auto. }
  set (h1 := if h_base h =? 0 then with_base p (with_total cs h) else with_total cs h).
  assert (B3 : exists m3, (if h_base h =? 0 then modify L a (with_base p) m2 else Ok m2) = Ok m3 /\ find a (heap m3) = Some (rehdr h1 b) /\
     find p (heap m3) = Some (Block p cs true None) /\ (forall c, c <> p -> c <> a -> find c (heap m3) = find c (heap m)) /\
     free_list m3 = free_list m /\ handles m3 = handles m /\ given m3 = given m).
  { unfold h1. destruct (h_base h =? 0); [|exists m2; repeat (split; [auto|]); auto].
    eexists. split; [eapply modify_ok; [| exact F2|auto|auto|reflexivity]; lia|].
    cbn [set_heap heap free_list handles given]. rewrite find_put_same with (b := rehdr (with_total cs h) b) by exact F2. split; [reflexivity|].
    rewrite find_put_other by auto. split; [exact F2p|]. split; [intros c ? ?; rewrite find_put_other by auto; auto|]. auto. }
  cbv beta iota. fold m2. replace (p =? 0) with false by lia. cbv beta iota.
  destruct B3 as (m3 & -> & G1 & G2 & G3 & G4 & G5 & G6). cbn [bind].
  replace (p =? 0) with false by lia. rewrite (u64_id (p + cs)) by lia.
  erewrite load_ok; [|lia|exact G1|auto|auto|reflexivity]. cbn [bind].
  destruct (Z.ltb_spec cs 72) as [Small|Big].
  { left. split; [auto|]. unfold store. destruct (Z.eqb_spec p 0); [contradiction|]. rewrite G2. cbn [b_live b_size negb orb]. change HDR_SIZE with 72.
    replace (cs <? 72) with true by lia. reflexivity. }
  right. erewrite store_ok; [|auto|exact G2|auto|cbn; lia]. cbn [bind].
  set (m4 := set_heap (put p (rehdr h1) (heap m3)) m3).
  assert (F4 : find a (heap m4) = Some (rehdr h1 b)) by (cbn; rewrite find_put_other by auto; auto).
  assert (F4p : find p (heap m4) = Some (Block p cs true (Some h1))) by (cbn; erewrite find_put_same by eauto; reflexivity).
  erewrite modify_ok; [|lia|exact F4|auto|auto|reflexivity]. cbn [bind].
  set (h5 := with_next p (with_limit (p + cs) (with_avail (u64 (p + HEADER)) h1))).
  set (m5 := set_heap (put a (rehdr h5) (heap m4)) m4).
  assert (F5 : find a (heap m5) = Some (rehdr h5 b)) by (cbn; erewrite find_put_same by eauto; reflexivity).
  assert (F5p : find p (heap m5) = Some (Block p cs true (Some h1))) by (cbn; rewrite find_put_other by auto; exact F4p).
  erewrite modify_ok; [|auto|exact F5p|auto|cbn;lia|reflexivity]. cbn [bind].
  set (m6 := set_heap (put p (rehdr (with_type RAII_ARENA h1)) (heap m5)) m5).
  assert (H1n : h_next h1 = h_next h /\ h_type h1 = h_type h /\ h_total h1 = cs /\ h_threshold h1 = h_threshold h) by (unfold h1; destruct (h_base h =? 0); auto).
  destruct H1n as (N1 & N2 & N3 & N4).
  assert (T : took m m6 a p cs b h h1).
  { unfold took. split; [exact G4|]. split; [exact G5|]. split; [exact G6|].
    split. { unfold m6. cbn [set_heap heap]. erewrite find_put_same by exact F5p. reflexivity. }
    split. { unfold m6. cbn [set_heap heap]. rewrite find_put_other by auto. rewrite F5. unfold h5, HEADER. rewrite u64_id by lia. reflexivity. }
    split. { intros c ? ?. unfold m6, m5, m4. cbn [set_heap heap]. rewrite !find_put_other by auto. auto. }
    auto. }
  exists m6, p, h1. split; [reflexivity|]. split; [exact T|]. split; [auto|]. split; [auto|]. split; [auto|]. split; [auto|].
  apply (inv_took m m6 own a p cs b h h1 I Ha F E T); [lia|lia|lia|lia|exact P3|].
  intros x Hx Lx. assert (exists y, In y (heap m1) /\ b_live y = true /\ b_addr y = b_addr x /\ b_size y = b_size x) as (y & Y1 & Y2 & <- & <-).
  { rewrite M1. cbn [set_heap heap]. clear - Hx Lx. induction (heap m) as [|z l IH]; [destruct Hx|]. cbn. destruct Hx as [->|Hx].
    - destruct (b_addr x =? a); [exists (rehdr (with_total cs h) x)|exists x]; cbn; auto.
    - destruct (b_addr z =? a); [exists x; cbn; auto|]. destruct (IH Hx) as (y & ? & ?). exists y. cbn. auto. }
  specialize (P4 _ Y1 Y2). unfold apart in *. lia.
Qed.

(** ** arena_alloc *)
Definition request (n : Z) : Z := s64 (align2 (u64 n)).
Lemma request_val n : 0 < n < 9223372036854775807 -> request n = 2 * ((n + 1) / 2) /\ n <= request n < 9223372036854775807 /\ request n mod 2 = 0.
Proof. intros H. unfold request. rewrite u64_id by lia. rewrite align2_val by lia. rewrite s64_id by lia. lia. Qed.

(** The structure of an arena. *)
Definition arena_hdr (m : mem) (a : Z) (b : block) (h : hdr) : Prop := find a (heap m) = Some b /\ b_hdr b = Some h.

Lemma grow_loop_ok L P a n fuel : honest P -> forall m own, inv m own -> In a (handles m) ->
  (exists m' own', grow_loop L P fuel a n m = Ok (false, m') /\ inv m' own' /\ handles m' = handles m /\ given m' = given m) \/
  grow_loop L P fuel a n m = Undef OobWrite \/ grow_loop L P fuel a n m = NoFuel \/
  (exists m' own' b h, grow_loop L P fuel a n m = Ok (true, m') /\ inv m' own' /\ handles m' = handles m /\ given m' = given m /\
     arena_hdr m' a b h /\ short_of h n = false).
Proof.
  intros HP. induction fuel as [|fuel IH]; intros m own I Ha;
  destruct (i_hdl _ _ I a Ha) as (_ & b & h & F & E & _); destruct (i_blk _ _ I _ _ F) as (A & B & C & _);
  cbn [grow_loop]; erewrite load_ok by (eauto; lia); cbn [bind]; destruct (short_of h n) eqn:S;
  try (right; right; right; exists m, own, b, h; unfold arena_hdr; solve [auto 12]).
  - right; right; left; reflexivity.
  - destruct (grow_ok L P m own a b h n HP I Ha F E) as [(m' & -> & I' & H1 & H2 & _)|[(_ & ->)|(m' & p & h1 & -> & T & _ & _ & _ & _ & I')]]; cbn [bind].
    + left. exists m', own. auto.
    + right; left; reflexivity.
    + pose proof T as (_ & T2 & T3 & _). specialize (IH m' _ I' ltac:(rewrite T2; auto)). rewrite T2, T3 in IH. exact IH.
Qed.

Lemma alloc_ok L P fuel m own a n : honest P -> inv m own -> In a (handles m) -> 0 < n < 9223372036854775807 ->
  (exists m' own', arena_alloc L P fuel a n m = Ok (0, m') /\ inv m' own' /\ handles m' = handles m /\ given m' = given m) \/
  (grow_loop L P fuel a (request n) m = Undef OobWrite /\ arena_alloc L P fuel a n m = Undef OobWrite) \/
  (grow_loop L P fuel a (request n) m = NoFuel /\ arena_alloc L P fuel a n m = NoFuel) \/
  (exists p m' own', arena_alloc L P fuel a n m = Ok (p, m') /\ 0 < p /\ inv m' own' /\ handles m' = handles m /\ given m' = (a, p, n) :: given m).
Proof.
  intros HP I Ha Hn. destruct (request_val n Hn) as (_ & R1 & R2).
  assert (Na : a <> 0). { destruct (i_hdl _ _ I a Ha) as (_ & x & ? & X & _). destruct (i_blk _ _ I _ _ X). lia. }
  unfold arena_alloc. destruct (Z.eqb_spec a 0); [contradiction|]. fold (request n).
  destruct (grow_loop_ok L P a (request n) fuel HP m own I Ha) as [(m' & own' & -> & I' & H1 & H2)|[->|[->|(m1 & own1 & b & h & -> & I1 & H1 & H2 & [F E] & S)]]]; cbn [bind negb]; auto.
  { left. exists m', own'. auto. }
  right. right. right.
  destruct (i_blk _ _ I1 _ _ F) as (A & B & C & _). rewrite <- H1 in Ha.
  pose proof (i_hdl _ _ I1 a Ha) as (Oa & b' & h' & F' & E' & Ct & Ctt & Cd). rewrite F in F'. injection F' as <-. rewrite E in E'. injection E' as <-.
  erewrite load_ok by (eauto; lia). cbn [bind].
  assert (Cd' : own1 (h_next h) = a /\ h_next h <> 0 /\ exists x, find (h_next h) (heap m1) = Some x /\ h_next h + 256 <= h_avail h /\ h_avail h mod 2 = 0 /\
      h_limit h = h_next h + b_size x /\ h_avail h + request n <= h_limit h).
  { destruct Cd as [(C1 & C2 & C3)|(C1 & C2 & x & C3 & C4 & C5 & C6 & C7)].
    - unfold short_of in S. rewrite C2, C3 in S. change (s64 (0 - 0)) with 0 in S. lia.
    - split; [auto|]. split; [auto|]. exists x. destruct (i_blk _ _ I1 _ _ C3) as (? & ? & ? & ? & _). unfold short_of in S.
      rewrite s64_id in S by lia. repeat split; auto. lia. }
  clear Cd. destruct Cd' as (C1 & C2 & x & C3 & C4 & C5 & C6 & C7). destruct (i_blk _ _ I1 _ _ C3) as (X1 & X2 & X3 & X4 & _).
  destruct (Z.eqb_spec (h_next h) 0); [contradiction|].
  destruct (i_chunk _ _ I1 (h_next h) ltac:(lia)) as (_ & x' & hx & Fx & Ex & Dx). rewrite C3 in Fx. injection Fx as <-.
  assert (Nn : h_next h <> a) by (intros Q; rewrite Q in C1; lia).
  assert (Nh : ~ In (h_next h) (handles m1)) by (intros Q; destruct (i_hdl _ _ I1 _ Q) as [Q1 _]; lia).
  assert (Thx : exists m2, modify L (h_next h) (with_bytes (h_bytes h)) m1 = Ok m2 /\ inv m2 own1 /\ handles m2 = handles m1 /\ given m2 = given m1 /\
     find a (heap m2) = Some b /\ (exists y, find (h_next h) (heap m2) = Some y /\ b_size y = b_size x)).
  { eexists. split; [eapply modify_ok; eauto|]. cbn [set_heap heap handles given].
    split; [|split; [auto|split; [auto|split; [rewrite find_put_other by auto; auto|eexists; split; [apply find_put_same; eauto|auto]]]]].
    (* the chunk's total is whatever was copied; only arenas' totals matter *)
    constructor; cbn [set_heap heap handles given free_list].
    - apply (i_free _ _ I1).
    - intros c y Y. destruct (Z.eq_dec c (h_next h)) as [->|]; [erewrite find_put_same in Y by eauto; injection Y as <-; cbn; apply (i_blk _ _ I1 _ _ C3)|].
      rewrite find_put_other in Y by auto. apply (i_blk _ _ I1 _ _ Y).
    - assert (G : forall c y, find c (put (h_next h) (rehdr (with_bytes (h_bytes h) hx)) (heap m1)) = Some y -> exists z, find c (heap m1) = Some z /\ b_size z = b_size y).
      { intros c y Y. destruct (Z.eq_dec c (h_next h)) as [->|]; [erewrite find_put_same in Y by eauto; injection Y as <-; eauto|]. rewrite find_put_other in Y by auto. eauto. }
      intros c d y z Y Z1 Q. destruct (G _ _ Y) as (y' & Y' & <-). destruct (G _ _ Z1) as (z' & Z' & <-). apply (i_apart _ _ I1 _ _ _ _ Y' Z' Q).
    - intros d Hd. destruct (i_hdl _ _ I1 d Hd) as (Od & bd & hd & Fd & Ed & D1 & D2 & D3). split; [auto|]. exists bd, hd.
      rewrite find_put_other by congruence. split; [auto|]. split; [auto|]. split; [auto|]. split; [auto|].
      destruct D3 as [?|(D3 & D4 & y & D5 & D6)]; [auto|]. right. split; [auto|]. split; [auto|]. cbn [set_heap heap].
      destruct (Z.eq_dec (h_next hd) (h_next h)) as [Q|]; [|exists y; rewrite find_put_other by auto; auto].
      rewrite Q in *. rewrite C3 in D5. injection D5 as <-. eexists. split; [apply find_put_same; eauto|]. exact D6.
    - intros c Hc. destruct (i_chunk _ _ I1 c Hc) as (Q1 & y & hy & Y & Ey & Dy). split; [auto|].
      destruct (Z.eq_dec c (h_next h)) as [->|]; [|exists y, hy; rewrite find_put_other by auto; auto].
      rewrite C3 in Y. injection Y as <-. rewrite Ex in Ey. injection Ey as <-. eexists _, _. split; [apply find_put_same; eauto|]. split; [reflexivity|]. exact Dy.
    - intros [[d q] k] Hg. destruct (i_given _ _ I1 _ Hg) as (Q1 & Q2 & Q3 & c & y & D1 & D2 & D3 & D4 & D5 & D6).
      split; [auto|]. split; [auto|]. split; [auto|].
      assert (OO : owned (set_heap (put (h_next h) (rehdr (with_bytes (h_bytes h) hx)) (heap m1)) m1) d c).
      { eapply owned_same; [|exact D2]. intros e y0 h0 Y0 E0. cbn [set_heap heap]. destruct (Z.eq_dec e (h_next h)) as [->|].
        - rewrite C3 in Y0. injection Y0 as <-. rewrite Ex in E0. injection E0 as <-. eexists _, _. split; [apply find_put_same; eauto|]. split; reflexivity.
        - rewrite find_put_other by auto. eauto. }
      destruct (Z.eq_dec c (h_next h)) as [->|].
      + rewrite C3 in D3. injection D3 as <-. exists (h_next h), (rehdr (with_bytes (h_bytes h) hx) x). split; [auto|]. split; [auto|].
        cbn [set_heap heap]. split; [apply find_put_same; auto|]. split; [auto|]. split; [auto|].
        intros bd hd Y. rewrite find_put_other in Y by congruence. eauto.
      + exists c, y. cbn [set_heap heap]. rewrite find_put_other by auto. split; [auto|]. split; [auto|]. split; [auto|]. split; [auto|]. split; [auto|].
        intros bd hd Y. rewrite find_put_other in Y by congruence. eauto.
    - apply (i_pairs _ _ I1). }
  destruct Thx as (m2 & -> & I2 & K1 & K2 & F2 & y & Y1 & Y2). cbn [bind].
  set (f := fun h : hdr => with_avail (u64 (h_avail h + request n)) (with_bytes (u64 (request n)) h)).
  destruct (modify_retouched L m2 own1 a b h f I2 F2 E eq_refl eq_refl eq_refl Ctt) as (m3 & -> & R3 & _). cbn [bind].
  destruct (Z.eqb_spec (h_avail h) 0); [lia|].
  assert (Av : h_avail (f h) = h_avail h + request n) by (cbn; rewrite u64_id by lia; reflexivity).
  assert (I3 : inv m3 own1). { eapply inv_retouched; [exact I2|exact R3|]. intros _. right. rewrite Av. split; [lia|]. split; [lia|auto]. }
  pose proof R3 as (L1 & L2 & L3 & _ & _ & L4 & L5 & _).
  exists (h_avail h), (note_given (a, h_avail h, n) m3), own1. split; [reflexivity|]. split; [lia|]. split; [|cbn; rewrite L2, L3, K1, K2, H1, H2; auto].
  assert (Own : owned m3 a (h_next h)). { eapply (owned_first m3 a _ (f h) L4); [reflexivity|cbn; auto]. }
  assert (Fy : find (h_next h) (heap m3) = Some y) by (rewrite L5 by auto; auto).
  assert (In3 : In a (handles m3)) by (rewrite L2, K1; auto).
  assert (OwnEq : forall d c, owned m3 d c -> owned (note_given (a, h_avail h, n) m3) d c) by (intros d c; apply owned_same; eauto).
  constructor; cbn [note_given heap handles given free_list].
  - apply (i_free _ _ I3).
  - apply (i_blk _ _ I3).
  - apply (i_apart _ _ I3).
  - apply (i_hdl _ _ I3).
  - apply (i_chunk _ _ I3).
  - intros g [<-|Hg].
    + split; [auto|]. split; [lia|]. split; [auto|]. exists (h_next h), y. split; [auto|]. split; [auto|]. split; [auto|]. split; [auto|]. split; [lia|].
      cbn [heap note_given]. intros b2 h2 X Y _. rewrite L4 in X. injection X as <-. injection Y as <-. rewrite Av. lia.
    + destruct g as [[d q] k]. destruct (i_given _ _ I3 _ Hg) as (Q1 & Q2 & Q3 & c & z & D1 & D2 & D3). split; [auto|]. split; [auto|]. split; [auto|]. exists c, z. auto.
  - constructor; [|apply (i_pairs _ _ I3)]. rewrite L3. apply Forall_forall. intros [[d q] k] Hg. unfold blocks_apart, apart. cbn [fst snd].
    destruct (i_given _ _ I2 _ Hg) as (Q1 & Q2 & Q3 & c & z & D1 & D2 & D3 & D4 & D5 & D6).
    destruct (Z.eq_dec c (h_next h)) as [Q|Q].
    + subst c. assert (X : d = a) by congruence. clear D1. subst d. right. specialize (D6 b h F2 E eq_refl). lia.
    + pose proof (i_apart _ _ I2 _ _ _ _ D3 Y1 Q) as AA. unfold apart in AA. lia.
Qed.

Lemma init_ok P t m own : honest P -> inv m own ->
  arena_init P t m = Panics \/
  exists a m', arena_init P t m = Ok (a, m') /\ 0 < a /\ inv m' own /\ handles m' = handles m ++ [a] /\ given m' = given m /\
    find a (heap m') = Some (Block a 72 true (Some (Hdr ARENA_TAG 0 0 0 0 (if t <=? 0 then 10 else t) 0 0))) /\
    (forall c, c <> a -> find c (heap m') = find c (heap m)) /\ ~ In a (handles m).
Proof.
  intros HP I. unfold arena_init, raii_malloc. change HDR_SIZE with 72. pose proof (HP (asked m) (heap m) 72 ltac:(lia)) as HPs.
  set (p := P (asked m) (heap m) 72) in *. destruct (Z.eqb_spec p 0) as [|Z0]; [left; reflexivity|].
  destruct HPs as [|(P1 & P2 & P3 & P4)]; [contradiction|]. replace (p =? 0) with false by lia.
  set (mm := Mem (heap m) (free_list m) (num_free m) (Datatypes.S (asked m)) (handles m) (given m)).
  set (m2 := set_heap (Block p 72 true None :: heap mm) mm). set (h := Hdr ARENA_TAG 0 0 0 0 (if t <=? 0 then 10 else t) 0 0).
  assert (F2 : find p (heap m2) = Some (Block p 72 true None)) by (cbn; rewrite Z.eqb_refl; reflexivity).
  erewrite store_ok; [|auto|exact F2|reflexivity|cbn; lia]. cbn [bind]. right. set (m3 := set_heap (put p (rehdr h) (heap m2)) m2).
  assert (F3 : find p (heap m3) = Some (Block p 72 true (Some h))) by (cbn; rewrite Z.eqb_refl; cbn; rewrite Z.eqb_refl; reflexivity).
  assert (F3o : forall c, c <> p -> find c (heap m3) = find c (heap m)).
  { intros c N. unfold m3. cbn [set_heap heap]. rewrite find_put_other by auto. cbn. replace (p =? c) with false by lia. reflexivity. }
  assert (Np : find p (heap m) = None).
  { destruct (find p (heap m)) as [x|] eqn:X; [|auto]. destruct (find_addr _ _ _ X) as [A B]. destruct (i_blk _ _ I _ _ X) as (? & C & ? & _).
    specialize (P4 x B C). unfold apart in P4. lia. }
  assert (Nh : ~ In p (handles m)). { intros Q. destruct (i_hdl _ _ I p Q) as (_ & ? & ? & ? & _). congruence. }
  assert (Op : own p = 0). { destruct (Z.eq_dec (own p) 0); auto. destruct (i_chunk _ _ I p) as (_ & ? & ? & ? & _); auto. congruence. }
  exists p, (note_handle p m3). split; [reflexivity|]. split; [lia|]. split; [|cbn [note_handle handles given heap]; auto].
  assert (OM : forall a c, owned m a c -> owned (note_handle p m3) a c).
  { intros a c. apply owned_same. intros d b0 h0 X Y. cbn [note_handle heap]. rewrite F3o by congruence. eauto. }
  constructor; cbn [note_handle handles given heap free_list].
  - apply (i_free _ _ I).
  - intros c x X. destruct (Z.eq_dec c p) as [->|]; [rewrite F3 in X; injection X as <-; cbn; repeat split; auto; lia|]. rewrite F3o in X by auto. apply (i_blk _ _ I _ _ X).
  - assert (AA : forall d y, find d (heap m) = Some y -> apart p 72 d (b_size y)).
    { intros d y Y. destruct (find_addr _ _ _ Y) as [<- B]. apply (P4 y B). apply (i_blk _ _ I _ _ Y). }
    intros c d x y X Y N. destruct (Z.eq_dec c p) as [->|]; [|destruct (Z.eq_dec d p) as [->|]].
    + rewrite F3 in X. injection X as <-. rewrite F3o in Y by auto. apply AA. auto.
    + rewrite F3 in Y. injection Y as <-. rewrite F3o in X by auto. specialize (AA _ _ X). unfold apart in *. cbn [b_size]. lia.
    + rewrite F3o in X, Y by auto. apply (i_apart _ _ I _ _ _ _ X Y N).
  - intros a Ha. apply in_app_or in Ha. destruct (Z.eq_dec a p) as [->|].
    + split; [auto|]. eexists _, h. split; [exact F3|]. split; [reflexivity|]. split; [reflexivity|]. split; [cbn; lia|]. left. auto.
    + destruct Ha as [Ha|[|[]]]; [|congruence]. destruct (i_hdl _ _ I a Ha) as (A & b & h0 & F & E & C1 & C2 & C3). split; [auto|]. exists b, h0. rewrite F3o by auto.
      split; [auto|]. split; [auto|]. split; [auto|]. split; [auto|]. destruct C3 as [|(C3 & C4 & x & C5 & C6)]; [auto|]. right. split; [auto|]. split; [auto|]. exists x.
      cbn [note_handle heap]. rewrite F3o by congruence. auto.
  - intros c Hc. destruct (i_chunk _ _ I c Hc) as (A & b & h0 & F & E & D). split; [apply in_or_app; auto|]. exists b, h0. rewrite F3o by congruence. auto.
  - intros [[a q] n] Hg. destruct (i_given _ _ I _ Hg) as (A & B & C & c & x & D1 & D2 & D3 & D4 & D5 & D6).
    split; [cbn; apply in_or_app; auto|]. split; [auto|]. split; [auto|]. exists c, x. split; [auto|]. split; [apply OM; auto|]. cbn [note_handle heap].
    split; [rewrite F3o by congruence; auto|]. split; [auto|]. split; [auto|]. intros b h0 X. rewrite F3o in X by congruence. eauto.
  - apply (i_pairs _ _ I).
Qed.

(** Histories of arena_init and arena_alloc calls. *)
Definition alloc_only (o : aop) : Prop :=
  match o with AInit _ => True | AAlloc _ n => 0 < n < 9223372036854775807 | _ => False end.

Lemma inv_start : inv arena_start (fun _ => 0).
Proof. constructor; cbn; intros; try contradiction; try discriminate; auto. constructor. Qed.

Lemma run_ok L P fuel l : honest P -> Forall alloc_only l -> forall m own, inv m own -> forall m', arena_run L P fuel l m = Ok m' ->
  exists own', inv m' own'.
Proof.
  intros HP. induction 1 as [|o l Ho Hl IH]; intros m own I m' R; cbn [arena_run] in R.
  - injection R as <-. eauto.
  - destruct o as [t|k n|k|k]; try contradiction; cbn [arena_step] in R.
    + destruct (init_ok P t m own HP I) as [X|(a & m1 & X & _ & I1 & _)]; rewrite X in R; cbn [bind] in R; [discriminate|]. eauto.
    + destruct (in_dec Z.eq_dec (nth k (handles m) 0) (handles m)) as [Ha|Na].
      * destruct (alloc_ok L P fuel m own _ n HP I Ha Ho) as [(m1 & own1 & X & I1 & _)|[(_ & X)|[(_ & X)|(p & m1 & own1 & X & _ & I1 & _)]]];
        rewrite X in R; cbn [bind] in R; try discriminate; eauto.
      * rewrite nth_overflow in R. { cbn in R. discriminate. }
        destruct (Nat.le_gt_cases (length (handles m)) k); auto. destruct Na. apply nth_In. auto.
Qed.

(** ** definedness when the arithmetic does not wrap *)
Definition bounded (m : mem) (T B : Z) : Prop := forall a b h, In a (handles m) -> find a (heap m) = Some b -> b_hdr b = Some h ->
  0 < h_threshold h <= T /\ 0 <= h_total h <= B.

Lemma modify_inv L a f m m' : modify L a f m = Ok m' -> exists b h, find a (heap m) = Some b /\ b_hdr b = Some h /\ m' = set_heap (put a (rehdr (f h)) (heap m)) m.
Proof.
  unfold modify, load, store. destruct (a =? 0); [discriminate|]. destruct (find a (heap m)) as [b|]; [|discriminate]. destruct (negb (b_live b || L)); [discriminate|].
  destruct (b_size b <? HDR_SIZE); [discriminate|]. destruct (b_hdr b) as [h|] eqn:E; [|discriminate]. cbn [bind]. intros X. injection X as <-. eauto.
Qed.
Lemma modify_bounded L a f m m' T B : (forall h, h_threshold (f h) = h_threshold h /\ h_total (f h) = h_total h) -> modify L a f m = Ok m' ->
  bounded m T B -> bounded m' T B.
Proof.
  intros Hf M Bd. destruct (modify_inv _ _ _ _ _ M) as (b & h & F & E & ->). intros c x y. cbn [set_heap handles heap]. intros Hc X Y.
  destruct (Z.eq_dec c a) as [->|]; [|rewrite find_put_other in X by auto; eauto].
  rewrite (find_put_same _ _ _ _ F) in X. injection X as <-. injection Y as <-. destruct (Hf h) as [-> ->]. eauto.
Qed.

Definition cost (T n : Z) : Z := 260 + n + T * 1024.
Lemma chunk_size_val h n T B : 0 < h_threshold h <= T -> 0 <= h_total h <= B -> 0 < n -> B + cost T n < 9223372036854775808 ->
  chunk_size h n <= B + cost T n /\ 256 + n <= chunk_size h n.
Proof.
  intros H1 H2 H3 H4. unfold cost in *. unfold chunk_size, HEADER. rewrite (u64_id (256 + n + h_threshold h * 1024)) by lia.
  rewrite align2_val by lia. rewrite s64_id by lia. rewrite u64_id by lia. lia.
Qed.

Lemma grow_loop_defined L P a n fuel m own T B : honest P -> inv m own -> In a (handles m) -> bounded m T B -> 0 < n -> B + cost T n < 9223372036854775808 ->
  exists go m', grow_loop L P (Datatypes.S fuel) a n m = Ok (go, m') /\ bounded m' T (B + cost T n).
Proof.
  intros HP I Ha Bd Hn Hc. destruct (i_hdl _ _ I a Ha) as (_ & b & h & F & E & _). destruct (i_blk _ _ I _ _ F) as (A & A1 & A2 & _).
  destruct (Bd _ _ _ Ha F E) as [B1 B2].
  assert (Bigger : bounded m T (B + cost T n)). { intros c x y Hx X Y. destruct (Bd _ _ _ Hx X Y). unfold cost in *. lia. }
  cbn [grow_loop]. erewrite load_ok by (eauto; lia). cbn [bind]. destruct (short_of h n); [|eauto].
  destruct (chunk_size_val h n T B B1 B2 Hn Hc) as [S1 S2].
  destruct (grow_ok L P m own a b h n HP I Ha F E) as [(m' & -> & I' & H1 & H2 & H3 & H4 & _)|[(X & _)|(m' & p & h1 & -> & Tk & P0 & _ & Q1 & Q2 & I')]]; [| lia|]; cbn [bind].
  - exists false, m'. split; [reflexivity|]. intros c x y Hx X Y. rewrite H1 in Hx. destruct (Z.eq_dec c a) as [->|].
    + rewrite H3 in X. injection X as <-. injection Y as <-. cbn. lia.
    + rewrite H4 in X by auto. eauto.
  - assert (Bd' : bounded m' T (B + cost T n)).
    { pose proof Tk as (T1 & T2 & T3 & T4 & T5 & T6 & T7 & T8). intros c x y Hx X Y. rewrite T2 in Hx.
      destruct (Z.eq_dec c a) as [->|]; [rewrite T5 in X; injection X as <-; injection Y as <-; cbn; lia|].
      destruct (Z.eq_dec c p) as [->|]; [|rewrite T6 in X by auto; eauto].
      destruct (i_hdl _ _ I' p ltac:(rewrite T2; auto)) as [Q _]. rewrite Z.eqb_refl in Q. lia. }
    destruct Tk as (T1 & T2 & T3 & T4 & T5 & T6 & T7 & T8). destruct (i_blk _ _ I' _ _ T5) as (_ & U1 & U2 & _). destruct (i_blk _ _ I' _ _ T4) as (V0 & _ & _ & V & _). cbn in V.
    assert (G : grow_loop L P fuel a n m' = Ok (true, m')).
    { destruct fuel; cbn [grow_loop]; (erewrite load_ok; [|lia|exact T5|exact U1|exact U2|reflexivity]); cbn [bind];
      unfold short_of; cbn [h_limit h_avail with_next with_limit with_avail]; rewrite s64_id by lia; replace (p + chunk_size h n - (p + 256) <? n) with false by lia; reflexivity. }
    rewrite G. eauto.
Qed.

Lemma alloc_defined L P fuel m own a n T B : honest P -> inv m own -> In a (handles m) -> bounded m T B -> 0 < n < 9223372036854775807 -> B + cost T (n + 1) < 9223372036854775808 ->
  exists p m' own', arena_alloc L P (Datatypes.S fuel) a n m = Ok (p, m') /\ inv m' own' /\ handles m' = handles m /\ bounded m' T (B + cost T (n + 1)).
Proof.
  intros HP I Ha Bd Hn Hc. destruct (request_val n Hn) as (R0 & R1 & R2).
  assert (Hr : request n <= n + 1) by lia.
  destruct (grow_loop_defined L P a (request n) fuel m own T B HP I Ha Bd ltac:(lia) ltac:(unfold cost in *; lia)) as (go & m1 & G & Bd1).
  assert (Bd1' : bounded m1 T (B + cost T (n + 1))). { intros c x y Hx X Y. destruct (Bd1 _ _ _ Hx X Y). unfold cost in *. lia. }
  assert (Bd2 : forall p m', arena_alloc L P (Datatypes.S fuel) a n m = Ok (p, m') -> bounded m' T (B + cost T (n + 1))).
  { intros p m'. unfold arena_alloc. destruct (a =? 0); [discriminate|]. fold (request n). rewrite G. cbn [bind]. destruct go; cbn [negb].
    2:{ intros X. injection X as _ <-. auto. }
    destruct (load L a m1) as [h| | |]; cbn [bind]; try discriminate.
    assert (K : forall m2, (if h_next h =? 0 then Ok m1 else modify L (h_next h) (with_bytes (h_bytes h)) m1) = Ok m2 -> bounded m2 T (B + cost T (n + 1))).
    { destruct (h_next h =? 0); intros m2 X; [injection X as <-; auto|]. eapply modify_bounded; [|exact X|auto]. auto. }
    destruct (if h_next h =? 0 then Ok m1 else modify L (h_next h) (with_bytes (h_bytes h)) m1) as [m2| | |]; cbn [bind]; try discriminate.
    specialize (K m2 eq_refl). set (f := fun h0 : hdr => with_avail (u64 (h_avail h0 + request n)) (with_bytes (u64 (request n)) h0)).
    destruct (modify L a f m2) as [m3| | |] eqn:M; cbn [bind]; try discriminate. intros X. injection X as _ <-.
    assert (K3 : bounded m3 T (B + cost T (n + 1))). { eapply modify_bounded; [|exact M|auto]. auto. }
    destruct (h_avail h =? 0); auto. }
  destruct (alloc_ok L P (Datatypes.S fuel) m own a n HP I Ha Hn) as [(m' & own' & X & I' & H1 & H2)|[(X & _)|[(X & _)|(p & m' & own' & X & _ & I' & H1 & _)]]]; try congruence.
  - exists 0, m', own'. eauto.
  - exists p, m', own'. eauto.
Qed.

(** The largest threshold and the memory a history can ask for. *)
Fixpoint max_threshold (l : list aop) : Z :=
  match l with [] => 10 | AInit t :: l' => Z.max t (max_threshold l') | _ :: l' => max_threshold l' end.
Fixpoint total_cost (T : Z) (l : list aop) : Z :=
  match l with [] => 0 | AAlloc _ n :: l' => cost T (n + 1) + total_cost T l' | _ :: l' => total_cost T l' end.

Lemma total_cost_pos T l : 0 <= T -> Forall alloc_only l -> 0 <= total_cost T l.
Proof. intros HT. induction 1 as [|o l Ho Hl IH]; cbn; [lia|]. destruct o; cbn in Ho; auto. unfold cost. lia. Qed.

Lemma run_defined L P fuel l T : honest P -> Forall alloc_only l -> 10 <= T -> max_threshold l <= T -> forall m own B, inv m own -> bounded m T B -> 0 <= B ->
  B + total_cost T l < 9223372036854775808 ->
  arena_run L P (Datatypes.S fuel) l m = Panics \/ exists m', arena_run L P (Datatypes.S fuel) l m = Ok m'.
Proof.
  intros HP Hl HT. induction Hl as [|o l Ho Hl IH]; intros MT m own B I Bd HB HC; cbn [arena_run]; [eauto|].
  pose proof (total_cost_pos T l ltac:(lia) Hl) as Pos.
  destruct o as [t|k n|k|k]; try contradiction; cbn [arena_step max_threshold total_cost] in *.
  - destruct (init_ok P t m own HP I) as [->|(a & m1 & -> & A & I1 & H1 & H2 & H3 & H4 & H5)]; cbn [bind]; [auto|].
    eapply (IH ltac:(lia) m1 own B I1); auto. intros c x y Hx X Y. destruct (Z.eq_dec c a) as [->|].
    + rewrite H3 in X. injection X as <-. injection Y as <-. cbn. destruct (t <=? 0) eqn:Q; lia.
    + rewrite H4 in X by auto. rewrite H1 in Hx. apply in_app_or in Hx. destruct Hx as [Hx|[|[]]]; [eauto|congruence].
  - destruct (in_dec Z.eq_dec (nth k (handles m) 0) (handles m)) as [Ha|Na].
    + destruct (alloc_defined L P fuel m own _ n T B HP I Ha Bd Ho ltac:(lia)) as (p & m1 & own1 & -> & I1 & _ & Bd1). cbn [bind].
      eapply (IH ltac:(lia) m1 own1 (B + cost T (n + 1)) I1 Bd1); auto; cbn in Ho; unfold cost in *; lia.
    + left. rewrite nth_overflow; [reflexivity|]. destruct (Nat.le_gt_cases (length (handles m)) k); auto. destruct Na. apply nth_In. auto.
Qed.
