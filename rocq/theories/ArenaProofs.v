(** Proofs about arenas used only through arena_init and arena_alloc. *)
From Verif Require Import Base BaseLemmas SpecArena.

Lemma find_addr a l b : find a l = Some b -> b_addr b = a /\ In b l.
Proof.
  induction l as [|x l IH]; cbn; [discriminate|]. destruct (Z.eqb_spec (b_addr x) a); intros H.
  - injection H as ->. auto.
  - destruct (IH H). auto.
Qed.
Lemma find_put a c f l : (forall b, b_addr (f b) = b_addr b) ->
  find c (put a f l) = if a =? c then option_map f (find c l) else find c l.
Proof.
  intros Hf. induction l as [|x l IH]; cbn; [destruct (a =? c); reflexivity|].
  destruct (Z.eqb_spec (b_addr x) a); cbn; rewrite ?Hf; destruct (Z.eqb_spec (b_addr x) c), (Z.eqb_spec a c); subst; try congruence; auto;
  rewrite IH; destruct (Z.eqb_spec a c); try congruence; reflexivity.
Qed.

Definition rehdr (h : hdr) (b : block) : block := Block (b_addr b) (b_size b) (b_live b) (Some h).
Lemma load_ok L a m b h : a <> 0 -> find a (heap m) = Some b -> b_live b = true -> 72 <= b_size b -> b_hdr b = Some h -> load L a m = Ok h.
Proof.
  intros H1 H2 H3 H4 H5. unfold load. destruct (Z.eqb_spec a 0); [contradiction|]. rewrite H2, H3. cbn [negb orb].
  change HDR_SIZE with 72. replace (b_size b <? 72) with false by lia. rewrite H5. reflexivity.
Qed.
Lemma store_ok L a m b h : a <> 0 -> find a (heap m) = Some b -> b_live b = true -> 72 <= b_size b ->
  store L a h m = Ok (set_heap (put a (rehdr h) (heap m)) m).
Proof.
  intros H1 H2 H3 H4. unfold store. destruct (Z.eqb_spec a 0); [contradiction|]. rewrite H2, H3. cbn [negb orb].
  change HDR_SIZE with 72. replace (b_size b <? 72) with false by lia. reflexivity.
Qed.
Lemma modify_ok L a m b h f : a <> 0 -> find a (heap m) = Some b -> b_live b = true -> 72 <= b_size b -> b_hdr b = Some h ->
  modify L a f m = Ok (set_heap (put a (rehdr (f h)) (heap m)) m).
Proof. intros. unfold modify. erewrite load_ok by eauto. cbn [bind]. eapply store_ok; eauto. Qed.

Lemma align2_val x : 0 <= x < 18446744073709551615 -> align2 x = 2 * ((x + 1) / 2).
Proof.
  intros H. unfold align2. rewrite u64_id by lia.
  replace 18446744073709551614 with (Z.ldiff 18446744073709551615 1) by reflexivity.
  apply Z.bits_inj'. intros n Hn. rewrite Z.land_spec, Z.ldiff_spec.
  change 18446744073709551615 with (Z.ones 64). change 1 with (Z.ones 1) at 2.
  rewrite !Z.testbit_ones_nonneg by lia.
  replace (2 * ((x + 1) / 2)) with (Z.shiftl (Z.shiftr (x + 1) 1) 1) by (rewrite Z.shiftl_mul_pow2, Z.shiftr_div_pow2 by lia; lia).
  destruct (Z.eq_dec n 0) as [->|]. { rewrite Z.shiftl_spec_low by lia. cbn. apply andb_false_r. }
  rewrite Z.shiftl_spec, Z.shiftr_spec by lia. replace (n - 1 + 1) with n by lia.
  replace (n <? 1) with false by lia. cbn [negb]. rewrite andb_true_r.
  destruct (Z.ltb_spec n 64) as [|G]; [apply andb_true_r|]. rewrite andb_false_r. symmetry.
  rewrite Z.testbit_eqb by lia. rewrite Z.div_small; [reflexivity|].
  split; [lia|]. apply Z.lt_le_trans with (2 ^ 64); [lia|]. apply Z.pow_le_mono_r; lia.
Qed.
Lemma align2_range x : 0 <= align2 x < 18446744073709551616 /\ align2 x mod 2 = 0.
Proof.
  destruct (Z.eq_dec (u64 (x + 1)) 0) as [E|E]. { unfold align2. rewrite E. cbn. lia. }
  assert (0 <= u64 (x + 1) < 18446744073709551616) by (unfold u64; lia).
  assert (align2 x = align2 (u64 (x + 1) - 1)) as ->. { unfold align2. f_equal. rewrite (u64_id (u64 (x+1) - 1 + 1)) by lia. lia. }
  rewrite align2_val by lia. lia.
Qed.

(** ** the invariant *)
Definition cursor (m : mem) (own : Z -> Z) (a : Z) (h : hdr) : Prop :=
  h_type h = ARENA_TAG /\ 0 <= h_total h < 18446744073709551616 /\
  ((h_next h = 0 /\ h_avail h = 0 /\ h_limit h = 0) \/
   (own (h_next h) = a /\ h_next h <> 0 /\ exists x, find (h_next h) (heap m) = Some x /\ h_next h + 256 <= h_avail h /\ h_avail h mod 2 = 0 /\
      h_limit h = h_next h + b_size x /\ (h_avail h <= h_next h + 256 \/ h_avail h <= h_limit h))).
Definition placed (m : mem) (own : Z -> Z) (g : Z * Z * Z) : Prop :=
  let '(a, p, n) := g in
  In a (handles m) /\ 0 < n /\ p mod 2 = 0 /\
  exists c x, own c = a /\ owned m a c /\ find c (heap m) = Some x /\ c + 256 <= p /\ p + n <= c + b_size x /\
    (forall b h, find a (heap m) = Some b -> b_hdr b = Some h -> h_next h = c -> p + n <= h_avail h).
Record inv (m : mem) (own : Z -> Z) : Prop := {
  i_free : free_list m = 0;
  i_blk : forall a b, find a (heap m) = Some b -> 0 < a /\ b_live b = true /\ 72 <= b_size b /\ a + b_size b < 9223372036854775808 /\ a mod 16 = 0;
  i_apart : forall a b x y, find a (heap m) = Some x -> find b (heap m) = Some y -> a <> b -> apart a (b_size x) b (b_size y);
  i_hdl : forall a, In a (handles m) -> own a = 0 /\ exists b h, find a (heap m) = Some b /\ b_hdr b = Some h /\ cursor m own a h;
  i_chunk : forall c, own c <> 0 -> In (own c) (handles m) /\ exists b h, find c (heap m) = Some b /\ b_hdr b = Some h /\ (h_next h = 0 \/ own (h_next h) = own c);
  i_given : forall g, In g (given m) -> placed m own g;
  i_pairs : ForallOrdPairs blocks_apart (given m) }.

Lemma owned_own m own a c : inv m own -> In a (handles m) -> owned m a c -> own c = a.
Proof.
  intros I Ha. induction 1 as [b h F E N|c b h O IH F E N].
  - destruct (i_hdl _ _ I a Ha) as (_ & b' & h' & F' & E' & _ & _ & D). rewrite F in F'. injection F' as <-. rewrite E in E'. injection E' as <-.
    destruct D as [[? _]|[? _]]; [contradiction|auto].
  - assert (Ha0 : 0 < a). { destruct (i_hdl _ _ I a Ha) as (_ & b' & h' & F' & _). destruct (i_blk _ _ I _ _ F'). auto. }
    destruct (i_chunk _ _ I c ltac:(lia)) as (_ & b' & h' & F' & E' & D). rewrite F in F'. injection F' as <-. rewrite E in E'. injection E' as <-.
    destruct D; [contradiction|congruence].
Qed.

(** A memory in which arena [a] has taken the new chunk [p]. *)
Definition took (m m' : mem) (a p size : Z) (b : block) (h h1 : hdr) : Prop :=
  free_list m' = free_list m /\ handles m' = handles m /\ given m' = given m /\
  find p (heap m') = Some (Block p size true (Some (with_type RAII_ARENA h1))) /\
  find a (heap m') = Some (rehdr (with_next p (with_limit (p + size) (with_avail (p + 256) h1))) b) /\
  (forall c, c <> p -> c <> a -> find c (heap m') = find c (heap m)) /\
  h_next h1 = h_next h /\ h_type h1 = h_type h.

Lemma owned_mono m m' a a0 p size b h h1 own : inv m own -> In a (handles m) -> In a0 (handles m) ->
  find a (heap m) = Some b -> b_hdr b = Some h -> find p (heap m) = None -> p <> 0 -> took m m' a p size b h h1 ->
  forall c, owned m a0 c -> owned m' a0 c.
Proof.
  intros I Ha Ha0 F E Np P0 (T1 & T2 & T3 & T4 & T5 & T6 & T7 & T8).
  assert (O1 : owned m' a p). { change p with (h_next (with_next p (with_limit (p + size) (with_avail (p + 256) h1)))). eapply owned_first; [exact T5|reflexivity|cbn; auto]. }
  assert (Pa : p <> a) by congruence.
  induction 1 as [b' h' F' E' N'|c b' h' O IH F' E' N'].
  - destruct (Z.eq_dec a0 a) as [->|].
    + rewrite F in F'. injection F' as <-. rewrite E in E'. injection E' as <-. rewrite <- T7.
      change (h_next h1) with (h_next (with_type RAII_ARENA h1)). eapply owned_next; [exact O1|exact T4|reflexivity|cbn; congruence].
    + assert (a0 <> p) by congruence. eapply owned_first; [rewrite T6 by auto; exact F'|exact E'|auto].
  - assert (c <> p) by congruence. assert (c <> a).
    { intros ->. pose proof (owned_own _ _ _ _ I Ha0 O) as X. destruct (i_hdl _ _ I a Ha) as [Y _].
      destruct (i_hdl _ _ I a0 Ha0) as (_ & b2 & ? & F2 & _). destruct (i_blk _ _ I _ _ F2). lia. }
    eapply owned_next; [exact IH|rewrite T6 by auto; exact F'|exact E'|auto].
Qed.

Lemma inv_took m m' own a p size b h h1 : inv m own -> In a (handles m) ->
  find a (heap m) = Some b -> b_hdr b = Some h -> took m m' a p size b h h1 -> 0 <= h_total h1 < 18446744073709551616 ->
  72 <= size -> 0 < p -> p + size < 9223372036854775808 -> p mod 16 = 0 ->
  (forall x, In x (heap m) -> b_live x = true -> apart p size (b_addr x) (b_size x)) ->
  inv m' (fun c => if c =? p then a else own c).
Proof.
  intros I Ha F E T Ht S P0 P1 P2 Ap.
  assert (Np : find p (heap m) = None).
  { destruct (find p (heap m)) as [x|] eqn:X; [|auto]. destruct (find_addr _ _ _ X) as [A B]. destruct (i_blk _ _ I _ _ X) as (? & C & ? & _).
    specialize (Ap x B C). unfold apart in Ap. lia. }
  assert (Pa : p <> a) by congruence.
  destruct (i_blk _ _ I _ _ F) as (Fa & Fl & Fs & Fe & Fm).
  pose proof (i_hdl _ _ I a Ha) as (Oa & b0 & h0 & F0 & E0 & C0). rewrite F in F0. injection F0 as <-. rewrite E in E0. injection E0 as <-.
  pose proof (owned_mono m m' a) as OM. specialize (fun a0 H => OM a0 p size b h h1 own I Ha H F E Np ltac:(lia) T).
  destruct T as (T1 & T2 & T3 & T4 & T5 & T6 & T7 & T8).
  assert (Apf : forall c x, find c (heap m) = Some x -> apart p size c (b_size x)).
  { intros c x X. destruct (find_addr _ _ _ X) as [<- B]. apply Ap; auto. apply (i_blk _ _ I _ _ X). }
  assert (H0 : In 0 (handles m) -> False). { intros X. destruct (i_hdl _ _ I 0 X) as (_ & x & ? & Y & _). destruct (i_blk _ _ I _ _ Y). lia. }
  assert (Op : own p = 0). { destruct (Z.eq_dec (own p) 0); auto. destruct (i_chunk _ _ I p) as (_ & x & ? & X & _); auto. congruence. }
  constructor.
  - rewrite T1. apply (i_free _ _ I).
  - intros c x X. destruct (Z.eq_dec c p) as [->|]; [rewrite T4 in X; injection X as <-; cbn; repeat split; auto; lia|].
    destruct (Z.eq_dec c a) as [->|]; [rewrite T5 in X; injection X as <-; cbn; repeat split; auto|].
    rewrite T6 in X by auto. apply (i_blk _ _ I _ _ X).
  - assert (G : forall c x, c <> p -> find c (heap m') = Some x -> exists y, find c (heap m) = Some y /\ b_size y = b_size x).
    { intros c x N X. destruct (Z.eq_dec c a) as [->|]; [rewrite T5 in X; injection X as <-; exists b; auto|]. rewrite T6 in X by auto. eauto. }
    intros c d x y X Y N. destruct (Z.eq_dec c p) as [->|]; [|destruct (Z.eq_dec d p) as [->|]].
    + destruct (G d y ltac:(auto) Y) as (y' & Y' & <-). rewrite T4 in X. injection X as <-. cbn. auto.
    + destruct (G c x ltac:(auto) X) as (x' & X' & <-). rewrite T4 in Y. injection Y as <-. cbn. specialize (Apf _ _ X'). unfold apart in *. lia.
    + destruct (G c x ltac:(auto) X) as (x' & X' & <-). destruct (G d y ltac:(auto) Y) as (y' & Y' & <-). apply (i_apart _ _ I _ _ _ _ X' Y' N).
  - rewrite T2. intros d Hd. destruct (i_hdl _ _ I d Hd) as (Od & bd & hd & Fd & Ed & Ct & Ctt & Cd).
    assert (d <> p) by congruence. replace (d =? p) with false by lia. split; [auto|].
    destruct (Z.eq_dec d a) as [->|].
    + eexists _, _. split; [exact T5|]. split; [reflexivity|]. split; [cbn; rewrite T8; apply C0|]. split; [cbn; auto|]. right. cbn.
      rewrite Z.eqb_refl. split; auto. split; [lia|]. eexists. split; [exact T4|]. cbn. lia.
    + exists bd, hd. rewrite T6 by auto. split; [auto|]. split; [auto|]. split; [auto|]. split; [auto|].
      destruct Cd as [?|(C1 & C2 & x & C3 & C4)]; [auto|]. right. assert (h_next hd <> p) by congruence. replace (h_next hd =? p) with false by lia.
      split; [auto|]. split; [auto|]. exists x. split; auto. rewrite T6; auto. intros X. rewrite X, Oa in C1. destruct (i_blk _ _ I _ _ Fd). lia.
  - intros c. destruct (Z.eqb_spec c p) as [->|].
    + intros _. rewrite T2. split; [auto|]. eexists _, _. split; [exact T4|]. split; [reflexivity|]. cbn. rewrite T7.
      destruct (proj2 (proj2 C0)) as [[? _]|(X & Y & _)]; [auto|]. right. destruct (Z.eqb_spec (h_next h) p); auto.
    + intros N. rewrite T2. destruct (i_chunk _ _ I c N) as (A & x & hx & X & Ex & D). split; [auto|].
      assert (c <> a) by congruence. exists x, hx. rewrite T6 by auto. split; [auto|]. split; [auto|]. destruct D as [|D]; [auto|].
      right. destruct (Z.eqb_spec (h_next hx) p) as [Y|]; auto. rewrite Y, Op in D. congruence.
  - rewrite T3. intros [[d q] n] Hg. destruct (i_given _ _ I _ Hg) as (A & B & C & c & x & D1 & D2 & D3 & D4 & D5 & D6).
    assert (c <> p) by congruence. assert (c <> a) by (intros ->; rewrite Oa in D1; subst; auto).
    split; [rewrite T2; auto|]. split; [auto|]. split; [auto|]. exists c, x. replace (c =? p) with false by lia. split; [auto|].
    split; [apply OM; auto|]. rewrite T6 by auto. split; [auto|]. split; [auto|]. split; [auto|].
    intros bd hd X Y Z1. destruct (Z.eq_dec d a) as [->|]; [rewrite T5 in X; injection X as <-; injection Y as <-; cbn in Z1; congruence|].
    rewrite T6 in X; [eauto|intros ->|auto]. destruct (i_hdl _ _ I p A) as (_ & ? & ? & ? & _). congruence.
  - rewrite T3. apply (i_pairs _ _ I).
Qed.
