(** Scopes backed by an arena: C81, C82. *)
From Verif Require Import Base BaseLemmas SpecArena ArenaProofs ArenaAlloc ArenaFree PropArena ScopeArenaModel.
From Verif Require DeferModel SpecDefer DeferProofs DeferCancel PropDefer.

(** ** specification vocabulary *)
(** What a history defers, oldest first, as (func, data, check). *)
Fixpoint owes (l : list sop) : list (Z * Z * Z) :=
  match l with [] => [] | Owe f d c :: l' => (f, d, c) :: owes l' | _ :: l' => owes l' end.
(** The blocks a history obtained from the scope, as (address, size), oldest first. *)
Fixpoint spans (l : list sop) (ps : list Z) : list (Z * Z) :=
  match l, ps with
  | Take n :: l', p :: ps' => if p =? 0 then spans l' ps' else (p, n) :: spans l' ps'
  | Clear c n :: l', p :: ps' => if p =? 0 then spans l' ps' else (p, c * n) :: spans l' ps'
  | _ :: l', _ :: ps' => spans l' ps'
  | _, _ => []
  end.
(** Sizes that are positive and below 2^63 - 1; other arenas are only created and allocated from. *)
Definition reasonable (o : sop) : Prop :=
  match o with
  | Take n => 0 < n < 9223372036854775807
  | Clear c n => 0 < c /\ 0 < n /\ c * n < 9223372036854775807
  | Owe _ _ _ => True
  | Elsewhere o => alloc_only o /\ small_threshold o
  end.

(** ** sublists *)
Inductive sub {A} : list A -> list A -> Prop :=
| sub_nil : sub [] []
| sub_keep x l l' : sub l l' -> sub (x :: l) (x :: l')
| sub_skip x l l' : sub l l' -> sub l (x :: l').
Lemma sub_refl {A} (l : list A) : sub l l.
Proof. induction l; constructor; auto. Qed.
Lemma sub_none {A} (l : list A) : sub [] l.
Proof. induction l; constructor; auto. Qed.
Lemma sub_in {A} (l l' : list A) : sub l l' -> forall x, In x l -> In x l'.
Proof. induction 1; cbn; intros y H1; auto. destruct H1; auto. Qed.
Lemma sub_app {A} (a b c d : list A) : sub a b -> sub c d -> sub (a ++ c) (b ++ d).
Proof. induction 1; cbn; intros; auto; constructor; auto. Qed.
Lemma sub_pairs {A} R (l l' : list A) : sub l l' -> ForallOrdPairs R l' -> ForallOrdPairs R l.
Proof.
  induction 1; intros F; inversion F; subst; auto; constructor; auto.
  rewrite Forall_forall in *. intros y Hy. apply H2. eapply sub_in; eauto.
Qed.

(** ** the two halves of a history *)
Lemma s64_small n : 0 <= n < 9223372036854775808 -> s64 n = n.
Proof. intros. apply s64_id. lia. Qed.
Lemma set_body_same s : set_body (body s) s = s.
Proof. destruct s; reflexivity. Qed.

(** The scope's half. *)
Lemma run_defers L P E fuel l : forall s m ps s' m', is_arena s = true -> scope_run L P E fuel l s m = Ok (ps, (s', m')) ->
  is_arena s' = true /\ arena s' = arena s /\ exists is, DeferModel.defers E (owes l) (body s) = Ok (is, body s').
Proof.
  induction l as [|o l IH]; intros s m ps s' m' A R; cbn [scope_run] in R.
  - injection R as <- <- <-. cbn. eauto.
  - assert (K : forall p s1 m1, scope_step L P E fuel o s m = Ok (p, (s1, m1)) ->
        is_arena s1 = true /\ arena s1 = arena s /\
        match o with Owe f d c => exists i, DeferModel.raii_deferred_any E f d c (body s) = Ok (i, body s1) | _ => s1 = s end).
    { destruct o as [n|c n|f d c|o]; cbn [scope_step]; intros p s1 m1.
      - unfold malloc_by. rewrite A. destruct (negb _); [discriminate|]. destruct (arena_alloc _ _ _ _ _ _) as [[p1 m2]| | |]; cbn [bind]; try discriminate.
        intros X. injection X as <- <- <-. auto.
      - unfold calloc_by. rewrite A. destruct (negb _); [discriminate|]. destruct (arena_calloc _ _ _ _ _ _ _) as [[p1 m2]| | |]; cbn [bind]; try discriminate.
        intros X. injection X as <- <- <-. auto.
      - destruct (DeferModel.raii_deferred_any E f d c (body s)) as [[i b]| | |]; cbn [bind]; try discriminate. intros X. injection X as <- <- <-. cbn. eauto.
      - destruct (arena_step _ _ _ _ _) as [m2| | |]; cbn [bind]; try discriminate. intros X. injection X as <- <- <-. auto. }
    destruct (scope_step L P E fuel o s m) as [[p [s1 m1]]| | |]; cbn [bind] in R; try discriminate.
    destruct (scope_run L P E fuel l s1 m1) as [[ps1 [s2 m2]]| | |] eqn:R1; cbn [bind] in R; try discriminate. injection R as <- <- <-.
    destruct (K _ _ _ eq_refl) as (A1 & A2 & Q). destruct (IH _ _ _ _ _ A1 R1) as (B1 & B2 & is & B3). split; [auto|]. split; [congruence|].
    destruct o as [n|c n|f d c|o]; cbn [owes]; try (subst s1; eauto). destruct Q as (i & Q). cbn [DeferModel.defers]. rewrite Q. cbn [bind]. rewrite B3. cbn [bind]. eauto.
Qed.

(** The arena's half. *)
Lemma arena_handles L P fuel o m own m' : honest P -> alloc_only o -> inv m own -> arena_step L P fuel o m = Ok m' ->
  (forall a, In a (handles m) -> In a (handles m')) /\ exists g, given m' = g ++ given m.
Proof.
  intros HP Ho I R. destruct o as [t|k n|k|k]; try contradiction; cbn [arena_step] in R.
  - destruct (init_ok P t m own HP I) as [X|(a & m1 & X & _ & I1 & H1 & H2 & _)]; rewrite X in R; cbn [bind] in R; [discriminate|]. injection R as <-.
    rewrite H1, H2. split; [|exists []; reflexivity]. intros. apply in_or_app. auto.
  - destruct (in_dec Z.eq_dec (nth k (handles m) 0) (handles m)) as [Ha|Na].
    + destruct (alloc_ok L P fuel m own _ n HP I Ha Ho) as [(m1 & own1 & X & I1 & H1 & H2)|[(_ & X)|[(_ & X)|(p & m1 & own1 & X & _ & I1 & H1 & H2)]]];
      rewrite X in R; cbn [bind] in R; try discriminate; injection R as <-; rewrite H1, H2; (split; [auto|]); [exists []|eexists [_]]; reflexivity.
    + rewrite nth_overflow in R. { cbn in R. discriminate. }
      destruct (Nat.le_gt_cases (length (handles m)) k); auto. destruct Na. apply nth_In. auto.
Qed.

Lemma take_ok L P fuel m own a n p m' : honest P -> inv m own -> chains m -> In a (handles m) -> 0 < n < 9223372036854775807 -> arena_alloc L P fuel a n m = Ok (p, m') ->
  chains m' /\ (exists own', inv m' own') /\ handles m' = handles m /\ given m' = (if p =? 0 then [] else [(a, p, n)]) ++ given m.
Proof.
  intros HP I C Ha Hn R. pose proof (alloc_chains L P fuel m own a n p m' HP I Ha R C) as C'. split; [exact C'|].
  destruct (alloc_ok L P fuel m own a n HP I Ha Hn) as [(m1 & own1 & X & I1 & H1 & H2)|[(_ & X)|[(_ & X)|(p1 & m1 & own1 & X & Hp & I1 & H1 & H2)]]];
  rewrite X in R; try discriminate; injection R as <- <-; (split; [eauto|]); (split; [auto|]); [exact H2|]. replace (p1 =? 0) with false by lia. exact H2.
Qed.

Lemma run_arena L P E fuel l : honest P -> Forall reasonable l -> forall s m own ps s' m', is_arena s = true -> inv m own -> chains m -> In (arena s) (handles m) ->
  scope_run L P E fuel l s m = Ok (ps, (s', m')) ->
  chains m' /\ (exists own', inv m' own') /\ In (arena s) (handles m') /\
  exists g, given m' = g ++ given m /\ sub (rev (map (fun q => (arena s, fst q, snd q)) (spans l ps))) g.
Proof.
  intros HP. induction 1 as [|o l Ho Hl IH]; intros s m own ps s' m' A I C Ha R; cbn [scope_run] in R.
  - injection R as <- <- <-. split; [auto|]. split; [eauto|]. split; [auto|]. exists []. split; [reflexivity|constructor].
  - assert (K : forall p s1 m1, scope_step L P E fuel o s m = Ok (p, (s1, m1)) ->
        is_arena s1 = true /\ arena s1 = arena s /\ chains m1 /\ (exists own', inv m1 own') /\ In (arena s) (handles m1) /\
        exists g, given m1 = g ++ given m /\
          sub (match o with Take n => if p =? 0 then [] else [(arena s, p, n)] | Clear c n => if p =? 0 then [] else [(arena s, p, c * n)] | _ => [] end) g).
    { destruct o as [n|c n|f d c|o]; cbn [scope_step]; cbn [reasonable] in Ho; intros p s1 m1.
      - unfold malloc_by. rewrite A. destruct (negb _); [discriminate|]. rewrite s64_small by lia.
        destruct (arena_alloc _ _ _ _ _ _) as [[p1 m2]| | |] eqn:Q; cbn [bind]; try discriminate.
        intros X. injection X as <- <- <-. destruct (take_ok _ _ _ _ _ _ _ _ _ HP I C Ha Ho Q) as (C1 & I1 & H1 & G1).
        rewrite H1. repeat (split; [auto|]). eexists. split; [exact G1|]. apply sub_refl.
      - destruct Ho as (Hc & Hn & Hcn). unfold calloc_by. rewrite A. destruct (negb _); [discriminate|]. rewrite s64_small by nia.
        unfold arena_calloc. destruct (negb _); [discriminate|].
        destruct (arena_alloc _ _ _ _ _ _) as [[p1 m2]| | |] eqn:Q; cbn [bind]; try discriminate.
        destruct (p1 =? 0) eqn:Qp; cbn [bind]; [discriminate|]. destruct (c * n <? 0); cbn [bind]; [discriminate|].
        intros X. injection X as <- <- <-. destruct (take_ok _ _ _ _ _ _ _ _ _ HP I C Ha (ltac:(nia) : 0 < c * n < 9223372036854775807) Q) as (C1 & I1 & H1 & G1).
        rewrite Qp in G1. rewrite H1, Qp. repeat (split; [auto|]). eexists. split; [exact G1|]. apply sub_refl.
      - destruct (DeferModel.raii_deferred_any E f d c (body s)) as [[i b]| | |]; cbn [bind]; try discriminate. intros X. injection X as <- <- <-. cbn [set_body is_arena arena].
        repeat (split; [eauto|]). exists []. split; [reflexivity|constructor].
      - destruct Ho as [Ho1 Ho2]. destruct (arena_step _ _ _ _ _) as [m2| | |] eqn:Q; cbn [bind]; try discriminate. intros X. injection X as <- <- <-.
        destruct (arena_handles _ _ _ _ _ _ _ HP Ho1 I Q) as (H1 & g & G1).
        destruct (run_chains L P fuel [o] HP ltac:(repeat constructor; auto) ltac:(repeat constructor; auto) m own I C m2) as (C1 & I1); [cbn [arena_run]; rewrite Q; reflexivity|].
        repeat (split; [auto|]). exists g. split; [exact G1|apply sub_none]. }
    destruct (scope_step L P E fuel o s m) as [[p [s1 m1]]| | |]; cbn [bind] in R; try discriminate.
    destruct (scope_run L P E fuel l s1 m1) as [[ps1 [s2 m2]]| | |] eqn:R1; cbn [bind] in R; try discriminate. injection R as <- <- <-.
    destruct (K _ _ _ eq_refl) as (A1 & A2 & C1 & (own1 & I1) & H1 & g1 & G1 & S1). rewrite <- A2 in H1.
    destruct (IH _ _ _ _ _ _ A1 I1 C1 H1 R1) as (C2 & I2 & H2 & g2 & G2 & S2). rewrite A2 in *. split; [auto|]. split; [auto|]. split; [auto|].
    exists (g2 ++ g1). split; [rewrite G2, G1; apply app_assoc|].
    set (t := fun q : Z * Z => (arena s, fst q, snd q)) in *.
    assert (Eq : forall x, sub x g1 -> sub (rev (map t (spans l ps1)) ++ x) (g2 ++ g1)) by (intros; apply sub_app; auto).
    destruct o as [n|c n|f d c|o]; cbn [spans]; try destruct (p =? 0); cbn [map rev]; try (specialize (Eq _ S1); rewrite app_nil_r in Eq; exact Eq); apply Eq; exact S1.
Qed.

(** ** C82 *)
(** The starting point of the theorems: any creations and allocations of other arenas, then unique_init_arena. *)
Definition starts (L : bool) (P : allocator) (s0 : ascope) (m0 : mem) : Prop :=
  exists before fuel m a stack n, Forall alloc_only before /\ Forall small_threshold before /\
    arena_run L P fuel before arena_start = Ok m /\ unique_init_arena P a stack n m = Ok (s0, m0).

Lemma starts_facts L P s0 m0 : honest P -> starts L P s0 m0 ->
  is_arena s0 = true /\ (exists a st n, body s0 = DeferModel.unique_init a st n) /\ chains m0 /\ (exists own, inv m0 own) /\ In (arena s0) (handles m0).
Proof.
  intros HP (before & fuel & m & a & st & n & H1 & H2 & R & U).
  destruct (run_chains L P fuel before HP H1 H2 _ _ inv_start chains_start _ R) as (C & own & I).
  unfold unique_init_arena in U. destruct (arena_init P 0 m) as [[x m1]| | |] eqn:Q; cbn [bind] in U; try discriminate. injection U as <- <-. cbn [is_arena body arena].
  pose proof (init_chains P 0 m own x m1 HP ltac:(lia) I Q C) as C1.
  destruct (init_ok P 0 m own HP I) as [X|(a1 & m2 & X & _ & I1 & Hh & _)]; rewrite Q in X; [discriminate|]. injection X as <- <-.
  split; [auto|]. split; [eauto|]. split; [auto|]. split; [eauto|]. rewrite Hh. apply in_or_app. right. left. auto.
Qed.

(** C82.  Whatever the system allocator answers and whatever happens on other arenas in
    between, each block obtained from the scope by malloc_by or calloc_by lies in a live chunk of the
    scope's own arena past its header, and no two blocks handed out, by this scope or by another arena,
    share a byte. *)
Theorem scope_blocks_partial L P E fuel l s0 m0 ps s m :
  honest P -> starts L P s0 m0 -> Forall reasonable l -> scope_run L P E fuel l s0 m0 = Ok (ps, (s, m)) ->
  arena s = arena s0 /\
  (forall p n, In (p, n) (spans l ps) -> well_placed m (arena s, p, n) /\ p mod 2 = 0) /\
  ForallOrdPairs (fun q q' => apart (fst q) (snd q) (fst q') (snd q')) (spans l ps) /\
  ForallOrdPairs blocks_apart (given m) /\ (forall p n, In (p, n) (spans l ps) -> In (arena s, p, n) (given m)).
Proof.
  intros HP St Hl R. destruct (starts_facts _ _ _ _ HP St) as (A & _ & C & (own & I) & Ha).
  destruct (run_defers _ _ _ _ _ _ _ _ _ _ A R) as (_ & A2 & _).
  destruct (run_arena L P E fuel l HP Hl _ _ _ _ _ _ A I C Ha R) as (C1 & (own1 & I1) & H1 & g & G & S1).
  rewrite A2 in *. split; [auto|].
  assert (In1 : forall p n, In (p, n) (spans l ps) -> In (arena s0, p, n) (given m)).
  { intros p n Hq. rewrite G. apply in_or_app. left. apply (sub_in _ _ S1). rewrite <- in_rev. apply in_map_iff. exists (p, n). auto. }
  split. { intros p n Hq. destruct (i_given _ _ I1 _ (In1 _ _ Hq)) as (B1 & B2 & B3 & c & x & D1 & D2 & D3 & D4 & D5 & _). split; [|exact B3].
    exists c, x. split; [auto|]. split; [auto|]. split; [apply (i_blk _ _ I1 _ _ D3)|]. auto. }
  split; [|split; [apply (i_pairs _ _ I1)|exact In1]].
  pose proof (i_pairs _ _ I1) as F. rewrite G in F.
  assert (S2 : sub (rev (map (fun q : Z * Z => (arena s0, fst q, snd q)) (spans l ps))) (g ++ given m0)).
  { rewrite <- (app_nil_r (rev _)). apply sub_app; [exact S1|apply sub_none]. }
  apply (sub_pairs _ _ _ S2) in F. clear - F. revert F. generalize (spans l ps) as q. induction q as [|x q IH]; intros F; [constructor|].
  cbn [map rev] in F.
  assert (K : forall (a b : list (Z * Z * Z)), ForallOrdPairs blocks_apart (a ++ b) -> ForallOrdPairs blocks_apart a /\ forall u v, In u a -> In v b -> blocks_apart u v).
  { induction a as [|u a IHa]; cbn; intros b F0; [split; [constructor|intros ? ? []]|]. inversion F0 as [|? ? Y1 Y2]; subst. destruct (IHa _ Y2) as [Z1 Z2].
    apply Forall_app in Y1. destruct Y1 as [Y1 Y3]. split; [constructor; auto|]. intros u0 v [<-|X] Hv; [|auto]. rewrite Forall_forall in Y3. auto. }
  destruct (K _ _ F) as [F1 F2]. constructor; [|auto]. rewrite Forall_forall. intros y Hy.
  specialize (F2 (arena s0, fst y, snd y) (arena s0, fst x, snd x)). unfold blocks_apart, apart in *. cbn [fst snd] in F2.
  destruct F2; [rewrite <- in_rev; apply in_map_iff; eauto|left; auto|right; auto|left; auto].
Qed.

Definition calm : DeferModel.env := PropDefer.tidy [100; 200] PropDefer.nothing.
(** The result of a history on a scope at 5000 whose arena is the second one, and of its release. *)
Definition scope_try (L : bool) (P : allocator) (E : DeferModel.env) (l : list sop) : out (list Z * (list gev * list (Z * bool))) :=
  let* m := arena_run L P 50 [AInit 0] arena_start in
  let* (s, m) := unique_init_arena P 5000 0 0 m in
  let* (ps, (s, m)) := scope_run L P E 50 l s m in
  let* (log, (s, m)) := free_arena L E PropDefer.user0 50 s m in
  Ok (ps, (log, map (fun b => (b_addr b, b_live b)) (heap m))).
Definition a_history : list sop := [Take 40; Owe 100 7 0; Elsewhere (AAlloc 0 64); Clear 3 8; Owe 200 8 0; Take 20000].
Lemma a_history_reasonable : Forall reasonable a_history.
Proof. repeat constructor; cbn; lia. Qed.

Example scope_blocks_case : exists s0 m0 s m ps, starts false bump s0 m0 /\
  scope_run false bump calm 50 a_history s0 m0 = Ok (ps, (s, m)) /\ spans a_history ps = [(4528, 40); (4568, 24); (25648, 20000)].
Proof.
  eexists _, _, _, _, _. split. { exists [AInit 0], 50%nat. eexists. exists 5000, 0, 0%nat. split; [repeat constructor|]. split; [repeat constructor|]. split; [vm_compute; reflexivity|]. vm_compute. reflexivity. }
  split; [vm_compute; reflexivity|]. vm_compute. reflexivity.
Qed.

(** C82 refuted: a size of 2^64 - 16 becomes the long -16, so the request succeeds, moves the arena's position back, and the next
    block overlaps an earlier one. *)
Theorem scope_blocks_huge_refuted : exists P s0 m0 l ps s m, honest P /\ starts false P s0 m0 /\ l = [Take 40; Take 18446744073709551600; Take 16] /\
  scope_run false P calm 50 l s0 m0 = Ok (ps, (s, m)) /\
  exists p q r, spans l ps = [(p, 40); (q, 18446744073709551600); (r, 16)] /\ ~ apart p 40 r 16.
Proof.
  exists bump. eexists _, _, [Take 40; Take 18446744073709551600; Take 16], _, _, _. split; [apply bump_honest|].
  split. { exists [AInit 0], 50%nat. eexists. exists 5000, 0, 0%nat. split; [repeat constructor|]. split; [repeat constructor|]. split; [vm_compute; reflexivity|]. vm_compute. reflexivity. }
  split; [reflexivity|]. split; [vm_compute; reflexivity|]. exists 4528, 4568, 4552. split; [vm_compute; reflexivity|]. unfold apart. lia.
Qed.
(** C82, counterpart: calloc_by on an arena scope with a product of 2^63 or more is a signed overflow (the heap version panics). *)
Theorem scope_calloc_overflow L P E fuel s m count n :
  is_arena s = true -> DeferModel.live (body s) = true -> 0 < count < 2147483648 -> 0 <= n < 9223372036854775808 -> 9223372036854775808 <= count * n ->
  calloc_by L P E fuel count n s m = Undef SignedOverflow.
Proof.
  intros A Lv Hc Hn Ho. unfold calloc_by. rewrite A, Lv. cbn [negb]. rewrite s64_small by lia. unfold arena_calloc.
  replace ((-9223372036854775808 <=? count * n) && (count * n <? 9223372036854775808))%bool with false by lia. reflexivity.
Qed.
Example scope_calloc_overflow_case : exists s0 m0, starts false bump s0 m0 /\ is_arena s0 = true /\ DeferModel.live (body s0) = true /\
  calloc_by false bump calm 50 2 4611686018427387904 s0 m0 = Undef SignedOverflow.
Proof.
  eexists _, _. split. { exists [AInit 0], 50%nat. eexists. exists 5000, 0, 0%nat. split; [repeat constructor|]. split; [repeat constructor|]. split; [vm_compute; reflexivity|]. vm_compute. reflexivity. }
  split; [reflexivity|]. split; [reflexivity|]. apply scope_calloc_overflow; try reflexivity; lia.
Qed.

(** ** C81 *)
Lemma find_in_addr c l b : find c l = Some b -> In c (map b_addr l).
Proof. intros F. destruct (find_addr _ _ _ F) as [<- H]. apply in_map. exact H. Qed.
Lemma gone_in m m' c : In c (gone m m') <-> is_live m c = true /\ is_live m' c = false.
Proof.
  unfold gone. rewrite filter_In, nodup_In, andb_true_iff, negb_true_iff. split; [tauto|]. intros [A B]. split; [|auto].
  unfold is_live in A. destruct (find c (heap m)) as [b|] eqn:F; [|discriminate]. eapply find_in_addr; eauto.
Qed.
Lemma gone_nodup m m' : NoDup (gone m m').
Proof. apply NoDup_filter, NoDup_nodup. Qed.
Lemma owned_found m a c own : inv m own -> In a (handles m) -> owned m a c -> exists b, find c (heap m) = Some b /\ b_live b = true.
Proof.
  intros I Ha O. pose proof (owned_own _ _ _ _ I Ha O) as Q. destruct (i_hdl _ _ I a Ha) as (_ & b & h & F & _). destruct (i_blk _ _ I _ _ F) as (A & _).
  destruct (i_chunk _ _ I c ltac:(lia)) as (_ & b' & h' & F' & _). exists b'. split; [auto|]. apply (i_blk _ _ I _ _ F').
Qed.

(** A pending error, or none, at the release. *)
Definition with_error (er pa : Z) (s : ascope) : ascope := set_body (DeferModel.set_err er pa (body s)) s.

Section Release.
Context (P : allocator) (E : DeferModel.env) (user : Z -> Z) (L : bool) (fuel0 : nat) (l : list sop) (s0 s : ascope) (m0 m : mem) (ps : list Z) (er pa : Z).
Hypothesis (HP : honest P) (St : starts L P s0 m0) (Hl : Forall reasonable l) (F : DeferProofs.fits E)
  (W : Forall DeferProofs.wordy (owes l)) (Q : Forall (DeferProofs.quiet E) (owes l)) (R : scope_run L P E fuel0 l s0 m0 = Ok (ps, (s, m)))
  (C : DeferModel.raii_deferred_count (body s) = Z.of_nat (length (owes l))).

Lemma body_half : exists b, DeferModel.raii_delete E user (DeferModel.set_err er pa (body s)) = Ok b /\ DeferModel.live (DeferModel.set_err er pa (body s)) = true /\ DeferModel.live b = false /\
  DeferModel.trace b = map (fun e => DeferModel.Call (fst (fst e)) (snd (fst e))) (rev (owes l)) ++ PropDefer.returned [DeferModel.w_base (body s)] ++ [DeferModel.Freed (DeferModel.self (body s0))].
Proof.
  destruct (starts_facts _ _ _ _ HP St) as (A & (a & st & n & B) & _). destruct (run_defers _ _ _ _ _ _ _ _ _ _ A R) as (_ & A2 & is & D).
  assert (Fr : PropDefer.fresh (body s0)) by (exists a, st, n; auto).
  destruct (PropDefer.delete_lifo E user (owes l) (body s0) is (body s) er pa F W Q Fr D C) as (b & D1 & D2 & D3).
  exists b. split; [exact D1|]. split.
  { destruct (PropDefer.fresh_holds _ Fr) as (Hh & _). destruct (DeferProofs.defers_ok E F (owes l) (body s0) [] Hh W) as (? & ? & ? & X & _ & _ & _ & _ & _ & (Lv & _) & _).
    rewrite D in X. injection X as <- <-. exact Lv. }
  rewrite B in D2, D3 |- *. cbn in D2, D3 |- *. auto.
Qed.
Lemma arena_half : chains m /\ (exists own, inv m own) /\ In (arena s) (handles m) /\ 0 < arena s.
Proof.
  destruct (starts_facts _ _ _ _ HP St) as (A & _ & C0 & (own & I) & Ha). destruct (run_defers _ _ _ _ _ _ _ _ _ _ A R) as (_ & A2 & _).
  destruct (run_arena L P E fuel0 l HP Hl _ _ _ _ _ _ A I C0 Ha R) as (C1 & (own1 & I1) & H1 & _). rewrite A2. repeat (split; [eauto|]).
  destruct (i_hdl _ _ I1 _ H1) as (_ & b & h & F1 & _). apply (i_blk _ _ I1 _ _ F1).
Qed.

(** C81, full statement: free_arena on an arena scope calls each deferred function once, newest first, then releases the array that
    held them, the scope, and the arena with all its chunks, each exactly once, touches no other arena, and accesses no released memory.
    What holds, for every history and whatever the allocators answered: all of it but the last point ([true]: reading the header of a
    released chunk gives what it contained). *)
Theorem scope_release_partial : exists k, forall fuel, (k <= fuel)%nat -> exists s' m' blocks,
  free_arena true E user fuel (with_error er pa s) m =
    Ok (map Scoped (map (fun e => DeferModel.Call (fst (fst e)) (snd (fst e))) (rev (owes l)) ++ PropDefer.returned [DeferModel.w_base (body s)] ++ [DeferModel.Freed (DeferModel.self (body s0))])
        ++ map Gone blocks, (s', m')) /\
  NoDup blocks /\ (forall c, In c blocks <-> c = arena s \/ owned m (arena s) c) /\
  (forall c, ~ In c blocks -> find c (heap m') = find c (heap m)) /\ DeferModel.live (body s') = false.
Proof.
  destruct arena_half as (C1 & (own & I) & Ha & Pa). destruct body_half as (b & D1 & D2 & D3 & D4).
  destruct (free_ok m own (arena s) I C1 Ha) as (k & K). exists k. intros fuel Hf. destruct (K fuel Hf) as (m' & E1 & E2 & E3).
  assert (G : forall c, In c (gone m m') <-> c = arena s \/ owned m (arena s) c).
  { intros c. rewrite gone_in. split.
    - intros [X Y]. destruct (in_dec Z.eq_dec c (gone m m')) as [Z0|Z0].
      + destruct (Z.eq_dec c (arena s)) as [|Ne]; [auto|]. right. apply gone_in in Z0. destruct C1 as [_ C1]. destruct (C1 _ Ha) as (t & ch & _ & Ch).
        destruct (in_dec Z.eq_dec c ch) as [J|J]; [apply (chain_owned _ _ _ _ Ch); auto|].
        assert (No : ~ owned m (arena s) c) by (intros O; apply J; apply (chain_owned _ _ _ _ Ch); auto).
        unfold is_live in X, Y. rewrite (E3 c Ne No) in Y. congruence.
      + destruct Z0. apply gone_in. auto.
    - intros O. destruct (E2 c O) as (x & X1 & X2). unfold is_live. rewrite X1. split; [|exact X2].
      destruct O as [->|O]; [destruct (i_hdl _ _ I _ Ha) as (_ & y & ? & Y & _); rewrite Y; apply (i_blk _ _ I _ _ Y)|].
      destruct (owned_found _ _ _ _ I Ha O) as (y & -> & Y). exact Y. }
  exists (set_body b (with_error er pa s)), m', (gone m m').
  split. { unfold free_arena, with_error. cbn [set_body body arena]. rewrite D2. cbn [negb]. rewrite D1. cbn [bind]. replace (arena s =? 0) with false by lia. rewrite E1. cbn [bind]. rewrite D4. reflexivity. }
  split; [apply gone_nodup|]. split; [exact G|]. split; [|exact D3].
  intros c N. rewrite G in N. apply E3; [intros ->; tauto|tauto].
Qed.

(** C81 counterpart: as soon as the history obtained one block from the scope, free_arena reads and writes a released chunk. *)
Theorem scope_release_uses_released fuel : spans l ps <> [] -> free_arena false E user (Datatypes.S fuel) (with_error er pa s) m = Undef UseAfterFree.
Proof.
  intros N. destruct arena_half as (C1 & (own & I) & Ha & Pa). destruct body_half as (b & D1 & D2 & D3 & D4).
  destruct (spans l ps) as [|[p n] q] eqn:Sp; [contradiction|].
  destruct (scope_blocks_partial L P E fuel0 l s0 m0 ps s m HP St Hl R) as (_ & B & _). destruct (B p n) as [(c & x & O & _) _]; [rewrite Sp; left; reflexivity|].
  unfold free_arena, with_error. cbn [set_body body arena]. rewrite D2. cbn [negb]. rewrite D1. cbn [bind]. replace (arena s =? 0) with false by lia.
  rewrite (free_strict m own (arena s) c fuel I C1 Ha O). reflexivity.
Qed.
End Release.

Lemma a_history_owes : Forall DeferProofs.wordy (owes a_history) /\ Forall (DeferProofs.quiet calm) (owes a_history).
Proof. split; repeat constructor; unfold SpecDefer.word; cbn; lia. Qed.
Example scope_release_case : scope_try true bump calm a_history = Ok ([4528; 0; 0; 4568; 0; 25648],
  ([Scoped (DeferModel.Call 200 8); Scoped (DeferModel.Call 100 7); Scoped (DeferModel.Freed 65536); Scoped (DeferModel.Freed 5000); Gone 25392; Gone 4272; Gone 4192],
   [(25392, false); (14816, true); (4272, false); (4192, false); (4112, true)])).
Proof. vm_compute. reflexivity. Qed.
(** malloc_arena and calloc_arena, the functions that take the arena of a scope directly: on
    an arena scope they do what malloc_by and calloc_by do, so that C82 covers them too. *)
Theorem arena_shortcuts L P E fuel count n s m : is_arena s = true ->
  (forall p m', malloc_arena L P fuel n s m = Ok (p, m') <-> malloc_by L P E fuel n s m = Ok (p, (s, m'))) /\
  (forall p m', calloc_arena L P fuel count n s m = Ok (p, m') <-> calloc_by L P E fuel count n s m = Ok (p, (s, m'))) /\
  (forall u, malloc_arena L P fuel n s m = Undef u <-> malloc_by L P E fuel n s m = Undef u) /\
  (forall u, calloc_arena L P fuel count n s m = Undef u <-> calloc_by L P E fuel count n s m = Undef u).
Proof.
  intros A. unfold malloc_arena, malloc_by, calloc_arena, calloc_by. rewrite A.
  destruct (negb (DeferModel.live (body s))); [split; [|split; [|split]]; intros; split; intros H; congruence|].
  destruct (arena_alloc L P fuel (arena s) (s64 n) m) as [[a1 m1]| | |], (arena_calloc L P fuel (arena s) count (s64 n) m) as [[a2 m2]| | |];
    cbn [bind]; (split; [|split; [|split]]); intros; split; intros H; congruence.
Qed.
Example arena_shortcuts_case : exists p m', malloc_arena false bump 50 40 (fst (match unique_init_arena bump 5000 0 0 arena_start with Ok r => r | _ => (AScope (DeferModel.unique_init 0 0 0) 0 false, arena_start) end))
   (snd (match unique_init_arena bump 5000 0 0 arena_start with Ok r => r | _ => (AScope (DeferModel.unique_init 0 0 0) 0 false, arena_start) end)) = Ok (p, m') /\ p <> 0.
Proof. eexists. eexists. split; [vm_compute; reflexivity|]. discriminate. Qed.
(** C81 refuted: one block from the scope is enough. *)
Theorem scope_release_refuted : exists P E l, honest P /\ DeferProofs.fits E /\ Forall reasonable l /\ l = [Take 40] /\ scope_try false P E l = Undef UseAfterFree.
Proof.
  exists bump, calm, [Take 40]. split; [apply bump_honest|]. split; [apply PropDefer.tidy_fits|]. split; [repeat constructor; cbn; lia|]. split; [reflexivity|]. vm_compute. reflexivity.
Qed.

(** * The theorems above on concrete values: their hypotheses can be met. *)
Definition m_before : mem := match arena_run false bump 50 [AInit 0] arena_start with Ok m => m | _ => arena_start end.
Definition opened : ascope * mem := match unique_init_arena bump 5000 0 0 m_before with Ok r => r | _ => (AScope (DeferModel.unique_init 0 0 0) 0 false, arena_start) end.
Definition used : list Z * (ascope * mem) := match scope_run false bump calm 50 a_history (fst opened) (snd opened) with Ok r => r | _ => ([], opened) end.
Lemma opened_starts : starts false bump (fst opened) (snd opened).
Proof. exists [AInit 0], 50%nat, m_before, 5000, 0, 0%nat. split; [repeat constructor|]. split; [repeat constructor|]. split; vm_compute; reflexivity. Qed.
Lemma used_run : scope_run false bump calm 50 a_history (fst opened) (snd opened) = Ok (fst used, (fst (snd used), snd (snd used))).
Proof. vm_compute. reflexivity. Qed.
Lemma used_count : DeferModel.raii_deferred_count (body (fst (snd used))) = Z.of_nat (length (owes a_history)).
Proof. vm_compute. reflexivity. Qed.
Lemma used_spans : spans a_history (fst used) <> [].
Proof. vm_compute. discriminate. Qed.
Example scope_blocks_partial_met := scope_blocks_partial false bump calm 50 a_history _ _ _ _ _ bump_honest opened_starts a_history_reasonable used_run.
Example scope_release_partial_met := scope_release_partial bump calm PropDefer.user0 false 50 a_history _ _ _ _ _ 9 0 bump_honest opened_starts a_history_reasonable
  (PropDefer.tidy_fits _ _) (proj1 a_history_owes) (proj2 a_history_owes) used_run used_count.
Example scope_release_uses_released_met := scope_release_uses_released bump calm PropDefer.user0 false 50 a_history _ _ _ _ _ 9 0 bump_honest opened_starts a_history_reasonable
  (PropDefer.tidy_fits _ _) (proj1 a_history_owes) (proj2 a_history_owes) used_run used_count 5 used_spans.

Print Assumptions scope_blocks_partial.
Print Assumptions scope_blocks_huge_refuted.
Print Assumptions scope_calloc_overflow.
Print Assumptions arena_shortcuts.
Print Assumptions scope_release_partial.
Print Assumptions scope_release_uses_released.
Print Assumptions scope_release_refuted.
