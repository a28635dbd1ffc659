(** Arenas: C45-C49. *)
From Verif Require Import Base BaseLemmas SpecArena ArenaProofs ArenaAlloc ArenaFree ArenaClear.

(** An honest allocator for the examples: the next free 16-byte boundary past
    everything allocated so far; it fails when the address space ends. *)
Definition top (h : list block) : Z := fold_right (fun b t => Z.max (b_addr b + b_size b) t) 4096 h.
Definition bump : allocator := fun _ h n => let p := (top h / 16 + 1) * 16 in if p + n <? 9223372036854775808 then p else 0.
(** The same, failing from the k-th request on. *)
Definition bump_until (k : nat) : allocator := fun j h n => if (j <? k)%nat then bump j h n else 0.

Lemma top_spec h : 4096 <= top h /\ forall b, In b h -> b_addr b + b_size b <= top h.
Proof. induction h as [|x h [IH1 IH2]]; cbn [top fold_right]; [split; [lia|intros ? []]|]. fold (top h). split; [lia|]. intros b [->|Hb]; [lia|]. specialize (IH2 b Hb). lia. Qed.
Lemma bump_honest : honest bump.
Proof.
  intros k h n Hn. unfold bump. destruct (top_spec h) as [T1 T2]. set (p := (top h / 16 + 1) * 16). destruct (Z.ltb_spec (p + n) 9223372036854775808); [|auto].
  right. assert (P : top h < p) by (unfold p; lia). split; [lia|]. split; [lia|]. split; [unfold p; apply Z_mod_mult|].
  intros b Hb _. specialize (T2 b Hb). right. lia.
Qed.
Lemma bump_until_honest k : honest (bump_until k).
Proof. intros j h n Hn. unfold bump_until. destruct (j <? k)%nat; [apply bump_honest; auto|auto]. Qed.

(** The blocks handed out and the blocks of the system allocator with their state. *)
Definition view (m : mem) : list (Z * Z * Z) * list (Z * Z * bool) := (given m, map (fun b => (b_addr b, b_size b, b_live b)) (heap m)).
Definition run_view (L : bool) (P : allocator) (l : list aop) : out (list (Z * Z * Z) * list (Z * Z * bool)) :=
  let* m := arena_run L P 50 l arena_start in Ok (view m).

(** ** C45 *)

(** C45.  In every history of arena_init and arena_alloc calls with positive
    sizes below 2^63 - 1 and whatever the system allocator answers, every block
    handed out lies in a chunk of its arena past the header, is 2-byte
    aligned, and shares no byte with any other. *)
Theorem arena_blocks_disjoint L P fuel l m :
  honest P -> Forall alloc_only l -> arena_run L P fuel l arena_start = Ok m ->
  (forall g, In g (given m) -> well_placed m g /\ snd (fst g) mod 2 = 0) /\ ForallOrdPairs blocks_apart (given m).
Proof.
  intros HP Hl R. destruct (run_ok L P fuel l HP Hl _ _ inv_start _ R) as (own & I). split; [|apply (i_pairs _ _ I)].
  intros [[a p] n] Hg. destruct (i_given _ _ I _ Hg) as (A & B & C & c & x & D1 & D2 & D3 & D4 & D5 & _). split; [|exact C].
  exists c, x. split; [auto|]. split; [auto|]. split; [apply (i_blk _ _ I _ _ D3)|]. auto.
Qed.

(** C45.  Such a history is defined (or ends in the panic of arena_init or of a
    missing arena) as long as all it could ask for together is below 2^63 bytes. *)
Theorem arena_history_defined L P fuel l T :
  honest P -> Forall alloc_only l -> 10 <= T -> max_threshold l <= T -> total_cost T l < 9223372036854775808 ->
  arena_run L P (Datatypes.S fuel) l arena_start = Panics \/ exists m, arena_run L P (Datatypes.S fuel) l arena_start = Ok m.
Proof.
  intros HP Hl HT MT HC. eapply (run_defined L P fuel l T HP Hl HT MT arena_start _ 0 inv_start); auto; try lia. intros a b h [].
Qed.

Example arena_blocks_disjoint_case :
  let l := [AInit 0; AAlloc 0 18; AInit 3; AAlloc 1 7; AAlloc 0 20000; AAlloc 1 100; AAlloc 0 1] in
  honest bump /\ Forall alloc_only l /\ max_threshold l <= 10 /\ total_cost 10 l < 9223372036854775808 /\
  (let* m := arena_run false bump 1 l arena_start in Ok (map (fun g => (snd (fst g), snd g)) (given m))) =
  Ok [(38400, 1); (15064, 100); (18400, 20000); (15056, 7); (4448, 18)].
Proof. split; [apply bump_honest|]. split; [repeat constructor; lia|]. split; [cbn; lia|]. split; [cbn; lia|]. vm_compute. reflexivity. Qed.

(** C45 at the edge: a request of 2^63 - 1 bytes is rounded to a negative
    number, and an address without that room is handed out. *)
Theorem arena_alloc_largest_refuted : exists P l m a p n, honest P /\
  Forall (fun o => match o with AInit _ => True | AAlloc _ n => 0 < n <= 9223372036854775807 | _ => False end) l /\
  arena_run false P 50 l arena_start = Ok m /\ In (a, p, n) (given m) /\ ~ well_placed m (a, p, n).
Proof.
  exists bump, [AInit 0; AAlloc 0 40; AAlloc 0 9223372036854775807]. eexists. exists 4112, 4488, 9223372036854775807.
  split; [apply bump_honest|]. split; [repeat constructor; lia|]. split; [vm_compute; reflexivity|]. split; [left; reflexivity|].
  intros (c & x & _ & F & _ & _ & B). destruct (find_addr _ _ _ F) as [<- Hin]. destruct Hin as [<-|[<-|[]]]; cbn [b_addr b_size] in B; lia.
Qed.

(** ** C46 *)

(** C46, full statement: in every history of arena_init, arena_alloc and
    arena_clear calls, blocks handed out after a clear do not overlap each other and
    lie inside live chunks, and a cleared arena's chunks are all reused or
    released.  What holds: a new arena with one allocation, cleared once, then any
    allocations that together fit the chunk. *)
Theorem arena_clear_once_partial L P fuel t n ns m :
  honest P -> 0 < n < 9223372036854775807 -> 0 <= t < 2147483648 -> 260 + (n + 1) + Z.max 10 t * 1024 < 9223372036854775807 ->
  arena_run L P (Datatypes.S fuel) [AInit t; AAlloc 0 n] arena_start = Ok m -> given m <> [] ->
  Forall (fun k => 0 < k < 9223372036854775807) ns -> room ns <= n + t * 1024 ->
  exists m' new, arena_run L P (Datatypes.S fuel) (AClear 0 :: map (AAlloc 0) ns) m = Ok m' /\ given m' = new ++ given m /\ length new = length ns /\
    ForallOrdPairs blocks_apart new /\ Forall (well_placed m') new.
Proof.
  intros HP Hn Ht Hb R G Hns Rm.
  destruct (first_alloc L P fuel t n m HP Hn ltac:(lia) Hb R G) as (a & c & bc & h & hc & H1 & O & Ec & Ty & Fr & Nf & Th & B1 & B2 & Av & Sz & Gv).
  assert (Th' : 0 < h_threshold h < 2147483648 /\ t <= h_threshold h) by (rewrite Th; destruct (Z.leb_spec t 0); lia).
  destruct (clear_one L fuel m a c bc hc h O Ec Ty Fr ltac:(lia) ltac:(rewrite s32_id by lia; lia)) as (m1 & bc1 & X & G1 & G2 & F1 & L1 & S1 & E1 & b1 & Fa & La & Sa & Ea).
  pose proof O as [A C0 Ca _ N (Fc & Lc & Sc) _ (Lm1 & Lm2 & Lm3)]. rewrite B1, B2, Av in Ea. cbn [Z.eqb] in Ea.
  replace (c + 256 + 2 * ((n + 1) / 2) - 2 * ((n + 1) / 2)) with (c + 256) in Ea by lia.
  assert (Cpos : 0 <= c + 256 < 18446744073709551616). { pose proof (top_spec []). destruct O as [? ? ? ? ? ? ? [? [? ?]]]. 
    destruct (run_ok L P (Datatypes.S fuel) [AInit t; AAlloc 0 n] HP ltac:(repeat constructor; lia) _ _ inv_start _ R) as (own & I). destruct (i_blk _ _ I _ _ Fc). lia. }
  rewrite u64_id in Ea by exact Cpos.
  assert (O1 : one_chunk m1 a c bc1 (with_avail (c + 256) h)).
  { constructor; [auto|auto|auto|exists b1; auto|auto|split; [auto|split; [auto|lia]]|auto|cbn [with_avail h_limit h_avail]; split; [congruence|]].
    split; [auto|]. destruct (run_ok L P (Datatypes.S fuel) [AInit t; AAlloc 0 n] HP ltac:(repeat constructor; lia) _ _ inv_start _ R) as (own & I). destruct (i_blk _ _ I _ _ Fc). lia. }
  destruct (fit_run L P (Datatypes.S fuel) ns Hns m1 a c bc1 _ O1) as (m' & bc' & h' & R' & Gv' & O' & Sz').
  { rewrite G2, H1. reflexivity. } { cbn [with_avail h_avail h_limit]. lia. }
  cbn [with_avail h_avail] in Gv'. exists m', (rev (rounds a (c + 256) ns)). split.
  { cbn [arena_run arena_step]. rewrite H1. cbn [nth]. rewrite X. cbn [bind]. exact R'. }
  split; [rewrite Gv', G1; reflexivity|]. split; [rewrite rev_length; apply rounds_length|]. split; [apply rounds_apart; auto|].
  apply Forall_forall. intros g Hg. apply in_rev in Hg. destruct (rounds_in a ns Hns _ _ Hg) as (Q1 & Q2 & Q3). destruct g as [[a' p] k]. cbn [fst snd] in *. subst a'.
  destruct O' as [_ _ _ (b2 & Fb2 & _ & _ & Eb2) N2 (Fc2 & Lc2 & _) _ _]. exists c, bc'. split; [rewrite <- N2; eapply owned_first; eauto; congruence|].
  split; [auto|]. split; [auto|]. split; [auto|]. lia.
Qed.
Example arena_clear_once_partial_case : honest bump /\ room [9; 100; 10000] <= 18 + 10 * 1024 /\
  run_view false bump [AInit 10; AAlloc 0 18; AClear 0; AAlloc 0 9; AAlloc 0 100; AAlloc 0 10000] =
  Ok ([(4112, 4558, 10000); (4112, 4458, 100); (4112, 4448, 9); (4112, 4448, 18)], [(4192, 10514, true); (4112, 72, true)]).
Proof. split; [apply bump_honest|]. split; [cbn; lia|]. vm_compute. reflexivity. Qed.

(** C46, for every arena built by arena_init and arena_alloc: the first arena_clear puts exactly one chunk, the newest,
    on the list of free chunks.  Every other chunk of the arena stays allocated and no arena and no list
    leads to it any more: it can never be released. *)
Theorem arena_clear_leaks L P fuel0 l m a c0 fuel :
  honest P -> Forall alloc_only l -> Forall small_threshold l -> arena_run L P fuel0 l arena_start = Ok m -> In a (handles m) -> owned m a c0 ->
  exists m' c, arena_clear L (Datatypes.S fuel) a m = Ok m' /\ owned m a c /\ free_list m' = c /\ handles m' = handles m /\ given m' = given m /\
    (exists x h, find c (heap m') = Some x /\ b_live x = true /\ b_hdr x = Some h /\ h_next h = 0) /\
    forall d, owned m a d -> d <> c -> (exists x, find d (heap m') = Some x /\ b_live x = true) /\ forall a', In a' (handles m') -> ~ owned m' a' d.
Proof.
  intros HP Hl Ht R Ha Ow. destruct (run_chains L P fuel0 l HP Hl Ht _ _ inv_start chains_start _ R) as ([N Ch] & own & I).
  destruct (Ch a Ha) as (t & lc & B & K). apply (chain_owned _ _ _ _ K) in Ow. destruct lc as [|c lc]; [destruct Ow|].
  inversion K as [|? b h ? bc hc ? F E T Nx Nz F' E' Ty K']; subst.
  destruct (i_blk _ _ I _ _ F) as (A1 & A2 & A3 & _). destruct (i_blk _ _ I _ _ F') as (C1 & C2 & C3 & _).
  set (c := h_next h) in *. assert (Oc : owned m a c) by (eapply owned_first; eauto).
  pose proof (owned_own _ _ _ _ I Ha Oc) as Wc. destruct (i_hdl _ _ I a Ha) as (Wa & _).
  assert (Ca : c <> a) by (intros Q; rewrite Q in Wc; lia).
  destruct (clear_first L fuel m a b h c bc hc) as (m' & v & X & G1 & G2 & G3 & G4 & G5 & G6 & G7); auto; try lia.
  { apply (i_free _ _ I). } { rewrite N, s32_id by lia. lia. }
  exists m', c. split; [exact X|]. split; [exact Oc|]. split; [exact G3|]. split; [exact G2|]. split; [exact G1|].
  split; [eexists _, _; split; [exact G5|]; split; [exact C2|]; split; reflexivity|].
  intros d Od Dc. pose proof (owned_own _ _ _ _ I Ha Od) as Wd. assert (Da : d <> a) by (intros Q; rewrite Q in Wd; lia). split.
  - rewrite G7 by auto. apply (chain_owned _ _ _ _ K) in Od. destruct (chain_tail _ _ _ _ K _ Od) as (l' & K2 & _). inversion K2; subst; eexists; (split; [eassumption|]); eapply i_blk; eauto.
  - rewrite G2. intros a' Ha' O'. destruct (Z.eq_dec a' a) as [->|Na].
    + assert (Only : forall e, owned m' a e -> e = c).
      { clear - G5 G6. intros e He. induction He as [x y X Y Z|e x y O IH X Y Z].
        - rewrite G6 in X. injection X as <-. injection Y as <-. reflexivity.
        - subst e. rewrite G5 in X. injection X as <-. injection Y as <-. cbn in Z. congruence. }
      apply Dc. auto.
    + destruct (i_hdl _ _ I a' Ha') as (Wa' & b' & h' & Fa' & _). destruct (i_blk _ _ I _ _ Fa') as (P' & _).
      assert (Back : forall e, owned m' a' e -> owned m a' e).
      { clear X O'. intros e He. induction He as [x y X Y Z|e x y O IH X Y Z].
        - rewrite G7 in X; [eapply owned_first; eauto|auto|]. intros Q. rewrite Q in Wa'. lia.
        - pose proof (owned_own _ _ _ _ I Ha' IH) as We. rewrite G7 in X; [eapply owned_next; eauto| |]; intros Q; rewrite Q in We; lia. }
      apply Back in O'. rewrite (owned_own _ _ _ _ I Ha' O') in Wd. lia.
Qed.

(** C46 refuted: after one clear two later allocations of the same arena get the same bytes
    (the recycled chunk is also still the current one). *)
Theorem arena_clear_overlap_refuted : exists P l m a p n p' n' rest, honest P /\ arena_run false P 50 l arena_start = Ok m /\
  l = [AInit 0; AAlloc 0 18; AClear 0; AAlloc 0 6000; AAlloc 0 8000] /\
  given m = (a, p, n) :: (a, p', n') :: rest /\ n = 8000 /\ n' = 6000 /\ p = p'.
Proof.
  exists bump, [AInit 0; AAlloc 0 18; AClear 0; AAlloc 0 6000; AAlloc 0 8000]. eexists. eexists _, _, _, _, _, _. split; [apply bump_honest|].
  split; [vm_compute; reflexivity|]. split; [reflexivity|]. split; [reflexivity|]. auto.
Qed.

(** The chunks of an arena, closed under next. *)
Definition next_at (m : mem) (c : Z) : Z :=
  match find c (heap m) with Some b => match b_hdr b with Some h => h_next h | None => 0 end | None => 0 end.
Lemma owned_closed m a S : forallb (fun c => (next_at m c =? 0) || existsb (Z.eqb (next_at m c)) S)%bool (a :: S) = true ->
  forall c, owned m a c -> In c S.
Proof.
  rewrite forallb_forall. intros H.
  assert (Step : forall c b h, In c (a :: S) -> find c (heap m) = Some b -> b_hdr b = Some h -> h_next h <> 0 -> In (h_next h) S).
  { intros c b h Hc F E N. specialize (H c Hc). unfold next_at in H. rewrite F, E in H. apply orb_true_iff in H. destruct H as [H|H]; [lia|].
    apply existsb_exists in H. destruct H as (x & Hx & Q). apply Z.eqb_eq in Q. congruence. }
  induction 1 as [b h F E N|c b h O IH F E N]; [eapply Step; eauto; left; reflexivity|eapply Step; eauto; right; auto].
Qed.

(** C46 refuted: after a clear an allocation lands outside the chunks of its arena, as the size of an
    allocation in an older chunk is subtracted from the address. *)
Theorem arena_clear_outside_refuted : exists P l m a p n, honest P /\ arena_run false P 50 l arena_start = Ok m /\
  l = [AInit 0; AAlloc 0 20000; AAlloc 0 10300; AClear 0; AAlloc 0 100] /\
  hd_error (given m) = Some (a, p, n) /\ n = 100 /\ ~ well_placed m (a, p, n).
Proof.
  exists bump, [AInit 0; AAlloc 0 20000; AAlloc 0 10300; AClear 0; AAlloc 0 100]. eexists. eexists _, _, _. split; [apply bump_honest|].
  split; [vm_compute; reflexivity|]. split; [reflexivity|]. split; [reflexivity|]. split; [reflexivity|].
  intros (c & x & O & F & _ & B & _). apply (owned_closed _ _ [34704]) in O; [|vm_compute; reflexivity]. destruct O as [<-|[]]. lia.
Qed.

(** C46 refuted: clearing an arena with two chunks recycles the newest only; the older one is
    neither released nor reachable, even after arena_free. *)
Theorem arena_clear_leak_refuted : exists P l m c, honest P /\ arena_run false P 50 l arena_start = Ok m /\
  l = [AInit 0; AAlloc 0 18; AAlloc 0 20000; AClear 0] /\
  (exists b, find c (heap m) = Some b /\ b_live b = true) /\ ~ In c (handles m) /\ free_list m <> c /\ next_at m (free_list m) <> c /\
  (forall a, In a (handles m) -> ~ owned m a c) /\
  (let* m' := arena_free true 50 (nth 0 (handles m) 0) m in Ok (map b_live (heap m'))) = Ok [false; true; false].
Proof.
  exists bump, [AInit 0; AAlloc 0 18; AAlloc 0 20000; AClear 0]. eexists. exists 4192. split; [apply bump_honest|].
  split; [vm_compute; reflexivity|]. split; [reflexivity|]. split; [eexists; split; [vm_compute; reflexivity|reflexivity]|].
  split; [intros [Q|[]]; discriminate|]. split; [discriminate|]. split; [vm_compute; discriminate|]. split; [|vm_compute; reflexivity].
  intros a [<-|[]] O. apply (owned_closed _ _ [14720]) in O; [|vm_compute; reflexivity]. destruct O as [Q|[]]; discriminate.
Qed.

(** C46 refuted: the documented round of allocate, clear, allocate, clear accesses released memory. *)
Theorem arena_clear_twice_refuted : exists P l, honest P /\ l = [AInit 0; AAlloc 0 18; AClear 0; AAlloc 0 18; AClear 0] /\
  arena_run false P 50 l arena_start = Undef UseAfterFree.
Proof. exists bump, [AInit 0; AAlloc 0 18; AClear 0; AAlloc 0 18; AClear 0]. split; [apply bump_honest|]. split; [reflexivity|]. vm_compute. reflexivity. Qed.

(** ** C47 *)

(** C47, full statement: arena_free releases every chunk of the arena and the arena
    exactly once and does not access released memory.  What holds for arenas built by
    arena_init and arena_alloc: if released memory keeps its contents (the lenient reading), every
    chunk and the arena are released, once each (a second release would be DoubleFree), and nothing
    else is touched. *)
Theorem arena_free_releases_partial L P fuel0 l m a :
  honest P -> Forall alloc_only l -> Forall small_threshold l -> arena_run L P fuel0 l arena_start = Ok m -> In a (handles m) ->
  exists k, forall fuel, (k <= fuel)%nat -> exists m', arena_free true fuel a m = Ok m' /\
    (forall c, c = a \/ owned m a c -> exists b, find c (heap m') = Some b /\ b_live b = false) /\
    (forall c, c <> a -> ~ owned m a c -> find c (heap m') = find c (heap m)).
Proof.
  intros HP Hl Hs R Ha. destruct (run_chains L P fuel0 l HP Hl Hs _ _ inv_start chains_start _ R) as (C & own & I). apply (free_ok m own a I C Ha).
Qed.
Example arena_free_releases_partial_case :
  Forall alloc_only [AInit 0; AAlloc 0 18; AInit 4; AAlloc 0 20000; AAlloc 1 5] /\ Forall small_threshold [AInit 0; AAlloc 0 18; AInit 4; AAlloc 0 20000; AAlloc 1 5] /\
  (let* m := arena_run false bump 5 [AInit 0; AAlloc 0 18; AInit 4; AAlloc 0 20000; AAlloc 1 5] arena_start in
   let* m' := arena_free true 5 (nth 0 (handles m) 0) m in Ok (map b_live (heap m'))) = Ok [true; false; true; false; false].
Proof. split; [repeat constructor; lia|]. split; [repeat constructor|]. vm_compute. reflexivity. Qed.

(** C47 fails for every arena that ever got a chunk: arena_free reads a chunk it has just released. *)
Theorem arena_free_uses_released L P fuel0 l m a c fuel :
  honest P -> Forall alloc_only l -> Forall small_threshold l -> arena_run L P fuel0 l arena_start = Ok m -> In a (handles m) -> owned m a c ->
  arena_free false (Datatypes.S fuel) a m = Undef UseAfterFree.
Proof.
  intros HP Hl Hs R Ha O. destruct (run_chains L P fuel0 l HP Hl Hs _ _ inv_start chains_start _ R) as (C & own & I). apply (free_strict m own a c fuel I C Ha O).
Qed.
Lemma owned_at m a c : next_at m a = c -> c <> 0 -> owned m a c.
Proof.
  unfold next_at. destruct (find a (heap m)) as [b|] eqn:F; [|congruence]. destruct (b_hdr b) as [h|] eqn:E; [|congruence].
  intros <- N. eapply owned_first; eauto.
Qed.
Theorem arena_free_use_after_free_refuted : exists P l m a c, honest P /\ Forall alloc_only l /\ arena_run false P 50 l arena_start = Ok m /\ In a (handles m) /\ owned m a c /\
  forall fuel, arena_free false (Datatypes.S fuel) a m = Undef UseAfterFree.
Proof.
  exists bump, [AInit 0; AAlloc 0 18]. eexists. exists 4112, 4192.
  assert (A : Forall alloc_only [AInit 0; AAlloc 0 18]) by (repeat constructor; lia). assert (S : Forall small_threshold [AInit 0; AAlloc 0 18]) by (repeat constructor).
  split; [apply bump_honest|]. split; [exact A|]. split; [vm_compute; reflexivity|]. split; [left; reflexivity|].
  match goal with |- owned ?m _ _ /\ _ => set (mm := m); assert (O : owned mm 4112 4192) by (apply (owned_at mm); [vm_compute; reflexivity|lia]) end.
  split; [exact O|]. intros fuel. eapply (arena_free_uses_released false bump 50 _ mm 4112 4192 fuel bump_honest A S); [vm_compute; reflexivity|left; reflexivity|exact O].
Qed.

(** arena_free raises the count of free chunks for good although the free list stays
    empty: from then on arena_clear of an arena with the default threshold releases instead of recycling. *)
Theorem arena_free_miscounts_refuted : exists P l m, honest P /\ l = [AInit 0; AFree 0] /\ arena_run false P 50 l arena_start = Ok m /\ free_list m = 0 /\ num_free m = 11.
Proof. exists bump, [AInit 0; AFree 0]. eexists. split; [apply bump_honest|]. split; [reflexivity|]. split; [vm_compute; reflexivity|]. split; reflexivity. Qed.

(** ** C48 *)

(** C48, full statement: operations on one arena never hand out memory another arena owns or
    that has been released.  What holds: with arena_init and arena_alloc only, distinct arenas
    never share a chunk. *)
Theorem arenas_independent_partial L P fuel l m a a' c :
  honest P -> Forall alloc_only l -> arena_run L P fuel l arena_start = Ok m -> In a (handles m) -> In a' (handles m) ->
  owned m a c -> owned m a' c -> a = a' /\ exists b, find c (heap m) = Some b /\ b_live b = true.
Proof.
  intros HP Hl R Ha Ha' O O'. destruct (run_ok L P fuel l HP Hl _ _ inv_start _ R) as (own & I).
  pose proof (owned_own _ _ _ _ I Ha O) as E. split; [pose proof (owned_own _ _ _ _ I Ha' O'); congruence|].
  destruct (i_hdl _ _ I a Ha) as (_ & ba & ? & Fa & _). destruct (i_blk _ _ I _ _ Fa) as [A _].
  destruct (i_chunk _ _ I c ltac:(lia)) as (_ & b & ? & F & _). exists b. split; [auto|]. apply (i_blk _ _ I _ _ F).
Qed.
Example arenas_independent_partial_case :
  (let* m := arena_run false bump 5 [AInit 0; AAlloc 0 18; AInit 4; AAlloc 0 20000; AAlloc 1 5] arena_start in
   Ok (map (fun a => (a, next_at m a, next_at m (next_at m a))) (handles m))) = Ok [(4112, 14800, 4192); (14720, 55824, 0)].
Proof. vm_compute. reflexivity. Qed.

(** C48 refuted: a chunk given back by arena_clear is handed to a second arena while the first
    still allocates from it; both get the same address. *)
Theorem arenas_share_chunk_refuted : exists P l m a a' p n n' rest, honest P /\ l = [AInit 0; AAlloc 0 18; AClear 0; AInit 0; AAlloc 1 18; AAlloc 0 40] /\
  arena_run false P 50 l arena_start = Ok m /\ given m = (a, p, n) :: (a', p, n') :: rest /\ a <> a' /\ 0 < n /\ 0 < n'.
Proof.
  exists bump, [AInit 0; AAlloc 0 18; AClear 0; AInit 0; AAlloc 1 18; AAlloc 0 40]. eexists. eexists _, _, _, _, _, _.
  split; [apply bump_honest|]. split; [reflexivity|]. split; [vm_compute; reflexivity|]. split; [reflexivity|]. split; [discriminate|]. lia.
Qed.
(** C48 refuted: after another arena is freed and this one cleared, memory already released is handed
    out (released memory read as it was). *)
Theorem arena_hands_out_released_refuted : exists P l m a p n c b, honest P /\ l = [AInit 0; AAlloc 0 18; AInit 0; AAlloc 1 18; AFree 1; AClear 0; AAlloc 0 10] /\
  arena_run true P 50 l arena_start = Ok m /\ hd_error (given m) = Some (a, p, n) /\ find c (heap m) = Some b /\ b_live b = false /\ c <= p /\ p + n <= c + b_size b.
Proof.
  exists bump, [AInit 0; AAlloc 0 18; AInit 0; AAlloc 1 18; AFree 1; AClear 0; AAlloc 0 10]. eexists. eexists _, _, _. exists 4192. eexists.
  split; [apply bump_honest|]. split; [reflexivity|]. split; [vm_compute; reflexivity|]. split; [reflexivity|]. split; [vm_compute; reflexivity|]. split; [reflexivity|]. cbn [b_size]. lia.
Qed.

(** ** C49 *)

(** C49, full statement: when the system allocator fails arena_alloc panics and leaves the arena
    unchanged, and arena_calloc never writes to NULL.  What holds: a failing arena_alloc returns NULL, hands out nothing,
    and every block handed out before or after stays in place and apart (C45 covers the later history). *)
Theorem arena_alloc_failure_partial L P fuel0 l m a n fuel m' :
  honest P -> Forall alloc_only l -> arena_run L P fuel0 l arena_start = Ok m -> In a (handles m) -> 0 < n < 9223372036854775807 ->
  arena_alloc L P fuel a n m = Ok (0, m') ->
  given m' = given m /\ handles m' = handles m /\ Forall (well_placed m') (given m) /\ ForallOrdPairs blocks_apart (given m).
Proof.
  intros HP Hl R Ha Hn X. destruct (run_ok L P fuel0 l HP Hl _ _ inv_start _ R) as (own & I).
  destruct (alloc_ok L P fuel m own a n HP I Ha Hn) as [(m1 & own1 & Y & I1 & H1 & H2)|[(_ & Y)|[(_ & Y)|(p & m1 & own1 & Y & Q & _)]]]; rewrite X in Y; try discriminate.
  2:{ injection Y as <- _. lia. }
  injection Y as <-. split; [auto|]. split; [auto|]. split; [|apply (i_pairs _ _ I)]. rewrite <- H2. apply Forall_forall. intros [[d p] k] Hg.
  destruct (i_given _ _ I1 _ Hg) as (A & B & C & c & x & D1 & D2 & D3 & D4 & D5 & _). exists c, x. split; [auto|]. split; [auto|]. split; [apply (i_blk _ _ I1 _ _ D3)|]. auto.
Qed.
Example arena_alloc_failure_partial_case : honest (bump_until 2) /\
  (let* m := arena_run false (bump_until 2) 5 [AInit 0; AAlloc 0 18] arena_start in
   let* (p, m') := arena_alloc false (bump_until 2) 5 (nth 0 (handles m) 0) 20000 m in
   Ok (p, given m', arena_total false (nth 0 (handles m) 0) m, arena_total false (nth 0 (handles m) 0) m')) =
  Ok (0, [(4112, 4448, 18)], Ok 10258, Ok 40754).
Proof. split; [apply bump_until_honest|]. vm_compute. reflexivity. Qed.

Lemma failed_grow L P a n fuel m own b h m' : honest P -> inv m own -> In a (handles m) -> find a (heap m) = Some b -> b_hdr b = Some h ->
  0 < h_threshold h -> 0 <= h_total h -> 0 < n -> h_total h + cost (h_threshold h) n < 9223372036854775808 ->
  grow_loop L P (Datatypes.S fuel) a n m = Ok (false, m') ->
  short_of h n = true /\ find a (heap m') = Some (rehdr (with_total (h_total h + 2 * ((257 + n + h_threshold h * 1024) / 2)) h) b) /\
  (forall c, c <> a -> find c (heap m') = find c (heap m)).
Proof.
  intros HP I Ha F E Th To Hn Hc. destruct (i_blk _ _ I _ _ F) as (A & A1 & A2 & _).
  cbn [grow_loop]. erewrite load_ok by (eauto; lia). cbn [bind]. destruct (short_of h n); [|discriminate].
  assert (Cv : chunk_size h n = h_total h + 2 * ((257 + n + h_threshold h * 1024) / 2)).
  { unfold cost in Hc. unfold chunk_size, HEADER. rewrite (u64_id (256 + n + h_threshold h * 1024)) by lia.
    rewrite align2_val by lia. rewrite s64_id by lia. rewrite u64_id by lia. do 3 f_equal. lia. }
  destruct (grow_ok L P m own a b h n HP I Ha F E) as [(m1 & -> & I' & H1 & H2 & H3 & H4 & _)|[(X & _)|(m1 & p & h1 & -> & Tk & P0 & _ & Q1 & Q2 & I')]]; cbn [bind].
  - intros X. injection X as <-. rewrite Cv in H3. auto.
  - lia.
  - destruct Tk as (T1 & T2 & T3 & T4 & T5 & T6 & T7 & T8). destruct (i_blk _ _ I' _ _ T5) as (_ & U1 & U2 & _). destruct (i_blk _ _ I' _ _ T4) as (V0 & _ & _ & V & _). cbn in V.
    assert (G : grow_loop L P fuel a n m1 = Ok (true, m1)).
    { destruct fuel; cbn [grow_loop]; (erewrite load_ok; [|lia|exact T5|exact U1|exact U2|reflexivity]); cbn [bind];
      unfold short_of; cbn [h_limit h_avail with_next with_limit with_avail]; rewrite s64_id by lia; replace (p + chunk_size h n - (p + 256) <? n) with false by lia; reflexivity. }
    rewrite G. discriminate.
Qed.

(** C49, exactly what a failure leaves behind: of all the memory of all arenas only the member total of this one
    arena changes; it has grown by the size of the chunk that could not be had. *)
Theorem arena_alloc_failure_effect L P fuel0 l m a n fuel m' b h :
  honest P -> Forall alloc_only l -> arena_run L P fuel0 l arena_start = Ok m -> In a (handles m) -> 0 < n < 9223372036854775807 ->
  find a (heap m) = Some b -> b_hdr b = Some h -> 0 < h_threshold h -> 0 <= h_total h -> h_total h + (261 + n + h_threshold h * 1024) < 9223372036854775808 ->
  arena_alloc L P (Datatypes.S fuel) a n m = Ok (0, m') ->
  arena_capacity L a m' = arena_capacity L a m /\
  (exists h', find a (heap m') = Some (Block (b_addr b) (b_size b) (b_live b) (Some h')) /\ h_total h' = h_total h + (256 + 2 * ((n + 1) / 2) + h_threshold h * 1024) /\
     h_type h' = h_type h /\ h_next h' = h_next h /\ h_limit h' = h_limit h /\ h_avail h' = h_avail h /\ h_base h' = h_base h /\ h_threshold h' = h_threshold h /\ h_bytes h' = h_bytes h) /\
  (forall c, c <> a -> find c (heap m') = find c (heap m)).
Proof.
  intros HP Hl R Ha Hn F E Th To Hc X. destruct (run_ok L P fuel0 l HP Hl _ _ inv_start _ R) as (own & I).
  destruct (i_blk _ _ I _ _ F) as (B1 & B2 & B3 & _). destruct (request_val n Hn) as (R0 & R1 & R2). assert (Rq : request n <= n + 1) by lia.
  assert (G : grow_loop L P (Datatypes.S fuel) a (request n) m = Ok (false, m')).
  { destruct (alloc_ok L P (Datatypes.S fuel) m own a n HP I Ha Hn) as [(m1 & own1 & Y & _)|[(_ & Y)|[(_ & Y)|(p & m1 & own1 & Y & Q & _)]]]; rewrite X in Y; try discriminate.
    2:{ injection Y as <- _. lia. }
    clear m1 own1 Y. revert X. unfold arena_alloc. replace (a =? 0) with false by lia. fold (request n).
    destruct (grow_loop_ok L P a (request n) (Datatypes.S fuel) HP m own I Ha) as [(m1 & own1 & -> & _)|[->|[->|(m1 & own1 & b1 & h1 & -> & I1 & H1 & H2 & [F1 E1] & Q)]]]; cbn [bind negb]; try discriminate.
    { intros Y. injection Y as ->. reflexivity. }
    destruct (i_blk _ _ I1 _ _ F1) as (A1 & A2 & A3 & _). erewrite load_ok by (eauto; lia). cbn [bind].
    pose proof (i_hdl _ _ I1 a ltac:(rewrite H1; auto)) as (Oa & b' & h' & F' & E' & Ct & Ctt & Cd). rewrite F1 in F'. injection F' as <-. rewrite E1 in E'. injection E' as <-.
    intros Y. exfalso. assert (Av : h_avail h1 = 0).
    { destruct (if h_next h1 =? 0 then Ok m1 else _) as [m2| | |]; cbn [bind] in Y; try discriminate. destruct (modify L a _ m2) as [m3| | |]; cbn [bind] in Y; try discriminate. congruence. }
    destruct Cd as [(D1 & D2 & D3)|(D1 & D2 & x & D3 & D4 & _)].
    - unfold short_of in Q. rewrite D2, D3 in Q. cbn in Q. lia.
    - destruct (i_blk _ _ I1 _ _ D3). lia. }
  destruct (failed_grow L P a (request n) fuel m own b h m' HP I Ha F E Th To ltac:(lia) ltac:(unfold cost; lia) G) as (_ & F' & O).
  split; [|split; [|exact O]].
  - unfold arena_capacity. replace (a =? 0) with false by lia. rewrite (load_ok L a m b h) by (auto; lia).
    rewrite (load_ok L a m' _ _ ltac:(lia) F') by (cbn; auto; reflexivity). reflexivity.
  - eexists. split; [exact F'|]. split; [|repeat split]. cbn [h_total with_total]. rewrite R0. clear. lia.
Qed.

(** C49 refuted: the failure is a NULL result, not a panic, and the arena is changed: its total counts the chunk that
    was never allocated. *)
Theorem arena_alloc_failure_refuted : exists P m a m', honest P /\ arena_run false P 50 [AInit 0] arena_start = Ok m /\ handles m = [a] /\
  arena_alloc false P 50 a 18 m = Ok (0, m') /\ arena_total false a m = Ok 0 /\ arena_total false a m' = Ok 10258.
Proof.
  exists (bump_until 1). eexists. exists 4112. eexists. split; [apply bump_until_honest|]. split; [vm_compute; reflexivity|]. split; [reflexivity|].
  split; [vm_compute; reflexivity|]. split; vm_compute; reflexivity.
Qed.
(** C49 refuted: arena_calloc then clears memory at NULL. *)
Theorem arena_calloc_null_refuted : exists P m a, honest P /\ arena_run false P 50 [AInit 0] arena_start = Ok m /\ handles m = [a] /\
  arena_calloc false P 50 a 3 8 m = Undef NullDeref.
Proof. exists (bump_until 1). eexists. exists 4112. split; [apply bump_until_honest|]. split; [vm_compute; reflexivity|]. split; [reflexivity|]. vm_compute. reflexivity. Qed.
(** C49 refuted: failed requests add up, the total wraps, and a later chunk is smaller than its own header. *)
Theorem arena_alloc_total_wraps_refuted : exists P l, honest P /\ Forall alloc_only l /\ arena_run false P 50 l arena_start = Undef OobWrite /\ length l = 4%nat.
Proof.
  exists (fun j h n => if n <? 9223372036854775808 then bump j h n else 0), [AInit 0; AAlloc 0 9223372036854700000; AAlloc 0 9223372036854700000; AAlloc 0 120164].
  split. { intros k h n Hn. destruct (n <? 9223372036854775808); [apply bump_honest; auto|auto]. }
  split; [repeat constructor; lia|]. split; [vm_compute; reflexivity|reflexivity].
Qed.

(** ** C83 *)
Lemma modify_asked L a f m m' : modify L a f m = Ok m' -> asked m' = asked m /\ free_list m' = free_list m.
Proof. intros M. destruct (modify_inv _ _ _ _ _ M) as (? & ? & _ & _ & ->). auto. Qed.
Lemma store_asked L a h m m' : store L a h m = Ok m' -> asked m' = asked m /\ free_list m' = free_list m.
Proof. unfold store. repeat (match goal with |- (match ?x with _ => _ end) = _ -> _ => destruct x end; try discriminate). intros X. injection X as <-. auto. Qed.
Lemma grow_asked L P a n m go m' : free_list m = 0 -> grow L P a n m = Ok (go, m') -> asked m' = Datatypes.S (asked m) /\ free_list m' = 0.
Proof.
  intros Fr. unfold grow. rewrite Fr. cbn [Z.eqb negb]. destruct (load L a m) as [h| | |]; cbn [bind]; try discriminate.
  set (t := u64 _). destruct (modify L a (with_total t) m) as [m1| | |] eqn:M1; cbn [bind]; try discriminate. destruct (modify_asked _ _ _ _ _ M1) as [A1 F1].
  unfold raii_malloc. destruct (P (asked m1) (heap m1) t =? 0) eqn:Z0; cbn [bind].
  - cbn. intros X. injection X as <- <-. cbn. split; congruence.
  - rewrite Z0. set (m2 := set_heap _ _). assert (A2 : asked m2 = Datatypes.S (asked m) /\ free_list m2 = 0) by (cbn; split; congruence). clearbody m2. destruct A2 as [A2 F2].
    assert (K : forall m3, (if h_base h =? 0 then modify L a (with_base (P (asked m1) (heap m1) t)) m2 else Ok m2) = Ok m3 -> asked m3 = Datatypes.S (asked m) /\ free_list m3 = 0).
    { destruct (h_base h =? 0); intros m3 X; [destruct (modify_asked _ _ _ _ _ X); split; congruence|injection X as <-; auto]. }
    destruct (if h_base h =? 0 then _ else _) as [m3| | |]; cbn [bind]; try discriminate. destruct (K m3 eq_refl) as [A3 F3]. rewrite Z0.
    destruct (load L a m3) as [h3| | |]; cbn [bind]; try discriminate.
    destruct (store _ _ _ m3) as [m4| | |] eqn:S4; cbn [bind]; try discriminate. destruct (store_asked _ _ _ _ _ S4) as [A4 F4].
    destruct (modify L a _ m4) as [m5| | |] eqn:M5; cbn [bind]; try discriminate. destruct (modify_asked _ _ _ _ _ M5) as [A5 F5].
    destruct (modify L _ _ m5) as [m6| | |] eqn:M6; cbn [bind]; try discriminate. destruct (modify_asked _ _ _ _ _ M6) as [A6 F6].
    intros X. injection X as <- <-. split; congruence.
Qed.
Lemma loop_asked L P a n fuel : forall m go m', free_list m = 0 -> grow_loop L P fuel a n m = Ok (go, m') -> (asked m <= asked m')%nat.
Proof.
  induction fuel as [|fuel IH]; intros m go m' Fr; cbn [grow_loop]; destruct (load L a m) as [h| | |]; cbn [bind]; try discriminate;
  (destruct (short_of h n); [|intros X; injection X as <- <-; lia]); [discriminate|].
  destruct (grow L P a n m) as [[g m1]| | |] eqn:G; cbn [bind]; try discriminate. destruct (grow_asked _ _ _ _ _ _ _ Fr G) as [A1 F1].
  destruct g; [|intros X; injection X as <- <-; lia]. intros X. specialize (IH _ _ _ F1 X). lia.
Qed.

(** C83.  Arenas that were only created and allocated from.  What arena_capacity returns (when it is not the wrapped-around negative number of an
    arena whose chunk size overflowed) decides exactly whether the next allocation needs the system: a size that, rounded up to even, is within it
    succeeds without a request; a larger one makes at least one. *)
Theorem arena_capacity_decides L P fuel0 l m a c :
  honest P -> Forall alloc_only l -> arena_run L P fuel0 l arena_start = Ok m -> In a (handles m) -> arena_capacity L a m = Ok c -> c < 9223372036854775808 ->
  forall n fuel, 0 < n < 9223372036854775807 ->
  (n + n mod 2 <= c -> exists p m', arena_alloc L P fuel a n m = Ok (p, m') /\ 0 < p /\ asked m' = asked m /\ arena_capacity L a m' = Ok (c - (n + n mod 2))) /\
  (c < n + n mod 2 -> forall p m', arena_alloc L P fuel a n m = Ok (p, m') -> (asked m < asked m')%nat).
Proof.
  intros HP Hl R Ha Cp Hc n fuel Hn. destruct (run_ok L P fuel0 l HP Hl _ _ inv_start _ R) as (own & I).
  destruct (i_hdl _ _ I a Ha) as (Oa & b & h & F & E & Ty & Tt & D). destruct (i_blk _ _ I _ _ F) as (B1 & B2 & B3 & B4 & _).
  assert (Ld : load L a m = Ok h) by (eapply load_ok; eauto; lia).
  destruct (request_val n Hn) as (R0 & R1 & R2). assert (Rq : request n = n + n mod 2) by (rewrite R0; lia). rewrite <- Rq.
  assert (Bd : 0 <= h_avail h < 9223372036854775808 /\ 0 <= h_limit h < 9223372036854775808 /\ (h_next h = 0 -> h_avail h = 0 /\ h_limit h = 0)).
  { destruct D as [(D1 & D2 & D3)|(D1 & D2 & x & D3 & D4 & D5 & D6 & D7)]; [lia|]. destruct (i_blk _ _ I _ _ D3) as (X1 & X2 & X3 & X4 & _).
    unfold arena_capacity in Cp. replace (a =? 0) with false in Cp by lia. rewrite Ld in Cp. cbn [bind] in Cp. rewrite Ty in Cp. cbn [Z.eqb Pos.eqb ARENA_TAG] in Cp. injection Cp as Cp.
    split; [|split; [lia|contradiction]]. split; [lia|]. destruct D7; [|lia].
    assert (h_avail h = h_next h + 256) by lia. destruct (Z.le_gt_cases (h_avail h) (h_limit h)); [lia|].
    rewrite s64_id in Cp by lia. unfold u64 in Cp. lia. }
  destruct Bd as (Ba & Bl & Bz).
  assert (Cv : c = h_limit h - h_avail h /\ 0 <= c).
  { unfold arena_capacity in Cp. replace (a =? 0) with false in Cp by lia. rewrite Ld in Cp. cbn [bind] in Cp. rewrite Ty in Cp. cbn [Z.eqb Pos.eqb ARENA_TAG] in Cp. injection Cp as Cp.
    rewrite s64_id in Cp by lia. unfold u64 in Cp. lia. }
  destruct Cv as [Cv C0]. unfold arena_alloc. replace (a =? 0) with false by lia. fold (request n).
  assert (Sh : short_of h (request n) = (c <? request n)) by (unfold short_of; rewrite s64_id by lia; rewrite Cv; reflexivity).
  split; intros Q.
  - assert (G : grow_loop L P fuel a (request n) m = Ok (true, m)).
    { destruct fuel; cbn [grow_loop]; rewrite Ld; cbn [bind]; rewrite Sh; replace (c <? request n) with false by lia; reflexivity. }
    rewrite G. cbn [bind negb]. rewrite Ld. cbn [bind].
    destruct D as [(D1 & D2 & D3)|(D1 & D2 & x & D3 & D4 & D5 & D6 & D7)]; [lia|]. replace (h_next h =? 0) with false by lia.
    destruct (i_blk _ _ I _ _ D3) as (X1 & X2 & X3 & X4 & _). destruct (i_chunk _ _ I (h_next h) ltac:(lia)) as (_ & x' & hx & Fx & Ex & _). rewrite D3 in Fx. injection Fx as <-.
    erewrite modify_ok by (eauto; lia). cbn [bind]. set (m1 := set_heap _ m).
    assert (Ne : a <> h_next h) by (intros Y; rewrite Y in Oa; lia).
    assert (F1 : find a (heap m1) = Some b) by (unfold m1; cbn [set_heap heap]; rewrite find_put_other; auto).
    erewrite modify_ok by (eauto; lia). cbn [bind]. set (h1 := with_avail _ _). set (m2 := set_heap _ m1). eexists _, _. split; [reflexivity|]. split; [lia|].
    replace (h_avail h =? 0) with false by lia. split; [reflexivity|].
    assert (F2 : find a (heap (note_given (a, h_avail h, n) m2)) = Some (rehdr h1 b)) by (cbn; apply find_put_same; auto).
    unfold arena_capacity. replace (a =? 0) with false by lia. erewrite load_ok; [|lia|exact F2|exact B2|exact B3|reflexivity]. cbn [bind].
    unfold h1. cbn [with_avail with_bytes h_type h_limit h_avail]. rewrite Ty. cbn [Z.eqb Pos.eqb ARENA_TAG]. f_equal. rewrite (u64_id (_ + _)) by lia. rewrite s64_id by lia. rewrite u64_id by lia. lia.
  - intros p m'. destruct (grow_loop L P fuel a (request n) m) as [[go m1]| | |] eqn:G; cbn [bind]; try discriminate.
    assert (A1 : (asked m < asked m1)%nat).
    { destruct fuel as [|fuel]; cbn [grow_loop] in G; rewrite Ld in G; cbn [bind] in G; rewrite Sh in G; replace (c <? request n) with true in G by lia; [discriminate|].
      destruct (grow L P a (request n) m) as [[g m2]| | |] eqn:Gr; cbn [bind] in G; try discriminate. destruct (grow_asked _ _ _ _ _ _ _ (i_free _ _ I) Gr) as [A2 F2].
      destruct g; [|injection G as <- <-; lia]. apply loop_asked in G; auto. lia. }
    destruct go; cbn [negb]; [|intros X; injection X as <- <-; lia].
    destruct (load L a m1) as [h1| | |]; cbn [bind]; try discriminate.
    assert (K : forall m2, (if h_next h1 =? 0 then Ok m1 else modify L (h_next h1) (with_bytes (h_bytes h1)) m1) = Ok m2 -> asked m2 = asked m1).
    { destruct (h_next h1 =? 0); intros m2 X; [injection X as <-; auto|apply (modify_asked _ _ _ _ _ X)]. }
    destruct (if h_next h1 =? 0 then _ else _) as [m2| | |]; cbn [bind]; try discriminate. specialize (K m2 eq_refl).
    destruct (modify L a _ m2) as [m3| | |] eqn:M3; cbn [bind]; try discriminate. destruct (modify_asked _ _ _ _ _ M3) as [A3 _].
    intros X. injection X as _ <-. destruct (h_avail h1 =? 0); cbn; lia.
Qed.
Example arena_capacity_case : let l := [AInit 0; AAlloc 0 18; AAlloc 0 7] in
  (let* m := arena_run false bump 5 l arena_start in
   let* c := arena_capacity false 4112 m in
   let* (p, m1) := arena_alloc false bump 5 4112 10231 m in
   let* (q, m2) := arena_alloc false bump 5 4112 10233 m in
   Ok (c, asked m, (p, asked m1), (q, asked m2))) = Ok (10232, 2%nat, (4474, 2%nat), (14976, 3%nat)) /\ Forall alloc_only l /\ honest bump.
Proof. split; [vm_compute; reflexivity|]. split; [repeat constructor; cbn; lia|apply bump_honest]. Qed.

(** * The theorems above on concrete values: their hypotheses can be met. *)
Ltac calc := vm_compute; first [reflexivity | discriminate | (intros; discriminate)].
Ltac met := first [ lazymatch goal with |- _ = _ => vm_compute; reflexivity end | lia | lazymatch goal with |- honest _ => first [apply bump_honest | apply bump_until_honest] | |- In _ _ => vm_compute; auto 10 end  | (repeat constructor; cbn; lia) | (left; discriminate) | (right; calc) | (intros; lia) | calc | (split; calc) ].
Definition ran (P : allocator) (l : list aop) : mem := match arena_run false P 5 l arena_start with Ok m => m | _ => arena_start end.
Definition some_ops := [AInit 0; AAlloc 0 18; AInit 4; AAlloc 0 20000; AAlloc 1 5].
Example arena_blocks_disjoint_met := arena_blocks_disjoint false bump 5 some_ops (ran bump some_ops) ltac:(met) ltac:(met) ltac:(met).
Example arena_history_defined_met := arena_history_defined false bump 5 some_ops 10 ltac:(met) ltac:(met) ltac:(met) ltac:(met) ltac:(met).
Example arena_clear_once_partial_met := arena_clear_once_partial false bump 4 10 18 [9; 100; 10000] (ran bump [AInit 10; AAlloc 0 18]) ltac:(met) ltac:(met) ltac:(met) ltac:(met)
  ltac:(met) ltac:(met) ltac:(met) ltac:(met).
Example arena_free_releases_partial_met := arena_free_releases_partial false bump 5 some_ops (ran bump some_ops) 4112 ltac:(met) ltac:(met) ltac:(met) ltac:(met) ltac:(met).
Definition after_some : mem := match arena_run false bump 5 some_ops arena_start with Ok m => m | _ => arena_start end.
Lemma after_run : arena_run false bump 5 some_ops arena_start = Ok after_some. Proof. vm_compute. reflexivity. Qed.
Lemma after_owned : owned after_some 4112 14800 /\ In 4112 (handles after_some) /\ In 14720 (handles after_some).
Proof. split; [|split; [vm_compute; auto|vm_compute; auto]]. assert (F : exists b h, find 4112 (heap after_some) = Some b /\ b_hdr b = Some h /\ h_next h = 14800) by (eexists _, _; split; [vm_compute; reflexivity|split; reflexivity]).
  destruct F as (b & h & F & H & N). rewrite <- N. eapply owned_first; eauto. rewrite N. discriminate. Qed.
Example arena_free_uses_released_met := arena_free_uses_released false bump 5 some_ops after_some 4112 14800 7 ltac:(met) ltac:(met) ltac:(met) after_run
  (proj1 (proj2 after_owned)) (proj1 after_owned).
Example arena_clear_leaks_met := arena_clear_leaks false bump 5 some_ops after_some 4112 14800 7 ltac:(met) ltac:(met) ltac:(met) after_run
  (proj1 (proj2 after_owned)) (proj1 after_owned).
Example arenas_independent_partial_met := arenas_independent_partial false bump 5 some_ops after_some 4112 4112 14800 ltac:(met) ltac:(met) after_run
  (proj1 (proj2 after_owned)) (proj1 (proj2 after_owned)) (proj1 after_owned) (proj1 after_owned).
Definition failed : mem := match arena_alloc false (bump_until 2) 5 4112 20000 (ran (bump_until 2) [AInit 0; AAlloc 0 18]) with Ok (_, m) => m | _ => arena_start end.
Example arena_alloc_failure_partial_met := arena_alloc_failure_partial false (bump_until 2) 5 [AInit 0; AAlloc 0 18] (ran (bump_until 2) [AInit 0; AAlloc 0 18]) 4112 20000 5 failed
  ltac:(met) ltac:(met) ltac:(met) ltac:(met) ltac:(met) ltac:(met).
Example arena_alloc_failure_effect_met b h := arena_alloc_failure_effect false (bump_until 2) 5 [AInit 0; AAlloc 0 18] (ran (bump_until 2) [AInit 0; AAlloc 0 18]) 4112 20000 4 failed b h
  ltac:(met) ltac:(met) ltac:(met) ltac:(met) ltac:(met).
Example arena_alloc_failure_effect_case : exists b h, find 4112 (heap (ran (bump_until 2) [AInit 0; AAlloc 0 18])) = Some b /\ b_hdr b = Some h /\
  0 < h_threshold h /\ 0 <= h_total h /\ h_total h + (261 + 20000 + h_threshold h * 1024) < 9223372036854775808 /\
  arena_alloc false (bump_until 2) 5 4112 20000 (ran (bump_until 2) [AInit 0; AAlloc 0 18]) = Ok (0, failed).
Proof. eexists _, _. split; [vm_compute; reflexivity|]. split; [reflexivity|]. split; [reflexivity|]. split; [discriminate|]. split; [reflexivity|]. vm_compute. reflexivity. Qed.
Example arena_capacity_decides_met := arena_capacity_decides false bump 5 [AInit 0; AAlloc 0 18; AAlloc 0 7] (ran bump [AInit 0; AAlloc 0 18; AAlloc 0 7]) 4112 10232
  ltac:(met) ltac:(met) ltac:(met) ltac:(met) ltac:(met) ltac:(met) 10231 5 ltac:(met).

Print Assumptions arena_capacity_decides.
Print Assumptions arena_blocks_disjoint.
Print Assumptions arena_history_defined.
Print Assumptions arena_alloc_largest_refuted.
Print Assumptions arena_clear_once_partial.
Print Assumptions arena_clear_leaks.
Print Assumptions arena_clear_overlap_refuted.
Print Assumptions arena_clear_outside_refuted.
Print Assumptions arena_clear_leak_refuted.
Print Assumptions arena_clear_twice_refuted.
Print Assumptions arena_free_releases_partial.
Print Assumptions arena_free_uses_released.
Print Assumptions arena_free_use_after_free_refuted.
Print Assumptions arena_free_miscounts_refuted.
Print Assumptions arenas_independent_partial.
Print Assumptions arenas_share_chunk_refuted.
Print Assumptions arena_hands_out_released_refuted.
Print Assumptions arena_alloc_failure_partial.
Print Assumptions arena_alloc_failure_effect.
Print Assumptions arena_alloc_failure_refuted.
Print Assumptions arena_calloc_null_refuted.
Print Assumptions arena_alloc_total_wraps_refuted.

(** The NULL arena: it has no capacity, clearing and freeing do nothing, allocating from it panics. *)
Theorem arena_null : forall L P fuel n c m,
  arena_capacity L 0 m = Ok 0 /\ arena_total L 0 m = Ok 0 /\ arena_clear L fuel 0 m = Ok m /\ arena_free L fuel 0 m = Ok m /\
  arena_alloc L P fuel 0 n m = Panics /\ (-9223372036854775808 <= c * n < 9223372036854775808 -> arena_calloc L P fuel 0 c n m = Panics).
Proof.
  intros L P fuel n c m. repeat (split; [reflexivity|]). intros H. unfold arena_calloc. replace ((-9223372036854775808 <=? c * n) && (c * n <? 9223372036854775808)) with true by lia. reflexivity.
Qed.
Print Assumptions arena_null.

Lemma request_low n : -9223372036854775808 <= n <= 0 -> request n = n + n mod 2.
Proof.
  intros H. unfold request. destruct (Z.eq_dec n 0) as [-> |N0]; [reflexivity|]. destruct (Z.eq_dec n (-1)) as [-> |N1]; [reflexivity|].
  assert (U : u64 n = n + 18446744073709551616) by (unfold u64; rewrite <- (Z_mod_plus_full n 1 18446744073709551616); apply Z.mod_small; lia).
  rewrite U. rewrite align2_val by lia. replace (2 * ((n + 18446744073709551616 + 1) / 2)) with (n + n mod 2 + 18446744073709551616) by lia.
  assert (K : -9223372036854775808 <= n + n mod 2 < 0) by lia. remember (n + n mod 2) as k. clear - K. unfold s64, u64. cbv zeta. rewrite Z.mod_small by lia.
  replace (k + 18446744073709551616 <? 9223372036854775808) with false by lia. lia.
Qed.
Lemma u64_s64 x : u64 (s64 x) = u64 x.
Proof.
  unfold s64, u64. cbv zeta. destruct (x mod 18446744073709551616 <? 9223372036854775808); [apply Z.mod_mod; lia|].
  rewrite <- (Z_mod_plus_full _ 1 18446744073709551616). replace (x mod 18446744073709551616 - 18446744073709551616 + 1 * 18446744073709551616) with (x mod 18446744073709551616) by ring. apply Z.mod_mod. lia.
Qed.
(** A size that is not positive is not rejected (the assertions of arena.c 51 and 101 are empty): arena_alloc returns the start of the free space and gives
    memory that was handed out before back to it, and arena_calloc with a negative product clears memory far beyond the block. *)
Theorem arena_negative_size L P fuel0 l m a c :
  honest P -> Forall alloc_only l -> arena_run L P fuel0 l arena_start = Ok m -> In a (handles m) -> arena_capacity L a m = Ok c -> 0 < c < 9223372036854775808 ->
  (forall n fuel, -9223372036854775808 <= n <= 0 -> exists p m', arena_alloc L P fuel a n m = Ok (p, m') /\ 0 < p /\ asked m' = asked m /\ arena_capacity L a m' = Ok (c - (n + n mod 2))) /\
  (forall count n fuel, -9223372036854775808 <= count * n < 0 -> arena_calloc L P fuel a count n m = Undef OobWrite).
Proof.
  intros HP Hl R Ha Cp Hc. assert (Main : forall n fuel, -9223372036854775808 <= n <= 0 -> exists p m', arena_alloc L P fuel a n m = Ok (p, m') /\ 0 < p /\ asked m' = asked m /\ arena_capacity L a m' = Ok (c - (n + n mod 2))).
  { intros n fuel Hn. destruct (run_ok L P fuel0 l HP Hl _ _ inv_start _ R) as (own & I).
    destruct (i_hdl _ _ I a Ha) as (Oa & b & h & F & E & Ty & Tt & D). destruct (i_blk _ _ I _ _ F) as (B1 & B2 & B3 & B4 & _).
    assert (Ld : load L a m = Ok h) by (eapply load_ok; eauto; lia). pose proof (request_low n Hn) as Rq. rewrite <- Rq.
    unfold arena_capacity in Cp. replace (a =? 0) with false in Cp by lia. rewrite Ld in Cp. cbn [bind] in Cp. rewrite Ty in Cp. cbn [Z.eqb Pos.eqb ARENA_TAG] in Cp. injection Cp as Cp.
    destruct D as [(D1 & D2 & D3)|(D1 & D2 & x & D3 & D4 & D5 & D6 & D7)]; [exfalso; rewrite D2, D3 in Cp; cbn in Cp; lia|]. destruct (i_blk _ _ I _ _ D3) as (X1 & X2 & X3 & X4 & _).
    assert (Ba : 0 <= h_avail h < 9223372036854775808 /\ 0 <= h_limit h < 9223372036854775808).
    { split; [|lia]. split; [lia|]. destruct D7; [|lia]. assert (h_avail h = h_next h + 256) by lia. destruct (Z.le_gt_cases (h_avail h) (h_limit h)); [lia|]. rewrite s64_id in Cp by lia. unfold u64 in Cp. lia. }
    destruct Ba as (Ba & Bl). assert (Cv : c = h_limit h - h_avail h) by (rewrite s64_id in Cp by lia; unfold u64 in Cp; lia).
    unfold arena_alloc. replace (a =? 0) with false by lia. fold (request n).
    assert (Sh : short_of h (request n) = false) by (unfold short_of; rewrite s64_id by lia; lia).
    assert (G : grow_loop L P fuel a (request n) m = Ok (true, m)) by (destruct fuel; cbn [grow_loop]; rewrite Ld; cbn [bind]; rewrite Sh; reflexivity).
    rewrite G. cbn [bind negb]. rewrite Ld. cbn [bind]. replace (h_next h =? 0) with false by lia.
    destruct (i_chunk _ _ I (h_next h) ltac:(lia)) as (_ & x' & hx & Fx & Ex & _). rewrite D3 in Fx. injection Fx as <-.
    erewrite modify_ok by (eauto; lia). cbn [bind]. set (m1 := set_heap _ m). assert (Ne : a <> h_next h) by (intros Y; rewrite Y in Oa; lia).
    assert (F1 : find a (heap m1) = Some b) by (unfold m1; cbn [set_heap heap]; rewrite find_put_other; auto).
    erewrite modify_ok by (eauto; lia). cbn [bind]. set (h1 := with_avail _ _). set (m2 := set_heap _ m1). eexists _, _. split; [reflexivity|]. split; [lia|].
    replace (h_avail h =? 0) with false by lia. split; [reflexivity|].
    assert (F2 : find a (heap (note_given (a, h_avail h, n) m2)) = Some (rehdr h1 b)) by (cbn; apply find_put_same; auto).
    unfold arena_capacity. replace (a =? 0) with false by lia. erewrite load_ok; [|lia|exact F2|exact B2|exact B3|reflexivity]. cbn [bind].
    unfold h1. cbn [with_avail with_bytes h_type h_limit h_avail]. rewrite Ty. cbn [Z.eqb Pos.eqb ARENA_TAG]. f_equal.
    assert (Low : -9223372036854775808 <= request n <= 0) by lia. clear - Low Ba Bl Cv Hc. rewrite u64_s64. unfold u64. lia. }
  split; [exact Main|]. intros count n fuel Hn. destruct (Main (count * n) fuel ltac:(lia)) as (p & m' & E & Hp & _). unfold arena_calloc.
  replace ((-9223372036854775808 <=? count * n) && (count * n <? 9223372036854775808)) with true by lia. cbn [negb]. rewrite E. cbn [bind]. replace (p =? 0) with false by lia. replace (count * n <? 0) with true by lia. reflexivity.
Qed.
Example arena_negative_met := arena_negative_size false bump 5 [AInit 0; AAlloc 0 18; AAlloc 0 7] (ran bump [AInit 0; AAlloc 0 18; AAlloc 0 7]) 4112 10232
  ltac:(met) ltac:(met) ltac:(met) ltac:(met) ltac:(met) ltac:(met).
(** The block of 18 bytes is handed out a second time. *)
Theorem arena_negative_overlap_refuted : exists m p q m1 m2, arena_run false bump 5 [AInit 0] arena_start = Ok m /\
  (let* (p, m) := arena_alloc false bump 5 4112 18 m in let* (_, m) := arena_alloc false bump 5 4112 (-18) m in Ok (p, m)) = Ok (p, m1) /\ arena_alloc false bump 5 4112 18 m1 = Ok (q, m2) /\ q = p.
Proof. eexists _, _, _, _, _. split; [vm_compute; reflexivity|]. split; [vm_compute; reflexivity|]. split; [vm_compute; reflexivity|]. reflexivity. Qed.
Print Assumptions arena_negative_size.
Print Assumptions arena_negative_overlap_refuted.
