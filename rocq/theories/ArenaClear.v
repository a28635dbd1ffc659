(** Proofs about arena_clear on an arena with a single allocation. *)
From Verif Require Import Base BaseLemmas SpecArena ArenaProofs ArenaAlloc ArenaFree.

(** An arena [a] with header [h], alone with its chunk [c]. *)
Record one_chunk (m : mem) (a c : Z) (bc : block) (h : hdr) : Prop := {
  o_a : 0 < a; o_c : c <> 0; o_ca : c <> a;
  o_arena : exists b, find a (heap m) = Some b /\ b_live b = true /\ 72 <= b_size b /\ b_hdr b = Some h;
  o_next : h_next h = c;
  o_chunk : find c (heap m) = Some bc /\ b_live bc = true /\ 72 <= b_size bc;
  o_hdr : exists hc, b_hdr bc = Some hc;
  o_limit : h_limit h = c + b_size bc /\ h_limit h < 9223372036854775808 /\ 0 < h_avail h }.

Lemma clear_one L fuel m a c bc hc h : one_chunk m a c bc h -> b_hdr bc = Some hc -> h_type hc = RAII_ARENA -> free_list m = 0 ->
  0 <= num_free m < 2147483647 -> num_free m < s32 (h_threshold h) ->
  exists m' bc', arena_clear L (Datatypes.S fuel) a m = Ok m' /\ given m' = given m /\ handles m' = handles m /\
    find c (heap m') = Some bc' /\ b_live bc' = true /\ b_size bc' = b_size bc /\ (exists hc', b_hdr bc' = Some hc') /\
    exists b', find a (heap m') = Some b' /\ b_live b' = true /\ 72 <= b_size b' /\
      b_hdr b' = Some (with_avail (u64 (h_avail h - (if h_bytes hc =? 0 then h_bytes h else h_bytes hc))) h).
Proof.
  intros [A C0 Ca (b & F & Lb & Sb & E) N (Fc & Lc & Sc) _ _] Ec Ty Fr Nf Th.
  unfold arena_clear. replace (a =? 0) with false by lia. cbn [clear_loop]. erewrite load_ok by (eauto; lia). cbn [bind]. rewrite N. replace (c =? 0) with false by lia.
  erewrite load_ok by eauto. cbn [bind]. rewrite Ty. replace (negb (RAII_ARENA =? RAII_ARENA)) with false by reflexivity.
  replace (num_free m <? s32 (h_threshold h)) with true by lia. rewrite Fr.
  erewrite modify_ok by eauto. cbn [bind]. set (m1 := set_heap (put c (rehdr (with_next 0 hc)) (heap m)) m). change (num_free m1) with (num_free m). unfold add_int.
  replace ((-2147483648 <=? num_free m + 1) && (num_free m + 1 <? 2147483648))%bool with true by (symmetry; lia). cbn [bind].
  set (m2 := set_free c (num_free m + 1) m1).
  assert (F2 : find a (heap m2) = Some b) by (cbn; rewrite find_put_other by auto; auto).
  assert (F2c : find c (heap m2) = Some (rehdr (with_next 0 hc) bc)) by (cbn; apply find_put_same; auto).
  erewrite load_ok; [|lia|exact F2|auto|auto|eauto]. cbn [bind].
  erewrite modify_ok; [|auto|exact F2c|auto|auto|reflexivity]. cbn [bind]. set (h3 := with_limit (h_limit h) (with_next 0 hc)).
  set (m3 := set_heap (put c (rehdr h3) (heap m2)) m2).
  assert (F3 : find a (heap m3) = Some b). { unfold m3. cbn [set_heap heap]. rewrite find_put_other by auto; auto. }
  assert (F3c : find c (heap m3) = Some (rehdr h3 bc)). { unfold m3. cbn [set_heap heap]. erewrite find_put_same by exact F2c. reflexivity. }
  erewrite (load_ok L c); [|auto|exact F3c|auto|auto|reflexivity]. cbn [bind].
  erewrite (load_ok L a); [|lia|exact F3|auto|auto|eauto]. cbn [bind].
  erewrite modify_ok; [|lia|exact F3|auto|auto|exact E]. cbn [bind]. change (h_bytes h3) with (h_bytes hc).
  set (h4 := with_avail _ h). set (m4 := set_heap _ m3).
  assert (F4c : find c (heap m4) = Some (rehdr h3 bc)). { unfold m4. cbn [set_heap heap]. rewrite find_put_other by auto; auto. }
  assert (X : clear_loop L fuel c m4 = Ok m4). { destruct fuel; cbn [clear_loop]; (erewrite load_ok; [|auto|exact F4c|auto|auto|reflexivity]); reflexivity. }
  rewrite X. exists m4, (rehdr h3 bc). split; [reflexivity|]. split; [reflexivity|]. split; [reflexivity|]. split; [exact F4c|].
  split; [auto|]. split; [auto|]. split; [eexists; reflexivity|]. exists (rehdr h4 b). split; [unfold m4; cbn [set_heap heap]; apply find_put_same; auto|]. auto.
Qed.

(** One arena_clear on an arena whose first chunk is [c], when the list of free chunks is empty and has room:
    only the arena and [c] are touched. *)
Lemma clear_first L fuel m a b h c bc hc : 0 < a -> c <> 0 -> c <> a ->
  find a (heap m) = Some b -> b_live b = true -> 72 <= b_size b -> b_hdr b = Some h -> h_next h = c ->
  find c (heap m) = Some bc -> b_live bc = true -> 72 <= b_size bc -> b_hdr bc = Some hc -> h_type hc = RAII_ARENA -> free_list m = 0 ->
  0 <= num_free m < 2147483647 -> num_free m < s32 (h_threshold h) ->
  exists m' v, arena_clear L (Datatypes.S fuel) a m = Ok m' /\ given m' = given m /\ handles m' = handles m /\ free_list m' = c /\ num_free m' = num_free m + 1 /\
    find c (heap m') = Some (rehdr (with_limit (h_limit h) (with_next 0 hc)) bc) /\ find a (heap m') = Some (rehdr (with_avail v h) b) /\
    (forall d, d <> a -> d <> c -> find d (heap m') = find d (heap m)).
Proof.
  intros A C0 Ca F Lb Sb E N Fc Lc Sc Ec Ty Fr Nf Th.
  unfold arena_clear. replace (a =? 0) with false by lia. cbn [clear_loop]. erewrite load_ok by (eauto; lia). cbn [bind]. rewrite N. replace (c =? 0) with false by lia.
  erewrite load_ok by eauto. cbn [bind]. rewrite Ty. replace (negb (RAII_ARENA =? RAII_ARENA)) with false by reflexivity.
  replace (num_free m <? s32 (h_threshold h)) with true by lia. rewrite Fr.
  erewrite modify_ok by eauto. cbn [bind]. set (m1 := set_heap (put c (rehdr (with_next 0 hc)) (heap m)) m). change (num_free m1) with (num_free m). unfold add_int.
  replace ((-2147483648 <=? num_free m + 1) && (num_free m + 1 <? 2147483648))%bool with true by (symmetry; lia). cbn [bind].
  set (m2 := set_free c (num_free m + 1) m1).
  assert (F2 : find a (heap m2) = Some b) by (cbn; rewrite find_put_other by auto; auto).
  assert (F2c : find c (heap m2) = Some (rehdr (with_next 0 hc) bc)) by (cbn; apply find_put_same; auto).
  assert (F2o : forall d, d <> c -> find d (heap m2) = find d (heap m)) by (intros; cbn; rewrite find_put_other by auto; auto).
  erewrite load_ok; [|lia|exact F2|auto|auto|eauto]. cbn [bind].
  erewrite modify_ok; [|auto|exact F2c|auto|auto|reflexivity]. cbn [bind]. set (h3 := with_limit (h_limit h) (with_next 0 hc)).
  set (m3 := set_heap (put c (rehdr h3) (heap m2)) m2).
  assert (F3 : find a (heap m3) = Some b). { unfold m3. cbn [set_heap heap]. rewrite find_put_other by auto; auto. }
  assert (F3c : find c (heap m3) = Some (rehdr h3 bc)). { unfold m3. cbn [set_heap heap]. erewrite find_put_same by exact F2c. reflexivity. }
  assert (F3o : forall d, d <> c -> find d (heap m3) = find d (heap m)). { intros. unfold m3. cbn [set_heap heap]. rewrite find_put_other by auto; auto. }
  erewrite (load_ok L c); [|auto|exact F3c|auto|auto|reflexivity]. cbn [bind].
  erewrite (load_ok L a); [|lia|exact F3|auto|auto|eauto]. cbn [bind].
  erewrite modify_ok; [|lia|exact F3|auto|auto|exact E]. cbn [bind].
  set (h4 := with_avail _ h). set (m4 := set_heap _ m3).
  assert (F4c : find c (heap m4) = Some (rehdr h3 bc)). { unfold m4. cbn [set_heap heap]. rewrite find_put_other by auto; auto. }
  assert (X : clear_loop L fuel c m4 = Ok m4). { destruct fuel; cbn [clear_loop]; (erewrite load_ok; [|auto|exact F4c|auto|auto|reflexivity]); reflexivity. }
  rewrite X. eexists m4, _. split; [reflexivity|]. split; [reflexivity|]. split; [reflexivity|]. split; [reflexivity|]. split; [reflexivity|]. split; [exact F4c|].
  split; [unfold m4; cbn [set_heap heap]; apply find_put_same; auto|]. intros d D1 D2. unfold m4. cbn [set_heap heap]. rewrite find_put_other by auto. auto.
Qed.

Lemma store_other L q h m m' a : store L q h m = Ok m' -> a <> q -> find a (heap m') = find a (heap m).
Proof.
  unfold store. destruct (q =? 0); [discriminate|]. destruct (find q (heap m)) as [bq|]; [|discriminate]. destruct (negb (b_live bq || L)); [discriminate|].
  destruct (b_size bq <? HDR_SIZE); [discriminate|]. intros Y N. injection Y as <-. cbn [set_heap heap]. rewrite find_put by reflexivity. destruct (Z.eqb_spec q a); [congruence|reflexivity].
Qed.

(** The first allocation of a new arena. *)
Lemma first_alloc L P fuel t n m : honest P -> 0 < n < 9223372036854775807 ->
  0 <= t -> 260 + (n + 1) + Z.max 10 t * 1024 < 9223372036854775807 -> 
  arena_run L P (Datatypes.S fuel) [AInit t; AAlloc 0 n] arena_start = Ok m -> given m <> [] ->
  exists a c bc h hc, handles m = [a] /\ one_chunk m a c bc h /\ b_hdr bc = Some hc /\ h_type hc = RAII_ARENA /\ free_list m = 0 /\ num_free m = 0 /\
    h_threshold h = (if t <=? 0 then 10 else t) /\ h_bytes hc = 0 /\ h_bytes h = 2 * ((n + 1) / 2) /\ h_avail h = c + 256 + 2 * ((n + 1) / 2) /\
    256 + 2 * ((n + 1) / 2) + h_threshold h * 1024 <= b_size bc /\ given m = [(a, c + 256, n)].
Proof.
  intros HP Hn Ht Hb R G. cbn [arena_run arena_step] in R.
  destruct (init_ok P t arena_start _ HP inv_start) as [X|(a & m0 & X & A & I & H1 & H2 & F0 & _)]; rewrite X in R; cbn [bind] in R; [discriminate|].
  rewrite H1 in R. cbn [app handles arena_start nth] in *.
  assert (N0 : num_free m0 = 0) by (rewrite (init_num _ _ _ _ _ X); reflexivity).
  set (t' := if t <=? 0 then 10 else t) in *. assert (Ht' : 0 < t' <= Z.max 10 t) by (unfold t'; destruct (Z.leb_spec t 0); lia).
  set (h0 := Hdr ARENA_TAG 0 0 0 0 t' 0 0) in *. set (b0 := Block a 72 true (Some h0)) in *.
  destruct (request_val n Hn) as (R0 & R1 & R2).
  revert R. unfold arena_alloc. replace (a =? 0) with false by lia. fold (request n). cbn [grow_loop].
  erewrite load_ok; [|lia|exact F0|reflexivity|cbn; lia|reflexivity]. cbn [bind].
  assert (S0 : short_of h0 (request n) = true). { unfold short_of. cbn [h0 h_limit h_avail]. change (s64 (0 - 0)) with 0. lia. } rewrite S0.
  destruct (grow_ok L P m0 _ a b0 h0 (request n) HP I ltac:(rewrite H1; left; auto) F0 eq_refl)
    as [(m1 & -> & I1 & K1 & K2 & _)|[(_ & ->)|(m1 & c & h1 & Gr & Tk & P0 & Pf & Q1 & Q2 & I1)]]; cbn [bind negb]; try discriminate.
  { intros Y. injection Y as <-. rewrite K2, H2 in G. contradiction. }
  pose proof (grow_num _ _ _ _ _ _ _ (i_free _ _ I) Gr) as N1. rewrite Gr. cbn [bind].
  destruct Tk as (T1 & T2 & T3 & T4 & T5 & T6 & T7 & T8).
  assert (B1 : h_bytes h1 = 0).
  { revert Gr T5. unfold grow. rewrite (i_free _ _ I). cbn [Z.eqb negb]. erewrite load_ok; [|lia|exact F0|reflexivity|cbn; lia|reflexivity]. cbn [bind].
    set (tt := u64 _). erewrite modify_ok; [|lia|exact F0|reflexivity|cbn; lia|reflexivity]. cbn [bind]. unfold raii_malloc. set (mm := set_heap _ m0).
    set (q := P _ _ _). destruct (q =? 0) eqn:Qz. { cbn [bind Z.eqb]. intros Y; discriminate. } rewrite Qz. cbn [h0 h_base Z.eqb].
    set (m2 := set_heap (Block q tt true None :: _) _).
    destruct (modify L a (with_base q) m2) as [m3| | |] eqn:M3; cbn [bind]; try discriminate. rewrite Qz.
    assert (Qa : q <> a -> find a (heap m2) = Some (rehdr (with_total tt h0) b0)).
    { intros Ne. cbn. replace (q =? a) with false by lia. erewrite find_put_same by exact F0. reflexivity. }
    destruct (modify_inv _ _ _ _ _ M3) as (b3 & h3 & F3 & E3 & ->).
    assert (Ne : q <> a). { intros ->. cbn in F3. rewrite Z.eqb_refl in F3. injection F3 as <-. discriminate. }
    rewrite (Qa Ne) in F3. injection F3 as <-. injection E3 as <-. cbn [set_heap heap]. set (m3 := set_heap _ m2).
    assert (F3 : find a (heap m3) = Some (rehdr (with_base q (with_total tt h0)) b0)). { unfold m3. cbn [set_heap heap]. erewrite find_put_same by (apply Qa; auto). reflexivity. }
    erewrite load_ok; [|lia|exact F3|reflexivity|cbn; lia|reflexivity]. cbn [bind].
    destruct (store L q (with_base q (with_total tt h0)) m3) as [m4| | |] eqn:M4; cbn [bind]; try discriminate.
    assert (F4 : find a (heap m4) = find a (heap m3)).
    { apply (store_other _ _ _ _ _ a M4). auto. }
    rewrite F3 in F4. erewrite modify_ok; [|lia|exact F4|reflexivity|cbn; lia|reflexivity]. cbn [bind]. set (m5 := set_heap _ m4).
    destruct (modify L q (with_type RAII_ARENA) m5) as [m6| | |] eqn:M6; cbn [bind]; try discriminate. intros Y. injection Y as <-.
    destruct (modify_inv _ _ _ _ _ M6) as (b6 & h6 & F6 & E6 & ->). cbn [set_heap heap]. rewrite find_put_other by auto.
    unfold m5. cbn [set_heap heap]. erewrite find_put_same by exact F4. intros Y. apply (f_equal (fun o => match o with Some b => match b_hdr b with Some h => h_bytes h | None => 0 end | None => 0 end)) in Y. cbn in Y. auto. }
  assert (Rq : request n <= n + 1) by (clear - R0; lia).
  destruct (chunk_size_val h0 (request n) (Z.max 10 t) 0 Ht' ltac:(cbn; lia) ltac:(lia) ltac:(unfold cost; lia)) as [S1 S2].
  assert (Cs : 256 + request n + t' * 1024 <= chunk_size h0 (request n)).
  { clear - Ht' Hb R1 R0 Hn. assert (request n <= n + 1) by lia. unfold chunk_size, HEADER. cbn [h0 h_threshold h_total]. rewrite (u64_id (256 + request n + t' * 1024)) by lia. rewrite align2_val by lia. rewrite s64_id by lia. rewrite u64_id by lia. lia. }
  set (cs := chunk_size h0 (request n)) in *. clearbody cs.
  set (h2 := with_next c (with_limit (c + cs) (with_avail (c + 256) h1))) in *.
  assert (Lim : 0 < c /\ c + cs < 9223372036854775808). { destruct (i_blk _ _ I1 _ _ T4) as (? & _ & _ & ? & _). cbn in *. lia. }
  assert (G1 : grow_loop L P fuel a (request n) m1 = Ok (true, m1)).
  { assert (Sh : short_of h2 (request n) = false). { unfold short_of, h2. cbn [h_limit h_avail with_next with_limit with_avail]. rewrite s64_id by lia. lia. }
    destruct fuel; cbn [grow_loop]; (erewrite load_ok; [|lia|exact T5|reflexivity|cbn; lia|reflexivity]); cbn [bind]; rewrite Sh; reflexivity. }
  rewrite G1. cbn [bind negb]. erewrite load_ok; [|lia|exact T5|reflexivity|cbn; lia|reflexivity]. cbn [bind]. change (h_next h2) with c. replace (c =? 0) with false by lia.
  assert (Ca : c <> a). { intros ->. rewrite F0 in Pf. discriminate. }
  change (h_bytes h2) with (h_bytes h1). rewrite B1.
  erewrite modify_ok; [|auto|exact T4|reflexivity|cbn; lia|reflexivity]. cbn [bind]. set (hc := with_bytes 0 (with_type RAII_ARENA h1)). set (m2 := set_heap _ m1).
  assert (F2 : find a (heap m2) = Some (rehdr h2 b0)) by (cbn; rewrite find_put_other by auto; auto).
  erewrite modify_ok; [|lia|exact F2|reflexivity|cbn; lia|reflexivity]. cbn [bind]. change (h_avail h2) with (c + 256). replace (c + 256 =? 0) with false by lia. cbv beta zeta.
  set (h3 := with_avail _ (with_bytes _ h2)). intros Y. injection Y as <-.
  exists a, c, (rehdr hc (Block c cs true (Some (with_type RAII_ARENA h1)))), h3, hc.
  unfold note_given. cbn [set_heap handles heap given free_list num_free]. split; [cbn; rewrite T2; exact H1|]. split.
  { constructor; cbn [set_heap heap]; auto.
    - exists (rehdr h3 b0). split; [erewrite find_put_same by exact F2; reflexivity|]. cbn. auto with zarith.
    - rewrite find_put_other by auto. split; [unfold m2; cbn [set_heap heap]; erewrite find_put_same by exact T4; reflexivity|]. cbn. split; [auto|lia].
    - eexists; reflexivity.
    - cbn. rewrite u64_id by lia. lia. }
  split; [reflexivity|]. split; [reflexivity|]. split; [cbn; rewrite T1; apply (i_free _ _ I)|]. split; [cbn; congruence|]. split; [cbn; rewrite Q2; reflexivity|].
  split; [reflexivity|]. split; [cbn; rewrite u64_id by lia; auto|]. split; [change (h_avail h3) with (u64 (c + 256 + request n)); rewrite u64_id by lia; lia|]. split; [cbn [rehdr b_size h3 with_avail with_bytes h_threshold h2 with_next with_limit]; rewrite Q2; cbn [h0 h_threshold]; lia|].
  cbn. rewrite T3, H2. reflexivity.
Qed.

(** Allocations that fit the window follow one another. *)
Fixpoint room (ns : list Z) : Z := match ns with [] => 0 | n :: l => 2 * ((n + 1) / 2) + room l end.
Fixpoint rounds (a p : Z) (ns : list Z) : list (Z * Z * Z) :=
  match ns with [] => [] | n :: l => (a, p, n) :: rounds a (p + 2 * ((n + 1) / 2)) l end.

Lemma room_pos ns : Forall (fun n => 0 < n < 9223372036854775807) ns -> 0 <= room ns.
Proof. induction 1 as [|n l Hn _ IH]; cbn [room]; lia. Qed.

Lemma fit_run L P fuel ns : Forall (fun n => 0 < n < 9223372036854775807) ns -> forall m a c bc h,
  one_chunk m a c bc h -> nth 0 (handles m) 0 = a -> h_avail h + room ns <= h_limit h ->
  exists m' bc' h', arena_run L P fuel (map (AAlloc 0) ns) m = Ok m' /\ given m' = rev (rounds a (h_avail h) ns) ++ given m /\ one_chunk m' a c bc' h' /\
    b_size bc' = b_size bc.
Proof.
  induction 1 as [|n l Hn Hl IH]; intros m a c bc h O H0 Fit; cbn [map arena_run arena_step room rounds rev] in *; [exists m, bc, h; auto|].
  pose proof O as [A C0 Ca (b & F & Lb & Sb & E) N (Fc & Lc & Sc) (hc & Ec) (L1 & L2 & L3)]. pose proof (room_pos l Hl).
  rewrite H0. destruct (fit_alloc L P fuel m a b h n c bc hc) as (m1 & b1 & h1 & bc1 & hc1 & X & G1 & G2 & G3 & G4 & G5 & G6 & G7 & G8 & G9 & G10 & G11 & G12 & G13 & G14); auto; try lia.
  rewrite X. cbn [bind].
  destruct (IH m1 a c bc1 h1) as (m' & bc' & h' & R & Gv & O' & Sz); [|congruence|lia|].
  { constructor; [auto|auto|auto|exists b1; auto|auto|split; [auto|split; [auto|lia]]|eauto|split; [congruence|lia]]. }
  exists m', bc', h'. split; [exact R|]. split; [|split; [auto|congruence]]. rewrite Gv, G1, G10. rewrite <- app_assoc. reflexivity.
Qed.

Lemma rounds_in a ns : Forall (fun n => 0 < n < 9223372036854775807) ns -> forall p g, In g (rounds a p ns) ->
  fst (fst g) = a /\ p <= snd (fst g) /\ snd (fst g) + snd g <= p + room ns.
Proof.
  induction 1 as [|n l Hn Hl IH]; intros p g Hg; cbn [rounds room] in *; [destruct Hg|]. pose proof (room_pos l Hl). destruct Hg as [<-|Hg]; [cbn [fst snd]; split; [reflexivity|lia]|].
  destruct (IH _ _ Hg) as (? & ? & ?). split; [auto|lia].
Qed.
Lemma rounds_apart a ns : Forall (fun n => 0 < n < 9223372036854775807) ns -> forall p, ForallOrdPairs blocks_apart (rev (rounds a p ns)).
Proof.
  induction 1 as [|n l Hn Hl IH]; intros p; cbn [rounds rev]; [constructor|].
  assert (K : forall x (u : list (Z * Z * Z)), ForallOrdPairs blocks_apart u -> (forall g, In g u -> blocks_apart g x) -> ForallOrdPairs blocks_apart (u ++ [x])).
  { clear. intros x u Hu. induction Hu as [|g u H1 H2 IHu]; intros Q; cbn; constructor; try constructor.
    - apply Forall_app. split; [auto|]. constructor; [|constructor]. apply Q. left. reflexivity.
    - apply IHu. intros g' ?. apply Q. right. auto. }
  apply K; [apply IH|]. intros g Hg. apply in_rev in Hg. destruct (rounds_in a l Hl _ _ Hg) as (_ & Q & _). unfold blocks_apart, apart. cbn [fst snd]. lia.
Qed.
Lemma rounds_length a ns p : length (rounds a p ns) = length ns.
Proof. revert p. induction ns; intros; cbn; auto. Qed.
