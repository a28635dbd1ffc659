(** Proofs about the search loops of src/swar.c. *)
From Verif Require Export SwarProofs.

Lemma slice_length b o n : 0 <= o -> 0 <= n -> o + n <= zlen b -> zlen (slice b o n) = n.
Proof. intros. unfold slice. rewrite firstn_length, skipn_length. lia. Qed.
Lemma nth_skipn (b : list Z) k : forall n, nth n (skipn k b) 0 = nth (k + n) b 0.
Proof. revert b; induction k; intros; cbn; auto. destruct b; cbn; auto. destruct n; auto. Qed.
Lemma nth_firstn (b : list Z) k : forall n, (n < k)%nat -> nth n (firstn k b) 0 = nth n b 0.
Proof.
  revert b; induction k; intros; [lia|]. destruct b; cbn; auto. destruct n; auto. apply IHk. lia.
Qed.
Lemma slice_item b o n j : 0 <= o -> 0 <= j < n -> item (slice b o n) j = at_ b (o + j).
Proof.
  intros. unfold item, slice, at_. rewrite nth_firstn by lia. rewrite nth_skipn. f_equal. lia.
Qed.
Lemma slice_in b o n c : 0 <= o -> 0 <= n -> o + n <= zlen b ->
  (In c (slice b o n) <-> exists j, 0 <= j < n /\ at_ b (o + j) = c).
Proof.
  intros. pose proof (slice_length b o n H H0 H1). split.
  - intros Hi. apply In_nth with (d := 0) in Hi. destruct Hi as (k & Hk & E).
    exists (Z.of_nat k). split. lia. rewrite <- (slice_item b o n) by lia. unfold item. rewrite Nat2Z.id. auto.
  - intros (j & Hj & E). rewrite <- E, <- (slice_item b o n) by lia. apply nth_In. lia.
Qed.
Lemma slice_bytes b o n : bytes b -> bytes (slice b o n).
Proof. intros. apply bytes_firstn, bytes_skipn; auto. Qed.
Lemma all_bytes_bytes l : all_bytes l <-> bytes l.
Proof. reflexivity. Qed.

Lemma cast_in S b o : 0 <= o -> o + 8 <= zlen b -> cast S b o = Ok (le (slice b o 8)).
Proof.
  intros. unfold cast. rewrite (rdn_gets S b 0 (zlen b)) by (try lia; right; lia).
  cbn [bind]. rewrite gets_in by lia. reflexivity.
Qed.
Lemma cast_get S b lo hi o : readable S b lo hi -> lo <= o -> o + 8 <= hi ->
  cast S b o = Ok (le (gets S b o 8)).
Proof. intros. unfold cast. rewrite (rdn_gets S b lo hi) by (auto; lia). reflexivity. Qed.
Lemma rdn_strict_oob b n : forall i, 0 <= i -> (0 < n)%nat -> zlen b < i + Z.of_nat n -> rdn strict b i n = Undef OobRead.
Proof.
  induction n; intros; [lia|]. cbn [rdn].
  destruct (Z_lt_dec i (zlen b)).
  - rewrite rd_in by lia. cbn [bind]. rewrite IHn by lia. reflexivity.
  - rewrite rd_out_strict by lia. reflexivity.
Qed.
Lemma cast_strict_oob b o : 0 <= o -> zlen b < o + 8 -> cast strict b o = Undef OobRead.
Proof. intros. unfold cast. rewrite rdn_strict_oob by lia. reflexivity. Qed.

Lemma slice8_len b o : 0 <= o -> o + 8 <= zlen b -> length (slice b o 8) = 8%nat.
Proof. intros. pose proof (slice_length b o 8 H ltac:(lia) H0). lia. Qed.

Definition window_ok (P : bool) (b : list Z) (o len c : Z) : Prop :=
  P = true -> (forall j, 0 <= j < len -> ascii (at_ b (o + j))) /\ ascii c.
Lemma window_word P b o len c p : window_ok P b o len c -> 0 <= o -> o <= p -> p + 8 <= o + len ->
  o + len <= zlen b -> printable_ok P (slice b p 8) c.
Proof.
  intros HW Ho Hp He Hl. unfold printable_ok. destruct P; auto. destruct (HW eq_refl) as [H1 H2]. split; auto.
  apply Forall_forall. intros x Hx. apply slice_in in Hx; try lia. destruct Hx as (j & Hj & <-).
  replace (p + j) with (o + (p - o + j)) by lia. apply H1. lia.
Qed.

Lemma memchr_loop_ok (S : sem) (P K : bool) (b : list Z) (o len c : Z) :
  bytes b -> byte c -> 0 <= o -> 0 <= len < 4294967296 -> o + len <= zlen b -> window_ok P b o len c ->
  forall n fuel p, o <= p -> o + len - p = 8 * (Z.of_nat n + 1) -> (n < fuel)%nat ->
  (forall j, o <= j < p -> at_ b j <> c) ->
  (forall i, first_at c (slice b o len) i -> memchr_loop fuel S P K b o (o + len) p c = Ok i) /\
  (~ In c (slice b o len) -> K = false -> memchr_loop fuel S P K b o (o + len) p c = Ok 4294967295).
Proof.
  intros Hb Hc Ho Hlen He HW. induction n; intros fuel p Hp Hn Hf Hbef;
    (destruct fuel as [|fuel]; [lia|]); cbn [memchr_loop];
    rewrite cast_in by lia; cbn [bind];
    pose proof (slice_bytes b p 8 Hb) as HB;
    pose proof (slice8_len b p ltac:(lia) ltac:(lia)) as HL;
    pose proof (window_word P b o len c p HW ltac:(lia) ltac:(lia) ltac:(lia) ltac:(lia)) as HP;
    (destruct (hasbyte (le (slice b p 8)) c) eqn:EH;
     [ apply hasbyte_list in EH; auto; destruct (in_first_at _ _ EH) as [k Hk];
       unfold memchr8_; rewrite cast_in by lia; cbn [bind];
       rewrite (memchr8_word_first P true _ c k) by auto; cbn [bind];
       pose proof Hk as (Hk1 & Hk2 & Hk3); rewrite HL in Hk1; rewrite slice_item in Hk2 by lia;
       assert (HF : first_at c (slice b o len) (p - o + k));
       [ split; [rewrite slice_length; lia|]; split;
         [ rewrite slice_item by lia; rewrite <- Hk2; f_equal; lia
         | intros j Hj; rewrite slice_item by lia; destruct (Z_lt_dec (o + j) p);
           [ apply Hbef; lia
           | specialize (Hk3 (o + j - p) ltac:(lia)); rewrite slice_item in Hk3 by lia;
             replace (p + (o + j - p)) with (o + j) in Hk3 by lia; auto ] ]
       | split;
         [ intros i Hi; rewrite u32_id by lia; f_equal; eapply first_at_uniq; eauto
         | intros Hni; exfalso; apply Hni; eapply first_at_in; eauto ] ]
     | apply hasbyte_false in EH; auto;
       assert (HN : forall j, o <= j < p + 8 -> at_ b j <> c);
       [ intros j Hj; destruct (Z_lt_dec j p); [apply Hbef; lia|];
         intros E; apply EH; apply slice_in; try lia; exists (j - p); split; [lia|]; rewrite <- E; f_equal; lia
       | ] ]).
  - split.
    + intros i (Hi1 & Hi2 & Hi3). exfalso. rewrite slice_length in Hi1 by lia. rewrite slice_item in Hi2 by lia.
      revert Hi2. apply HN. lia.
    + intros _ ->. cbn [negb andb]. destruct (Z.eqb_spec (p + 8) (o + len)); [reflexivity|lia].
  - destruct (Z.eqb_spec (p + 8) (o + len)); [lia|]. rewrite andb_false_r.
    apply IHn; auto; lia.
Qed.

Lemma land_7 len : 0 <= len -> Z.land len 7 = len mod 8.
Proof. intros. change 7 with (Z.ones 3). rewrite Z.land_ones by lia. reflexivity. Qed.
Lemma part_len_val len : 0 <= len -> part_len len = if len mod 8 =? 0 then 8 else len mod 8.
Proof. intros. unfold part_len. rewrite land_7 by auto. reflexivity. Qed.
Lemma part_mask_long S len : 8 <= len -> part_mask S len = Ok 0.
Proof. intros. unfold part_mask. destruct (Z.ltb_spec len 8); [lia|reflexivity]. Qed.
Lemma first_long l : bytes l -> length l = 8%nat -> Z.land (le l) (not64 0) = le l.
Proof.
  intros. change (not64 0) with (Z.ones 64). rewrite Z.land_ones by lia. apply Z.mod_small.
  pose proof (le_bound8 l H H0). exact H1.
Qed.

Lemma memchr_ok fuel S P K b o len c :
  bytes b -> byte c -> 0 <= o -> 9 <= len < 4294967296 -> o + len <= zlen b -> window_ok P b o len c ->
  len <= 8 * Z.of_nat fuel ->
  (forall i, first_at c (slice b o len) i -> memchr_ fuel S P K b o len c = Ok i) /\
  (~ In c (slice b o len) -> K = false -> memchr_ fuel S P K b o len c = Ok 4294967295).
Proof.
  intros Hb Hc Ho Hlen He HW Hf. unfold memchr_. rewrite part_mask_long by lia.
  cbn [bind]. rewrite cast_in by lia. cbn [bind]. rewrite Z.land_0_l.
  pose proof (slice_bytes b o 8 Hb) as HB.
  pose proof (slice8_len b o ltac:(lia) ltac:(lia)) as HL.
  rewrite first_long by auto.
  pose proof (window_word P b o len c o HW ltac:(lia) ltac:(lia) ltac:(lia) ltac:(lia)) as HP.
  destruct (hasbyte (le (slice b o 8)) c) eqn:EH.
  - apply hasbyte_list in EH; auto. destruct (in_first_at _ _ EH) as [k Hk].
    rewrite (memchr8_word_first P true _ c k) by auto.
    pose proof Hk as (Hk1 & Hk2 & Hk3). rewrite HL in Hk1. rewrite slice_item in Hk2 by lia.
    assert (HF : first_at c (slice b o len) k).
    { split. rewrite slice_length; lia. split. rewrite slice_item by lia; auto.
      intros j Hj. rewrite slice_item by lia. specialize (Hk3 j Hj). rewrite slice_item in Hk3 by lia. auto. }
    split. intros; f_equal; eapply first_at_uniq; eauto.
    intros Hn. exfalso. apply Hn. eapply first_at_in; eauto.
  - apply hasbyte_false in EH; auto. rewrite part_len_val by lia.
    set (pl := if len mod 8 =? 0 then 8 else len mod 8).
    assert (Hpl : 1 <= pl <= 8 /\ exists n : nat, len - pl = 8 * (Z.of_nat n + 1)).
    { unfold pl. destruct (Z.eqb_spec (len mod 8) 0).
      - split. lia. exists (Z.to_nat (len / 8 - 2)). lia.
      - split. lia. exists (Z.to_nat (len / 8 - 1)). lia. }
    destruct Hpl as (Hpl & n & Hn).
    apply memchr_loop_ok with (n := n); auto; try lia.
    intros j Hj E. apply EH. apply slice_in; try lia. exists (j - o). split. lia. rewrite <- E. f_equal. lia.
Qed.

(** length 8 works as long as the byte is there *)
Lemma memchr_ok8 fuel S P K b o c i :
  bytes b -> byte c -> 0 <= o -> o + 8 <= zlen b -> window_ok P b o 8 c ->
  first_at c (slice b o 8) i -> memchr_ fuel S P K b o 8 c = Ok i.
Proof.
  intros Hb Hc Ho He HW Hi. unfold memchr_. rewrite part_mask_long by lia.
  cbn [bind]. rewrite cast_in by lia. cbn [bind]. rewrite Z.land_0_l.
  pose proof (slice_bytes b o 8 Hb) as HB.
  pose proof (slice8_len b o ltac:(lia) ltac:(lia)) as HL.
  rewrite first_long by auto.
  pose proof (window_word P b o 8 c o HW ltac:(lia) ltac:(lia) ltac:(lia) ltac:(lia)) as HP.
  assert (EH : hasbyte (le (slice b o 8)) c = true) by (apply hasbyte_list; eauto using first_at_in).
  rewrite EH. apply memchr8_word_first; auto.
Qed.

(** any call on a block with fewer than 8 bytes left is undefined *)
Lemma memchr_strict_short fuel P K b o len c :
  0 <= o -> 0 <= len -> zlen b < o + 8 -> memchr_ fuel strict P K b o len c = Undef OobRead.
Proof.
  intros. unfold memchr_.
  assert (exists m, part_mask strict len = Ok m) as [m Hm].
  { unfold part_mask. destruct (Z.ltb_spec len 8); eauto.
    rewrite part_len_val by auto. destruct (Z.eqb_spec (len mod 8) 0).
    - eexists. apply shr64_ok. vm_compute. split; congruence.
    - rewrite (u32_id (len mod 8 * 8)) by lia. rewrite u32_id by lia. eexists. apply shr64_ok. lia. }
  rewrite Hm. cbn [bind]. rewrite cast_strict_oob by lia. reflexivity.
Qed.
(** an absent byte in an exact 8 byte block runs past the end *)
Lemma memchr_strict_8 fuel b o c :
  bytes b -> byte c -> 0 <= o -> o + 8 <= zlen b < o + 16 -> ~ In c (slice b o 8) -> (0 < fuel)%nat ->
  memchr_ fuel strict false false b o 8 c = Undef OobRead.
Proof.
  intros Hb Hc Ho He Hn Hf. unfold memchr_. rewrite part_mask_long by lia.
  cbn [bind]. rewrite cast_in by lia. cbn [bind]. rewrite Z.land_0_l.
  pose proof (slice_bytes b o 8 Hb) as HB.
  pose proof (slice8_len b o ltac:(lia) ltac:(lia)) as HL.
  rewrite first_long by auto.
  assert (EH : hasbyte (le (slice b o 8)) c = false) by (apply hasbyte_false; auto).
  rewrite EH. destruct fuel; [lia|]. cbn [memchr_loop].
  change (part_len 8) with 8. rewrite cast_strict_oob by lia. reflexivity.
Qed.

(** ** the short case never finds a byte inside the range *)
Lemma land_not_lane b c : byte b -> byte c -> c <> 0 -> Z.land b (255 - c) <> c.
Proof.
  intros Hb Hc Hn E.
  assert (Z.land (Z.land b (255 - c)) c = c) by (rewrite E; apply Z.land_diag).
  rewrite <- Z.land_assoc in H.
  assert (Z.land (255 - c) c = 0).
  { pose proof (byte_check (fun c => Z.land (255 - c) c =? 0) ltac:(vm_compute; reflexivity) c Hc).
    cbv beta in H0. lia. }
  rewrite H0, Z.land_0_r in H. congruence.
Qed.
Lemma zip_zero c m : zip Z.land (repeat 0 m) (repeat c m) = repeat 0 m.
Proof. induction m; cbn [repeat zip]; auto. rewrite Z.land_0_l. f_equal; auto. Qed.
Lemma zip_mask c n m : byte c ->
  zip Z.land (repeat 255 n ++ repeat 0 m) (repeat c (n + m)) = repeat c n ++ repeat 0 m.
Proof.
  intros Hc. induction n; cbn [repeat zip app Nat.add]. apply zip_zero.
  rewrite Z.land_comm. apply byte_land in Hc. rewrite Hc. f_equal; auto.
Qed.
Definition short_first (len : Z) (l : list Z) (c : Z) : list Z :=
  map (fun b => Z.land b (255 - c)) (firstn (Z.to_nat len) l) ++ skipn (Z.to_nat len) l.
Lemma zip_id m : forall l, bytes l -> length l = m -> zip Z.land l (map (fun b => 255 - b) (repeat 0 m)) = l.
Proof.
  induction m; destruct l; cbn [repeat zip map length]; intros; try discriminate; auto.
  inversion H; subst. change (255 - 0) with 255. apply byte_land in H3. rewrite H3. f_equal. apply IHm; auto.
Qed.
Lemma zip_short c n m : forall l, bytes l -> length l = (n + m)%nat ->
  zip Z.land l (map (fun b => 255 - b) (repeat c n ++ repeat 0 m)) =
  map (fun b => Z.land b (255 - c)) (firstn n l) ++ skipn n l.
Proof.
  induction n; intros l Hb Hl; cbn [repeat app firstn skipn map]. apply zip_id; auto.
  destruct l; [discriminate|]. cbn [zip map app]. inversion Hb; subst. f_equal. apply IHn; auto.
Qed.
Lemma short_first_le len l c : 1 <= len < 8 -> bytes l -> length l = 8%nat -> byte c ->
  Z.land (le l) (not64 (Z.land ((not64 0) / 2 ^ (64 - len * 8)) (extend c))) = le (short_first len l c).
Proof.
  intros Hlen Hb Hl Hc.
  assert (E : Z.land ((not64 0) / 2 ^ (64 - len * 8)) (extend c)
              = le (repeat c (Z.to_nat len) ++ repeat 0 (Z.to_nat (8 - len)))).
  { assert (E2 : (not64 0) / 2 ^ (64 - len * 8) = le (repeat 255 (Z.to_nat len) ++ repeat 0 (Z.to_nat (8 - len)))).
    { assert (len = 1 \/ len = 2 \/ len = 3 \/ len = 4 \/ len = 5 \/ len = 6 \/ len = 7) by lia.
      repeat (destruct H as [->|H]; [vm_compute; reflexivity|]). subst. vm_compute. reflexivity. }
    rewrite E2, extend_bytes, u8_id by auto.
    rewrite le_land.
    2:{ apply bytes_app. split; apply bytes_repeat; unfold byte; lia. }
    2:{ apply bytes_repeat; auto. }
    2:{ rewrite app_length, !repeat_length. lia. }
    replace 8%nat with (Z.to_nat len + Z.to_nat (8 - len))%nat by lia.
    rewrite zip_mask by auto. reflexivity. }
  rewrite E. rewrite le_not64.
  2:{ apply bytes_app. split; apply bytes_repeat; unfold byte in *; lia. }
  2:{ rewrite app_length, !repeat_length. lia. }
  rewrite le_land; auto.
  2:{ apply bytes_compl. apply bytes_app. split; apply bytes_repeat; unfold byte in *; lia. }
  2:{ rewrite map_length, app_length, !repeat_length. lia. }
  f_equal. unfold short_first. apply zip_short; auto. lia.
Qed.
Lemma short_first_props len l c : 1 <= len < 8 -> bytes l -> length l = 8%nat -> byte c -> c <> 0 ->
  bytes (short_first len l c) /\ length (short_first len l c) = 8%nat /\
  (forall j, 0 <= j < len -> item (short_first len l c) j <> c).
Proof.
  intros Hlen Hb Hl Hc Hn. unfold short_first. split; [|split].
  - apply bytes_app. split; [|apply bytes_skipn; auto]. apply bytes_map. intros; apply byte_and; auto. apply bytes_firstn; auto.
  - rewrite app_length, map_length, firstn_length, skipn_length. lia.
  - intros j Hj. unfold item. rewrite app_nth1 by (rewrite map_length, firstn_length; lia).
    rewrite nth_indep with (d' := Z.land 0 (255 - c)) by (rewrite map_length, firstn_length; lia).
    rewrite (map_nth (fun b => Z.land b (255 - c))). apply land_not_lane; auto.
    rewrite nth_firstn by lia. apply bytes_nth; auto. lia.
Qed.

Lemma get_bytes_any S b n i : bytes b -> bytes (gets S b i n).
Proof. intros; apply gets_bytes; auto. Qed.

Lemma memchr_loop_ge g K b o e c : bytes b -> byte c -> 0 <= o ->
  forall fuel p k, o <= p -> p - o + 8 * Z.of_nat fuel < 4294967295 ->
  memchr_loop fuel (machine g) false K b o e p c = Ok k -> p - o <= k.
Proof.
  intros Hb Hc Ho. induction fuel; intros p k Hp Hf; cbn [memchr_loop]; [discriminate|].
  rewrite (cast_get (machine g) b p (p + 8)) by (try lia; left; cbn; discriminate). cbn [bind].
  pose proof (gets_bytes (machine g) b 8 p Hb) as HB. pose proof (gets_length (machine g) b 8 p) as HL.
  destruct (hasbyte (le (gets (machine g) b p 8)) c) eqn:EH.
  - apply hasbyte_list in EH; auto. destruct (in_first_at _ _ EH) as [i Hi].
    unfold memchr8_. rewrite (cast_get (machine g) b p (p + 8)) by (try lia; left; cbn; discriminate). cbn [bind].
    rewrite (memchr8_word_first false true _ c i) by (auto; exact I). cbn [bind].
    destruct Hi as (Hi & _). rewrite HL in Hi. rewrite u32_id by lia. intros [= <-]. lia.
  - destruct (negb K && (p + 8 =? e)). { intros [= <-]. change (u32 (-1)) with 4294967295. lia. }
    intros E. apply IHfuel in E; lia.
Qed.

Lemma memchr_short_ge g K b o len c : bytes b -> byte c -> c <> 0 -> 0 <= o -> 1 <= len < 8 ->
  forall fuel k, 8 * Z.of_nat fuel + 8 < 4294967295 ->
  memchr_ fuel (machine g) false K b o len c = Ok k -> len <= k.
Proof.
  intros Hb Hc Hn Ho Hlen fuel k Hf. unfold memchr_.
  assert (Hpl : part_len len = len).
  { rewrite part_len_val by lia. destruct (Z.eqb_spec (len mod 8) 0); lia. }
  unfold part_mask. destruct (Z.ltb_spec len 8); [|lia]. rewrite Hpl.
  rewrite (u32_id (len * 8)), u32_id, shr64_ok by lia. cbn [bind].
  rewrite (cast_get (machine g) b o (o + 8)) by (try lia; left; cbn; discriminate). cbn [bind].
  pose proof (gets_bytes (machine g) b 8 o Hb) as HB. pose proof (gets_length (machine g) b 8 o) as HL.
  rewrite short_first_le by auto.
  destruct (short_first_props len _ c Hlen HB HL Hc Hn) as (SB & SL & SN).
  destruct (hasbyte (le (short_first len (gets (machine g) b o 8) c)) c) eqn:EH.
  - apply hasbyte_list in EH; auto. destruct (in_first_at _ _ EH) as [i Hi].
    rewrite (memchr8_word_first false true _ c i) by (auto; exact I). intros [= <-].
    destruct Hi as (Hi1 & Hi2 & Hi3). destruct (Z_lt_dec i len); [|lia]. exfalso. apply (SN i); auto; lia.
  - intros E. apply memchr_loop_ge in E; auto; lia.
Qed.

(** ** reverse search *)
Lemma memrchr_strict_undef fuel P K b o len c :
  0 <= o -> 0 <= len -> zlen b < o + len + 8 -> memrchr_ fuel strict P K b o len c = Undef OobRead.
Proof.
  intros. unfold memrchr_.
  assert (exists m, part_mask strict len = Ok m) as [m Hm].
  { unfold part_mask. destruct (Z.ltb_spec len 8); eauto.
    rewrite part_len_val by auto. destruct (Z.eqb_spec (len mod 8) 0).
    - eexists. apply shr64_ok. vm_compute. split; congruence.
    - rewrite (u32_id (len mod 8 * 8)) by lia. rewrite u32_id by lia. eexists. apply shr64_ok. lia. }
  rewrite Hm. cbn [bind]. rewrite cast_strict_oob by lia. reflexivity.
Qed.

Lemma memrchr_loop_ok (S : sem) (P K : bool) (b : list Z) (o len c : Z) :
  bytes b -> byte c -> 0 <= o -> 0 <= len < 4294967296 -> o + len <= zlen b -> window_ok P b o len c ->
  forall n fuel p, p - o = (if K then 0 else 8) + 8 * Z.of_nat n -> p + 8 <= o + len -> (n < fuel)%nat ->
  (forall j, p + 8 <= j < o + len -> at_ b j <> c) ->
  (forall i, (if K then 0 else 8) <= i -> last_at c (slice b o len) i -> memrchr_loop fuel S P K b o p c = Ok i) /\
  (K = false -> (forall j, 8 <= j < len -> at_ b (o + j) <> c) -> memrchr_loop fuel S P K b o p c = Ok 4294967295).
Proof.
  intros Hb Hc Ho Hlen He HW. assert (HK : 0 <= (if K then 0 else 8)) by (destruct K; lia).
  induction n; intros fuel p Hn Hp Hf Haft;
    (destruct fuel as [|fuel]; [lia|]); cbn [memrchr_loop];
    rewrite cast_in by lia; cbn [bind];
    pose proof (slice_bytes b p 8 Hb) as HB;
    pose proof (slice8_len b p ltac:(lia) ltac:(lia)) as HL;
    pose proof (window_word P b o len c p HW ltac:(lia) ltac:(lia) ltac:(lia) ltac:(lia)) as HP;
    (destruct (hasbyte (le (slice b p 8)) c) eqn:EH;
     [ apply hasbyte_list in EH; auto; destruct (in_last_at _ _ EH) as [k Hk];
       unfold memchr8_; rewrite cast_in by lia; cbn [bind];
       rewrite (memchr8_word_last P true _ c k) by auto; cbn [bind];
       pose proof Hk as (Hk1 & Hk2 & Hk3); rewrite HL in Hk1; rewrite slice_item in Hk2 by lia;
       assert (HF : last_at c (slice b o len) (p - o + k));
       [ split; [rewrite slice_length; lia|]; split;
         [ rewrite slice_item by lia; rewrite <- Hk2; f_equal; lia
         | rewrite slice_length by lia; intros j Hj; rewrite slice_item by lia; destruct (Z_le_dec (p + 8) (o + j));
           [ apply Haft; lia
           | specialize (Hk3 (o + j - p) ltac:(lia)); rewrite slice_item in Hk3 by lia;
             replace (p + (o + j - p)) with (o + j) in Hk3 by lia; auto ] ]
       | split;
         [ intros i Hi8 Hi; rewrite u32_id by lia; f_equal; eapply last_at_uniq; eauto
         | intros -> Hni; exfalso; apply (Hni (p - o + k)); [lia|]; rewrite <- Hk2; f_equal; lia ] ]
     | apply hasbyte_false in EH; auto;
       assert (HN : forall j, p <= j < o + len -> at_ b j <> c);
       [ intros j Hj; destruct (Z_le_dec (p + 8) j); [apply Haft; lia|];
         intros E; apply EH; apply slice_in; try lia; exists (j - p); split; [lia|]; rewrite <- E; f_equal; lia
       | ] ]).
  - split.
    + intros i Hi8 (Hi1 & Hi2 & Hi3). exfalso. rewrite slice_length in Hi1 by lia. rewrite slice_item in Hi2 by lia.
      revert Hi2. apply HN. lia.
    + intros -> _. cbn [negb andb]. destruct (Z.eqb_spec (p - 8) o); [reflexivity|lia].
  - replace (negb K && (p - 8 =? o)) with false.
    2:{ destruct K; [reflexivity|]. destruct (Z.eqb_spec (p - 8) o); [lia|reflexivity]. }
    apply IHn; auto; try lia.
Qed.

(** What the code does on lengths that are a multiple of 8, when 8 more bytes
    without [c] are readable after the range: without [Known] the first word of the range is
    never searched. *)
Lemma memrchr_ok fuel S (P K : bool) b o len c :
  bytes b -> byte c -> 0 <= o -> 16 <= len < 4294967296 -> len mod 8 = 0 -> o + len + 8 <= zlen b -> window_ok P b o len c ->
  (forall j, 0 <= j < 8 -> at_ b (o + len + j) <> c) -> len <= 8 * Z.of_nat fuel ->
  (forall i, (if K then 0 else 8) <= i -> last_at c (slice b o len) i -> memrchr_ fuel S P K b o len c = Ok i) /\
  (K = false -> (forall j, 8 <= j < len -> at_ b (o + j) <> c) -> memrchr_ fuel S P K b o len c = Ok 4294967295).
Proof.
  intros Hb Hc Ho Hlen Hm He HW Haft Hf. unfold memrchr_. rewrite part_mask_long by lia.
  cbn [bind]. rewrite cast_in by lia. cbn [bind]. rewrite Z.land_0_l.
  pose proof (slice_bytes b (o + len) 8 Hb) as HB.
  pose proof (slice8_len b (o + len) ltac:(lia) ltac:(lia)) as HL.
  rewrite first_long by auto.
  assert (EH : hasbyte (le (slice b (o + len) 8)) c = false).
  { apply hasbyte_false; auto. intros Hi. apply slice_in in Hi; try lia. destruct Hi as (j & Hj & E).
    apply (Haft j); auto. }
  rewrite EH, part_len_val by lia. destruct (Z.eqb_spec (len mod 8) 0); [|lia].
  apply memrchr_loop_ok with (n := Z.to_nat (len / 8 - (if K then 1 else 2))); auto; try destruct K; try lia.
Qed.
