(** Proofs about simd_strlen, simd_strcmp and strpos. *)
From Verif Require Export SwarFinal NumFinal StrModel SpecText.
Open Scope Z_scope.

(** * simd_strlen *)
Lemma magic_haszero w : negb (Z.land (Z.land (u64 (w - lomagic)) (not64 w)) himagic =? 0) = haszero w.
Proof. unfold haszero. change lomagic with m01. change himagic with (not64 m7f). reflexivity. Qed.

Lemma strlen_head_ok S A b o n : cstr_len b o n ->
  forall k p, o <= p <= o + n -> (- (A + p)) mod 8 < Z.of_nat k ->
  strlen_head k S A b o p = Ok (inl n) \/
  exists q, strlen_head k S A b o p = Ok (inr q) /\ p <= q <= o + n /\ (A + q) mod 8 = 0.
Proof.
  intros (Ho & Hn & Hl & H0 & Hk). induction k; intros p Hp Hf; [lia|].
  cbn [strlen_head]. destruct (Z.eqb_spec ((A + p) mod 8) 0) as [E|E].
  - right. exists p. auto with zarith.
  - rewrite rd_in by lia. cbn [bind].
    destruct (Z.eq_dec p (o + n)) as [->|N].
    + unfold item in H0. unfold at_. rewrite H0. cbn. left. do 2 f_equal. lia.
    + specialize (Hk (p - o) ltac:(lia)). replace (o + (p - o)) with p in Hk by lia.
      unfold item in Hk. unfold at_. destruct (Z.eqb_spec (nth (Z.to_nat p) b 0) 0); [tauto|].
      destruct (IHk (p + 1)) as [?|(q & ? & ? & ?)]; try lia; auto.
      right. exists q. auto with zarith.
Qed.

Lemma strlen_bytes_hit S b p k : 0 <= p + k -> p + k < zlen b -> at_ b (p + k) = 0 ->
  forall n i, 0 <= p + i -> i <= k -> k < i + Z.of_nat n -> (forall j, i <= j < k -> at_ b (p + j) <> 0) ->
  strlen_bytes n S b p i = Ok (Some k).
Proof.
  intros Hk1 Hk2 H0. induction n; intros i Hi Hik Hn Hj; [lia|]. cbn [strlen_bytes].
  rewrite rd_in by lia. cbn [bind]. destruct (Z.eq_dec i k) as [->|N].
  - rewrite H0. reflexivity.
  - destruct (Z.eqb_spec (at_ b (p + i)) 0) as [E|E]. { exfalso. apply (Hj i ltac:(lia)). auto. }
    apply IHn; intros; first [lia | apply Hj; lia].
Qed.

Lemma strlen_loop_ok S A b o n : bytes b -> cstr_len b o n -> oob S <> None \/ o + n + 8 <= zlen b ->
  forall fuel p log, o <= p <= o + n -> (A + p) mod 8 = 0 -> (o + n - p) / 8 < Z.of_nat fuel ->
  Forall (fun q => (A + q) mod 8 = 0 /\ o <= q <= o + n) log ->
  exists log', strlen_loop fuel S b o p log = Ok (n, log') /\
    Forall (fun q => (A + q) mod 8 = 0 /\ o <= q <= o + n) log'.
Proof.
  intros Hb (Ho & Hn & Hl & H0 & Hk) HS. induction fuel; intros p log Hp Ha Hf Hlog; [lia|].
  cbn [strlen_loop]. rewrite cast8_get by (try lia; destruct HS; auto; right; lia). cbn [bind].
  rewrite magic_haszero.
  assert (Hlog' : Forall (fun q => (A + q) mod 8 = 0 /\ o <= q <= o + n) (log ++ [p])).
  { apply Forall_app. split; auto. }
  pose proof (haszero_list (gets S b p 8) (gets_bytes S b 8 p Hb) (gets_length S b 8 p)) as HZ.
  destruct (Z_lt_dec (o + n) (p + 8)) as [Hin|Hout].
  - replace (haszero (le (gets S b p 8))) with true.
    2:{ symmetry. apply HZ. rewrite Exists_exists. exists 0. split; auto.
        replace 0 with (at_ (gets S b p 8) (o + n - p)).
        - unfold at_. apply nth_In. rewrite gets_length. lia.
        - rewrite gets_at by lia. replace (p + (o + n - p)) with (o + n) by lia. rewrite get_in by lia. exact H0. }
    rewrite (strlen_bytes_hit S b p (o + n - p)); try lia.
    + cbn [bind]. eexists. split; [|exact Hlog']. do 2 f_equal. lia.
    + replace (p + (o + n - p)) with (o + n) by lia. exact H0.
    + intros j Hj. specialize (Hk (p + j - o) ltac:(lia)). replace (o + (p + j - o)) with (p + j) in Hk by lia. exact Hk.
  - replace (haszero (le (gets S b p 8))) with false.
    + apply IHfuel; auto; try lia.
    + symmetry. apply not_true_is_false. intros E. apply HZ in E. rewrite Exists_exists in E.
      destruct E as (x & Hx & ->). apply In_nth with (d := 0) in Hx. destruct Hx as (i & Hi & Hx).
      rewrite gets_length in Hi.
      pose proof (gets_at S b 8 p (Z.of_nat i) ltac:(lia)) as G. unfold at_ in G. rewrite Nat2Z.id, Hx in G.
      rewrite get_in in G by lia. specialize (Hk (p + Z.of_nat i - o) ltac:(lia)).
      replace (o + (p + Z.of_nat i - o)) with (p + Z.of_nat i) in Hk by lia. unfold item in Hk. unfold at_ in G. congruence.
Qed.

Lemma simd_strlen_ok fuel S A b o n : all_bytes b -> cstr_len b o n ->
  oob S <> None \/ o + n + 8 <= zlen b -> n / 8 < Z.of_nat fuel ->
  exists log, simd_strlen fuel S A b o = Ok (n, log) /\
    Forall (fun p => (A + p) mod 8 = 0 /\ o <= p <= o + n) log.
Proof.
  intros Hb Hc HS Hf. unfold simd_strlen. pose proof Hc as (Ho & Hn & Hl & H0 & Hk).
  destruct (strlen_head_ok S A b o n Hc 8 o ltac:(lia) ltac:(pose proof (Z.mod_pos_bound (- (A + o)) 8); lia)) as [->|(q & -> & Hq & Ha)].
  - cbn [bind]. exists []. auto.
  - cbn [bind]. apply strlen_loop_ok; auto.
    apply Z.le_lt_trans with (n / 8); auto. apply Z.div_le_mono; lia.
Qed.

(** * strlen *)
Lemma scan0_text s : text s -> forall r, scan0 (s ++ 0 :: r) = Ok (zlen s).
Proof.
  induction 1 as [|x s Hx Hs IH]; intros; cbn [scan0 app length]; auto.
  destruct (Z.eqb_spec x 0); [lia|]. rewrite IH. cbn [bind]. f_equal. lia.
Qed.
Lemma c_strlen_text s r : text s -> c_strlen (s ++ 0 :: r) 0 = Ok (zlen s).
Proof. intros. unfold c_strlen. cbn [Z.to_nat skipn]. apply scan0_text. auto. Qed.
Lemma c_strlen_cblk s : text s -> c_strlen (cblk s) 0 = Ok (zlen s).
Proof. intros. apply c_strlen_text. auto. Qed.
Lemma scan0_first l : forall n, cstr_len l 0 n -> scan0 l = Ok n.
Proof.
  induction l as [|x l IH]; intros n (_ & Hn & Hl & H0 & Hk); cbn [length] in *; [lia|]. cbn [scan0].
  destruct (Z.eq_dec n 0) as [->|N].
  - cbn in H0. subst. reflexivity.
  - pose proof (Hk 0 ltac:(lia)) as Hx. cbn in Hx. destruct (Z.eqb_spec x 0); [tauto|].
    rewrite (IH (n - 1)). cbn. f_equal. lia.
    repeat split; try lia.
    + unfold item in *. replace (Z.to_nat (0 + n)) with (Datatypes.S (Z.to_nat (0 + (n - 1)))) in H0 by lia. exact H0.
    + intros k Hkk. specialize (Hk (k + 1) ltac:(lia)). unfold item in *.
      replace (Z.to_nat (0 + (k + 1))) with (Datatypes.S (Z.to_nat (0 + k))) in Hk by lia. exact Hk.
Qed.
Lemma c_strlen_ok b o n : cstr_len b o n -> c_strlen b o = Ok n.
Proof.
  intros (Ho & Hn & Hl & H0 & Hk). unfold c_strlen. apply scan0_first.
  assert (E : forall k, 0 <= k -> item (skipn (Z.to_nat o) b) k = item b (o + k)).
  { intros. unfold item. rewrite nth_skipn. f_equal. lia. }
  repeat split; try lia.
  - rewrite skipn_length. lia.
  - rewrite E by lia. rewrite Z.add_0_l. auto.
  - intros k Hk'. rewrite E by lia. rewrite Z.add_0_l. auto.
Qed.
Lemma text_bytes s : text s -> bytes s.
Proof. unfold text, bytes, byte. intros. eapply Forall_impl; [|eassumption]. cbn. lia. Qed.
Lemma text_cblk s : text s -> bytes (cblk s).
Proof. intros. unfold cblk. apply bytes_app. split. apply text_bytes; auto. constructor; [unfold byte; lia|constructor]. Qed.
Lemma text_at s k : text s -> 0 <= k < zlen s -> 0 < at_ s k < 256.
Proof. intros H Hk. unfold text in H. rewrite Forall_forall in H. apply H. apply nth_In. lia. Qed.

(** * simd_strcmp *)
(** [b0] holds the string [a]; the other string is whatever [b1] reads as. *)
Section Strcmp.
Variables (S : sem) (a b1 r0 : list Z).
Hypothesis Ha : text a.
Hypothesis HS : oob S <> None.
Let b0 := a ++ 0 :: r0.
Hypothesis Hb0 : bytes b0.
Hypothesis Hb1 : bytes b1.
Let same (i : Z) := forall j, 0 <= j < i -> j < zlen a -> at_ a j = get S b1 j.
Let diff (d : Z) := exists i, 0 <= i < zlen a /\ same i /\ at_ a i <> get S b1 i /\ d = at_ a i - get S b1 i.

Lemma rdS b i : rd S b i = Ok (get S b i).
Proof. apply (rd_get S b i (i + 1)). left. auto. lia. Qed.
Lemma get_b0 i : 0 <= i < zlen a -> get S b0 i = at_ a i.
Proof. intros. unfold b0. rewrite get_in by (rewrite app_length; cbn; lia). apply at_app_l. lia. Qed.

Lemma strcmp_bytes_ok n : forall pos, 0 <= pos -> zlen a <= pos + Z.of_nat n -> same pos ->
  (exists d, strcmp_bytes n S b0 b1 pos (zlen a) = Ok (Some d) /\ diff d) \/
  (strcmp_bytes n S b0 b1 pos (zlen a) = Ok None /\ same (zlen a)).
Proof.
  induction n; intros pos Hp Hn Hs.
  - right. split; auto. intros j Hj Hja. apply Hs; lia.
  - cbn [strcmp_bytes]. destruct (Z.ltb_spec pos (zlen a)).
    + rewrite !rdS. cbn [bind]. rewrite get_b0 by lia.
      pose proof (text_at a pos Ha ltac:(lia)).
      destruct (Z.eqb_spec (at_ a pos) (get S b1 pos)) as [E|E].
      * destruct (Z.eqb_spec (at_ a pos) 0); [lia|]. destruct (Z.eqb_spec (get S b1 pos) 0); [lia|]. cbn [negb orb].
        apply IHn; try lia. intros j Hj Hja. destruct (Z.eq_dec j pos); [subst; auto|]. apply Hs; lia.
      * cbn [negb orb]. left. eexists. split; [reflexivity|]. exists pos. auto with zarith.
    + right. split; auto. intros j Hj Hja. apply Hs; lia.
Qed.

Lemma strcmp_words_ok n : forall blk fast, 0 <= blk -> Z.max 0 (fast - blk) < Z.of_nat n -> same (8 * blk) ->
  (exists d, strcmp_words n S b0 b1 blk fast (zlen a) = Ok (Some d) /\ diff d) \/
  (strcmp_words n S b0 b1 blk fast (zlen a) = Ok None /\ same (8 * fast)).
Proof.
  induction n; intros blk fast Hb Hf Hs; [|cbn [strcmp_words]; destruct (Z.ltb_spec blk fast)].
  - lia.
  - rewrite !cast8_get by (auto; lia). cbn [bind].
    destruct (Z.eqb_spec (Z.lxor (le (gets S b0 (blk * 8) 8)) (le (gets S b1 (blk * 8) 8))) 0) as [E|E]; cbn [negb].
    + apply (proj1 (lxor_zero _ _)) in E. apply le_inj in E; rewrite ?gets_length; auto using gets_bytes.
      apply IHn; try lia. intros j Hj Hja. destruct (Z_lt_dec j (8 * blk)); [apply Hs; lia|].
      rewrite <- get_b0 by lia.
      pose proof (gets_at S b0 8 (blk * 8) (j - blk * 8) ltac:(lia)) as G0.
      pose proof (gets_at S b1 8 (blk * 8) (j - blk * 8) ltac:(lia)) as G1.
      rewrite E, G1 in G0. replace (blk * 8 + (j - blk * 8)) with j in G0 by lia. auto.
    + destruct (strcmp_bytes_ok (Z.to_nat (zlen a)) (blk * 8)) as [(d & -> & Hd)|(-> & Hd)]; try lia.
      * intros j Hj Hja. apply Hs; lia.
      * cbn [bind]. left. eauto.
      * cbn [bind]. apply IHn; try lia. intros j Hj Hja. apply Hd; lia.
  - right. split; auto. intros j Hj Hja. apply Hs; lia.
Qed.

Lemma strcmp_tail_ok n : forall pos, 0 <= pos -> Z.max 0 (zlen a - pos) < Z.of_nat n -> same pos ->
  exists d, strcmp_tail n S b0 b1 pos (zlen a) = Ok d /\ (diff d \/ d = 0 /\ same (zlen a)).
Proof.
  induction n; intros pos Hp Hn Hs; cbn [strcmp_tail].
  - lia.
  - destruct (Z.ltb_spec pos (zlen a)).
    + rewrite !rdS. cbn [bind]. rewrite get_b0 by lia.
      destruct (Z.eqb_spec (at_ a pos) (get S b1 pos)) as [E|E]; cbn [negb].
      * apply IHn; try lia. intros j Hj Hja. destruct (Z.eq_dec j pos); [subst; auto|]. apply Hs; lia.
      * eexists. split; [reflexivity|]. left. exists pos. auto with zarith.
    + eexists. split; [reflexivity|]. right. split; auto. intros j Hj Hja. apply Hs; lia.
Qed.
End Strcmp.

Lemma get_cblk S b r i : 0 <= i <= zlen b -> get S (b ++ 0 :: r) i = item (b ++ [0]) i.
Proof.
  intros. rewrite get_in by (rewrite app_length; cbn; lia).
  change (item (b ++ [0]) i) with (at_ (b ++ [0]) i).
  destruct (Z_lt_dec i (zlen b)). { rewrite !at_app_l; auto; lia. }
  rewrite !at_app_r by lia. replace (i - zlen b) with 0 by lia. reflexivity.
Qed.
Lemma item_cblk b i : 0 <= i < zlen b -> item (b ++ [0]) i = at_ b i.
Proof. intros. apply at_app_l. lia. Qed.
Lemma item_end b : item (b ++ [0]) (zlen b) = 0.
Proof. change (at_ (b ++ [0]) (zlen b) = 0). rewrite at_app_r by lia. rewrite Z.sub_diag. reflexivity. Qed.

Lemma simd_strcmp_ok S a b r0 r1 : oob S <> None -> text a -> text b -> bytes r0 -> bytes r1 ->
  zlen a < 2147483648 ->
  exists d, simd_strcmp S (a ++ 0 :: r0) (b ++ 0 :: r1) = Ok d /\
    ((zlen a = 8 /\ d = 0) \/ (zlen a <> 8 /\ ((d = 0 /\ is_prefix a b) \/ (d <> 0 /\ ~ is_prefix a b /\ strcmp_spec a b d)))).
Proof.
  intros HS Ha Hb Hr0 Hr1 Hl. unfold simd_strcmp. rewrite c_strlen_text by auto. cbn [bind].
  rewrite s32_id by lia.
  assert (B0 : bytes (a ++ 0 :: r0)). { apply bytes_app. split; auto using text_bytes. constructor; auto. unfold byte; lia. }
  assert (B1 : bytes (b ++ 0 :: r1)). { apply bytes_app. split; auto using text_bytes. constructor; auto. unfold byte; lia. }
  set (same := fun i => forall j, 0 <= j < i -> j < zlen a -> at_ a j = get S (b ++ 0 :: r1) j).
  set (diff := fun d => exists i, 0 <= i < zlen a /\ same i /\ at_ a i <> get S (b ++ 0 :: r1) i /\ d = at_ a i - get S (b ++ 0 :: r1) i).
  assert (Hend : forall i, 0 <= i <= zlen a -> same i -> i <= zlen b).
  { intros i Hi Hs. destruct (Z_le_dec i (zlen b)); auto. exfalso. specialize (Hs (zlen b) ltac:(lia) ltac:(lia)).
    rewrite get_cblk, item_end in Hs by lia. pose proof (text_at a (zlen b) Ha ltac:(lia)). lia. }
  assert (Hdiff : forall d, diff d -> d <> 0 /\ ~ is_prefix a b /\ strcmp_spec a b d).
  { intros d (i & Hi & Hs & Hne & ->). specialize (Hend i ltac:(lia) Hs). split; [lia|]. split.
    { intros [c Ec]. apply Hne. rewrite get_cblk by lia. subst b. assert (zlen a <= zlen (a ++ c)) by (rewrite app_length; lia).
      rewrite item_cblk by lia. symmetry. apply at_app_l. lia. }
    right. exists i.
    rewrite get_cblk in * by lia. rewrite item_cblk by lia. repeat split; auto; try lia.
    intros j Hj. rewrite item_cblk by lia. rewrite Hs by lia. apply get_cblk. lia. }
  assert (Hsame : same (zlen a) -> is_prefix a b).
  { intros Hs. specialize (Hend (zlen a) ltac:(lia) Hs). exists (skipn (length a) b).
    rewrite <- (firstn_skipn (length a) b) at 1. f_equal. apply at_ext. rewrite firstn_length. lia.
    intros k Hk. rewrite firstn_length in Hk. unfold at_. rewrite nth_firstn by lia.
    specialize (Hs k ltac:(lia) ltac:(lia)). rewrite get_cblk, item_cblk in Hs by lia. unfold at_ in Hs. auto. }
  assert (same0 : forall i, i <= 0 -> same i). { intros i Hi j Hj. lia. }
  destruct (Z.leb_spec (zlen a) 8).
  - cbn [Z.to_nat Nat.add strcmp_words Z.ltb Z.compare bind].
    destruct (Z.eq_dec (zlen a) 8) as [E|E].
    + rewrite E. change ((8 / 8 + 1 - 1) * 8) with 8. cbn. eauto.
    + destruct (strcmp_tail_ok S a (b ++ 0 :: r1) r0 HS 9 ((zlen a / 8 + 1 - 1) * 8)) as (d & Hd & Hc); try lia.
      exists d. split; auto. right. split; auto. destruct Hc as [Hc|[-> Hc]]; [right; apply Hdiff; auto|left; auto].
  - destruct (strcmp_words_ok S a (b ++ 0 :: r1) r0 Ha HS B0 B1 (Z.to_nat (zlen a / 8 + 1) + 1) 0 (zlen a / 8 + 1)) as [(d & Hd & Hc)|(Hd & Hc)]; try lia.
    + rewrite Hd. cbn [bind]. exists d. split; auto. right. split; [lia|]. right. apply Hdiff; auto.
    + rewrite Hd. cbn [bind].
      destruct (strcmp_tail_ok S a (b ++ 0 :: r1) r0 HS 9 ((zlen a / 8 + 1 - 1) * 8)) as (d & Hd' & Hc'); try lia.
      { intros j Hj Hja. apply Hc; lia. }
      exists d. split; auto. right. split; [lia|]. destruct Hc' as [Hc'|[-> Hc']]; [right; apply Hdiff; auto|left; auto].
Qed.

(** * strpos *)
Lemma rd_text a r i : 0 <= i <= zlen a -> rd strict (a ++ 0 :: r) i = Ok (item (a ++ [0]) i).
Proof. intros. rewrite rd_in by (rewrite app_length; cbn; lia). rewrite <- (get_cblk strict a r) by lia. rewrite get_in; auto. rewrite app_length; cbn; lia. Qed.

Lemma strpos_inner_ok t p r0 r1 c : 0 <= c -> c + zlen p <= zlen t ->
  forall n d, 0 <= d <= zlen p -> zlen p - d < Z.of_nat n ->
  (forall j, 0 <= j < d -> at_ p j = at_ t (c + j)) ->
  exists e, strpos_inner n (t ++ 0 :: r0) (p ++ 0 :: r1) d (c + d) (zlen p) = Ok e /\
    ((e = zlen p /\ forall j, 0 <= j < zlen p -> at_ p j = at_ t (c + j)) \/
     (0 <= e < zlen p /\ at_ p e <> at_ t (c + e))).
Proof.
  intros Hc Hl. induction n; intros d Hd Hn Hs; [lia|]. cbn [strpos_inner].
  destruct (Z.ltb_spec d (zlen p)).
  - rewrite !rd_text by lia. cbn [bind]. rewrite !item_cblk by lia.
    destruct (Z.eqb_spec (at_ p d) (at_ t (c + d))) as [E|E].
    + replace (c + d + 1) with (c + (d + 1)) by lia. apply IHn; try lia.
      intros j Hj. destruct (Z.eq_dec j d); [subst; auto|]. apply Hs; lia.
    + exists d. split; auto. right. split; auto; lia.
  - exists d. split; auto. left. split; [lia|]. intros. apply Hs. lia.
Qed.
Lemma occurs_at_eq p t i : 0 <= i -> i + zlen p <= zlen t ->
  (occurs_at p t i <-> forall j, 0 <= j < zlen p -> at_ p j = at_ t (i + j)).
Proof.
  intros Hi Hl. unfold occurs_at. split.
  - intros (_ & _ & E) j Hj. rewrite <- E at 1. apply slice_item; lia.
  - intros E. repeat split; auto. apply at_ext.
    + pose proof (slice_length t i (zlen p) ltac:(lia) ltac:(lia) ltac:(lia)). lia.
    + intros k Hk. rewrite slice_length in Hk by lia. rewrite E by lia.
      apply slice_item; lia.
Qed.
Lemma strpos_outer_ok t p r0 r1 : zlen t < 2147483648 -> zlen p <= zlen t ->
  forall n c, 0 <= c -> Z.max 0 (zlen t - zlen p - c + 1) < Z.of_nat n -> (forall j, 0 <= j < c -> ~ occurs_at p t j) ->
  (exists i, strpos_outer n (t ++ 0 :: r0) (p ++ 0 :: r1) c (zlen t - zlen p) (zlen p) = Ok i /\ first_occ p t i) \/
  (strpos_outer n (t ++ 0 :: r0) (p ++ 0 :: r1) c (zlen t - zlen p) (zlen p) = Ok (-1) /\ ~ occurs p t).
Proof.
  intros Ht Hp. induction n; intros c Hc Hn Hs; [lia|]. cbn [strpos_outer].
  destruct (Z.leb_spec c (zlen t - zlen p)).
  - destruct (strpos_inner_ok t p r0 r1 c Hc ltac:(lia) (Z.to_nat (zlen p) + 1) 0 ltac:(lia) ltac:(lia)) as (e & He & Hcase).
    { intros; lia. }
    rewrite Z.add_0_r in He. rewrite He. cbn [bind].
    destruct Hcase as [[-> Hm]|[He2 Hne]].
    + rewrite Z.eqb_refl. left. exists c. rewrite s32_id by lia. split; auto. split; auto.
      apply occurs_at_eq; auto. lia.
    + destruct (Z.eqb_spec e (zlen p)); [lia|]. apply IHn; try lia.
      intros j Hj. destruct (Z.eq_dec j c); [subst|apply Hs; lia].
      intros Ho. apply Hne. apply (occurs_at_eq p t c); auto; lia.
  - right. split; auto. intros [i Hi]. pose proof Hi as (? & ? & ?). apply (Hs i); auto. lia.
Qed.
Lemma strpos_ok t p r0 r1 : text t -> text p -> zlen t < 2147483648 ->
  (exists i, strpos (t ++ 0 :: r0) (p ++ 0 :: r1) = Ok i /\ first_occ p t i) \/
  (strpos (t ++ 0 :: r0) (p ++ 0 :: r1) = Ok (-1) /\ ~ occurs p t).
Proof.
  intros Ht Hp Hl. unfold strpos. rewrite !c_strlen_text by auto. cbn [bind].
  destruct (Z.ltb_spec (zlen t) (zlen p)).
  - right. split; auto. intros [i (? & ? & ?)]. lia.
  - apply strpos_outer_ok; try lia.
Qed.
