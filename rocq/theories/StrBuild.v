(** Proofs about str_copy, str_memdup_ex, str_split_ex, str_concat_ex and str_replace_ex. *)
From Verif Require Export StrProofs.
Open Scope Z_scope.

(** * Copies *)
Lemma rdn_slice b o n : 0 <= o -> 0 <= n -> o + n <= zlen b -> rdn strict b o (Z.to_nat n) = Ok (slice b o n).
Proof.
  intros. rewrite (rdn_gets strict b 0 (zlen b)) by (try lia; right; lia).
  rewrite gets_in by lia. reflexivity.
Qed.
Lemma blit_slice b i l b' : blit b i l = Ok b' -> slice b' i (zlen l) = l.
Proof.
  intros H. apply blit_inv in H. destruct H as (Hi & Hl & ->). unfold slice.
  rewrite skipn_app, firstn_length, skipn_all2 by (rewrite firstn_length; lia).
  replace (Z.to_nat i - Init.Nat.min (Z.to_nat i) (length b))%nat with 0%nat by lia. cbn [app skipn].
  rewrite Nat2Z.id, firstn_app, firstn_all, Nat.sub_diag. cbn [firstn]. apply app_nil_r.
Qed.
Lemma str_copy_ok dest d src o len n : 0 <= d -> 0 <= o -> 0 <= n -> o + n <= zlen src -> d + n <= zlen dest ->
  (len = n /\ len <> 0) \/ (len = 0 /\ cstr_len src o n) ->
  exists res, str_copy dest d src o len = Ok res /\ length res = length dest /\
    slice res d n = slice src o n /\
    forall k, 0 <= k < zlen dest -> k < d \/ d + n <= k -> item res k = item dest k.
Proof.
  intros Hd Ho Hn Hs Hdl Hc. unfold str_copy.
  assert (E : (if len =? 0 then c_strlen src o else Ok len) = Ok n).
  { destruct Hc as [[-> Hz]|[-> Hc]]. destruct (Z.eqb_spec n 0); auto; lia. cbn. apply c_strlen_ok; auto. }
  rewrite E. cbn [bind]. rewrite rdn_slice by lia. cbn [bind].
  pose proof (slice_length src o n Ho Hn Hs) as L.
  destruct (blit dest d (slice src o n)) as [res| | |] eqn:B;
    try (rewrite blit_ok in B by lia; discriminate).
  exists res. split; auto. split; [eapply blit_length; eauto|]. split.
  - apply blit_slice in B. rewrite L in B. auto.
  - intros k Hk Ho'. change (item res k) with (at_ res k). rewrite (blit_at _ _ _ _ k B) by lia. rewrite L.
    destruct (Z.leb_spec d k); destruct (Z.ltb_spec k (d + n)); cbn [andb]; auto. lia.
Qed.
Lemma str_memdup_ok src o len : 0 <= o -> 0 <= len -> o + len <= zlen src ->
  str_memdup_ex src o len = Ok (slice src o len ++ [0]).
Proof.
  intros. unfold str_memdup_ex. rewrite rdn_slice by lia. cbn [bind].
  pose proof (slice_length src o len ltac:(lia) ltac:(lia) ltac:(lia)) as L.
  rewrite blit_ok by (rewrite ?repeat_length; lia). cbn [Z.to_nat firstn app Nat.add].
  do 2 f_equal. replace (length (slice src o len)) with (Z.to_nat len) by lia.
  replace (Z.to_nat (len + 1)) with (Z.to_nat len + 1)%nat by lia. rewrite repeat_app, skipn_app, repeat_length, Nat.sub_diag.
  rewrite skipn_all2 by (rewrite repeat_length; lia). reflexivity.
Qed.
Lemma blit_mid a old new c : length old = length new -> blit (a ++ old ++ c) (zlen a) new = Ok (a ++ new ++ c).
Proof.
  intros H. rewrite blit_ok by (rewrite ?app_length; lia). f_equal. rewrite Nat2Z.id.
  rewrite firstn_app, firstn_all, Nat.sub_diag. cbn [firstn]. rewrite app_nil_r. do 2 f_equal.
  rewrite app_assoc, skipn_app, app_length, skipn_all2 by (rewrite app_length; lia).
  replace (length a + length new - (length a + length old))%nat with 0%nat by lia. reflexivity.
Qed.
Lemma slice_mid a b c : slice (a ++ b ++ c) (zlen a) (zlen b) = b.
Proof.
  unfold slice. rewrite !Nat2Z.id, skipn_app, skipn_all2, Nat.sub_diag by lia. cbn [app skipn].
  rewrite firstn_app, firstn_all, Nat.sub_diag. cbn [firstn]. apply app_nil_r.
Qed.
Lemma slice_front b c : slice (b ++ c) 0 (zlen b) = b.
Proof. exact (slice_mid [] b c). Qed.
Lemma holds_mid a b c : holds_cstr (a ++ b ++ 0 :: c) (zlen a) b.
Proof.
  unfold holds_cstr. replace (zlen b + 1) with (zlen (b ++ [0])) by (rewrite app_length; cbn; lia).
  replace (a ++ b ++ 0 :: c) with (a ++ (b ++ [0]) ++ c) by (rewrite <- !app_assoc; reflexivity). apply slice_mid.
Qed.

(** * strstr *)
Lemma prefixb_iff p : forall l, prefixb p l = true <-> is_prefix p l.
Proof.
  induction p as [|x p IH]; intros l; cbn [prefixb].
  - split; auto. intros _. exists l. auto.
  - destruct l as [|y l].
    + split; [discriminate|]. intros [c Hc]. discriminate.
    + rewrite andb_true_iff, Z.eqb_eq, IH. split.
      * intros [-> [c ->]]. exists c. auto.
      * intros [c Hc]. inversion Hc; subst. split; auto. exists c; auto.
Qed.
Lemma prefix_occurs p l : is_prefix p l <-> occurs_at p l 0.
Proof.
  split.
  - intros [c ->]. repeat split; try lia. rewrite app_length; lia. apply slice_front.
  - intros (_ & H & E). exists (skipn (length p) l). rewrite <- E at 1. unfold slice. cbn [skipn Z.to_nat].
    rewrite Nat2Z.id. symmetry. apply firstn_skipn.
Qed.
Lemma occurs_cons p x l i : 1 <= i -> (occurs_at p (x :: l) i <-> occurs_at p l (i - 1)).
Proof.
  intros H. unfold occurs_at, slice. cbn [length].
  replace (Z.to_nat i) with (Datatypes.S (Z.to_nat (i - 1))) by lia. cbn [skipn].
  split; intros (? & ? & ?); repeat split; auto; lia.
Qed.
Lemma c_strstr_spec p l : match c_strstr p l with Some k => first_occ p l k | None => ~ occurs p l end.
Proof.
  induction l as [|x l IH]; cbn [c_strstr].
  - destruct (prefixb p []) eqn:E.
    + split; [|intros; lia]. apply prefix_occurs, prefixb_iff. auto.
    + intros [i (? & ? & ?)]. cbn in *. assert (zlen p = 0) by lia. destruct p; [discriminate|cbn in *; lia].
  - destruct (prefixb p (x :: l)) eqn:E.
    + split; [|intros; lia]. apply prefix_occurs, prefixb_iff. auto.
    + assert (N : ~ occurs_at p (x :: l) 0).
      { intros H. apply prefix_occurs, prefixb_iff in H. congruence. }
      destruct (c_strstr p l) as [k|].
      * destruct IH as [IH1 IH2]. pose proof IH1 as (? & _). split.
        -- apply occurs_cons; try lia. replace (k + 1 - 1) with k by lia. auto.
        -- intros j Hj. destruct (Z.eq_dec j 0); [subst; auto|]. rewrite occurs_cons by lia. apply IH2. lia.
      * intros [i Hi]. destruct (Z.eq_dec i 0); [subst; auto|]. apply IH. exists (i - 1).
        apply (occurs_cons p x); auto. destruct Hi; lia.
Qed.
Lemma first_occ_uniq p l i j : first_occ p l i -> first_occ p l j -> i = j.
Proof.
  intros [Hi1 Hi2] [Hj1 Hj2]. destruct (Z.lt_trichotomy i j) as [H|[H|H]]; auto; exfalso.
  - apply (Hj2 i); auto. destruct Hi1. lia.
  - apply (Hi2 j); auto. destruct Hj1. lia.
Qed.
Lemma c_strstr_first p l i : first_occ p l i -> c_strstr p l = Some i.
Proof.
  intros H. pose proof (c_strstr_spec p l). destruct (c_strstr p l).
  - f_equal. eapply first_occ_uniq; eauto.
  - exfalso. apply H0. exists i. apply H.
Qed.
Lemma c_strstr_none p l : ~ occurs p l -> c_strstr p l = None.
Proof.
  intros H. pose proof (c_strstr_spec p l). destruct (c_strstr p l); auto. exfalso. apply H. exists z. apply H0.
Qed.
Lemma upto0_text s : text s -> forall r, upto0 (s ++ 0 :: r) = s.
Proof. induction 1; intros; cbn [upto0 app]; auto. destruct (Z.eqb_spec x 0); [lia|]. f_equal. auto. Qed.
Lemma content_mid pre s r : text s -> content (pre ++ s ++ 0 :: r) (zlen pre) = s.
Proof.
  intros. unfold content. rewrite Nat2Z.id, skipn_app, skipn_all, Nat.sub_diag. cbn [skipn app]. apply upto0_text. auto.
Qed.
Lemma text_app a b : text (a ++ b) <-> text a /\ text b.
Proof. unfold text. apply Forall_app. Qed.

(** * str_split_ex *)
Lemma first_occ_cut d s i : first_occ d s i -> exists w r, s = w ++ d ++ r /\ zlen w = i.
Proof.
  intros [(H0 & Hl & E) _]. exists (firstn (Z.to_nat i) s), (skipn (Z.to_nat i + length d) s). split.
  - rewrite <- (firstn_skipn (Z.to_nat i) s) at 1. f_equal.
    rewrite <- (firstn_skipn (length d) (skipn (Z.to_nat i) s)). rewrite skipn_add. f_equal.
    unfold slice in E. rewrite Nat2Z.id in E. auto.
  - rewrite firstn_length. lia.
Qed.
Lemma splits_exists d : d <> [] -> forall n s, (length s <= n)%nat -> exists ws, splits d s ws.
Proof.
  intros Hd. induction n; intros s Hs.
  - exists [s]. constructor. intros [i (? & ? & ?)]. destruct d; [tauto|]. cbn in *. lia.
  - pose proof (c_strstr_spec d s) as H. destruct (c_strstr d s) as [i|].
    + destruct (first_occ_cut d s i H) as (w & r & -> & E). destruct (IHn r) as [ws Hws].
      * rewrite !app_length in Hs. destruct d; [tauto|]. cbn in Hs. lia.
      * exists (w :: ws). constructor; auto. rewrite E. auto.
    + exists [s]. constructor. auto.
Qed.
Lemma splits_nonnil d s ws : splits d s ws -> ws <> [].
Proof. destruct 1; discriminate. Qed.
Lemma splits_length d s ws : d <> [] -> splits d s ws -> (length ws <= length s + 1)%nat.
Proof.
  intros Hd. induction 1; cbn [length]; [lia|]. rewrite !app_length. destruct d; [tauto|]. cbn. lia.
Qed.
Lemma splits_join d s ws : splits d s ws -> join d ws = s.
Proof.
  induction 1; auto. cbn [join]. destruct ws; [apply splits_nonnil in H0; tauto|]. rewrite IHsplits. auto.
Qed.
Lemma occurs_app_r d w s : occurs d w -> exists i, occurs_at d (w ++ s) i /\ i + zlen d <= zlen w.
Proof.
  intros [i (H0 & Hl & E)]. exists i. repeat split; auto; try (rewrite app_length; lia).
  unfold slice in *. rewrite skipn_app, firstn_app, skipn_length, Nat2Z.id in *.
  replace (length d - (length w - Z.to_nat i))%nat with 0%nat by lia. cbn [firstn]. rewrite app_nil_r. auto.
Qed.
Lemma splits_clean d s ws : d <> [] -> splits d s ws -> Forall (fun w => ~ occurs d w) ws.
Proof.
  intros Hd. induction 1; constructor; auto. intros Ho.
  apply (occurs_app_r d w (d ++ s)) in Ho. destruct Ho as (i & Hi & Hlt). destruct H as [_ H].
  apply (H i); auto. destruct Hi. destruct d; [tauto|]. cbn [length] in *. lia.
Qed.

Lemma split_count_ok d s ws : splits d s ws -> forall pre fuel n, text (pre ++ s) -> (length ws <= fuel)%nat ->
  split_count fuel (cblk (pre ++ s)) (zlen pre) d n = Ok (n + zlen ws - 1).
Proof.
  unfold cblk. induction 1; intros pre fuel n Ht Hf; cbn [length] in *; (destruct fuel; [lia|]); cbn [split_count]; unfold strstr_at.
  - apply text_app in Ht. rewrite <- app_assoc, content_mid by tauto. rewrite c_strstr_none by auto. f_equal. lia.
  - pose proof Ht as Ht'. apply text_app in Ht'. rewrite <- app_assoc, content_mid by tauto.
    rewrite (c_strstr_first _ _ _ H).
    replace (pre ++ (w ++ d ++ s) ++ [0]) with (((pre ++ w ++ d) ++ s) ++ [0]) by (rewrite <- !app_assoc; auto).
    replace (zlen pre + zlen w + zlen d) with (zlen (pre ++ w ++ d)) by (rewrite !app_length; lia).
    rewrite IHsplits; try lia. f_equal; lia.
    rewrite <- !app_assoc. auto.
Qed.

(** What the copy looks like after the cuts, and the word offsets. *)
Fixpoint cutbody (d : list Z) (ws : list (list Z)) : list Z :=
  match ws with [] => [] | [w] => w | w :: ws' => w ++ 0 :: tl d ++ cutbody d ws' end.
Fixpoint offs (d : list Z) (o : Z) (ws : list (list Z)) : list Z :=
  match ws with
  | [] => [] | [w] => []
  | w :: ws' => (o + zlen w + zlen d) :: offs d (o + zlen w + zlen d) ws'
  end.
Lemma offs_length d : forall ws o, length (offs d o ws) = (length ws - 1)%nat.
Proof.
  induction ws as [|w ws IH]; intros; auto. cbn [offs]. destruct ws as [|w' ws]; auto.
  cbn [length] in *. rewrite IH. lia.
Qed.
Lemma cutbody_cons d w ws : ws <> [] -> cutbody d (w :: ws) = w ++ 0 :: tl d ++ cutbody d ws.
Proof. destruct ws; [tauto|reflexivity]. Qed.
Lemma offs_cons d o w ws : ws <> [] -> offs d o (w :: ws) = (o + zlen w + zlen d) :: offs d (o + zlen w + zlen d) ws.
Proof. destruct ws; [tauto|reflexivity]. Qed.

Lemma pset_ok t i v : 0 <= i < zlen t -> pset t i v = Ok (firstn (Z.to_nat i) t ++ v :: skipn (Z.to_nat i + 1) t).
Proof. intros. unfold pset. destruct (Z.leb_spec 0 i); destruct (Z.ltb_spec i (zlen t)); try lia. reflexivity. Qed.
Lemma pset_mid a v u c : pset (a ++ u :: c) (zlen a) v = Ok (a ++ v :: c).
Proof.
  rewrite pset_ok by (rewrite app_length; cbn; lia). rewrite Nat2Z.id, firstn_app, firstn_all, Nat.sub_diag. cbn [firstn].
  rewrite app_nil_r. do 3 f_equal. rewrite skipn_app, skipn_all2 by lia.
  replace (length a + 1 - length a)%nat with 1%nat by lia. reflexivity.
Qed.

Lemma split_cut_ok d s ws : d <> [] -> splits d s ws -> forall pre fuel ta tb, text s -> (length ws <= fuel)%nat ->
  exists tc, tc = map Some (offs d (zlen pre) ws) /\
  forall old, length old = length tc ->
  split_cut fuel (ta ++ old ++ tb) (zlen ta - 1) (pre ++ s ++ [0]) (zlen pre) d =
  Ok (ta ++ tc ++ tb, zlen ta - 1 + zlen ws - 1, pre ++ cutbody d ws ++ [0]).
Proof.
  intros Hd. induction 1 as [s Hn|w s ws Hf Hs IH]; intros pre fuel ta tb Ht Hfu; eexists; (split; [reflexivity|]); intros old Ho;
    cbn [length] in *; (destruct fuel; [lia|]); cbn [split_cut]; unfold strstr_at.
  - rewrite content_mid by auto. rewrite c_strstr_none by auto. cbn [offs map length] in *.
    destruct old; [|discriminate]. cbn [cutbody app]. f_equal. f_equal. f_equal. lia.
  - pose proof (splits_nonnil _ _ _ Hs) as Hnn.
    rewrite content_mid by auto. rewrite (c_strstr_first _ _ _ Hf).
    rewrite offs_cons, cutbody_cons in * by auto. cbn [map length] in *.
    destruct old as [|u old]; [discriminate|]. destruct d as [|d0 d]; [tauto|]. cbn [tl].
    replace (pre ++ (w ++ (d0 :: d) ++ s) ++ [0]) with ((pre ++ w) ++ [d0] ++ (d ++ s ++ [0])) by (rewrite <- !app_assoc; reflexivity).
    replace (zlen pre + zlen w) with (zlen (pre ++ w)) by (rewrite app_length; lia).
    rewrite blit_mid by reflexivity. cbn [bind].
    replace (zlen ta - 1 + 1) with (zlen ta) by lia.
    change (ta ++ (u :: old) ++ tb) with (ta ++ u :: (old ++ tb)). rewrite pset_mid. cbn [bind].
    apply text_app in Ht. destruct Ht as [Hw Ht]. apply text_app in Ht. destruct Ht as [_ Ht].
    set (o := zlen (pre ++ w) + zlen (d0 :: d)) in *.
    assert (Eo : o = zlen (pre ++ w ++ 0 :: d)) by (unfold o; rewrite !app_length; cbn [length]; lia).
    destruct (IH (pre ++ w ++ 0 :: d) fuel (ta ++ [Some o]) tb Ht ltac:(lia)) as (tc & Etc & IH').
    rewrite <- Eo in IH', Etc.
    specialize (IH' old). rewrite Etc in IH'. rewrite map_length in *. rewrite !offs_length in *. specialize (IH' ltac:(cbn [length] in *; lia)).
    rewrite <- !app_assoc in IH'. cbn [app] in IH'.
    replace (zlen (ta ++ [Some o]) - 1) with (zlen ta) in IH' by (rewrite app_length; cbn; lia).
    replace ((pre ++ w) ++ [0] ++ d ++ s ++ [0]) with (pre ++ w ++ 0 :: d ++ s ++ [0]) by (rewrite <- !app_assoc; reflexivity).
    rewrite IH'. f_equal. f_equal; [f_equal; try lia|].
    + rewrite <- app_assoc. cbn [app]. rewrite <- app_assoc. reflexivity.
Qed.

Lemma split_words d s ws : d <> [] -> splits d s ws -> forall pre,
  Forall2 (holds_cstr (pre ++ cutbody d ws ++ [0])) (zlen pre :: offs d (zlen pre) ws) ws.
Proof.
  intros Hd. induction 1 as [s Hn|w s ws Hf Hs IH]; intros pre.
  - cbn [offs cutbody]. constructor; [|constructor]. apply holds_mid.
  - pose proof (splits_nonnil _ _ _ Hs) as Hnn. rewrite offs_cons, cutbody_cons by auto.
    constructor.
    + replace (pre ++ (w ++ 0 :: tl d ++ cutbody d ws) ++ [0]) with (pre ++ w ++ 0 :: (tl d ++ cutbody d ws ++ [0])) by (rewrite <- !app_assoc; cbn; rewrite <- app_assoc; reflexivity).
      apply holds_mid.
    + specialize (IH (pre ++ w ++ 0 :: tl d)).
      replace (zlen (pre ++ w ++ 0 :: tl d)) with (zlen pre + zlen w + zlen d) in IH
        by (rewrite !app_length; destruct d; [tauto|]; cbn [length tl]; lia).
      replace (pre ++ (w ++ 0 :: tl d ++ cutbody d ws) ++ [0]) with ((pre ++ w ++ 0 :: tl d) ++ cutbody d ws ++ [0]) by (rewrite <- !app_assoc; cbn; rewrite <- app_assoc; reflexivity).
      exact IH.
Qed.
Lemma cutbody_length d s ws : d <> [] -> splits d s ws -> length (cutbody d ws) = length s.
Proof.
  intros Hd. induction 1 as [s Hn|w s ws Hf Hs IH]; auto.
  rewrite cutbody_cons by (eapply splits_nonnil; eauto). rewrite !app_length. cbn [length]. rewrite app_length, IH.
  destruct d; [tauto|]. cbn [tl length]. lia.
Qed.

Lemma is_str_eq_empty S s : oob S <> None -> text s -> zlen s < 2147483648 ->
  is_str_eq S (cblk s) (cblk []) = Ok ((zlen s =? 0) || (zlen s =? 8)).
Proof.
  intros HS Hs Hl. unfold is_str_eq, cblk. cbn [app].
  destruct (simd_strcmp_ok S s [] [] [] HS Hs ltac:(constructor) ltac:(constructor) ltac:(constructor) Hl) as (d & E & H).
  cbn [app] in E. rewrite E. cbn [bind]. f_equal.
  destruct H as [[-> ->]|[N [[-> [c Hc]]|[Hd [_ Hc]]]]]; auto.
  - destruct s; [reflexivity|discriminate].
  - destruct (Z.eqb_spec d 0); [tauto|]. destruct (Z.eqb_spec (zlen s) 8); [tauto|].
    destruct (Z.eqb_spec (zlen s) 0) as [Z0|]; auto. destruct s; [|cbn in *; lia].
    destruct Hc as [[_ ->]|(i & ? & ? & ? & ? & ?)]; [tauto|]. cbn in *. lia.
Qed.

Lemma zlen_pos {A} (l : list A) : l <> [] -> 1 <= zlen l.
Proof. destruct l; [tauto|cbn [length]; lia]. Qed.
Lemma str_split_ok fuel S s od d : oob S <> None -> text s -> s <> [] -> zlen s <> 8 -> zlen s < 2147483647 ->
  od = Some d \/ (od = None /\ d = [32]) -> d <> [] -> (length s < fuel)%nat ->
  exists os ws txt, str_split_ex fuel S s od = Ok (Some (map Some os ++ [None], txt, zlen ws)) /\
    splits d s ws /\ length txt = (length s + 1)%nat /\ Forall2 (holds_cstr txt) os ws.
Proof.
  intros HS Hs Hn H8 Hl Hod Hd Hf. unfold str_split_ex. rewrite is_str_eq_empty by (auto; lia). cbn [bind].
  pose proof (zlen_pos s Hn). destruct (Z.eqb_spec (zlen s) 0); [lia|]. destruct (Z.eqb_spec (zlen s) 8); [lia|]. cbn [orb].
  replace (match od with Some d => d | None => [32] end) with d by (destruct Hod as [->|[-> ->]]; auto).
  destruct (splits_exists d Hd (length s) s (le_n _)) as [ws Hws].
  pose proof (splits_length _ _ _ Hd Hws) as Lw. pose proof (zlen_pos _ (splits_nonnil _ _ _ Hws)) as Lw1.
  pose proof (split_count_ok d s ws Hws [] fuel 1 ltac:(cbn [app]; auto) ltac:(lia)) as C. cbn [app length] in C.
  change (Z.of_nat 0) with 0 in C. rewrite C. cbn [bind]. rewrite c_strlen_cblk by auto. cbn [bind].
  destruct (str_copy_ok (repeat 0 (Z.to_nat (zlen s + 1))) 0 (cblk s) 0 (zlen s) (zlen s)) as (res & -> & Hlen & Hsl & Hrest);
    try lia. { unfold cblk. rewrite app_length. lia. } { rewrite repeat_length. lia. }
  cbn [bind].
  assert (Er : res = s ++ [0]).
  { rewrite repeat_length in *. apply at_ext. rewrite app_length. cbn [length]. lia. intros k Hk.
    destruct (Z_lt_dec k (zlen s)).
    - rewrite at_app_l by lia. unfold cblk in Hsl. rewrite slice_front in Hsl. rewrite <- Hsl.
      symmetry. apply slice_item; lia.
    - rewrite at_app_r by lia. replace k with (zlen s) in * by lia. rewrite Z.sub_diag.
      change (at_ res (zlen s)) with (item res (zlen s)). rewrite Hrest by lia. unfold item. apply nth_repeat. }
  rewrite Er.
  replace (Z.to_nat (1 + zlen ws - 1 + 1)) with (1 + (length ws - 1) + 1)%nat by lia.
  rewrite !repeat_app. rewrite <- app_assoc. cbn [repeat].
  replace ([None] ++ repeat None (length ws - 1) ++ [None]) with ([] ++ @None Z :: repeat None (length ws - 1) ++ [None]) by reflexivity.
  change 0 with (zlen (@nil (option Z))) at 2. rewrite pset_mid. cbn [bind app].
  exists (0 :: offs d 0 ws), ws, (cutbody d ws ++ [0]).
  pose proof (split_words d s ws Hd Hws []) as W. cbn [app length] in W. change (Z.of_nat 0) with 0 in W.
  split; [|repeat split; auto; rewrite app_length; cbn [length]; rewrite (cutbody_length d s ws); auto].
  assert (Cut : (if 1 <? 1 + zlen ws - 1 then split_cut fuel (Some 0 :: repeat None (length ws - 1) ++ [None]) 0 (s ++ [0]) 0 d
     else Ok (Some 0 :: repeat None (length ws - 1) ++ [None], 0, s ++ [0])) =
     Ok (Some 0 :: map Some (offs d 0 ws) ++ [None], zlen ws - 1, cutbody d ws ++ [0])).
  { destruct (Z.ltb_spec 1 (1 + zlen ws - 1)).
    - destruct (split_cut_ok d s ws Hd Hws [] fuel [Some 0] [None] Hs ltac:(lia)) as (tc & Etc & Hc).
      specialize (Hc (repeat None (length ws - 1))). cbn [app length] in Hc. change (Z.of_nat 1 - 1) with 0 in Hc. change (Z.of_nat 0) with 0 in *.
      rewrite Hc. rewrite Etc. replace (0 + zlen ws - 1) with (zlen ws - 1) by lia. reflexivity.
      rewrite repeat_length, Etc, map_length, offs_length. auto.
    - destruct ws as [|w [|]]; cbn [length] in *; try lia. inversion Hws; subst.
      + reflexivity.
      + exfalso. eapply splits_nonnil; eauto. }
  change (zlen (@nil (option Z))) with 0.
  rewrite Cut. cbn [bind].
  replace (zlen ws - 1 + 1) with (zlen (Some 0 :: map Some (offs d 0 ws))) by (cbn [length]; rewrite map_length, offs_length; lia).
  replace (Some 0 :: map Some (offs d 0 ws) ++ [None]) with ((Some 0 :: map Some (offs d 0 ws)) ++ [None]) by reflexivity.
  rewrite pset_mid. cbn [bind map]. rewrite s32_id by lia. replace (1 + zlen ws - 1) with (zlen ws) by lia. reflexivity.
Qed.

(** An empty delimiter never lets the counting loop end. *)
Lemma split_count_empty b p fuel : forall n, split_count fuel b p [] n = NoFuel.
Proof.
  induction fuel; intros; cbn [split_count]; auto. unfold strstr_at.
  replace (c_strstr [] (content b p)) with (Some 0) by (destruct (content b p); reflexivity).
  cbn [length]. replace (p + 0 + Z.of_nat 0) with p by lia. auto.
Qed.
Lemma split_empty_delim fuel S s : oob S <> None -> text s -> s <> [] -> zlen s <> 8 -> zlen s < 2147483648 ->
  str_split_ex fuel S s (Some []) = NoFuel.
Proof.
  intros HS Hs Hn H8 Hl. unfold str_split_ex. rewrite is_str_eq_empty by auto. cbn [bind].
  pose proof (zlen_pos s Hn). destruct (Z.eqb_spec (zlen s) 0); [lia|]. destruct (Z.eqb_spec (zlen s) 8); [lia|]. cbn [orb].
  rewrite split_count_empty. reflexivity.
Qed.

(** * str_concat_ex *)
Lemma concat_size_ok args : Forall text args -> forall n, 0 <= n -> n + zlen (concat args) < 18446744073709551616 ->
  concat_size args n = Ok (n + zlen (concat args)).
Proof.
  induction 1; intros n Hn0 H1; cbn [concat_size concat length] in *. { f_equal. lia. }
  rewrite app_length in H1. rewrite c_strlen_cblk by auto. cbn [bind]. rewrite u64_id by lia. rewrite IHForall by lia.
  rewrite app_length. f_equal. lia.
Qed.
Lemma str_copy_mid pre s z rest : text s -> length z = length s ->
  str_copy (pre ++ z ++ rest) (zlen pre) (cblk s) 0 0 = Ok (pre ++ s ++ rest).
Proof.
  intros Hs Hz. unfold str_copy. cbn [Z.eqb]. rewrite c_strlen_cblk by auto. cbn [bind].
  rewrite rdn_slice by (unfold cblk; rewrite ?app_length; lia). cbn [bind]. unfold cblk. rewrite slice_front. apply blit_mid. auto.
Qed.
Lemma concat_copy_ok args : Forall text args -> forall pre n, zlen pre + zlen (concat args) < 18446744073709551616 ->
  n = (length (concat args) + 1)%nat ->
  concat_copy args (pre ++ repeat 0 n) (zlen pre) = Ok (pre ++ concat args ++ [0]).
Proof.
  induction 1; intros pre n H1 ->; cbn [concat_copy concat length app] in *. { reflexivity. }
  rewrite app_length in *. rewrite <- Nat.add_assoc, repeat_app.
  rewrite str_copy_mid by (auto; rewrite repeat_length; auto). cbn [bind].
  rewrite c_strlen_cblk by auto. cbn [bind]. rewrite u64_id by lia.
  replace (zlen pre + zlen x) with (zlen (pre ++ x)) by (rewrite app_length; lia).
  rewrite app_assoc. rewrite IHForall; auto. rewrite <- !app_assoc. reflexivity.
  rewrite app_length. lia.
Qed.
Lemma str_concat_ok args : Forall text args -> zlen (concat args) < 18446744073709551615 ->
  str_concat_ex args = Ok (concat args ++ [0]).
Proof.
  intros Ha Hl. unfold str_concat_ex. rewrite concat_size_ok by (auto; lia). cbn [bind].
  rewrite u64_id by lia. apply (concat_copy_ok args Ha []); cbn [length]; lia.
Qed.

(** * str_replace_ex *)
Lemma substituted_exists n x : n <> [] -> forall k h, (length h <= k)%nat -> exists r, substituted n x h r.
Proof.
  intros Hn. induction k; intros h Hh.
  - destruct h; [|cbn in *; lia]. exists []. constructor.
  - destruct (prefixb n h) eqn:E.
    + apply prefixb_iff in E. destruct E as [c ->]. destruct (IHk c) as [r Hr].
      * rewrite app_length in Hh. destruct n; [tauto|]. cbn in Hh. lia.
      * exists (x ++ r). constructor; auto.
    + destruct h as [|c h]. { exists []. constructor. }
      destruct (IHk h) as [r Hr]. { cbn in Hh. lia. }
      exists (c :: r). constructor; auto. intros H. apply prefixb_iff in H. congruence.
Qed.
Lemma strstr_here n pre h r : text h ->
  match strstr_at (pre ++ h ++ 0 :: r) (zlen pre) n with Some q => q =? zlen pre | None => false end = prefixb n h.
Proof.
  intros Hh. unfold strstr_at. rewrite content_mid by auto. destruct h as [|c h]; cbn [c_strstr].
  - destruct (prefixb n []); auto. apply Z.eqb_eq. lia.
  - destruct (prefixb n (c :: h)). { apply Z.eqb_eq. lia. }
    pose proof (c_strstr_spec n h). destruct (c_strstr n h); auto. apply Z.eqb_neq. destruct H as [(? & _) _]. lia.
Qed.
Lemma rd_mid pre c r : rd strict (pre ++ c :: r) (zlen pre) = Ok c.
Proof.
  rewrite rd_in by (rewrite app_length; cbn; lia). rewrite at_app_r by lia. rewrite Z.sub_diag. reflexivity.
Qed.
Lemma replace_count_step f pre h n cnt : text h ->
  replace_count (S f) (pre ++ h ++ [0]) n (zlen pre) cnt =
  match h with
  | [] => Ok (zlen pre, cnt)
  | _ => if prefixb n h then replace_count f (pre ++ h ++ [0]) n (u64 (u64 (zlen pre + u64 (zlen n - 1)) + 1)) (cnt + 1)
         else replace_count f (pre ++ h ++ [0]) n (u64 (zlen pre + 1)) cnt
  end.
Proof.
  intros Hh. cbn [replace_count]. pose proof (strstr_here n pre h [] Hh) as E. destruct h as [|c h].
  - cbn [app]. rewrite rd_mid. reflexivity.
  - cbn [app] in *. rewrite rd_mid. cbn [bind]. inversion Hh; subst. destruct (Z.eqb_spec c 0); [lia|].
    destruct (strstr_at (pre ++ c :: h ++ [0]) (zlen pre) n) as [q|]; rewrite <- E; auto.
Qed.
Lemma replace_count_ok n x h r : substituted n x h r -> n <> [] ->
  exists k, 0 <= k /\ (k = 0 <-> ~ occurs n h) /\ zlen r = zlen h + k * (zlen x - zlen n) /\
  forall pre fuel cnt, text h -> (length h < fuel)%nat -> zlen (pre ++ h) + 1 < 18446744073709551616 ->
  replace_count fuel (pre ++ h ++ [0]) n (zlen pre) cnt = Ok (zlen (pre ++ h), cnt + k).
Proof.
  intros H Hn. pose proof (zlen_pos n Hn) as Ln. induction H as [|h r Hs IH _|c h r Hp Hs IH].
  - exists 0. repeat split; try lia.
    + intros _ [i (? & ? & _)]. cbn [length] in *. lia.
    + intros. destruct fuel; [lia|]. rewrite replace_count_step by auto. rewrite app_nil_r. f_equal. f_equal. lia.
  - destruct IH as (k & Hk & Hz & Hl & IH). exists (k + 1). repeat split; try lia.
    + intros Hno. exfalso. apply Hno. exists 0. apply prefix_occurs. exists h. auto.
    + rewrite !app_length. lia.
    + intros pre fuel cnt Ht Hf Hb. destruct fuel; [lia|]. rewrite replace_count_step by auto.
      assert (P : prefixb n (n ++ h) = true). { apply prefixb_iff. exists h. auto. }
      rewrite P. destruct (n ++ h) as [|c0 l0] eqn:E. { destruct n; [tauto|discriminate]. } rewrite <- E in *.
      rewrite !app_length in *. rewrite (u64_id (zlen n - 1)) by lia. rewrite (u64_id (zlen pre + (zlen n - 1))) by lia.
      rewrite u64_id by lia.
      replace (zlen pre + (zlen n - 1) + 1) with (zlen (pre ++ n)) by (rewrite app_length; lia).
      rewrite <- app_assoc, app_assoc. apply text_app in Ht. rewrite IH; try tauto; try (rewrite ?app_length; lia).
      f_equal. f_equal; rewrite ?app_length; lia.
  - destruct IH as (k & Hk & Hz & Hl & IH). exists k. repeat split; try lia.
    + intros -> [i Hi]. destruct (Z.eq_dec i 0) as [->|N]. { apply Hp, prefix_occurs; auto. }
      destruct Hz as [Hz _]. apply Hz; auto. exists (i - 1). apply (occurs_cons n c); auto. destruct Hi; lia.
    + intros Hno. apply Hz. intros [i Hi]. apply Hno. exists (i + 1). apply occurs_cons. destruct Hi; lia.
      replace (i + 1 - 1) with i by lia. auto.
    + cbn [length]. lia.
    + intros pre fuel cnt Ht Hf Hb. destruct fuel; [lia|]. rewrite replace_count_step by auto.
      destruct (prefixb n (c :: h)) eqn:P. { exfalso. apply Hp, prefixb_iff; auto. }
      inversion Ht; subst. rewrite app_length in Hb. cbn [length] in *. rewrite u64_id by lia.
      replace (pre ++ (c :: h) ++ [0]) with ((pre ++ [c]) ++ h ++ [0]) by (rewrite <- app_assoc; reflexivity).
      replace (zlen pre + 1) with (zlen (pre ++ [c])) by (rewrite app_length; cbn; lia).
      rewrite IH; auto; try lia; rewrite !app_length; cbn [length]; try lia. f_equal. f_equal. lia.
Qed.
Lemma replace_build_ok n x h r : substituted n x h r -> n <> [] -> text x ->
  forall pre fuel acc z rest, text h -> (length h < fuel)%nat -> length z = length r ->
  replace_build fuel (pre ++ h ++ [0]) n x (zlen pre) (acc ++ z ++ rest) (zlen acc) = Ok (acc ++ r ++ rest, zlen (acc ++ r)).
Proof.
  intros H Hn Hx. induction H as [|h r Hs IH _|c h r Hp Hs IH]; intros pre fuel acc z rest Ht Hf Hz; (destruct fuel; [lia|]); cbn [replace_build].
  - cbn [app]. rewrite rd_mid. destruct z; [|discriminate]. rewrite app_nil_r. reflexivity.
  - pose proof (strstr_here n pre (n ++ h) [] Ht) as E. cbn [app] in E.
    assert (P : prefixb n (n ++ h) = true). { apply prefixb_iff. exists h. auto. } rewrite P in E. rewrite E.
    destruct n as [|n0 n]; [tauto|]. cbn [app]. rewrite rd_mid. cbn [bind].
    inversion Ht; subst. destruct (Z.eqb_spec n0 0); [lia|].
    rewrite app_length in Hz.
    assert (Ez : z = firstn (length x) z ++ skipn (length x) z) by (symmetry; apply firstn_skipn).
    set (z1 := firstn (length x) z) in *. set (z2 := skipn (length x) z) in *.
    assert (L1 : length z1 = length x) by (unfold z1; rewrite firstn_length; lia).
    assert (L2 : length z2 = length r) by (unfold z2; rewrite skipn_length; lia).
    rewrite Ez.
    assert (C : str_copy (acc ++ (z1 ++ z2) ++ rest) (zlen acc) (cblk x) 0 (zlen x) = Ok (acc ++ x ++ z2 ++ rest)).
    { destruct x as [|x0 x'] eqn:Ex.
      - destruct z1; [|discriminate]. rewrite <- app_assoc. apply (str_copy_mid acc [] []); auto.
      - unfold str_copy. destruct (Z.eqb_spec (zlen (x0 :: x')) 0); [cbn [length] in *; lia|]. cbn [bind].
        rewrite rdn_slice by (unfold cblk; rewrite ?app_length; lia). cbn [bind]. unfold cblk. rewrite slice_front.
        rewrite <- app_assoc. apply blit_mid. auto. }
    rewrite C. cbn [bind].
    replace (zlen pre + zlen (n0 :: n)) with (zlen (pre ++ n0 :: n)) by (rewrite app_length; lia).
    replace (zlen acc + zlen x) with (zlen (acc ++ x)) by (rewrite app_length; lia).
    replace (pre ++ n0 :: (n ++ h) ++ [0]) with ((pre ++ n0 :: n) ++ h ++ [0]) by (rewrite <- !app_assoc; reflexivity).
    replace (acc ++ x ++ z2 ++ rest) with ((acc ++ x) ++ z2 ++ rest) by (rewrite <- app_assoc; reflexivity).
    rewrite IH; auto.
    + rewrite <- !app_assoc. reflexivity.
    + apply text_app in H2. tauto.
    + rewrite app_length in Hf. cbn [length] in Hf. lia.
  - pose proof (strstr_here n pre (c :: h) [] Ht) as E. cbn [app] in *.
    destruct (prefixb n (c :: h)) eqn:P. { exfalso. apply Hp, prefixb_iff; auto. }
    rewrite rd_mid. cbn [bind]. inversion Ht; subst. destruct (Z.eqb_spec c 0); [lia|]. rewrite E.
    destruct z as [|z0 z]; [discriminate|].
    change (acc ++ (z0 :: z) ++ rest) with (acc ++ [z0] ++ (z ++ rest)). rewrite blit_mid by reflexivity. cbn [bind].
    replace (zlen pre + 1) with (zlen (pre ++ [c])) by (rewrite app_length; cbn; lia).
    replace (zlen acc + 1) with (zlen (acc ++ [c])) by (rewrite app_length; cbn; lia).
    replace (pre ++ c :: h ++ [0]) with ((pre ++ [c]) ++ h ++ [0]) by (rewrite <- app_assoc; reflexivity).
    replace (acc ++ [c] ++ z ++ rest) with ((acc ++ [c]) ++ z ++ rest) by (rewrite <- app_assoc; reflexivity).
    cbn [length] in *. rewrite IH; auto; try lia. rewrite <- !app_assoc. reflexivity.
Qed.
Lemma str_replace_ok fuel h n x : text h -> text x -> n <> [] -> (length h < fuel)%nat -> zlen h + 1 < 18446744073709551616 ->
  (~ occurs n h /\ str_replace_ex fuel h n x = Ok None) \/
  (occurs n h /\ exists r, substituted n x h r /\
    (zlen r + 1 < 18446744073709551616 -> str_replace_ex fuel h n x = Ok (Some (r ++ [0])))).
Proof.
  intros Hh Hx Hn Hf Hl. destruct (substituted_exists n x Hn (length h) h (le_n _)) as [r Hr].
  destruct (replace_count_ok n x h r Hr Hn) as (k & Hk & Hz & Hrl & C).
  specialize (C [] fuel 0 Hh Hf Hl). cbn [app length] in C. change (Z.of_nat 0) with 0 in C.
  unfold str_replace_ex, cblk. rewrite C. cbn [bind].
  replace (0 + k) with k by lia. destruct (Z.eqb_spec k 0) as [E|E].
  - left. split; auto. apply Hz; auto.
  - right. split.
    { pose proof (c_strstr_spec n h). destruct (c_strstr n h); [exists z; apply H|tauto]. }
    exists r. split; auto. intros Hrb.
    assert (Sz : u64 (u64 (zlen h + u64 (k * u64 (zlen x - zlen n))) + 1) = zlen r + 1).
    { unfold u64. rewrite Zplus_mod_idemp_l. rewrite <- Z.add_assoc, (Z.add_comm _ 1), Z.add_assoc.
      rewrite Zplus_mod_idemp_r. rewrite <- (Zplus_mod_idemp_r (k * _)), Zmult_mod_idemp_r, Zplus_mod_idemp_r.
      rewrite <- Z.add_assoc, (Z.add_comm 1), Z.add_assoc, <- Hrl. apply Z.mod_small. lia. }
    rewrite Sz. replace (Z.to_nat (zlen r + 1)) with (length r + 1)%nat by lia. rewrite repeat_app.
    pose proof (replace_build_ok n x h r Hr Hn Hx [] fuel [] (repeat 0 (length r)) (repeat 0 1) Hh Hf ltac:(rewrite repeat_length; auto)) as B.
    cbn [app length] in B. change (Z.of_nat 0) with 0 in B. rewrite B. cbn [bind].
    pose proof (blit_mid r [0] [0] [] eq_refl) as M. cbn [app repeat] in *. rewrite M. reflexivity.
Qed.
Lemma replace_count_empty h fuel cnt i : text h -> 0 <= i < zlen h -> zlen h < 18446744073709551616 ->
  replace_count fuel (cblk h) [] i cnt = NoFuel.
Proof.
  intros Hh Hi Hl. revert cnt. induction fuel; intros; cbn [replace_count]; auto.
  unfold cblk. rewrite rd_text by lia. cbn [bind]. rewrite item_cblk by lia. pose proof (text_at h i Hh Hi).
  destruct (Z.eqb_spec (at_ h i) 0); [lia|]. unfold strstr_at.
  replace (c_strstr [] (content (h ++ [0]) i)) with (Some 0) by (destruct (content (h ++ [0]) i); reflexivity).
  rewrite Z.add_0_r, Z.eqb_refl. cbn [length].
  replace (u64 (u64 (i + u64 (Z.of_nat 0 - 1)) + 1)) with i. apply IHfuel.
  unfold u64. lia.
Qed.
