(** Proofs about the base64 decoder. *)
From Verif Require Export Base64Proofs.
Open Scope Z_scope.

Definition base64_charb (c : Z) : bool :=
  ((65 <=? c) && (c <=? 90)) || ((97 <=? c) && (c <=? 122)) || ((48 <=? c) && (c <=? 57)) || (c =? 43) || (c =? 47) || (c =? 61).
Lemma base64_charb_iff c : base64_charb c = true <-> base64_char c.
Proof.
  unfold base64_charb, base64_char. rewrite !orb_true_iff, !andb_true_iff, !Z.leb_le, !Z.eqb_eq. tauto.
Qed.
Lemma table_all c : byte c -> D c = 128 /\ ~ base64_char c \/ 0 <= D c < 64 /\ base64_char c.
Proof.
  intros Hc.
  assert (H : forall c, byte c -> ((D c =? 128) && negb (base64_charb c)) || ((0 <=? D c) && (D c <? 64) && base64_charb c) = true).
  { apply byte_check. vm_compute. reflexivity. }
  specialize (H c Hc). rewrite orb_true_iff, !andb_true_iff, negb_true_iff, Z.eqb_eq, Z.leb_le, Z.ltb_lt in H.
  rewrite <- base64_charb_iff. destruct (base64_charb c); intuition congruence.
Qed.
Lemma rd_table c : byte c -> rd strict base64_decode_table c = Ok (D c).
Proof. intros Hc. rewrite rd_in; auto. Qed.

Lemma is_base64_ok s : bytes s -> exists t, is_base64 s = Ok t /\ (t = true <-> Forall base64_char s).
Proof.
  induction 1 as [|c s Hc Hs IH]; cbn [is_base64].
  - exists true. split; auto. split; auto.
  - rewrite rd_table by auto. cbn [bind]. destruct IH as (t & -> & Ht).
    destruct (table_all c Hc) as [[-> N]|[R Y]].
    + exists false. split; auto. split; [discriminate|]. intros F. inversion F; tauto.
    + destruct (Z.eqb_spec (D c) 128); [lia|]. exists t. split; auto. rewrite Ht. split; intros F; [constructor; auto|inversion F; auto].
Qed.
Lemma part_exists s : exists p, base64_part s p.
Proof.
  induction s as [|c s [p IH]]. { exists []. constructor. }
  destruct (base64_charb c) eqn:E.
  - exists (c :: p). constructor; auto. apply base64_charb_iff. auto.
  - exists p. constructor; auto. intros H. apply base64_charb_iff in H. congruence.
Qed.
Lemma part_bytes s p : base64_part s p -> bytes s -> bytes p.
Proof. induction 1; intros H'; auto; inversion H'; subst; auto. constructor; auto. apply IHbase64_part; auto. Qed.
Lemma decode_count_ok s p : base64_part s p -> bytes s -> forall n, decode_count s n = Ok (n + zlen p).
Proof.
  induction 1; intros Hb n; cbn [decode_count length]. { f_equal. lia. }
  - inversion Hb; subst. rewrite rd_table by auto. cbn [bind]. destruct (table_all c ltac:(assumption)) as [[? ?]|[? ?]]; [tauto|].
    destruct (Z.eqb_spec (D c) 128); [lia|]. rewrite IHbase64_part by auto. f_equal. lia.
  - inversion Hb; subst. rewrite rd_table by auto. cbn [bind]. destruct (table_all c ltac:(assumption)) as [[-> ?]|[? ?]]; [|tauto].
    apply IHbase64_part. auto.
Qed.

(** * Decoding by groups of four *)
Definition dec3 (a b c d : Z) : list Z :=
  [u8 (Z.lor (Z.shiftl (D a) 2) (Z.shiftr (D b) 4)); u8 (Z.lor (Z.shiftl (D b) 4) (Z.shiftr (D c) 2));
   u8 (Z.lor (Z.shiftl (D c) 6) (D d))].
Fixpoint dgroups (p : list Z) : option (list Z) :=
  match p with
  | a :: b :: c :: d :: p' =>
      let n := pads [a; b; c; d] in
      if n =? 0 then match dgroups p' with Some o => Some (dec3 a b c d ++ o) | None => None end
      else if n =? 1 then Some (firstn 2 (dec3 a b c d))
      else if n =? 2 then Some (firstn 1 (dec3 a b c d))
      else None
  | _ => Some []
  end.
Lemma pads_app g l : pads (g ++ l) = pads g + pads l.
Proof. unfold pads. rewrite count_occ_app. lia. Qed.
Lemma pads_one c : pads [c] = if c =? 61 then 1 else 0.
Proof. unfold pads. cbn [count_occ]. destruct (Z.eq_dec c 61); destruct (Z.eqb_spec c 61); auto; congruence. Qed.
Lemma pads_nonneg g : 0 <= pads g. Proof. unfold pads. lia. Qed.

Lemma dec_blit blk pos a b c d : 0 <= pos -> pos + 3 <= zlen blk ->
  exists r, blk = firstn (Z.to_nat pos) blk ++ r /\ 3 <= zlen r /\
  (let* b1 := blit blk pos [u8 (Z.lor (Z.shiftl (D a) 2) (Z.shiftr (D b) 4))] in
   let* b2 := blit b1 (pos + 1) [u8 (Z.lor (Z.shiftl (D b) 4) (Z.shiftr (D c) 2))] in
   blit b2 (pos + 2) [u8 (Z.lor (Z.shiftl (D c) 6) (D d))]) = Ok (firstn (Z.to_nat pos) blk ++ dec3 a b c d ++ skipn 3 r).
Proof.
  intros H0 Hl. exists (skipn (Z.to_nat pos) blk). rewrite firstn_skipn. split; auto.
  rewrite skipn_length. split; [lia|].
  rewrite <- (firstn_skipn (Z.to_nat pos) blk) at 1.
  assert (L : length (firstn (Z.to_nat pos) blk) = Z.to_nat pos) by (rewrite firstn_length; lia).
  assert (L2 : (3 <= length (skipn (Z.to_nat pos) blk))%nat) by (rewrite skipn_length; lia).
  destruct (skipn (Z.to_nat pos) blk) as [|z0 [|z1 [|z2 r]]]; cbn [length] in L2; try lia.
  set (p := firstn (Z.to_nat pos) blk) in *.
  rewrite blit1_mid by lia. cbn [bind]. rewrite app_snoc. rewrite blit1_mid by (rewrite app_length; cbn [length]; lia). cbn [bind].
  rewrite app_snoc. rewrite blit1_mid by (rewrite !app_length; cbn [length]; lia).
  unfold dec3. rewrite <- !app_assoc. reflexivity.
Qed.
(** the loop, from a partial group [g] on *)
Definition after (pre z : list Z) (q : list Z) (r : out (option (list Z * Z))) : Prop :=
  match dgroups q with
  | None => r = Ok None
  | Some o => exists rest, r = Ok (Some (pre ++ o ++ rest, zlen (pre ++ o))) /\ (length (o ++ rest) = length z) /\ rest <> []
  end.
Lemma decode_loop_ok s p : base64_part s p -> bytes s -> forall g pre z, bytes g -> (length g < 4)%nat ->
  zlen (g ++ p) mod 4 = 0 -> 3 * (zlen (g ++ p) / 4) < zlen z ->
  after pre z (g ++ p) (decode_loop s (map D g) (pads g) (pre ++ z) (zlen pre)).
Proof.
  induction 1 as [|c s p Hc Hs IH|c s p Hc Hs IH]; intros Hb g pre z Hg Hl Hm Hz.
  - rewrite app_nil_r in *. destruct g as [|? [|? [|? [|]]]]; cbn [length] in *; try lia; try discriminate Hm.
    cbn. exists z. rewrite !app_nil_r. repeat split; auto. destruct z; [cbn in Hz; lia|discriminate].
  - inversion Hb; subst. cbn [decode_loop]. rewrite rd_table by auto. cbn [bind].
    destruct (table_all c ltac:(assumption)) as [[? ?]|[? _]]; [tauto|]. destruct (Z.eqb_spec (D c) 128); [lia|].
    replace (if c =? 61 then pads g + 1 else pads g) with (pads (g ++ [c])) by (rewrite pads_app, pads_one; destruct (c =? 61); lia).
    replace (map D g ++ [D c]) with (map D (g ++ [c])) by (rewrite map_app; auto).
    assert (Hstep : (length (g ++ [c]) < 4)%nat -> after pre z (g ++ c :: p) (decode_loop s (map D (g ++ [c])) (pads (g ++ [c])) (pre ++ z) (zlen pre))).
    { intros L. rewrite (app_snoc g c p) in *. apply IH; auto. apply bytes_app. split; auto. constructor; auto. }
    destruct g as [|g0 [|g1 [|g2 [|]]]]; cbn [length app map] in Hstep, Hl |- *; try lia; try (apply Hstep; lia).
    clear Hstep. cbn [app length] in Hm, Hz.
    assert (Hz3 : 3 <= zlen z) by lia.
    destruct (dec_blit (pre ++ z) (zlen pre) g0 g1 g2 c ltac:(lia) ltac:(rewrite app_length; lia)) as (r & Er & Lr & Eb).
    rewrite Nat2Z.id, firstn_app, firstn_all, Nat.sub_diag in Er, Eb. cbn [firstn] in Er, Eb. rewrite app_nil_r in Er, Eb.
    apply app_inv_head in Er. subst r.
    assert (Eb' : forall (K : list Z -> out (option (list Z * Z))),
      (let* b1 := blit (pre ++ z) (zlen pre) [u8 (Z.lor (Z.shiftl (D g0) 2) (Z.shiftr (D g1) 4))] in
       let* b2 := blit b1 (zlen pre + 1) [u8 (Z.lor (Z.shiftl (D g1) 4) (Z.shiftr (D g2) 2))] in
       let* b3 := blit b2 (zlen pre + 2) [u8 (Z.lor (Z.shiftl (D g2) 6) (D c))] in K b3) = K (pre ++ dec3 g0 g1 g2 c ++ skipn 3 z)).
    { intros K. revert Eb. destruct (blit (pre ++ z) (zlen pre) _); cbn [bind]; try discriminate.
      destruct (blit a (zlen pre + 1) _); cbn [bind]; try discriminate. intros ->. reflexivity. }
    rewrite Eb'. clear Eb Eb'. unfold after. cbn [dgroups].
    assert (Ld : length (dec3 g0 g1 g2 c) = 3%nat) by reflexivity.
    assert (Ls : zlen (skipn 3 z) = zlen z - 3) by (rewrite skipn_length; lia).
    destruct (Z.eqb_spec (pads [g0; g1; g2; c]) 0) as [E0|E0].
    + rewrite E0. rewrite app_assoc. replace (zlen pre + 3) with (zlen (pre ++ dec3 g0 g1 g2 c)) by (rewrite app_length; lia).
      specialize (IH H2 [] (pre ++ dec3 g0 g1 g2 c) (skipn 3 z) ltac:(constructor) ltac:(cbn; lia) ltac:(cbn [app length] in *; lia) ltac:(cbn [app length] in *; lia)).
      cbn [app map] in IH. unfold after in IH. change (pads []) with 0 in IH.
      destruct (dgroups p) as [o|]; auto. destruct IH as (rest & -> & L & N). exists rest. rewrite <- !app_assoc. repeat split; auto.
      rewrite !app_length in *. lia.
    + destruct (Z.eqb_spec (pads [g0; g1; g2; c]) 1) as [E1|E1]; [|destruct (Z.eqb_spec (pads [g0; g1; g2; c]) 2) as [E2|E2]]; auto.
      * unfold dec3 in *. cbn [firstn app]. eexists (_ :: skipn 3 z). repeat split; [|cbn [length]; lia|discriminate].
        f_equal. f_equal. rewrite app_length. cbn [length]. f_equal. lia.
      * unfold dec3 in *. cbn [firstn app]. eexists (_ :: _ :: skipn 3 z). repeat split; [|cbn [length]; lia|discriminate].
        f_equal. f_equal. rewrite app_length. cbn [length]. f_equal. lia.
  - inversion Hb; subst. cbn [decode_loop]. rewrite rd_table by auto. cbn [bind].
    destruct (table_all c ltac:(assumption)) as [[-> ?]|[_ ?]]; [|tauto]. cbn [Z.eqb Pos.eqb]. apply IH; auto.
Qed.

Lemma quad_ind (P : list Z -> Prop) : P [] -> (forall a b c d s, P s -> P (a :: b :: c :: d :: s)) ->
  forall s, zlen s mod 4 = 0 -> P s.
Proof.
  intros H0 H4. assert (forall n s, (length s <= n)%nat -> zlen s mod 4 = 0 -> P s); [|eauto].
  induction n; intros s Hs Hm. { destruct s; [auto|cbn in *; lia]. }
  destruct s as [|a [|b [|c [|d s]]]]; auto; try discriminate Hm. apply H4, IHn; cbn [length] in *; lia.
Qed.
Lemma dgroups_bad p : zlen p mod 4 = 0 -> (dgroups p = None <-> bad_padding p).
Proof.
  revert p. apply quad_ind.
  - cbn. split; [discriminate|]. intros H. inversion H as [g l Hl ? E|g l Hl ? ? E]; apply app_eq_nil in E; destruct E; subst; discriminate.
  - intros a b c d s IH. cbn [dgroups].
    assert (HI : bad_padding (a :: b :: c :: d :: s) <-> 2 < pads [a; b; c; d] \/ (pads [a; b; c; d] = 0 /\ bad_padding s)).
    { split.
      - intros H. inversion H as [g l Hl Hp E|g l Hl Hp Hb E]; destruct g as [|? [|? [|? [|? [|]]]]]; try discriminate; injection E as <- <- <- <- <-; auto.
      - intros [H|[H1 H2]]. apply (bad_here [a; b; c; d] s); auto. apply (bad_later [a; b; c; d] s); auto. }
    rewrite HI. pose proof (pads_nonneg [a; b; c; d]).
    destruct (Z.eqb_spec (pads [a; b; c; d]) 0) as [E|E].
    + rewrite <- IH. rewrite E. destruct (dgroups s); split; try discriminate; auto. intros [?|[_ ?]]; [lia|discriminate].
    + destruct (Z.eqb_spec (pads [a; b; c; d]) 1) as [E1|E1]; [|destruct (Z.eqb_spec (pads [a; b; c; d]) 2) as [E2|E2]].
      * split; [discriminate|lia].
      * split; [discriminate|lia].
      * split; auto. intros _. left. lia.
Qed.
Lemma decode64_ok s p : base64_part s p -> bytes s -> zlen s < 18446744073709551616 ->
  (p = [] \/ zlen p mod 4 <> 0 \/ bad_padding p) /\ str_decode64_ex s = Ok None \/
  p <> [] /\ zlen p mod 4 = 0 /\ ~ bad_padding p /\
  exists o rest, dgroups p = Some o /\ str_decode64_ex s = Ok (Some (o ++ 0 :: rest)) /\ zlen (o ++ 0 :: rest) = zlen p / 4 * 3 + 1.
Proof.
  intros Hp Hs Hl. unfold str_decode64_ex. rewrite (decode_count_ok s p) by auto. cbn [bind]. rewrite Z.add_0_l.
  assert (Lp : zlen p <= zlen s). { clear - Hp. induction Hp; cbn [length] in *; lia. }
  destruct (Z.eqb_spec (zlen p) 0) as [E|E]. { left. destruct p; [auto|cbn in *; lia]. }
  destruct (Z.eqb_spec (zlen p mod 4) 0) as [M|M]; cbn [orb negb]; [|left; auto].
  rewrite u64_id by lia.
  pose proof (decode_loop_ok s p Hp Hs [] [] (repeat 0 (Z.to_nat (zlen p / 4 * 3 + 1))) ltac:(constructor) ltac:(cbn; lia) M
     ltac:(rewrite repeat_length; cbn [app]; lia)) as A.
  unfold after in A. cbn [app map] in A. change (pads []) with 0 in A. change (zlen (@nil Z)) with 0 in A.
  destruct (dgroups p) as [o|] eqn:G.
  - destruct A as (rest & -> & L & N). cbn [bind]. destruct rest as [|r0 rest]; [tauto|].
    rewrite blit1_mid by auto. cbn [bind]. right. split; [destruct p; [cbn in E; lia|discriminate]|]. split; auto.
    split. { intros B. apply dgroups_bad in B; auto. congruence. }
    exists o, rest. repeat split; auto. rewrite repeat_length in L. rewrite app_length in *. cbn [length] in *. lia.
  - rewrite A. cbn [bind]. left. split; auto. right. right. apply dgroups_bad; auto.
Qed.

(** * Round trip *)
Lemma enc_chars s : bytes s -> Forall (fun c => base64_char c /\ byte c) (enc s).
Proof.
  assert (HT : forall v, 0 <= v < 64 -> base64_char (T v) /\ byte (T v)).
  { intros v Hv. destruct (sym_all v Hv) as (_ & Hd & _ & Hr). split; [|unfold byte; lia].
    destruct (table_all (T v)) as [[? ?]|[? ?]]; auto; [unfold byte; lia|]. lia. }
  assert (HP : base64_char 61 /\ byte 61) by (unfold base64_char, byte; lia).
  induction s using triple_ind; intros H; inv_bytes H; cbn [enc]; repeat apply Forall_cons;
  first [exact HP | apply HT; auto using e0_r, e1_r, e2_r, e3_r, byte_0 | apply Forall_nil | apply IHs; auto].
Qed.
Lemma part_self s : Forall (fun c => base64_char c /\ byte c) s -> base64_part s s.
Proof. induction 1; constructor; tauto. Qed.
Lemma pads_not c l : c <> 61 -> pads (c :: l) = pads l.
Proof. intros. unfold pads. rewrite count_occ_cons_neq; auto. Qed.
Lemma pads_eq l : pads (61 :: l) = 1 + pads l.
Proof. unfold pads. rewrite count_occ_cons_eq by auto. lia. Qed.
Lemma dgroups_enc s : bytes s -> dgroups (enc s) = Some s.
Proof.
  induction s using triple_ind; intros H; inv_bytes H; cbn [enc dgroups]; auto.
  - destruct (sym_all _ (e0_r a Hb)) as (_ & D0 & N0 & _). destruct (sym_all _ (e1_r a 0 Hb byte_0)) as (_ & D1 & N1 & _).
    rewrite !pads_not by auto. change (pads [61; 61]) with 2. cbn [Z.eqb Pos.eqb]; unfold dec3; cbn [firstn app].
    rewrite D0, D1. destruct (group_bytes a 0 0 Hb byte_0 byte_0) as (-> & _). reflexivity.
  - destruct (sym_all _ (e0_r a Hb)) as (_ & D0 & N0 & _). destruct (sym_all _ (e1_r a b Hb Hb0)) as (_ & D1 & N1 & _).
    destruct (sym_all _ (e2_r b 0 Hb0 byte_0)) as (_ & D2 & N2 & _).
    rewrite !pads_not by auto. change (pads [61]) with 1. cbn [Z.eqb Pos.eqb]; unfold dec3; cbn [firstn app].
    rewrite D0, D1, D2. destruct (group_bytes a b 0 Hb Hb0 byte_0) as (-> & -> & _). reflexivity.
  - destruct (sym_all _ (e0_r a Hb)) as (_ & D0 & N0 & _). destruct (sym_all _ (e1_r a b Hb Hb0)) as (_ & D1 & N1 & _).
    destruct (sym_all _ (e2_r b c Hb0 Hb1)) as (_ & D2 & N2 & _). destruct (sym_all _ (e3_r c Hb1)) as (_ & D3 & N3 & _).
    rewrite !pads_not by auto. change (pads []) with 0. cbn [Z.eqb Pos.eqb]; unfold dec3; cbn [firstn app].
    rewrite D0, D1, D2, D3, IHs by auto. destruct (group_bytes a b c Hb Hb0 Hb1) as (-> & -> & ->). reflexivity.
Qed.
Lemma roundtrip64 s : bytes s -> s <> [] -> zlen s < 3221225470 ->
  exists t rest, str_encode64_ex s = Ok (Some (t ++ [0])) /\ ~ In 0 t /\ str_decode64_ex t = Ok (Some (s ++ 0 :: rest)).
Proof.
  intros Hs Hn Hl. rewrite encode64_ok by (auto; lia).
  destruct (Z.ltb_spec (4 * ((zlen s + 2) / 3)) 4294967296).
  2:{ lia. }
  pose proof (enc_chars s Hs) as C. rewrite rfc_enc by auto.
  assert (P : base64_part (enc s) (enc s)) by (apply part_self; auto).
  assert (B : bytes (enc s)). { eapply Forall_impl; [|exact C]. cbn. tauto. }
  destruct (decode64_ok (enc s) (enc s) P B ltac:(rewrite enc_length; lia)) as [[[E|[E|E]] _]|(_ & _ & _ & o & rest & G & E & _)].
  - exfalso. pose proof (enc_length s). rewrite E in *. cbn [length] in *. destruct s; [tauto|cbn [length] in *; lia].
  - exfalso. rewrite enc_length in E. lia.
  - exfalso. apply dgroups_bad in E. rewrite dgroups_enc in E by auto. discriminate. rewrite enc_length. lia.
  - rewrite dgroups_enc in G by auto. injection G as <-. exists (enc s), rest. repeat split; auto.
    intros I. rewrite Forall_forall in C. specialize (C 0 I). destruct C as [C _]. unfold base64_char in C. lia.
Qed.
