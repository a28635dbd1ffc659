From Verif Require Export BaseLemmas SwarModel SpecStr.

(** ** finite domains *)
Definition zrange (n : nat) : list Z := map Z.of_nat (seq 0 n).
Lemma in_zrange n z : 0 <= z < Z.of_nat n -> In z (zrange n).
Proof. intros. unfold zrange. apply in_map_iff. exists (Z.to_nat z). split. lia. apply in_seq. lia. Qed.
Lemma byte_check (P : Z -> bool) : forallb P (zrange 256) = true -> forall b, byte b -> P b = true.
Proof. intros H b Hb. rewrite forallb_forall in H. apply H. apply in_zrange. unfold byte in Hb. lia. Qed.

Fixpoint flags (n : nat) : list (list bool) :=
  match n with O => [[]] | S n' => map (cons true) (flags n') ++ map (cons false) (flags n') end.
Lemma in_flags l : In l (flags (length l)).
Proof.
  induction l as [|b l IH]; cbn. auto. apply in_or_app. destruct b; [left|right]; apply in_map; auto.
Qed.
Lemma flags_check (P : list bool -> bool) n : forallb P (flags n) = true ->
  forall l, length l = n -> P l = true.
Proof. intros H l <-. rewrite forallb_forall in H. apply H, in_flags. Qed.

(** ** haszero *)
Fixpoint subb (br : Z) (l : list Z) : list Z :=
  match l with
  | [] => []
  | b :: l' => (b - 1 - br) mod 256 :: subb (if b - 1 - br <? 0 then 1 else 0) l'
  end.
Lemma subb_length l : forall br, length (subb br l) = length l.
Proof. induction l; cbn; auto. Qed.
Lemma subb_bytes l : forall br, bytes (subb br l).
Proof. induction l; cbn; constructor. apply Z.mod_pos_bound; lia. apply IHl. Qed.
Lemma subb_le l : bytes l -> forall br, 0 <= br <= 1 ->
  exists q, le l - le (repeat 1 (length l)) - br = le (subb br l) + q * 256 ^ zlen l.
Proof.
  induction 1; intros br Hbr.
  - exists (- br). cbn. lia.
  - unfold byte in H. cbn [le length repeat subb].
    destruct (IHForall (if x - 1 - br <? 0 then 1 else 0)) as [q Hq].
    { destruct (x - 1 - br <? 0); lia. }
    exists q. rewrite Nat2Z.inj_succ, Z.pow_succ_r by lia.
    set (P := 256 ^ zlen l) in *.
    assert (x - 1 - br = (x - 1 - br) mod 256 + 256 * (if x - 1 - br <? 0 then -1 else 0)).
    { destruct (Z.ltb_spec (x - 1 - br) 0); lia. }
    destruct (x - 1 - br <? 0); nia.
Qed.

Lemma le_zero l : bytes l -> (le l = 0 <-> Forall (fun b => b = 0) l).
Proof.
  induction 1; cbn [le]. { split; auto. }
  pose proof (le_bound l H0). unfold byte in H. split; intros.
  - assert (x = 0 /\ le l = 0) as [? ?] by lia. constructor; tauto.
  - inversion H2; subst. apply IHForall in H6. lia.
Qed.

Definition hz_lane (d b : Z) : Z := Z.land (Z.land d (255 - b)) 128.
Lemma hz_lane_dec b : byte b -> b <> 0 -> hz_lane ((b - 1) mod 256) b = 0.
Proof.
  intros Hb Hn.
  pose proof (byte_check (fun b => (b =? 0) || (hz_lane ((b - 1) mod 256) b =? 0)) ltac:(vm_compute; reflexivity) b Hb).
  cbv beta in H. lia.
Qed.
Lemma hz_list l : bytes l ->
  (Forall (fun b => b = 0) (zip hz_lane (subb 0 l) l) <-> Forall (fun b => b <> 0) l).
Proof.
  induction 1; cbn [subb zip]. { split; auto. }
  destruct (Z.eq_dec x 0) as [->|Hx].
  - split; intros F; inversion F; subst; [|lia]. vm_compute in H3. discriminate.
  - pose proof (hz_lane_dec x H Hx) as Hd. unfold byte in H.
    replace (x - 1 - 0) with (x - 1) by lia.
    destruct (Z.ltb_spec (x - 1) 0); [lia|].
    split; intros F; inversion F; subst; constructor; auto; apply IHForall; auto.
Qed.

Lemma le_not64 l : bytes l -> length l = 8%nat -> not64 (le l) = le (map (fun b => 255 - b) l).
Proof.
  intros Hb Hl. rewrite not64_id by (apply le_bound8; auto).
  do 8 (destruct l as [|? l]; [discriminate Hl|]). destruct l; [|discriminate Hl].
  cbn [le map]. lia.
Qed.
Lemma bytes_compl l : bytes l -> bytes (map (fun b => 255 - b) l).
Proof. induction 1; cbn [map]; constructor; auto. unfold byte in *; lia. Qed.

Lemma zip_zip_hz : forall a b, length a = length b ->
  zip Z.land (zip Z.land a (map (fun b => 255 - b) b)) (repeat 128 (length a)) = zip hz_lane a b.
Proof. induction a; destruct b; cbn; intros; try congruence; auto. f_equal; auto. Qed.
Lemma zip_bytes_and a : forall b, bytes a -> bytes (zip Z.land a b).
Proof. induction a; destruct b; cbn; intros; constructor; inversion H; subst; auto using byte_and. apply IHa; auto. Qed.
Lemma zip_bytes_or a : forall b, bytes a -> bytes b -> bytes (zip Z.lor a b).
Proof. induction a; destruct b; cbn; intros; constructor; inversion H; inversion H0; subst; auto using byte_or. apply IHa; auto. Qed.
Lemma zip_bytes_xor a : forall b, bytes a -> bytes b -> bytes (zip Z.lxor a b).
Proof. induction a; destruct b; cbn; intros; constructor; inversion H; inversion H0; subst; auto using byte_xor. apply IHa; auto. Qed.

Lemma hm_bytes : not64 m7f = le (repeat 128 8). Proof. reflexivity. Qed.
Lemma m7f_le : m7f = le (repeat 127 8). Proof. reflexivity. Qed.
Lemma m01_le : m01 = le (repeat 1 8). Proof. reflexivity. Qed.
Lemma byte_128 : byte 128. Proof. unfold byte; lia. Qed.
Lemma byte_127 : byte 127. Proof. unfold byte; lia. Qed.

Lemma haszero_list l : bytes l -> length l = 8%nat ->
  (haszero (le l) = true <-> Exists (fun b => b = 0) l).
Proof.
  intros Hb Hl. unfold haszero.
  rewrite le_not64, m01_le, hm_bytes by auto.
  destruct (subb_le l Hb 0 ltac:(lia)) as [q Hq]. rewrite Hl in Hq.
  replace (u64 (le l - le (repeat 1 8))) with (le (subb 0 l)).
  2:{ unfold u64. replace (le l - le (repeat 1 8)) with (le (subb 0 l) + q * 18446744073709551616)
        by (change (256 ^ Z.of_nat 8) with 18446744073709551616 in Hq; lia).
      rewrite Z.mod_add by lia. symmetry. apply Z.mod_small.
      apply le_bound8. apply subb_bytes. rewrite subb_length; auto. }
  rewrite le_land; auto using subb_bytes, bytes_compl.
  2:{ rewrite subb_length, map_length; auto. }
  rewrite le_land; auto using bytes_repeat, byte_128.
  2:{ apply zip_bytes_and, subb_bytes. }
  2:{ rewrite zip_length; rewrite ?subb_length, ?map_length, ?repeat_length; auto. }
  replace 8%nat with (length (subb 0 l)) by (rewrite subb_length; auto).
  rewrite zip_zip_hz by (rewrite subb_length; auto).
  assert (bytes (zip hz_lane (subb 0 l) l)).
  { rewrite <- zip_zip_hz by (rewrite subb_length; auto). apply zip_bytes_and, zip_bytes_and, subb_bytes. }
  pose proof (le_zero _ H). pose proof (hz_list l Hb).
  rewrite Exists_exists. rewrite negb_true_iff, Z.eqb_neq.
  rewrite H0, H1. rewrite Forall_forall. split.
  - intros Hn. destruct (in_dec Z.eq_dec 0 l); [eauto|]. exfalso. apply Hn. intros x Hx ->. auto.
  - intros [x [Hx ->]] F. apply (F 0); auto.
Qed.

Lemma extend_bytes c : extend c = le (repeat (u8 c) 8). Proof. reflexivity. Qed.
Lemma lxor_zero a b : Z.lxor a b = 0 <-> a = b.
Proof. apply Z.lxor_eq_0_iff. Qed.
Lemma zip_repeat f l c : zip f l (repeat c (length l)) = map (fun b => f b c) l.
Proof. induction l; cbn; auto. f_equal; auto. Qed.

Lemma xor_extend l c : bytes l -> length l = 8%nat -> byte c ->
  Z.lxor (le l) (extend c) = le (map (fun b => Z.lxor b c) l).
Proof.
  intros. rewrite extend_bytes, u8_id by auto. rewrite le_lxor; [| auto | auto using bytes_repeat | rewrite repeat_length; auto].
  rewrite <- H0, zip_repeat; auto.
Qed.
Lemma bytes_xor_map l c : bytes l -> byte c -> bytes (map (fun b => Z.lxor b c) l).
Proof. induction 1; cbn; constructor; auto using byte_xor. apply IHForall; auto. Qed.

Lemma hasbyte_list l c : bytes l -> length l = 8%nat -> byte c ->
  (hasbyte (le l) c = true <-> In c l).
Proof.
  intros. unfold hasbyte. rewrite xor_extend by auto.
  rewrite haszero_list; [| auto using bytes_xor_map | rewrite map_length; auto].
  rewrite Exists_exists. split.
  - intros (x & Hx & ->). apply in_map_iff in Hx. destruct Hx as (y & Hy & ?).
    apply (proj1 (lxor_zero _ _)) in Hy. subst; auto.
  - intros. exists 0. split; auto. apply in_map_iff. exists c. split; auto. apply Z.lxor_nilpotent.
Qed.
Lemma hasbyte_false l c : bytes l -> length l = 8%nat -> byte c ->
  (hasbyte (le l) c = false <-> ~ In c l).
Proof.
  intros. pose proof (hasbyte_list l c H H0 H1). destruct (hasbyte (le l) c).
  split; intros; try discriminate. tauto. split; auto. intros _ Hi. apply H2 in Hi. discriminate.
Qed.

(** ** lanes *)
Definition lanes_of (fs : list bool) : Z := le (map (fun t : bool => if t then 128 else 0) fs).

Lemma land_map a f : forall n, length a = n -> bytes a -> byte f ->
  Z.land (le a) (le (repeat f n)) = le (map (fun b => Z.land b f) a).
Proof.
  intros n <- ? ?. rewrite le_land; auto using bytes_repeat. 2:{ rewrite repeat_length; auto. }
  rewrite zip_repeat; auto.
Qed.
Lemma add_map a f : forall n, length a = n ->
  le a + le (repeat f n) = le (map (fun b => b + f) a).
Proof.
  intros n <-. rewrite le_add. 2:{ rewrite repeat_length; auto. } rewrite zip_repeat; auto.
Qed.
Lemma zip_map f g h (l : list Z) : zip f (map g l) (map h l) = map (fun b => f (g b) (h b)) l.
Proof. induction l; cbn; auto. f_equal; auto. Qed.

Lemma bytes_map f l : (forall b, byte b -> byte (f b)) -> bytes l -> bytes (map f l).
Proof. intros Hf. induction 1; cbn; constructor; auto. Qed.

Definition lane_bin (b : Z) : Z := Z.land (255 - Z.lor (Z.land b 127 + 127) b) 128.
Lemma lane_bin_ok b : byte b -> lane_bin b = if b =? 0 then 128 else 0.
Proof.
  intros Hb.
  pose proof (byte_check (fun b => lane_bin b =? if b =? 0 then 128 else 0) ltac:(vm_compute; reflexivity) b Hb).
  cbv beta in H. apply Z.eqb_eq; auto.
Qed.
Lemma lane_add_byte b : byte b -> byte (Z.land b 127 + 127).
Proof.
  intros Hb.
  pose proof (byte_check (fun b => (0 <=? Z.land b 127 + 127) && (Z.land b 127 + 127 <? 256)) ltac:(vm_compute; reflexivity) b Hb).
  cbv beta in H. unfold byte. lia.
Qed.

Lemma match_lanes_bin l c : bytes l -> length l = 8%nat -> byte c ->
  match_lanes false (le l) c = lanes_of (map (fun b => b =? c) l).
Proof.
  intros Hb Hl Hc. unfold match_lanes. rewrite xor_extend by auto.
  set (x := map (fun b => Z.lxor b c) l).
  assert (Hx : bytes x) by (apply bytes_xor_map; auto).
  assert (Lx : length x = 8%nat) by (unfold x; rewrite map_length; auto).
  rewrite hm_bytes, m7f_le. rewrite land_map by auto using byte_127.
  rewrite add_map by (rewrite map_length; auto). rewrite map_map.
  assert (B1 : bytes (map (fun b => Z.land b 127 + 127) x)) by (apply bytes_map; auto using lane_add_byte).
  rewrite u64_id by (apply le_bound8; auto; rewrite map_length; auto).
  rewrite <- (map_id x) at 2. rewrite le_lor; [| auto | apply bytes_map; auto | rewrite !map_length; auto].
  rewrite zip_map. cbv beta.
  set (y := map (fun b => Z.lor (Z.land b 127 + 127) b) x).
  assert (B2 : bytes y). { apply bytes_map; auto. intros. apply byte_or; auto using lane_add_byte. }
  rewrite le_not64; [| auto | unfold y; rewrite map_length; auto].
  rewrite land_map; [| unfold y; rewrite !map_length; auto | auto using bytes_compl | exact byte_128].
  unfold y, x, lanes_of. rewrite !map_map. f_equal. apply map_ext_in. intros a Ha.
  assert (byte a) by exact (proj1 (Forall_forall _ _) Hb a Ha).
  fold (lane_bin (Z.lxor a c)). rewrite lane_bin_ok by (apply byte_xor; auto).
  destruct (Z.eqb_spec (Z.lxor a c) 0) as [E|E]; destruct (Z.eqb_spec a c) as [E'|E']; auto; exfalso.
  apply (proj1 (lxor_zero _ _)) in E. auto. apply E. apply (proj2 (lxor_zero _ _)). auto.
Qed.

Definition ascii (b : Z) : Prop := 0 <= b < 128.
Lemma ascii_xor a c : ascii a -> ascii c -> ascii (Z.lxor a c).
Proof.
  unfold ascii. intros Ha Hc.
  assert (Z.land (Z.lxor a c) 127 = Z.lxor a c).
  { assert (Z.land a 127 = a) by (change 127 with (Z.ones 7); rewrite Z.land_ones by lia; apply Z.mod_small; lia).
    assert (Z.land c 127 = c) by (change 127 with (Z.ones 7); rewrite Z.land_ones by lia; apply Z.mod_small; lia).
    rewrite <- H, <- H0 at 2.  apply Z.bits_inj'. intros n Hn.
    rewrite !Z.land_spec, !Z.lxor_spec, !Z.land_spec.
    destruct (Z.testbit a n), (Z.testbit c n), (Z.testbit 127 n); reflexivity. }
  rewrite <- H. change 127 with (Z.ones 7). rewrite Z.land_ones by lia. apply Z.mod_pos_bound. lia.
Qed.
Lemma lane_print_ok b : ascii b -> Z.land (255 - (b + 127)) 128 = if b =? 0 then 128 else 0.
Proof.
  intros Hb. assert (byte b) by (unfold ascii, byte in *; lia).
  pose proof (byte_check (fun b => (128 <=? b) || (Z.land (255 - (b + 127)) 128 =? if b =? 0 then 128 else 0))
     ltac:(vm_compute; reflexivity) b H).
  cbv beta in H0. unfold ascii in Hb. destruct (Z.leb_spec 128 b); [lia|]. cbn [orb] in H0. apply Z.eqb_eq; auto.
Qed.
Lemma ascii_bytes l : Forall ascii l -> bytes l.
Proof. apply Forall_impl. unfold ascii, byte. intros; lia. Qed.
Lemma match_lanes_print l c : Forall ascii l -> length l = 8%nat -> ascii c ->
  match_lanes true (le l) c = lanes_of (map (fun b => b =? c) l).
Proof.
  intros Hb Hl Hc. unfold match_lanes.
  assert (bytes l) by auto using ascii_bytes.
  assert (byte c) by (unfold ascii, byte in *; lia).
  rewrite xor_extend by auto.
  set (x := map (fun b => Z.lxor b c) l).
  assert (Hx : Forall ascii x).
  { unfold x. clear - Hb Hc. induction Hb; cbn; constructor; auto using ascii_xor. }
  assert (Lx : length x = 8%nat) by (unfold x; rewrite map_length; auto).
  rewrite hm_bytes, m7f_le. rewrite add_map by auto.
  assert (B1 : bytes (map (fun b => b + 127) x)).
  { clear - Hx. induction Hx; cbn; constructor; auto. unfold ascii, byte in *; lia. }
  rewrite u64_id by (apply le_bound8; auto; rewrite map_length; auto).
  rewrite le_not64; [| auto | rewrite map_length; auto].
  rewrite land_map; [| rewrite !map_length; auto | auto using bytes_compl | exact byte_128].
  unfold x, lanes_of. rewrite !map_map. f_equal. apply map_ext_in. intros a Ha.
  assert (ascii a) by exact (proj1 (Forall_forall _ _) Hb a Ha).
  rewrite lane_print_ok by (apply ascii_xor; auto).
  destruct (Z.eqb_spec (Z.lxor a c) 0) as [E|E]; destruct (Z.eqb_spec a c) as [E'|E']; auto; exfalso.
  apply (proj1 (lxor_zero _ _)) in E. auto. apply E. apply (proj2 (lxor_zero _ _)). auto.
Qed.

(** ** index of the first / last flag *)
Fixpoint ffirst (fs : list bool) (i : Z) : option Z :=
  match fs with [] => None | t :: fs' => if t then Some i else ffirst fs' (i + 1) end.
Fixpoint flast (fs : list bool) (i : Z) : option Z :=
  match fs with
  | [] => None
  | t :: fs' => match flast fs' (i + 1) with Some k => Some k | None => if t then Some i else None end
  end.
Definition lane_expect (Exists Reverse : bool) (fs : list bool) : out Z :=
  match (if Reverse then flast fs 0 else ffirst fs 0) with
  | Some i => Ok i
  | None => if Exists then Undef BadBuiltin else Ok 4294967295
  end.
Definition out_eqb (a b : out Z) : bool :=
  match a, b with
  | Ok x, Ok y => x =? y
  | Undef BadBuiltin, Undef BadBuiltin => true
  | _, _ => false
  end.
Lemma out_eqb_eq a b : out_eqb a b = true -> a = b.
Proof.
  destruct a, b; cbn; try discriminate; intros; try (f_equal; lia);
  destruct u; try destruct u0; try discriminate; auto.
Qed.
Lemma lane_index_ok e r fs : length fs = 8%nat ->
  lane_index e r (lanes_of fs) = lane_expect e r fs.
Proof.
  intros Hl. apply out_eqb_eq.
  destruct e, r; apply (flags_check (fun fs => out_eqb (lane_index _ _ (lanes_of fs)) (lane_expect _ _ fs)) 8); auto;
    vm_compute; reflexivity.
Qed.

Lemma ffirst_first_at c l : forall k, match ffirst (map (fun b => b =? c) l) k with
  | Some i => first_at c l (i - k)
  | None => ~ In c l
  end.
Proof.
  induction l as [|x l IH]; intros k; cbn [map ffirst]. { auto. }
  destruct (Z.eqb_spec x c).
  - subst. unfold first_at, item. cbn [length]. replace (k - k) with 0 by lia. cbn. repeat split; try lia.
  - specialize (IH (k + 1)). destruct (ffirst _ (k + 1)) as [i|].
    + destruct IH as (Hr & Hi & Hj). unfold first_at, item in *. cbn [length].
      split. lia. split.
      * replace (Z.to_nat (i - k)) with (S (Z.to_nat (i - (k + 1)))) by lia. auto.
      * intros j Hjj. destruct (Z.eq_dec j 0). { subst. cbn. auto. }
        replace (Z.to_nat j) with (S (Z.to_nat (j - 1))) by lia. cbn [nth]. apply Hj. lia.
    + intros [?|?]; auto.
Qed.
Lemma flast_last_at c l : forall k, match flast (map (fun b => b =? c) l) k with
  | Some i => last_at c l (i - k)
  | None => ~ In c l
  end.
Proof.
  induction l as [|x l IH]; intros k; cbn [map flast]. { auto. }
  specialize (IH (k + 1)). destruct (flast _ (k + 1)) as [i|].
  - destruct IH as (Hr & Hi & Hj). unfold last_at, item in *. cbn [length].
    split. lia. split.
    + replace (Z.to_nat (i - k)) with (S (Z.to_nat (i - (k + 1)))) by lia. auto.
    + intros j Hjj. replace (Z.to_nat j) with (S (Z.to_nat (j - 1))) by lia. cbn [nth]. apply Hj. lia.
  - destruct (Z.eqb_spec x c).
    + subst. unfold last_at, item. cbn [length]. replace (k - k) with 0 by lia. cbn [Z.to_nat nth].
      repeat split; try lia.
      intros j Hj. replace (Z.to_nat j) with (S (Z.to_nat (j - 1))) by lia. cbn [nth].
      intros E. apply IH. rewrite <- E. apply nth_In. lia.
    + intros [?|?]; auto.
Qed.

Lemma first_at_uniq c l i j : first_at c l i -> first_at c l j -> i = j.
Proof.
  intros (? & ? & F) (? & ? & G). destruct (Z.lt_trichotomy i j) as [|[|]]; auto; exfalso.
  apply (G i); auto; lia. apply (F j); auto; lia.
Qed.
Lemma last_at_uniq c l i j : last_at c l i -> last_at c l j -> i = j.
Proof.
  intros (? & ? & F) (? & ? & G). destruct (Z.lt_trichotomy i j) as [|[|]]; auto; exfalso.
  apply (F j); auto; lia. apply (G i); auto; lia.
Qed.
Lemma first_at_in c l i : first_at c l i -> In c l.
Proof. intros (? & ? & _). unfold item in *. rewrite <- H0. apply nth_In. lia. Qed.
Lemma last_at_in c l i : last_at c l i -> In c l.
Proof. intros (? & ? & _). unfold item in *. rewrite <- H0. apply nth_In. lia. Qed.

(** [printable_ok P l c]: the precondition of the "p" variants. *)
Definition printable_ok (P : bool) (l : list Z) (c : Z) : Prop :=
  if P then Forall ascii l /\ ascii c else True.
Lemma match_lanes_ok P l c : bytes l -> length l = 8%nat -> byte c -> printable_ok P l c ->
  match_lanes P (le l) c = lanes_of (map (fun b => b =? c) l).
Proof.
  intros. destruct P. destruct H2. apply match_lanes_print; auto. apply match_lanes_bin; auto.
Qed.
Lemma memchr8_word_first P E l c i : bytes l -> length l = 8%nat -> byte c -> printable_ok P l c ->
  first_at c l i -> memchr8_word P E false (le l) c = Ok i.
Proof.
  intros. unfold memchr8_word. rewrite match_lanes_ok by auto.
  rewrite lane_index_ok by (rewrite map_length; auto). unfold lane_expect.
  pose proof (ffirst_first_at c l 0). destruct (ffirst _ 0).
  - replace (z - 0) with z in H4 by lia. f_equal. eapply first_at_uniq; eauto.
  - exfalso. eauto using first_at_in.
Qed.
Lemma memchr8_word_last P E l c i : bytes l -> length l = 8%nat -> byte c -> printable_ok P l c ->
  last_at c l i -> memchr8_word P E true (le l) c = Ok i.
Proof.
  intros. unfold memchr8_word. rewrite match_lanes_ok by auto.
  rewrite lane_index_ok by (rewrite map_length; auto). unfold lane_expect.
  pose proof (flast_last_at c l 0). destruct (flast _ 0).
  - replace (z - 0) with z in H4 by lia. f_equal. eapply last_at_uniq; eauto.
  - exfalso. eauto using last_at_in.
Qed.
Lemma memchr8_word_none P E R l c : bytes l -> length l = 8%nat -> byte c -> printable_ok P l c ->
  ~ In c l -> memchr8_word P E R (le l) c = if E then Undef BadBuiltin else Ok 4294967295.
Proof.
  intros. unfold memchr8_word. rewrite match_lanes_ok by auto.
  rewrite lane_index_ok by (rewrite map_length; auto). unfold lane_expect. destruct R.
  - pose proof (flast_last_at c l 0). destruct (flast _ 0); auto. exfalso. eauto using last_at_in.
  - pose proof (ffirst_first_at c l 0). destruct (ffirst _ 0); auto. exfalso. eauto using first_at_in.
Qed.
Lemma in_first_at c l : In c l -> exists i, first_at c l i.
Proof.
  intros. pose proof (ffirst_first_at c l 0). destruct (ffirst _ 0). eauto. tauto.
Qed.
Lemma in_last_at c l : In c l -> exists i, last_at c l i.
Proof.
  intros. pose proof (flast_last_at c l 0). destruct (flast _ 0). eauto. tauto.
Qed.
