(** C14-C20 and C24: strings. *)
From Coq Require Import String.
From Verif Require Import StrBuild.
Open Scope string_scope.
Open Scope list_scope.
Open Scope Z_scope.

Lemma text_dec s : forallb (fun x => (0 <? x) && (x <? 256)) s = true -> text s.
Proof. intros H. apply Forall_forall. intros x Hx. rewrite forallb_forall in H. specialize (H x Hx). lia. Qed.

(** * C14 *)
(** For every address [A] of the block (alignment), every content of the bytes
    around the string, and a bound on the loop that the length meets: the
    result is the length, and each loaded word starts at an 8-aligned address
    that is a byte of the string or its terminator. *)
Theorem simd_strlen_exact : forall fuel S A b o n,
  all_bytes b -> cstr_len b o n -> oob S <> None \/ o + n + 8 <= Z.of_nat (List.length b) -> n / 8 < Z.of_nat fuel ->
  exists log, simd_strlen fuel S A b o = Ok (n, log) /\
    Forall (fun p => (A + p) mod 8 = 0 /\ o <= p <= o + n) log.
Proof. exact simd_strlen_ok. Qed.
(** The byte-wise strlen used in the models of the other functions agrees. *)
Theorem c_strlen_exact : forall b o n, cstr_len b o n -> c_strlen b o = Ok n.
Proof. exact c_strlen_ok. Qed.
(** A block without terminator: the length, the comparison and the search are undefined, whatever the other argument is. *)
Theorem unterminated_undefined : forall S b c, Forall (fun x => x <> 0) b ->
  c_strlen b 0 = Undef OobRead /\ simd_strcmp S b c = Undef OobRead /\ strpos b c = Undef OobRead /\
  (forall t, text t -> strpos (cblk t) b = Undef OobRead).
Proof.
  intros S b c H. assert (L : c_strlen b 0 = Undef OobRead).
  { unfold c_strlen. cbn [Z.to_nat skipn]. induction H as [|x l Hx H IH]; [reflexivity|]. cbn [scan0]. apply Z.eqb_neq in Hx. rewrite Hx, IH. reflexivity. }
  split; [exact L|]. split; [unfold simd_strcmp; rewrite L; reflexivity|]. split; [unfold strpos; rewrite L; reflexivity|].
  intros t Ht. unfold strpos. unfold c_strlen at 1, cblk. cbn [Z.to_nat skipn]. rewrite scan0_text by exact Ht. cbn [bind]. rewrite L. reflexivity.
Qed.
Example unterminated_met := unterminated_undefined strict [97; 98; 99] [97; 0] ltac:(repeat constructor; discriminate).
Example simd_strlen_case :
  simd_strlen 9 strict 1003 (cs "the quick brown fox") 2 = Ok (17, [5; 13]) /\
  cstr_len (cs "the quick brown fox") 2 17.
Proof.
  split; [vm_compute; reflexivity|]. unfold cstr_len. repeat split; try (vm_compute; congruence).
  intros k Hk. assert (In k (zrange 17)) by (apply in_zrange; lia).
  assert (F : forallb (fun k => negb (item (cs "the quick brown fox") (2 + k) =? 0)) (zrange 17) = true) by (vm_compute; reflexivity).
  rewrite forallb_forall in F. specialize (F k H). destruct (Z.eqb_spec (item (cs "the quick brown fox") (2 + k)) 0); auto. discriminate.
Qed.

(** * C15 *)
(** What simd_strcmp computes, for every content of the bytes after the two
    terminators: always 0 when the first string has 8 characters; otherwise 0
    when the first string is a prefix of the second, and else strcmp. *)
Theorem simd_strcmp_value : forall S a b r0 r1,
  oob S <> None -> text a -> text b -> bytes r0 -> bytes r1 -> Z.of_nat (List.length a) < 2147483648 ->
  exists d, simd_strcmp S (a ++ 0 :: r0) (b ++ 0 :: r1) = Ok d /\
   ((Z.of_nat (List.length a) = 8 /\ d = 0) \/
    (Z.of_nat (List.length a) <> 8 /\ ((d = 0 /\ is_prefix a b) \/ (d <> 0 /\ ~ is_prefix a b /\ strcmp_spec a b d)))).
Proof. exact simd_strcmp_ok. Qed.
(** C15 for first strings of a length other than 8 that are no proper prefix
    of the second string.  Missing: those two classes, refuted below. *)
Theorem simd_strcmp_partial : forall S a b r0 r1,
  oob S <> None -> text a -> text b -> bytes r0 -> bytes r1 -> Z.of_nat (List.length a) < 2147483648 ->
  Z.of_nat (List.length a) <> 8 -> (is_prefix a b -> a = b) ->
  exists d, simd_strcmp S (a ++ 0 :: r0) (b ++ 0 :: r1) = Ok d /\ strcmp_spec a b d.
Proof.
  intros S a b r0 r1 HS Ha Hb H0 H1 Hl H8 Hp.
  destruct (simd_strcmp_ok S a b r0 r1 HS Ha Hb H0 H1 Hl) as (d & E & [[? ?]|[_ [[-> P]|[_ [_ P]]]]]); [lia| |]; exists d || exists 0; split; auto.
  left. auto.
Qed.
Example simd_strcmp_case : exists d, simd_strcmp (machine (fun _ => 7)) (cs "hello wide world") (cs "hello wild world") = Ok d /\ d = -8.
Proof. eexists. split; vm_compute; reflexivity. Qed.
Lemma strcmp_spec_0 a b : strcmp_spec a b 0 -> a = b.
Proof. intros [[? _]|(i & _ & _ & _ & N & E)]; auto. exfalso. apply N. lia. Qed.
(** Equal according to simd_strcmp, different strings: 8 characters; a proper prefix. *)
Theorem simd_strcmp_refuted : exists a b c,
  simd_strcmp strict (cs "abcdefgh") (cs "xyz") = Ok a /\ ~ strcmp_spec (bs "abcdefgh") (bs "xyz") a /\
  simd_strcmp strict (cs "ab") (cs "abc") = Ok b /\ ~ strcmp_spec (bs "ab") (bs "abc") b /\
  simd_strcmp strict (cs "long enough") (cs "long enough!") = Ok c /\ ~ strcmp_spec (bs "long enough") (bs "long enough!") c.
Proof.
  exists 0, 0, 0. repeat split; try (vm_compute; reflexivity); intros H; apply strcmp_spec_0 in H; vm_compute in H; discriminate.
Qed.
(** The word loop reads past the terminators: undefined when the blocks end there. *)
Theorem simd_strcmp_strict_refuted : exists s, text s /\ simd_strcmp strict (cblk s) (cblk s) = Undef OobRead.
Proof. exists (bs "long enough"). split; [apply text_dec|]; vm_compute; reflexivity. Qed.

(** * C16 *)
(** What is_str_eq decides. *)
Theorem is_str_eq_value : forall S a b r0 r1,
  oob S <> None -> text a -> text b -> bytes r0 -> bytes r1 -> Z.of_nat (List.length a) < 2147483648 ->
  exists t, is_str_eq S (a ++ 0 :: r0) (b ++ 0 :: r1) = Ok t /\ (t = true <-> Z.of_nat (List.length a) = 8 \/ is_prefix a b).
Proof.
  intros S a b r0 r1 HS Ha Hb H0 H1 Hl. unfold is_str_eq.
  destruct (simd_strcmp_ok S a b r0 r1 HS Ha Hb H0 H1 Hl) as (d & -> & H). cbn [bind]. eexists. split; [reflexivity|].
  rewrite Z.eqb_eq. destruct H as [[? ->]|[? [[-> P]|[? [N P]]]]]; tauto.
Qed.
(** C16 for first strings of a length other than 8 that are no proper prefix of the second. *)
Theorem is_str_eq_partial : forall S a b r0 r1,
  oob S <> None -> text a -> text b -> bytes r0 -> bytes r1 -> Z.of_nat (List.length a) < 2147483648 ->
  Z.of_nat (List.length a) <> 8 -> (is_prefix a b -> a = b) ->
  exists t, is_str_eq S (a ++ 0 :: r0) (b ++ 0 :: r1) = Ok t /\ (t = true <-> a = b).
Proof.
  intros S a b r0 r1 HS Ha Hb H0 H1 Hl H8 Hp.
  destruct (is_str_eq_value S a b r0 r1 HS Ha Hb H0 H1 Hl) as (t & E & H). exists t. split; auto. rewrite H.
  split; [intuition lia|]. intros ->. right. exists []. rewrite app_nil_r. auto.
Qed.
(** is_str_empty is true for "" and for every string of 8 characters. *)
Theorem is_str_empty_value : forall S s, oob S <> None -> text s -> Z.of_nat (List.length s) < 2147483648 ->
  is_str_empty S (cblk s) = Ok ((Z.of_nat (List.length s) =? 0) || (Z.of_nat (List.length s) =? 8)).
Proof. exact is_str_eq_empty. Qed.
Theorem is_str_eq_refuted : exists a b, text a /\ text b /\ a <> b /\
  is_str_eq strict (a ++ [0]) (b ++ [0]) = Ok true.
Proof.
  exists (bs "panicked"), (bs "sig_abrt"). repeat split; try (apply text_dec); try (vm_compute; reflexivity).
  vm_compute. discriminate.
Qed.
Theorem is_str_empty_refuted : exists s, text s /\ s <> [] /\ is_str_empty strict (cblk s) = Ok true.
Proof. exists (bs "eight ch"). split; [apply text_dec; vm_compute; reflexivity|]; split; vm_compute; congruence. Qed.
Example is_str_eq_case :
  is_str_eq (machine (fun _ => 3)) (cs "division_by_zero") (cs "division_by_zero") = Ok true /\
  is_str_eq (machine (fun _ => 3)) (cs "division_by_zero") (cs "division_by_two!") = Ok false.
Proof. split; vm_compute; reflexivity. Qed.

(** * C17 *)
Theorem strpos_first : forall t p r0 r1, text t -> text p -> Z.of_nat (List.length t) < 2147483648 ->
  (exists i, strpos (t ++ 0 :: r0) (p ++ 0 :: r1) = Ok i /\ first_occ p t i) \/
  (strpos (t ++ 0 :: r0) (p ++ 0 :: r1) = Ok (-1) /\ ~ occurs p t).
Proof. exact strpos_ok. Qed.
Theorem is_str_in_iff : forall t p r0 r1, text t -> text p -> Z.of_nat (List.length t) < 2147483648 ->
  exists r, is_str_in (t ++ 0 :: r0) (p ++ 0 :: r1) = Ok r /\ (r = true <-> occurs p t).
Proof.
  intros t p r0 r1 Ht Hp Hl. unfold is_str_in.
  destruct (strpos_ok t p r0 r1 Ht Hp Hl) as [(i & -> & H)|[-> H]]; cbn [bind]; eexists; (split; [reflexivity|]).
  - destruct H as [H _]. split; [exists i; auto|]. intros _. destruct H. lia.
  - cbn. split; [discriminate|tauto].
Qed.
Example strpos_case : strpos (cs "a needle in needles") (cs "needles") = Ok 12 /\ strpos (cs "aaab") (cs "ab") = Ok 2 /\ strpos (cs "aaab") (cs "ba") = Ok (-1).
Proof. repeat split; vm_compute; reflexivity. Qed.

(** * C18 *)
(** C18 for strings whose length is not 8 (missing: length 8, refuted below);
    a NULL delimiter means a blank.  The table of pointers, here offsets into
    the text part of the block, has one entry per word and a final NULL. *)
Theorem str_split_partial : forall fuel S s od d,
  oob S <> None -> text s -> s <> [] -> Z.of_nat (List.length s) <> 8 -> Z.of_nat (List.length s) < 2147483647 ->
  od = Some d \/ (od = None /\ d = [32]) -> d <> [] -> (List.length s < fuel)%nat ->
  exists os ws txt, str_split_ex fuel S s od = Ok (Some (map Some os ++ [None], txt, Z.of_nat (List.length ws))) /\
    splits d s ws /\ List.length txt = (List.length s + 1)%nat /\ Forall2 (holds_cstr txt) os ws.
Proof. exact str_split_ok. Qed.
(** The words determine the string again and none contains the delimiter. *)
Theorem splits_words : forall d s ws, d <> [] -> splits d s ws -> join d ws = s /\ Forall (fun w => ~ occurs d w) ws.
Proof. intros d s ws Hd H. split; [apply splits_join; auto|eapply splits_clean; eauto]. Qed.
(** Every string of 8 characters yields NULL, whatever the delimiter. *)
Theorem str_split_eight : forall fuel S s od,
  oob S <> None -> text s -> Z.of_nat (List.length s) = 8 -> str_split_ex fuel S s od = Ok None.
Proof. intros fuel S s od HS Hs H8. unfold str_split_ex. rewrite is_str_eq_empty by (auto; lia). rewrite H8. reflexivity. Qed.
Theorem str_split_refuted : exists s, text s /\ s <> [] /\ str_split_ex 20 strict s (Some (bs ",")) = Ok None.
Proof. exists (bs "a,b,c,de"). split; [apply text_dec; vm_compute; reflexivity|]; split; vm_compute; congruence. Qed.
(** An empty delimiter: the loop does not end, whatever the bound. *)
Theorem str_split_empty_delim : forall fuel S s,
  oob S <> None -> text s -> s <> [] -> Z.of_nat (List.length s) <> 8 -> Z.of_nat (List.length s) < 2147483648 ->
  str_split_ex fuel S s (Some []) = NoFuel.
Proof. exact split_empty_delim. Qed.
Example str_split_case :
  str_split_ex 20 (machine (fun _ => 9)) (bs "one--two---3") (Some (bs "--")) =
  Ok (Some ([Some 0; Some 5; Some 10; None], bs "one" ++ [0; 45] ++ bs "two" ++ [0; 45] ++ bs "-3" ++ [0], 3))%list.
Proof. vm_compute. reflexivity. Qed.

(** * C19 *)
Theorem str_concat_exact : forall args, Forall text args -> Z.of_nat (List.length (concat args)) < 18446744073709551615 ->
  str_concat_ex args = Ok (concat args ++ [0]).
Proof. exact str_concat_ok. Qed.
Example str_concat_case : str_concat_ex [bs "ab"; bs ""; bs "cde"] = Ok (bs "abcde" ++ [0])%list.
Proof. vm_compute. reflexivity. Qed.

(** * C20 *)
Theorem str_replace_exact : forall fuel h n x,
  text h -> text x -> n <> [] -> (List.length h < fuel)%nat -> Z.of_nat (List.length h) + 1 < 18446744073709551616 ->
  (~ occurs n h /\ str_replace_ex fuel h n x = Ok None) \/
  (occurs n h /\ exists r, substituted n x h r /\
    (Z.of_nat (List.length r) + 1 < 18446744073709551616 -> str_replace_ex fuel h n x = Ok (Some (r ++ [0])))).
Proof. exact str_replace_ok. Qed.
(** The specification determines the result. *)
Theorem substituted_unique : forall n x h r, substituted n x h r -> forall r', substituted n x h r' -> r = r'.
Proof.
  intros n x h r H. induction H; intros r' H'.
  - inversion H'; subst; auto. match goal with E : _ ++ _ = [] |- _ => apply app_eq_nil in E; destruct E; subst; tauto end.
  - inversion H'; subst.
    + match goal with E : [] = _ ++ _ |- _ => symmetry in E; apply app_eq_nil in E; destruct E; subst; tauto end.
    + match goal with E : n ++ _ = n ++ _ |- _ => apply app_inv_head in E; subst end. f_equal. auto.
    + exfalso. match goal with N : ~ is_prefix _ _, E : _ :: _ = _ |- _ => apply N; rewrite E; eexists; reflexivity end.
  - inversion H'; subst.
    + exfalso. match goal with N : ~ is_prefix _ _, E : _ ++ _ = _ :: _ |- _ => apply N; rewrite <- E; eexists; reflexivity end.
    + f_equal. auto.
Qed.
(** An empty needle: the counting loop does not end on any non-empty haystack. *)
Theorem str_replace_empty_needle : forall fuel h x, text h -> h <> [] -> Z.of_nat (List.length h) < 18446744073709551616 ->
  str_replace_ex fuel h [] x = NoFuel.
Proof.
  intros fuel h x Hh Hn Hl. unfold str_replace_ex. rewrite replace_count_empty; auto.
  destruct h; [tauto|cbn [List.length] in *; lia].
Qed.
Example str_replace_case :
  str_replace_ex 30 (bs "the the he") (bs "the") (bs "a") = Ok (Some (bs "a a he" ++ [0]))%list /\
  str_replace_ex 30 (bs "aaa") (bs "aa") (bs "xyz") = Ok (Some (bs "xyza" ++ [0]))%list /\
  str_replace_ex 30 (bs "abc") (bs "d") (bs "x") = Ok None.
Proof. repeat split; vm_compute; reflexivity. Qed.

(** * C24 *)
Theorem str_copy_exact : forall dest d src o len n,
  0 <= d -> 0 <= o -> 0 <= n -> o + n <= Z.of_nat (List.length src) -> d + n <= Z.of_nat (List.length dest) ->
  (len = n /\ len <> 0) \/ (len = 0 /\ cstr_len src o n) ->
  exists res, str_copy dest d src o len = Ok res /\ List.length res = List.length dest /\
    slice res d n = slice src o n /\
    forall k, 0 <= k < Z.of_nat (List.length dest) -> k < d \/ d + n <= k -> item res k = item dest k.
Proof. exact str_copy_ok. Qed.
Theorem str_memdup_exact : forall src o len, 0 <= o -> 0 <= len -> o + len <= Z.of_nat (List.length src) ->
  str_memdup_ex src o len = Ok (slice src o len ++ [0]).
Proof. exact str_memdup_ok. Qed.
Example str_copy_case :
  str_copy [1; 2; 3; 4; 5] 1 [7; 8; 9; 0] 1 2 = Ok [1; 8; 9; 4; 5] /\
  str_copy [1; 2; 3; 4; 5] 1 [7; 8; 9; 0] 0 0 = Ok [1; 7; 8; 9; 5] /\
  str_memdup_ex [7; 0; 9; 0] 0 3 = Ok [7; 0; 9; 0].
Proof. repeat split; vm_compute; reflexivity. Qed.

(** * The theorems above on concrete values: their hypotheses can be met. *)
Ltac calc := vm_compute; first [reflexivity | discriminate | (intros; discriminate)].
Ltac met := first [ lia | (left; discriminate) | (right; calc) | (apply all_bytes_dec; calc) | (apply digits_dec; calc) | (intros; lia) | (intros; reflexivity) | calc | (split; calc) | (apply text_dec; calc) | (intros [? ?]; discriminate) ].
Lemma bytes_dec l : forallb (fun x => (0 <=? x) && (x <? 256)) l = true -> bytes l.
Proof. exact (all_bytes_dec l). Qed.
Definition seven := machine (fun _ => 7).
Example simd_strlen_met := simd_strlen_exact 9 strict 1003 (cs "the quick brown fox") 2 17 ltac:(met) (proj2 simd_strlen_case) ltac:(met) ltac:(met).
Example c_strlen_met := c_strlen_exact (cs "the quick brown fox") 2 17 (proj2 simd_strlen_case).
Example simd_strcmp_value_met := simd_strcmp_value seven (bs "hello wide world") (bs "hello wild world") [1] [2; 3] ltac:(discriminate) ltac:(met) ltac:(met)
  ltac:(apply bytes_dec; calc) ltac:(apply bytes_dec; calc) ltac:(met).
Example simd_strcmp_met := simd_strcmp_partial seven (bs "hello wide world") (bs "hello wild world") [1] [2; 3] ltac:(discriminate) ltac:(met) ltac:(met)
  ltac:(apply bytes_dec; calc) ltac:(apply bytes_dec; calc) ltac:(met) ltac:(met) ltac:(met).
Example is_str_eq_value_met := is_str_eq_value seven (bs "division_by_zero") (bs "division_by_two!") [] [] ltac:(discriminate) ltac:(met) ltac:(met)
  ltac:(apply bytes_dec; calc) ltac:(apply bytes_dec; calc) ltac:(met).
Example is_str_eq_met := is_str_eq_partial seven (bs "division_by_zero") (bs "division_by_two!") [] [] ltac:(discriminate) ltac:(met) ltac:(met)
  ltac:(apply bytes_dec; calc) ltac:(apply bytes_dec; calc) ltac:(met) ltac:(met) ltac:(met).
Example is_str_empty_met := is_str_empty_value seven (bs "abc") ltac:(discriminate) ltac:(met) ltac:(met).
Example strpos_met := strpos_first (bs "a needle in needles") (bs "needles") [5] [] ltac:(met) ltac:(met) ltac:(met).
Example is_str_in_met := is_str_in_iff (bs "a needle in needles") (bs "needles") [5] [] ltac:(met) ltac:(met) ltac:(met).
Example str_split_met := str_split_partial 20 seven (bs "one--two---3") (Some (bs "--")) (bs "--") ltac:(discriminate) ltac:(met) ltac:(discriminate) ltac:(met) ltac:(met)
  (or_introl eq_refl) ltac:(discriminate) ltac:(cbn; lia).
Lemma one_two : splits (bs "-") (bs "one-two") [bs "one"; bs "two"].
Proof.
  apply (splits_cut (bs "-") (bs "one") (bs "two") [bs "two"]).
  - split; [split; [vm_compute; congruence|split; [vm_compute; congruence|vm_compute; reflexivity]]|].
    intros j Hj (_ & _ & H). change (Z.of_nat (List.length (bs "one"))) with 3 in Hj. assert (K : j = 0 \/ j = 1 \/ j = 2) by lia. destruct K as [-> |[-> | -> ]]; vm_compute in H; discriminate.
  - apply splits_last. intros (i & H1 & H2 & H3). change (Z.of_nat (List.length (bs "-"))) with 1 in H2. change (Z.of_nat (List.length (bs "two"))) with 3 in H2. assert (K : i = 0 \/ i = 1 \/ i = 2) by lia.
    destruct K as [-> |[-> | -> ]]; vm_compute in H3; discriminate.
Qed.
Example splits_words_met := splits_words (bs "-") (bs "one-two") _ ltac:(discriminate) one_two.
Example str_split_eight_met := str_split_eight 20 seven (bs "abcdefgh") (Some (bs ",")) ltac:(discriminate) ltac:(met) ltac:(met).
Example str_split_empty_met := str_split_empty_delim 20 seven (bs "abc") ltac:(discriminate) ltac:(met) ltac:(discriminate) ltac:(met) ltac:(met).
Example str_concat_met := str_concat_exact [bs "ab"; bs ""; bs "cde"] ltac:(repeat (apply Forall_cons; [apply text_dec; calc|]); apply Forall_nil) ltac:(met).
Example str_replace_met := str_replace_exact 30 (bs "the the he") (bs "the") (bs "a") ltac:(met) ltac:(met) ltac:(discriminate) ltac:(cbn; lia) ltac:(met).
Example str_replace_empty_met := str_replace_empty_needle 30 (bs "abc") (bs "x") ltac:(met) ltac:(discriminate) ltac:(met).
Lemma abab : substituted [97] [120; 121] [97; 98; 97] [120; 121; 98; 120; 121].
Proof.
  apply (subst_hit [97] [120; 121] [98; 97] [98; 120; 121]); [|discriminate].
  apply subst_miss; [intros [? ?]; discriminate|]. apply (subst_hit [97] [120; 121] [] []); [constructor|discriminate].
Qed.
Example substituted_met := substituted_unique _ _ _ _ abab _ abab.
Example str_copy_met := str_copy_exact [1; 2; 3; 4; 5] 1 [7; 8; 9; 0] 1 2 2 ltac:(met) ltac:(met) ltac:(met) ltac:(met) ltac:(met) ltac:(left; split; [reflexivity|discriminate]).
Example str_memdup_met := str_memdup_exact [7; 0; 9; 0] 0 3 ltac:(met) ltac:(met) ltac:(met).

Print Assumptions simd_strlen_exact. Print Assumptions c_strlen_exact. Print Assumptions simd_strcmp_value. Print Assumptions simd_strcmp_partial. Print Assumptions simd_strcmp_refuted. Print Assumptions simd_strcmp_strict_refuted. Print Assumptions is_str_eq_value. Print Assumptions is_str_eq_partial. Print Assumptions is_str_empty_value. Print Assumptions is_str_eq_refuted. Print Assumptions is_str_empty_refuted. Print Assumptions strpos_first. Print Assumptions is_str_in_iff. Print Assumptions str_split_partial. Print Assumptions splits_words. Print Assumptions str_split_eight. Print Assumptions str_split_refuted. Print Assumptions str_split_empty_delim. Print Assumptions str_concat_exact. Print Assumptions str_replace_exact. Print Assumptions substituted_unique. Print Assumptions str_replace_empty_needle. Print Assumptions str_copy_exact. Print Assumptions str_memdup_exact.
Print Assumptions unterminated_undefined.
