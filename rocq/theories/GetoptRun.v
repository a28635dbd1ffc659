(** The calls of getopt against the specification of scanning. *)
From Verif Require Import BaseLemmas GetoptModel GetoptSpec GetoptFacts.
Import ListNotations.

(** Names. *)
Lemma name_len_cut s : name_len s = zlen (fst (cut s)).
Proof. induction s as [|c s IH]; [reflexivity|]. cbn [name_len cut]. destruct (c =? 61); [reflexivity|]. destruct (cut s). cbn [fst length] in *. lia. Qed.
Lemma cut_app s : s = fst (cut s) ++ match snd (cut s) with None => [] | Some v => 61 :: v end.
Proof. induction s as [|c s IH]; [reflexivity|]. cbn. destruct (Z.eqb_spec c 61) as [-> |]; [reflexivity|]. destruct (cut s). cbn in *. congruence. Qed.
Lemma strncmp_begins : forall n r b, strncmp0 b (n ++ r) (length n) = begins n b.
Proof. induction n as [|x n IH]; intros r [|y b]; cbn; auto. rewrite Z.eqb_sym. destruct (x =? y); cbn; auto. Qed.
Lemma search_resolve (name r : list Z) : zlen name < 4294967296 -> forall tbl, (forall o, In o tbl -> zlen (o_name o) < 4294967296) -> forall i pf ind ambig,
  match find (fun io => begins name (o_name (snd io)) && (length name =? length (o_name (snd io)))%nat) (number i tbl) with
  | Some (j, o) => exists a, search false tbl i (name ++ r) (zlen name) pf ind ambig = (Some o, j, true, a)
  | None => search false tbl i (name ++ r) (zlen name) pf ind ambig =
      let l := filter (fun io => begins name (o_name (snd io))) (number i tbl) in
      match pf with
      | Some q => (pf, ind, false, ambig || negb (forallb (fun io => same q (snd io)) l))
      | None => match l with [] => (None, ind, false, ambig) | (j, o) :: l => (Some o, j, false, ambig || negb (forallb (fun io => same o (snd io)) l)) end
      end
  end.
Proof.
  intros LN. induction tbl as [|p tbl IH]; intros HT i pf ind ambig; cbn [number find search filter].
  - cbn. destruct pf; rewrite ?orb_false_r; reflexivity.
  - rewrite Nat2Z.id, strncmp_begins. cbn [snd]. specialize (IH (fun o J => HT o (or_intror J))). pose proof (HT p (or_introl eq_refl)) as LP.
    destruct (begins name (o_name p)) eqn:B; cbn [andb].
    + rewrite !u32_id by lia. destruct (Nat.eqb_spec (length name) (length (o_name p))) as [E|E]; [rewrite E, Z.eqb_refl; eauto|]. replace (zlen name =? zlen (o_name p)) with false by lia.
      destruct pf as [q|].
      * specialize (IH (i + 1) (Some q) ind (ambig || false || negb (o_has_arg q =? o_has_arg p) || negb (o_flag q =? o_flag p) || negb (o_val q =? o_val p))).
        destruct (find _ (number (i + 1) tbl)) as [[j o]|]; [exact IH|]. rewrite IH. cbv zeta. cbn [forallb snd]. f_equal. change (same q p) with ((o_has_arg q =? o_has_arg p) && (o_flag q =? o_flag p) && (o_val q =? o_val p)). clear.
        destruct ambig, (o_has_arg q =? o_has_arg p), (o_flag q =? o_flag p), (o_val q =? o_val p); reflexivity.
      * specialize (IH (i + 1) (Some p) i ambig). destruct (find _ (number (i + 1) tbl)) as [[j o]|]; [exact IH|]. rewrite IH. reflexivity.
    + apply IH.
Qed.

Section Run.
Variable text : Z -> list Z.
Hypothesis NZ : forall x, ~ In 0 (text x).
Hypothesis TL : forall x, zlen (text x) < 4294967296.
Notation chr := (chr text).
(** The rest of element [x] from [off] on. *)
Definition place (x off : Z) (t : list Z) : Prop := exists u, text x = u ++ t /\ zlen u = off.
Lemma place_chr x off t : place x off t -> chr (At x off) = Ok (hd0 t).
Proof.
  intros (u & E & <-). unfold GetoptModel.chr. rewrite E, app_length, Nat2Z.id. destruct t as [|c t].
  - cbn. replace ((0 <=? zlen u) && (zlen u <? Z.of_nat (length u + 0))) with false by lia. replace (zlen u =? Z.of_nat (length u + 0)) with true by lia. reflexivity.
  - cbn. replace ((0 <=? zlen u) && (zlen u <? Z.of_nat (length u + S (length t)))) with true by lia. rewrite nth_middle. reflexivity.
Qed.
Lemma place_step x off c t : place x off (c :: t) -> place x (off + 1) t.
Proof. intros (u & E & <-). exists (u ++ [c]). rewrite <- app_assoc, app_length. split; [exact E|cbn; lia]. Qed.
Lemma place_app x off a t : place x off (a ++ t) -> place x (off + zlen a) t.
Proof. intros (u & E & <-). exists (u ++ a). rewrite <- app_assoc, app_length. split; [exact E|lia]. Qed.
Lemma place_nz x off c t : place x off (c :: t) -> c <> 0.
Proof. intros (u & E & _) ->. apply (NZ x). rewrite E. apply in_or_app. right. left. reflexivity. Qed.
Lemma place_rest x off t : place x off t -> rest_of text (At x off) = t.
Proof. intros (u & E & <-). cbn. rewrite E, Nat2Z.id, skipn_app, skipn_all, Nat.sub_diag. reflexivity. Qed.
Lemma place_tl x c t : text x = c :: t -> place x 1 t.
Proof. intros E. exists [c]. rewrite E. split; reflexivity. Qed.
Lemma place_0 x : place x 0 (text x).
Proof. exists []. split; reflexivity. Qed.

(** Nothing left of the element last scanned. *)
Definition ended (s : gst) : Prop := nextchar s = Null \/ nextchar s = Empty \/ exists x off, nextchar s = At x off /\ place x off [].
Lemma ended_at s : ended s -> at_end text s = Ok true.
Proof. unfold at_end. intros [-> |[-> |(x & off & -> & P)]]; try reflexivity. rewrite (place_chr _ _ _ P). reflexivity. Qed.
Lemma elem_chr_at s P x r j : argv s = P ++ x :: r -> optind s = zlen P -> elem_chr text s (optind s) j = chr (At x j).
Proof. intros E O. unfold elem_chr. rewrite E, O, rda_at. reflexivity. Qed.
Lemma nonoption_plain s P x r : argv s = P ++ x :: r -> optind s = zlen P -> nonoption_p text s = Ok (plain (text x)).
Proof.
  intros E O. unfold nonoption_p. rewrite !(elem_chr_at s P x r _ E O). rewrite (place_chr _ _ _ (place_0 x)). cbn [bind].
  destruct (text x) as [|a [|b t]] eqn:T; cbn [hd0 negb]; [reflexivity| |].
  - rewrite (place_chr _ _ _ (place_tl _ _ _ T)). destruct (Z.eqb_spec a 45) as [-> |N]; [reflexivity|]. cbn. destruct a; try reflexivity. do 6 (destruct p; try reflexivity); contradiction.
  - rewrite (place_chr _ _ _ (place_tl _ _ _ T)). assert (b <> 0) by (intros ->; apply (NZ x); rewrite T; cbn; auto). cbn [bind hd0]. replace (b =? 0) with false by lia.
    destruct (Z.eqb_spec a 45) as [-> |N]; [reflexivity|]. cbn. destruct a; try reflexivity. do 6 (destruct p; try reflexivity); contradiction.
Qed.
Lemma dashdash_ends t : is_dashdash t = ends_options t.
Proof.
  destruct t as [|a [|b [|c t]]]; try reflexivity.
  - cbn. destruct a; try reflexivity. do 6 (destruct p; try reflexivity).
  - cbn. destruct (Z.eqb_spec a 45) as [-> |N]; [destruct (Z.eqb_spec b 45) as [-> |N]; [reflexivity|]|].
    + cbn. destruct b; try reflexivity. do 6 (destruct p; try reflexivity); contradiction.
    + cbn. destruct a; try reflexivity. do 6 (destruct p; try reflexivity); contradiction.
  - cbn. destruct a; try reflexivity. do 6 (destruct p; try reflexivity). destruct b; try reflexivity. do 6 (destruct p; try reflexivity).
Qed.
Lemma ends_not_plain t : ends_options t = true -> plain t = false.
Proof. destruct t as [|a [|b [|c t]]]; try discriminate. cbn. destruct (Z.eqb_spec a 45) as [-> |]; [reflexivity|discriminate]. Qed.

(** The arguments: passed and in place, skipped, passed since, to come. *)
Definition Inv (pre nons popts rest : list Z) (s : gst) : Prop :=
  argv s = pre ++ nons ++ popts ++ rest /\ first_nonopt s = zlen pre /\ last_nonopt s = zlen pre + zlen nons /\ optind s = zlen pre + zlen nons + zlen popts.
(** The same but for the places. *)
Definition moved (l : list Z) (i f la : Z) (s : gst) : gst := Gst l i (inited s) (nextchar s) f la (ordering s) (optarg s) (optopt s) (longind s) (flags s).

Lemma skip_run : forall sk fuel P rest s, (length sk <= fuel)%nat -> argv s = P ++ sk ++ rest -> optind s = zlen P -> Forall (fun x => plain (text x) = true) sk ->
  match rest with x :: _ => plain (text x) = false | [] => True end -> skip_nonopts text fuel s = Ok (set_optind (zlen P + zlen sk) s).
Proof.
  induction sk as [|y sk IH]; intros fuel P rest s F E O A H; cbn [length] in F.
  - cbn [app length] in *. replace (zlen P + Z.of_nat 0) with (optind s) by lia. assert (ID : set_optind (optind s) s = s) by (destruct s; reflexivity). rewrite ID. clear ID. destruct rest as [|x r].
    + rewrite app_nil_r in E. destruct fuel; cbn [skip_nonopts]; unfold argc; rewrite E, O; replace (zlen P <? zlen P) with false by lia; reflexivity.
    + assert (B : optind s <? argc s = true) by (unfold argc; rewrite E, O, app_length; cbn; lia). destruct fuel; cbn [skip_nonopts]; rewrite B, (nonoption_plain s P x r E O), H; reflexivity.
  - inversion A as [|? ? A1 A2]. subst. assert (B : optind s <? argc s = true) by (unfold argc; rewrite E, O, app_length; cbn; lia). destruct fuel as [|fuel]; [lia|]. cbn [skip_nonopts]. rewrite B.
    rewrite (nonoption_plain s P y (sk ++ rest) E O), A1. cbn [bind]. rewrite (IH fuel (P ++ [y]) rest); [|lia|cbn; rewrite E, <- app_assoc; reflexivity|cbn; rewrite O, app_length; cbn; lia|auto|auto].
    rewrite app_length. cbn [length]. replace (zlen P + Z.of_nat (S (length sk))) with (Z.of_nat (length P + 1) + zlen sk) by lia. reflexivity.
Qed.
Lemma set_nonopts_id s : set_nonopts (first_nonopt s) (last_nonopt s) s = s.
Proof. destruct s; reflexivity. Qed.
Lemma permute_run pre nons popts sk rest s : ordering s = PERMUTE -> Inv pre nons popts (sk ++ rest) s -> Forall (fun x => plain (text x) = true) sk ->
  match rest with x :: _ => plain (text x) = false | [] => True end ->
  permute text s = Ok (moved (pre ++ popts ++ nons ++ sk ++ rest) (zlen pre + zlen popts + zlen nons + zlen sk) (zlen pre + zlen popts) (zlen pre + zlen popts + zlen nons + zlen sk) s).
Proof.
  intros M (E & F & L & O) A H. unfold permute. rewrite M.
  assert (X : (if negb (first_nonopt s =? last_nonopt s) && negb (last_nonopt s =? optind s) then exchange s
               else if negb (last_nonopt s =? optind s) then Ok (set_nonopts (optind s) (last_nonopt s) s) else Ok s)
              = Ok (moved (pre ++ popts ++ nons ++ sk ++ rest) (zlen pre + zlen nons + zlen popts) (zlen pre + zlen popts) (if (zlen nons =? 0) then last_nonopt s else (zlen pre + zlen nons + zlen popts)) s)).
  { destruct (Z.eqb_spec (first_nonopt s) (last_nonopt s)) as [FL|FL]; cbn [negb andb].
    - destruct nons; [|cbn in *; lia]. destruct (Z.eqb_spec (last_nonopt s) (optind s)) as [LO|LO]; cbn [negb].
      + destruct popts; [|cbn in *; lia]. f_equal. cbn [app length] in *. unfold moved. cbn. destruct s. cbn in *. f_equal; try congruence; lia.
      + f_equal. unfold set_nonopts, moved. cbn [app length] in *. cbn. destruct s; cbn in *. f_equal; try congruence; lia.
    - destruct (Z.eqb_spec (last_nonopt s) (optind s)) as [LO|LO]; cbn [negb].
      + destruct popts; [|cbn in *; lia]. f_equal. cbn [app length] in *. unfold moved. replace (zlen nons =? 0) with false by lia. destruct s. cbn in *. f_equal; try congruence; lia.
      + rewrite (exchange_blocks nons popts pre (sk ++ rest) s E F L O). f_equal. unfold set_nonopts, set_argv, moved. cbn. replace (zlen nons =? 0) with false by lia. rewrite O. reflexivity. }
  rewrite X. cbn [bind]. rewrite (skip_run sk _ (pre ++ popts ++ nons) rest); cbn [argv moved optind]; [|rewrite !app_length; lia|rewrite <- !app_assoc; reflexivity|rewrite !app_length; lia|auto|auto].
  cbn [bind]. unfold set_nonopts, set_optind, moved. cbn. do 2 f_equal; rewrite !app_length; lia.
Qed.

Lemma dashes_none s : optind s = argc s -> dashes text s = Ok s.
Proof. intros E. unfold dashes. rewrite E, Z.eqb_refl. reflexivity. Qed.
Lemma dashes_other s P x r : argv s = P ++ x :: r -> optind s = zlen P -> ends_options (text x) = false -> dashes text s = Ok s.
Proof.
  intros E O H. unfold dashes. assert (B : optind s =? argc s = false) by (unfold argc; rewrite E, O, app_length; cbn; lia). rewrite B. cbn [negb]. rewrite E, O, rda_at. cbn [bind]. rewrite dashdash_ends, H. reflexivity.
Qed.
Lemma dashes_run pre nons popts x r s : Inv pre nons popts (x :: r) s -> (nons = [] \/ popts = []) -> ends_options (text x) = true ->
  exists f, dashes text s = Ok (moved (pre ++ popts ++ x :: nons ++ r) (zlen (argv s)) f (zlen (argv s)) s) /\ f = zlen pre + zlen popts + 1.
Proof.
  intros (E & F & L & O) C H. unfold dashes. assert (E' : argv s = (pre ++ nons ++ popts) ++ x :: r) by (rewrite E, <- !app_assoc; reflexivity). assert (O' : optind s = zlen (pre ++ nons ++ popts)) by (rewrite O, !app_length; lia).
  assert (B : optind s =? argc s = false) by (unfold argc; rewrite E', O', !app_length; cbn [length]; lia). rewrite B. cbn [negb]. assert (R : rda (argv s) (optind s) = Ok x) by (rewrite E', O'; apply rda_at). rewrite R. cbn [bind]. rewrite dashdash_ends, H.
  cbn [first_nonopt last_nonopt optind set_optind]. eexists. split; [|reflexivity]. destruct nons as [|y nons].
  - replace (first_nonopt s =? last_nonopt s) with true by (cbn in L; lia). cbn [negb andb bind]. unfold argc. cbn. unfold moved, set_optind, set_nonopts. cbn. do 2 f_equal; [rewrite E; reflexivity|cbn in O; lia].
  - destruct C as [C| ->]; [discriminate|]. assert (N : first_nonopt s =? last_nonopt s = false) by (cbn [length] in L; lia). rewrite N. replace (last_nonopt s =? optind s + 1) with false by (cbn [length] in O, L; lia). cbn [negb andb].
    rewrite (exchange_blocks (y :: nons) [x] pre r (set_optind (optind s + 1) s)); [|cbn; rewrite E; reflexivity|exact F|exact L|cbn [optind set_optind]; rewrite O; cbn [length]; lia].
    cbn [bind]. unfold argc. cbn. unfold moved, set_nonopts, set_optind, set_argv. cbn. assert (LL : length (pre ++ x :: y :: nons ++ r) = length (argv s)) by (rewrite E, !app_length; cbn; rewrite !app_length; cbn; lia). rewrite LL.
    do 2 f_equal. lia.
Qed.

Variable c : cfg.
Hypothesis ONLY : c_only c = false.
(** The option string of the first call, and of the later ones: the '-' or '+' at its beginning is passed over in the first only. *)
Definition os_of (first : bool) : list Z := if first then match c_os c with 45 :: t | 43 :: t => t | l => l end else c_os c.
(** print_errors. *)
Definition pe : bool := if hd0 (c_os c) =? 58 then false else c_opterr c.
Hypothesis NW : forall first t, my_index (os_of first) 87 = Some t -> hd0 (tl t) <> 59.
Hypothesis NM : ~ In (-1) (c_os c).
Hypothesis NV : forall t o, c_long c = Some t -> In o t -> o_flag o = 0 -> o_val o <> -1.
Hypothesis NL : forall t o, c_long c = Some t -> In o t -> zlen (o_name o) < 4294967296.

(** One call. *)
Definition call (first : bool) (s : gst) : out (Z * gst) := scan_call text c (os_of first) pe (set_optarg Null s).
(** The calls until -1. *)
Definition Runs (first : bool) (s : gst) (l : list event) (s' : gst) : Prop := exists n, forall fuel, (n <= fuel)%nat ->
  (let* (r, s1) := call first s in if r =? -1 then Ok ([], s1) else let* (l, s') := options text fuel c s1 in Ok (see r s1 :: l, s')) = Ok (l, s').
(** A state between calls. *)
Definition good (s : gst) : Prop := inited s = true /\ 0 < optind s /\ 0 < argc s.
Lemma runs_end first s s1 : call first s = Ok (-1, s1) -> Runs first s [] s1.
Proof. intros E. exists O. intros fuel _. rewrite E. reflexivity. Qed.
Lemma runs_step first s r s1 l s' : call first s = Ok (r, s1) -> r <> -1 -> good s1 -> Runs false s1 l s' -> Runs first s (see r s1 :: l) s'.
Proof.
  intros E R (G1 & G2 & G3) (n & H). exists (S n). intros fuel F. rewrite E. cbn [bind]. destruct (Z.eqb_spec r (-1)); [contradiction|]. destruct fuel as [|fuel]; [lia|]. cbn [options].
  assert (GI : getopt_internal text c s1 = call false s1).
  { unfold getopt_internal, call. replace (argc s1 <? 1) with false by lia. cbn [optind inited set_optarg]. rewrite G1. replace (optind s1 =? 0) with false by lia. reflexivity. }
  rewrite GI. specialize (H fuel ltac:(lia)). destruct (call false s1) as [[r2 s2]| | |]; cbn [bind] in *; try discriminate.
  destruct (r2 =? -1); [injection H as <- <-; reflexivity|]. destruct (options text fuel c s2) as [[l2 s3]| | |]; cbn [bind] in *; try discriminate. injection H as <- <-. reflexivity.
Qed.
(** The calls from the decoding of an element on. *)
Definition Decodes (first : bool) (s : gst) (l : list event) (s' : gst) : Prop := exists r s1 l', decode text c (os_of first) pe s = Ok (r, s1) /\ r <> -1 /\ good s1 /\ l = see r s1 :: l' /\ Runs false s1 l' s'.
(** What the caller sees is the last event. *)
Definition shows (s : gst) (e : event) : Prop := optopt s = e_opt e /\ longind s = e_ind e /\ flags s = e_flags e.
(** The element is scanned. *)
Definition Done (s : gst) (k : Z) (e : event) (s1 : gst) : Prop :=
  argv s1 = argv s /\ optind s1 = optind s + k /\ first_nonopt s1 = first_nonopt s /\ last_nonopt s1 = last_nonopt s /\ ordering s1 = ordering s /\ inited s1 = inited s /\ ended s1 /\ shows s1 e.

Lemma index_letter os ch : ch <> 58 -> letter os ch = match my_index os ch with None => None | Some t => Some (if hd0 (tl t) =? 58 then if hd0 (tl (tl t)) =? 58 then Optional else Required else NoArg) end.
Proof.
  intros N. unfold letter. destruct (Z.eqb_spec ch 58); [contradiction|]. induction os as [|x os IH]; [reflexivity|]. cbn [letter_in my_index]. destruct (x =? ch); [|exact IH]. cbn [tl]. f_equal.
  destruct os as [|a [|b os]]; try reflexivity; cbn [hd0 tl].
  - destruct (Z.eqb_spec a 58) as [-> |N1]; [reflexivity|]. destruct a; try reflexivity. do 6 (destruct p; try reflexivity); contradiction.
  - destruct (Z.eqb_spec a 58) as [-> |N1].
    + destruct (Z.eqb_spec b 58) as [-> |N2]; [reflexivity|]. destruct b; try reflexivity. do 6 (destruct p; try reflexivity); contradiction.
    + destruct a; try reflexivity. do 6 (destruct p; try reflexivity); contradiction.
Qed.
Lemma index_hd os ch t : my_index os ch = Some t -> hd0 t = ch /\ In ch os.
Proof. induction os as [|x os IH]; [discriminate|]. cbn. destruct (Z.eqb_spec x ch) as [-> |]; [intros E; injection E as <-; auto|]. intros E. destruct (IH E). auto. Qed.
Lemma os_in first ch : In ch (os_of first) -> In ch (c_os c).
Proof.
  unfold os_of. destruct first; [|auto]. destruct (c_os c) as [|a t]; [auto|]. assert (X : forall b, In ch t -> In ch (b :: t)) by (intros; right; assumption).
  destruct a; auto. do 6 (destruct p; auto).
Qed.
Lemma missing_lacking os first : missing (os first) = lacking os first.
Proof.
  unfold missing, lacking. destruct (os first) as [|a t]; [reflexivity|]. cbn. destruct (Z.eqb_spec a 58) as [-> |N]; [reflexivity|]. destruct a; try reflexivity. do 6 (destruct p; try reflexivity); contradiction.
Qed.
Lemma lacking_ne first : lacking os_of first <> -1.
Proof. rewrite <- missing_lacking. unfold missing. destruct (_ =? 58); discriminate. Qed.

(** An element whose letters are short options. *)
Definition shorts (x : Z) : Prop := c_long c = None \/ exists a b t, text x = a :: b :: t /\ b <> 45.
Lemma decode_short first s P x r : argv s = P ++ x :: r -> optind s = zlen P -> shorts x -> decode text c (os_of first) pe s = short_option text c (os_of first) pe s.
Proof.
  intros E O [N|(a & b & t & T & B)]; unfold decode, is_long; [rewrite N; reflexivity|]. destruct (c_long c); [|reflexivity].
  rewrite (elem_chr_at s P x r 1 E O), (place_chr _ _ _ (place_tl _ _ _ T)). cbn [bind hd0]. destruct (Z.eqb_spec b 45); [contradiction|]. rewrite ONLY. reflexivity.
Qed.
Lemma good_of s P x r : argv s = P ++ x :: r -> optind s = zlen P -> P <> [] -> inited s = true -> forall s1, argv s1 = argv s -> inited s1 = inited s -> optind s <= optind s1 -> good s1.
Proof. intros E O N I s1 A1 I1 O1. unfold good, argc. rewrite A1, E, I1, app_length. destruct P; [contradiction|]. cbn [length] in *. repeat split; [auto|lia..]. Qed.
Lemma hd_next P x (r : list Z) : match r with [] => zlen P + 1 = zlen (P ++ x :: r) | y :: r' => rda (P ++ x :: r) (zlen P + 1) = Ok y /\ (zlen P + 1 =? zlen (P ++ x :: r)) = false end.
Proof.
  destruct r as [|y r]; [rewrite app_length; cbn; lia|]. split; [|rewrite app_length; cbn [length]; lia].
  replace (P ++ x :: y :: r) with ((P ++ [x]) ++ y :: r) by (rewrite <- app_assoc; reflexivity). replace (zlen P + 1) with (zlen (P ++ [x])) by (rewrite app_length; cbn; lia). apply rda_at.
Qed.
Lemma cluster_cons os first x off ch t next e : cluster os first x off (ch :: t) next e =
  match letter (os first) ch with
  | None => let e := Ev 63 Null ch (e_ind e) (e_flags e) in let (l, took) := cluster os false x (off + 1) t next e in (e :: l, took)
  | Some NoArg => let e := Ev ch Null (e_opt e) (e_ind e) (e_flags e) in let (l, took) := cluster os false x (off + 1) t next e in (e :: l, took)
  | Some Optional => ([Ev ch (match t with [] => Null | _ => At x (off + 1) end) (e_opt e) (e_ind e) (e_flags e)], false)
  | Some Required =>
      match t, next with
      | _ :: _, _ => ([Ev ch (At x (off + 1)) (e_opt e) (e_ind e) (e_flags e)], false)
      | [], Some y => ([Ev ch (At y 0) (e_opt e) (e_ind e) (e_flags e)], true)
      | [], None => ([Ev (lacking os first) Null ch (e_ind e) (e_flags e)], false)
      end
  end.
Proof. reflexivity. Qed.
Lemma cluster_some os first x off ch t next e l took : cluster os first x off (ch :: t) next e = (l, took) -> forall d d', last l d = last l d'.
Proof.
  rewrite cluster_cons. assert (X : forall (e1 : event) l1 d d', last (e1 :: l1) d = last (e1 :: l1) d') by (intros e1 l1; revert e1; induction l1 as [|e2 l1 IH]; intros; [reflexivity|apply (IH e2)]).
  destruct (letter (os first) ch) as [[]|]; cbv zeta.
  - destruct (cluster os false x (off + 1) t next _). intros E. injection E as <- <-. apply X.
  - destruct t, next; intros E; injection E as <- <-; apply X.
  - intros E. injection E as <- <-. apply X.
  - destruct (cluster os false x (off + 1) t next _). intros E. injection E as <- <-. apply X.
Qed.
(** The letters of an element are taken one by one. *)
Lemma cluster_run : forall t ch first s P x r off e, argv s = P ++ x :: r -> optind s = zlen P -> nextchar s = At x off -> place x off (ch :: t) -> optarg s = Null -> inited s = true -> P <> [] -> shorts x -> shows s e ->
  forall l took, cluster os_of first x off (ch :: t) (hd_error r) e = (l, took) ->
  exists s1, Done s (if took then 2 else 1) (last l e) s1 /\ forall tail s', Runs false s1 tail s' -> Decodes first s (l ++ tail) s'.
Proof.
  induction t as [|ch2 t IH]; intros ch first s P x r off e E O N PL OA I PN SH (V1 & V2 & V3) l took C.
  - (* the last letter *)
    assert (D : decode text c (os_of first) pe s = short_option text c (os_of first) pe s) by (eapply decode_short; eauto). unfold short_option in D. rewrite N, (place_chr _ _ _ PL) in D. cbn [bind hd0 plus set_nextchar nextchar] in D.
    pose proof (place_step _ _ _ _ PL) as PE. rewrite (place_chr _ _ _ PE) in D. cbn [bind hd0] in D. rewrite Z.eqb_refl in D. cbn [cluster] in C. cbn [set_nextchar optind] in D.
    destruct (Z.eq_dec ch 58) as [-> |N58].
    { unfold letter in C. rewrite Z.eqb_refl in C. injection C as <- <-. cbn [last].
      assert (D' : decode text c (os_of first) pe s = Ok (63, set_optopt 58 (set_optind (optind s + 1) (set_nextchar (At x (off + 1)) s)))) by (rewrite D; destruct (my_index (os_of first) 58); reflexivity). clear D.
      eexists. split; [|intros tail s' R; eexists _, _, tail; split; [exact D'|]; split; [discriminate|]; split; [|split; [|exact R]]].
      - unfold Done, shows. cbn. rewrite V2, V3. repeat split; auto. right. right. eexists _, _. split; [reflexivity|exact PE].
      - eapply good_of; eauto; cbn; lia.
      - cbn. unfold see. cbn. rewrite OA, V2, V3. reflexivity. }
    rewrite (index_letter _ _ N58) in C. destruct (my_index (os_of first) ch) as [temp|] eqn:IX.
    + replace (ch =? 58) with false in D by lia. destruct (index_hd _ _ _ IX) as (HD & INO). assert (W : (hd0 temp =? 87) && (hd0 (tl temp) =? 59) = false).
      { destruct (Z.eqb_spec (hd0 temp) 87) as [W|]; [|reflexivity]. rewrite W in HD. subst ch. specialize (NW first temp IX). lia. }
      rewrite W in D. assert (RN : ch <> -1) by (intros ->; apply NM; apply (os_in first); exact INO).
      destruct (hd0 (tl temp) =? 58); [destruct (hd0 (tl (tl temp)) =? 58)|].
      * injection C as <- <-. cbn [negb] in D. eexists. split; [|intros tail s' R; eexists _, _, tail; split; [exact D|]; split; [exact RN|]; split; [|split; [|exact R]]].
        -- unfold Done, shows. cbn. rewrite V1, V2, V3. repeat split; auto. left. reflexivity.
        -- eapply good_of; eauto; cbn; lia.
        -- cbn. unfold see. cbn. rewrite V1, V2, V3. reflexivity.
      * cbn [negb set_optind optind] in D. unfold argc in D. cbn [argv set_optind set_nextchar] in D. rewrite O, E in D. pose proof (hd_next P x r) as HN. destruct r as [|y r]; cbn [hd_error] in C.
        -- rewrite <- HN, Z.eqb_refl in D. injection C as <- <-. rewrite missing_lacking in D.
           eexists. split; [|intros tail s' R; eexists _, _, tail; split; [exact D|]; split; [apply lacking_ne|]; split; [|split; [|exact R]]].
           ++ unfold Done, shows. cbn. rewrite V2, V3, O. repeat split; auto. left. reflexivity.
           ++ eapply good_of; eauto; cbn; lia.
           ++ cbn. unfold see. cbn. rewrite OA, V2, V3. reflexivity.
        -- destruct HN as (HN1 & HN2). rewrite HN2, HN1 in D. injection C as <- <-. cbn [bind] in D.
           eexists. split; [|intros tail s' R; eexists _, _, tail; split; [exact D|]; split; [exact RN|]; split; [|split; [|exact R]]].
           ++ unfold Done, shows. cbn. rewrite V1, V2, V3, O. repeat split; auto; [lia|]. left. reflexivity.
           ++ eapply good_of; eauto; cbn; lia.
           ++ cbn. unfold see. cbn. rewrite V1, V2, V3. reflexivity.
      * injection C as <- <-. eexists. split; [|intros tail s' R; eexists _, _, tail; split; [exact D|]; split; [exact RN|]; split; [|split; [|exact R]]].
        -- unfold Done, shows. cbn. rewrite V1, V2, V3. repeat split; auto. right. right. eexists _, _. split; [reflexivity|exact PE].
        -- eapply good_of; eauto; cbn; lia.
        -- cbn. unfold see. cbn. rewrite OA, V1, V2, V3. reflexivity.
    + injection C as <- <-. eexists. split; [|intros tail s' R; eexists _, _, tail; split; [exact D|]; split; [discriminate|]; split; [|split; [|exact R]]].
      * unfold Done, shows. cbn. rewrite V2, V3. repeat split; auto. right. right. eexists _, _. split; [reflexivity|exact PE].
      * eapply good_of; eauto; cbn; lia.
      * cbn. unfold see. cbn. rewrite OA, V2, V3. reflexivity.
  - (* more letters follow *)
    assert (D : decode text c (os_of first) pe s = short_option text c (os_of first) pe s) by (eapply decode_short; eauto). unfold short_option in D. rewrite N, (place_chr _ _ _ PL) in D. cbn [bind hd0 plus set_nextchar nextchar] in D.
    pose proof (place_step _ _ _ _ PL) as PE. rewrite (place_chr _ _ _ PE) in D. cbn [bind hd0] in D. assert (C2 : ch2 =? 0 = false) by (pose proof (place_nz _ _ _ _ PE); lia). rewrite C2 in D. cbn [negb] in D.
    (* going on with the next letter *)
    assert (GO : forall o1 e1 ret, e1 = Ev ret Null o1 (e_ind e) (e_flags e) -> ret <> -1 -> decode text c (os_of first) pe s = Ok (ret, Gst (argv s) (optind s) (inited s) (At x (off + 1)) (first_nonopt s) (last_nonopt s) (ordering s) (optarg s) o1 (longind s) (flags s)) ->
      forall l2 took2, cluster os_of false x (off + 1) (ch2 :: t) (hd_error r) e1 = (l2, took2) ->
      exists s1, Done s (if took2 then 2 else 1) (last (e1 :: l2) e) s1 /\ forall tail s', Runs false s1 tail s' -> Decodes first s ((e1 :: l2) ++ tail) s').
    { clear C D. intros o1 e1 ret EV RN D l2 took2 C. remember (Gst (argv s) (optind s) (inited s) (At x (off + 1)) (first_nonopt s) (last_nonopt s) (ordering s) (optarg s) o1 (longind s) (flags s)) as sm eqn:SM.
      destruct (IH ch2 false (set_optarg Null sm) P x r (off + 1) e1) with (l := l2) (took := took2) as (s1 & D1 & D2); try (subst sm; cbn; auto; fail); [subst sm e1; unfold shows; cbn; rewrite V2, V3; auto|].
      exists s1. split.
      - destruct D1 as (A1 & A2 & A3 & A4 & A5 & A6 & A7 & A8). unfold Done. rewrite A1, A2, A3, A4, A5, A6. subst sm. cbn. repeat split; auto.
        all: assert (LL : last (e1 :: l2) e = last l2 e1) by (destruct l2; [reflexivity|]; cbn [last]; apply (cluster_some _ _ _ _ _ _ _ _ _ _ C)); cbn [last] in LL; rewrite LL; apply A8.
      - intros tail s' R. destruct (D2 tail s' R) as (r3 & s3 & l3 & E3 & R3 & G3 & L3 & RR). exists ret, sm, (l2 ++ tail). split; [exact D|]. split; [exact RN|]. split; [|split].
        + eapply good_of with (s := s); eauto; subst sm; cbn; auto; lia.
        + subst sm e1. unfold see. cbn. rewrite OA, V2, V3. reflexivity.
        + rewrite L3. eapply runs_step; eauto. unfold call, scan_call. assert (AE : at_end text (set_optarg Null sm) = Ok false) by (subst sm; unfold at_end; cbn [nextchar set_optarg]; rewrite (place_chr _ _ _ PE); cbn [bind hd0]; rewrite C2; reflexivity).
          rewrite AE. exact E3. }
    rewrite cluster_cons in C. cbv zeta in C.
    destruct (Z.eq_dec ch 58) as [-> |N58].
    { unfold letter in C. rewrite Z.eqb_refl in C. destruct (cluster os_of false x (off + 1) (ch2 :: t) (hd_error r) (Ev 63 Null 58 (e_ind e) (e_flags e))) as [l2 took2] eqn:CC. injection C as <- <-.
      eapply GO; [reflexivity|discriminate| |exact CC]. rewrite D. destruct (my_index (os_of first) 58); reflexivity. }
    rewrite (index_letter _ _ N58) in C. destruct (my_index (os_of first) ch) as [temp|] eqn:IX.
    + replace (ch =? 58) with false in D by lia. destruct (index_hd _ _ _ IX) as (HD & INO). assert (W : (hd0 temp =? 87) && (hd0 (tl temp) =? 59) = false).
      { destruct (Z.eqb_spec (hd0 temp) 87) as [W|]; [|reflexivity]. rewrite W in HD. subst ch. specialize (NW first temp IX). lia. }
      rewrite W in D. assert (RN : ch <> -1) by (intros ->; apply NM; apply (os_in first); exact INO).
      destruct (hd0 (tl temp) =? 58); [destruct (hd0 (tl (tl temp)) =? 58)|].
      * injection C as <- <-. eexists. split; [|intros tail s' R; eexists _, _, tail; split; [exact D|]; split; [exact RN|]; split; [|split; [|exact R]]].
        -- unfold Done, shows. cbn. rewrite V1, V2, V3. repeat split; auto. left. reflexivity.
        -- eapply good_of; eauto; cbn; lia.
        -- cbn. unfold see. cbn. rewrite V1, V2, V3. reflexivity.
      * injection C as <- <-. eexists. split; [|intros tail s' R; eexists _, _, tail; split; [exact D|]; split; [exact RN|]; split; [|split; [|exact R]]].
        -- unfold Done, shows. cbn. rewrite V1, V2, V3. repeat split; auto. left. reflexivity.
        -- eapply good_of; eauto; cbn; lia.
        -- cbn. unfold see. cbn. rewrite V1, V2, V3. reflexivity.
      * destruct (cluster os_of false x (off + 1) (ch2 :: t) (hd_error r) (Ev ch Null (e_opt e) (e_ind e) (e_flags e))) as [l2 took2] eqn:CC. injection C as <- <-. eapply GO; [reflexivity|exact RN| |exact CC]. rewrite D, <- V1. reflexivity.
    + destruct (cluster os_of false x (off + 1) (ch2 :: t) (hd_error r) (Ev 63 Null ch (e_ind e) (e_flags e))) as [l2 took2] eqn:CC. injection C as <- <-. eapply GO; [reflexivity|discriminate| |exact CC]. exact D.
Qed.

Lemma number_in tb : forall i j o, In (j, o) (number i tb) -> In o tb.
Proof. induction tb as [|p tb IH]; intros i j o; cbn; [auto|]. intros [E|E]; [injection E as _ ->; auto|right; eauto]. Qed.
(** The loop over the table finds what the name stands for. *)
Lemma search_lookup tb name r : c_long c = Some tb -> zlen name < 4294967296 ->
  match resolve tb name with
  | Found i o => In o tb /\ exists ex a, search false tb 0 (name ++ r) (zlen name) None (-1) false = (Some o, i, ex, a) /\ (ex || negb a = true)
  | Ambiguous => exists o i, search false tb 0 (name ++ r) (zlen name) None (-1) false = (o, i, false, true)
  | Unknown => exists i, search false tb 0 (name ++ r) (zlen name) None (-1) false = (None, i, false, false)
  end.
Proof.
  intros T L. pose proof (search_resolve name r L tb (fun o J => NL tb o T J) 0 None (-1) false) as H. unfold resolve.
  destruct (find _ (number 0 tb)) as [[j o]|] eqn:F.
  - destruct H as (a & H). split; [|exists true, a; auto]. apply find_some in F. destruct F as (J & _). eapply number_in; eauto.
  - cbv zeta in H. destruct (filter _ (number 0 tb)) as [|[j o] l] eqn:FL; [eauto|]. cbn [orb] in H. destruct (forallb _ l).
    + split; [|exists false, false; auto]. assert (J : In (j, o) ((j, o) :: l)) by (left; reflexivity). rewrite <- FL in J. apply filter_In in J. destruct J as (J & _). eapply number_in; eauto.
    + eauto.
Qed.
Lemma taken_ret tb o i arg e : c_long c = Some tb -> In o tb -> e_ret (taken (c_longind c) i o arg e) <> -1.
Proof. intros T J. cbn. destruct (Z.eqb_spec (o_flag o) 0); [eapply NV; eauto|discriminate]. Qed.
(** found. *)
Lemma found_taken o i s e arg : optarg s = arg -> shows s e -> exists s1, found c o i s = (e_ret (taken (c_longind c) i o arg e), s1) /\ see (e_ret (taken (c_longind c) i o arg e)) s1 = taken (c_longind c) i o arg e /\
  argv s1 = argv s /\ optind s1 = optind s /\ first_nonopt s1 = first_nonopt s /\ last_nonopt s1 = last_nonopt s /\ ordering s1 = ordering s /\ inited s1 = inited s /\ nextchar s1 = nextchar s /\ shows s1 (taken (c_longind c) i o arg e).
Proof.
  intros A (V1 & V2 & V3). unfold shows, found, taken, see. cbn [e_ret]. destruct (c_longind c), (o_flag o =? 0); cbn; eexists; (split; [reflexivity|]); cbn; rewrite A, V1, ?V2, V3; repeat split; reflexivity.
Qed.
Lemma to_end_ended s x off t : nextchar s = At x off -> place x off t -> ended (to_end text s).
Proof.
  intros N PL. right. right. unfold to_end. rewrite N, (place_rest _ _ _ PL). cbn. eexists _, _. split; [reflexivity|]. rewrite <- (app_nil_r t) in PL. apply place_app in PL. exact PL.
Qed.
Lemma long_run first s P x r a nm tb e : argv s = P ++ x :: r -> optind s = zlen P -> nextchar s = At x 2 -> text x = a :: 45 :: nm -> optarg s = Null -> inited s = true -> P <> [] -> c_long c = Some tb -> shows s e ->
  forall ev took, long_element (c_longind c) os_of first tb x nm (hd_error r) e = (ev, took) ->
  exists s1, Done s (if took then 2 else 1) ev s1 /\ forall tail s', Runs false s1 tail s' -> Decodes first s (ev :: tail) s'.
Proof.
  intros E O N T OA I PN LB (V1 & V2 & V3) ev took C. assert (PL : place x 2 nm) by (exists [a; 45]; rewrite T; auto).
  assert (D : decode text c (os_of first) pe s = let* r := long_option text c (os_of first) tb s in match r with Some r => Ok r | None => short_option text c (os_of first) pe s end).
  { unfold decode, is_long. rewrite LB, (elem_chr_at s P x r 1 E O), (place_chr _ _ _ (place_tl _ _ _ T)). reflexivity. }
  unfold long_option in D. rewrite N, (place_rest _ _ _ PL), ONLY, name_len_cut in D. unfold long_element in C. pose proof (cut_app nm) as CA. destruct (cut nm) as [name value]. cbn [fst snd] in *.
  assert (LN : zlen name < 4294967296). { pose proof (TL x) as TX. rewrite T, CA in TX. cbn [length] in TX. rewrite app_length in TX. lia. }
  pose proof (search_lookup tb name (match value with None => [] | Some v => 61 :: v end) LB LN) as SL. rewrite <- CA in SL.
  assert (PV : place x (2 + zlen name) (match value with None => [] | Some v => 61 :: v end)) by (apply place_app; rewrite <- CA; exact PL).
  destruct (resolve tb name) as [i o| |].
  - destruct SL as (J & ex & am & SR & X). rewrite SR in D.
    assert (D' : decode text c (os_of first) pe s = (let s := set_optind (optind s + 1) s in let* eq := GetoptModel.chr text (plus (At x 2) (zlen name)) in
      if negb (eq =? 0) then if negb (o_has_arg o =? 0) then Ok (found c o i (to_end text (set_optarg (plus (At x 2) (zlen name + 1)) s))) else Ok (63, set_optopt (o_val o) (to_end text s))
      else if o_has_arg o =? 1 then if optind s <? argc s then let* x := rda (argv s) (optind s) in Ok (found c o i (to_end text (set_optind (optind s + 1) (set_optarg (At x 0) s)))) else Ok (missing (os_of first), set_optopt (o_val o) (to_end text s))
      else Ok (found c o i (to_end text s)))).
    { rewrite D. cbv zeta. cbn [set_optind nextchar]. rewrite N. destruct ex, am; try discriminate X; cbn [plus]; destruct (GetoptModel.chr text (At x (2 + zlen name))) as [eq| | |]; cbn [bind]; try reflexivity; destruct (negb (eq =? 0)); try (destruct (negb (o_has_arg o =? 0)); reflexivity);
        (destruct (o_has_arg o =? 1); [|reflexivity]); cbn [optind set_optind argv]; (destruct (_ <? _); [|reflexivity]); destruct (rda (argv s) (optind s + 1)); reflexivity. }
    clear D. cbv zeta in D'. cbn [plus] in D'. rewrite (place_chr _ _ _ PV) in D'. cbn [bind] in D'. destruct value as [v|].
    + cbn [hd0] in D'. change (negb (61 =? 0)) with true in D'. cbn match in D'. destruct (o_has_arg o =? 0); cbn [negb] in D'.
      * injection C as <- <-. eexists. split; [|intros tail s' R; eexists _, _, tail; split; [exact D'|]; split; [discriminate|]; split; [|split; [|exact R]]].
        -- unfold Done, shows. cbn. rewrite V2, V3. repeat split; auto. eapply (to_end_ended (set_optind (optind s + 1) s)); eauto.
        -- eapply good_of; eauto; cbn; lia.
        -- unfold see. cbn. rewrite OA, V2, V3. reflexivity.
      * injection C as <- <-. destruct (found_taken o i (to_end text (set_optarg (At x (2 + (zlen name + 1))) (set_optind (optind s + 1) s))) e (At x (2 + zlen name + 1))) as (s1 & F & SE & B1 & B2 & B3 & B4 & B5 & B6 & B7 & B8); [cbn [optarg to_end set_nextchar set_optarg]; f_equal; lia|unfold shows; cbn; auto|].
        rewrite F in D'. exists s1. split; [|intros tail s' R; eexists _, _, tail; split; [exact D'|]; split; [eapply taken_ret; eauto|]; split; [|split; [|exact R]]].
        -- unfold Done. rewrite B1, B2, B3, B4, B5, B6. cbn [argv optind first_nonopt last_nonopt ordering inited to_end set_nextchar set_optarg set_optind]. do 6 (split; [reflexivity|]). split; [|exact B8].
           assert (X2 : ended (to_end text (set_optarg (At x (2 + (zlen name + 1))) (set_optind (optind s + 1) s)))) by (eapply to_end_ended; eauto). unfold ended in *. rewrite B7. exact X2.
        -- apply (good_of s P x _ E O PN I); [rewrite B1; reflexivity|rewrite B6; reflexivity|rewrite B2; cbn [optind to_end set_nextchar set_optarg set_optind]; lia].
        -- rewrite SE. reflexivity.
    + cbn [hd0] in D'. rewrite Z.eqb_refl in D'. cbn [negb] in D'. destruct (o_has_arg o =? 1).
      * cbn [optind set_optind argv] in D'. unfold argc in D'. cbn [argv set_optind] in D'. rewrite O, E in D'. pose proof (hd_next P x r) as HN. destruct r as [|y r]; cbn [hd_error] in C.
        -- rewrite <- HN in D'. replace (zlen P + 1 <? zlen P + 1) with false in D' by lia. injection C as <- <-. rewrite missing_lacking in D'.
           eexists. split; [|intros tail s' R; eexists _, _, tail; split; [exact D'|]; split; [apply lacking_ne|]; split; [|split; [|exact R]]].
           ++ unfold Done, shows. cbn. rewrite V2, V3, O. repeat split; auto. eapply (to_end_ended (set_optind (zlen P + 1) s)); eauto.
           ++ eapply good_of; eauto; cbn; lia.
           ++ unfold see. cbn. rewrite OA, V2, V3. reflexivity.
        -- destruct HN as (HN1 & HN2). assert (LT : zlen P + 1 <? zlen (P ++ x :: y :: r) = true) by (rewrite app_length; cbn [length]; lia). rewrite LT, HN1 in D'. cbn [bind] in D'. injection C as <- <-.
           destruct (found_taken o i (to_end text (set_optind (zlen P + 1 + 1) (set_optarg (At y 0) (set_optind (zlen P + 1) s)))) e (At y 0)) as (s1 & F & SE & B1 & B2 & B3 & B4 & B5 & B6 & B7 & B8); [reflexivity|unfold shows; cbn; auto|].
           rewrite F in D'. exists s1. split; [|intros tail s' R; eexists _, _, tail; split; [exact D'|]; split; [eapply taken_ret; eauto|]; split; [|split; [|exact R]]].
           ++ unfold Done. rewrite B1, B2, B3, B4, B5, B6. cbn [argv optind first_nonopt last_nonopt ordering inited to_end set_nextchar set_optarg set_optind]. rewrite O. do 6 (split; [try reflexivity; lia|]). split; [|exact B8].
              assert (X2 : ended (to_end text (set_optind (zlen P + 1 + 1) (set_optarg (At y 0) (set_optind (zlen P + 1) s))))) by (eapply to_end_ended; eauto). unfold ended in *. rewrite B7. exact X2.
           ++ apply (good_of s P x _ E O PN I); [rewrite B1; reflexivity|rewrite B6; reflexivity|rewrite B2; cbn [optind to_end set_nextchar set_optarg set_optind]; lia].
           ++ rewrite SE. reflexivity.
      * injection C as <- <-. destruct (found_taken o i (to_end text (set_optind (optind s + 1) s)) e Null) as (s1 & F & SE & B1 & B2 & B3 & B4 & B5 & B6 & B7 & B8); [exact OA|unfold shows; cbn; auto|].
        rewrite F in D'. exists s1. split; [|intros tail s' R; eexists _, _, tail; split; [exact D'|]; split; [eapply taken_ret; eauto|]; split; [|split; [|exact R]]].
        -- unfold Done. rewrite B1, B2, B3, B4, B5, B6. cbn [argv optind first_nonopt last_nonopt ordering inited to_end set_nextchar set_optarg set_optind]. do 6 (split; [reflexivity|]). split; [|exact B8].
           assert (X2 : ended (to_end text (set_optind (optind s + 1) s))) by (eapply to_end_ended; eauto). unfold ended in *. rewrite B7. exact X2.
        -- apply (good_of s P x _ E O PN I); [rewrite B1; reflexivity|rewrite B6; reflexivity|rewrite B2; cbn [optind to_end set_nextchar set_optarg set_optind]; lia].
        -- rewrite SE. reflexivity.
  - destruct SL as (o & i & SR). rewrite SR in D. assert (D' : decode text c (os_of first) pe s = Ok (63, set_optopt 0 (set_optind (optind s + 1) (to_end text s)))) by (rewrite D; destruct o; reflexivity). clear D. injection C as <- <-.
    eexists. split; [|intros tail s' R; eexists _, _, tail; split; [exact D'|]; split; [discriminate|]; split; [|split; [|exact R]]].
    + unfold Done, shows. cbn. rewrite V2, V3. repeat split; auto. eapply (to_end_ended s); eauto.
    + eapply good_of; eauto; cbn; lia.
    + unfold see. cbn. rewrite OA, V2, V3. reflexivity.
  - destruct SL as (i & SR). rewrite SR, (elem_chr_at s P x r 1 E O), (place_chr _ _ _ (place_tl _ _ _ T)), (place_chr _ _ _ PL) in D. cbn [bind negb orb] in D. injection C as <- <-.
    eexists. split; [|intros tail s' R; eexists _, _, tail; split; [exact D|]; split; [discriminate|]; split; [|split; [|exact R]]].
    + unfold Done, shows. cbn. rewrite V2, V3. repeat split; auto. right. left. reflexivity.
    + eapply good_of; eauto; cbn; lia.
    + unfold see. cbn. rewrite OA, V2, V3. reflexivity.
Qed.

Notation scan := (scan text (c_long c) (c_longind c) os_of).
Lemma plain_not_ends t : plain t = true -> ends_options t = false.
Proof. destruct (ends_options t) eqn:E; [|reflexivity]. rewrite (ends_not_plain t E). discriminate. Qed.
Lemma scan_skip : forall sk first rest e, Forall (fun x => plain (text x) = true) sk -> scan PERMUTE first (sk ++ rest) e = let '(l, p, n) := scan PERMUTE first rest e in (l, p, sk ++ n).
Proof.
  induction sk as [|x sk IH]; intros first rest e A; [cbn; destruct (scan PERMUTE first rest e) as [[? ?] ?]; reflexivity|]. inversion A as [|? ? A1 A2]. subst. cbn [app GetoptSpec.scan]. rewrite (plain_not_ends _ A1), A1, (IH first rest e A2).
  destruct (scan PERMUTE first rest e) as [[? ?] ?]. reflexivity.
Qed.
Lemma split_plain : forall rest, exists sk rest1, rest = sk ++ rest1 /\ Forall (fun x => plain (text x) = true) sk /\ match rest1 with x :: _ => plain (text x) = false | [] => True end.
Proof.
  induction rest as [|x rest (sk & rest1 & -> & A & H)]; [exists [], []; auto|]. destruct (plain (text x)) eqn:P; [exists (x :: sk), rest1; auto|]. exists [], (x :: sk ++ rest1). auto.
Qed.

(** The calls until -1 give the events of the specification and leave the arguments as it says. *)
Lemma scan_runs : forall n rest, (length rest <= n)%nat -> forall first s pre nons popts e, Inv pre nons popts rest s -> ended s -> inited s = true -> pre <> [] -> (ordering s = PERMUTE \/ nons = []) -> shows s e ->
  forall l p q, scan (ordering s) first rest e = (l, p, q) ->
  exists s', Runs first s l s' /\ argv s' = pre ++ popts ++ p ++ nons ++ q /\ optind s' = zlen pre + zlen popts + zlen p.
Proof.
  induction n as [n IHn] using (well_founded_induction Wf_nat.lt_wf). intros rest LR first s pre nons popts e (E & F & L & O) EN I PN MO (V1 & V2 & V3) l p q SC.
  set (s0 := set_optarg Null s).
  (* the state after the options are put in front and non-options are skipped *)
  assert (PERM : exists s1 pre1 nons1 popts1 rest1 q1, permute text s0 = Ok s1 /\ Inv pre1 nons1 popts1 rest1 s1 /\ (nons1 = [] \/ popts1 = []) /\ (ordering s = PERMUTE -> match rest1 with x :: _ => plain (text x) = false | [] => True end) /\
    optarg s1 = Null /\ inited s1 = true /\ ordering s1 = ordering s /\ nextchar s1 = nextchar s /\ shows s1 e /\ pre1 <> [] /\ (length rest1 <= length rest)%nat /\ (ordering s = PERMUTE \/ nons1 = []) /\
    scan (ordering s) first rest1 e = (l, p, q1) /\ pre ++ popts ++ p ++ nons ++ q = pre1 ++ popts1 ++ p ++ nons1 ++ q1 /\ zlen pre + zlen popts = zlen pre1 + zlen popts1).
  { destruct (ordering s) eqn:M.
    2:{ destruct (split_plain rest) as (sk & rest1 & -> & A & H). rewrite (scan_skip sk first rest1 e A) in SC. destruct (scan PERMUTE first rest1 e) as [[l1 p1] q1] eqn:S1. injection SC as <- <- <-.
      eexists _, (pre ++ popts), (nons ++ sk), [], rest1, q1. split; [apply (permute_run pre nons popts sk rest1 s0); auto; repeat split; auto|].
      split; [unfold Inv; cbn; rewrite <- !app_assoc, !app_length; repeat split; cbn; lia|]. split; [auto|]. split; [auto|]. cbn. split; [reflexivity|]. split; [exact I|]. split; [exact M|]. split; [reflexivity|].
      split; [unfold shows; cbn; auto|]. split; [destruct pre; [contradiction|discriminate]|]. split; [rewrite app_length; lia|]. split; [auto|]. split; [exact S1|]. split; [rewrite <- !app_assoc; reflexivity|rewrite app_length; lia]. }
    all: destruct MO as [MO| ->]; [discriminate|]; exists s0, pre, [], popts, rest, q; (split; [unfold permute; cbn [ordering s0 set_optarg]; rewrite M; reflexivity|]); (split; [repeat split; auto|]); (split; [auto|]); (split; [discriminate|]); cbn;
      (split; [reflexivity|]); (split; [exact I|]); (split; [exact M|]); (split; [reflexivity|]); (split; [unfold shows; cbn; auto|]); auto 10. }
  destruct PERM as (s1 & pre1 & nons1 & popts1 & rest1 & q1 & PM & IV & NP & HP & OA1 & I1 & M1 & NC1 & SH1 & PN1 & LR1 & MO1 & SC1 & AR & LE). rewrite AR, LE. clear AR LE SC MO V1 V2 V3.
  assert (CALL : call first s = let* s := dashes text s1 in let* (r, s) := arrive text c s in match r with Some r => Ok (r, s) | None => decode text c (os_of first) pe s end).
  { unfold call, scan_call. fold s0. rewrite (ended_at s0); [|exact EN]. cbn [bind]. unfold advance. cbv zeta.
    assert (N1 : set_nonopts (first_nonopt s0) (if optind s0 <? last_nonopt s0 then optind s0 else last_nonopt s0) s0 = s0) by (cbn [optind last_nonopt s0 set_optarg]; replace (optind s <? last_nonopt s) with false by lia; reflexivity).
    rewrite N1. assert (N2 : set_nonopts (if optind s0 <? first_nonopt s0 then optind s0 else first_nonopt s0) (last_nonopt s0) s0 = s0) by (cbn [optind first_nonopt s0 set_optarg]; replace (optind s <? first_nonopt s) with false by lia; reflexivity).
    rewrite N2, PM. cbn [bind]. destruct (dashes text s1); reflexivity. }
  clear PM. destruct rest1 as [|x r].
  - (* no more elements *)
    cbn in SC1. injection SC1 as <- <- <-. destruct IV as (E1 & F1 & L1 & O1). rewrite app_nil_r in E1. assert (OC : optind s1 = argc s1) by (unfold argc; rewrite E1, !app_length; lia).
    rewrite (dashes_none s1 OC) in CALL. cbn [bind] in CALL. unfold arrive in CALL. rewrite OC, Z.eqb_refl in CALL. cbn [bind] in CALL. eexists. split; [apply runs_end; exact CALL|].
    cbn [app length]. rewrite app_nil_r, Z.add_0_r. destruct (Z.eqb_spec (first_nonopt s1) (last_nonopt s1)) as [FL|FL]; cbn [negb].
    + destruct nons1; [|cbn in *; lia]. split; [rewrite E1, app_nil_r; reflexivity|cbn [length] in O1; lia].
    + destruct NP as [-> | ->]; [cbn in *; lia|]. split; [cbn; rewrite E1, app_nil_r; reflexivity|cbn; lia].
  - cbn [GetoptSpec.scan] in SC1. pose proof IV as (E1 & F1 & L1 & O1). assert (E1' : argv s1 = (pre1 ++ nons1 ++ popts1) ++ x :: r) by (rewrite E1, <- !app_assoc; reflexivity). assert (O1' : optind s1 = zlen (pre1 ++ nons1 ++ popts1)) by (rewrite O1, !app_length; lia).
    assert (PN' : pre1 ++ nons1 ++ popts1 <> []) by (destruct pre1; [contradiction|discriminate]).
    destruct (ends_options (text x)) eqn:DD.
    + (* "--" *)
      injection SC1 as <- <- <-. destruct (dashes_run pre1 nons1 popts1 x r s1 IV NP DD) as (f & DR & FV). rewrite DR in CALL. cbn [bind] in CALL. unfold arrive, argc in CALL. cbn [optind argv moved] in CALL.
      assert (LL : zlen (argv s1) = zlen (pre1 ++ popts1 ++ x :: nons1 ++ r)) by (rewrite E1, !app_length; cbn [length]; rewrite !app_length; lia). rewrite LL, Z.eqb_refl in CALL. cbn [bind] in CALL.
      eexists. split; [apply runs_end; exact CALL|]. cbn [first_nonopt last_nonopt moved]. cbn [app length].
      destruct (Z.eqb_spec f (zlen (pre1 ++ popts1 ++ x :: nons1 ++ r))) as [FL|FL]; cbn; (split; [reflexivity|]); [|lia]. rewrite <- FL. lia.
    + rewrite (dashes_other s1 _ x r E1' O1' DD) in CALL. cbn [bind] in CALL. unfold arrive in CALL. assert (NE : optind s1 =? argc s1 = false) by (unfold argc; rewrite E1', O1', !app_length; cbn [length]; lia). rewrite NE in CALL.
      rewrite (nonoption_plain s1 _ x r E1' O1') in CALL. cbn [bind] in CALL. assert (RD : rda (argv s1) (optind s1) = Ok x) by (rewrite E1', O1'; apply rda_at). destruct (plain (text x)) eqn:PX.
      * (* a non-option *)
        rewrite M1 in CALL. destruct (ordering s) eqn:M; [| exfalso; specialize (HP eq_refl); congruence|]; (destruct MO1 as [MO1| ->]; [discriminate|]).
        -- injection SC1 as <- <- <-. cbn [bind] in CALL. exists s1. split; [apply runs_end; exact CALL|]. cbn [app length] in *. split; [exact E1|lia].
        -- rewrite RD in CALL. cbn [bind] in CALL. destruct (scan RETURN_IN_ORDER false r _) as [[l2 p2] q2] eqn:S2. injection SC1 as <- <- <-.
           set (s2 := set_optind (optind s1 + 1) (set_optarg (At x 0) s1)) in *.
           destruct (IHn (length r)) with (rest := r) (first := false) (s := s2) (pre := pre1) (nons := @nil Z) (popts := popts1 ++ [x]) (e := Ev 1 (At x 0) (e_opt e) (e_ind e) (e_flags e)) (l := l2) (p := p2) (q := q2) as (s' & R & A2 & O2); auto.
           ++ cbn in LR1. lia.
           ++ unfold Inv. cbn. cbn [app] in E1. rewrite E1, <- !app_assoc, app_length. cbn in *. repeat split; auto; lia.
           ++ unfold ended. cbn. rewrite NC1. exact EN.
           ++ cbn. rewrite M1. exact S2.
           ++ exists s'. split; [|split].
              ** assert (EV : Ev 1 (At x 0) (e_opt e) (e_ind e) (e_flags e) = see 1 s2) by (destruct SH1 as (W1 & W2 & W3); unfold see; cbn; congruence). rewrite EV. apply (runs_step first s 1 s2 l2 s' CALL); [discriminate| |exact R].
                 apply (good_of s1 _ x r E1' O1' PN' I1); [reflexivity|reflexivity|cbn; lia].
              ** rewrite A2, <- !app_assoc. reflexivity.
              ** rewrite O2, app_length. cbn [length]. lia.
      * (* an option element *)
        rewrite RD in CALL. cbn [bind] in CALL. destruct (element text (c_long c) (c_longind c) os_of first x (hd_error r) e) as [ev took] eqn:EL.
        assert (REST : exists r2 p2, (took = true -> exists y, r = y :: r2) /\ (took = false -> r2 = r) /\ p = x :: (if took then match r with y :: _ => [y] | [] => [] end else []) ++ p2 /\
          exists l2, l = ev ++ l2 /\ scan (ordering s) false r2 (last ev e) = (l2, p2, q1)).
        { destruct took; [destruct r as [|y r2]|].
          - exfalso. revert EL. clear. unfold element. assert (X : forall s f o e, snd (cluster os_of f x o s None e) = true -> False).
            { induction s as [|ch t IH]; intros f o e0; [discriminate|]. rewrite cluster_cons. destruct (letter (os_of f) ch) as [[]|]; cbv zeta; try discriminate.
              - specialize (IH false (o + 1) (Ev ch Null (e_opt e0) (e_ind e0) (e_flags e0))). destruct (cluster os_of false x (o + 1) t None _). exact IH.
              - destruct t; discriminate.
              - specialize (IH false (o + 1) (Ev 63 Null ch (e_ind e0) (e_flags e0))). destruct (cluster os_of false x (o + 1) t None _). exact IH. }
            destruct (c_long c) as [tb|]; [|intros H; apply (X (tl (text x)) first 1 e); cbn in H; rewrite H; reflexivity].
            assert (Y : forall s, cluster os_of first x 1 (tl s) (hd_error []) e = (ev, true) -> False) by (intros s0 H; apply (X (tl s0) first 1 e); cbn in H; rewrite H; reflexivity).
            destruct (text x) as [|a [|b t]]; try apply Y. assert (Z : (let (e0, took) := long_element (c_longind c) os_of first tb x t (hd_error []) e in ([e0], took)) = (ev, true) -> False).
            { unfold long_element. destruct (cut t) as [nm vl]. destruct (resolve tb nm) as [i o| |]; [destruct vl|..]; cbn; try discriminate; [destruct (o_has_arg o =? 0)|destruct (o_has_arg o =? 1)]; discriminate. }
            destruct b; try apply Y. do 6 (destruct p; try apply Y). exact Z.
          - destruct (scan (ordering s) false r2 (last ev e)) as [[l2 p2] q2] eqn:S2. injection SC1 as <- <- <-. exists r2, p2. split; [eauto|]. split; [discriminate|]. split; [reflexivity|]. eauto.
          - assert (SC2 : (let '(l, p, n) := scan (ordering s) false r (last ev e) in (ev ++ l, x :: p, n)) = (l, p, q1)) by (destruct r; exact SC1). clear SC1.
            destruct (scan (ordering s) false r (last ev e)) as [[l2 p2] q2] eqn:S2. injection SC2 as <- <- <-. exists r, p2. split; [discriminate|]. split; [auto|]. split; [reflexivity|]. eauto. }
        destruct REST as (r2 & p2 & T1 & T2 & -> & l2 & -> & S2).
        (* decoding it *)
        assert (DEC : exists sm s2, call first s = decode text c (os_of first) pe sm /\ Done s1 (if took then 2 else 1) (last ev e) s2 /\ forall tail s', Runs false s2 tail s' -> Decodes first sm (ev ++ tail) s').
        { assert (TX : exists a b t, text x = a :: b :: t) by (destruct (text x) as [|a [|b t]]; eauto; cbn in PX; try discriminate; destruct a; try discriminate; do 6 (destruct p; try discriminate)).
          destruct TX as (a & b & t & TX).
          assert (CHR1 : chr (At x 1) = Ok b) by (rewrite (place_chr _ _ _ (place_tl _ _ _ TX)); reflexivity).
          assert (SHORT : shorts x -> (match c_long c with None => Ok 0 | Some _ => let* d := chr (At x 1) in Ok (if d =? 45 then 1 else 0) end) = Ok 0 -> cluster os_of first x 1 (b :: t) (hd_error r) e = (ev, took) -> exists sm s2, call first s = decode text c (os_of first) pe sm /\ Done s1 (if took then 2 else 1) (last ev e) s2 /\ forall tail s', Runs false s2 tail s' -> Decodes first sm (ev ++ tail) s').
          { intros SX TW CL. rewrite TW in CALL. cbn [bind] in CALL. set (sm := set_nextchar (At x (1 + 0)) s1) in *.
            destruct (cluster_run t b first sm (pre1 ++ nons1 ++ popts1) x r 1 e) with (l := ev) (took := took) as (s2 & D1 & D2); auto; [eapply place_tl; eauto|].
            exists sm, s2. auto. }
          unfold element in EL. rewrite TX in EL. assert (LBC : c_long c = None \/ exists tb, c_long c = Some tb) by (destruct (c_long c); eauto).
          destruct LBC as [LB|(tb & LB)]; rewrite LB in EL; [apply SHORT; [left; exact LB|rewrite LB; reflexivity|exact EL]|].
          destruct (Z.eq_dec b 45) as [-> |B45].
          - rewrite LB, CHR1 in CALL. cbn [bind] in CALL. change (1 + (if 45 =? 45 then 1 else 0)) with 2 in CALL. set (sm := set_nextchar (At x 2) s1) in *.
            destruct (long_element (c_longind c) os_of first tb x t (hd_error r) e) as [ev1 tk] eqn:LE. injection EL as <- <-.
            destruct (long_run first sm (pre1 ++ nons1 ++ popts1) x r a t tb e) with (ev := ev1) (took := tk) as (s2 & D1 & D2); auto. exists sm, s2. split; [exact CALL|]. split; [exact D1|exact D2].
          - apply SHORT; [right; eauto|rewrite LB, CHR1; cbn [bind]; replace (b =? 45) with false by lia; reflexivity|].
            revert EL. destruct b; auto. do 6 (destruct p; auto). contradiction. }
        destruct DEC as (sm & s2 & CM & (A1 & A2 & A3 & A4 & A5 & A6 & A7 & A8) & DD2).
        destruct (IHn (length r2)) with (rest := r2) (first := false) (s := s2) (pre := pre1) (nons := nons1) (popts := popts1 ++ x :: (if took then match r with y :: _ => [y] | [] => [] end else [])) (e := last ev e) (l := l2) (p := p2) (q := q1) as (s' & R & B2 & O2); auto.
        -- cbn in LR1. destruct took; [destruct (T1 eq_refl) as (y & ->); cbn in LR1; lia|rewrite (T2 eq_refl); lia].
        -- unfold Inv. rewrite A1, A2, A3, A4, E1, O1, F1, L1. destruct took; [destruct (T1 eq_refl) as (y & ->)|rewrite (T2 eq_refl)]; rewrite <- !app_assoc, !app_length; cbn [app length]; repeat split; lia.
        -- rewrite A6. exact I1.
        -- rewrite A5, M1. exact MO1.
        -- rewrite A5, M1. exact S2.
        -- exists s'. split; [|split].
           ++ destruct (DD2 l2 s' R) as (ret & s3 & l3 & D3 & RN & G3 & L3 & R3). rewrite L3. eapply runs_step; eauto. rewrite CM. exact D3.
           ++ rewrite B2. rewrite <- !app_assoc. cbn [app]. rewrite <- ?app_assoc. reflexivity.
           ++ rewrite O2. cbn [length]. rewrite !app_length. cbn [length]. lia.
Qed.
End Run.
