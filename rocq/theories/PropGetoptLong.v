(** The option -W name and long_only of include/compat/getopt.c. *)
From Coq Require Import String Ascii.
From Verif Require Import BaseLemmas GetoptModel GetoptSpec GetoptFacts GetoptRun PropGetopt.
Import ListNotations.
Open Scope Z_scope.
Open Scope list_scope.

(** What a name stands for where two options that begin with it are always ambiguous, even if they do the same (getopt.c 672-679 with long_only, 993-995). *)
Definition resolve_strict (tbl : list lopt) (name : list Z) : lookup :=
  match find (fun io => begins name (o_name (snd io)) && (length name =? length (o_name (snd io)))%nat) (number 0 tbl) with
  | Some (i, o) => Found i o
  | None => match filter (fun io => begins name (o_name (snd io))) (number 0 tbl) with [] => Unknown | [(i, o)] => Found i o | _ => Ambiguous end
  end.
Lemma search_strict (name r : list Z) : zlen name < 4294967296 -> forall tbl, (forall o, In o tbl -> zlen (o_name o) < 4294967296) -> forall i pf ind ambig,
  match find (fun io => begins name (o_name (snd io)) && (length name =? length (o_name (snd io)))%nat) (number i tbl) with
  | Some (j, o) => exists a, search true tbl i (name ++ r) (zlen name) pf ind ambig = (Some o, j, true, a)
  | None => search true tbl i (name ++ r) (zlen name) pf ind ambig =
      let l := filter (fun io => begins name (o_name (snd io))) (number i tbl) in
      match pf with
      | Some q => (pf, ind, false, ambig || negb (Nat.eqb (length l) 0))
      | None => match l with [] => (None, ind, false, ambig) | (j, o) :: l => (Some o, j, false, ambig || negb (Nat.eqb (length l) 0)) end
      end
  end.
Proof.
  intros LN. induction tbl as [|p tbl IH]; intros HT i pf ind ambig; cbn [number find search filter].
  - cbn. destruct pf; rewrite ?orb_false_r; reflexivity.
  - rewrite Nat2Z.id, strncmp_begins. cbn [snd]. specialize (IH (fun o J => HT o (or_intror J))). pose proof (HT p (or_introl eq_refl)) as LP.
    destruct (begins name (o_name p)) eqn:B; cbn [andb].
    + rewrite !u32_id by lia. destruct (Nat.eqb_spec (length name) (length (o_name p))) as [E|E]; [rewrite E, Z.eqb_refl; eauto|]. replace (zlen name =? zlen (o_name p)) with false by lia.
      destruct pf as [q|].
      * specialize (IH (i + 1) (Some q) ind (ambig || true || negb (o_has_arg q =? o_has_arg p) || negb (o_flag q =? o_flag p) || negb (o_val q =? o_val p))).
        destruct (find _ (number (i + 1) tbl)) as [[j o]|]; [exact IH|]. rewrite IH. cbv zeta. f_equal. cbn [length Nat.eqb negb]. rewrite !orb_true_r. reflexivity.
      * specialize (IH (i + 1) (Some p) i ambig). destruct (find _ (number (i + 1) tbl)) as [[j o]|]; [exact IH|]. rewrite IH. reflexivity.
    + apply IH.
Qed.
Lemma strict_lookup tb name r k : (forall o, In o tb -> zlen (o_name o) < 4294967296) -> zlen name < 4294967296 ->
  match resolve_strict tb name with
  | Found i o => exists ex a, search true tb 0 (name ++ r) (zlen name) None k false = (Some o, i, ex, a) /\ (ex || negb a = true)
  | Ambiguous => exists o i, search true tb 0 (name ++ r) (zlen name) None k false = (o, i, false, true)
  | Unknown => exists i, search true tb 0 (name ++ r) (zlen name) None k false = (None, i, false, false)
  end.
Proof.
  intros NL L. pose proof (search_strict name r L tb NL 0 None k false) as H. unfold resolve_strict.
  destruct (find _ (number 0 tb)) as [[j o]|] eqn:F; [destruct H as (a & H); exists true, a; auto|].
  cbv zeta in H. destruct (filter _ (number 0 tb)) as [|[j o] [|q l]] eqn:FL; cbn [orb length Nat.eqb negb] in H; eauto.
Qed.

(** The element after the one with index [i]. *)
Definition after (s : gst) (i : Z) : option Z := nth_error (argv s) (Z.to_nat (i + 1)).
(** The answer to "-W t" where [t] is at [off] in element [y]: the event, and whether one more element is passed over. *)
Definition w_element (want_ind : bool) (os : list Z) (tb : list lopt) (y off : Z) (t : list Z) (next : option Z) (e : event) : event * bool :=
  let (name, value) := cut t in
  match resolve_strict tb name with
  | Unknown => (Ev 87 (At y off) (e_opt e) (e_ind e) (e_flags e), false)
  | Ambiguous => (Ev 63 (At y off) (e_opt e) (e_ind e) (e_flags e), true)
  | Found i o =>
      match value with
      | Some _ => if o_has_arg o =? 0 then (Ev 63 (At y off) (e_opt e) (e_ind e) (e_flags e), false) else (taken want_ind i o (At y (off + zlen name + 1)) e, false)
      | None =>
          if o_has_arg o =? 1 then
            match next with Some z => (taken want_ind i o (At z 0) e, true) | None => (Ev (if hd 0 os =? 58 then 58 else 63) (At y off) (e_opt e) (e_ind e) (e_flags e), false) end
          else (taken want_ind i o (At y off) e, false)
      end
  end.
Lemma rda_next s i : 0 <= i + 1 -> match nth_error (argv s) (Z.to_nat (i + 1)) with Some z => i + 1 < argc s /\ rda (argv s) (i + 1) = Ok z | None => argc s <= i + 1 end.
Proof.
  intros H. unfold argc. destruct (nth_error (argv s) (Z.to_nat (i + 1))) as [z|] eqn:E.
  - assert (L : (Z.to_nat (i + 1) < length (argv s))%nat) by (apply nth_error_Some; congruence). split; [lia|]. unfold rda. replace ((0 <=? i + 1) && (i + 1 <? zlen (argv s))) with true by lia. rewrite (nth_error_nth _ _ 0 E). reflexivity.
  - apply nth_error_None in E. lia.
Qed.
Lemma found_exact c o i s e : shows s e -> found c o i s = (e_ret (taken (c_longind c) i o (optarg s) e), snd (found c o i s)) /\ see (e_ret (taken (c_longind c) i o (optarg s) e)) (snd (found c o i s)) = taken (c_longind c) i o (optarg s) e /\
  argv (snd (found c o i s)) = argv s /\ optind (snd (found c o i s)) = optind s /\ nextchar (snd (found c o i s)) = nextchar s.
Proof. intros H. destruct (found_taken c o i s e (optarg s) eq_refl H) as (s1 & F & SE & B1 & B2 & _ & _ & _ & _ & B7 & _). rewrite F. cbn [snd]. auto. Qed.
(** C120.  What "-W name" gives, for all tables and names: an unknown name is left to the caller as 'W'; a name that two options begin with is rejected and passes over one element more; otherwise the option of
    that name, as with "--name", except that optarg is the name itself where there is no argument, and optopt is not set. *)
Theorem getopt_w_exact : forall text c os pe ch s tb y off t, (forall x, ~ In 0 (text x)) -> (forall x, zlen (text x) < 4294967296) -> c_long c = Some tb -> (forall o, In o tb -> zlen (o_name o) < 4294967296) -> 0 <= optind s ->
  (t <> [] /\ place text y off t /\ nextchar s = At y off) \/ (chr text (nextchar s) = Ok 0 /\ rda (argv s) (optind s) = Ok y /\ off = 0 /\ t = text y) ->
  (resolve_strict tb (fst (cut t)) = Ambiguous -> pe = false) ->
  forall ev took, w_element (c_longind c) os tb y off t (after s (optind s)) (see 0 s) = (ev, took) ->
  exists s1, w_option text c os pe ch s = Ok (e_ret ev, s1) /\ see (e_ret ev) s1 = ev /\ argv s1 = argv s /\ optind s1 = optind s + (if took then 2 else 1) /\ at_end text s1 = Ok true.
Proof.
  intros text c os pe ch s tb y off t NZ TL LB NL OI W AM ev took C.
  assert (PL : place text y off t) by (destruct W as [(_ & P & _)|(_ & _ & -> & ->)]; [exact P|apply place_0]).
  assert (LT : zlen t < 4294967296) by (destruct PL as (u & E & _); pose proof (TL y) as TY; rewrite E, app_length in TY; lia).
  set (s2 := set_nextchar (At y off) (set_optind (optind s + 1) (set_optarg (At y off) s))).
  assert (ED : forall s3, nextchar s3 = At y (off + zlen t) -> at_end text s3 = Ok true).
  { intros s3 N. unfold at_end. rewrite N. pose proof (place_app text NZ TL y off t []) as P2. rewrite app_nil_r in P2. specialize (P2 PL). rewrite (place_chr text NZ TL _ _ _ P2). reflexivity. }
  assert (D : w_option text c os pe ch s =
     match search true tb 0 t (name_len t) None 0 false with
     | (_, _, false, true) => let* _ := (if pe then rda (argv s2) (optind s2) else Ok 0) in Ok (63, set_optind (optind s2 + 1) (to_end text s2))
     | (Some p, i, _, _) =>
         let* eq := chr text (plus (nextchar s2) (name_len t)) in
         if negb (eq =? 0) then
           if negb (o_has_arg p =? 0) then Ok (found c p i (to_end text (set_optarg (plus (nextchar s2) (name_len t + 1)) s2))) else Ok (63, to_end text s2)
         else if o_has_arg p =? 1 then
           if optind s2 <? argc s2 then let* x := rda (argv s2) (optind s2) in Ok (found c p i (to_end text (set_optind (optind s2 + 1) (set_optarg (At x 0) s2)))) else Ok (missing os, to_end text s2)
         else Ok (found c p i (to_end text s2))
     | (None, _, _, _) => Ok (87, set_nextchar Null s2)
     end).
  { unfold w_option. destruct W as [(NE & P & N)|(N & R & -> & ->)].
    - rewrite N, (place_chr text NZ TL _ _ _ P). destruct t as [|a t]; [contradiction|]. cbn [hd0 bind]. destruct (Z.eqb_spec a 0) as [-> |_]; [exfalso; apply (place_nz text NZ _ _ _ _ P); reflexivity|]. cbn [negb andb bind]. rewrite LB. cbn [optarg set_optarg set_optind nextchar set_nextchar].
      rewrite (place_rest text _ _ _ P). reflexivity.
    - rewrite N. cbn [bind]. rewrite Z.eqb_refl. assert (X : optind s =? argc s = false) by (unfold rda in R; unfold argc; destruct (Z.eqb_spec (optind s) (zlen (argv s))) as [e|e]; [rewrite e, Z.ltb_irrefl, andb_false_r in R; discriminate|reflexivity]).
      rewrite X. cbn [negb andb]. rewrite R. cbn [bind]. rewrite LB. cbn [optarg set_optarg set_optind nextchar set_nextchar]. rewrite (place_rest text _ _ _ PL). reflexivity. }
  rewrite D. clear D W. unfold w_element in C. rewrite name_len_cut. pose proof (cut_app t) as CA. destruct (cut t) as [name value]. cbn [fst snd] in *.
  assert (LN : zlen name < 4294967296) by (rewrite CA, app_length in LT; lia).
  pose proof (strict_lookup tb name (match value with None => [] | Some v => 61 :: v end) 0 NL LN) as SL. rewrite <- CA in SL.
  assert (PV : place text y (off + zlen name) (match value with None => [] | Some v => 61 :: v end)) by (apply (place_app text NZ TL); rewrite <- CA; exact PL).
  assert (SH : forall s3, optopt s3 = optopt s -> longind s3 = longind s -> flags s3 = flags s -> shows s3 (see 0 s)) by (intros; unfold shows; auto).
  assert (TE : forall s3, nextchar s3 = At y off -> nextchar (to_end text s3) = At y (off + zlen t)) by (intros s3 N; unfold to_end; rewrite N, (place_rest text _ _ _ PL); reflexivity).
  destruct (resolve_strict tb name) as [i o| |].
  - destruct SL as (ex & am & SR & X). rewrite SR. clear SR.
    replace (match ex with true => _ | false => _ end) with (let* eq := chr text (plus (nextchar s2) (zlen name)) in
         if negb (eq =? 0) then
           if negb (o_has_arg o =? 0) then Ok (found c o i (to_end text (set_optarg (plus (nextchar s2) (zlen name + 1)) s2))) else Ok (63, to_end text s2)
         else if o_has_arg o =? 1 then
           if optind s2 <? argc s2 then let* x := rda (argv s2) (optind s2) in Ok (found c o i (to_end text (set_optind (optind s2 + 1) (set_optarg (At x 0) s2)))) else Ok (missing os, to_end text s2)
         else Ok (found c o i (to_end text s2))) by (destruct ex, am; try discriminate; reflexivity).
    cbn [s2 nextchar set_nextchar plus]. rewrite (place_chr text NZ TL _ _ _ PV). cbn [bind]. destruct value as [v|]; cbn [hd0].
    + change (61 =? 0) with false. cbn [negb]. destruct (o_has_arg o =? 0); cbn [negb]; injection C as <- <-.
      * eexists. split; [reflexivity|]. split; [reflexivity|]. split; [reflexivity|]. split; [reflexivity|]. apply ED. apply TE. reflexivity.
      * set (s3 := to_end text (set_optarg _ s2)). destruct (found_exact c o i s3 (see 0 s)) as (F & SE & B1 & B2 & B3); [apply SH; reflexivity|]. assert (OA : optarg s3 = At y (off + zlen name + 1)) by (cbn; f_equal; lia). rewrite OA in *.
        rewrite F. eexists. split; [reflexivity|]. split; [exact SE|]. split; [exact B1|]. split; [exact B2|]. apply ED. rewrite B3. apply TE. reflexivity.
    + rewrite Z.eqb_refl. cbn [negb]. destruct (o_has_arg o =? 1).
      * pose proof (rda_next s (optind s) ltac:(lia)) as RN. unfold after in C. cbn [s2 optind set_nextchar set_optind set_optarg argv]. change (argc s2) with (argc s). destruct (nth_error (argv s) (Z.to_nat (optind s + 1))) as [z|].
        -- destruct RN as (RN & RZ). replace (optind s + 1 <? argc s) with true by lia. rewrite RZ. cbn [bind]. injection C as <- <-. set (s3 := to_end text (set_optind _ _)). destruct (found_exact c o i s3 (see 0 s)) as (F & SE & B1 & B2 & B3); [apply SH; reflexivity|].
           change (optarg s3) with (At z 0) in *. rewrite F. eexists. split; [reflexivity|]. split; [exact SE|]. split; [exact B1|]. split; [rewrite B2; cbn; lia|]. apply ED. rewrite B3. apply TE. reflexivity.
        -- replace (optind s + 1 <? argc s) with false by lia. injection C as <- <-. eexists. split; [reflexivity|]. split; [reflexivity|]. split; [reflexivity|]. split; [reflexivity|]. apply ED. apply TE. reflexivity.
      * injection C as <- <-. set (s3 := to_end text s2). destruct (found_exact c o i s3 (see 0 s)) as (F & SE & B1 & B2 & B3); [apply SH; reflexivity|]. change (optarg s3) with (At y off) in *. rewrite F. eexists. split; [reflexivity|]. split; [exact SE|]. split; [exact B1|].
        split; [exact B2|]. apply ED. rewrite B3. apply TE. reflexivity.
  - destruct SL as (o & i & SR). rewrite SR. rewrite (AM eq_refl). cbn [bind]. injection C as <- <-.
    exists (set_optind (optind s2 + 1) (to_end text s2)). split; [destruct o; reflexivity|]. split; [reflexivity|]. split; [reflexivity|]. split; [cbn; lia|]. apply ED. apply TE. reflexivity.
  - destruct SL as (i & SR). rewrite SR. injection C as <- <-. eexists. split; [reflexivity|]. do 3 (split; [reflexivity|]). reflexivity.
Qed.
Example getopt_w_exact_holds : exists s1 s2 s3,
  w_option (elements ["prog"; "-W"; "col=3"]%string) (Cfg (chars "abW;") (Some [Lopt (chars "color") 2 0 67]) true false false false) (chars "abW;") false 87 (Gst [0; 1; 2] 2 true (At 1 2) 1 1 PERMUTE Null 63 9 []) = Ok (67, s1) /\ optarg s1 = At 2 4 /\ longind s1 = 0 /\
  w_option (elements ["prog"; "-Wx"]%string) (Cfg (chars "abW;") (Some [Lopt (chars "color") 2 0 67]) true false false false) (chars "abW;") false 87 (Gst [0; 1] 1 true (At 1 2) 1 1 PERMUTE Null 63 9 []) = Ok (87, s2) /\ optarg s2 = At 1 2 /\ optind s2 = 2 /\
  w_option (elements ["prog"; "-W"; "c"]%string) (Cfg (chars "abW;") (Some [Lopt (chars "color") 0 0 67; Lopt (chars "colour") 0 0 67]) true false false false) (chars "abW;") false 87 (Gst [0; 1; 2] 2 true (At 1 2) 1 1 PERMUTE Null 63 9 []) = Ok (63, s3) /\ optind s3 = 4.
Proof. do 3 eexists. do 7 (split; [vm_compute; reflexivity|]). vm_compute. reflexivity. Qed.
(** C120.  An option with an optional argument, given by -W without one, gets its own name as its argument; an ambiguous abbreviation of options that do the same is rejected, and with "--" it is not. *)
Theorem getopt_w_arg_refuted : exists s1 s2 s3 s4,
  options (elements ["prog"; "-W"; "color"]%string) 9 (Cfg (chars "W;") (Some [Lopt (chars "color") 2 0 67]) true false false false) (gst0 [0; 1; 2]) = Ok ([Ev 67 (At 2 0) 63 0 []], s1) /\
  options (elements ["prog"; "--color"]%string) 9 (Cfg (chars "W;") (Some [Lopt (chars "color") 2 0 67]) true false false false) (gst0 [0; 1]) = Ok ([Ev 67 Null 63 0 []], s2) /\
  options (elements ["prog"; "-W"; "col"; "x"]%string) 9 (Cfg (chars "W;") (Some [Lopt (chars "color") 0 0 67; Lopt (chars "colour") 0 0 67]) true false false false) (gst0 [0; 1; 2; 3]) = Ok ([Ev 63 (At 2 0) 63 0 []], s3) /\ optind s3 = 4 /\
  options (elements ["prog"; "--col"; "x"]%string) 9 (Cfg (chars "W;") (Some [Lopt (chars "color") 0 0 67; Lopt (chars "colour") 0 0 67]) true false false false) (gst0 [0; 1; 2]) = Ok ([Ev 67 Null 63 0 []], s4).
Proof. do 4 eexists. do 4 (split; [vm_compute; reflexivity|]). vm_compute. reflexivity. Qed.
Print Assumptions getopt_w_exact.
Print Assumptions getopt_w_arg_refuted.

(** With long_only, whether the element "-bt" is looked up as a long name (getopt.c 627-636): unless it is "-b" for an option letter b. *)
Definition looked_up (os : list Z) (b : Z) (t : list Z) : Prop := b = 45 \/ t <> [] \/ ~ In b os.
(** The answer to an element looked up with long_only, [nm] at [off] of element [x]; None where it goes on as a short option. *)
Definition only_element (want_ind : bool) (os : list Z) (tb : list lopt) (x b off : Z) (nm : list Z) (next : option Z) (e : event) : option (event * bool) :=
  let (name, value) := cut nm in
  match resolve_strict tb name with
  | Unknown => if (b =? 45) || negb (existsb (Z.eqb (hd 0 nm)) os) then Some (Ev 63 (e_arg e) 0 (e_ind e) (e_flags e), false) else None
  | Ambiguous => Some (Ev 63 (e_arg e) 0 (e_ind e) (e_flags e), false)
  | Found i o =>
      Some match value with
      | Some _ => if o_has_arg o =? 0 then (Ev 63 (e_arg e) (o_val o) (e_ind e) (e_flags e), false) else (taken want_ind i o (At x (off + zlen name + 1)) e, false)
      | None =>
          if o_has_arg o =? 1 then
            match next with Some z => (taken want_ind i o (At z 0) e, true) | None => (Ev (if hd 0 os =? 58 then 58 else 63) (e_arg e) (o_val o) (e_ind e) (e_flags e), false) end
          else (taken want_ind i o (e_arg e) e, false)
      end
  end.
Lemma next_elem P x (r : list Z) : match r with [] => zlen P + 1 = zlen (P ++ x :: r) | y :: r' => rda (P ++ x :: r) (zlen P + 1) = Ok y /\ (zlen P + 1 =? zlen (P ++ x :: r)) = false end.
Proof.
  destruct r as [|y r]; [rewrite app_length; cbn; lia|]. split; [|rewrite app_length; cbn [length]; lia]. replace (P ++ x :: y :: r) with ((P ++ [x]) ++ y :: r) by (rewrite <- app_assoc; reflexivity). replace (zlen P + 1) with (zlen (P ++ [x])) by (rewrite app_length; cbn; lia). apply rda_at.
Qed.
Lemma index_in os b : my_index os b = None <-> ~ In b os.
Proof. induction os as [|x os IH]; cbn; [tauto|]. destruct (Z.eqb_spec x b) as [-> |N]; [split; [discriminate|tauto]|]. rewrite IH. tauto. Qed.
Lemma index_exists os b : match my_index os b with None => true | Some _ => false end = negb (existsb (Z.eqb b) os).
Proof. induction os as [|x os IH]; cbn; [reflexivity|]. rewrite (Z.eqb_sym b x). destruct (x =? b); [reflexivity|]. exact IH. Qed.
(** C121.  With long_only, for every table and element: what is looked up, and what the answer is: the option of that name; a name that two options begin with is rejected; an unknown name goes on as short options
    if the element begins with one '-' and its next letter is in the option string, and is rejected otherwise. *)
Theorem getopt_long_only_exact : forall text c os pe s tb P x r a b t off nm, (forall x, ~ In 0 (text x)) -> (forall x, zlen (text x) < 4294967296) -> c_long c = Some tb -> c_only c = true ->
  (forall o, In o tb -> zlen (o_name o) < 4294967296) -> argv s = P ++ x :: r -> optind s = zlen P -> text x = a :: b :: t -> nextchar s = At x off -> place text x off nm ->
  (~ looked_up os b t -> decode text c os pe s = short_option text c os pe s) /\
  (looked_up os b t ->
     match only_element (c_longind c) os tb x b off nm (hd_error r) (see 0 s) with
     | None => decode text c os pe s = short_option text c os pe s
     | Some (ev, took) => exists s1, decode text c os pe s = Ok (e_ret ev, s1) /\ see (e_ret ev) s1 = ev /\ argv s1 = argv s /\ optind s1 = optind s + (if took then 2 else 1) /\ at_end text s1 = Ok true
     end).
Proof.
  intros text c os pe s tb P x r a b t off nm NZ TL LB ON NL E O T N PL.
  assert (P1 : place text x 1 (b :: t)) by (exists [a]; rewrite T; split; reflexivity).
  assert (IL : is_long text c os s = Ok (if b =? 45 then true else if hd0 t =? 0 then match my_index os b with None => true | Some _ => false end else true)).
  { unfold is_long. rewrite LB, ON. rewrite (elem_chr_at text s P x r 1 E O), (place_chr text NZ TL _ _ _ P1). cbn [bind hd0]. destruct (b =? 45); [reflexivity|]. rewrite (elem_chr_at text s P x r 2 E O).
    rewrite (place_chr text NZ TL x 2 t) by (exists [a; b]; rewrite T; split; reflexivity). cbn [bind]. destruct (hd0 t =? 0); reflexivity. }
  assert (HT : hd0 t = 0 <-> t = []). { split; [|intros ->; reflexivity]. destruct t as [|d t]; [reflexivity|]. cbn. intros ->. exfalso. apply (NZ x). rewrite T. right. right. left. reflexivity. }
  unfold decode. rewrite LB, IL. cbn [bind]. split.
  - intros NL1. unfold looked_up in NL1. destruct (Z.eqb_spec b 45) as [-> |Nb]; [exfalso; apply NL1; left; reflexivity|]. destruct (Z.eqb_spec (hd0 t) 0) as [z|z].
    + destruct (my_index os b) eqn:IX; [reflexivity|]. exfalso. apply NL1. right. right. apply index_in. exact IX.
    + exfalso. apply NL1. right. left. intros X. apply z. apply HT. exact X.
  - intros LU. replace (if b =? 45 then true else if hd0 t =? 0 then match my_index os b with None => true | Some _ => false end else true) with true.
    2:{ unfold looked_up in LU. destruct (Z.eqb_spec b 45) as [_|Nb]; [reflexivity|]. destruct (Z.eqb_spec (hd0 t) 0) as [z|z]; [|reflexivity]. destruct LU as [LU|[LU|LU]]; [contradiction|exfalso; apply LU; apply HT; exact z|]. apply index_in in LU. rewrite LU. reflexivity. }
    clear IL LU. unfold long_option. rewrite ON, N, (place_rest text _ _ _ PL), name_len_cut. unfold only_element. pose proof (cut_app nm) as CA. pose proof (place_chr text NZ TL _ _ _ PL) as CN.
    assert (LT : zlen nm < 4294967296) by (destruct PL as (u & E1 & _); pose proof (TL x) as TY; rewrite E1, app_length in TY; lia).
    assert (ED : forall s3, nextchar s3 = At x (off + zlen nm) -> at_end text s3 = Ok true).
    { intros s3 N3. unfold at_end. rewrite N3. pose proof (place_app text NZ TL x off nm []) as P2. rewrite app_nil_r in P2. specialize (P2 PL). rewrite (place_chr text NZ TL _ _ _ P2). reflexivity. }
    assert (TE : forall s3, nextchar s3 = At x off -> nextchar (to_end text s3) = At x (off + zlen nm)) by (intros s3 N3; unfold to_end; rewrite N3, (place_rest text _ _ _ PL); reflexivity).
    destruct (cut nm) as [name value]. cbn [fst snd] in *. assert (LN : zlen name < 4294967296) by (rewrite CA, app_length in LT; lia).
    pose proof (strict_lookup tb name (match value with None => [] | Some v => 61 :: v end) (-1) NL LN) as SL. rewrite <- CA in SL.
    assert (PV : place text x (off + zlen name) (match value with None => [] | Some v => 61 :: v end)) by (apply (place_app text NZ TL); rewrite <- CA; exact PL).
    assert (SH : forall s3, optopt s3 = optopt s -> longind s3 = longind s -> flags s3 = flags s -> shows s3 (see 0 s)) by (intros; unfold shows; auto).
    destruct (resolve_strict tb name) as [i o| |].
    + destruct SL as (ex & am & SR & X). rewrite SR. clear SR. set (s2 := set_optind (optind s + 1) s).
      set (D := let* eq := chr text (plus (nextchar s2) (zlen name)) in
         if negb (eq =? 0) then
           if negb (o_has_arg o =? 0) then Ok (Some (found c o i (to_end text (set_optarg (plus (nextchar s2) (zlen name + 1)) s2)))) else Ok (Some (63, set_optopt (o_val o) (to_end text s2)))
         else if o_has_arg o =? 1 then
           if optind s2 <? argc s2 then let* x := rda (argv s2) (optind s2) in Ok (Some (found c o i (to_end text (set_optind (optind s2 + 1) (set_optarg (At x 0) s2))))) else Ok (Some (missing os, set_optopt (o_val o) (to_end text s2)))
         else Ok (Some (found c o i (to_end text s2)))).
      replace (match ex with true => _ | false => _ end) with D by (destruct ex, am; try discriminate; reflexivity). unfold D. clear D.
      assert (N2 : nextchar s2 = At x off) by exact N. rewrite N2. cbn [plus]. rewrite (place_chr text NZ TL _ _ _ PV). cbn [bind]. destruct value as [v|]; cbn [hd0].
      * change (61 =? 0) with false. cbn [negb]. destruct (o_has_arg o =? 0); cbn [negb bind].
        -- eexists. split; [reflexivity|]. split; [reflexivity|]. split; [reflexivity|]. split; [reflexivity|]. apply ED. apply (TE s2 N2).
        -- set (s3 := to_end text (set_optarg _ s2)). destruct (found_exact c o i s3 (see 0 s)) as (F & SE & B1 & B2 & B3); [apply SH; reflexivity|]. assert (OA : optarg s3 = At x (off + zlen name + 1)) by (cbn; f_equal; lia). rewrite OA in *.
           rewrite F. eexists. split; [reflexivity|]. split; [exact SE|]. split; [exact B1|]. split; [exact B2|]. apply ED. rewrite B3. apply TE. exact N.
      * rewrite Z.eqb_refl. cbn [negb]. destruct (o_has_arg o =? 1).
        -- unfold argc. cbn [s2 optind set_optind argv]. rewrite O, E. pose proof (next_elem P x r) as HN. destruct r as [|z r]; cbn [hd_error].
           ++ rewrite <- HN. rewrite Z.ltb_irrefl. cbn [bind]. eexists. split; [reflexivity|]. split; [reflexivity|]. split; [exact E|]. split; [unfold s2; cbn [optind set_optopt to_end set_nextchar set_optind]; lia|]. apply ED. apply (TE s2 N2).
           ++ destruct HN as (HN1 & HN2). assert (LTT : zlen P + 1 <? zlen (P ++ x :: z :: r) = true) by (rewrite app_length; cbn [length]; lia). rewrite LTT, HN1. cbn [bind]. set (s3 := to_end text (set_optind _ _)).
              destruct (found_exact c o i s3 (see 0 s)) as (F & SE & B1 & B2 & B3); [apply SH; reflexivity|]. change (optarg s3) with (At z 0) in *. rewrite F. eexists. split; [reflexivity|]. split; [exact SE|]. split; [rewrite B1; exact E|]. split; [rewrite B2; cbn; lia|].
              apply ED. rewrite B3. apply TE. exact N.
        -- cbn [bind]. set (s3 := to_end text s2). destruct (found_exact c o i s3 (see 0 s)) as (F & SE & B1 & B2 & B3); [apply SH; reflexivity|]. change (optarg s3) with (optarg s) in *. change (e_arg (see 0 s)) with (optarg s). rewrite F. eexists. split; [reflexivity|].
           split; [exact SE|]. split; [exact B1|]. split; [exact B2|]. apply ED. rewrite B3. apply TE. exact N.
    + destruct SL as (o & i & SR). rewrite SR. exists (set_optopt 0 (set_optind (optind s + 1) (to_end text s))). split; [destruct o; reflexivity|]. do 3 (split; [reflexivity|]). apply ED. apply (TE s N).
    + destruct SL as (i & SR). rewrite SR. rewrite (elem_chr_at text s P x r 1 E O), (place_chr text NZ TL _ _ _ P1). cbn [bind hd0]. rewrite CN. cbn [bind negb orb]. rewrite index_exists. change (hd0 nm) with (hd 0 nm).
      destruct ((b =? 45) || negb (existsb (Z.eqb (hd 0 nm)) os)); cbn [bind]; [|reflexivity]. eexists. split; [reflexivity|]. do 3 (split; [reflexivity|]). reflexivity.
Qed.
Example getopt_long_only_exact_holds : exists s1 s2 s3,
  options (elements ["prog"; "-color=x"; "-a"; "-q"; "-ab"]%string) 9 (Cfg (chars "ab") (Some [Lopt (chars "color") 2 0 67; Lopt (chars "quit") 0 0 81]) true true false false) (gst0 [0; 1; 2; 3; 4]) =
    Ok ([Ev 67 (At 1 7) 63 0 []; Ev 97 Null 63 0 []; Ev 81 Null 63 1 []; Ev 97 Null 63 1 []; Ev 98 Null 63 1 []], s1) /\
  options (elements ["prog"; "--ab"]%string) 9 (Cfg (chars "ab") (Some [Lopt (chars "color") 2 0 67]) true true false false) (gst0 [0; 1]) = Ok ([Ev 63 Null 0 0 []], s2) /\
  options (elements ["prog"; "-xb"]%string) 9 (Cfg (chars "ab") (Some [Lopt (chars "color") 2 0 67]) true true false false) (gst0 [0; 1]) = Ok ([Ev 63 Null 0 0 []], s3).
Proof. do 3 eexists. do 2 (split; [vm_compute; reflexivity|]). vm_compute. reflexivity. Qed.
Print Assumptions getopt_long_only_exact.
