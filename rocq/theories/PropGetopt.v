(** The option scanner of include/compat/getopt.c. *)
From Coq Require Import Permutation.
From Verif Require Import BaseLemmas GetoptModel GetoptSpec GetoptFacts GetoptRun.
Import ListNotations.

(** C117.  exchange puts the block [last_nonopt,optind) before the block [first_nonopt,last_nonopt), keeps the order inside both, touches nothing else and reads and writes argv only. *)
Theorem exchange_swaps_blocks : forall s before nonopts opts after, argv s = before ++ nonopts ++ opts ++ after ->
  first_nonopt s = zlen before -> last_nonopt s = zlen (before ++ nonopts) -> optind s = zlen (before ++ nonopts ++ opts) ->
  exchange s = Ok (Gst (before ++ opts ++ nonopts ++ after) (optind s) (inited s) (nextchar s) (zlen (before ++ opts)) (zlen (before ++ opts ++ nonopts)) (ordering s) (optarg s) (optopt s) (longind s) (flags s)).
Proof.
  intros s p A B q E F L O. rewrite !app_length, ?Nat2Z.inj_add in *. rewrite (exchange_blocks A B p q s E F) by lia. unfold set_nonopts, set_argv. cbn. do 2 f_equal; lia.
Qed.
Definition gst0 (l : list Z) : gst := Gst l 1 false Null 0 0 REQUIRE_ORDER Null 63 0 [].
Example exchange_swaps_blocks_holds : exchange (Gst [0; 11; 12; 13; 21; 22; 9] 6 true Null 1 4 PERMUTE Null 63 0 []) = Ok (Gst [0; 21; 22; 11; 12; 13; 9] 6 true Null 3 6 PERMUTE Null 63 0 []).
Proof. apply (exchange_swaps_blocks (Gst [0; 11; 12; 13; 21; 22; 9] 6 true Null 1 4 PERMUTE Null 63 0 []) [0] [11; 12; 13] [21; 22] [9]); reflexivity. Qed.

(** How the elements that are no options are treated: a '+' or '-' at the beginning of the option string, POSIXLY_CORRECT (getopt.c 162-186). *)
Definition treatment (c : cfg) : mode := match c_os c with 45 :: _ => RETURN_IN_ORDER | 43 :: _ => REQUIRE_ORDER | _ => if c_posix c then REQUIRE_ORDER else PERMUTE end.
(** What the callers must keep to. *)
Definition usable (text : Z -> list Z) (c : cfg) : Prop :=
  (forall x, ~ In 0 (text x) /\ zlen (text x) < 4294967296) /\ c_only c = false /\ (forall a b, c_os c <> a ++ 87 :: 59 :: b) /\ ~ In (-1) (c_os c) /\
  (forall t o, c_long c = Some t -> In o t -> zlen (o_name o) < 4294967296 /\ (o_flag o = 0 -> o_val o <> -1)).
(** Before the first call, or after optind was set to 0. *)
Definition fresh (s : gst) : Prop := optind s = 0 \/ (optind s = 1 /\ inited s = false).

Lemma index_suffix os ch t : my_index os ch = Some t -> exists a, os = a ++ t.
Proof. induction os as [|x os IH]; [discriminate|]. cbn. destruct (x =? ch); [intros E; injection E as <-; exists []; reflexivity|]. intros E. destruct (IH E) as (a & ->). exists (x :: a). reflexivity. Qed.
Lemma os_suffix c first : exists a, c_os c = a ++ os_of c first.
Proof.
  unfold os_of. destruct first; [|exists []; reflexivity]. destruct (c_os c) as [|a t]; [exists []; reflexivity|]. assert (X : exists a0, a :: t = a0 ++ t) by (exists [a]; reflexivity). assert (Y : exists a0, a :: t = a0 ++ a :: t) by (exists []; reflexivity).
  destruct a; auto. do 6 (destruct p; auto).
Qed.
Lemma init_mode c s : initialize c s = (os_of c true, Gst (argv s) (optind s) (inited s) Null (optind s) (optind s) (treatment c) (optarg s) (optopt s) (longind s) (flags s)).
Proof.
  unfold initialize, os_of, treatment. destruct (c_os c) as [|a t]; [reflexivity|]. cbn [hd0 tl]. destruct (Z.eqb_spec a 45) as [-> |N1]; [reflexivity|]. destruct (Z.eqb_spec a 43) as [-> |N2]; [reflexivity|]. cbn [orb].
  f_equal; [|f_equal]; destruct a; try reflexivity; do 6 (destruct p; try reflexivity); contradiction.
Qed.
(** C118.  Every run of getopt to its -1, whatever the elements, the option string, the long options and the treatment of non-options: the calls answer as the specification [scan] says; then argv holds the
    elements that were passed (the options with their arguments, and "--") in their order, then the others in their order, and optind is the index of the first of these.  With a '+' or '-' at its beginning,
    the option string is taken without it in the first call only. *)
Theorem getopt_scans_prefixed : forall text c s a0 args, usable text c -> fresh s -> argv s = a0 :: args ->
  forall l p q, scan text (c_long c) (c_longind c) (fun first => if first then match c_os c with 45 :: t | 43 :: t => t | os => os end else c_os c) (treatment c) true args (see 0 s) = (l, p, q) ->
  exists n s', (forall fuel, (n <= fuel)%nat -> options text fuel c s = Ok (l, s')) /\ argv s' = a0 :: p ++ q /\ optind s' = zlen (a0 :: p).
Proof.
  intros text c s a0 args (UT & UO & UW & UM & UL) FR E l p q SC.
  set (si := Gst (argv s) 1 true Null 1 1 (treatment c) Null (optopt s) (longind s) (flags s)).
  destruct (scan_runs text (fun x => proj1 (UT x)) (fun x => proj2 (UT x)) c UO) with (n := length args) (rest := args) (first := true) (s := si) (pre := [a0]) (nons := @nil Z) (popts := @nil Z) (e := see 0 s) (l := l) (p := p) (q := q)
    as (s' & (n & R) & A & O); auto.
  - intros first t IX W. destruct (index_suffix _ _ _ IX) as (a & EA). destruct (os_suffix c first) as (b & EB). destruct (index_hd _ _ _ IX) as (HD & _).
    destruct t as [|x t]; [discriminate|]. destruct t as [|y t]; [discriminate|]. cbn in HD, W. subst x y. apply (UW (b ++ a) t). rewrite EB, EA, <- app_assoc. reflexivity.
  - intros t o T J. apply (UL t o T J).
  - intros t o T J. apply (UL t o T J).
  - unfold Inv. cbn. rewrite E. repeat split.
  - left. reflexivity.
  - discriminate.
  - unfold shows. cbn. auto.
  - exists (S n), s'. split; [|split; [cbn in A; exact A|cbn [length] in *; lia]]. intros fuel F. destruct fuel as [|fuel]; [lia|]. cbn [options].
    assert (GI : getopt_internal text c s = call text c true si).
    { unfold getopt_internal, call. assert (AC : argc s <? 1 = false) by (unfold argc; rewrite E; cbn [length]; lia). rewrite AC. cbn [optind inited set_optarg].
      assert (X : (optind s =? 0) || negb (inited s) = true) by (destruct FR as [-> |(_ & ->)]; [reflexivity|apply orb_true_r]). rewrite X, init_mode.
      assert (O1 : optind (if optind s =? 0 then set_optind 1 (set_optarg Null s) else set_optarg Null s) = 1) by (destruct FR as [-> |(O1 & _)]; [reflexivity|rewrite O1; exact O1]).
      cbn [argv optind inited nextchar first_nonopt last_nonopt ordering optarg optopt longind flags]. rewrite O1. unfold pe. destruct (optind s =? 0); reflexivity. }
    rewrite GI. apply R. lia.
Qed.

Lemma cluster_ext os os' : (forall b, os b = os' b) -> forall t first x off next e, cluster os first x off t next e = cluster os' first x off t next e.
Proof.
  intros H. induction t as [|ch t IH]; intros first x off next e; [reflexivity|]. rewrite !cluster_cons, H. unfold lacking. rewrite !H. destruct (letter (os' first) ch) as [[]|]; cbv zeta; rewrite ?IH; reflexivity.
Qed.
Lemma element_ext text tb w os os' : (forall b, os b = os' b) -> forall first x next e, element text tb w os first x next e = element text tb w os' first x next e.
Proof.
  intros H first x next e. unfold element. assert (X : forall s, cluster os first x 1 (tl s) next e = cluster os' first x 1 (tl s) next e) by (intros; apply cluster_ext; exact H). destruct tb as [t|]; [|apply X]. destruct (text x) as [|a [|b s]]; try apply X.
  assert (Y : long_element w os first t x s next e = long_element w os' first t x s next e) by (unfold long_element, lacking; rewrite H; reflexivity). rewrite Y. destruct b; try apply X. do 6 (destruct p; try apply X). reflexivity.
Qed.
Lemma scan_ext text tb w os os' m : (forall b, os b = os' b) -> forall n args first e, (length args <= n)%nat -> scan text tb w os m first args e = scan text tb w os' m first args e.
Proof.
  intros H. induction n as [|n IH]; intros [|x args] first e L; cbn in L; try lia; try reflexivity. cbn [scan]. rewrite (element_ext text tb w os os' H). destruct (ends_options (text x)); [reflexivity|]. destruct (plain (text x)).
  - destruct m; [reflexivity|rewrite IH by lia; reflexivity|cbv zeta; rewrite IH by lia; reflexivity].
  - destruct (element text tb w os' first x (hd_error args) e) as [ev took]. destruct took; [destruct args as [|y args]; [rewrite IH by lia; reflexivity|cbn in L; rewrite IH by lia; reflexivity]|]. rewrite IH by lia. reflexivity.
Qed.
(** C118.  The same for an option string that does not begin with '+' or '-': all calls take it as it is. *)
Theorem getopt_scans : forall text c s a0 args, usable text c -> fresh s -> argv s = a0 :: args -> match c_os c with 45 :: _ | 43 :: _ => False | _ => True end ->
  forall l p q, scan text (c_long c) (c_longind c) (fun _ => c_os c) (if c_posix c then REQUIRE_ORDER else PERMUTE) true args (see 0 s) = (l, p, q) ->
  exists n s', (forall fuel, (n <= fuel)%nat -> options text fuel c s = Ok (l, s')) /\ argv s' = a0 :: p ++ q /\ optind s' = zlen (a0 :: p).
Proof.
  intros text c s a0 args U FR E PF l p q SC. apply (getopt_scans_prefixed text c s a0 args U FR E l p q).
  assert (T : treatment c = if c_posix c then REQUIRE_ORDER else PERMUTE). { unfold treatment. destruct (c_os c) as [|a t]; [reflexivity|]. destruct a; try reflexivity. do 6 (destruct p0; try reflexivity); contradiction. }
  rewrite T, <- SC. apply (scan_ext) with (n := length args); [|lia]. intros [|]; [|reflexivity]. destruct (c_os c) as [|a t]; [reflexivity|]. destruct a; try reflexivity. do 6 (destruct p0; try reflexivity); contradiction.
Qed.
(** C118.  The arguments are only reordered: none is lost and none appears twice; optind stays within argv. *)
Theorem getopt_permutes : forall text c s a0 args, usable text c -> fresh s -> argv s = a0 :: args ->
  exists n l s', (forall fuel, (n <= fuel)%nat -> options text fuel c s = Ok (l, s')) /\ Permutation (argv s) (argv s') /\ hd 0 (argv s') = a0 /\ 1 <= optind s' <= zlen (argv s').
Proof.
  intros text c s a0 args U FR E. destruct (scan text (c_long c) (c_longind c) (fun first => if first then match c_os c with 45 :: t | 43 :: t => t | os => os end else c_os c) (treatment c) true args (see 0 s)) as [[l p] q] eqn:SC.
  destruct (getopt_scans_prefixed text c s a0 args U FR E l p q SC) as (n & s' & R & A & O).
  assert (P : Permutation args (p ++ q)).
  { assert (X : forall os m k args first e l p q, (length args <= k)%nat -> scan text (c_long c) (c_longind c) os m first args e = (l, p, q) -> Permutation args (p ++ q)); [clear|eapply X; [|exact SC]; constructor].
    intros os m. induction k as [|k IH]; intros [|x args] first e l p q L; cbn [length] in L; try lia; try (intros E; injection E as <- <- <-; constructor). cbn [scan]. destruct (ends_options (text x)); [intros E; injection E as <- <- <-; reflexivity|]. destruct (plain (text x)).
    - destruct m.
      + intros E. injection E as <- <- <-. reflexivity.
      + destruct (scan _ _ _ _ _ first args e) as [[l1 p1] q1] eqn:S1. intros E. injection E as <- <- <-. rewrite (IH args first e l1 p1 q1 ltac:(lia) S1). apply Permutation_middle.
      + cbv zeta. destruct (scan _ _ _ _ _ false args _) as [[l1 p1] q1] eqn:S1. intros E. injection E as <- <- <-. cbn. constructor. eapply IH; [|exact S1]. lia.
    - destruct (element text (c_long c) (c_longind c) os first x (hd_error args) e) as [ev took]. assert (ONE : forall l p q, (let '(l, p, n) := scan text (c_long c) (c_longind c) os m false args (last ev e) in (ev ++ l, x :: p, n)) = (l, p, q) -> Permutation (x :: args) (p ++ q)).
      { intros l0 p0 q0. destruct (scan _ _ _ _ _ false args _) as [[l1 p1] q1] eqn:S1. intros E. injection E as <- <- <-. cbn. constructor. eapply IH; [|exact S1]. lia. }
      destruct took; [|apply ONE]. destruct args as [|y args]; [apply ONE|]. destruct (scan _ _ _ _ _ false args _) as [[l1 p1] q1] eqn:S1. intros E. injection E as <- <- <-. cbn. do 2 constructor. eapply IH; [|exact S1]. cbn in L. lia. }
  exists n, l, s'. split; [exact R|]. rewrite A, E. split; [constructor; exact P|]. split; [reflexivity|]. rewrite O. cbn [length]. rewrite app_length. lia.
Qed.

From Coq Require Import Ascii String.
(** The characters of a string, for the examples. *)
Fixpoint chars (s : string) : list Z := match s with EmptyString => [] | String a s => let n := Z.of_nat (nat_of_ascii a) in (if 128 <=? n then n - 256 else n) :: chars s end.
(** Elements numbered from 0. *)
Definition elements (l : list string) (x : Z) : list Z := if x <? 0 then [] else nth (Z.to_nat x) (map chars l) [].
Open Scope string_scope. Open Scope Z_scope. Open Scope list_scope.
Lemma elements_ok l : forallb (fun s => forallb (fun z => negb (z =? 0)) (chars s) && (Z.of_nat (List.length (chars s)) <? 4294967296)) l = true -> forall x, ~ In 0 (elements l x) /\ zlen (elements l x) < 4294967296.
Proof.
  intros H x. unfold elements. destruct (x <? 0); [split; [auto|cbn; lia]|]. generalize (Z.to_nat x). clear x. induction l as [|s l IH]; intros [|n]; cbn [map nth]; try (split; [auto|cbn; lia]).
  - cbn in H. rewrite !andb_true_iff in H. destruct H as ((H1 & H2) & _). split; [|lia]. intros J. rewrite forallb_forall in H1. specialize (H1 0 J). discriminate.
  - apply IH. cbn in H. rewrite andb_true_iff in H. apply H.
Qed.
Definition ex_args : list string := ["prog"; "x"; "-ab"; "-ofile"; "y"; "-o"; "z"; "--len=3"; "--"; "-q"].
Definition ex_table : list lopt := [Lopt (chars "length") 1 0 76; Lopt (chars "lengthy") 0 4096 1; Lopt (chars "verbose") 0 0 86].
Definition ex_cfg : cfg := Cfg (chars "abo:") (Some ex_table) true false true false.
Lemma ex_usable : usable (elements ex_args) ex_cfg.
Proof.
  split; [apply elements_ok; reflexivity|]. split; [reflexivity|]. split.
  - intros a b E. assert (J : In 87 (c_os ex_cfg)) by (rewrite E; apply in_or_app; right; left; reflexivity). vm_compute in J. intuition discriminate.
  - split; [vm_compute; intuition discriminate|]. intros t o E J. injection E as <-. vm_compute in J. destruct J as [<- |[<- |[<- |[]]]]; split; cbn; try lia; discriminate.
Qed.
(** "x" and "y" go behind the options; "--len" is ambiguous, as "length" and "lengthy" are not the same. *)
Example getopt_scans_holds : exists n s', (forall fuel, (n <= fuel)%nat -> options (elements ex_args) fuel ex_cfg (gst0 [0; 1; 2; 3; 4; 5; 6; 7; 8; 9]) =
    Ok ([Ev 97 Null 63 0 []; Ev 98 Null 63 0 []; Ev 111 (At 3 2) 63 0 []; Ev 111 (At 6 0) 63 0 []; Ev 63 Null 0 0 []], s')) /\ argv s' = [0; 2; 3; 5; 6; 7; 8; 1; 4; 9] /\ optind s' = 7.
Proof.
  destruct (getopt_scans (elements ex_args) ex_cfg (gst0 [0; 1; 2; 3; 4; 5; 6; 7; 8; 9]) 0 [1; 2; 3; 4; 5; 6; 7; 8; 9] ex_usable (or_intror (conj eq_refl eq_refl)) eq_refl I
    [Ev 97 Null 63 0 []; Ev 98 Null 63 0 []; Ev 111 (At 3 2) 63 0 []; Ev 111 (At 6 0) 63 0 []; Ev 63 Null 0 0 []] [2; 3; 5; 6; 7; 8] [1; 4; 9] ltac:(vm_compute; reflexivity)) as (n & s' & H). exists n, s'. exact H.
Qed.
Example getopt_scans_prefixed_holds := getopt_scans_prefixed (elements ex_args) ex_cfg (gst0 [0; 1; 2; 3; 4; 5; 6; 7; 8; 9]) 0 [1; 2; 3; 4; 5; 6; 7; 8; 9] ex_usable (or_intror (conj eq_refl eq_refl)) eq_refl.
Example getopt_permutes_holds := getopt_permutes (elements ex_args) ex_cfg (gst0 [0; 1; 2; 3; 4; 5; 6; 7; 8; 9]) 0 [1; 2; 3; 4; 5; 6; 7; 8; 9] ex_usable (or_intror (conj eq_refl eq_refl)) eq_refl.
(** The long options: "--length" is exact though it begins "lengthy"; "--verb" is short for "verbose"; the flag of "lengthy" is set; the argument is the next element. *)
Example long_options_hold : exists s', options (elements ["prog"; "--length"; "5"; "--lengthy"; "--verb"; "--verb=1"]) 20 ex_cfg (gst0 [0; 1; 2; 3; 4; 5]) =
  Ok ([Ev 76 (At 2 0) 63 0 []; Ev 0 Null 63 1 [(4096, 1)]; Ev 86 Null 63 2 [(4096, 1)]; Ev 63 Null 86 2 [(4096, 1)]], s').
Proof. eexists. vm_compute. reflexivity. Qed.

(** C119.  The '+' or '-' that selects the treatment of non-options is passed over in the first call only: later calls take it for an option letter, and a ':' after it (asking for ':' as the answer to a missing
    argument) is seen by the first call only. *)
Theorem getopt_prefix_refuted : exists s1 s2 s3 s4 s5 s6,
  options (elements ["prog"; "-+"; "-+"]) 9 (Cfg (chars "+a") None false false false false) (gst0 [0; 1; 2]) = Ok ([Ev 63 Null 43 0 []; Ev 43 Null 43 0 []], s1) /\
  options (elements ["prog"; "--a"]) 9 (Cfg (chars "-a") None false false false false) (gst0 [0; 1]) = Ok ([Ev 63 Null 45 0 []; Ev 97 Null 45 0 []], s2) /\
  options (elements ["prog"; "-a"; "--a"]) 9 (Cfg (chars "-a") None false false false false) (gst0 [0; 1; 2]) = Ok ([Ev 97 Null 63 0 []; Ev 45 Null 63 0 []; Ev 97 Null 63 0 []], s3) /\
  options (elements ["prog"; "-a"]) 9 (Cfg (chars "+:a:b") None false false false false) (gst0 [0; 1]) = Ok ([Ev 58 Null 97 0 []], s4) /\
  options (elements ["prog"; "-b"; "-a"]) 9 (Cfg (chars "+:a:b") None false false false false) (gst0 [0; 1; 2]) = Ok ([Ev 98 Null 63 0 []; Ev 63 Null 97 0 []], s5) /\
  options (elements ["prog"; "-b"; "-a"]) 9 (Cfg (chars ":a:b") None false false false false) (gst0 [0; 1; 2]) = Ok ([Ev 98 Null 63 0 []; Ev 58 Null 97 0 []], s6).
Proof. do 6 eexists. do 5 (split; [vm_compute; reflexivity|]). vm_compute. reflexivity. Qed.

(** C120.  With "W;" in the option string and no long options, every -W that has an argument dereferences NULL. *)
Theorem getopt_w_null : forall text os pe posix s, (exists ch, chr text (nextchar s) = Ok ch /\ ch <> 0) \/ (chr text (nextchar s) = Ok 0 /\ 0 <= optind s < argc s) ->
  w_option text (Cfg os None false false pe posix) os pe 87 s = Undef NullDeref.
Proof.
  intros text os pe posix s [(ch & E & N)|(E & B)]; unfold w_option; rewrite E; cbn [bind].
  - destruct (Z.eqb_spec ch 0); [contradiction|]. reflexivity.
  - rewrite Z.eqb_refl. cbn [andb negb]. replace (optind s =? argc s) with false by lia. unfold rda. unfold argc in B. replace ((0 <=? optind s) && (optind s <? Z.of_nat (List.length (argv s)))) with true by lia. reflexivity.
Qed.
Example getopt_w_null_holds : options (elements ["prog"; "-Wx"]) 9 (Cfg (chars "aW;") None false false true false) (gst0 [0; 1]) = Undef NullDeref.
Proof. vm_compute. reflexivity. Qed.
(** C120.  An ambiguous "-W name" counts one element too many: the element after it is lost, and when it is the last, the next call reads beyond the end of argv. *)
Theorem getopt_w_refuted : exists s1,
  options (elements ["prog"; "-W"; "l"; "-a"; "-b"]) 9 (Cfg (chars "abW;") (Some ex_table) true false false false) (gst0 [0; 1; 2; 3; 4]) = Ok ([Ev 63 (At 2 0) 63 0 []; Ev 98 Null 63 0 []], s1) /\
  options (elements ["prog"; "-W"; "l"]) 9 (Cfg (chars "abW;") (Some ex_table) true false false false) (gst0 [0; 1; 2]) = Undef OobRead /\
  options (elements ["prog"; "-W"; "l"]) 9 (Cfg (chars "abW;") (Some ex_table) true false true false) (gst0 [0; 1; 2]) = Undef NullDeref /\
  options (elements ["prog"; "-Wx"; "-a"]) 9 (Cfg (chars "abW;") None false false false false) (gst0 [0; 1; 2]) = Undef NullDeref.
Proof. eexists. do 3 (split; [vm_compute; reflexivity|]). vm_compute. reflexivity. Qed.

(** C121.  With long_only, what follows a letter inside an element is taken for a long name: "-av" is 'a' and then "verbose"; an unknown letter there is reported without its letter. *)
Theorem getopt_long_only_refuted : exists s1 s2 s3,
  options (elements ["prog"; "-av"]) 9 (Cfg (chars "av") (Some ex_table) true true false false) (gst0 [0; 1]) = Ok ([Ev 97 Null 63 0 []; Ev 86 Null 63 2 []], s1) /\
  options (elements ["prog"; "-va"]) 9 (Cfg (chars "av") (Some [Lopt (chars "zoo") 0 0 90]) true true false false) (gst0 [0; 1]) = Ok ([Ev 118 Null 63 0 []; Ev 97 Null 63 0 []], s2) /\
  options (elements ["prog"; "-ax"]) 9 (Cfg (chars "av") (Some ex_table) true true false false) (gst0 [0; 1]) = Ok ([Ev 97 Null 63 0 []; Ev 63 Null 0 0 []], s3).
Proof. do 3 eexists. do 2 (split; [vm_compute; reflexivity|]). vm_compute. reflexivity. Qed.
(** C121.  Without long_only a short option letter is never taken for a long name: no element but one that begins "--" is looked up. *)
Theorem getopt_long_only_off : forall text c os s x t P r a b, c_only c = false -> argv s = (P ++ x :: r)%list -> optind s = zlen P -> text x = a :: b :: t -> b <> 45 -> is_long text c os s = Ok false.
Proof.
  intros text c os s x t P r a b O E I T N. unfold is_long. destruct (c_long c); [|reflexivity]. unfold elem_chr. rewrite E, I, rda_at. cbn [bind]. assert (CH : chr text (At x 1) = Ok b) by (unfold chr; rewrite T; cbn [List.length]; replace ((0 <=? 1) && (1 <? Z.of_nat (S (S (List.length t))))) with true by lia; reflexivity). rewrite CH. cbn [bind]. destruct (Z.eqb_spec b 45); [contradiction|]. rewrite O. reflexivity.
Qed.
Example getopt_long_only_off_holds := getopt_long_only_off (elements ex_args) ex_cfg (chars "abo:") (gst0 [0; 2]) 2 (chars "b") [0] [] 45 97 eq_refl eq_refl eq_refl eq_refl ltac:(lia).

(** C122.  An option letter with the code of (char) -1 ends the scan although more options follow. *)
Theorem getopt_minus_one_refuted : exists s', options (fun x => if x =? 1 then [45; -1] else if x =? 2 then [45; 97] else []) 9 (Cfg [97; -1] None false false true false) (gst0 [0; 1; 2]) = Ok ([], s') /\ optind s' = 2 /\ argv s' = [0; 1; 2].
Proof. eexists. split; [vm_compute; reflexivity|]. split; reflexivity. Qed.

Print Assumptions exchange_swaps_blocks.
Print Assumptions getopt_scans_prefixed.
Print Assumptions getopt_scans.
Print Assumptions getopt_permutes.
Print Assumptions getopt_prefix_refuted.
Print Assumptions getopt_w_null.
Print Assumptions getopt_w_refuted.
Print Assumptions getopt_long_only_refuted.
Print Assumptions getopt_long_only_off.
Print Assumptions getopt_minus_one_refuted.
