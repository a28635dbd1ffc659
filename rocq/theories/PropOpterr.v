(** opterr decides on messages only: include/compat/getopt.c 151, 470-474, 517-519, 683-1129.
    Simplified: nothing is printed.  The model has what a message reads where the scanner has not read it itself, which is argv[optind] of the message of 999-1016; the others print argv[0],
    the element at hand, its letter, or the name found in the table. *)
From Coq Require Import String Ascii.
From Verif Require Import BaseLemmas GetoptModel GetoptSpec GetoptFacts GetoptRun PropGetopt.
Import ListNotations.
Open Scope Z_scope.
Open Scope list_scope.
(** The option string does not have "W;" in it (the test of include/compat/getopt.c 916). *)
Definition no_w (os : list Z) := forall a b, os <> a ++ 87 :: 59 :: b.

Section Opterr.
Variable text : Z -> list Z.
Variables (osx : list Z) (l : option (list lopt)) (li on px : bool).
Notation C e := (Cfg osx l li on e px).
Lemma w_opterr os pe ch s r : w_option text (C true) os pe ch s = Ok r -> w_option text (C false) os false ch s = Ok r.
Proof.
  unfold w_option. cbn [c_long]. destruct (chr text (nextchar s)) as [n| | |]; cbn [bind]; try discriminate. destruct (_ && _); [exact (fun H => H)|].
  match goal with |- bind ?x _ = _ -> _ => destruct x as [s1| | |] end; cbn [bind]; try discriminate. destruct l as [tbl|]; [|discriminate].
  match goal with |- context [search ?a ?b ?d ?e ?f ?g ?h ?i] => destruct (search a b d e f g h i) as [[[[p|] i'] [|]] [|]] end; try exact (fun H => H);
    (destruct pe; cbn [bind]; [|exact (fun H => H)]; destruct (rda _ _); cbn [bind]; [exact (fun H => H)|discriminate..]).
Qed.
Lemma short_opterr os pe s r : short_option text (C true) os pe s = Ok r -> short_option text (C false) os false s = Ok r.
Proof.
  unfold short_option. destruct (chr text (nextchar s)) as [ch| | |]; cbn [bind]; try discriminate. match goal with |- bind ?x _ = _ -> _ => destruct x as [n| | |] end; cbn [bind]; try discriminate.
  destruct (my_index os ch); [|exact (fun H => H)]. destruct (ch =? 58); [exact (fun H => H)|]. destruct (_ && _); [apply w_opterr|exact (fun H => H)].
Qed.
Lemma decode_opterr os pe s r : decode text (C true) os pe s = Ok r -> decode text (C false) os false s = Ok r.
Proof.
  unfold decode. change (is_long text (C false) os s) with (is_long text (C true) os s). destruct (is_long text (C true) os s) as [b| | |]; cbn [bind]; try discriminate. cbn [c_long].
  pose proof (short_opterr os pe s r) as H. destruct l as [tbl|]; [|exact H]. destruct b; [|exact H]. change (long_option text (Cfg osx (Some tbl) li on false px) os tbl s) with (long_option text (Cfg osx (Some tbl) li on true px) os tbl s).
  match goal with |- bind ?x _ = _ -> _ => destruct x as [[q|]| | |] end; cbn [bind]; try discriminate; [exact (fun H => H)|exact H].
Qed.
Lemma scan_opterr os pe s r : scan_call text (C true) os pe s = Ok r -> scan_call text (C false) os false s = Ok r.
Proof.
  unfold scan_call. destruct (at_end text s) as [b| | |]; cbn [bind]; try discriminate. destruct b; [|apply decode_opterr]. change (advance text (C false) s) with (advance text (C true) s).
  destruct (advance text (C true) s) as [[[q|] s']| | |]; cbn [bind]; try discriminate; [exact (fun H => H)|apply decode_opterr].
Qed.
Lemma index_suffix os : forall ch t, my_index os ch = Some t -> exists a, os = a ++ t.
Proof. induction os as [|x os IH]; [discriminate|]. intros ch t. cbn. destruct (x =? ch); [intros E; injection E as <-; exists []; reflexivity|]. intros E. destruct (IH _ _ E) as (a & ->). exists (x :: a). reflexivity. Qed.
Lemma short_same os pe s : no_w os -> short_option text (C true) os pe s = short_option text (C false) os false s.
Proof.
  intros W. unfold short_option. destruct (chr text (nextchar s)) as [ch| | |]; cbn [bind]; try reflexivity. match goal with |- bind ?x _ = _ => destruct x as [n| | |] end; cbn [bind]; try reflexivity.
  destruct (my_index os ch) as [t|] eqn:I; [|reflexivity]. destruct (ch =? 58); [reflexivity|]. destruct ((hd0 t =? 87) && (hd0 (tl t) =? 59)) eqn:B; [|reflexivity]. exfalso. apply andb_prop in B. destruct B as (B1 & B2). apply Z.eqb_eq in B1, B2.
  destruct (index_suffix os ch t I) as (a & A). destruct t as [|x [|y t]]; cbn in B1, B2; try discriminate. subst x y. exact (W a t A).
Qed.
Lemma decode_same os pe s : no_w os -> decode text (C true) os pe s = decode text (C false) os false s.
Proof.
  intros W. unfold decode. change (is_long text (C false) os s) with (is_long text (C true) os s). destruct (is_long text (C true) os s) as [b| | |]; cbn [bind]; try reflexivity. cbn [c_long].
  pose proof (short_same os pe s W) as H. destruct l as [tbl|]; [|exact H]. destruct b; [|exact H]. change (long_option text (Cfg osx (Some tbl) li on false px) os tbl s) with (long_option text (Cfg osx (Some tbl) li on true px) os tbl s).
  match goal with |- bind ?x _ = _ => destruct x as [[q|]| | |] end; cbn [bind]; try reflexivity. exact H.
Qed.
Lemma scan_same os pe s : no_w os -> scan_call text (C true) os pe s = scan_call text (C false) os false s.
Proof.
  intros W. unfold scan_call. destruct (at_end text s) as [b| | |]; cbn [bind]; try reflexivity. destruct b; [|apply decode_same; exact W]. change (advance text (C false) s) with (advance text (C true) s).
  destruct (advance text (C true) s) as [[[q|] s']| | |]; cbn [bind]; try reflexivity. apply decode_same. exact W.
Qed.
End Opterr.
(** C151.  Whatever a call of getopt, getopt_long or getopt_long_only gives with opterr set, it gives without it too: the value, every variable and the order of argv.
    The property says equal outcomes; missing is the converse, which getopt_opterr_refuted shows to be false. *)
Theorem getopt_opterr_partial : forall text os l li on px s r, getopt_internal text (Cfg os l li on true px) s = Ok r -> getopt_internal text (Cfg os l li on false px) s = Ok r.
Proof.
  intros text os l li on px s r. unfold getopt_internal. destruct (argc s <? 1); [exact (fun H => H)|]. cbn [c_os c_opterr]. replace (if hd0 os =? 58 then false else false) with false by (destruct (hd0 os =? 58); reflexivity).
  destruct ((optind (set_optarg Null s) =? 0) || negb (inited (set_optarg Null s))); [|apply scan_opterr]. set (s1 := if optind (set_optarg Null s) =? 0 then _ else _). clearbody s1. change (initialize (Cfg os l li on false px) s1) with (initialize (Cfg os l li on true px) s1).
  destruct (initialize (Cfg os l li on true px) s1). apply scan_opterr.
Qed.
(** C151.  Without "W;" in the option string opterr makes no difference at all, whatever the call does. *)
Theorem getopt_opterr_plain : forall text os l li on px s, no_w os -> getopt_internal text (Cfg os l li on true px) s = getopt_internal text (Cfg os l li on false px) s.
Proof.
  intros text os l li on px s W. unfold getopt_internal. destruct (argc s <? 1); [reflexivity|]. cbn [c_os c_opterr]. replace (if hd0 os =? 58 then false else false) with false by (destruct (hd0 os =? 58); reflexivity).
  destruct ((optind (set_optarg Null s) =? 0) || negb (inited (set_optarg Null s))); [|apply scan_same; exact W]. set (s1 := if optind (set_optarg Null s) =? 0 then _ else _). clearbody s1. change (initialize (Cfg os l li on false px) s1) with (initialize (Cfg os l li on true px) s1).
  destruct (initialize (Cfg os l li on true px) s1) as (o, s2) eqn:I. apply scan_same. unfold initialize in I. cbn [c_os] in I. injection I as I _. subst o. destruct ((hd0 os =? 45) || (hd0 os =? 43)); [|exact W]. destruct os as [|x os]; [exact W|]. intros a b E. cbn [tl] in E. apply (W (x :: a) b). rewrite E. reflexivity.
Qed.
(** C151.  An ambiguous name behind the last -W: with opterr set the message reads the element behind it, which is NULL; without it the call reports '?'. *)
Theorem getopt_opterr_refuted : exists text os l s r, getopt_internal text (Cfg os l true false true false) s = Undef NullDeref /\ getopt_internal text (Cfg os l true false false false) s = Ok r /\ fst r = 63.
Proof. exists (elements ["prog"; "-W"; "l"]%string), (chars "abW;"), (Some ex_table), (gst0 [0; 1; 2]). eexists. split; [vm_compute; reflexivity|]. split; [vm_compute; reflexivity|reflexivity]. Qed.
(** An unknown letter, reported either way; a string with a 'W' that is no "W;". *)
Example getopt_opterr_holds : no_w (chars "aW:") /\ match getopt_internal (elements ["prog"; "-x"]%string) (Cfg (chars "aW:") None false false true false) (gst0 [0; 1]) with Ok (r, s) => r = 63 /\ optopt s = 120 | _ => False end.
Proof.
  split; [|vm_compute; split; reflexivity]. intros a b E. change (chars "aW:") with [97; 87; 58] in E. destruct a as [|x [|y [|z a]]]; try discriminate E. apply (f_equal (@length Z)) in E. cbn [app length] in E. rewrite app_length in E. cbn [length] in E. lia.
Qed.
Print Assumptions getopt_opterr_partial.
Print Assumptions getopt_opterr_plain.
Print Assumptions getopt_opterr_refuted.
