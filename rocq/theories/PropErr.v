(** C150: err, errx, warn and warnx (ErrModel.v). *)
From Verif Require Import Base BaseLemmas ErrModel.
Import ListNotations.

(** err(3): the text of a message: the name of the program, the message of the caller and that of the error, separated by ": ", and a newline. *)
Definition parts (l : list (list Z)) : list Z := match l with [] => [10] | t :: l => t ++ flat_map (fun t => [58; 32] ++ t) l ++ [10] end.
(** What is asked for: by err and warn with the error, by errx and warnx without it. *)
Definition asked (fmt error : option (list Z)) : list (list Z) :=
  match fmt with Some m => [m] | None => [] end ++ match error with Some e => [e] | None => [] end.

(** C150: whatever the printing functions leave in errno, err and warn print the message of the error at the call, errx and warnx none; warn and warnx return, err and errx end the program with
    the low byte of the status. The name of the program is not printed. *)
Theorem err_text_partial : forall L fmt eval p, let e := strerror L (errno p) in
  printed (err L eval fmt p) = printed p ++ parts (asked fmt (Some e)) /\ ended (err L eval fmt p) = Some (eval mod 256) /\
  printed (warn L fmt p) = printed p ++ parts (asked fmt (Some e)) /\ ended (warn L fmt p) = ended p /\
  printed (errx L eval fmt p) = printed p ++ parts (asked fmt None) /\ ended (errx L eval fmt p) = Some (eval mod 256) /\
  printed (warnx L fmt p) = printed p ++ parts (asked fmt None) /\ ended (warnx L fmt p) = ended p.
Proof.
  intros L fmt eval p e. subst e. destruct fmt as [m|]; cbn -[u8]; unfold newline, colon; rewrite <- ?app_assoc; repeat split; reflexivity.
Qed.
(** C150, the text of err(3): refuted, the name of the program is missing from every message, whatever it is. *)
Theorem err_name_missing : forall L name fmt p, name <> [] -> printed (warn L fmt p) <> printed p ++ parts (name :: asked fmt (Some (strerror L (errno p)))).
Proof.
  intros L name fmt p N H. destruct (err_text_partial L fmt 0 p) as (_ & _ & W & _). cbv zeta in W. rewrite W in H. apply app_inv_head in H. apply (f_equal (@length Z)) in H.
  destruct name as [|c name]; [destruct (N eq_refl)|]. destruct fmt as [m|]; cbn in H; rewrite ?app_length in H; cbn in H; rewrite ?app_length in H; cbn in H; rewrite ?app_length in H; cbn in H; lia.
Qed.
(** C150 is refuted: "prog: f: no such file". *)
Theorem err_name_refuted : exists L name fmt p, name <> [] /\ printed p = [] /\ printed (warn L fmt p) = [102; 58; 32; 69; 10] /\
  parts (name :: asked fmt (Some (strerror L (errno p)))) = [112; 58; 32; 102; 58; 32; 69; 10].
Proof. exists (Lib (fun e => if e =? 2 then [69] else [63]) (fun _ => 25)), [112], (Some [102]), (Prog [] 2 None). repeat split. discriminate. Qed.
(** err with a status of 257 while printing changes errno. *)
Example err_run : err (Lib (fun e => if e =? 2 then [69] else [63]) (fun _ => 25)) 257 (Some [102]) (Prog [1] 2 None) = Prog [1; 102; 58; 32; 69; 10] 25 (Some 1).
Proof. reflexivity. Qed.
Print Assumptions err_text_partial.
Print Assumptions err_name_missing.
Print Assumptions err_name_refuted.
