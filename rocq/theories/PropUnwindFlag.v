(** C143: the last message of a program (UnwindFlagModel.v). *)
From Verif Require Import Base BaseLemmas UnwindFlagModel.
Import ListNotations.

(** A pointer that the loop cannot tell from the end: the first one NULL, or one with the value the previous variable has after its release. *)
Fixpoint distinct (prev : Z) (l : list prot) : Prop :=
  match l with [] => True | p :: l => p_type p = true /\ p_value p <> prev /\ distinct (if p_value p =? 0 then 0 else p_after p) l end.
(** [stuck prev l]: some pointer cannot be told, all before it can be and are released without a throw. *)
Inductive stuck : Z -> list prot -> Prop :=
  | stuck_here : forall prev p l, p_type p = true -> p_value p = prev -> stuck prev (p :: l)
  | stuck_later : forall prev p l, p_type p = true -> p_value p <> prev -> (p_value p <> 0 -> p_throws p = false) -> stuck (if p_value p =? 0 then 0 else p_after p) l -> stuck prev (p :: l).
(** The flag an unwinding of pointers leaves. *)
Lemma loop_flag l : forall prev flag f r, unwind_loop prev flag l = (f, r, false) ->
  (f = true <-> stuck prev l \/ (flag = true /\ match l with [] => True | p :: _ => p_type p = false end)).
Proof.
  induction l as [|p l IH]; intros prev flag f r H; cbn [unwind_loop] in H.
  - injection H as <- <-. split; [intros ->; right; split; [reflexivity|exact I]|intros [N|[F _]]; [inversion N|exact F]].
  - destruct (p_type p) eqn:T; cbn [negb] in H.
    2: { injection H as <- <-. split; [intros ->; right; split; reflexivity|]. intros [N|[F _]]; [inversion N; congruence|exact F]. }
    destruct (prev =? p_value p) eqn:E.
    + injection H as <- <-. split; [intros _; left; apply Z.eqb_eq in E; constructor; [exact T|symmetry; exact E]|reflexivity].
    + apply Z.eqb_neq in E. assert (P : p_value p <> prev) by congruence.
      assert (K : forall nx g r', unwind_loop nx false l = (g, r', false) -> nx = (if p_value p =? 0 then 0 else p_after p) -> (p_value p <> 0 -> p_throws p = false) -> (g = true <-> stuck prev (p :: l) \/ (flag = true /\ true = false))).
      { intros nx g r' H' -> NT. rewrite (IH _ _ _ _ H'). split.
        - intros [S|[F _]]; [left; apply stuck_later; assumption|discriminate F].
        - intros [S|[_ F]]; [|discriminate F]. left. inversion S; subst; [congruence|assumption]. }
      destruct (p_value p =? 0) eqn:Z0.
      * apply (K 0 f r H); [reflexivity|]. apply Z.eqb_eq in Z0. congruence.
      * destruct (p_throws p) eqn:TH; [discriminate H|]. destruct (unwind_loop (p_after p) false l) as [[g r'] t'] eqn:R. injection H as <- <- ->. exact (K (p_after p) g r' R eq_refl (fun _ => eq_refl)).
Qed.

(** Throws in a release function: what the message should be about. *)
Definition release_throws (l : list throwing) : Prop := exists l1 t l2, l = l1 ++ t :: l2 /\ Forall (fun t => t_caught t = true) l1 /\
  (forall flag, exists f r, ex_unwind_stack flag (t_unwinds t) = (f, r, true)) /\ Forall (fun t => forall flag, snd (ex_unwind_stack flag (t_unwinds t)) = false) l1.
(** Whether the loop throws does not depend on the flag. *)
Lemma threw_flag u f1 f2 : snd (ex_unwind_stack f1 u) = snd (ex_unwind_stack f2 u).
Proof. destruct u as [t|l]; [reflexivity|]. cbn [ex_unwind_stack]. destruct l as [|p l]; [reflexivity|]. cbn [unwind_loop]. destruct (negb (p_type p)); [reflexivity|]. destruct (0 =? p_value p); reflexivity. Qed.
(** C143, first half: an exception out of a release function always ends the program with the message about unwinding. *)
Theorem unwinding_reported : forall l flag, release_throws l -> exists f r, program flag l = (f, r, Some DuringUnwinding).
Proof.
  intros l flag (l1 & t & l2 & -> & C & T & N). revert flag. induction l1 as [|a l1 IH]; intros flag; cbn [app program].
  - destruct (T flag) as (f & r & ->). exists f, r. reflexivity.
  - inversion C as [|? ? CA C']; inversion N as [|? ? NA N']; subst. pose proof (NA flag) as NF. destruct (ex_unwind_stack flag (t_unwinds a)) as [[f r] th]. cbn [snd] in NF. subst th. rewrite CA. destruct (IH C' N' f) as (f' & r' & ->). exists f', (r ++ r'). reflexivity.
Qed.
(** The flag after unwindings without throws in them: that of the last one that looked at a pointer. *)
Fixpoint flag_after (flag : Prop) (l : list throwing) : Prop :=
  match l with
  | [] => flag
  | t :: l => flag_after (match t_unwinds t with Deferred _ => flag | Pointers [] => flag | Pointers (p :: q) => stuck 0 (p :: q) \/ (flag /\ p_type p = false) end) l
  end.
(** Equivalent starts give equivalent ends. *)
Lemma flag_after_iff l : forall A B : Prop, (A <-> B) -> (flag_after A l <-> flag_after B l).
Proof. induction l as [|t l IH]; intros A B H; [exact H|]. cbn [flag_after]. apply IH. destruct (t_unwinds t) as [|[|]]; tauto. Qed.
(** C143, the other exceptions exactly: when an exception that nothing takes ends the program, and no release function throws, the message is about unwinding if and only if the last
    exception of the program that found a protected pointer met one that is NULL in the first place or has the value of the variable released before it. *)
Theorem message_exact : forall l t flag, Forall (fun t => t_caught t = true) l -> t_caught t = false -> Forall (fun t => snd (ex_unwind_stack false (t_unwinds t)) = false) (l ++ [t]) ->
  exists f r m, program flag (l ++ [t]) = (f, r, Some m) /\ (m = DuringUnwinding <-> flag_after (flag = true) (l ++ [t])).
Proof.
  intros l t flag C U N.
  assert (ST : forall flag u f r, ex_unwind_stack flag u = (f, r, false) -> (f = true <-> match u with Deferred _ => flag = true | Pointers [] => flag = true | Pointers (p :: q) => stuck 0 (p :: q) \/ (flag = true /\ p_type p = false) end)).
  { intros fl [d|q] f r H; cbn [ex_unwind_stack] in H; [injection H as <- _ _; tauto|]. destruct q as [|p q]; [injection H as <- _; tauto|]. exact (loop_flag _ _ _ _ _ H). }
  revert flag. induction l as [|a l IH]; intros flag; cbn [app program flag_after] in *.
  - inversion N as [|? ? NT _]; subst. rewrite (threw_flag _ false flag) in NT. destruct (ex_unwind_stack flag (t_unwinds t)) as [[f r] th] eqn:E. cbn [snd] in NT. subst th. rewrite U. exists f, r, (ex_terminate false f). split; [reflexivity|].
    rewrite <- (ST _ _ _ _ E). unfold ex_terminate. cbn [orb]. destruct f; split; congruence.
  - inversion C as [|? ? CA C']; inversion N as [|? ? NA N']; subst. rewrite (threw_flag _ false flag) in NA. destruct (ex_unwind_stack flag (t_unwinds a)) as [[f r] th] eqn:E. cbn [snd] in NA. subst th. rewrite CA. destruct (IH C' N' f) as (f' & r' & m & -> & M). exists f', (r ++ r'), m. split; [reflexivity|]. rewrite M. apply flag_after_iff. exact (ST _ _ _ _ E).
Qed.
(** C143: with protected pointers that are all different from the one before, and the first one not NULL, the message is right. *)
Theorem message_right_partial : forall l t, Forall (fun t => t_caught t = true) l -> t_caught t = false -> Forall (fun t => snd (ex_unwind_stack false (t_unwinds t)) = false) (l ++ [t]) ->
  Forall (fun t => match t_unwinds t with Deferred _ => True | Pointers q => distinct 0 q end) (l ++ [t]) -> exists f r, program false (l ++ [t]) = (f, r, Some Uncaught).
Proof.
  intros l t C U N D. destruct (message_exact l t false C U N) as (f & r & m & R & M). exists f, r. rewrite R. destruct m; [|reflexivity]. exfalso.
  assert (NS : forall q prev, distinct prev q -> ~ stuck prev q). { induction q as [|p q IH]; intros prev HD HS; inversion HS; subst; cbn [distinct] in HD; destruct HD as (A & B & HD); [congruence|]. exact (IH _ HD H5). }
  assert (K : forall (P : Prop) ll, ~ P -> Forall (fun t => match t_unwinds t with Deferred _ => True | Pointers q => distinct 0 q end) ll -> ~ flag_after P ll).
  { intros P ll NP HD. revert P NP. induction HD as [|a ll HA HD IH]; intros P NP; [exact NP|]. cbn [flag_after]. apply IH. destruct (t_unwinds a) as [|[|p q]]; [exact NP|exact NP|]. intros [S|[F _]]; [exact (NS _ _ HA S)|exact (NP F)]. }
  apply (K (false = true) (l ++ [t])); [discriminate|exact D|]. apply M. reflexivity.
Qed.
(** The values that should be released: those that are not NULL, in order. *)
Definition to_release (t : throwing) : list Z := match t_unwinds t with Deferred _ => [] | Pointers q => filter (fun v => negb (v =? 0)) (map p_value q) end.
(** One unwinding releases them. *)
Lemma loop_releases q : forall prev flag f r, distinct prev q -> unwind_loop prev flag q = (f, r, false) -> r = filter (fun v => negb (v =? 0)) (map p_value q).
Proof.
  induction q as [|p q IH]; intros prev flag f r D H; cbn [unwind_loop] in H; [injection H as _ <-; reflexivity|]. cbn [distinct] in D. destruct D as (T & N & D). rewrite T in H. cbn [negb] in H.
  destruct (prev =? p_value p) eqn:E; [apply Z.eqb_eq in E; congruence|]. cbn [map filter]. destruct (p_value p =? 0) eqn:Z0; cbn [negb].
  - exact (IH _ _ _ _ D H).
  - destruct (p_throws p); [discriminate H|]. destruct (unwind_loop (p_after p) false q) as [[g r'] t'] eqn:R. injection H as _ <- ->. f_equal. exact (IH _ _ _ _ D R).
Qed.
(** C143, what is released: under the same conditions on the pointers the exceptions of a program, handled or not, release every pointer that is not NULL, each once and in order, up to
    the exception that ends the program. *)
Theorem message_releases : forall l t flag, Forall (fun t => t_caught t = true) l -> Forall (fun t => snd (ex_unwind_stack false (t_unwinds t)) = false) (l ++ [t]) ->
  Forall (fun t => match t_unwinds t with Deferred _ => True | Pointers q => distinct 0 q end) (l ++ [t]) -> exists f m, program flag (l ++ [t]) = (f, flat_map to_release (l ++ [t]), m) /\ (m = None <-> t_caught t = true).
Proof.
  intros l t flag C N D.
  assert (ST : forall a flag f r, match t_unwinds a with Deferred _ => True | Pointers q => distinct 0 q end -> ex_unwind_stack flag (t_unwinds a) = (f, r, false) -> r = to_release a).
  { intros a fl f r HD H. unfold to_release. destruct (t_unwinds a) as [d|q]; cbn [ex_unwind_stack] in H; [injection H as _ <- _; reflexivity|]. exact (loop_releases _ _ _ _ _ HD H). }
  revert flag. induction l as [|a l IH]; intros flag; cbn [app program flat_map] in *.
  - inversion N as [|? ? NT _]; inversion D as [|? ? DT _]; subst. rewrite (threw_flag _ false flag) in NT. destruct (ex_unwind_stack flag (t_unwinds t)) as [[f r] th] eqn:E. cbn [snd] in NT. subst th. rewrite (ST _ _ _ _ DT E), app_nil_r.
    destruct (t_caught t); eexists _, _; (split; [reflexivity|]); split; congruence.
  - inversion C as [|? ? CA C']; inversion N as [|? ? NA N']; inversion D as [|? ? DA D']; subst. rewrite (threw_flag _ false flag) in NA. destruct (ex_unwind_stack flag (t_unwinds a)) as [[f r] th] eqn:E. cbn [snd] in NA. subst th. rewrite CA, (ST _ _ _ _ DA E). destruct (IH C' N' D' f) as (f' & m & -> & M). exists f', m. split; [reflexivity|exact M].
Qed.
(** C143 is refuted: no release function throws, but a NULL pointer was protected when an earlier exception was thrown and handled (or when the last one was), and the program says
    that an exception was thrown during unwinding; the other protected pointer is not released. *)
Theorem message_refuted : exists l l', program false l = (true, [], Some DuringUnwinding) /\ program false l' = (true, [9], Some DuringUnwinding) /\
  l = [Throwing (Pointers [Prot true 0 0 false; Prot true 9 9 false]) true; Throwing (Deferred false) false] /\ l' = [Throwing (Pointers [Prot true 9 0 false; Prot true 0 0 false]) false].
Proof. eexists _, _. split; [|split; [|split; reflexivity]]; reflexivity. Qed.
(** The hypotheses: a release function that throws; two programs without. *)
Example message_holds : release_throws [Throwing (Pointers [Prot true 5 5 false]) true; Throwing (Pointers [Prot true 7 7 false; Prot true 8 8 true]) true; Throwing (Deferred false) false] /\
  program false [Throwing (Pointers [Prot true 5 5 false]) true; Throwing (Pointers [Prot true 7 7 false; Prot true 0 0 false; Prot true 8 8 false]) false] = (false, [5; 7; 8], Some Uncaught) /\
  distinct 0 [Prot true 7 7 false; Prot true 0 0 false; Prot true 8 8 false] /\ stuck 0 [Prot true 7 7 false; Prot true 7 7 false].
Proof.
  split; [|split; [reflexivity|split; [cbn; repeat split; discriminate|apply stuck_later; [reflexivity|discriminate|reflexivity|apply stuck_here; reflexivity]]]].
  exists [Throwing (Pointers [Prot true 5 5 false]) true], (Throwing (Pointers [Prot true 7 7 false; Prot true 8 8 true]) true), [Throwing (Deferred false) false]. split; [reflexivity|]. split; [repeat constructor|]. split; [intros flag; exists false, [7; 8]; reflexivity|]. constructor; [intros [|]; reflexivity|constructor].
Qed.

Print Assumptions unwinding_reported.
Print Assumptions message_exact.
Print Assumptions message_right_partial.
Print Assumptions message_releases.
Print Assumptions message_refuted.
