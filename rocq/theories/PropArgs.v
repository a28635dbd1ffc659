(** C50, C51: argument packs. *)
From Verif Require Import BaseLemmas ArgsModel SpecDefer DeferProofs PropDefer.

(** ** Specification *)

(** What the caller means to pass for a letter: the C value of the parameter's type, and the register slot that carries it. Of a 32-bit
    argument the upper half of the slot is arbitrary. *)
Definition passes (m : amem) (c v : Z) (a : varg) : Prop :=
  match a with
  | ADouble w => c = c_f /\ v = w /\ 0 <= w < 2 ^ 64
  | AWord w =>
      0 <= w < 2 ^ 64 /\
      ((c = c_i /\ - 2 ^ 31 <= v < 2 ^ 31 /\ w mod 2 ^ 32 = v mod 2 ^ 32) \/
       (c = c_c /\ - 128 <= v < 128 /\ w mod 2 ^ 32 = v mod 2 ^ 32) \/
       (c = c_u /\ 0 <= v < 2 ^ 32 /\ w mod 2 ^ 32 = v) \/
       ((c = c_l \/ c = c_d) /\ - 2 ^ 63 <= v < 2 ^ 63 /\ w = v mod 2 ^ 64) \/
       ((c = c_z \/ c = c_a \/ c = c_x) /\ v = w) \/
       (c = c_s /\ v = w /\ slen m w <= 272))
  end.
(** Reading the slot back through the member for the letter. *)
Definition reads (c slot : Z) : Z :=
  if c =? c_i then as_int slot else if c =? c_c then as_schar slot else if c =? c_u then as_uint slot
  else if (c =? c_l) || (c =? c_d) then as_long slot else slot.

(** ** C50 *)
Lemma mod_sub a b m n : 0 < m -> 0 < n -> (n | m) -> a mod m = b mod m -> a mod n = b mod n.
Proof. intros Hm Hn D H. rewrite (Znumtheory.Zmod_div_mod n m a Hn Hm D), H, <- (Znumtheory.Zmod_div_mod n m b Hn Hm D). reflexivity. Qed.
Lemma step_ok m c v a l : passes m c v a -> exists s, arg_step c (a :: l) m = Ok (s, l, m) /\ reads c s = v /\ 0 <= s < 2 ^ 64.
Proof.
  unfold passes. destruct a as [w|w].
  - intros (W & [(-> & V & H)|[(-> & V & H)|[(-> & V & H)|[([-> | ->] & V & H)|[([-> |[-> | ->]] & V)|(-> & V & H)]]]]]);
      unfold arg_step, reads; cbn [Z.eqb Pos.eqb c_l c_z c_u c_i c_d c_c c_s c_a c_x c_f c_p orb next_word bind];
      (eexists; split; [try reflexivity|]).
    + split; [|unfold u32; pose proof (Z.mod_pos_bound w 4294967296); lia]. unfold as_int, u32. rewrite Z.mod_mod by lia. change 4294967296 with (2 ^ 32). rewrite H. change (2 ^ 32) with 4294967296 in *. change (2 ^ 31) with 2147483648 in V.
      destruct (Z_lt_le_dec v 0).
      * replace (v mod 4294967296) with (v + 4294967296) by (apply (Z.mod_unique _ _ (-1)); lia). destruct (Z.ltb_spec (v + 4294967296) 2147483648); lia.
      * rewrite Z.mod_small by lia. destruct (Z.ltb_spec v 2147483648); lia.
    + split; [|pose proof (Z.mod_pos_bound w 256); lia]. unfold as_schar. rewrite Z.mod_mod by lia.
      rewrite (mod_sub w v (2 ^ 32) 256); [|lia|lia|exists 16777216; reflexivity|exact H].
      destruct (Z_lt_le_dec v 0).
      * replace (v mod 256) with (v + 256) by (apply (Z.mod_unique _ _ (-1)); lia). destruct (Z.ltb_spec (v + 256) 128); lia.
      * rewrite Z.mod_small by lia. destruct (Z.ltb_spec v 128); lia.
    + split; [|unfold u32; pose proof (Z.mod_pos_bound w 4294967296); lia]. unfold as_uint, u32. rewrite Z.mod_mod by lia. exact H.
    + split; [|unfold u64; pose proof (Z.mod_pos_bound w 18446744073709551616); lia]. unfold as_long, u64. rewrite Z.mod_mod by lia. rewrite H. change (2 ^ 64) with 18446744073709551616. rewrite Z.mod_mod by lia. change (2 ^ 63) with 9223372036854775808 in V.
      destruct (Z_lt_le_dec v 0).
      * replace (v mod 18446744073709551616) with (v + 18446744073709551616) by (apply (Z.mod_unique _ _ (-1)); lia). destruct (Z.ltb_spec (v + 18446744073709551616) 9223372036854775808); lia.
      * rewrite Z.mod_small by lia. destruct (Z.ltb_spec v 9223372036854775808); lia.
    + split; [|unfold u64; pose proof (Z.mod_pos_bound w 18446744073709551616); lia]. unfold as_long, u64. rewrite Z.mod_mod by lia. rewrite H. change (2 ^ 64) with 18446744073709551616. rewrite Z.mod_mod by lia. change (2 ^ 63) with 9223372036854775808 in V.
      destruct (Z_lt_le_dec v 0).
      * replace (v mod 18446744073709551616) with (v + 18446744073709551616) by (apply (Z.mod_unique _ _ (-1)); lia). destruct (Z.ltb_spec (v + 18446744073709551616) 9223372036854775808); lia.
      * rewrite Z.mod_small by lia. destruct (Z.ltb_spec v 9223372036854775808); lia.
    + unfold u64. rewrite Z.mod_small by lia. subst v. split; [reflexivity|lia].
    + unfold u64. rewrite Z.mod_small by lia. subst v. split; [reflexivity|lia].
    + unfold u64. rewrite Z.mod_small by lia. subst v. split; [reflexivity|lia].
    + unfold VALUES_SIZE. destruct (Z.ltb_spec 272 (slen m w)); [lia|reflexivity].
    + unfold u64. rewrite Z.mod_small by lia. subst v. split; [reflexivity|lia].
  - intros (-> & -> & W). exists w. unfold arg_step, reads. cbn [Z.eqb Pos.eqb c_l c_z c_u c_i c_d c_c c_s c_a c_x c_f c_p orb next_double bind]. unfold u64. rewrite Z.mod_small by lia. auto.
Qed.

(** All letters except p, strings of at most 272 characters: the pack has one slot per letter and each argument is read back unchanged. *)
Theorem args_roundtrip_partial : forall m desc vs args, Forall2 (fun cv a => passes m (fst cv) (snd cv) a) (combine desc vs) args -> length vs = length desc -> Z.of_nat (length desc) < 2 ^ 31 ->
  exists slots, raii_args_ex desc args m = Ok (slots, m) /\ length slots = length desc /\
    forall i c v, nth_error desc i = Some c -> nth_error vs i = Some v -> exists s, args_in slots (Z.of_nat i) = Ok s /\ reads c s = v.
Proof.
  intros m desc vs args H L Hn.
  assert (Q : exists slots, raii_args_ex desc args m = Ok (slots, m) /\ length slots = length desc /\ forall i c v, nth_error desc i = Some c -> nth_error vs i = Some v -> exists s, nth_error slots i = Some s /\ reads c s = v).
  { clear Hn. revert vs args H L. induction desc as [|c desc IH]; intros vs args H L; destruct vs as [|v vs]; try discriminate.
    - exists []. split; [reflexivity|]. split; [reflexivity|]. intros [|i] ? ?; discriminate.
    - cbn [combine] in H. inversion H as [|? a ? args' P H']; subst. cbn [fst snd] in P. destruct (step_ok m c v a args' P) as (s & E & R & _).
      destruct (IH vs args' H') as (slots & Es & Ls & Rs); [cbn [length] in L; lia|]. exists (s :: slots). cbn [raii_args_ex]. rewrite E. cbn [bind]. rewrite Es. cbn [bind]. split; [reflexivity|]. split; [cbn [length]; lia|].
      intros [|i] c' v'; cbn [nth_error]; [intros [= <-] [= <-]; eauto|apply Rs]. }
  destruct Q as (slots & E & Ls & R). exists slots. split; [exact E|]. split; [exact Ls|]. intros i c v Hc Hv. destruct (R i c v Hc Hv) as (s & Es & Rs). exists s. split; [|exact Rs].
  assert (Hi : (i < length desc)%nat) by (apply nth_error_Some; congruence).
  unfold args_in, u64. rewrite Z.mod_small by lia. destruct (Z.ltb_spec (Z.of_nat i) (Z.of_nat (length slots))); [|lia]. rewrite Nat2Z.id, Es. reflexivity.
Qed.
Example args_roundtrip_case : let m := Mem (fun _ => 5) (fun _ => None) in
  Forall2 (fun cv a => passes m (fst cv) (snd cv) a) (combine [c_i; c_d; c_s; c_f; c_c] [-7; -9; 4096; 4614253070214989087; -1]) [AWord (77 * 4294967296 + 4294967289); AWord 18446744073709551607; AWord 4096; ADouble 4614253070214989087; AWord 4294967295] /\
  raii_args_ex [c_i; c_d; c_s; c_f; c_c] [AWord (77 * 4294967296 + 4294967289); AWord 18446744073709551607; AWord 4096; ADouble 4614253070214989087; AWord 4294967295] m = Ok ([4294967289; 18446744073709551607; 4096; 4614253070214989087; 255], m).
Proof.
  cbn zeta. split; [|reflexivity]. cbn [combine].
  repeat (apply Forall2_cons || apply Forall2_nil); cbn [fst snd passes slen].
  - split; [lia|]. left. repeat split; lia.
  - split; [lia|]. right; right; right; left. split; [right; reflexivity|]. split; [lia|reflexivity].
  - split; [lia|]. right; right; right; right; right. repeat split; lia.
  - repeat split; lia.
  - split; [lia|]. right; left. repeat split; lia.
Qed.

(** The letter p in general, followed by any descriptor: two arguments are consumed, the slot keeps the first and the
    first eight bytes of the object the second points to overwrite the object the first points to; a NULL first
    pointer, or an object that cannot be read or written, is undefined. *)
Theorem args_pointer_exact : forall m w p desc l, 0 <= w < 2 ^ 64 ->
  raii_args_ex (c_p :: desc) (AWord w :: AWord p :: l) m =
    if w =? 0 then Undef NullDeref else
    match cell m p, cell m w with
    | None, _ => Undef OobRead
    | Some _, None => Undef OobWrite
    | Some v, Some _ => match raii_args_ex desc l (Mem (slen m) (fun x => if x =? w then Some v else cell m x)) with
                        | Ok (vs, m') => Ok (w :: vs, m') | Undef u => Undef u | Panics => Panics | NoFuel => NoFuel end
    end.
Proof.
  intros m w p desc l W. cbn [raii_args_ex]. unfold arg_step.
  cbn [Z.eqb Pos.eqb c_l c_z c_u c_i c_d c_c c_s c_a c_x c_f c_p orb next_word bind]. unfold arg_default. cbn [next_word bind].
  unfold u64. rewrite Z.mod_small by (change 18446744073709551616 with (2 ^ 64); lia).
  destruct (w =? 0); [reflexivity|]. destruct (cell m p) as [v|]; [|reflexivity]. destruct (cell m w); [|reflexivity]. cbn [bind].
  unfold poke. destruct (raii_args_ex desc l _) as [[vs m']| | |]; reflexivity.
Qed.
(** Any other character copies to the NULL pointer of its zeroed slot. *)
Theorem args_unknown : forall m c w desc l,
  ~ In c [c_l; c_z; c_u; c_i; c_d; c_c; c_s; c_a; c_x; c_f; c_p] ->
  raii_args_ex (c :: desc) (AWord w :: l) m = Undef NullDeref.
Proof.
  intros m c w desc l H. cbn [raii_args_ex]. unfold arg_step.
  repeat match goal with |- context[c =? ?k] => replace (c =? k) with false by (symmetry; apply Z.eqb_neq; intros ->; apply H; cbn [In]; tauto) end.
  cbn [orb]. reflexivity.
Qed.
Example args_pointer_exact_case : let m := Mem (fun _ => 5) (fun x => if x =? 4096 then Some 1 else if x =? 8192 then Some 2 else None) in
  match raii_args_ex [c_p; c_p] [AWord 4096; AWord 8192; AWord 8192; AWord 4096] m with Ok (vs, m') => vs = [4096; 8192] /\ cell m' 4096 = Some 2 /\ cell m' 8192 = Some 2 | _ => False end.
Proof. vm_compute. repeat split. Qed.
Example args_unknown_met := args_unknown (Mem (fun _ => 5) (fun _ => None)) 113 77 [c_i] [] ltac:(cbn [In]; unfold c_l, c_z, c_u, c_i, c_d, c_c, c_s, c_a, c_x, c_f, c_p; lia).
Print Assumptions args_pointer_exact. Print Assumptions args_unknown.

(** The letter p as last one: va_arg reads an argument that was not passed. *)
Theorem args_pointer_refuted : exists m args, raii_args_ex [c_p] args m = Undef WildPointer /\ length args = 1%nat.
Proof. exists (Mem (fun _ => 0) (fun _ => Some 0)), [AWord 4096]. split; reflexivity. Qed.
(** Followed by other letters: the next argument is taken as a pointer whose target overwrites the user's object, and the remaining arguments
    are read one place too late. *)
Theorem args_pointer_shift_refuted : exists m, match raii_args_ex [c_p; c_z] [AWord 4096; AWord 8192; AWord 5] m with
  | Ok (slots, m') => slots = [4096; 5] /\ cell m 4096 = Some 1 /\ cell m' 4096 = Some 2 | _ => False end.
Proof. exists (Mem (fun _ => 0) (fun a => if a =? 4096 then Some 1 else if a =? 8192 then Some 2 else None)). vm_compute. auto. Qed.
(** A string longer than a slot is copied to NULL. *)
Theorem args_long_string : forall m w desc l, 272 < slen m w -> raii_args_ex (c_s :: desc) (AWord w :: l) m = Undef NullDeref.
Proof. intros m w desc l H. cbn [raii_args_ex]. unfold arg_step. cbn [Z.eqb Pos.eqb c_l c_z c_u c_i c_d c_c c_s c_a c_x c_f c_p orb next_word bind]. unfold VALUES_SIZE. destruct (Z.ltb_spec 272 (slen m w)); [reflexivity|lia]. Qed.
Theorem args_long_string_refuted : exists m w, raii_args_ex [c_s] [AWord w] m = Undef NullDeref.
Proof. exists (Mem (fun _ => 273) (fun _ => None)), 4096. reflexivity. Qed.
(** A letter that asks for a double where an integer or pointer was passed, the other way round, or with nothing left to read: undefined. *)
Theorem args_mismatch_undefined : forall m c desc l,
  In c [c_l; c_z; c_d; c_a; c_x; c_u; c_i; c_c; c_s; c_p] /\ (l = [] \/ exists w r, l = ADouble w :: r) \/ c = c_f /\ (l = [] \/ exists w r, l = AWord w :: r) ->
  raii_args_ex (c :: desc) l m = Undef WildPointer.
Proof.
  intros m c desc l H. assert (G : arg_step c l m = Undef WildPointer).
  { destruct H as [[H L]|[-> L]].
    - cbn [In] in H. destruct H as [<-|[<-|[<-|[<-|[<-|[<-|[<-|[<-|[<-|[<-|[]]]]]]]]]]]; destruct L as [->|(w & r & ->)]; reflexivity.
    - destruct L as [->|(w & r & ->)]; reflexivity. }
  cbn [raii_args_ex]. rewrite G. reflexivity.
Qed.
Example args_mismatch_met := args_mismatch_undefined (Mem (fun _ => 5) (fun _ => None)) c_i [c_s] [ADouble 5] ltac:(left; split; [cbn; tauto|right; eauto]).
(** An index outside the pack, negative ones included, reads through NULL. *)
Theorem args_index_outside : forall slots i, - 2 ^ 31 <= i < 2 ^ 31 -> Z.of_nat (length slots) < 2 ^ 31 -> (i < 0 \/ Z.of_nat (length slots) <= i) -> args_in slots i = Undef NullDeref.
Proof.
  intros slots i Hi Hl H. unfold args_in, u64. assert (Q : Z.of_nat (length slots) <= i mod 18446744073709551616).
  { destruct H as [H|H]; [|rewrite Z.mod_small; lia]. replace (i mod 18446744073709551616) with (i + 18446744073709551616) by (apply (Z.mod_unique _ _ (-1)); lia). lia. }
  destruct (Z.ltb_spec (i mod 18446744073709551616) (Z.of_nat (length slots))); [lia|reflexivity].
Qed.
Example args_index_case : args_in [1; 2] (-1) = Undef NullDeref /\ args_in [1; 2] 1 = Ok 2.
Proof. split; reflexivity. Qed.

(** ** C51 *)
(** First accesses, in order. *)
Fixpoint firsts (h : list (Z * Z)) (seen : Z -> bool) : list Z :=
  match h with [] => [] | (p, _) :: h => if seen p then firsts h seen else p :: firsts h (fun q => if q =? p then true else seen q) end.
Lemma firsts_ext h : forall f g, (forall q, f q = g q) -> firsts h f = firsts h g.
Proof. induction h as [|[p i] h IH]; intros f g E; [reflexivity|]. cbn [firsts]. rewrite <- E. destruct (f p); [apply IH; exact E|]. f_equal. apply IH. intros q. rewrite E. reflexivity. Qed.
Lemma accesses_defers E fr slots h : forall st, Forall (fun a => exists v, args_in (slots (fst a)) (snd a) = Ok v) h ->
  match defers E (map (fun p => (fr, p, 0)) (firsts h (a_set st))) (a_scope st) with
  | Ok (_, s) => exists f, accesses E fr slots h st = Ok (ArgSt s f)
  | Undef u => accesses E fr slots h st = Undef u | Panics => accesses E fr slots h st = Panics | NoFuel => accesses E fr slots h st = NoFuel
  end.
Proof.
  induction h as [|[p i] h IH]; intros st H; cbn [firsts map defers accesses]; [destruct st; eauto|].
  inversion H as [|? ? [v Hv] H']; subst. cbn [fst snd] in Hv. unfold raii_get_args. destruct (a_set st p) eqn:S.
  - cbn [bind]. rewrite Hv. cbn [bind]. apply IH. exact H'.
  - cbn [map defers]. unfold raii_deferred. destruct (raii_deferred_any E fr p 0 (a_scope st)) as [[x s]| | |]; cbn [bind]; try reflexivity.
    rewrite Hv. cbn [bind]. set (st1 := ArgSt s _). specialize (IH st1 H'). change (a_scope st1) with s in IH. change (a_set st1) with (fun q => if q =? p then true else a_set st q) in IH.
    destruct (defers E _ s) as [[is s2]| | |]; cbn [bind]; exact IH.
Qed.
Lemma firsts_in h : forall seen p, In p (firsts h seen) <-> (seen p = false /\ In p (map fst h)).
Proof.
  induction h as [|[q i] h IH]; intros seen p; cbn [firsts map fst In]; [tauto|]. destruct (seen q) eqn:S.
  - rewrite IH. split; [tauto|]. intros [A [<-|B]]; [congruence|auto].
  - cbn [In]. rewrite IH. destruct (Z.eqb_spec p q) as [->|N]; [split; [auto|auto]|]. split; [intros [?|[A B]]; [congruence|auto]|]. intros [A [B|B]]; [congruence|auto].
Qed.
Lemma firsts_nodup h : forall seen, NoDup (firsts h seen).
Proof.
  induction h as [|[q i] h IH]; intros seen; cbn [firsts]; [constructor|]. destruct (seen q); [apply IH|]. constructor; [|apply IH]. rewrite firsts_in. rewrite Z.eqb_refl. intros [A _]. discriminate.
Qed.
Definition ev_dec (x y : ev) : {x = y} + {x <> y}.
Proof. decide equality; apply Z.eq_dec. Defined.

(** Packs on a scope that has not been released before, any history of accesses to any number of packs, when the deferred array could grow:
    releasing the scope calls args_free exactly once for each pack accessed, and for no other. *)
Theorem args_freed_once_partial : forall E user fr slots h s0 st er pa, fits E -> fresh s0 -> word fr -> isfn E fr = true -> (forall d, act E fr d = []) ->
  Forall (fun a => word (fst a) /\ exists v, args_in (slots (fst a)) (snd a) = Ok v) h ->
  accesses E fr slots h (ArgSt s0 (fun _ => false)) = Ok st -> raii_deferred_count (a_scope st) = Z.of_nat (length (firsts h (fun _ => false))) ->
  exists s', raii_deferred_free E user (set_err er pa (a_scope st)) = Ok s' /\
    forall p, count_occ ev_dec (trace s') (Call fr p) = if in_dec Z.eq_dec p (map fst h) then 1%nat else 0%nat.
Proof.
  intros E user fr slots h s0 st er pa F Fr W Fn Act H Ac Cn. set (D := map (fun p => (fr, p, 0)) (firsts h (fun _ => false))) in *.
  pose proof (accesses_defers E fr slots h (ArgSt s0 (fun _ => false))) as Q. cbn [a_scope a_set] in Q. fold D in Q.
  assert (H2 : Forall (fun a => exists v, args_in (slots (fst a)) (snd a) = Ok v) h) by (eapply Forall_impl; [|exact H]; intros a [_ X]; exact X). specialize (Q H2).
  destruct (defers E D s0) as [[is s]| | |] eqn:Ed; [|congruence..]. destruct Q as [f Q]. rewrite Q in Ac. injection Ac as <-. cbn [a_scope] in *.
  assert (Wd : Forall wordy D).
  { unfold D. apply Forall_forall. intros x Hx. apply in_map_iff in Hx. destruct Hx as (p & <- & Hp). apply firsts_in in Hp. destruct Hp as [_ Hp]. apply in_map_iff in Hp. destruct Hp as (a & <- & Ha). rewrite Forall_forall in H. destruct (H a Ha) as [X _]. split; [exact W|]. split; [exact X|]. unfold word. cbn. lia. }
  assert (Qd : Forall (quiet E) D) by (unfold D; apply Forall_forall; intros x Hx; apply in_map_iff in Hx; destruct Hx as (p & <- & _); split; [exact Fn|apply Act]).
  destruct (release_lifo_all E user D s0 is s er pa F Wd Qd Fr Ed) as (s' & E1 & T); [rewrite Cn; unfold D; rewrite map_length; reflexivity|].
  exists s'. split; [exact E1|]. intros p. rewrite T, count_occ_app. replace (count_occ ev_dec (returned [w_base s]) (Call fr p)) with 0%nat by (symmetry; apply count_occ_not_In; apply returned_no_call).
  rewrite Nat.add_0_r. unfold D. rewrite <- map_rev, map_map. cbn [fst snd].
  assert (C : forall l, count_occ ev_dec (map (fun x => Call fr x) l) (Call fr p) = count_occ Z.eq_dec l p).
  { induction l as [|a l IH]; [reflexivity|]. cbn [map count_occ]. destruct (ev_dec (Call fr a) (Call fr p)) as [e|e]; destruct (Z.eq_dec a p); try congruence; rewrite IH; reflexivity. }
  rewrite C. destruct (in_dec Z.eq_dec p (map fst h)) as [i|i].
  - apply NoDup_count_occ'; [apply NoDup_rev, firsts_nodup|]. rewrite <- in_rev. apply firsts_in. auto.
  - apply count_occ_not_In. rewrite <- in_rev, firsts_in. tauto.
Qed.
Example args_freed_case : let E := tidy [100] nothing in let slots := fun p => if p =? 7000 then [1; 2] else [5] in
  let h := [(7000, 0); (8000, 0); (7000, 1); (7000, 1); (8000, 0)] in
  match accesses E 100 slots h (ArgSt (unique_init 5000 0 0) (fun _ => false)) with
  | Ok st => raii_deferred_count (a_scope st) = 2 /\ firsts h (fun _ => false) = [7000; 8000] /\
     match raii_deferred_free E user0 (a_scope st) with Ok s' => trace s' = [Call 100 8000; Call 100 7000; Freed 65536] | _ => False end
  | _ => False end.
Proof. vm_compute. auto. Qed.

(** Whatever the allocator does: there is a set of packs ([m] marks them, in the order of first access) whose args_free is called exactly once; it is never called for
    the others, and those are packs whose raii_deferred returned (size_t)-1, which raii_get_args does not look at. *)
Theorem args_freed_any : forall E user fr slots h s0 er pa, fits E -> fresh s0 -> word fr -> isfn E fr = true -> (forall d, act E fr d = []) ->
  Forall (fun a => word (fst a) /\ exists v, args_in (slots (fst a)) (snd a) = Ok v) h ->
  exists st s' m is, accesses E fr slots h (ArgSt s0 (fun _ => false)) = Ok st /\ raii_deferred_free E user (set_err er pa (a_scope st)) = Ok s' /\
    defers E (map (fun p => (fr, p, 0)) (firsts h (fun _ => false))) s0 = Ok (is, a_scope st) /\
    length m = length (firsts h (fun _ => false)) /\
    (forall k, nth_error m k = Some false -> nth_error is k = Some 18446744073709551615) /\
    forall p, count_occ ev_dec (trace s') (Call fr p) = if in_dec Z.eq_dec p (kept m (firsts h (fun _ => false))) then 1%nat else 0%nat.
Proof.
  intros E user fr slots h s0 er pa F Fr W Fn Act H. set (D := map (fun p => (fr, p, 0)) (firsts h (fun _ => false))) in *.
  pose proof (accesses_defers E fr slots h (ArgSt s0 (fun _ => false))) as Q. cbn [a_scope a_set] in Q. fold D in Q.
  assert (H2 : Forall (fun a => exists v, args_in (slots (fst a)) (snd a) = Ok v) h) by (eapply Forall_impl; [|exact H]; intros a [_ X]; exact X). specialize (Q H2).
  assert (Wd : Forall wordy D).
  { unfold D. apply Forall_forall. intros x Hx. apply in_map_iff in Hx. destruct Hx as (p & <- & Hp). apply firsts_in in Hp. destruct Hp as [_ Hp]. apply in_map_iff in Hp. destruct Hp as (a & <- & Ha). rewrite Forall_forall in H. destruct (H a Ha) as [X _]. split; [exact W|]. split; [exact X|]. unfold word. cbn. lia. }
  assert (Qd : Forall (quiet E) D) by (unfold D; apply Forall_forall; intros x Hx; apply in_map_iff in Hx; destruct Hx as (p & <- & _); split; [exact Fn|apply Act]).
  destruct (release_lifo E user D s0 er pa F Wd Qd Fr) as (is & s & m & s' & Ed & L & K & _ & E1 & T).
  rewrite Ed in Q. destruct Q as [f Q]. exists (ArgSt s f), s', m, is. cbn [a_scope]. split; [exact Q|]. split; [exact E1|]. split; [exact Ed|]. unfold D in L. rewrite map_length in L. split; [exact L|]. split; [exact K|].
  intros p. rewrite T, count_occ_app. replace (count_occ ev_dec (returned [w_base s]) (Call fr p)) with 0%nat by (symmetry; apply count_occ_not_In; apply returned_no_call).
  rewrite Nat.add_0_r. unfold D.
  assert (KM : forall (l : list Z) m, kept m (map (fun p => (fr, p, 0)) l) = map (fun p => (fr, p, 0)) (kept m l)).
  { clear. induction l as [|x l IH]; intros [|[|] m]; cbn; try reflexivity; [f_equal|]; apply IH. }
  rewrite KM, <- map_rev, map_map. cbn [fst snd].
  assert (C : forall l, count_occ ev_dec (map (fun x => Call fr x) l) (Call fr p) = count_occ Z.eq_dec l p).
  { induction l as [|a l IH]; [reflexivity|]. cbn [map count_occ]. destruct (ev_dec (Call fr a) (Call fr p)) as [e|e]; destruct (Z.eq_dec a p); try congruence; rewrite IH; reflexivity. }
  assert (ND : forall l m, NoDup l -> NoDup (kept m l) /\ forall x : Z, In x (kept m l) -> In x l).
  { clear. intros l m N. revert m. induction N as [|x l N1 N2 IH]; intros [|[|] m]; cbn; try (split; [constructor|tauto]).
    - destruct (IH m) as [A B]. split; [constructor; [intros X; apply N1, B, X|exact A]|]. intros y [->|Y]; [now left|right; apply B, Y].
    - destruct (IH m) as [A B]. split; [exact A|]. intros y Y. right. apply B, Y. }
  rewrite C. destruct (in_dec Z.eq_dec p (kept m (firsts h (fun _ => false)))) as [i|i].
  - apply NoDup_count_occ'; [apply NoDup_rev, ND, firsts_nodup|]. now rewrite <- in_rev.
  - apply count_occ_not_In. now rewrite <- in_rev.
Qed.
(** When the array cannot grow at the first access, the value is returned and the pack is never released. *)
Definition no_memory : env := Env (fun _ _ => 0) (fun _ _ => 0) (fun f => f =? 100) (fun _ _ => []).
Theorem args_grow_refuted : exists E user s0 tr, fits E /\ fresh s0 /\
  (let* (v, st) := raii_get_args E 100 7000 [1; 2] 1 (ArgSt s0 (fun _ => false)) in
   let* (w, st) := raii_get_args E 100 7000 [1; 2] 0 st in
   let* s2 := raii_deferred_free E user (a_scope st) in Ok (v, w, trace s2)) = Ok (2, 1, tr) /\ ~ In (Call 100 7000) tr.
Proof.
  exists no_memory, user0, (unique_init 5000 0 0). eexists. split; [intros n sz; cbn; lia|]. split; [exists 5000, 0, 0%nat; auto|].
  split; [vm_compute; reflexivity|]. cbn. intuition discriminate.
Qed.

(** A scope that was released before (C27): the packs accessed with it are never freed, whatever the history. *)
Theorem args_never_freed : forall E user fr slots h s seen n, fits E -> released s -> word fr ->
  Forall (fun a => word (fst a) /\ exists v, args_in (slots (fst a)) (snd a) = Ok v) h ->
  exists st, accesses E fr slots h (ArgSt s seen) = Ok st /\ releases E user n (a_scope st) = Ok (a_scope st) /\ trace (a_scope st) = trace s.
Proof.
  intros E user fr slots h s seen n F R W H. set (D := map (fun p => (fr, p, 0)) (firsts h seen)).
  pose proof (accesses_defers E fr slots h (ArgSt s seen)) as Q. cbn [a_scope a_set] in Q. fold D in Q.
  assert (H2 : Forall (fun a => exists v, args_in (slots (fst a)) (snd a) = Ok v) h) by (eapply Forall_impl; [|exact H]; intros a [_ X]; exact X). specialize (Q H2).
  assert (Wd : Forall wordy D).
  { unfold D. apply Forall_forall. intros x Hx. apply in_map_iff in Hx. destruct Hx as (p & <- & Hp). apply firsts_in in Hp. destruct Hp as [_ Hp]. apply in_map_iff in Hp. destruct Hp as (a & <- & Ha). rewrite Forall_forall in H. destruct (H a Ha) as [X _]. split; [exact W|]. split; [exact X|]. unfold word. cbn. lia. }
  destruct (released_scope_loses_defers E user s D n F R Wd) as (is & s1 & E1 & E2 & E3). rewrite E1 in Q. destruct Q as [f Q]. exists (ArgSt s1 f). auto.
Qed.
Theorem args_freed_once_refuted : exists E user s0 tr, fits E /\ fresh s0 /\
  (let* s1 := raii_deferred_free E user s0 in
   let* (v, st) := raii_get_args E 100 7000 [1; 2] 1 (ArgSt s1 (fun _ => false)) in
   let* s2 := raii_deferred_free E user (a_scope st) in Ok (v, trace s2)) = Ok (2, tr) /\ ~ In (Call 100 7000) tr.
Proof.
  exists (tidy [100] nothing), user0, (unique_init 5000 0 0). eexists. split; [apply tidy_fits|]. split; [exists 5000, 0, 0%nat; auto|].
  split; [vm_compute; reflexivity|]. cbn. intuition discriminate.
Qed.

(** * The theorems above on concrete values: their hypotheses can be met. *)
Definition one_fn := tidy [100] nothing.
Definition pair_of : Z -> list Z := fun p => if p =? 7000 then [1; 2] else [5].
Definition reads_of : list (Z * Z) := [(7000, 0); (8000, 0); (7000, 1); (7000, 1); (8000, 0)].
Definition after_reads : argst := match accesses one_fn 100 pair_of reads_of (ArgSt (unique_init 5000 0 0) (fun _ => false)) with Ok s => s | _ => ArgSt (unique_init 5000 0 0) (fun _ => false) end.
Example args_freed_once_partial_met := args_freed_once_partial one_fn user0 100 pair_of reads_of (unique_init 5000 0 0) after_reads 0 0
  (tidy_fits _ _) ltac:(exists 5000, 0, 0%nat; auto) ltac:(unfold word; lia) eq_refl ltac:(reflexivity)
  ltac:(repeat constructor; unfold word; cbn; try lia; eexists; reflexivity) ltac:(unfold after_reads; vm_compute; reflexivity) ltac:(vm_compute; reflexivity).
Example args_freed_any_met := args_freed_any one_fn user0 100 pair_of reads_of (unique_init 5000 0 0) 0 0
  (tidy_fits _ _) ltac:(exists 5000, 0, 0%nat; auto) ltac:(unfold word; lia) eq_refl ltac:(reflexivity)
  ltac:(repeat constructor; unfold word; cbn; try lia; eexists; reflexivity).

Print Assumptions args_freed_any. Print Assumptions args_grow_refuted. Print Assumptions args_roundtrip_partial. Print Assumptions args_pointer_refuted. Print Assumptions args_pointer_shift_refuted. Print Assumptions args_long_string.
Print Assumptions args_long_string_refuted. Print Assumptions args_index_outside. Print Assumptions args_mismatch_undefined. Print Assumptions args_freed_once_partial. Print Assumptions args_never_freed. Print Assumptions args_freed_once_refuted.
