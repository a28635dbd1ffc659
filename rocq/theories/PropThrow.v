(** C84: deferred functions that throw. *)
From Verif Require Import BaseLemmas ExcModel SpecExc ExcProofs ExcRun ExcThrow.

Definition zeros : Z -> Z := fun _ => 0.

(** A guard whose body defers, newest first, [pre], then [f] with [d], then [old], where [f] is the first one called that throws: exactly what is called, and whether the program ends. *)
Theorem defer_throw_exact : forall b t r pre f d old err x fuel j, loud false true b -> ref b (0, 0) ([], 0) = (t, r, (pre ++ (f, d) :: old, err)) -> Forall quiet pre -> d_throw f = Some x -> (4 <= fuel)%nat ->
  run fuel (Guard b) j = match left_by err x pre f d with Some t' => Ok (t ++ t', Uncaught x 0) | None => NoFuel end.
Proof.
  intros b t r pre f d old err x fuel j Hb R Hq Hx Hf. do 4 (destruct fuel as [|fuel]; [lia|]).
  pose proof (guard_throws b fuel 0 root (start j) (0, 0) ([], 0) t r pre f d old err x Hb (start_inv j) ltac:(cbn; lia) R Hq Hx) as P. unfold run.
  destruct (left_by err x pre f d) as [t'|]; [|rewrite P; reflexivity].
  destruct P as (y & st & E & T & En & D & _ & _). rewrite E. cbn [start trace app] in T. unfold ends in En. change (cur (start j) =? root) with true in En. cbv iota in En. subst y.
  rewrite free_root_id by exact D. rewrite T. reflexivity.
Qed.
(** The program never gets out of the guard when none of the functions called so far recovers the pending error or the new one. *)
Theorem defer_throw_never_ends : forall b t r pre f d old err x fuel j, loud false true b -> ref b (0, 0) ([], 0) = (t, r, (pre ++ (f, d) :: old, err)) -> Forall quiet pre -> d_throw f = Some x -> (4 <= fuel)%nat ->
  (forall p n, In p (pre ++ [(f, d)]) -> d_recover (fst p) = Some n -> n <> err /\ n <> x) -> run fuel (Guard b) j = NoFuel.
Proof.
  intros b t r pre f d old err x fuel j Hb R Hq Hx Hf Hr. rewrite (defer_throw_exact _ _ _ _ _ _ _ _ _ _ _ Hb R Hq Hx Hf). unfold left_by.
  assert (Q : forall y, y = err \/ y = x -> existsb (hits y) (pre ++ [(f, d)]) = false).
  { intros y Hy. apply not_true_is_false. intros Q. apply existsb_exists in Q as (p & Hin & Hp). unfold hits in Hp. apply andb_prop in Hp as [_ Hp]. destruct (d_recover (fst p)) as [n|] eqn:Hn; [|discriminate].
    destruct (Hr p n Hin Hn) as [N1 N2]. apply Z.eqb_eq in Hp. destruct Hy; congruence. }
  rewrite !Q by auto. reflexivity.
Qed.
(** Functions deferred before the one that throws are not called at all, unless they are also among the newer ones. *)
Theorem defer_throw_skips : forall err x pre f d t' a v, left_by err x pre f d = Some t' -> In (EDefer a v) t' -> exists p, In p (pre ++ [(f, d)]) /\ a = d_act (fst p).
Proof.
  intros err x pre f d t' a v H Hin.
  assert (Q : forall l y, In (EDefer a v) (drain l y) -> exists p, In p l /\ a = d_act (fst p)).
  { intros l y Q. unfold drain in Q. apply in_flat_map in Q as (p & Hp & Hq). exists p. split; [exact Hp|]. destruct Hq as [Hq|Hq]; [congruence|]. destruct (hits y p); [destruct Hq as [Hq|[]]; discriminate|destruct Hq]. }
  unfold left_by in H. destruct (existsb (hits err) _); [injection H as <-; eauto|]. destruct (existsb (hits x) _); [|discriminate]. injection H as <-.
  apply in_app_or in Hin as [Hin|Hin]; [eauto|]. destruct (Q _ _ Hin) as (p & Hp & ->). apply in_app_or in Hp as [Hp|Hp].
  - unfold nulled in Hp. apply in_map_iff in Hp as (q & <- & Hq). exists q. split; [apply in_or_app; auto|reflexivity].
  - exists p. split; [apply in_or_app; auto|reflexivity].
Qed.
Definition act (a : Z) : dfun := DFun a None None.
Example defer_throw_case :
  let b := Seq (Defer (act 1) 11) (Seq (Defer (DFun 2 None (Some 50)) 12) (Seq (Defer (act 3) 13) (Act 7))) in
  loud false true b /\ ref b (0, 0) ([], 0) = ([EAct 7], Done, ([(act 3, 13)] ++ (DFun 2 None (Some 50), 12) :: [(act 1, 11)], 0)) /\
  left_by 0 50 [(act 3, 13)] (DFun 2 None (Some 50)) 12 = None /\ run 9 (Guard b) zeros = NoFuel /\ run 200 (Guard b) zeros = NoFuel.
Proof. cbn zeta. split; [cbn; tauto|]. split; [reflexivity|]. split; [reflexivity|]. split; vm_compute; reflexivity. Qed.
Example defer_throw_case_recovered :
  let b := Seq (Defer (act 1) 11) (Seq (Defer (DFun 2 None (Some 50)) 12) (Seq (Defer (DFun 3 (Some 6) None) 13) (Panic 6))) in
  loud false true b /\ left_by 6 50 [(DFun 3 (Some 6) None, 13)] (DFun 2 None (Some 50)) 12 = Some [EDefer 3 13; ECaught 6; EDefer 2 12] /\
  run 9 (Guard b) zeros = Ok ([EDefer 3 13; ECaught 6; EDefer 2 12], Uncaught 50 0).
Proof. cbn zeta. split; [cbn; tauto|]. split; [reflexivity|]. vm_compute; reflexivity. Qed.
(** A function is called twice, the second time with NULL, and an older one never. *)
Theorem defer_throw_refuted : exists b, loud false true b /\
  b = Seq (Defer (act 1) 11) (Seq (Defer (DFun 2 None (Some 50)) 12) (Seq (Defer (DFun 3 (Some 50) None) 13) (Act 7))) /\
  run 9 (Guard b) zeros = Ok ([EAct 7; EDefer 3 13; EDefer 2 12; EDefer 3 0; ECaught 50; EDefer 2 12], Uncaught 50 0).
Proof. eexists. split; [|split; [reflexivity|]]; [cbn; tauto|]. vm_compute. reflexivity. Qed.
(** With _malloc in the guard the second round happens inside ex_throw and the exception ends the program although it would have been caught outside. *)
Theorem defer_throw_malloc_refuted : exists b, b = Seq (Malloc 3) (Seq (Defer (DFun 2 None (Some 50)) 12) (Act 7)) /\
  run 9 (Try (Guard b) (CatchAny (Act 8) CNil) false Skip) zeros = Ok ([EAct 7; EDefer 2 12; EDefer 2 12], Uncaught 50 0).
Proof. eexists. split; [reflexivity|]. vm_compute. reflexivity. Qed.

Print Assumptions defer_throw_exact.
Print Assumptions defer_throw_never_ends.
Print Assumptions defer_throw_skips.
Print Assumptions defer_throw_refuted.
Print Assumptions defer_throw_malloc_refuted.
