(** C41: the process-wide hooks of guards, for any number of threads. *)
From Verif Require Import BaseLemmas HookModel.

(** ** Entering and leaving as single steps *)

(** A history is covered when the thread that opened the first guard of a busy period stays in it until no other guard is open.
    [d] counts each thread's open guards, [o] is the thread that opened the first one of those open now. *)
Fixpoint covered (l : list (Z * hop)) (d : Z -> nat) (o : option Z) : Prop :=
  match l with
  | [] => True
  | (t, Enter) :: l => covered l (fun x => if x =? t then S (d t) else d x) (match o with None => Some t | _ => o end)
  | (t, Leave) :: l =>
      let d' := fun x => if x =? t then pred (d t) else d x in
      if match o with Some u => (u =? t) && Nat.eqb (d' t) 0 | None => false end
      then (forall x, d' x = 0%nat) /\ covered l d' None
      else covered l d' o
  end.
(** The hooks are a guard's exactly while some guard is open. *)
Definition right (h : hooks_state) : Prop := h_glob h = true <-> exists t, h_saved h t <> [].

Definition hinv (d : Z -> nat) (o : option Z) (h : hooks_state) : Prop :=
  (forall t, length (h_saved h t) = d t) /\
  match o with
  | None => h_glob h = false /\ forall t, h_saved h t = []
  | Some u => h_glob h = true /\ (exists k, h_saved h u = repeat true k ++ [false]) /\
              forall t, t <> u -> Forall (fun b => b = true) (h_saved h t)
  end.
Lemma hinv_right d o h : hinv d o h -> right h.
Proof.
  intros (L & H). unfold right. destruct o as [u|].
  - destruct H as (G & (k & K) & _). split; [|auto]. intros _. exists u. rewrite K. destruct k; discriminate.
  - destruct H as (G & E). rewrite G. split; [discriminate|]. intros (t & T). exfalso. apply T, E.
Qed.
Lemma all_true l : Forall (fun b => b = true) l -> forall b r, l = b :: r -> b = true /\ Forall (fun b => b = true) r.
Proof. intros F b r ->. inversion F; auto. Qed.

Lemma covered_leave t l d o d' : d' = (fun x => if x =? t then pred (d t) else d x) ->
  covered ((t, Leave) :: l) d o =
  if match o with Some u => (u =? t) && Nat.eqb (d' t) 0 | None => false end then (forall x, d' x = 0%nat) /\ covered l d' None else covered l d' o.
Proof. intros ->. reflexivity. Qed.
Lemma hooks_step_exact t o l d u h h' :
  hinv d u h -> hook_step t o h = Some h' ->
  exists d' u',
    (covered ((t, o) :: l) d u <-> (right h' /\ covered l d' u')) /\ (right h' -> hinv d' u' h').
Proof.
  intros (L & H) E. destruct o; cbn [hook_step] in E.
  - injection E as <-. exists (fun x => if x =? t then S (d t) else d x), (match u with None => Some t | _ => u end).
    assert (I : hinv (fun x => if x =? t then S (d t) else d x) (match u with None => Some t | _ => u end) (Hooks true (upd (h_saved h) t (h_glob h :: h_saved h t)))).
    { split. { intros x. cbn [h_saved]. unfold upd. destruct (x =? t) eqn:X; [|apply L]. cbn [length]. rewrite L. reflexivity. }
      destruct u as [u|].
      - destruct H as (G & (k & K) & O). cbn [h_glob h_saved]. split; [reflexivity|]. rewrite G. split.
        + unfold upd. destruct (Z.eqb_spec u t); [subst; exists (S k); rewrite K; reflexivity|exists k; exact K].
        + intros x X. unfold upd. destruct (Z.eqb_spec x t); [subst; constructor; auto|auto].
      - destruct H as (G & O). cbn [h_glob h_saved]. split; [reflexivity|]. rewrite G. split.
        + exists 0%nat. unfold upd. rewrite Z.eqb_refl, O. reflexivity.
        + intros x X. unfold upd. destruct (Z.eqb_spec x t); [contradiction|rewrite O; constructor]. }
    split; [|intros _; exact I]. split; [intros C; split; [eapply hinv_right; exact I|exact C]|tauto].
  - destruct (h_saved h t) as [|b r] eqn:St; [discriminate|]. injection E as <-.
    remember (fun x => if x =? t then pred (d t) else d x) as d' eqn:Ed. rewrite (covered_leave t l d u d' Ed).
    assert (L' : forall x, length (upd (h_saved h) t r x) = d' x).
    { intros x. unfold upd. rewrite Ed. destruct (x =? t); [|apply L]. rewrite <- L, St. reflexivity. }
    destruct u as [u|]; [|destruct H as (_ & O); rewrite O in St; discriminate].
    destruct H as (G & (k & K) & O).
    destruct (Z.eqb_spec u t) as [Eu|Nu].
    + subst u. clear Ed. rewrite K in St. destruct k as [|k]; cbn [repeat app] in St; injection St as Eb Er; subst b r.
      * assert (D0 : d' t = 0%nat) by (rewrite <- L'; unfold upd; rewrite Z.eqb_refl; reflexivity). rewrite D0. cbn [andb Nat.eqb].
        exists d', None.
        assert (R : right (Hooks false (upd (h_saved h) t [])) <-> forall x, d' x = 0%nat).
        { unfold right. cbn [h_glob h_saved]. split.
          - intros [_ R] x. destruct (upd (h_saved h) t [] x) eqn:X; [rewrite <- L', X; reflexivity|].
            exfalso. assert (B : false = true) by (apply R; exists x; rewrite X; discriminate). discriminate.
          - intros Z0. split; [discriminate|]. intros (x & X). exfalso. apply X, length_zero_iff_nil. rewrite L'. apply Z0. }
        split; [rewrite R; tauto|]. intros Rt. split; [exact L'|]. split; [reflexivity|]. cbn [h_saved].
        intros x. apply length_zero_iff_nil. rewrite L'. apply R. exact Rt.
      * assert (D1 : Nat.eqb (d' t) 0 = false).
        { apply Nat.eqb_neq. rewrite <- L'. unfold upd. rewrite Z.eqb_refl, app_length. cbn [length]. lia. }
        rewrite D1. cbn [andb]. exists d', (Some t).
        assert (I : hinv d' (Some t) (Hooks true (upd (h_saved h) t (repeat true k ++ [false])))).
        { split; [exact L'|]. cbn [h_glob h_saved]. split; [reflexivity|]. split; [exists k; unfold upd; rewrite Z.eqb_refl; reflexivity|].
          intros x X. unfold upd. destruct (Z.eqb_spec x t); [contradiction|auto]. }
        split; [|intros _; exact I]. split; [intros C; split; [eapply hinv_right; exact I|exact C]|tauto].
    + assert (T : t <> u) by congruence. destruct (all_true _ (O t T) _ _ St) as [-> Fr]. cbn [andb].
      exists d', (Some u).
      assert (I : hinv d' (Some u) (Hooks true (upd (h_saved h) t r))).
      { split; [exact L'|]. cbn [h_glob h_saved]. split; [reflexivity|]. split.
        - exists k. unfold upd. destruct (Z.eqb_spec u t); [contradiction|exact K].
        - intros x X. unfold upd. destruct (Z.eqb_spec x t); [exact Fr|auto]. }
      split; [|intros _; exact I]. split; [intros C; split; [eapply hinv_right; exact I|exact C]|tauto].
Qed.

Lemma hooks_exact_from : forall l d u h h', hinv d u h -> hook_run l h = Some h' ->
  ((forall l1 l2 h1, l = l1 ++ l2 -> hook_run l1 h = Some h1 -> right h1) <-> covered l d u).
Proof.
  induction l as [|[t o] l IH]; intros d u h h' I E.
  - cbn [covered]. split; [auto|]. intros _ l1 l2 h1 X. symmetry in X. apply app_eq_nil in X. destruct X as [-> ->].
    cbn [hook_run]. intros X. injection X as <-. eapply hinv_right; exact I.
  - cbn [hook_run] in E. destruct (hook_step t o h) as [h2|] eqn:St; [|discriminate].
    destruct (hooks_step_exact t o l d u h h2 I St) as (d' & u' & C & J). rewrite C. clear C. split.
    + intros P. assert (R : right h2) by (apply (P [(t, o)] l h2); [reflexivity|cbn [hook_run]; rewrite St; reflexivity]).
      split; [exact R|]. apply (IH d' u' h2 h' (J R) E). intros l1 l2 h1 X Y.
      apply (P ((t, o) :: l1) l2 h1); [cbn [app]; congruence|]. cbn [hook_run]. rewrite St. exact Y.
    + intros (R & C) l1 l2 h1 X Y. destruct l1 as [|[t1 o1] l1].
      * cbn [hook_run] in Y. injection Y as <-. eapply hinv_right; exact I.
      * cbn [app] in X. injection X as <- <- X. cbn [hook_run] in Y. rewrite St in Y.
        apply (proj2 (IH d' u' h2 h' (J R) E) C l1 l2 h1 X Y).
Qed.

(** For every interleaving of the guards of any number of threads: at every moment the hooks are a guard's iff a
    guard is open somewhere, exactly when the history is covered. *)
Theorem hooks_threads_exact : forall l h', hook_run l (Hooks false (fun _ => [])) = Some h' ->
  ((forall l1 l2 h1, l = l1 ++ l2 -> hook_run l1 (Hooks false (fun _ => [])) = Some h1 -> right h1) <-> covered l (fun _ => 0%nat) None).
Proof.
  intros l h' E. apply hooks_exact_from with (h' := h'); [|exact E]. split; [reflexivity|]. split; reflexivity.
Qed.
(** Covered: thread 1 opens, thread 2 enters twice and leaves, thread 3 overlaps with 2, thread 1 leaves last. *)
Definition inside_first := [(1, Enter); (2, Enter); (2, Enter); (3, Enter); (2, Leave); (1, Enter); (2, Leave); (3, Leave); (1, Leave); (1, Leave); (2, Enter); (2, Leave)].
Example hooks_covered_case : hook_run inside_first (Hooks false (fun _ => [])) <> None /\ covered inside_first (fun _ => 0%nat) None.
Proof.
  split; [vm_compute; discriminate|]. cbn.
  repeat match goal with |- _ /\ _ => split | |- forall _, _ => intros x | |- True => exact I end;
    repeat match goal with |- context[if ?a =? ?k then _ else _] => destruct (a =? k) end; reflexivity.
Qed.
Example hooks_uncovered_case : hook_run [(1, Enter); (2, Enter); (1, Leave)] (Hooks false (fun _ => [])) <> None /\ ~ covered [(1, Enter); (2, Enter); (1, Leave)] (fun _ => 0%nat) None.
Proof. split; [vm_compute; discriminate|]. cbn. intros (H & _). specialize (H 2). discriminate. Qed.

(** ** Access by access *)

(** The outermost guard of the thread has been entered and is not being left. *)
Definition entered (fr : list gframe) : Prop := exists up f, fr = up ++ [f] /\ g_at f = 3%nat.
(** The same condition for the accesses: the thread that begins first in a busy period has its outermost guard entered
    whenever a guard of another thread is open, being entered or being left. *)
Fixpoint gcovered (l : list (Z * gop)) (s : gstate) (o : option Z) : Prop :=
  match l with
  | [] => True
  | (t, op) :: l =>
      match gstep t op s with
      | None => True
      | Some s' =>
          let o' := match o with None => Some t | Some u => match x_open s' u with [] => None | _ => o end end in
          match o' with
          | None => forall x, x_open s' x = []
          | Some u => forall x, x <> u -> x_open s' x <> [] -> entered (x_open s' u)
          end /\ gcovered l s' o'
      end
  end.

Definition gok (f : gframe) : Prop := g_set f = true /\ ((1 <= g_at f)%nat -> g_unw f = true).
Definition gwf (fr : list gframe) : Prop := Forall (fun f => g_at f = 3%nat) (tl fr).
(** The opener's only guard while it is being entered or left: its own values and the globals. *)
Definition going (f : gframe) (s : gstate) : Prop :=
  g_set f = false /\ (1 <= g_at f -> g_unw f = false)%nat /\ x_set s = false /\
  match g_at f with 0 | 1 => x_unw s = false | 2 | 4 => x_unw s = true | _ => False end%nat.
Definition ginv (o : option Z) (s : gstate) : Prop :=
  (forall t, gwf (x_open s t)) /\
  match o with
  | None => x_set s = false /\ x_unw s = false /\ forall t, x_open s t = []
  | Some u =>
      (x_set s = true /\ x_unw s = true /\ (exists up f, x_open s u = up ++ [f] /\ f = GFrame false false 3 /\ Forall gok up) /\
       forall t, t <> u -> Forall gok (x_open s t)) \/
      ((exists f, x_open s u = [f] /\ going f s) /\ forall t, t <> u -> x_open s t = [])
  end.

Lemma gwf_step t op s s' : gstep t op s = Some s' -> (forall x, gwf (x_open s x)) -> forall x, gwf (x_open s' x).
Proof.
  intros E W x. pose proof (W x) as Wx. pose proof (W t) as Wt. unfold gstep in E.
  assert (Q : forall fr, x_open s' = upd (x_open s) t fr -> gwf fr -> gwf (x_open s' x)).
  { intros fr -> F. unfold upd. destruct (x =? t); auto. }
  destruct op, (x_open s t) as [|f r] eqn:St; try discriminate.
  - injection E as <-. eapply Q; [reflexivity|]. constructor.
  - destruct (Nat.eqb_spec (g_at f) 3); [|discriminate]. injection E as <-. eapply Q; [reflexivity|]. unfold gwf. cbn [tl]. constructor; auto.
  - destruct (g_at f) as [|[|[|[|[|]]]]]; try discriminate; injection E as <-; (eapply Q; [reflexivity|]); unfold gwf in *; cbn [tl] in *; auto.
    destruct r; cbn [tl]; [constructor|]. inversion Wt; auto.
  - destruct (Nat.eqb_spec (g_at f) 3); [|discriminate]. injection E as <-. eapply Q; [reflexivity|]. exact Wt.
Qed.

(** One step of a thread on a stack whose guards saved a guard's hooks, while the hooks are a guard's. *)
Lemma gok_step t op s s' up rest : gstep t op s = Some s' -> x_set s = true -> x_unw s = true ->
  x_open s t = up ++ rest -> Forall gok up -> (up <> [] \/ op = Begin) ->
  x_set s' = true /\ x_unw s' = true /\ (forall x, x <> t -> x_open s' x = x_open s x) /\ exists up', x_open s' t = up' ++ rest /\ Forall gok up'.
Proof.
  intros E X Y St F B. unfold gstep in E. rewrite St in E.
  assert (Oth : forall fr x, x <> t -> upd (x_open s) t fr x = x_open s x).
  { intros fr x N. unfold upd. destruct (Z.eqb_spec x t); [contradiction|reflexivity]. }
  assert (Own : forall fr, upd (x_open s) t fr t = fr) by (intros fr; unfold upd; rewrite Z.eqb_refl; reflexivity).
  assert (New : gok (GFrame (x_set s) false 0)) by (split; cbn [g_set g_at]; [exact X|lia]).
  destruct op.
  - destruct (up ++ rest) as [|f r] eqn:Q.
    + apply app_eq_nil in Q. destruct Q as [-> ->]. injection E as <-. cbn [x_set x_unw x_open].
      repeat split; auto. exists [GFrame (x_set s) false 0]. rewrite Own. split; [reflexivity|]. repeat constructor; apply New.
    + destruct (Nat.eqb (g_at f) 3); [|discriminate]. injection E as <-. cbn [x_set x_unw x_open]. repeat split; auto.
      exists (GFrame (x_set s) false 0 :: up). rewrite Own. cbn [app]. rewrite Q. split; [reflexivity|]. constructor; auto.
  - destruct B as [B|]; [|discriminate]. destruct up as [|f up]; [congruence|]. cbn [app] in E. inversion F as [|? ? [F1 F2] F']; subst.
    destruct (g_at f) as [|[|[|[|[|]]]]] eqn:Af; try discriminate; injection E as <-; cbn [x_set x_unw x_open]; repeat split; auto; rewrite ?Own.
    + eexists (_ :: up). split; [reflexivity|]. constructor; [|auto]. split; cbn; auto.
    + eexists (_ :: up). split; [reflexivity|]. constructor; [|auto]. split; cbn; auto.
    + eexists (_ :: up). split; [reflexivity|]. constructor; [|auto]. split; cbn; auto.
    + exists up. auto.
  - destruct B as [B|]; [|discriminate]. destruct up as [|f up]; [congruence|]. cbn [app] in E. inversion F as [|? ? [F1 F2] F']; subst.
    destruct (Nat.eqb_spec (g_at f) 3) as [Af|]; [|discriminate]. injection E as <-; cbn [x_set x_unw x_open]; repeat split; auto; rewrite ?Own.
    eexists (_ :: up). split; [reflexivity|]. constructor; [|auto]. split; cbn; auto. intros _. apply F2. lia.
Qed.

Lemma ginv_step t op s s' o :
  gstep t op s = Some s' -> ginv o s ->
  let o' := match o with None => Some t | Some u => match x_open s' u with [] => None | _ => o end end in
  match o' with
  | None => forall x, x_open s' x = []
  | Some u => forall x, x <> u -> x_open s' x <> [] -> entered (x_open s' u)
  end -> ginv o' s'.
Proof.
  intros E (W & H). pose proof (gwf_step _ _ _ _ E W) as W'. cbv zeta.
  destruct o as [u|].
  - destruct H as [(X & Y & (up & b & U & Eb & F) & O)|((f & U & G) & O)].
    + destruct (Z.eq_dec t u) as [->|N].
      * (* the opener *)
        destruct up as [|f0 up].
        -- cbn [app] in U. destruct op.
           ++ destruct (gok_step u Begin s s' [] [b] E X Y U F ltac:(right; reflexivity)) as (X' & Y' & Oth & up' & U' & F').
              rewrite U'. destruct (up' ++ [b]) as [|f r] eqn:Q; [destruct up'; discriminate|]. intros _.
              split; [exact W'|]. left. split; [exact X'|]. split; [exact Y'|]. split; [exists up', b; rewrite U'; auto|].
              intros x Nx. rewrite Oth by exact Nx. auto.
           ++ unfold gstep in E. rewrite U, Eb in E. cbn [g_at] in E. discriminate.
           ++ unfold gstep in E. rewrite U, Eb in E. cbn [g_at Nat.eqb g_set g_unw] in E. injection E as <-. cbn [x_open].
              assert (Q : upd (x_open s) u [GFrame false false 4] u = [GFrame false false 4]) by (unfold upd; rewrite Z.eqb_refl; reflexivity).
              rewrite Q. intros C. split; [exact W'|]. right. split.
              { exists (GFrame false false 4). cbn [x_open]. split; [exact Q|]. unfold going. cbn [g_set g_unw g_at x_set x_unw]. auto. }
              intros x Nx. cbn [x_open] in *. destruct (upd (x_open s) u [GFrame false false 4] x) eqn:Qx; [reflexivity|]. exfalso.
              destruct (C x Nx) as (up & f & V & A); [rewrite Qx; discriminate|].
              rewrite Q in V. destruct up as [|? [|]]; cbn [app] in V; [injection V as <-; discriminate A|discriminate|discriminate].
        -- destruct (gok_step u op s s' (f0 :: up) [b] E X Y U F ltac:(left; discriminate)) as (X' & Y' & Oth & up' & U' & F').
           rewrite U'. destruct (up' ++ [b]) as [|f r] eqn:Q; [destruct up'; discriminate|]. intros _.
           split; [exact W'|]. left. split; [exact X'|]. split; [exact Y'|]. split; [exists up', b; rewrite U'; auto|].
           intros x Nx. rewrite Oth by exact Nx. auto.
      * (* another thread *)
        assert (B : x_open s t <> [] \/ op = Begin).
        { unfold gstep in E. destruct op, (x_open s t) eqn:St; try discriminate; auto; left; discriminate. }
        destruct (gok_step t op s s' (x_open s t) [] E X Y ltac:(rewrite app_nil_r; reflexivity) (O t N) B) as (X' & Y' & Oth & up' & U' & F').
        rewrite app_nil_r in U'. rewrite (Oth u) by congruence. rewrite U.
        destruct (up ++ [b]) as [|f r] eqn:Q; [destruct up; discriminate|]. intros _.
        split; [exact W'|]. left. split; [exact X'|]. split; [exact Y'|]. split; [exists up, b; rewrite (Oth u) by congruence; rewrite U; auto|].
        intros x Nx. destruct (Z.eq_dec x t) as [->|Nt]; [rewrite U'; exact F'|rewrite Oth by exact Nt; auto].
    + destruct (Z.eq_dec t u) as [->|N].
      * destruct G as (G1 & G2 & G3 & G4). destruct op; unfold gstep in E; rewrite U in E.
        -- destruct (Nat.eqb_spec (g_at f) 3) as [A|]; [rewrite A in G4; contradiction|discriminate].
        -- assert (O' : forall fr x, x <> u -> upd (x_open s) u fr x = []).
           { intros fr x N. unfold upd. destruct (Z.eqb_spec x u); [contradiction|auto]. }
           assert (Own : forall fr, upd (x_open s) u fr u = fr) by (intros fr; unfold upd; rewrite Z.eqb_refl; reflexivity).
           destruct (g_at f) as [|[|[|[|[|]]]]] eqn:A; try discriminate; injection E as <-; cbn [x_open]; rewrite Own; intros _; (split; [exact W'|]).
           ++ right. cbn [x_open]. split; [|auto]. eexists. rewrite Own. split; [reflexivity|]. unfold going. cbn [g_set g_unw g_at x_set x_unw]. auto.
           ++ right. cbn [x_open]. split; [|auto]. eexists. rewrite Own. split; [reflexivity|]. unfold going. cbn [g_set g_unw g_at x_set x_unw]. auto.
           ++ left. cbn [x_open x_set x_unw]. split; [reflexivity|]. split; [exact G4|]. split.
              ** exists [], (GFrame (g_set f) (g_unw f) 3). rewrite Own. split; [reflexivity|]. split; [|constructor]. rewrite G1, G2 by lia. reflexivity.
              ** intros x N. rewrite O' by exact N. constructor.
           ++ cbn [x_open x_set x_unw]. split; [exact G3|]. split; [apply G2; lia|]. intros x. destruct (Z.eq_dec x u) as [->|N]; auto.
        -- destruct (Nat.eqb_spec (g_at f) 3) as [A|]; [rewrite A in G4; contradiction|discriminate].
      * unfold gstep in E. rewrite (O t N) in E. destruct op; try discriminate. injection E as <-. cbn [x_open].
        assert (Q : upd (x_open s) t [GFrame (x_set s) false 0] u = [f]) by (unfold upd; destruct (Z.eqb_spec u t); [congruence|exact U]).
        rewrite Q. intros C. exfalso. destruct (C t N) as (up & g & V & A).
        { unfold upd. rewrite Z.eqb_refl. discriminate. }
        rewrite Q in V. destruct up as [|? [|]]; cbn [app] in V; [|discriminate|discriminate]. injection V as <-.
        destruct G as (_ & _ & _ & G4). rewrite A in G4. exact G4.
  - destruct H as (X & Y & O). intros C. unfold gstep in E. rewrite (O t) in E. destruct op; try discriminate. injection E as <-.
    split; [exact W'|]. right. cbn [x_open x_set]. split.
    + exists (GFrame (x_set s) false 0). unfold upd. rewrite Z.eqb_refl. split; [reflexivity|]. unfold going. cbn [g_set g_unw g_at x_set x_unw]. repeat split; auto; lia.
    + intros x N. unfold upd. destruct (Z.eqb_spec x t); [contradiction|apply O].
Qed.
Lemma ginv_run : forall l s o s', ginv o s -> gcovered l s o -> grun l s = Some s' -> exists o', ginv o' s'.
Proof.
  induction l as [|[t op] l IH]; intros s o s' I C E; cbn [grun gcovered] in *. { injection E as <-. eauto. }
  destruct (gstep t op s) as [s1|] eqn:St; [|discriminate]. destruct C as (C1 & C2).
  eapply IH; [|exact C2|exact E]. apply (ginv_step t op s s1 o St I C1).
Qed.
(** Every covered interleaving of the single accesses, any number of threads: in a guard that has been entered both
    hooks are a guard's, and when no guard is open both are NULL again.  Missing: interleavings that are not
    covered; [hooks_enter_race_refuted] shows one. *)
Theorem hooks_accesses_partial : forall l s, gcovered l gstart None -> grun l gstart = Some s ->
  (forall t, entered (x_open s t) -> x_set s = true /\ x_unw s = true) /\
  ((forall t, x_open s t = []) -> x_set s = false /\ x_unw s = false).
Proof.
  intros l s C E. destruct (ginv_run l gstart None s) as (o & W & I); [|exact C|exact E|].
  { split; [intros t; constructor|]. repeat split. }
  destruct o as [u|].
  - destruct I as [(X & Y & (up & f & U & _) & O)|((f & U & G) & O)].
    + split; [auto|]. intros A. rewrite A in U. destruct up; discriminate.
    + split.
      * intros t (up & g & V & A). destruct (Z.eq_dec t u) as [->|N].
        { rewrite U in V. destruct up as [|? [|]]; cbn [app] in V; [|discriminate|discriminate]. injection V as <-.
          destruct G as (_ & _ & _ & G4). rewrite A in G4. contradiction. }
        rewrite (O t N) in V. destruct up; discriminate.
      * intros A. rewrite A in U. discriminate.
  - destruct I as (X & Y & O). split; [|auto]. intros t (up & g & V & _). rewrite O in V. destruct up; discriminate.
Qed.
Definition enter (t : Z) : list (Z * gop) := [(t, Begin); (t, Next); (t, Next); (t, Next)].
Definition leave (t : Z) : list (Z * gop) := [(t, Finish); (t, Next)].
(** Thread 2 and thread 3 enter and leave access by access in turn while thread 1 is inside. *)
Definition woven : list (Z * gop) :=
  enter 1 ++ [(2, Begin); (3, Begin); (2, Next); (3, Next); (3, Next); (2, Next); (3, Next); (2, Next); (2, Finish); (3, Finish); (3, Next); (2, Next)] ++ leave 1.
Lemma entered_dec fr : match rev fr with f :: _ => Nat.eqb (g_at f) 3 | [] => false end = true -> entered fr.
Proof.
  intros H. destruct (rev fr) as [|f r] eqn:R; [discriminate|]. exists (rev r), f. split; [|apply Nat.eqb_eq, H].
  rewrite <- (rev_involutive fr), R. reflexivity.
Qed.
Lemma gstep_others t op s s' x : gstep t op s = Some s' -> x <> t -> x_open s' x = x_open s x.
Proof.
  intros St Nx. assert (Q : forall fr, upd (x_open s) t fr x = x_open s x) by (intros fr; unfold upd; destruct (Z.eqb_spec x t); [contradiction|reflexivity]).
  unfold gstep in St. destruct op, (x_open s t) as [|f r]; try discriminate; try (destruct (Nat.eqb (g_at f) 3); [|discriminate]);
    try (destruct (g_at f) as [|[|[|[|[|]]]]]; try discriminate); injection St as <-; apply Q.
Qed.
(** The condition decided for histories of the threads [T]. *)
Fixpoint gcov_dec (T : list Z) (l : list (Z * gop)) (s : gstate) (o : option Z) : bool :=
  match l with
  | [] => true
  | (t, op) :: l =>
      existsb (Z.eqb t) T &&
      match gstep t op s with
      | None => true
      | Some s' =>
          let o' := match o with None => Some t | Some u => match x_open s' u with [] => None | _ => o end end in
          match o' with
          | None => forallb (fun x => match x_open s' x with [] => true | _ => false end) T
          | Some u => forallb (fun x => (x =? u) || match x_open s' x with [] => true | _ => false end) T ||
                      match rev (x_open s' u) with f :: _ => Nat.eqb (g_at f) 3 | [] => false end
          end && gcov_dec T l s' o'
      end
  end.
Lemma gcov_dec_ok T : forall l s o, (forall x, ~ In x T -> x_open s x = []) -> gcov_dec T l s o = true -> gcovered l s o.
Proof.
  induction l as [|[t op] l IH]; intros s o A H; cbn [gcov_dec gcovered] in *; [exact I|].
  apply andb_prop in H. destruct H as (Ht & H). apply existsb_exists in Ht. destruct Ht as (t' & Ht & Et). apply Z.eqb_eq in Et. subst t'.
  destruct (gstep t op s) as [s'|] eqn:St; [|exact I]. cbv zeta in *. apply andb_prop in H. destruct H as (H & R).
  assert (A' : forall x, ~ In x T -> x_open s' x = []).
  { intros x N. rewrite <- (A x N). apply (gstep_others _ _ _ _ _ St). intros ->. contradiction. }
  split; [|apply IH; [exact A'|exact R]].
  set (o' := match o with None => Some t | Some u => match x_open s' u with [] => None | _ => o end end) in *. clearbody o'.
  destruct o' as [u|].
  - intros x N Q. apply orb_prop in H. destruct H as [H|H]; [|apply entered_dec, H]. exfalso.
    destruct (in_dec Z.eq_dec x T) as [Y|Y]; [|apply Q, A', Y]. rewrite forallb_forall in H. specialize (H x Y).
    apply orb_prop in H. destruct H as [H|H]; [apply Z.eqb_eq in H; contradiction|]. destruct (x_open s' x); [congruence|discriminate].
  - intros x. destruct (in_dec Z.eq_dec x T) as [Y|Y]; [|apply A', Y]. rewrite forallb_forall in H. specialize (H x Y).
    destruct (x_open s' x); [reflexivity|discriminate].
Qed.
Example hooks_accesses_case : gcovered woven gstart None /\ match grun woven gstart with Some s => x_set s = false /\ x_unw s = false | None => False end.
Proof. split; [apply (gcov_dec_ok [1; 2; 3]); [reflexivity|vm_compute; reflexivity]|vm_compute; auto]. Qed.
Lemma grun_others x : forall l s s', Forall (fun o => fst o <> x) l -> grun l s = Some s' -> x_open s' x = x_open s x.
Proof.
  induction l as [|[t op] l IH]; intros s s' F E; cbn [grun] in E. { injection E as <-. reflexivity. }
  destruct (gstep t op s) as [s1|] eqn:St; [|discriminate]. inversion F; subst. cbn [fst] in *.
  rewrite (IH _ _ H2 E). apply (gstep_others _ _ _ _ _ St). congruence.
Qed.
(** Two threads enter at the same time: both save NULL; when the first leaves, the other is in its guard without hooks,
    and nobody was in a guard when they began. *)
Definition both_enter : list (Z * gop) := [(1, Begin); (2, Begin); (1, Next); (2, Next); (1, Next); (1, Next); (2, Next); (2, Next); (1, Finish); (1, Next)].
Theorem hooks_enter_race_refuted : exists l s, grun l gstart = Some s /\ entered (x_open s 2) /\ x_open s 1 = [] /\ x_set s = false /\ x_unw s = false.
Proof.
  exists both_enter, (match grun both_enter gstart with Some s => s | None => gstart end).
  split; [vm_compute; reflexivity|]. split; [apply entered_dec; vm_compute; reflexivity|]. vm_compute. auto.
Qed.
(** Leaving and entering at the same time: no guard is open and the two hooks disagree: the setup hook is a guard's, so the
    next throw writes through the NULL arena ([stale_hook_crash]). *)
Definition torn : list (Z * gop) := enter 1 ++ [(2, Begin); (1, Finish); (1, Next); (2, Next); (2, Next); (2, Next)] ++ leave 2.
Theorem hooks_torn_refuted : exists l s, grun l gstart = Some s /\ (forall t, x_open s t = []) /\ x_set s = true /\ x_unw s = false.
Proof.
  exists torn, (match grun torn gstart with Some s => s | None => gstart end).
  assert (R : grun torn gstart = Some (match grun torn gstart with Some s => s | None => gstart end)) by (vm_compute; reflexivity).
  split; [exact R|]. split; [|vm_compute; auto]. intros t.
  destruct (Z.eq_dec t 1) as [->|N1]; [vm_compute; reflexivity|]. destruct (Z.eq_dec t 2) as [->|N2]; [vm_compute; reflexivity|].
  rewrite (grun_others t torn gstart _); [reflexivity| |exact R]. unfold torn, enter, leave. repeat constructor; cbn [fst]; congruence.
Qed.

Print Assumptions hooks_threads_exact. Print Assumptions hooks_accesses_partial.
Print Assumptions hooks_enter_race_refuted. Print Assumptions hooks_torn_refuted.
