(** C94-C96: signal masks, pending signals and exceptions. *)
From Verif Require Import BaseLemmas MaskModel.

(** Where a run ends. *)
Definition final (r : mout) : mst := match r with Fin st | Exc _ st | Killed st => st end.

(** ** C94 *)
(** What a part of a run, starting at try number [n0], adds to the record: every handler finds the mask its own try began with, tries are
    numbered once each, and release functions find every signal blocked. *)
Definition well (n0 n1 : nat) (t : list mev) : Prop :=
  (n0 <= n1)%nat /\
  (forall n m, In (EvTry n m) t -> (n0 <= n < n1)%nat) /\
  (forall a n m b, t = a ++ EvTry n m :: b -> forall m', ~ In (EvTry n m') a /\ ~ In (EvTry n m') b) /\
  (forall a n m e b, t = a ++ EvHandler n m e :: b -> In (EvTry n m) a) /\
  (forall m, In (EvRelease m) t -> m = full).
Lemma well_nil n : well n n [].
Proof. split; [lia|]. split; [intros ? ? []|]. split; [intros a ? ? ? E; now destruct a|]. split; [intros a ? ? ? ? E; now destruct a|intros ? []]. Qed.
Lemma split_app {A} (t u a b : list A) x : t ++ u = a ++ x :: b ->
  (exists b', t = a ++ x :: b' /\ b = b' ++ u) \/ (exists a', u = a' ++ x :: b /\ a = t ++ a').
Proof.
  revert a. induction t as [|y t IH]; intros a E; [right; exists a; auto|]. destruct a as [|z a]; cbn in E; injection E as -> E.
  - left. exists t. auto.
  - apply IH in E as [(b' & -> & ->)|(a' & -> & ->)]; [left; exists b'|right; exists a']; auto.
Qed.
Lemma well_app n0 n1 n2 t u : well n0 n1 t -> well n1 n2 u -> well n0 n2 (t ++ u).
Proof.
  intros (A & B & C & D & E) (A' & B' & C' & D' & E'). split; [lia|]. split.
  { intros n m X. apply in_app_or in X as [X|X]; [apply B in X|apply B' in X]; lia. } split.
  { intros a n m b X m'. apply split_app in X as [(b' & X & ->)|(a' & X & ->)].
    - specialize (C _ _ _ _ X m') as [C1 C2]. split; [exact C1|]. intros Y. apply in_app_or in Y as [Y|Y]; [auto|]. apply B' in Y.
      assert (In (EvTry n m) t) as Z by (rewrite X; apply in_or_app; right; now left). apply B in Z. lia.
    - specialize (C' _ _ _ _ X m') as [C1 C2]. split; [|exact C2]. intros Y. apply in_app_or in Y as [Y|Y]; [|auto]. apply B in Y.
      assert (In (EvTry n m) u) as Z by (rewrite X; apply in_or_app; right; now left). apply B' in Z. lia. } split.
  { intros a n m e b X. apply split_app in X as [(b' & X & ->)|(a' & X & ->)]; [eauto|]. apply in_or_app. right. eauto. }
  intros m X. apply in_app_or in X as [X|X]; auto.
Qed.
Lemma well_release n : well n n [EvRelease full].
Proof.
  split; [lia|]. split; [intros ? ? [X|[]]; discriminate|]. split; [intros a ? ? ? E; destruct a as [|? [|]]; discriminate|].
  split; [intros a ? ? ? ? E; destruct a as [|? [|]]; discriminate|]. intros m [X|[]]. now injection X.
Qed.
(** [st'] comes after [st]. *)
Definition after (st st' : mst) : Prop := exists t, evs st' = evs st ++ t /\ well (tries st) (tries st') t.
Lemma after_same st st' : evs st' = evs st -> tries st' = tries st -> after st st'.
Proof. intros E F. exists []. rewrite E, F, app_nil_r. split; [reflexivity|apply well_nil]. Qed.
Lemma after_trans a b c : after a b -> after b c -> after a c.
Proof. intros (t & E & W) (u & F & V). exists (t ++ u). rewrite F, E, app_assoc. split; [reflexivity|now apply well_app with (tries b)]. Qed.
Lemma after_resume st : after st (final (resume st)).
Proof. unfold resume. destruct (let_through _ _); apply after_same; reflexivity. Qed.
Lemma after_release l : forall st, mask st = full -> after st (final (release_all l st)) /\ mask (final (release_all l st)) = full.
Proof.
  induction l as [|r l IH]; intros st M; cbn [release_all]; [split; [now apply after_same|exact M]|].
  assert (A : after st (record (EvRelease (mask st)) st)) by (exists [EvRelease full]; split; [now rewrite <- M|apply well_release]).
  destruct r as [i|s|s].
  - destruct (IH (record (EvRelease (mask st)) st) M) as [B C]. split; [now apply after_trans with (record (EvRelease (mask st)) st)|exact C].
  - split; [exact A|exact M].
  - destruct (IH (send s (record (EvRelease (mask st)) st)) M) as [B C]. split; [|exact C]. apply after_trans with (record (EvRelease (mask st)) st); [exact A|].
    apply after_trans with (send s (record (EvRelease (mask st)) st)); [now apply after_same|exact B].
Qed.
Lemma release_noexc l : forall st e s, release_all l st <> Exc e s.
Proof. induction l as [|[i|x|x] l IH]; intros st e s; cbn [release_all]; try discriminate; apply IH. Qed.
Lemma after_arrive saved rel e st : after st (final (arrive saved rel e st)) /\ (forall e' st', arrive saved rel e st = Exc e' st' -> mask st' = saved) /\ forall st', arrive saved rel e st <> Fin st'.
Proof.
  unfold arrive. destruct (after_release rel (set_mask full st) eq_refl) as [A _]. assert (A' : after st (final (release_all rel (set_mask full st)))) by (apply after_trans with (set_mask full st); [now apply after_same|exact A]).
  destruct (release_all rel (set_mask full st)) as [s|x s|s] eqn:R; cbn [final] in *.
  - split; [apply after_trans with s; [exact A'|now apply after_same]|]. split; [|discriminate]. intros e' st' E. injection E as <- <-. reflexivity.
  - now apply release_noexc in R.
  - split; [exact A'|]. split; discriminate.
Qed.
Lemma run_after p : forall st, after st (final (run p st)).
Proof.
  induction p as [|m|e|s|s|p IHp q IHq|n p IHp|body IHb rel matches handler IHh]; intros st; cbn [run].
  - now apply after_same.
  - apply after_trans with (set_mask (Z.land m full) st); [now apply after_same|apply after_resume].
  - now apply after_same.
  - destruct (blocked _ _); now apply after_same.
  - apply after_trans with (send s st); [now apply after_same|apply after_resume].
  - specialize (IHp st). destruct (run p st) as [s|e s|s]; [|exact IHp|exact IHp]. now apply after_trans with s.
  - revert st. induction n as [|n IHn]; intros st; [now apply after_same|]. specialize (IHp st) as K. destruct (run p st) as [s|e s|s]; [|exact K|exact K]. now apply after_trans with s.
  - set (n := tries st). set (saved := mask st). set (st0 := Mst saved (pend st) (S n) (evs st ++ [EvTry n saved])).
    assert (S0 : after st st0).
    { exists [EvTry n saved]. split; [reflexivity|]. cbn. split; [lia|]. split; [intros x y [E|[]]; injection E as <- _; lia|]. split; [intros a x y b E; destruct a as [|? [|]]; try discriminate; injection E as _ _ <-; intros; split; intros []|].
      split; [intros a ? ? ? ? E; destruct a as [|? [|]]; discriminate|]. intros x [E|[]]. discriminate. }
    specialize (IHb st0). assert (B : after st (final (run body st0))) by now apply after_trans with st0.
    (* the try event is in the record from here on *)
    assert (G : exists t, evs (final (run body st0)) = evs st ++ EvTry n saved :: t).
    { destruct IHb as (t & E & _). exists t. rewrite E. cbn. now rewrite <- app_assoc. }
    destruct (run body st0) as [s|e s|s]; [exact B| |exact B]. cbn [final] in *.
    destruct (after_arrive saved rel e s) as (AA & AM & _). assert (B1 : after st (final (arrive saved rel e s))) by now apply after_trans with s.
    assert (G1 : exists t, evs (final (arrive saved rel e s)) = evs st ++ EvTry n saved :: t).
    { destruct G as (t & G), AA as (u & E & _). exists (t ++ u). rewrite E, G, <- app_assoc. reflexivity. }
    destruct (arrive saved rel e s) as [s1|e1 s1|s1]; [exact B1| |exact B1]. cbn [final] in *. specialize (AM e1 s1 eq_refl).
    destruct (matches e1); [|exact B1]. set (s2 := record (EvHandler n (mask s1) e1) s1).
    assert (B2 : after st s2).
    { destruct B1 as (t & E & W), G1 as (u & G1). exists (t ++ [EvHandler n (mask s1) e1]). unfold s2. cbn [evs record tries]. split; [now rewrite E, app_assoc|].
      rewrite G1 in E. apply app_inv_head in E. destruct W as (W1 & W2 & W3 & W4 & W5). split; [exact W1|].
      split; [intros x y X; apply in_app_or in X as [X|[X|[]]]; [eauto|discriminate]|].
      split. { intros a x y b X m'. apply split_app in X as [(b' & X & ->)|(a' & X & ->)]; [|destruct a' as [|? [|]]; discriminate]. destruct (W3 _ _ _ _ X m') as [Y1 Y2]. split; [exact Y1|]. intros Y. apply in_app_or in Y as [Y|[Y|[]]]; [auto|discriminate]. }
      split. { intros a x y e' b X. apply split_app in X as [(b' & X & ->)|(a' & X & ->)]; [eauto|]. destruct a' as [|? [|]]; try discriminate. injection X as <- <- <- <-. rewrite app_nil_r, AM, <- E. now left. }
      intros x X. apply in_app_or in X as [X|[X|[]]]; [auto|discriminate]. }
    specialize (IHh e1 s2). assert (B3 : after st (final (run (handler e1) s2))) by now apply after_trans with s2.
    destruct (run (handler e1) s2) as [s3|e3 s3|s3]; [exact B3| |exact B3]. apply after_trans with s3; [exact B3|]. now apply after_arrive.
Qed.
Lemma one_bit k : k <> 0 -> Z.testbit 1 k = false.
Proof. now destruct k. Qed.
Lemma full_blocks s : 1 <= s <= 64 -> s <> 9 -> s <> 19 -> blocked full s = true.
Proof.
  intros H1 H2 H3. unfold blocked, full, bit. rewrite Z.ldiff_spec, Z.lor_spec, !Z.shiftl_spec, Z.ones_spec_low by lia.
  rewrite !one_bit by lia. reflexivity.
Qed.
(** For every program and every mask to begin with (signals 9 and 19, SIGKILL and SIGSTOP, cannot be blocked). *)
Theorem handler_mask : forall p m0, let t := evs (final (run p (begin m0))) in
  (forall a n m e b, t = a ++ EvHandler n m e :: b -> In (EvTry n m) a) /\
  (forall a n m b, t = a ++ EvTry n m :: b -> forall m', ~ In (EvTry n m') a /\ ~ In (EvTry n m') b) /\
  (forall m, In (EvRelease m) t -> forall s, 1 <= s <= 64 -> s <> 9 -> s <> 19 -> blocked m s = true).
Proof.
  intros p m0 t. destruct (run_after p (begin m0)) as (u & E & _ & _ & A & B & C). subst t. rewrite E. cbn [evs begin app]. split; [exact B|]. split; [exact A|].
  intros m Hm s H1 H2 H3. rewrite (C m Hm). now apply full_blocks.
Qed.
Lemma run_repeat n p st : run (PRepeat (S n) p) st = match run p st with Fin st => run (PRepeat n p) st | r => r end.
Proof. reflexivity. Qed.
Definition one_try (s : Z) : prog := PTry (PFault s) [] (fun e => e =? sig_ex s) (fun _ => PNop).
Lemma one_try_run s m0 k l : blocked m0 s = false -> run (one_try s) (Mst m0 [] k l) = Fin (Mst m0 [] (S k) (l ++ [EvTry k m0; EvHandler k m0 (sig_ex s)])).
Proof. intros B. unfold one_try. cbn [run mask pend tries evs]. rewrite B. cbn. rewrite Z.eqb_refl. unfold record. cbn. now rewrite <- app_assoc. Qed.
(** So a signal can be turned into an exception and handled any number of times. *)
Theorem convert_again : forall s n m0, blocked m0 s = false ->
  exists t, run (PRepeat n (PTry (PFault s) [] (fun e => e =? 1000 + s) (fun _ => PNop))) (begin m0) = Fin (Mst m0 [] n t) /\
    length (filter (fun e => match e with EvHandler _ m e => (m =? m0) && (e =? 1000 + s) | _ => false end) t) = n.
Proof.
  intros s n m0 B. change (PTry _ _ _ _) with (one_try s).
  assert (K : forall n k l, exists t, run (PRepeat n (one_try s)) (Mst m0 [] k l) = Fin (Mst m0 [] (n + k) (l ++ t)) /\ length (filter (fun e => match e with EvHandler _ m e => (m =? m0) && (e =? 1000 + s) | _ => false end) t) = n).
  { clear n. induction n as [|n IH]; intros k l.
    - exists []. rewrite app_nil_r. auto.
    - rewrite run_repeat, one_try_run by exact B. destruct (IH (S k) (l ++ [EvTry k m0; EvHandler k m0 (sig_ex s)])) as (t & E & L).
      exists ([EvTry k m0; EvHandler k m0 (sig_ex s)] ++ t). rewrite E. split; [|cbn [app filter]; unfold sig_ex; rewrite !Z.eqb_refl; cbn [andb length]; now rewrite L]. f_equal. f_equal; [lia|]. now rewrite <- !app_assoc. }
  destruct (K n 0%nat []) as (t & E & L). exists t. unfold begin. rewrite E. rewrite Nat.add_0_r. auto.
Qed.
Example handler_mask_case : evs (final (run (PSeq (PMask 4) (PTry (PSeq (PMask 0) (PTry (PFault 11) [ROk 1] (fun _ => false) (fun _ => PNop))) [ROk 2] (fun _ => true) (fun _ => PThrow 5))) (begin 0))) =
  [EvTry 0 4; EvTry 1 0; EvRelease full; EvRelease full; EvHandler 0 4 1011].
Proof. vm_compute. reflexivity. Qed.
Example convert_again_met := convert_again 11 1000 4 eq_refl.

(** ** C95 *)
(** No signal is ever sent to the thread, neither by the program nor by its release functions. *)
Fixpoint unsent (p : prog) : Prop :=
  match p with
  | PSend _ => False
  | PSeq p q => unsent p /\ unsent q
  | PRepeat _ p => unsent p
  | PTry b rel _ h => unsent b /\ (forall s, ~ In (RSend s) rel) /\ forall e, unsent (h e)
  | _ => True
  end.
(** The exceptions a program part throws of its own: its throws and the faults. *)
Inductive throwable : prog -> Z -> Prop :=
| th_throw e : throwable (PThrow e) e
| th_fault s : throwable (PFault s) (1000 + s)
| th_seq1 p q e : throwable p e -> throwable (PSeq p q) e
| th_seq2 p q e : throwable q e -> throwable (PSeq p q) e
| th_rep n p e : throwable p e -> throwable (PRepeat n p) e
| th_body b rel mt h e : throwable b e -> throwable (PTry b rel mt h) e
| th_handler b rel mt h e e' : mt e' = true -> throwable b e' -> throwable (h e') e -> throwable (PTry b rel mt h) e.
Lemma release_pend l : forall st, (forall s, ~ In (RSend s) l) -> pend st = [] -> pend (final (release_all l st)) = [].
Proof.
  induction l as [|[i|s|s] l IH]; intros st N P; cbn [release_all]; [exact P| |exact P|exfalso; apply (N s); now left].
  apply IH; [intros s I; apply (N s); now right|exact P].
Qed.
Lemma arrive_quiet saved rel e st : (forall s, ~ In (RSend s) rel) -> pend st = [] ->
  pend (final (arrive saved rel e st)) = [] /\ forall e' st', arrive saved rel e st = Exc e' st' -> e' = e.
Proof.
  intros N P. unfold arrive. assert (Q := release_pend rel (set_mask full st) N P). destruct (release_all rel (set_mask full st)) as [s|x s|s] eqn:R; cbn [final] in *.
  - rewrite Q. cbn. split; [reflexivity|]. intros e' st' E. now injection E.
  - now apply release_noexc in R.
  - split; [exact Q|discriminate].
Qed.
(** Without sent signals what reaches a handler, or leaves the program, is an exception its own try block throws. *)
Theorem exception_kept_partial : forall p st, unsent p -> pend st = [] -> pend (final (run p st)) = [] /\ forall e st', run p st = Exc e st' -> throwable p e.
Proof.
  induction p as [|m|x|s|s|p IHp q IHq|n p IHp|body IHb rel matches handler IHh]; intros st U P; cbn [run unsent] in *.
  - split; [exact P|discriminate].
  - unfold resume. cbn [pend set_mask]. rewrite P. cbn. split; [exact P|discriminate].
  - split; [exact P|]. intros e st' E. injection E as <- _. constructor.
  - destruct (blocked _ _); (split; [exact P|]); [discriminate|]. intros e st' E. injection E as <- _. constructor.
  - destruct U.
  - destruct U as [U1 U2]. destruct (IHp st U1 P) as [A B]. destruct (run p st) as [s|e s|s]; cbn [final] in *; [|split; [exact A|intros e0 st' E; apply th_seq1; eauto]|split; [exact A|discriminate]].
    destruct (IHq s U2 A) as [C D]. split; [exact C|]. intros e st' E. apply th_seq2. eauto.
  - revert st P. induction n as [|n IHn]; intros st P; [split; [exact P|discriminate]|]. destruct (IHp st U P) as [A B]. destruct (run p st) as [s|e s|s]; cbn [final] in *; [|split; [exact A|intros e0 st' E; apply th_rep; eauto]|split; [exact A|discriminate]].
    destruct (IHn s A) as [C D]. split; [exact C|]. intros e st' E. specialize (D e st' E). inversion D; subst. now apply th_rep.
  - destruct U as (U1 & U2 & U3). set (st0 := Mst _ _ _ _). destruct (IHb st0 U1 P) as [A B]. destruct (run body st0) as [s|e s|s]; cbn [final] in *; [split; [exact A|discriminate]| |split; [exact A|discriminate]].
    specialize (B e s eq_refl). destruct (arrive_quiet (mask st) rel e s U2 A) as [A1 B1]. destruct (arrive (mask st) rel e s) as [s1|e1 s1|s1]; cbn [final] in *; [split; [exact A1|discriminate]| |split; [exact A1|discriminate]].
    specialize (B1 e1 s1 eq_refl). subst e1. destruct (matches e) eqn:Me; [|split; [exact A1|intros e0 st' E; injection E as <- _; now apply th_body]].
    destruct (IHh e (record (EvHandler (tries st) (mask s1) e) s1) (U3 e) A1) as [A2 B2]. destruct (run (handler e) _) as [s2|e2 s2|s2]; cbn [final] in *; [split; [exact A2|discriminate]| |split; [exact A2|discriminate]].
    specialize (B2 e2 s2 eq_refl). destruct (arrive_quiet (mask st) [] e2 s2 (fun _ => id) A2) as [A3 B3]. split; [exact A3|]. intros e0 st' E. rewrite (B3 e0 st' E). now apply th_handler with e.
Qed.
Example exception_kept_met := exception_kept_partial (PTry (PTry (PFault 8) [ROk 1; RFault 3] (fun e => e =? 7) (fun _ => PNop)) [ROk 2] (fun e => e =? 1008) (fun _ => PThrow 5)) (begin 2)
  ltac:(cbn; repeat split; intros; intuition discriminate) eq_refl.
(** A signal sent while a release function runs replaces the exception that was thrown. *)
Theorem exception_kept_refuted : exists p st, pend st = [] /\ (forall e, throwable p e -> e = 5) /\ exists t, run p st = Fin (Mst 0 [] 1 t) /\ In (EvHandler 0 0 1015) t /\ ~ In (EvHandler 0 0 5) t.
Proof.
  exists (PTry (PThrow 5) [ROk 1; RSend 15; ROk 2] (fun _ => true) (fun _ => PNop)), (begin 0). split; [reflexivity|]. split.
  - intros e T. inversion T as [| | | | |b rel mt h x T1|b rel mt h x y M T1 T2]; subst; [now inversion T1|inversion T2].
  - exists [EvTry 0 0; EvRelease full; EvRelease full; EvRelease full; EvHandler 0 0 1015]. split; [vm_compute; reflexivity|]. split; [cbn; tauto|]. intros H. repeat destruct H as [H|H]; try discriminate H. exact H.
Qed.
(** The signals pending once the release functions have run: those pending before, then the ones sent, in order of their first sending. *)
Definition pending (before : list Z) (rel : list release) : list Z :=
  fold_left (fun l r => match r with RSend s => if in_dec Z.eq_dec s l then l else l ++ [s] | _ => l end) rel before.
(** Exactly which: the signals the thrower's mask lets through are delivered first, then those that only the mask of the try block lets
    through, and the one delivered last is the exception.  The exception thrown stays only when both masks block every pending signal. *)
Theorem exception_replaced : forall saved rel e st e' st', arrive saved rel e st = Exc e' st' ->
  let ps := pending (pend st) rel in
  (e' = e /\ (forall s, In s ps -> blocked (mask st) s = true /\ blocked saved s = true) \/
   exists a s b, ps = a ++ s :: b /\ e' = 1000 + s /\
     (blocked (mask st) s = true /\ blocked saved s = false /\ (forall x, In x b -> blocked (mask st) x = false \/ blocked saved x = true) \/
      blocked (mask st) s = false /\ (forall x, In x b -> blocked (mask st) x = true) /\ (forall x, In x ps -> blocked (mask st) x = true -> blocked saved x = true))) /\
  (forall s, In s (pend st') <-> In s ps /\ blocked (mask st) s = true /\ blocked saved s = true).
Proof.
  intros saved rel e st e' st' E ps. unfold arrive in E. destruct (release_all rel (set_mask full st)) as [s|x s|s] eqn:R; [|destruct (release_noexc _ _ _ _ R)|discriminate]. injection E as E1 E2.
  assert (K : forall l st s, release_all l st = Fin s -> pend s = pending (pend st) l).
  { clear. unfold pending. induction l as [|[i|y|y] l IH]; intros st s E; cbn [release_all] in E.
    - injection E as <-. reflexivity.
    - rewrite (IH _ _ E). reflexivity.
    - discriminate.
    - rewrite (IH _ _ E). cbn [send record pend fold_left]. f_equal. destruct (existsb (Z.eqb y) (pend st)) eqn:X; destruct (in_dec Z.eq_dec y (pend st)) as [I|I]; auto.
      + exfalso. apply existsb_exists in X as (z & X & Y). apply Z.eqb_eq in Y as <-. auto.
      + exfalso. assert (existsb (Z.eqb y) (pend st) = true) by (apply existsb_exists; exists y; split; [exact I|apply Z.eqb_refl]). congruence. }
  specialize (K _ _ _ R). cbn [set_mask pend] in K. fold ps in K. rewrite K in *. clear K R.
  assert (LF : forall (f : Z -> bool) l, filter f l = [] \/ exists a z b, l = a ++ z :: b /\ f z = true /\ (forall x, In x b -> f x = false) /\ filter f l = filter f a ++ [z]).
  { clear. intros f l. induction l as [|y l [IH|(a & z & b & -> & H1 & H2 & H3)]]; cbn [filter]; auto.
    - rewrite IH. destruct (f y) eqn:Fy; auto. right. exists [], y, l. split; [reflexivity|]. split; [exact Fy|]. split; [|reflexivity]. intros x X.
      destruct (f x) eqn:Fx; auto. assert (In x (filter f l)) by (now apply filter_In). rewrite IH in H. destruct H.
    - right. exists (y :: a), z, b. split; [reflexivity|]. split; [exact H1|]. split; [exact H2|]. rewrite H3. cbn [filter]. destruct (f y); reflexivity. }
  split; [|intros x; rewrite <- E2; cbn [pend]; unfold held; rewrite !filter_In; tauto].
  assert (FF : let_through saved (held (mask st) ps) = filter (fun x => blocked (mask st) x && negb (blocked saved x)) ps).
  { unfold let_through, held. clear. induction ps as [|y l IH]; cbn [filter]; auto. destruct (blocked (mask st) y); cbn [filter andb]; rewrite IH; reflexivity. }
  rewrite FF in E1. destruct (LF (fun x => blocked (mask st) x && negb (blocked saved x)) ps) as [N2|(a & z & b & P1 & P2 & P3 & P4)].
  - assert (B2 : forall x, In x ps -> blocked (mask st) x = true -> blocked saved x = true).
    { intros x X Y. destruct (blocked saved x) eqn:B; auto. assert (In x (filter (fun x => blocked (mask st) x && negb (blocked saved x)) ps)) as I by (apply filter_In; rewrite Y, B; auto). rewrite N2 in I. destruct I. }
    rewrite N2, app_nil_r in E1. unfold let_through in E1. destruct (LF (fun s => negb (blocked (mask st) s)) ps) as [N1|(a & z & b & P1 & P2 & P3 & P4)].
    + left. rewrite N1 in E1. cbn in E1. split; [auto|]. intros x X. assert (B1 : blocked (mask st) x = true).
      { destruct (blocked (mask st) x) eqn:B; auto. assert (In x (filter (fun s => negb (blocked (mask st) s)) ps)) as I by (apply filter_In; now rewrite B). rewrite N1 in I. destruct I. }
      auto.
    + right. exists a, z, b. split; [exact P1|]. rewrite P4, map_app in E1. cbn [map] in E1. rewrite last_last in E1. split; [now rewrite <- E1|]. right.
      apply negb_true_iff in P2. split; [exact P2|]. split; [|exact B2]. intros x X. apply P3 in X. now apply negb_false_iff in X.
  - right. exists a, z, b. split; [exact P1|]. rewrite P4, app_assoc, map_app in E1. cbn [map] in E1. rewrite last_last in E1. split; [now rewrite <- E1|]. left.
    apply andb_prop in P2 as [P2 P5]. apply negb_true_iff in P5. split; [exact P2|]. split; [exact P5|]. intros x X. apply P3 in X. destruct (blocked (mask st) x); [right|now left]. now apply negb_false_iff in X.
Qed.
Example exception_replaced_met := exception_replaced 0 [RSend 15; ROk 1; RSend 2] 5 (Mst 2 [3] 0 []) 1002 (Mst 0 [] 0 [EvRelease full; EvRelease full; EvRelease full]) eq_refl.

(** What a signal does to a thread that does not block it: it enters the handler as its own exception, with itself blocked
    in addition and no longer pending, and nothing else changes; a part of the program that goes on leaves no signal pending that is not blocked. *)
Theorem signal_delivered : forall p m' st, (exists s, p = PSend s /\ 1 <= s /\ m' = mask st) \/ (exists m, p = PMask m /\ m' = Z.land m full) -> Forall (fun s => 1 <= s) (pend st) ->
  match run p st with
  | Exc e st' => exists s, e = 1000 + s /\ (In s (pend st) \/ p = PSend s) /\ blocked m' s = false /\
      (forall x, 1 <= x -> blocked (mask st') x = blocked m' x || (x =? s)) /\
      (forall x, In x (pend st') <-> x <> s /\ (In x (pend st) \/ p = PSend x)) /\ evs st' = evs st
  | Fin st' => mask st' = m' /\ evs st' = evs st /\ (forall x, In x (pend st') <-> In x (pend st) \/ p = PSend x) /\ forall x, In x (pend st') -> blocked m' x = true
  | Killed _ => False
  end.
Proof.
  assert (K : forall p m' st st1, run p st = resume st1 -> mask st1 = m' -> evs st1 = evs st -> (forall x, In x (pend st1) <-> In x (pend st) \/ p = PSend x) -> Forall (fun s => 1 <= s) (pend st1) ->
    match run p st with
    | Exc e st' => exists s, e = 1000 + s /\ (In s (pend st) \/ p = PSend s) /\ blocked m' s = false /\
        (forall x, 1 <= x -> blocked (mask st') x = blocked m' x || (x =? s)) /\
        (forall x, In x (pend st') <-> x <> s /\ (In x (pend st) \/ p = PSend x)) /\ evs st' = evs st
    | Fin st' => mask st' = m' /\ evs st' = evs st /\ (forall x, In x (pend st') <-> In x (pend st) \/ p = PSend x) /\ forall x, In x (pend st') -> blocked m' x = true
    | Killed _ => False
    end).
  { intros p m' st st1 R M V P F. rewrite R. unfold resume. rewrite M. destruct (let_through m' (pend st1)) as [|s l] eqn:L.
    - split; [exact M|]. split; [exact V|]. split; [exact P|]. intros x X. destruct (blocked m' x) eqn:B; auto. assert (In x (let_through m' (pend st1))) as I by (apply filter_In; now rewrite B). rewrite L in I. destruct I.
    - assert (In s (let_through m' (pend st1))) as I by (rewrite L; now left). apply filter_In in I as [I J]. apply negb_true_iff in J. exists s. split; [reflexivity|]. split; [now apply P|]. split; [exact J|].
      cbn [mask pend evs]. split; [|split; [|exact V]].
      + intros x X. unfold blocked. rewrite Z.lor_spec. f_equal. unfold bit. rewrite Forall_forall in F. specialize (F s I). rewrite Z.shiftl_spec by lia. destruct (Z.eqb_spec x s) as [->|N].
        * replace (s - 1 - (s - 1)) with 0 by lia. reflexivity.
        * apply one_bit. lia.
      + intros x. rewrite filter_In, P. rewrite negb_true_iff, Z.eqb_neq. tauto. }
  intros p m' st [(s & -> & Hs & ->)|(m & -> & ->)] F.
  - apply (K _ _ _ (send s st)); [reflexivity|reflexivity|reflexivity| |].
    + intros x. cbn [send pend]. destruct (existsb (Z.eqb s) (pend st)) eqn:X.
      * apply existsb_exists in X as (z & X & Y). apply Z.eqb_eq in Y as <-. split; [tauto|]. intros [?|[= <-]]; auto.
      * rewrite in_app_iff. cbn. split; [intros [?|[->|[]]]; auto|]. intros [?|[= <-]]; auto.
    + cbn [send pend]. destruct (existsb (Z.eqb s) (pend st)); [exact F|]. apply Forall_app. auto.
  - apply (K _ _ _ (set_mask (Z.land m full) st)); [reflexivity|reflexivity|reflexivity| |exact F]. intros x. cbn. split; [auto|]. intros [?|?]; [auto|discriminate].
Qed.
Example signal_delivered_met := signal_delivered (PMask 0) 0 (Mst 20 [3; 5] 0 []) ltac:(right; exists 0; auto) ltac:(repeat constructor; discriminate).
Example signal_delivered_case : run (PMask 0) (Mst 20 [3; 5] 0 []) = Exc 1003 (Mst 4 [5] 0 []).
Proof. reflexivity. Qed.

(** ** C96 *)
(** A fault in a release function kills the process: no further release function and no handler. *)
Theorem release_fault_kills : forall body a s b mt h st e st1, run body (Mst (mask st) (pend st) (S (tries st)) (evs st ++ [EvTry (tries st) (mask st)])) = Exc e st1 ->
  (forall s, ~ In (RFault s) a) ->
  exists st', run (PTry body (a ++ RFault s :: b) mt h) st = Killed st' /\ evs st' = evs st1 ++ repeat (EvRelease full) (length a + 1).
Proof.
  intros body a s b mt h st e st1 R N. cbn [run]. rewrite R. unfold arrive.
  assert (K : forall a st, mask st = full -> (forall s, ~ In (RFault s) a) -> exists st', release_all (a ++ RFault s :: b) st = Killed st' /\ evs st' = evs st ++ repeat (EvRelease full) (length a + 1)).
  { clear. induction a as [|[i|y|y] a IH]; intros st M N; cbn [release_all app].
    - eexists. split; [reflexivity|]. cbn. now rewrite M.
    - destruct (IH (record (EvRelease (mask st)) st) M) as (st' & E & F); [intros z Z; apply (N z); now right|]. exists st'. split; [exact E|]. rewrite F. cbn. rewrite M, <- app_assoc. reflexivity.
    - exfalso. apply (N y). now left.
    - destruct (IH (send y (record (EvRelease (mask st)) st)) M) as (st' & E & F); [intros z Z; apply (N z); now right|]. exists st'. split; [exact E|]. rewrite F. cbn. rewrite M, <- app_assoc. reflexivity. }
  destruct (K a (set_mask full st1) eq_refl N) as (st' & E & F). exists st'. rewrite E. split; [reflexivity|exact F].
Qed.
(** A program that contains a fault, in its own code or in a release function. *)
Inductive may_kill : prog -> Prop :=
| mk_fault s : may_kill (PFault s)
| mk_seq1 p q : may_kill p -> may_kill (PSeq p q)
| mk_seq2 p q : may_kill q -> may_kill (PSeq p q)
| mk_rep n p : may_kill p -> may_kill (PRepeat n p)
| mk_body b rel mt h : may_kill b -> may_kill (PTry b rel mt h)
| mk_rel b rel mt h s : In (RFault s) rel -> may_kill (PTry b rel mt h)
| mk_handler b rel mt h e : may_kill (h e) -> may_kill (PTry b rel mt h).
Lemma arrive_lives saved rel e st : (forall s, ~ In (RFault s) rel) -> forall st', arrive saved rel e st <> Killed st'.
Proof.
  intros N st' E. unfold arrive in E. assert (K : forall l st st', (forall s, ~ In (RFault s) l) -> release_all l st <> Killed st').
  { clear. induction l as [|[i|y|y] l IH]; intros st st' N; cbn [release_all]; [discriminate| |exfalso; apply (N y); now left|]; apply IH; intros z Z; apply (N z); now right. }
  destruct (release_all rel (set_mask full st)) as [s|x s|s] eqn:R; [discriminate|discriminate|]. now apply K in R.
Qed.
(** Nothing but a fault gets the process killed. *)
Theorem killed_by_fault : forall p st st', run p st = Killed st' -> may_kill p.
Proof.
  induction p as [|m|x|s|s|p IHp q IHq|n p IHp|body IHb rel matches handler IHh]; intros st st' E; cbn [run] in E; try discriminate.
  - unfold resume in E. destruct (let_through _ _); discriminate.
  - constructor.
  - unfold resume in E. destruct (let_through _ _); discriminate.
  - destruct (run p st) as [s|e s|s] eqn:R; [|discriminate|]; [apply mk_seq2|apply mk_seq1]; eauto.
  - apply mk_rep. revert st E. induction n as [|n IHn]; intros st E; [discriminate|]. destruct (run p st) as [s|e s|s] eqn:R; [|discriminate|]; eauto.
  - destruct (run body _) as [s|e s|s] eqn:R; [discriminate| |apply mk_body; eauto].
    destruct (arrive (mask st) rel e s) as [s1|e1 s1|s1] eqn:A; [discriminate| |].
    + destruct (matches e1); [|discriminate]. destruct (run (handler e1) _) as [s2|e2 s2|s2] eqn:H; [discriminate| |apply mk_handler with e1; eauto].
      exfalso. now apply (arrive_lives (mask st) [] e2 s2 (fun _ => id) st').
    + destruct (existsb (fun r => match r with RFault _ => true | _ => false end) rel) eqn:X.
      * apply existsb_exists in X as ([i|y|y] & X & Y); try discriminate. now apply mk_rel with y.
      * exfalso. apply (arrive_lives (mask st) rel e s) with s1; [|exact A]. intros y Y. enough (existsb (fun r => match r with RFault _ => true | _ => false end) rel = true) by congruence. apply existsb_exists. now exists (RFault y).
Qed.
(** ex_throw's test for a throw during unwinding (except.c 382-383) is not reached by a fault there: the process dies with functions unreleased. *)
Theorem release_fault_refuted : exists body rel h st st', run (PTry body rel (fun _ => true) h) st = Killed st' /\ blocked (mask st) 11 = false /\ In (RFault 11) rel /\
  length (filter (fun e => match e with EvRelease _ => true | _ => false end) (evs st')) = 2%nat /\ length rel = 3%nat /\ (forall n m e, ~ In (EvHandler n m e) (evs st')).
Proof.
  exists (PThrow 5), [ROk 1; RFault 11; ROk 2], (fun _ => PNop), (begin 0). eexists. split; [vm_compute; reflexivity|]. split; [reflexivity|]. split; [cbn; tauto|]. split; [reflexivity|]. split; [reflexivity|].
  intros n m e H. repeat destruct H as [H|H]; try discriminate H. exact H.
Qed.
Example release_fault_met := release_fault_kills (PThrow 5) [ROk 1; RSend 2] 11 [ROk 2] (fun _ => true) (fun _ => PNop) (begin 0) 5 _ eq_refl ltac:(intros s H; repeat destruct H as [H|H]; try discriminate H; exact H).
Print Assumptions handler_mask.
Print Assumptions convert_again.
Print Assumptions exception_kept_partial.
Print Assumptions exception_kept_refuted.
Print Assumptions exception_replaced.
Print Assumptions signal_delivered.
Print Assumptions release_fault_kills.
Print Assumptions killed_by_fault.
Print Assumptions release_fault_refuted.
