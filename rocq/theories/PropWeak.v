(** C145, C146: the spinlock and the promise with release/acquire memory (WeakModel.v). *)
From Verif Require Import Base BaseLemmas AtomicModel WeakModel.
Import ListNotations.

(** The thread has the lock. *)
Definition has_lock (p : place) : Prop := match p with Inside _ | Read _ _ | Leave => True | _ => False end.
(** The thread is in the loop of the lock. *)
Definition wants_lock (p : place) : Prop := match p with Try _ | Spin _ => True | _ => False end.
(** What holds of every state; [top] is the newest position. *)
Definition winv (v : Z) (s : wstate) : Prop := exists top,
  w_race s = false /\
  (forall t m, w_hist s t = Some m -> t <= top /\ (m_pub m <= w_acc s)%nat) /\
  (exists m, w_hist s top = Some m) /\
  (forall i, (w_know (w_thr s i) <= w_acc s)%nat /\ w_seen (w_thr s i) <= top) /\
  w_data s = fold_left (fun a f => f a) (w_done s) v /\
  (forall i f x, w_at (w_thr s i) = Read f x -> x = w_data s) /\
  (((forall i, ~ has_lock (w_at (w_thr s i))) /\ (forall m, w_hist s top = Some m -> m_val m = 0 /\ m_pub m = w_acc s) /\
    (forall t m, w_hist s t = Some m -> m_val m = 0 -> t <> top -> w_hist s (t + 1) <> None)) \/
   (exists i, has_lock (w_at (w_thr s i)) /\ (forall j, has_lock (w_at (w_thr s j)) -> j = i) /\ w_know (w_thr s i) = w_acc s /\
    (forall t, w_seen (w_thr s i) <= t <= top -> w_hist s t <> None) /\ (forall t m, w_hist s t = Some m -> m_val m = 0 -> w_hist s (t + 1) <> None))).
(** Lookups. *)
Lemma put_same h t m : put h t m t = Some m. Proof. unfold put. rewrite Z.eqb_refl. reflexivity. Qed.
(** Other positions. *)
Lemma put_other h t m u : u <> t -> put h t m u = h u. Proof. intros N. unfold put. apply Z.eqb_neq in N. rewrite N. reflexivity. Qed.
(** What is there stays. *)
Lemma put_keeps h t m u : h u <> None -> put h t m u <> None. Proof. intros N. unfold put. destruct (u =? t); [discriminate|exact N]. Qed.
(** The thread table. *)
Lemma upd_is {A} (f : nat -> A) i x : upd f i x i = x. Proof. unfold upd. rewrite Nat.eqb_refl. reflexivity. Qed.
(** Other threads. *)
Lemma upd_not {A} (f : nat -> A) i j x : j <> i -> upd f i x j = f j. Proof. intros N. unfold upd. apply Nat.eqb_neq in N. rewrite N. reflexivity. Qed.
(** The start. *)
Lemma winv_init v : winv v (weak_init v).
Proof.
  exists 0. cbn. repeat split; try tauto; try lia; try discriminate.
  - unfold cleared, put in H. destruct (t =? 0) eqn:E; [lia|discriminate].
  - unfold cleared, put in H. destruct (t =? 0); [injection H as <-; cbn; lia|discriminate].
  - exists (Msg 0 0). reflexivity.
  - left. split; [tauto|]. split; [intros m H; injection H as <-; split; reflexivity|]. intros t m H _ N. unfold cleared, put in H. destruct (t =? 0) eqn:E; [lia|discriminate].
Qed.
(** Every step keeps it. *)
Lemma winv_step v i s s' : weak_step i s s' -> winv v s -> winv v s'.
Proof.
  intros H (top & RA & HI & (mt & HT) & TH & DA & RD & L). destruct H as [f g k E|f g k t m E G M N|f g k t m E G M|f g k E|f x g k E|g k t E G N].
  - exists top. cbn. split; [exact RA|]. split; [exact HI|]. split; [exists mt; exact HT|]. pose proof (TH i) as TI. rewrite E in TI. cbn in TI.
    assert (NL : forall j, has_lock (w_at (upd (w_thr s) i (WT (Try f) g k) j)) -> has_lock (w_at (w_thr s j)) /\ j <> i). { intros j. destruct (Nat.eq_dec j i) as [->|J]; [rewrite upd_is; cbn; tauto|rewrite (upd_not _ _ _ _ J); tauto]. }
    split; [intros j; destruct (Nat.eq_dec j i) as [->|J]; [rewrite upd_is; exact TI|rewrite (upd_not _ _ _ _ J); apply TH]|]. split; [exact DA|].
    split; [intros j f0 x; destruct (Nat.eq_dec j i) as [->|J]; [rewrite upd_is; discriminate|rewrite (upd_not _ _ _ _ J); apply RD]|].
    destruct L as [(NH & L1 & L2)|(h & HH & HU & HK & HC & HZ)]; [left|right].
    + split; [intros j HJ; exact (NH j (proj1 (NL j HJ)))|]. split; assumption.
    + assert (h <> i) by (intros ->; rewrite E in HH; exact HH). exists h. rewrite !(upd_not _ _ _ _ H). split; [exact HH|]. split; [intros j HJ; exact (HU j (proj1 (NL j HJ)))|]. split; [exact HK|]. split; assumption.
  - pose proof (TH i) as TI. rewrite E in TI. cbn in TI. destruct (HI _ _ M) as (MT & MP). pose proof MT as MT'.
    assert (NI : ~ has_lock (w_at (w_thr s i))) by (rewrite E; exact (fun x => x)).
    destruct (m_val m =? 0) eqn:V.
    + apply Z.eqb_eq in V. destruct L as [(NH & L1 & L2)|(h & HH & HU & HK & HC & HZ)]; [|exfalso; exact (HZ _ _ M V N)].
      assert (t = top). { destruct (Z.eq_dec t top); [assumption|]. exfalso. exact (L2 _ _ M V n N). } subst t. destruct (L1 _ M) as (_ & MA).
      exists (top + 1). cbn. split; [exact RA|]. split; [|split; [|split; [|split; [|split]]]].
      * intros u mu HU. unfold put in HU. destruct (u =? top + 1) eqn:U; [injection HU as <-; cbn; lia|]. destruct (HI _ _ HU). lia.
      * eexists. apply put_same.
      * intros j. destruct (Nat.eq_dec j i) as [->|J]; [rewrite upd_is; cbn; lia|rewrite (upd_not _ _ _ _ J); destruct (TH j); lia].
      * exact DA.
      * intros j f0 x. destruct (Nat.eq_dec j i) as [->|J]; [rewrite upd_is; discriminate|rewrite (upd_not _ _ _ _ J); apply RD].
      * right. exists i. rewrite !upd_is. cbn. split; [exact I|]. split; [|split; [lia|split]].
        -- intros j. destruct (Nat.eq_dec j i) as [->|J]; [reflexivity|rewrite (upd_not _ _ _ _ J); intros HJ; destruct (NH j HJ)].
        -- intros u HU. assert (u = top + 1) by lia. subst u. rewrite put_same. discriminate.
        -- intros u mu HU VU. unfold put in HU. destruct (u =? top + 1) eqn:U; [injection HU as <-; discriminate VU|]. destruct (Z.eq_dec u top) as [->|NU]; [rewrite put_same; discriminate|]. apply put_keeps. exact (L2 _ _ HU VU NU).
    + apply Z.eqb_neq in V. set (top' := Z.max top (t + 1)).
      assert (NL : forall j k', has_lock (w_at (upd (w_thr s) i (WT (Spin f) (t + 1) k') j)) -> has_lock (w_at (w_thr s j))). { intros j k'. destruct (Nat.eq_dec j i) as [->|J]; [rewrite upd_is; cbn; tauto|rewrite (upd_not _ _ _ _ J); tauto]. }
      exists top'. cbn. split; [exact RA|]. split; [|split; [|split; [|split; [|split]]]].
      * intros u mu HU. unfold put in HU. destruct (u =? t + 1) eqn:U; [injection HU as <-; cbn; lia|]. destruct (HI _ _ HU). lia.
      * unfold top'. destruct (Z.max_spec top (t + 1)) as [[A ->]|[A ->]]; [eexists; apply put_same|]. destruct (Z.eq_dec top (t + 1)) as [->|B]; [eexists; apply put_same|]. exists mt. rewrite put_other; assumption.
      * intros j. destruct (Nat.eq_dec j i) as [->|J]; [rewrite upd_is; cbn; lia|rewrite (upd_not _ _ _ _ J); destruct (TH j); lia].
      * exact DA.
      * intros j f0 x. destruct (Nat.eq_dec j i) as [->|J]; [rewrite upd_is; discriminate|rewrite (upd_not _ _ _ _ J); apply RD].
      * destruct L as [(NH & L1 & L2)|(h & HH & HU & HK & HC & HZ)]; [left|right].
        -- assert (t <> top) by (intros ->; destruct (L1 _ M); congruence). assert (t + 1 <> top) by (intros <-; congruence). assert (top' = top) by lia. rewrite H1.
           split; [intros j HJ; exact (NH j (NL _ _ HJ))|]. split; [intros mu HU; rewrite put_other in HU by lia; exact (L1 _ HU)|].
           intros u mu HU VU NU. unfold put in HU. destruct (u =? t + 1) eqn:U; [injection HU as <-; discriminate VU|]. apply put_keeps. exact (L2 _ _ HU VU NU).
        -- assert (h <> i) by (intros ->; contradiction). exists h. rewrite !(upd_not _ _ _ _ H). split; [exact HH|]. split; [intros j HJ; exact (HU j (NL _ _ HJ))|]. split; [exact HK|]. split.
           ++ intros u UU. destruct (Z.eq_dec u (t + 1)) as [->|NU]; [rewrite put_same; discriminate|]. apply put_keeps. apply HC. lia.
           ++ intros u mu HU' VU. unfold put in HU'. destruct (u =? t + 1) eqn:U; [injection HU' as <-; discriminate VU|]. apply put_keeps. exact (HZ _ _ HU' VU).
  - pose proof (TH i) as TI. rewrite E in TI. cbn in TI. destruct (HI _ _ M) as (MT & MP). set (q := if m_val m =? 1 then Spin f else Try f).
    assert (NQ : ~ has_lock q) by (unfold q; destruct (m_val m =? 1); exact (fun x => x)).
    assert (NI : ~ has_lock (w_at (w_thr s i))) by (rewrite E; exact (fun x => x)).
    assert (NL : forall j, has_lock (w_at (upd (w_thr s) i (WT q t k) j)) -> has_lock (w_at (w_thr s j))). { intros j. destruct (Nat.eq_dec j i) as [->|J]; [rewrite upd_is; cbn [w_at]; tauto|rewrite (upd_not _ _ _ _ J); tauto]. }
    exists top. cbn [w_race w_hist w_acc w_thr w_data w_done]. split; [exact RA|]. split; [exact HI|]. split; [exists mt; exact HT|]. split; [|split; [exact DA|split]].
    + intros j. destruct (Nat.eq_dec j i) as [->|J]; [rewrite upd_is; cbn; lia|rewrite (upd_not _ _ _ _ J); apply TH].
    + intros j f0 x. destruct (Nat.eq_dec j i) as [->|J]; [rewrite upd_is; cbn [w_at]; unfold q; destruct (m_val m =? 1); discriminate|rewrite (upd_not _ _ _ _ J); apply RD].
    + destruct L as [(NH & L1 & L2)|(h & HH & HU & HK & HC & HZ)]; [left|right].
      * split; [intros j HJ; exact (NH j (NL _ HJ))|]. split; assumption.
      * assert (h <> i) by (intros ->; contradiction). exists h. rewrite !(upd_not _ _ _ _ H). split; [exact HH|]. split; [intros j HJ; exact (HU j (NL _ HJ))|]. split; [exact HK|]. split; assumption.
  - pose proof (TH i) as TI. rewrite E in TI. cbn in TI. destruct L as [(NH & _)|(h & HH & HU & HK & HC & HZ)]; [destruct (NH i); rewrite E; exact I|]. assert (i = h) by (apply HU; rewrite E; exact I). subst h. rewrite E in HK, HC. cbn in HK, HC.
    exists top. cbn [w_race w_hist w_acc w_thr w_data w_done]. rewrite HK, Nat.eqb_refl, RA. split; [reflexivity|]. split; [intros u mu MU; destruct (HI _ _ MU); lia|]. split; [exists mt; exact HT|]. split; [|split; [exact DA|split]].
    + intros j. destruct (Nat.eq_dec j i) as [->|J]; [rewrite upd_is; cbn; lia|rewrite (upd_not _ _ _ _ J); destruct (TH j); lia].
    + intros j f0 x. destruct (Nat.eq_dec j i) as [->|J]; [rewrite upd_is; cbn; intros X; injection X as _ <-; reflexivity|rewrite (upd_not _ _ _ _ J); apply RD].
    + right. exists i. rewrite !upd_is. cbn. split; [exact I|]. split; [|split; [lia|split; assumption]].
      intros j. destruct (Nat.eq_dec j i) as [->|J]; [reflexivity|rewrite (upd_not _ _ _ _ J); apply HU].
  - pose proof (TH i) as TI. rewrite E in TI. cbn in TI. destruct L as [(NH & _)|(h & HH & HU & HK & HC & HZ)]; [destruct (NH i); rewrite E; exact I|]. assert (i = h) by (apply HU; rewrite E; exact I). subst h. pose proof (RD i f x) as RX. rewrite E in HK, HC, RX. cbn in HK, HC, RX. specialize (RX eq_refl). subst x.
    exists top. cbn [w_race w_hist w_acc w_thr w_data w_done]. rewrite HK, Nat.eqb_refl, RA. split; [reflexivity|]. split; [intros u mu MU; destruct (HI _ _ MU); lia|]. split; [exists mt; exact HT|]. split; [|split; [rewrite fold_left_app, <- DA; reflexivity|split]].
    + intros j. destruct (Nat.eq_dec j i) as [->|J]; [rewrite upd_is; cbn; lia|rewrite (upd_not _ _ _ _ J); destruct (TH j); lia].
    + intros j f0 x. destruct (Nat.eq_dec j i) as [->|J]; [rewrite upd_is; discriminate|rewrite (upd_not _ _ _ _ J); intros X; destruct J; apply HU; rewrite X; exact I].
    + right. exists i. rewrite !upd_is. cbn. split; [exact I|]. split; [|split; [lia|split; assumption]].
      intros j. destruct (Nat.eq_dec j i) as [->|J]; [reflexivity|rewrite (upd_not _ _ _ _ J); apply HU].
  - pose proof (TH i) as TI. rewrite E in TI. cbn in TI. destruct L as [(NH & _)|(h & HH & HU & HK & HC & HZ)]; [destruct (NH i); rewrite E; exact I|]. assert (i = h) by (apply HU; rewrite E; exact I). subst h. rewrite E in HK, HC. cbn in HK, HC.
    assert (T : top < t). { destruct (Z_lt_dec top t); [assumption|]. exfalso. apply (HC t); [lia|exact N]. }
    exists t. cbn [w_race w_hist w_acc w_thr w_data w_done]. split; [exact RA|]. split; [|split; [|split; [|split; [exact DA|split]]]].
    + intros u mu MU. unfold put in MU. destruct (u =? t) eqn:U; [injection MU as <-; cbn; lia|]. destruct (HI _ _ MU). lia.
    + eexists. apply put_same.
    + intros j. destruct (Nat.eq_dec j i) as [->|J]; [rewrite upd_is; cbn; lia|rewrite (upd_not _ _ _ _ J); destruct (TH j); lia].
    + intros j f0 x. destruct (Nat.eq_dec j i) as [->|J]; [rewrite upd_is; discriminate|rewrite (upd_not _ _ _ _ J); apply RD].
    + left. split; [|split].
      * intros j. destruct (Nat.eq_dec j i) as [->|J]; [rewrite upd_is; exact (fun x => x)|rewrite (upd_not _ _ _ _ J); intros HJ; destruct J; exact (HU j HJ)].
      * intros mu MU. rewrite put_same in MU. injection MU as <-. cbn. split; [reflexivity|exact HK].
      * intros u mu MU VU NU. rewrite put_other in MU by assumption. apply put_keeps. exact (HZ _ _ MU VU).
Qed.
(** All reachable states. *)
Lemma winv_runs v s : runs weak_step (weak_init v) s -> winv v s.
Proof. intros H. remember (weak_init v) as a. induction H as [|a s i u R IH ST]; subst; [apply winv_init|exact (winv_step _ _ _ _ ST (IH eq_refl))]. Qed.

(** C145: with the memory orders of the code, for any number of threads and any updates, at most one thread is between lock and unlock, no access to the protected variable is a
    data race, and no update is lost. *)
Theorem weak_spinlock : forall v s, runs weak_step (weak_init v) s ->
  (forall i j, has_lock (w_at (w_thr s i)) -> has_lock (w_at (w_thr s j)) -> i = j) /\ w_race s = false /\ w_data s = fold_left (fun a f => f a) (w_done s) v.
Proof.
  intros v s H. destruct (winv_runs _ _ H) as (top & RA & _ & _ & _ & DA & _ & L). split; [|split; assumption]. intros i j HI HJ.
  destruct L as [(NH & _)|(h & _ & HU & _)]; [destruct (NH i HI)|]. rewrite (HU i HI). symmetry. exact (HU j HJ).
Qed.
(** C145, progress: when no thread has the lock, a thread in its loop can take it with two steps of its own, though it may see old values first. *)
Theorem weak_spinlock_progress : forall v s i, runs weak_step (weak_init v) s -> (forall j, ~ has_lock (w_at (w_thr s j))) -> wants_lock (w_at (w_thr s i)) ->
  exists u t, (u = s \/ weak_step i s u) /\ weak_step i u t /\ has_lock (w_at (w_thr t i)) /\ forall j, j <> i -> w_thr t j = w_thr s j.
Proof.
  intros v s i H NH W. destruct (winv_runs _ _ H) as (top & _ & HI & (mt & HT) & TH & _ & _ & L). destruct L as [(_ & L1 & _)|(h & HH & _)]; [|destruct (NH h HH)].
  destruct (L1 _ HT) as (V & _). assert (FREE : w_hist s (top + 1) = None). { destruct (w_hist s (top + 1)) as [m|] eqn:E; [|reflexivity]. destruct (HI _ _ E). lia. }
  destruct (TH i) as (_ & SE). destruct (w_thr s i) as [p g k] eqn:E. cbn in W, SE.
  assert (K : forall u f, w_hist u = w_hist s -> w_thr u i = WT (Try f) (w_seen (w_thr u i)) (w_know (w_thr u i)) -> w_seen (w_thr u i) <= top -> (forall j, j <> i -> w_thr u j = w_thr s j) ->
    exists t, weak_step i u t /\ has_lock (w_at (w_thr t i)) /\ forall j, j <> i -> w_thr t j = w_thr s j).
  { intros u f HU TU GU OU. eexists. split; [eapply (wtas i u f _ _ top mt TU GU); rewrite HU; assumption|]. cbn [w_thr]. rewrite upd_is, V. cbn. split; [exact I|]. intros j J. rewrite (upd_not _ _ _ _ J). exact (OU j J). }
  destruct p as [|f|f|f|f x|]; try destruct W.
  - destruct (K s f eq_refl) as (t & A & B & C); [rewrite E; reflexivity|rewrite E; exact SE|reflexivity|]. exists s, t. split; [left; reflexivity|]. split; [exact A|split; assumption].
  - pose (u := WS (w_hist s) (w_acc s) (w_data s) (upd (w_thr s) i (WT (Try f) top k)) (w_done s) (w_race s)).
    assert (ST : weak_step i s u). { pose proof (wspin i s f g k top mt E SE HT) as X. rewrite V in X. exact X. }
    destruct (K u f eq_refl) as (t & A & B & C); [cbn [u w_thr]; rewrite upd_is; reflexivity|cbn [u w_thr]; rewrite upd_is; cbn; lia|intros j J; cbn [u w_thr]; apply upd_not; exact J|].
    exists u, t. split; [right; exact ST|]. split; [exact A|split; assumption].
Qed.
(** The hypotheses: thread 1 takes the lock, thread 2 fails, thread 1 stores and leaves a gap in the history, thread 2 reads an old value once more, then has the lock. *)
Example weak_spinlock_holds : exists s, runs weak_step (weak_init 5) s /\ w_data s = 6 /\ w_at (w_thr s 2%nat) = Inside (fun x => x * 10) /\ w_race s = false.
Proof.
  pose (f := fun x => x + 1). pose (g := fun x => x * 10). pose (h0 := cleared). pose (h1 := put h0 1 (Msg 1 0)). pose (h2 := put h1 2 (Msg 1 0)). pose (h3 := put h2 7 (Msg 0 2)). pose (h4 := put h3 8 (Msg 1 2)).
  pose (t0 := fun _ : nat => WT Outside 0 0).
  pose (t1 := upd t0 1%nat (WT (Try f) 0 0)).
  pose (t2 := upd t1 1%nat (WT (Inside f) 1 0)).
  pose (t3 := upd t2 2%nat (WT (Try g) 0 0)).
  pose (t4 := upd t3 2%nat (WT (Spin g) 2 0)).
  pose (t5 := upd t4 1%nat (WT (Read f 5) 1 1)).
  pose (t6 := upd t5 1%nat (WT Leave 1 2)).
  pose (t7 := upd t6 1%nat (WT Outside 7 2)).
  pose (t8 := upd t7 2%nat (WT (Spin g) 2 0)).
  pose (t9 := upd t8 2%nat (WT (Try g) 7 0)).
  pose (t10 := upd t9 2%nat (WT (Inside g) 8 2)).
  assert (R0 : runs weak_step (weak_init 5) (WS h0 0 5 t0 [] false)) by apply runs_nil.
  assert (R1 : runs weak_step (weak_init 5) (WS h0 0 5 t1 [] false)). { apply (runs_snoc _ _ _ 1%nat _ R0). apply (wcall 1 (WS h0 0 5 t0 [] false) f 0 0); reflexivity || (cbn; lia). }
  assert (R2 : runs weak_step (weak_init 5) (WS h1 0 5 t2 [] false)). { apply (runs_snoc _ _ _ 1%nat _ R1). apply (wtas 1 (WS h0 0 5 t1 [] false) f 0 0 0 (Msg 0 0)); reflexivity || (cbn; lia). }
  assert (R3 : runs weak_step (weak_init 5) (WS h1 0 5 t3 [] false)). { apply (runs_snoc _ _ _ 2%nat _ R2). apply (wcall 2 (WS h1 0 5 t2 [] false) g 0 0); reflexivity || (cbn; lia). }
  assert (R4 : runs weak_step (weak_init 5) (WS h2 0 5 t4 [] false)). { apply (runs_snoc _ _ _ 2%nat _ R3). apply (wtas 2 (WS h1 0 5 t3 [] false) g 0 0 1 (Msg 1 0)); reflexivity || (cbn; lia). }
  assert (R5 : runs weak_step (weak_init 5) (WS h2 1 5 t5 [] false)). { apply (runs_snoc _ _ _ 1%nat _ R4). apply (wread 1 (WS h2 0 5 t4 [] false) f 1 0); reflexivity || (cbn; lia). }
  assert (R6 : runs weak_step (weak_init 5) (WS h2 2 6 t6 [f] false)). { apply (runs_snoc _ _ _ 1%nat _ R5). apply (wwrite 1 (WS h2 1 5 t5 [] false) f 5 1 1); reflexivity || (cbn; lia). }
  assert (R7 : runs weak_step (weak_init 5) (WS h3 2 6 t7 [f] false)). { apply (runs_snoc _ _ _ 1%nat _ R6). apply (wclear 1 (WS h2 2 6 t6 [f] false) 1 2 7); reflexivity || (cbn; lia). }
  assert (R8 : runs weak_step (weak_init 5) (WS h3 2 6 t8 [f] false)). { apply (runs_snoc _ _ _ 2%nat _ R7). apply (wspin 2 (WS h3 2 6 t7 [f] false) g 2 0 2 (Msg 1 0)); reflexivity || (cbn; lia). }
  assert (R9 : runs weak_step (weak_init 5) (WS h3 2 6 t9 [f] false)). { apply (runs_snoc _ _ _ 2%nat _ R8). apply (wspin 2 (WS h3 2 6 t8 [f] false) g 2 0 7 (Msg 0 2)); reflexivity || (cbn; lia). }
  assert (R10 : runs weak_step (weak_init 5) (WS h4 2 6 t10 [f] false)). { apply (runs_snoc _ _ _ 2%nat _ R9). apply (wtas 2 (WS h3 2 6 t9 [f] false) g 7 0 7 (Msg 0 2)); reflexivity || (cbn; lia). }
  eexists. split; [exact R10|]. repeat split.
Qed.

(** What holds of every state of a promise. *)
Definition pinv (v : Z) (how : nat -> bool) (s : pstate) : Prop :=
  (match p_at (p_thr s 0%nat) with
   | Setting => p_stores s = 0%nat /\ forall t m, p_hist s t = Some m -> m_val m = 0
   | Flagging => p_stores s = 1%nat /\ p_result s = v /\ (1 <= p_know (p_thr s 0%nat))%nat /\ forall t m, p_hist s t = Some m -> m_val m = 0
   | Flagged => p_stores s = 1%nat /\ p_result s = v /\ forall t m, p_hist s t = Some m -> m_val m <> 0 -> (1 <= m_pub m)%nat
   | _ => False
   end) /\
  (forall i, i <> 0%nat -> match p_at (p_thr s i) with
   | Waiting a => a = how i /\ (a = false -> p_know (p_thr s i) = 0%nat)
   | Using a => p_at (p_thr s 0%nat) = Flagged /\ a = how i /\ p_stores s = 1%nat /\ p_result s = v /\ (a = true -> (1 <= p_know (p_thr s i))%nat) /\ (a = false -> p_know (p_thr s i) = 0%nat)
   | Used a r => p_at (p_thr s 0%nat) = Flagged /\ how i = true /\ r = v
   | Raced a => p_at (p_thr s 0%nat) = Flagged /\ how i = false
   | _ => False
   end).
(** The start. *)
Lemma pinv_init v how : pinv v how (promise_init how).
Proof.
  split; cbn.
  - split; [reflexivity|]. intros t m. unfold cleared, put. destruct (t =? 0); [intros H; injection H as <-; reflexivity|discriminate].
  - intros [|i] N; [congruence|]. cbn. split; reflexivity.
Qed.
(** Every step keeps it. *)
Lemma pinv_step v how i s s' : promise_step v i s s' -> pinv v how s -> pinv v how s'.
Proof.
  intros H (W & R). destruct H as [g k E|g k t m E G M N|a g k t m E G M|a g k E].
  - destruct (Nat.eq_dec i 0) as [->|I0]; [|specialize (R i I0); rewrite E in R; destruct R]. rewrite E in W. cbn in W. destruct W as (S0 & V). split; cbn [p_thr p_stores p_result p_hist].
    + rewrite upd_is. cbn. rewrite S0. repeat split; [lia|exact V].
    + intros j J. rewrite (upd_not _ _ _ _ J). specialize (R j J). rewrite E in R. destruct (p_at (p_thr s j)); try exact R; destruct R as (F & _); discriminate F.
  - destruct (Nat.eq_dec i 0) as [->|I0]; [|specialize (R i I0); rewrite E in R; destruct R]. rewrite E in W. cbn in W. destruct W as (S1 & V & K & HV). split; cbn [p_thr p_stores p_result p_hist].
    + rewrite upd_is. cbn. split; [exact S1|]. split; [exact V|]. intros u mu. unfold put. destruct (u =? t + 1); [intros X _; injection X as <-; cbn; lia|]. intros X Y. destruct (Y (HV _ _ X)).
    + intros j J. rewrite (upd_not _ _ _ _ J), upd_is. specialize (R j J). rewrite E in R. destruct (p_at (p_thr s j)); try exact R; destruct R as (F & _); discriminate F.
  - destruct (Nat.eq_dec i 0) as [->|I0]; [rewrite E in W; destruct W|]. pose proof (R i I0) as RI. rewrite E in RI. cbn in RI. destruct RI as (A & K0). assert (N0 : 0%nat <> i) by congruence. split; cbn [p_thr p_stores p_result p_hist].
    + rewrite (upd_not _ _ _ _ N0). exact W.
    + intros j J. destruct (Nat.eq_dec j i) as [->|JI]; [|rewrite (upd_not _ _ _ _ JI), (upd_not _ _ _ _ N0); exact (R j J)]. rewrite upd_is, (upd_not _ _ _ _ N0). cbn [p_at p_know]. destruct (m_val m =? 0) eqn:V.
      * split; [exact A|]. intros ->. exact (K0 eq_refl).
      * apply Z.eqb_neq in V. destruct (p_at (p_thr s 0%nat)); try destruct W as (W1 & W2); try tauto; [destruct (V (W2 _ _ M))|destruct W2 as (_ & _ & W2); destruct (V (W2 _ _ M))|]. destruct W2 as (W2 & W3).
        split; [reflexivity|]. split; [exact A|]. split; [exact W1|]. split; [exact W2|]. split; [intros ->; pose proof (W3 _ _ M V); lia|intros ->; exact (K0 eq_refl)].
  - destruct (Nat.eq_dec i 0) as [->|I0]; [rewrite E in W; destruct W|]. pose proof (R i I0) as RI. rewrite E in RI. cbn in RI. destruct RI as (F & A & S1 & V & KT & KF). assert (N0 : 0%nat <> i) by congruence. split; cbn [p_thr p_stores p_result p_hist].
    + rewrite (upd_not _ _ _ _ N0). exact W.
    + intros j J. destruct (Nat.eq_dec j i) as [->|JI]; [|rewrite (upd_not _ _ _ _ JI), (upd_not _ _ _ _ N0); exact (R j J)]. rewrite upd_is, (upd_not _ _ _ _ N0). cbn [p_at]. rewrite S1. destruct (Nat.ltb k 1) eqn:L.
      * apply Nat.ltb_lt in L. destruct a; [specialize (KT eq_refl); lia|]. split; congruence.
      * apply Nat.ltb_ge in L. destruct a; [split; [exact F|split; congruence]|]. specialize (KF eq_refl). lia.
Qed.
(** All reachable states. *)
Lemma pinv_runs v how s : runs (promise_step v) (promise_init how) s -> pinv v how s.
Proof. intros H. remember (promise_init how) as b. induction H as [|b s j u RR IH ST]; subst; [apply pinv_init|exact (pinv_step _ _ _ _ _ ST (IH eq_refl))]. Qed.
(** The thread has left its loop. *)
Definition left_loop (p : pplace) : Prop := match p with Using _ | Used _ _ | Raced _ => True | _ => False end.
(** C146, no thread leaves its loop before the function has ended and the result is stored, whichever loop it is. *)
Theorem promise_done : forall v how s i, runs (promise_step v) (promise_init how) s -> i <> 0%nat -> left_loop (p_at (p_thr s i)) -> p_at (p_thr s 0%nat) = Flagged /\ p_result s = v.
Proof.
  intros v how s i H I0 L. destruct (pinv_runs _ _ _ H) as (W & R). specialize (R i I0). assert (F : p_at (p_thr s 0%nat) = Flagged) by (destruct (p_at (p_thr s i)); try destruct L; exact (proj1 R)). split; [exact F|]. rewrite F in W. exact (proj1 (proj2 W)).
Qed.
(** C146: a thread that leaves the loop of promise_get finds the result that the thread of the promise stored, and that use is not a data race, whatever the other threads do and
    however old the values are that they see. *)
Theorem promise_published : forall v how s i, runs (promise_step v) (promise_init how) s -> i <> 0%nat -> how i = true ->
  (forall a, p_at (p_thr s i) <> Raced a) /\ forall a r, p_at (p_thr s i) = Used a r -> r = v.
Proof.
  intros v how s i H I0 A. destruct (pinv_runs _ _ _ H) as (_ & R). specialize (R i I0). split; [intros a E|intros a r E]; rewrite E in R; [destruct R; congruence|exact (proj2 (proj2 R))].
Qed.
(** C146, the loop of thrd_wait and thrd_is_done, whose load is relaxed: a thread that goes by them alone never has the result without a data race. *)
Theorem promise_relaxed : forall v how s i, runs (promise_step v) (promise_init how) s -> i <> 0%nat -> how i = false -> forall a r, p_at (p_thr s i) <> Used a r.
Proof.
  intros v how s i H I0 A. destruct (pinv_runs _ _ _ H) as (_ & R). specialize (R i I0). intros a r E. rewrite E in R. destruct R as (_ & R & _). congruence.
Qed.
(** C146 is refuted for thrd_wait: the function has stored its result and set done, thread 1 leaves thrd_wait, uses what the function stored, and that is a data race. *)
Theorem thrd_wait_refuted : exists s, runs (promise_step 7) (promise_init (fun _ => false)) s /\ p_at (p_thr s 0%nat) = Flagged /\ p_at (p_thr s 1%nat) = Raced false.
Proof.
  eexists. split; [|split].
  - eapply runs_snoc with (i := 1%nat); [eapply runs_snoc with (i := 1%nat); [eapply runs_snoc with (i := 0%nat); [eapply runs_snoc with (i := 0%nat); [apply runs_nil|]|]|]|].
    + apply (pset _ _ _ 0 0%nat). reflexivity.
    + apply (pflag _ _ _ 0 1%nat 0 (Msg 0 0)); reflexivity || (cbn; lia).
    + apply (pload _ _ _ false 0 0%nat 1 (Msg 1 1)); reflexivity || (cbn; lia).
    + apply (puse _ _ _ false 1 0%nat). reflexivity.
  - reflexivity.
  - reflexivity.
Qed.
(** The hypotheses: thread 2 waits with promise_get, sees the old value first, then has the result. *)
Example promise_holds : exists s, runs (promise_step 7) (promise_init (fun i => Nat.eqb i 2)) s /\ p_at (p_thr s 2%nat) = Used true 7.
Proof.
  eexists. split.
  - eapply runs_snoc with (i := 2%nat); [eapply runs_snoc with (i := 2%nat); [eapply runs_snoc with (i := 2%nat); [eapply runs_snoc with (i := 0%nat); [eapply runs_snoc with (i := 0%nat); [apply runs_nil|]|]|]|]|].
    + apply (pset _ _ _ 0 0%nat). reflexivity.
    + apply (pflag _ _ _ 0 1%nat 0 (Msg 0 0)); reflexivity || (cbn; lia).
    + apply (pload _ _ _ true 0 0%nat 0 (Msg 0 0)); reflexivity || (cbn; lia).
    + apply (pload _ _ _ true 0 0%nat 1 (Msg 1 1)); reflexivity || (cbn; lia).
    + apply (puse _ _ _ true 1 1%nat). reflexivity.
  - reflexivity.
Qed.

Print Assumptions weak_spinlock.
Print Assumptions weak_spinlock_progress.
Print Assumptions promise_done.
Print Assumptions promise_published.
Print Assumptions promise_relaxed.
Print Assumptions thrd_wait_refuted.
