(** Signals and pending exceptions: C42-C44. *)
From Coq Require Import String.
From Verif Require Import Base BaseLemmas SpecStr SpecText SignalModel PropStr.
Open Scope string_scope.
Open Scope list_scope.
Open Scope Z_scope.
Notation length := List.length.

(** ** Specification: the latest registration of a signal wins. *)
Fixpoint latest (sig : Z) (l : list (Z * Z)) : option Z :=
  match l with
  | [] => None
  | (s, e) :: l' => match latest sig l' with Some x => Some x | None => if s =? sig then Some e else None end
  end.
Definition registers (l : list (Z * Z)) : list sop := map (fun p => Register (fst p) (snd p)) l.
(** Registrations name a signal and an exception. *)
Definition named (p : Z * Z) : Prop := fst p <> 0 /\ snd p <> 0.

(** ** The table as a finite map *)
Definition look (sig : Z) (al : list (Z * Z)) : option Z := option_map snd (List.find (fun p => fst p =? sig) al).
Definition rep (al : list (Z * Z)) (st : sigs) : Prop :=
  table st = map (fun p => Slot (snd p) (fst p)) al ++ repeat (Slot 0 0) (32 - length al) /\ (length al <= 32)%nat /\
  NoDup (map fst al) /\ Forall named al.

Lemma free_or_same_spec sig al n : Forall named al -> sig <> 0 ->
  (~ In sig (map fst al) -> free_or_same sig (map (fun p => Slot (snd p) (fst p)) al ++ repeat (Slot 0 0) n) = length al) /\
  (forall a e b, al = a ++ (sig, e) :: b -> ~ In sig (map fst a) -> free_or_same sig (map (fun p => Slot (snd p) (fst p)) al ++ repeat (Slot 0 0) n) = length a).
Proof.
  intros Hn Hs. split.
  - induction Hn as [|[s e] l [H1 H2] _ IH]; intros N; cbn [map app fst snd] in *.
    + destruct n; reflexivity.
    + cbn [free_or_same s_ex s_sig length]. cbn [fst snd] in *. destruct (Z.eqb_spec e 0); [contradiction|]. destruct (Z.eqb_spec s sig); [destruct N; left; auto|].
      cbn [orb]. f_equal. apply IH. intros Q. apply N. right. auto.
  - intros a e b -> Na. induction a as [|[s x] a IH]; cbn [app map fst snd] in *; cbn [free_or_same s_ex s_sig length].
    + rewrite Z.eqb_refl, orb_true_r. reflexivity.
    + inversion Hn as [|? ? [H1 H2] Hn']; subst. cbn [fst snd] in *. destruct (Z.eqb_spec x 0); [contradiction|]. destruct (Z.eqb_spec s sig); [destruct Na; left; auto|].
      cbn [orb]. f_equal. apply IH; [exact Hn'|]. intros Q. apply Na. right. exact Q.
Qed.
Lemma set_slot_app a x y b : set_slot (length a) x (a ++ y :: b) = a ++ x :: b.
Proof. induction a as [|z a IH]; cbn; [reflexivity|]. f_equal. apply IH. Qed.

Lemma look_app sig a b : look sig (a ++ b) = match look sig a with Some x => Some x | None => look sig b end.
Proof.
  unfold look. induction a as [|[s e] a IH]; cbn [app List.find fst option_map]; [reflexivity|]. destruct (s =? sig); [reflexivity|exact IH].
Qed.
Lemma look_notin sig al : ~ In sig (map fst al) -> look sig al = None.
Proof.
  unfold look. induction al as [|[s e] a IH]; intros N; cbn [List.find fst]; [reflexivity|]. destruct (Z.eqb_spec s sig); [destruct N; left; auto|].
  apply IH. intros Q. apply N. right. auto.
Qed.
Lemma look_cons sig s e al : look sig ((s, e) :: al) = if s =? sig then Some e else look sig al.
Proof. unfold look. cbn [List.find fst]. destruct (s =? sig); reflexivity. Qed.

Lemma name_of_rep sig al n : Forall named al -> sig <> 0 ->
  name_of sig (map (fun p => Slot (snd p) (fst p)) al ++ repeat (Slot 0 0) n) = match look sig al with Some e => e | None => 0 end.
Proof.
  intros Hn Hs. induction Hn as [|[s e] l [H1 H2] _ IH]; cbn [map app fst snd].
  - cbn [look List.find option_map]. induction n; cbn [repeat name_of s_sig s_ex]; [reflexivity|]. destruct (Z.eqb_spec 0 sig); congruence.
  - rewrite look_cons. cbn [name_of s_sig s_ex]. destruct (s =? sig); auto.
Qed.

Lemma in_split_first (sig : Z) (al : list (Z * Z)) : In sig (map fst al) -> exists a e b, al = a ++ (sig, e) :: b /\ ~ In sig (map fst a).
Proof.
  induction al as [|[s e] al IH]; intros H; [destruct H|]. cbn in H. destruct (Z.eq_dec s sig) as [->|Ne]; [exists [], e, al; auto|].
  destruct IH as (a & x & b & -> & N); [destruct H; [contradiction|auto]|]. exists ((s, e) :: a), x, b. split; [reflexivity|]. cbn. intros [?|?]; auto.
Qed.

(** One registration. *)
Lemma ex_signal_rep can sig ex al st K : rep al st -> sig <> 0 -> ex <> 0 -> incl (map fst al) K -> In sig K -> (length K <= 32)%nat ->
  exists al', rep al' (ex_signal can sig ex st) /\ incl (map fst al') K /\
    (forall x, x <> 0 -> look x al' = if can sig && (sig =? x) then Some ex else look x al) /\
    (forall x, handled (ex_signal can sig ex st) x = if can sig && (x =? sig) then true else handled st x) /\ is_set (ex_signal can sig ex st) = true.
Proof.
  intros (T & Ln & Nd & Nm) Hs He Ik Isig Lk. unfold ex_signal.
  destruct (free_or_same_spec sig al (32 - length al) Nm Hs) as [F1 F2]. rewrite T.
  assert (TL : length (map (fun p : Z * Z => Slot (snd p) (fst p)) al ++ repeat (Slot 0 0) (32 - length al)) = 32%nat) by (rewrite app_length, map_length, repeat_length; lia).
  rewrite TL. destruct (in_dec Z.eq_dec sig (map fst al)) as [Hin|Hout].
  - destruct (in_split_first sig al Hin) as (a & e & b & E & Na). rewrite (F2 a e b E Na).
    assert (Q : (length a < length al)%nat) by (rewrite E, app_length; cbn; lia).
    replace (length a =? 32)%nat with false by (symmetry; apply Nat.eqb_neq; lia).
    destruct (can sig); cbn [andb].
    + exists (a ++ (sig, ex) :: b). assert (Lab : length (a ++ (sig, ex) :: b) = length al) by (rewrite E, !app_length; reflexivity).
      assert (Kab : map fst (a ++ (sig, ex) :: b) = map fst al) by (rewrite E, !map_app; reflexivity).
      split; [|split; [rewrite Kab; auto|]].
      { split; [cbn [table]; rewrite Lab|split; [lia|split; [rewrite Kab; auto|]]].
        - generalize (32 - length al)%nat as nz. intros nz. rewrite E, !map_app. cbn [map]. rewrite <- !app_assoc. cbn [app fst snd].
          replace (length a) with (length (map (fun p : Z * Z => Slot (snd p) (fst p)) a)) by apply map_length. apply set_slot_app.
        - rewrite E in Nm. apply Forall_app in Nm. destruct Nm as [N1 N2]. inversion N2; subst. apply Forall_app. split; [auto|constructor; auto]. split; auto. }
      split; [|split; [|reflexivity]].
      * intros x Hx. rewrite E, !look_app, !look_cons. destruct (Z.eqb_spec sig x) as [<-|].
        -- rewrite look_notin by auto. reflexivity.
        -- reflexivity.
      * intros x. cbn [handled]. unfold set_action. reflexivity.
    + exists al. split; [split; [reflexivity|auto]|]. split; [auto|]. auto.
  - rewrite (F1 Hout). assert (Q : (length al < 32)%nat).
    { assert (S (length al) <= length K)%nat; [|lia]. rewrite <- (map_length fst al). change (length (sig :: map fst al) <= length K)%nat.
      apply NoDup_incl_length; [constructor; auto|]. intros y [<-|Hy]; auto. }
    replace (length al =? 32)%nat with false by (symmetry; apply Nat.eqb_neq; lia).
    destruct (can sig); cbn [andb].
    + exists (al ++ [(sig, ex)]). assert (Lab : length (al ++ [(sig, ex)]) = S (length al)) by (rewrite app_length; cbn; lia).
      split; [|split].
      { split; [cbn [table]; rewrite Lab|split; [lia|split]].
        - replace (32 - length al)%nat with (S (32 - S (length al))) by lia. cbn [repeat].
          replace (length al) with (length (map (fun p : Z * Z => Slot (snd p) (fst p)) al)) at 1 by apply map_length.
          rewrite set_slot_app, map_app, <- app_assoc. reflexivity.
        - rewrite map_app. cbn [map fst].
          assert (G : forall (u : list Z) y, NoDup u -> ~ In y u -> NoDup (u ++ [y])).
          { induction u as [|z u IHu]; intros y Nu Ny; cbn; [constructor; auto|]. inversion Nu; subst. constructor.
            - intros Y. apply in_app_or in Y. destruct Y as [Y|[Y|[]]]; [contradiction|subst; apply Ny; left; auto].
            - apply IHu; auto. intros Y. apply Ny. right. auto. }
          apply G; auto.
        - apply Forall_app. split; [auto|constructor; [split; auto|constructor]]. }
      { rewrite map_app. intros y Hy. apply in_app_or in Hy. destruct Hy as [Hy|[<-|[]]]; auto. }
      split; [|split; [|reflexivity]].
      * intros x Hx. rewrite look_app, look_cons. destruct (Z.eqb_spec sig x) as [<-|].
        -- rewrite look_notin by auto. reflexivity.
        -- destruct (look x al); reflexivity.
      * intros x. cbn [handled]. unfold set_action. reflexivity.
    + exists al. split; [split; [reflexivity|auto]|]. split; [auto|]. auto.
Qed.

(** Accepted registrations. *)
Definition kept (can : Z -> bool) (l : list (Z * Z)) : list (Z * Z) := filter (fun p => can (fst p)) l.

Lemma latest_snoc x l s e : latest x (l ++ [(s, e)]) = if s =? x then Some e else latest x l.
Proof.
  induction l as [|[t f] l IH]; cbn [app latest]; [destruct (s =? x); reflexivity|]. rewrite IH. destruct (s =? x); [reflexivity|]. reflexivity.
Qed.

Lemma registers_rep can l K : Forall named l -> incl (map fst l) K -> (length K <= 32)%nat -> forall al st, rep al st -> incl (map fst al) K ->
  exists al', rep al' (sig_run can (registers l) st) /\ incl (map fst al') K /\
    (forall x, x <> 0 -> look x al' = match latest x (kept can l) with Some e => Some e | None => look x al end) /\
    (forall x, handled (sig_run can (registers l) st) x = match latest x (kept can l) with Some _ => true | None => handled st x end).
Proof.
  intros Hn Ik Lk. induction l as [|[s e] l IH] using rev_ind; intros al st R Ia.
  - exists al. cbn. auto.
  - apply Forall_app in Hn. destruct Hn as [Hn H1]. inversion H1 as [|? ? [A B] _]; subst. cbn [fst snd] in A, B.
    rewrite map_app in Ik. assert (Ik1 : incl (map fst l) K) by (intros y Hy; apply Ik; apply in_or_app; auto).
    assert (Is : In s K) by (apply Ik; apply in_or_app; right; left; reflexivity).
    destruct (IH Hn Ik1 al st R Ia) as (al1 & R1 & I1 & L1 & G1).
    unfold registers, sig_run. rewrite map_app, fold_left_app. cbn [map fold_left fst snd]. fold (registers l). fold (sig_run can (registers l) st).
    cbn [sig_step]. destruct (ex_signal_rep can s e al1 _ K R1 A B I1 Is Lk) as (al2 & R2 & I2 & L2 & G2 & _).
    exists al2. split; [exact R2|]. split; [exact I2|].
    unfold kept. rewrite filter_app. cbn [filter fst]. fold (kept can l). destruct (can s); cbn [andb] in *.
    + split.
      * intros x Hx. rewrite L2, latest_snoc by auto. destruct (s =? x); [reflexivity|apply L1; auto].
      * intros x. rewrite G2, latest_snoc, (Z.eqb_sym x s). destruct (s =? x); [reflexivity|apply G1].
    + rewrite app_nil_r. split; [intros x Hx; rewrite L2 by auto; apply L1; auto|intros x; rewrite G2; apply G1].
Qed.
Lemma rep_start : rep [] sig_start.
Proof. split; [reflexivity|]. split; [cbn; lia|]. split; constructor. Qed.

(** ** C42 *)

(** C42.  After any registrations for at most 32 distinct signals (the list [K]), raising a signal throws
    the exception most recently registered for it by a call sigaction accepted, and a signal never
    registered keeps its default action. *)
Theorem signal_latest can l K sig :
  Forall named l -> incl (map fst l) K -> (length K <= 32)%nat -> sig <> 0 ->
  raised sig (sig_run can (registers l) sig_start) = latest sig (kept can l).
Proof.
  intros Hn Ik Lk Hs. destruct (registers_rep can l K Hn Ik Lk [] sig_start rep_start ltac:(intros ? [])) as (al & (T & _ & _ & Nm) & _ & L & G).
  unfold raised. rewrite G. cbn [sig_start handled]. specialize (L sig Hs). destruct (latest sig (kept can l)) as [e|]; [|reflexivity].
  rewrite T, name_of_rep by auto. rewrite L. reflexivity.
Qed.
Example signal_latest_case :
  raised 10 (sig_run (fun s => negb (s =? 9)) (registers [(10, 1); (12, 2); (9, 3); (10, 4)]) sig_start) = Some 4 /\
  raised 9 (sig_run (fun s => negb (s =? 9)) (registers [(10, 1); (12, 2); (9, 3); (10, 4)]) sig_start) = None /\
  latest 10 (kept (fun s => negb (s =? 9)) [(10, 1); (12, 2); (9, 3); (10, 4)]) = Some 4 /\ incl [10; 12; 9; 10] [9; 10; 12].
Proof. split; [vm_compute; reflexivity|]. split; [vm_compute; reflexivity|]. split; [reflexivity|]. intros x Hx. cbn in *. intuition. Qed.

(** C42.  A further signal when 32 distinct ones are registered changes nothing. *)
Theorem signal_table_full can l K sig ex :
  Forall named l -> incl (map fst l) K -> (length K <= 32)%nat -> NoDup K -> length K = 32%nat -> (forall s, In s K -> can s = true /\ In s (map fst l)) ->
  sig <> 0 -> ~ In sig K ->
  sig_run can (registers (l ++ [(sig, ex)])) sig_start = sig_run can (registers l) sig_start /\
  raised sig (sig_run can (registers l) sig_start) = None.
Proof.
  intros Hn Ik Lk Nk K32 All Hs Ns.
  assert (Nl : ~ In sig (map fst l)) by (intros Q; apply Ns; apply Ik; auto).
  split.
  - destruct (registers_rep can l K Hn Ik Lk [] sig_start rep_start ltac:(intros ? [])) as (al & (T & Ln & Nd & Nm) & Ia & L & _).
    unfold registers. rewrite map_app. unfold sig_run at 1. rewrite fold_left_app. fold (registers l). fold (sig_run can (registers l) sig_start). cbn [map fold_left sig_step fst snd].
    assert (Kal : incl K (map fst al)).
    { intros s Hk. destruct (All s Hk) as [C Hl]. destruct (in_dec Z.eq_dec s (map fst al)) as [|Q]; [auto|].
      assert (s <> 0). { apply in_map_iff in Hl. destruct Hl as (p & <- & Hp). rewrite Forall_forall in Hn. apply (Hn p Hp). }
      specialize (L s H). rewrite look_notin in L by auto. cbn in L. exfalso. clear - L Hl C.
      assert (X : exists e, latest s (kept can l) = Some e); [|destruct X; rewrite H in L; discriminate].
      clear L. induction l as [|[t f] l IH]; [destruct Hl|]. cbn [map fst] in Hl. cbn [kept filter fst].
      destruct Hl as [->|Hl].
      - rewrite C. fold (kept can l). cbn [latest]. destruct (latest s (kept can l)); [eauto|]. rewrite Z.eqb_refl. eauto.
      - destruct (IH Hl) as [e E]. fold (kept can l). destruct (can t); [|eauto]. cbn [latest]. rewrite E. eauto. }
    assert (Lal : length al = 32%nat). { pose proof (NoDup_incl_length Nk Kal) as Q. rewrite map_length in Q. lia. }
    unfold ex_signal. rewrite T. destruct (free_or_same_spec sig al (32 - length al) Nm Hs) as [F1 _]. rewrite F1; [|intros Q; apply Ns; auto].
    rewrite app_length, map_length, repeat_length, Lal. reflexivity.
  - rewrite (signal_latest can l K sig Hn Ik Lk Hs). clear - Nl. induction l as [|[t f] l IH]; [reflexivity|]. cbn [kept filter fst map] in *. fold (kept can l).
    assert (Q : latest sig (kept can l) = None) by (apply IH; intros Q; apply Nl; right; auto).
    destruct (can t); [|auto]. cbn [latest]. rewrite Q. destruct (Z.eqb_spec t sig); [destruct Nl; left; auto|reflexivity].
Qed.
Example signal_table_full_case :
  let l := map (fun k => (Z.of_nat k + 1, 7)) (seq 0 32) in let K := map (fun k => Z.of_nat k + 1) (seq 0 32) in
  incl (map fst l) K /\ length K = 32%nat /\ raised 40 (sig_run (fun _ => true) (registers (l ++ [(40, 5)])) sig_start) = None /\
  raised 32 (sig_run (fun _ => true) (registers (l ++ [(40, 5)])) sig_start) = Some 7.
Proof. split; [intros x Hx; exact Hx|]. split; [reflexivity|]. split; vm_compute; reflexivity. Qed.

(** ** C43 *)

(** Specification: the POSIX default set, SIGHUP 1, SIGINT 2, SIGQUIT 3, SIGILL 4, SIGTRAP 5, SIGABRT 6, SIGBUS 7, SIGFPE 8, SIGSEGV 11,
    SIGALRM 14, SIGTERM 15, SIGWINCH 28, with the names sig_hup … sig_winch (coded as 1000 + number). *)
Definition converted : list (Z * Z) :=
  [(1, 1001); (2, 1002); (3, 1003); (4, 1004); (5, 1005); (6, 1006); (7, 1007); (8, 1008); (11, 1011); (14, 1014); (15, 1015); (28, 1028)].
(** Histories in which at most 20 distinct signals outside the default set are named. *)
Definition op_named (F : list Z) (o : sop) : Prop :=
  match o with Register sig ex => sig <> 0 /\ ex <> 0 /\ In sig (map fst converted ++ F) | _ => True end.
(** The history ends with a reset (or is empty). *)
Definition ends_reset (l : list sop) : Prop := l = [] \/ exists l', l = l' ++ [ResetAll] \/ exists s, l = l' ++ [Reset s].

Lemma setup_registers can st : ex_signal_setup can st = sig_run can (registers (map (fun d => (d, default_name d)) default_set)) st.
Proof.
  unfold ex_signal_setup. generalize default_set as ds. intros ds. revert st. induction ds as [|d ds IH]; intros st; [reflexivity|].
  cbn [map registers fold_left]. rewrite IH. reflexivity.
Qed.
Lemma default_named : Forall named (map (fun d => (d, default_name d)) default_set).
Proof. repeat constructor; cbn; lia. Qed.
Lemma resets_rep can ds al st : rep al st -> rep al (fold_left (fun st sig => ex_signal_reset can sig st) ds st).
Proof. revert st. induction ds as [|d ds IH]; intros st R; cbn; [auto|]. apply IH. exact R. Qed.

Lemma converted_default sig e : In (sig, e) converted -> In sig default_set /\ e = default_name sig.
Proof. cbn [converted In]. intros H. repeat (destruct H as [H|H]; [injection H as <- <-; split; [cbn; tauto|reflexivity]|]). destruct H. Qed.
Lemma named_in F sig : In sig (map fst converted ++ F) -> In sig (default_set ++ F).
Proof.
  intros H. apply in_app_or in H. apply in_or_app. destruct H as [H|H]; [left|right; auto].
  apply in_map_iff in H. destruct H as ([s e] & <- & H). apply (converted_default s e H).
Qed.
Lemma run_rep can F l : (length F <= 20)%nat -> Forall (op_named F) l -> exists al, rep al (sig_run can l sig_start) /\ incl (map fst al) (default_set ++ F).
Proof.
  intros HF. set (K := default_set ++ F). assert (Lk : (length K <= 32)%nat) by (unfold K; rewrite app_length; cbn; lia).
  intros Hl. induction l as [|o l IH] using rev_ind; [exists []; split; [apply rep_start|intros ? []]|].
  apply Forall_app in Hl. destruct Hl as [Hl Ho]. inversion Ho as [|? ? Ho1 _]; subst. destruct (IH Hl) as (al & R & I).
  unfold sig_run. rewrite fold_left_app. cbn [fold_left]. fold (sig_run can l sig_start). destruct o as [sig ex|s| |]; cbn [sig_step].
  - destruct Ho1 as (A & B & C). apply named_in in C. destruct (ex_signal_rep can sig ex al _ K R A B I C Lk) as (al' & ? & ? & _). eauto.
  - exists al. split; [exact R|auto].
  - exists al. split; [apply resets_rep; auto|auto].
  - unfold enter_block. destruct (is_set (sig_run can l sig_start)); [eauto|]. rewrite setup_registers.
    destruct (registers_rep can _ K default_named ltac:(intros x Hx; apply in_or_app; left; exact Hx) Lk al _ R I) as (al' & ? & ? & _). eauto.
Qed.

(** What a program can observe of the signals: the exception in force for each (None for the default action) and
    whether the next block will leave them alone. *)
Record outlook := Outlook { what : Z -> option Z; left_alone : bool }.
Definition put_in_force (can : Z -> bool) (l : list (Z * option Z)) (f : Z -> option Z) : Z -> option Z :=
  fun x => match List.find (fun p => fst p =? x) l with Some p => if can x then snd p else f x | None => f x end.
Definition outlook_step (can : Z -> bool) (o : sop) (v : outlook) : outlook :=
  match o with
  | Register sig ex => Outlook (put_in_force can [(sig, Some ex)] (what v)) true
  | Reset sig => Outlook (put_in_force can [(sig, None)] (what v)) false
  | ResetAll => Outlook (put_in_force can (map (fun p => (fst p, None)) converted) (what v)) false
  | Enter => if left_alone v then v else Outlook (put_in_force can (map (fun p => (fst p, Some (snd p))) converted) (what v)) true
  end.
Definition outlook_of (can : Z -> bool) (l : list sop) : outlook := fold_left (fun v o => outlook_step can o v) l (Outlook (fun _ => None) false).

Lemma resets_handled can ds st x : handled (fold_left (fun st sig => ex_signal_reset can sig st) ds st) x = if existsb (Z.eqb x) ds && can x then false else handled st x.
Proof.
  revert st. induction ds as [|d ds IH]; intros st; cbn [fold_left existsb]; [reflexivity|]. rewrite IH. cbn [ex_signal_reset handled].
  destruct (Z.eqb_spec x d) as [->|N]; cbn [orb].
  - destruct (existsb (Z.eqb d) ds), (can d) eqn:C; cbn [andb]; try reflexivity; unfold set_action; rewrite ?Z.eqb_refl; auto.
  - destruct (existsb (Z.eqb x) ds && can x); [reflexivity|]. destruct (can d); [|reflexivity]. unfold set_action. destruct (Z.eqb_spec x d); congruence.
Qed.
Lemma latest_find can x l : NoDup (map fst l) -> latest x (kept can l) = match List.find (fun p => fst p =? x) l with Some p => if can x then Some (snd p) else None | None => None end.
Proof.
  assert (G : forall l, ~ In x (map fst l) -> latest x (kept can l) = None).
  { clear. induction l as [|[t f] l IH]; [reflexivity|]. cbn [map fst kept filter]. intros H. fold (kept can l). destruct (can t); cbn [latest]; rewrite IH by (intros ?; apply H; right; auto); [|reflexivity].
    destruct (Z.eqb_spec t x); [destruct H; left; auto|reflexivity]. }
  induction l as [|[t f] l IH]; intros N; [reflexivity|]. inversion N as [|? ? N1 N2]; subst. cbn [map fst kept filter List.find] in *. fold (kept can l).
  destruct (Z.eqb_spec t x) as [->|D].
  - cbn [snd]. destruct (can x); [cbn [latest]; rewrite G, Z.eqb_refl by auto; reflexivity|apply G; auto].
  - rewrite <- IH by auto. destruct (can t); [|reflexivity]. cbn [latest]. destruct (latest x (kept can l)); [reflexivity|]. destruct (Z.eqb_spec t x); congruence.
Qed.
Lemma default_latest can x : latest x (kept can (map (fun d => (d, default_name d)) default_set)) =
  match List.find (fun p => fst p =? x) converted with Some p => if can x then Some (snd p) else None | None => None end.
Proof.
  rewrite latest_find. 2:{ cbn. repeat constructor; cbn; lia. }
  replace (List.find (fun p => fst p =? x) (map (fun d => (d, default_name d)) default_set)) with (List.find (fun p => fst p =? x) converted); [reflexivity|].
  destruct (in_dec Z.eq_dec x (map fst converted)) as [I|N].
  - cbn in I. repeat (destruct I as [<-|I]; [reflexivity|]). destruct I.
  - assert (F : forall l : list (Z * Z), ~ In x (map fst l) -> List.find (fun p => fst p =? x) l = None).
    { clear. induction l as [|p l IH]; [reflexivity|]. cbn. intros N. destruct (Z.eqb_spec (fst p) x); [destruct N; auto|]. apply IH. tauto. }
    rewrite !F; auto. intros H. apply N. clear - H. cbn in *. tauto.
Qed.
Lemma registers_set can K ds : (length K <= 32)%nat -> Forall (fun d => d <> 0 /\ default_name d <> 0 /\ In d K) ds ->
  forall st al, rep al st -> incl (map fst al) K -> is_set st = true \/ ds <> [] ->
  is_set (fold_left (fun st sig => ex_signal can sig (default_name sig) st) ds st) = true.
Proof.
  intros Lk. induction 1 as [|d ds (A & B & C) H IH]; intros st al R I Q; cbn [fold_left]; [destruct Q; [auto|congruence]|].
  destruct (ex_signal_rep can d (default_name d) al st K R A B I C Lk) as (al' & R' & I' & _ & _ & S'). eapply IH; eauto.
Qed.

(** C42, C43.  All histories of registrations, resets and blocks, with at most 20 distinct signals outside the
    default set: what a raised signal does is exactly what [outlook_of] says. *)
Theorem signal_outlook can F l sig :
  (length F <= 20)%nat -> Forall (op_named F) l -> sig <> 0 ->
  raised sig (sig_run can l sig_start) = what (outlook_of can l) sig.
Proof.
  intros HF Hl Hs. set (K := default_set ++ F). assert (Lk : (length K <= 32)%nat) by (unfold K; rewrite app_length; cbn; lia).
  assert (Q : exists al, rep al (sig_run can l sig_start) /\ incl (map fst al) K /\ is_set (sig_run can l sig_start) = left_alone (outlook_of can l) /\ forall x, x <> 0 -> match what (outlook_of can l) x with Some e => handled (sig_run can l sig_start) x = true /\ look x al = Some e | None => handled (sig_run can l sig_start) x = false end).
  { induction l as [|o l IH] using rev_ind; [exists []; split; [apply rep_start|]; split; [intros ? []|]; split; reflexivity|].
    apply Forall_app in Hl. destruct Hl as [Hl Ho]. inversion Ho as [|? ? Ho1 _]; subst. destruct (IH Hl) as (al & R & I & A & W).
    unfold sig_run, outlook_of in *. rewrite !fold_left_app. cbn [fold_left].
    set (st := fold_left (fun st o => sig_step can o st) l sig_start) in *. set (v := fold_left (fun v o => outlook_step can o v) l _) in *. clearbody st v.
    destruct o as [s ex|s| |]; cbn [sig_step outlook_step].
    - destruct Ho1 as (B1 & B2 & B3). apply named_in in B3. destruct (ex_signal_rep can s ex al st K R B1 B2 I B3 Lk) as (al' & R' & I' & L' & G' & S').
      exists al'. split; [auto|]. split; [auto|]. split; [exact S'|]. cbn [what]. intros x Hx. rewrite G', L' by auto. specialize (W x Hx). unfold put_in_force. cbn [List.find fst snd].
      rewrite (Z.eqb_sym x s). destruct (Z.eqb_spec s x) as [->|]; rewrite ?andb_false_r; auto. rewrite ?andb_true_r. destruct (can x); cbn [andb snd]; auto.
    - exists al. split; [exact R|]. split; [auto|]. split; [reflexivity|]. cbn [what ex_signal_reset handled]. intros x Hx. specialize (W x Hx). unfold put_in_force. cbn [List.find fst snd].
      destruct (Z.eqb_spec s x) as [->|N]. + cbn [snd]. destruct (can x); [|auto]. unfold set_action. now rewrite Z.eqb_refl.
      + destruct (can s); [|auto]. unfold set_action. destruct (Z.eqb_spec x s); [congruence|auto].
    - exists al. split; [apply resets_rep; auto|]. split; [auto|]. split; [reflexivity|]. cbn [what]. intros x Hx. specialize (W x Hx). unfold ex_signal_default. rewrite resets_handled.
      unfold put_in_force. destruct (in_dec Z.eq_dec x (map fst converted)) as [J|N].
      + assert (X : existsb (Z.eqb x) default_set = true) by (apply existsb_exists; exists x; split; [clear - J; cbn in *; tauto|apply Z.eqb_refl]). rewrite X. cbn [andb].
        destruct (List.find (fun p => fst p =? x) (map (fun p : Z * Z => (fst p, None)) converted)) as [p|] eqn:Fd.
        * apply find_some in Fd. destruct Fd as [Fd _]. apply in_map_iff in Fd. destruct Fd as (q & <- & _). cbn [snd]. destruct (can x); auto.
        * exfalso. apply in_map_iff in J. destruct J as (q & <- & J). pose proof (find_none _ _ Fd (fst q, None)) as Y. cbn [fst] in Y. rewrite Z.eqb_refl in Y.
          discriminate Y. apply in_map_iff. eauto.
      + assert (X : existsb (Z.eqb x) default_set = false). { destruct (existsb (Z.eqb x) default_set) eqn:Y; [|reflexivity]. apply existsb_exists in Y. destruct Y as (y & Y1 & Y2). apply Z.eqb_eq in Y2. subst y. destruct N. clear - Y1. cbn in *. tauto. }
        rewrite X. cbn [andb]. destruct (List.find (fun p => fst p =? x) (map (fun p : Z * Z => (fst p, None)) converted)) as [p|] eqn:Fd; [|auto].
        apply find_some in Fd. destruct Fd as [Fd E]. apply in_map_iff in Fd. destruct Fd as (q & <- & Fd). cbn [fst] in E. apply Z.eqb_eq in E. destruct N. apply in_map_iff. eauto.
    - unfold enter_block. rewrite A. destruct (left_alone v) eqn:LA; [exists al; rewrite LA; auto|]. rewrite setup_registers.
      destruct (registers_rep can _ K default_named ltac:(intros x Hx; apply in_or_app; left; exact Hx) Lk al st R I) as (al' & R' & I' & L' & G'). exists al'. split; [auto|]. split; [auto|].
      split. { cbn [left_alone]. rewrite <- setup_registers. unfold ex_signal_setup. eapply (registers_set can K default_set Lk); eauto; [|right; discriminate].
        apply Forall_forall. intros d Hd. split; [|split; [|apply in_or_app; auto]]; clear - Hd; cbn in Hd; unfold default_name; lia. }
      cbn [what]. intros x Hx. specialize (W x Hx). rewrite G', L', default_latest by auto. unfold put_in_force.
      destruct (List.find (fun p => fst p =? x) converted) as [q|] eqn:Fd.
      + assert (Y : List.find (fun p => fst p =? x) (map (fun p : Z * Z => (fst p, Some (snd p))) converted) = Some (fst q, Some (snd q))).
        { clear - Fd. induction converted as [|p c IHc]; [discriminate|]. cbn [List.find map fst] in *. destruct (fst p =? x); [congruence|auto]. }
        rewrite Y. cbn [snd]. destruct (can x); auto.
      + assert (Y : List.find (fun p => fst p =? x) (map (fun p : Z * Z => (fst p, Some (snd p))) converted) = None).
        { clear - Fd. induction converted as [|p c IHc]; [reflexivity|]. cbn [List.find map fst] in *. destruct (fst p =? x); [congruence|auto]. }
        rewrite Y. auto. }
  destruct Q as (al & (T & _ & _ & Nm) & _ & _ & W). specialize (W sig Hs). unfold raised. destruct (what (outlook_of can l) sig) as [e|].
  - destruct W as [-> W]. rewrite T, name_of_rep by auto. rewrite W. reflexivity.
  - rewrite W. reflexivity.
Qed.
Example signal_outlook_case :
  let can := fun s => negb (s =? 9) in let l := [Register 10 5; Enter; Reset 10; Register 9 6; Reset 2; Enter; Register 2 8; ResetAll; Register 40 4; Enter] in
  Forall (op_named [9; 10; 40]) l /\ map (what (outlook_of can l)) [2; 9; 10; 11; 40] = [None; None; None; None; Some 4] /\
  map (what (outlook_of can (firstn 6 l))) [2; 9; 10; 11; 40] = [Some 1002; None; None; Some 1011; None].
Proof.
  split; [|split; vm_compute; reflexivity]. repeat (apply Forall_cons; [cbn [op_named]; first [exact I | split; [lia|split; [lia|cbn; lia]]]|]). apply Forall_nil.
Qed.

(** C43, full statement: in every try or guard block each signal of the default set is converted to its
    exception, whatever calls were made before.  What holds: when the last call before the block was a
    reset, or nothing was called, with at most 20 other signals registered. *)
Theorem default_signals_partial can F l sig e :
  (length F <= 20)%nat -> Forall (op_named F) l -> ends_reset l -> In (sig, e) converted -> can sig = true ->
  raised sig (sig_run can (l ++ [Enter]) sig_start) = Some e.
Proof.
  intros HF Hl He Hs Hc. destruct (converted_default sig e Hs) as [Hs' ->]. clear Hs. rename Hs' into Hs. destruct (run_rep can F l HF Hl) as (al & R & I).
  assert (Q : is_set (sig_run can l sig_start) = false).
  { destruct He as [->|(l' & [->|(s & ->)])]; [reflexivity| |]; unfold sig_run; rewrite fold_left_app; reflexivity. }
  unfold sig_run. rewrite fold_left_app. cbn [fold_left sig_step]. fold (sig_run can l sig_start). unfold enter_block. rewrite Q, setup_registers.
  set (K := default_set ++ F). assert (Lk : (length K <= 32)%nat) by (unfold K; rewrite app_length; cbn; lia).
  destruct (registers_rep can _ K default_named ltac:(intros x Hx; apply in_or_app; left; exact Hx) Lk al _ R I) as (al' & (T & _ & _ & Nm) & _ & L & G).
  assert (D : latest sig (kept can (map (fun d => (d, default_name d)) default_set)) = Some (default_name sig)).
  { clear - Hs Hc. assert (X : forall ds, NoDup ds -> In sig ds -> latest sig (kept can (map (fun d => (d, default_name d)) ds)) = Some (default_name sig)).
    { induction ds as [|d ds IH]; intros Nd Hin; [destruct Hin|]. inversion Nd; subst. cbn [map kept filter fst]. fold (kept can (map (fun d => (d, default_name d)) ds)).
      destruct Hin as [->|Hin].
      - rewrite Hc. cbn [latest]. assert (N : latest sig (kept can (map (fun d => (d, default_name d)) ds)) = None).
        { clear - H1. induction ds as [|d ds IH]; [reflexivity|]. cbn [map kept filter fst]. fold (kept can (map (fun d => (d, default_name d)) ds)).
          assert (Q : latest sig (kept can (map (fun d => (d, default_name d)) ds)) = None) by (apply IH; intros Q; apply H1; right; auto).
          destruct (can d); [|auto]. cbn [latest]. rewrite Q. destruct (Z.eqb_spec d sig); [destruct H1; left; auto|reflexivity]. }
        rewrite N, Z.eqb_refl. reflexivity.
      - destruct (can d); [|auto]. cbn [latest]. rewrite (IH H2 Hin). reflexivity. }
    apply X; [|auto]. repeat constructor; cbn; intuition discriminate. }
  assert (S0 : sig <> 0) by (cbn in Hs; intuition lia).
  unfold raised. rewrite G, D, T, name_of_rep by auto. rewrite (L sig S0), D. reflexivity.
Qed.
Example default_signals_partial_case :
  Forall (op_named [10; 12]) [Register 10 5; Enter; Register 12 3; Reset 11; Reset 10] /\ ends_reset [Register 10 5; Enter; Register 12 3; Reset 11; Reset 10] /\
  raised 11 (sig_run (fun _ => true) ([Register 10 5; Enter; Register 12 3; Reset 11; Reset 10] ++ [Enter]) sig_start) = Some 1011.
Proof.
  split; [repeat constructor; cbn; intuition lia|]. split; [right; exists [Register 10 5; Enter; Register 12 3; Reset 11]; right; exists 10; reflexivity|]. vm_compute. reflexivity.
Qed.

(** C43 refuted: registering any handler before the first block switches the default set off; so does
    registering one after a reset; and with 32 signals registered there is no room for the default set. *)
Theorem default_signals_refuted : exists l, l = [Register 10 5; Enter] /\
  forall sig e, In (sig, e) converted -> raised sig (sig_run (fun _ => true) l sig_start) = None.
Proof. exists [Register 10 5; Enter]. split; [reflexivity|]. intros sig e H. cbn in H. repeat (destruct H as [H|H]; [injection H as <- <-; vm_compute; reflexivity|]). destruct H. Qed.
Theorem default_signals_reset_refuted : exists l, l = [Enter; Reset 11; Register 10 5; Enter] /\ raised 11 (sig_run (fun _ => true) l sig_start) = None.
Proof. exists [Enter; Reset 11; Register 10 5; Enter]. split; [reflexivity|]. vm_compute. reflexivity. Qed.
Theorem default_signals_full_refuted : exists l, l = registers (map (fun k => (Z.of_nat k + 32, 7)) (seq 0 32)) ++ [Reset 40; Enter] /\
  raised 11 (sig_run (fun _ => true) l sig_start) = None.
Proof. eexists. split; [reflexivity|]. vm_compute. reflexivity. Qed.

(** ** C44 *)

(** Specification: the pending one is the panic if there is one, else the error; raii_caught looks at the thrown exception [ex] when neither is
    there.  What the two functions decide: besides equal names, any name of eight characters and any prefix of the pending name match. *)
Definition is_pending (panic err : option (list Z)) (b : list Z) : Prop := panic = Some b \/ (panic = None /\ err = Some b).
Definition is_pending_or (panic err ex : option (list Z)) (b : list Z) : Prop := is_pending panic err b \/ (panic = None /\ err = None /\ ex = Some b).
Definition matches (name b : list Z) : Prop := Z.of_nat (List.length name) = 8 \/ is_prefix name b.
Definition blk (o : option (list Z)) : option (list Z) := option_map (fun s => s ++ [0]) o.
Definition name_ok (o : option (list Z)) : Prop := match o with None => True | Some b => text b end.

Lemma eq_or_null_value S name e : oob S <> None -> text name -> name_ok e -> Z.of_nat (List.length name) < 2147483648 ->
  exists t, eq_or_null S (name ++ [0]) (blk e) = Ok t /\ (t = true <-> exists b, e = Some b /\ matches name b).
Proof.
  intros HS Hn He Hl. destruct e as [b|]; cbn [blk option_map eq_or_null].
  - destruct (is_str_eq_value S name b [] [] HS Hn He) as (t & E & Ht); auto; [constructor|constructor|]. exists t. split; [exact E|]. rewrite Ht. split.
    + intros M. exists b. auto.
    + intros (b' & Q & M). injection Q as <-. exact M.
  - exists false. split; [reflexivity|]. split; [discriminate|intros (b & Q & _); discriminate].
Qed.
Lemma pending_blk p e : pending (blk p) (blk e) = blk (pending p e).
Proof. destruct p; reflexivity. Qed.
Lemma name_pending p e : name_ok p -> name_ok e -> name_ok (pending p e).
Proof. destruct p; auto. Qed.

Theorem is_caught_value S name panic err : oob S <> None -> text name -> name_ok panic -> name_ok err -> Z.of_nat (List.length name) < 2147483648 ->
  exists t, raii_is_caught S (name ++ [0]) (blk panic) (blk err) = Ok t /\ (t = true <-> exists b, is_pending panic err b /\ matches name b).
Proof.
  intros HS Hn Hp He Hl. unfold raii_is_caught. rewrite pending_blk.
  destruct (eq_or_null_value S name (pending panic err) HS Hn (name_pending _ _ Hp He) Hl) as (t & E & Ht). exists t. split; [exact E|]. rewrite Ht.
  unfold is_pending. destruct panic as [p|]; cbn [pending].
  - split; intros (b & Q & M); exists b; split; auto. destruct Q as [Q|[Q _]]; congruence.
  - split; intros (b & Q & M); exists b; split; auto. destruct Q as [Q|[_ Q]]; congruence.
Qed.
Theorem caught_value S name panic err ex : oob S <> None -> text name -> name_ok panic -> name_ok err -> name_ok ex -> Z.of_nat (List.length name) < 2147483648 ->
  exists t, raii_caught S (name ++ [0]) (blk panic) (blk err) (blk ex) = Ok t /\ (t = true <-> exists b, is_pending_or panic err ex b /\ matches name b).
Proof.
  intros HS Hn Hp He Hx Hl. unfold raii_caught. rewrite pending_blk. unfold is_pending_or, is_pending.
  destruct panic as [p|]; [|destruct err as [e|]]; cbn [pending blk option_map].
  - destruct (eq_or_null_value S name (Some p) HS Hn Hp Hl) as (t & E & Ht). exists t. split; [exact E|]. rewrite Ht.
    split; intros (b & Q & M); exists b; split; auto. destruct Q as [[Q|[Q _]]|[Q _]]; congruence.
  - destruct (eq_or_null_value S name (Some e) HS Hn He Hl) as (t & E & Ht). exists t. split; [exact E|]. rewrite Ht.
    split; intros (b & Q & M); exists b; split; auto. destruct Q as [[Q|[_ Q]]|[_ [Q _]]]; congruence.
  - destruct (eq_or_null_value S name ex HS Hn Hx Hl) as (t & E & Ht). rewrite E. cbn [bind].
    match goal with |- exists u, _ /\ (_ <-> ?R) => assert (G : t = true <-> R) end.
    { rewrite Ht. split; intros (b & Q & M); exists b; split; auto. destruct Q as [[Q|[_ Q]]|[_ [_ Q]]]; congruence. }
    destruct t; [exists true; auto|]. exists false. split; [reflexivity|exact G].
Qed.

(** C44, full statement: the result is true exactly when [name] is the name of the pending exception or panic.  It
    holds for names whose length is not 8 and that are no proper prefix of the pending name. *)
Theorem caught_exact_partial S name panic err ex : oob S <> None -> text name -> name_ok panic -> name_ok err -> name_ok ex -> Z.of_nat (List.length name) < 2147483648 ->
  Z.of_nat (List.length name) <> 8 ->
  (forall b, In (Some b) [panic; err; ex] -> is_prefix name b -> name = b) ->
  exists t u, raii_is_caught S (name ++ [0]) (blk panic) (blk err) = Ok t /\ (t = true <-> is_pending panic err name) /\
    raii_caught S (name ++ [0]) (blk panic) (blk err) (blk ex) = Ok u /\ (u = true <-> is_pending_or panic err ex name).
Proof.
  intros HS Hn Hp He Hx Hl H8 Hpre.
  assert (M : forall b, In (Some b) [panic; err; ex] -> (matches name b <-> b = name)).
  { intros b Hin. split.
    - intros [Q|Q]; [contradiction|]. rewrite (Hpre b Hin Q). reflexivity.
    - intros ->. right. exists []. rewrite app_nil_r. reflexivity. }
  destruct (is_caught_value S name panic err HS Hn Hp He Hl) as (t & E & Ht). destruct (caught_value S name panic err ex HS Hn Hp He Hx Hl) as (u & Eu & Hu).
  assert (I1 : forall b, is_pending panic err b -> In (Some b) [panic; err; ex]) by (intros b [-> | [_ -> ]]; cbn; auto).
  assert (I2 : forall b, is_pending_or panic err ex b -> In (Some b) [panic; err; ex]) by (intros b [Q | [_ [_ -> ]]]; [auto|cbn; auto]).
  exists t, u. split; [exact E|]. split.
  { rewrite Ht. split; [intros (b & Q & Mb); apply M in Mb; [congruence|auto]|intros Q; exists name; split; [auto|apply M; auto]]. }
  split; [exact Eu|].
  rewrite Hu. split; [intros (b & Q & Mb); apply M in Mb; [congruence|auto]|intros Q; exists name; split; [auto|apply M; auto]].
Qed.
Example caught_exact_partial_case :
  raii_caught (machine (fun _ => 0)) (cs "sig_fpe") None (Some (cs "sig_fpe")) None = Ok true /\
  raii_caught (machine (fun _ => 0)) (cs "out_of_memory") None (Some (cs "sig_fpe")) None = Ok false /\
  raii_caught (machine (fun _ => 0)) (cs "divide_by_zero") None None (Some (cs "divide_by_zero")) = Ok true.
Proof. split; [vm_compute; reflexivity|]. split; vm_compute; reflexivity. Qed.

(** C44 refuted with exceptions of the library: caught("sig_segv") is true for every pending exception. *)
Theorem caught_refuted : exists name b, name = bs "sig_segv" /\ b = bs "out_of_memory" /\
  raii_caught strict (name ++ [0]) None (Some (b ++ [0])) None = Ok true /\ raii_is_caught strict (name ++ [0]) None (Some (b ++ [0])) = Ok true.
Proof. exists (bs "sig_segv"), (bs "out_of_memory"). split; [reflexivity|]. split; [reflexivity|]. split; vm_compute; reflexivity. Qed.
Theorem caught_prefix_refuted : exists name b, name = bs "int" /\ b = bs "int_overflow" /\ raii_is_caught strict (name ++ [0]) None (Some (b ++ [0])) = Ok true.
Proof. exists (bs "int"), (bs "int_overflow"). split; [reflexivity|]. split; [reflexivity|]. vm_compute. reflexivity. Qed.

Print Assumptions signal_outlook. Print Assumptions signal_latest. Print Assumptions signal_table_full. Print Assumptions default_signals_partial. Print Assumptions default_signals_refuted.
Print Assumptions default_signals_reset_refuted. Print Assumptions default_signals_full_refuted. Print Assumptions is_caught_value. Print Assumptions caught_value.
Print Assumptions caught_exact_partial. Print Assumptions caught_refuted. Print Assumptions caught_prefix_refuted.
