(** The wait emulation of include/compat/wait.h. *)
From Verif Require Import BaseLemmas WaitModel.
Import ListNotations.

(** The options waitpid may be given on the systems it imitates: any of WNOHANG, WUNTRACED, __WCONTINUED and __WNOWAIT (wait.h 180-216). *)
Definition known_options (o : Z) : Prop := Z.land o (Z.lnot 16777227) = 0.
(** [q] is the first process of the snapshot for which [P] holds. *)
Definition first_of (P : proc -> Prop) (q : proc) (l : list proc) : Prop := exists l1 l2, l = l1 ++ q :: l2 /\ P q /\ forall x, In x l1 -> ~ P x.
(** The caller's handles are numbers given out before. *)
Definition fresh (w : wst) : Prop := 0 < next_handle w /\ forall h, In h (handles w) -> 0 < h < next_handle w.

Lemma find_first : forall (f : proc -> bool) P q l, (forall x, f x = true <-> P x) -> first_of P q l -> find f l = Some q.
Proof.
  intros f P q l E (l1 & l2 & -> & Hq & N). induction l1 as [|x l1 IH]; cbn.
  - assert (f q = true) as -> by (apply E; exact Hq). reflexivity.
  - destruct (f x) eqn:F; [exfalso; apply (N x (or_introl eq_refl)), E, F|]. apply IH. intros y Hy. apply N. right. exact Hy.
Qed.
Lemma find_none_of : forall (f : proc -> bool) (P : proc -> Prop) l, (forall x, f x = true <-> P x) -> (forall x, In x l -> ~ P x) -> find f l = None.
Proof. intros f P l E N. destruct (find f l) as [x|] eqn:F; [|reflexivity]. apply find_some in F. destruct F as [I F]. exfalso. apply (N x I), E, F. Qed.
Lemma filter_keep : forall l n h, (forall x, In x l -> x < n) -> n <= h -> filter (fun x => negb (x =? h)) l = l.
Proof.
  intros l n h B L. induction l as [|x l IH]; [reflexivity|]. cbn. assert (x < n) by (apply B; left; reflexivity). destruct (Z.eqb_spec x h); [lia|]. cbn. f_equal. apply IH. intros y Hy. apply B. right. exact Hy.
Qed.
Lemma filter_zero : forall l, (forall x, In x l -> 0 < x) -> filter (fun x => negb (x =? 0)) l = l.
Proof.
  intros l B. induction l as [|x l IH]; [reflexivity|]. cbn. assert (0 < x) by (apply B; left; reflexivity). destruct (Z.eqb_spec x 0); [lia|]. cbn. f_equal. apply IH. intros y Hy. apply B. right. exact Hy.
Qed.
Lemma close_one : forall w, fresh w -> handles (close (next_handle w) (snd (open_handle w))) = handles w.
Proof. intros w [P B]. cbn. rewrite Z.eqb_refl. cbn. apply (filter_keep _ (next_handle w)); [intros x Hx; apply B; exact Hx|lia]. Qed.
Lemma known_masked : forall o, known_options o -> Z.land o (Z.lnot (Z.lor (Z.lor (Z.lor WUNTRACED WNOWAIT) WCONTINUED) WNOHANG)) =? 0 = true.
Proof. intros o K. apply Z.eqb_eq. exact K. Qed.
Lemma nohang_bit : forall o, (Z.land WNOHANG o =? WNOHANG) = Z.odd o.
Proof.
  intros o. unfold WNOHANG. rewrite Z.land_comm. replace 1 with (Z.ones 1) at 1 by reflexivity. rewrite Z.land_ones by lia. change (2 ^ 1) with 2. rewrite Zmod_odd. destruct (Z.odd o); reflexivity.
Qed.

(** What the code makes of a process that has been found, for the three ways the wait can end. *)
Lemma internal_found : forall pid o st info ru w l q P, known_options o -> pid = -1 \/ 0 < pid < 2147483648 ->
  snapshot w = Some l -> (forall x, (if pid =? -1 then p_parent x =? self w else p_id x =? pid) = true <-> P x) -> first_of P q l -> fresh w ->
  waitpid_internal pid o st info ru w =
    let w1 := snd (open_handle w) in
    Ok (if p_open q then wait_found q (next_handle w1) (next_handle w) (Z.odd o) st info ru (snd (open_handle w1)) else wait_found q 0 (next_handle w) (Z.odd o) st info ru w1).
Proof.
  intros pid o st info ru w l q P K HP S E F [FP FB]. unfold waitpid_internal. rewrite known_masked by exact K. cbn [negb].
  assert (((pid <? -1) || (pid =? 0)) = false) as -> by (destruct (Z.ltb_spec pid (-1)), (Z.eqb_spec pid 0); cbn; lia || reflexivity).
  rewrite S, nohang_bit. destruct l as [|a l'] eqn:Hl; [destruct F as (l1 & l2 & F & _); destruct l1; discriminate|]. rewrite <- Hl in *.
  assert (find (fun pe => (if pid =? -1 then filter_anychild w else filter_pid w) pe pid) l = Some q) as G.
  { apply (find_first _ P); [|exact F]. intros x. rewrite <- E. unfold filter_anychild, filter_pid. destruct (Z.eqb_spec pid (-1)); [reflexivity|]. rewrite u32_id by lia. reflexivity. }
  unfold open_handle. rewrite G. destruct (p_open q); cbn -[Z.add].
  - destruct (Z.eqb_spec (next_handle w + 1) INVALID_HANDLE) as [B|B]; [unfold INVALID_HANDLE in B; lia|reflexivity].
  - reflexivity.
Qed.

(** C127.  The status tests of wait.h as arithmetic: exactly one of them holds for a status whose low byte is not 255, none for 65535 (__W_CONTINUED), and the parts are the bytes. *)
Theorem status_tests : forall s,
  (wifexited s = true <-> s mod 128 = 0) /\ (wifsignaled s = true <-> 1 <= s mod 128 <= 126) /\ (wifstopped s = true <-> s mod 256 = 127) /\
  wexitstatus s = (s / 256) mod 256 /\ wstopsig s = (s / 256) mod 256 /\ wtermsig s = s mod 128 /\
  (s mod 256 <> 255 -> (if wifexited s then 1 else 0) + (if wifsignaled s then 1 else 0) + (if wifstopped s then 1 else 0) = 1) /\
  (s mod 256 = 255 -> wifexited s = false /\ wifsignaled s = false /\ wifstopped s = false) /\
  (wifcontinued s = true <-> s = 65535) /\ (wifcontinued s = true -> wifexited s = false /\ wifsignaled s = false /\ wifstopped s = false).
Proof.
  intros s.
  assert (T : wtermsig s = s mod 128) by (unfold wtermsig; change 127 with (Z.ones 7); rewrite Z.land_ones by lia; reflexivity).
  assert (L : Z.land s 255 = s mod 256) by (change 255 with (Z.ones 8); rewrite Z.land_ones by lia; reflexivity).
  assert (X : wexitstatus s = (s / 256) mod 256).
  { unfold wexitstatus. rewrite Z.shiftr_land. change (Z.shiftr 65280 8) with (Z.ones 8). rewrite Z.land_ones by lia. rewrite Z.shiftr_div_pow2 by lia. reflexivity. }
  assert (B : 0 <= s mod 128 < 128) by (apply Z.mod_pos_bound; lia).
  assert (D : s mod 256 = s mod 128 \/ s mod 256 = s mod 128 + 128) by (pose proof (Z.div_mod s 128 ltac:(lia)); pose proof (Z.div_mod s 256 ltac:(lia)); pose proof (Z.mod_pos_bound s 256 ltac:(lia)); lia).
  assert (E1 : wifexited s = true <-> s mod 128 = 0) by (unfold wifexited; rewrite T; apply Z.eqb_eq).
  assert (E3 : wifstopped s = true <-> s mod 256 = 127) by (unfold wifstopped; rewrite L; apply Z.eqb_eq).
  assert (E2 : wifsignaled s = true <-> 1 <= s mod 128 <= 126).
  { unfold wifsignaled. rewrite T, Z.shiftr_div_pow2 by lia. change (2 ^ 1) with 2. unfold s8, u8. rewrite Z.mod_small by lia.
    destruct (Z.ltb_spec (s mod 128 + 1) 128) as [H|H]; rewrite Z.ltb_lt.
    - split; intros H'; [|pose proof (Z.div_le_mono 2 (s mod 128 + 1) 2 ltac:(lia) ltac:(lia)) as H''; change (2 / 2) with 1 in H''; lia].
      destruct (Z.eq_dec (s mod 128) 0) as [e|e]; [rewrite e in H'; cbn in H'; lia|lia].
    - assert (s mod 128 = 127) as -> by lia. cbn. lia. }
  do 6 (split; [assumption || exact X|]).
  assert (N1 : s mod 128 <> 0 -> wifexited s = false) by (intros H; destruct (wifexited s); [exfalso; apply H, E1; reflexivity|reflexivity]).
  assert (N2 : s mod 128 = 0 \/ s mod 128 = 127 -> wifsignaled s = false) by (intros H; destruct (wifsignaled s); [assert (1 <= s mod 128 <= 126) by (apply E2; reflexivity); lia|reflexivity]).
  assert (N3 : s mod 256 <> 127 -> wifstopped s = false) by (intros H; destruct (wifstopped s); [exfalso; apply H, E3; reflexivity|reflexivity]).
  assert (A255 : s mod 256 = 255 -> wifexited s = false /\ wifsignaled s = false /\ wifstopped s = false) by (intros H; split; [apply N1; lia|split; [apply N2; lia|apply N3; lia]]).
  split; [|split; [exact A255|split; [apply Z.eqb_eq|intros H; apply Z.eqb_eq in H; apply A255; rewrite H; reflexivity]]].
  intros H. destruct (Z.eq_dec (s mod 128) 0) as [e|e].
  - rewrite (proj2 E1 e), N2, N3 by lia. reflexivity.
  - rewrite N1 by exact e. destruct (Z.eq_dec (s mod 128) 127) as [e'|e'].
    + rewrite N2, (proj2 E3) by lia. reflexivity.
    + rewrite (proj2 E2), N3 by lia. reflexivity.
Qed.
Example status_tests_holds : wifexited 768 = true /\ wexitstatus 768 = 3 /\ wifsignaled 139 = true /\ wtermsig 139 = 11 /\ wifstopped 4991 = true /\ wstopsig 4991 = 19 /\ wifcontinued 65535 = true.
Proof. repeat split; vm_compute; reflexivity. Qed.
Print Assumptions status_tests.

(** C123.  Waiting for a process by its number, when it has ended or the caller may wait and it does end: the status is the low byte of its exit code, as a normal exit - also for the codes of a crash - and the
    value is the number of the process that created it. *)
Theorem waitpid_exact : forall pid o w l q c, known_options o -> 0 < pid < 2147483648 -> snapshot w = Some l -> first_of (fun x => p_id x = pid) q l -> fresh w ->
  p_open q = true -> p_code q = Some c -> p_known q = true -> p_ended q = true \/ Z.odd o = false ->
  exists s w', waitpid pid true o w = Ok (Ret (s32 (p_parent q)) (Some s) false false, w') /\ s = 256 * (c mod 256) /\ wifexited s = true /\ wexitstatus s = c mod 256 /\ handles w' = handles w /\ errno w' = errno w.
Proof.
  intros pid o w l q c K HP S F FR O C KN E. unfold waitpid.
  rewrite (internal_found pid o true false false w l q (fun x => p_id x = pid) K (or_intror HP) S) by (first [assumption | intros x; destruct (Z.eqb_spec pid (-1)); [lia|apply Z.eqb_eq]]).
  cbv zeta. rewrite O. destruct FR as [FP FB]. unfold wait_found, wait_object. cbn [open_handle snd next_handle]. destruct (Z.eqb_spec (next_handle w + 1) 0) as [z|z]; [lia|].
  assert ((if p_ended q then Some WAIT_OBJECT_0 else if Z.odd o then Some WAIT_TIMEOUT else match p_code q with Some _ => Some WAIT_OBJECT_0 | None => None end) = Some WAIT_OBJECT_0) as ->
    by (destruct (p_ended q); [reflexivity|]; destruct E as [E|E]; [discriminate|]; rewrite E, C; reflexivity).
  change (WAIT_OBJECT_0 =? WAIT_OBJECT_0) with true. cbv iota. unfold exit_code. rewrite KN, C.
  assert (V : Z.lor 0 (Z.shiftl (Z.land (u32 c) 255) 8) = 256 * (c mod 256)).
  { rewrite Z.lor_0_l, Z.shiftl_mul_pow2 by lia. change 255 with (Z.ones 8). rewrite Z.land_ones by lia. unfold u32. change (2 ^ 8) with 256.
    change 4294967296 with (256 * 16777216). rewrite Z.rem_mul_r by lia. rewrite (Z.mul_comm 256 ((c / 256) mod 16777216)), Z.mod_add by lia. rewrite Z.mod_mod by lia. lia. }
  eexists _, _. split; [reflexivity|]. rewrite V. destruct (status_tests (256 * (c mod 256))) as (T1 & _ & _ & T4 & _).
  assert (M : 0 <= c mod 256 < 256) by (apply Z.mod_pos_bound; lia).
  split; [reflexivity|]. split; [apply T1; replace (256 * (c mod 256)) with ((2 * (c mod 256)) * 128) by lia; apply Z.mod_mul; lia|].
  split; [rewrite T4; rewrite (Z.mul_comm 256), Z.div_mul by lia; apply Z.mod_small; lia|]. split; [|reflexivity].
  cbn -[Z.add]. rewrite Z.eqb_refl. cbn -[Z.add]. destruct (Z.eqb_spec (next_handle w) (next_handle w + 1)); [lia|]. cbn -[Z.add]. rewrite Z.eqb_refl. cbn -[Z.add].
  rewrite (filter_keep (handles w) (next_handle w) (next_handle w + 1)) by (first [lia | intros x Hx; apply FB; exact Hx]). apply (filter_keep _ (next_handle w)); [intros x Hx; apply FB; exact Hx|lia].
Qed.
Definition child5 : proc := Proc 5 3 true true (Some 7) true.
Definition w5 : wst := Wst 3 (Some [Proc 3 1 true false None true; child5]) [] 40 0.
(** C123.  A process waits for its child 5, which ended with 7: the value is not 5 but the number of the caller itself; for a crashed child (0xC0000005) the status says it exited with 5. *)
Theorem waitpid_number_refuted : exists w w' w'' q, In child5 (match snapshot w with Some l => l | None => [] end) /\ p_parent child5 = self w /\
  waitpid 5 true 0 w = Ok (Ret 3 (Some 1792) false false, w') /\ 3 = self w /\
  p_code q = Some 3221225477 /\ waitpid 6 true 0 (Wst 3 (Some [q]) [] 40 0) = Ok (Ret 3 (Some 1280) false false, w'') /\ wifexited 1280 = true /\ wifsignaled 1280 = false.
Proof.
  exists w5. eexists _, _, (Proc 6 3 true true (Some 3221225477) true). split; [right; left; reflexivity|]. split; [reflexivity|]. split; [vm_compute; reflexivity|]. split; [reflexivity|]. split; [reflexivity|].
  split; [vm_compute; reflexivity|]. split; vm_compute; reflexivity.
Qed.
(** C123.  So the value is the number asked for only if the process created itself. *)
Theorem waitpid_number_exact : forall pid o w l q c s i u w', known_options o -> 0 < pid < 2147483648 -> snapshot w = Some l -> first_of (fun x => p_id x = pid) q l -> fresh w ->
  p_open q = true -> p_code q = Some c -> p_known q = true -> p_ended q = true \/ Z.odd o = false -> 0 <= p_parent q < 2147483648 ->
  waitpid pid true o w = Ok (Ret pid s i u, w') -> p_parent q = p_id q.
Proof.
  intros pid o w l q c s i u w' K HP S F FR O C KN E B H. destruct (waitpid_exact pid o w l q c K HP S F FR O C KN E) as (s' & w1 & G & _). rewrite H in G. injection G as G _ _ _ _.
  rewrite s32_id in G by lia. destruct F as (l1 & l2 & _ & F & _). congruence.
Qed.
Example waitpid_exact_holds : exists s w', waitpid 5 true 0 w5 = Ok (Ret 3 (Some s) false false, w') /\ wexitstatus s = 7.
Proof.
  assert (F : first_of (fun x => p_id x = 5) child5 [Proc 3 1 true false None true; child5]).
  { exists [Proc 3 1 true false None true], []. split; [reflexivity|]. split; [reflexivity|]. intros x [<-|[]]; discriminate. }
  assert (R : fresh w5) by (split; [reflexivity|intros h []]).
  destruct (waitpid_exact 5 0 w5 _ child5 7 eq_refl ltac:(lia) eq_refl F R eq_refl eq_refl eq_refl (or_introl eq_refl)) as (s & w' & H & _ & _ & X & _). exists s, w'. split; [exact H|exact X].
Qed.
Example waitpid_number_exact_holds : exists q s w', waitpid 9 true 0 (Wst 3 (Some [q]) [] 40 0) = Ok (Ret 9 s false false, w') /\ p_parent q = p_id q.
Proof.
  set (q := Proc 9 9 true true (Some 1) true). assert (F : first_of (fun x => p_id x = 9) q [q]) by (exists [], []; split; [reflexivity|]; split; [reflexivity|]; intros x []).
  assert (R : fresh (Wst 3 (Some [q]) [] 40 0)) by (split; [reflexivity|intros h []]).
  exists q, (Some 256). eexists. split; [vm_compute; reflexivity|]. refine (waitpid_number_exact 9 0 (Wst 3 (Some [q]) [] 40 0) [q] q 1 (Some 256) false false _ eq_refl ltac:(lia) eq_refl F R eq_refl eq_refl eq_refl (or_introl eq_refl) _ _); [cbn; lia|vm_compute; reflexivity].
Qed.
Print Assumptions waitpid_exact.
Print Assumptions waitpid_number_refuted.
Print Assumptions waitpid_number_exact.

(** C124.  The handles a call leaves open: none, except that a call that gives 0 (WNOHANG, still running) leaves both of them. *)
Theorem waitpid_handles : forall pid o st info ru w r s i u w', fresh w -> waitpid_internal pid o st info ru w = Ok (Ret r s i u, w') ->
  handles w' = handles w \/
  (r = 0 /\ s = None /\ Z.odd o = true /\ handles w' = next_handle w + 1 :: next_handle w :: handles w /\ fresh w' /\ self w' = self w /\ snapshot w' = snapshot w /\ errno w' = errno w).
Proof.
  intros pid o st info ru w r s i u w' [FP FB]. unfold waitpid_internal. rewrite nohang_bit.
  assert (CL : filter (fun x => negb (x =? next_handle w)) (handles w) = handles w) by (apply (filter_keep _ (next_handle w)); [intros x Hx; apply FB; exact Hx|lia]).
  assert (CL1 : filter (fun x => negb (x =? next_handle w + 1)) (handles w) = handles w) by (apply (filter_keep _ (next_handle w)); [intros x Hx; apply FB; exact Hx|lia]).
  assert (CL0 : filter (fun x => negb (x =? 0)) (handles w) = handles w) by (apply filter_zero; intros x Hx; apply FB; exact Hx).
  destruct (negb _); [intros H; injection H as <- <- <- <- <-; left; reflexivity|].
  destruct ((pid <? -1) || (pid =? 0)); [discriminate|]. destruct (snapshot w) as [l|] eqn:SN; [|intros H; injection H as <- <- <- <- <-; left; reflexivity].
  unfold open_handle, no_child. destruct l as [|a l'] eqn:Hl; [intros H; injection H as <- <- <- <- <-; left; cbn; rewrite Z.eqb_refl; exact CL|]. rewrite <- Hl in *. clear Hl a l'.
  destruct (find _ l) as [q|]; [|intros H; injection H as <- <- <- <- <-; left; cbn; rewrite Z.eqb_refl; exact CL].
  assert (Z1 : next_handle w + 1 =? 0 = false) by (apply Z.eqb_neq; lia). assert (Z2 : next_handle w =? next_handle w + 1 = false) by (apply Z.eqb_neq; lia).
  assert (Z3 : next_handle w =? 0 = false) by (apply Z.eqb_neq; lia). assert (Z4 : next_handle w + 1 =? INVALID_HANDLE = false) by (apply Z.eqb_neq; unfold INVALID_HANDLE; lia).
  unfold wait_found, wait_object, no_child. destruct (p_open q); cbn -[Z.add Z.lor Z.shiftl Z.land WAIT_OBJECT_0 WAIT_TIMEOUT WAIT_FAILED Z.odd].
  - rewrite Z4, Z1. destruct (p_ended q); [|destruct (Z.odd o) eqn:OD; [|destruct (p_code q); [|discriminate]]];
      repeat match goal with |- context [WAIT_OBJECT_0 =? WAIT_OBJECT_0] => change (WAIT_OBJECT_0 =? WAIT_OBJECT_0) with true; cbv iota
                           | |- context [WAIT_TIMEOUT =? WAIT_OBJECT_0] => change (WAIT_TIMEOUT =? WAIT_OBJECT_0) with false; cbv iota
                           | |- context [WAIT_TIMEOUT =? WAIT_TIMEOUT] => change (WAIT_TIMEOUT =? WAIT_TIMEOUT) with true; cbn [andb] end;
      intros H; injection H as <- <- <- <- <-;
      try (left; cbn -[Z.add]; rewrite Z.eqb_refl; cbn -[Z.add]; rewrite Z2; cbn -[Z.add]; rewrite Z.eqb_refl; cbn -[Z.add]; rewrite CL1; exact CL).
    right. cbn -[Z.add]. do 4 (split; [reflexivity|]). split; [|repeat split; reflexivity || exact SN].
    split; cbn -[Z.add]; [lia|]. intros h [<-|[<-|H]]; [lia|lia|apply FB in H; lia].
  - change (WAIT_FAILED =? WAIT_OBJECT_0) with false. cbv iota. change (WAIT_FAILED =? WAIT_TIMEOUT) with false. cbn [andb]. intros H; injection H as <- <- <- <- <-. left. cbn -[Z.add]. rewrite Z3. cbn -[Z.add]. rewrite Z.eqb_refl. cbn -[Z.add]. rewrite CL0. exact CL.
Qed.
(** C124.  Polling a process that is still running, however often: every call leaves two handles open. *)
Theorem poll_leaks : forall n pid w l q, 0 < pid < 2147483648 -> snapshot w = Some l -> first_of (fun x => p_id x = pid) q l -> fresh w -> p_open q = true -> p_ended q = false ->
  exists w', poll n pid w = Ok (0, w') /\ zlen (handles w') = 2 * Z.of_nat n + zlen (handles w).
Proof.
  intros n. induction n as [|n IH]; intros pid w l q HP S F FR O E; [exists w; split; [reflexivity|cbn; lia]|].
  assert (R : waitpid pid true WNOHANG w = Ok (Ret 0 None false false, snd (open_handle (snd (open_handle w))))).
  { unfold waitpid. rewrite (internal_found pid WNOHANG true false false w l q (fun x => p_id x = pid) eq_refl (or_intror HP) S) by (first [assumption | intros x; destruct (Z.eqb_spec pid (-1)); [lia|apply Z.eqb_eq]]).
    cbv zeta. rewrite O. unfold wait_found, wait_object. cbn -[Z.add WAIT_OBJECT_0 WAIT_TIMEOUT]. destruct FR as [FP FB]. destruct (Z.eqb_spec (next_handle w + 1) 0); [lia|]. rewrite E. reflexivity. }
  cbn [poll]. rewrite R. cbn [bind].
  destruct (IH pid (snd (open_handle (snd (open_handle w)))) l q HP S F) as (w' & P & L); [|exact O|exact E|].
  - destruct FR as [FP FB]. split; cbn -[Z.add]; [lia|]. intros h [<-|[<-|H]]; [lia|lia|apply FB in H; lia].
  - exists w'. split; [exact P|]. rewrite L. cbn [open_handle snd handles length]. lia.
Qed.
(** C124.  One poll of a running child: two handles stay open. *)
Theorem waitpid_handles_refuted : exists w w', fresh w /\ handles w = [] /\ waitpid 5 true WNOHANG w = Ok (Ret 0 None false false, w') /\ handles w' = [41; 40].
Proof.
  exists (Wst 3 (Some [Proc 5 3 true false (Some 7) true]) [] 40 0). eexists. split; [split; cbn; [lia|tauto]|]. split; [reflexivity|]. split; vm_compute; reflexivity.
Qed.
Example waitpid_handles_holds := waitpid_handles 5 0 true false false w5 3 (Some 1792) false false _ (conj (eq_refl : (0 < 40)) (fun h (H : In h []) => match H with end)) eq_refl.
Example poll_leaks_holds : exists w', poll 1000 5 (Wst 3 (Some [Proc 5 3 true false (Some 7) true]) [] 40 0) = Ok (0, w') /\ zlen (handles w') = 2000.
Proof.
  destruct (poll_leaks 1000 5 (Wst 3 (Some [Proc 5 3 true false (Some 7) true]) [] 40 0) _ (Proc 5 3 true false (Some 7) true) ltac:(lia) eq_refl) as (w' & P & L); try reflexivity.
  - exists [], []. split; [reflexivity|]. split; [reflexivity|]. intros x [].
  - split; cbn; [lia|tauto].
  - exists w'. split; [exact P|]. rewrite L. reflexivity.
Qed.
Print Assumptions waitpid_handles.
Print Assumptions poll_leaks.
Print Assumptions waitpid_handles_refuted.

(** C125.  Waiting for any child looks at the first child of the snapshot and at nothing else; whether the others have ended makes no difference. *)
Theorem wait_first_child : forall o st ru w l l' q, known_options o -> snapshot w = Some l -> first_of (fun x => p_parent x = self w) q l -> first_of (fun x => p_parent x = self w) q l' -> fresh w ->
  exists r w1 w2, wait4 (-1) st o ru w = Ok (r, w1) /\ wait4 (-1) st o ru (Wst (self w) (Some l') (handles w) (next_handle w) (errno w)) = Ok (r, w2) /\
    (p_open q = true -> p_ended q = false -> r = if Z.odd o then Ret 0 None false false else match p_code q with None => Blocked | Some c => Ret (s32 (self w)) (if st then Some (if p_known q then 256 * (c mod 256) else 0) else None) false ru end).
Proof.
  intros o st ru w l l' q K S F F' FR. unfold wait4.
  rewrite (internal_found (-1) o st false ru w l q (fun x => p_parent x = self w) K (or_introl eq_refl) S) by (first [assumption | intros x; change (-1 =? -1) with true; cbv iota; apply Z.eqb_eq]).
  rewrite (internal_found (-1) o st false ru (Wst (self w) (Some l') (handles w) (next_handle w) (errno w)) l' q (fun x => p_parent x = self w) K (or_introl eq_refl) eq_refl)
    by (first [assumption | intros x; change (-1 =? -1) with true; cbv iota; apply Z.eqb_eq]).
  cbv zeta. assert (Q : p_parent q = self w) by (destruct F as (? & ? & _ & F & _); exact F). destruct FR as [FP FB]. unfold wait_found, wait_object, no_child. cbn -[Z.add Z.lor Z.shiftl Z.land WAIT_OBJECT_0 WAIT_TIMEOUT WAIT_FAILED Z.odd].
  assert (V : forall c, Z.lor 0 (Z.shiftl (Z.land (u32 c) 255) 8) = 256 * (c mod 256)).
  { intros c. rewrite Z.lor_0_l, Z.shiftl_mul_pow2 by lia. change 255 with (Z.ones 8). rewrite Z.land_ones by lia. unfold u32. change (2 ^ 8) with 256.
    change 4294967296 with (256 * 16777216). rewrite Z.rem_mul_r by lia. rewrite (Z.mul_comm 256 ((c / 256) mod 16777216)), Z.mod_add by lia. rewrite Z.mod_mod by lia. lia. }
  destruct (p_open q); cbn -[Z.add Z.lor Z.shiftl Z.land WAIT_OBJECT_0 WAIT_TIMEOUT WAIT_FAILED Z.odd].
  - destruct (Z.eqb_spec (next_handle w + 1) 0); [lia|]. destruct (p_ended q).
    + eexists _, _, _. split; [reflexivity|]. split; [reflexivity|discriminate].
    + destruct (Z.odd o).
      * eexists _, _, _. split; [reflexivity|]. split; reflexivity.
      * destruct (p_code q) as [c|] eqn:C; eexists _, _, _; (split; [reflexivity|]); (split; [reflexivity|]); intros _ _; [|reflexivity].
        unfold exit_code. rewrite C, Q. destruct (p_known q), st; rewrite ?V; reflexivity.
  - eexists _, _, _. split; [reflexivity|]. split; [reflexivity|discriminate].
Qed.
(** C125.  The second child has ended, the first runs for ever: wait() does not come back, a poll says that none has ended.  And a process that is no child is waited for like one. *)
Theorem wait_any_refuted : exists w a b w1 w2 w3, snapshot w = Some [a; b] /\ p_parent a = self w /\ p_parent b = self w /\ p_ended b = true /\
  wait true w = Ok (Blocked, w1) /\ waitpid (-1) true WNOHANG w = Ok (Ret 0 None false false, w2) /\
  waitpid 8 true 0 (Wst 3 (Some [Proc 8 77 true true (Some 1) true]) [] 40 0) = Ok (Ret 77 (Some 256) false false, w3) /\ 77 <> self w.
Proof.
  exists (Wst 3 (Some [Proc 5 3 true false None true; Proc 6 3 true true (Some 1) true]) [] 40 0). eexists _, _, _, _, _. split; [reflexivity|]. do 3 (split; [reflexivity|]). do 3 (split; [vm_compute; reflexivity|]). discriminate.
Qed.
(** C125, as POSIX says: wait(status) is waitpid(-1, status, 0), and wait4 without a place for the usage is waitpid. *)
Theorem wait_is_waitpid : forall pid status o w, wait status w = waitpid (-1) status 0 w /\ wait4 pid status o false w = waitpid pid status o w.
Proof. intros. split; reflexivity. Qed.
Print Assumptions wait_is_waitpid.
(** C125.  No process of that number in the snapshot, or no child: ECHILD. *)
Theorem wait_no_child : forall pid o st w l, known_options o -> pid = -1 \/ 0 < pid < 2147483648 -> snapshot w = Some l ->
  (forall x, In x l -> if pid =? -1 then p_parent x <> self w else p_id x <> pid) -> fresh w ->
  exists w', waitpid pid st o w = Ok (Ret (-1) None false false, w') /\ errno w' = 10 /\ handles w' = handles w.
Proof.
  intros pid o st w l K HP S N [FP FB]. unfold waitpid, waitpid_internal. rewrite known_masked by exact K. cbn [negb].
  assert (((pid <? -1) || (pid =? 0)) = false) as -> by (destruct (Z.ltb_spec pid (-1)), (Z.eqb_spec pid 0); cbn; lia || reflexivity).
  rewrite S. assert (find (fun pe => (if pid =? -1 then filter_anychild w else filter_pid w) pe pid) l = None) as G.
  { apply (find_none_of _ (fun x => if pid =? -1 then p_parent x = self w else p_id x = pid)).
    - intros x. unfold filter_anychild, filter_pid. destruct (Z.eqb_spec pid (-1)); [apply Z.eqb_eq|]. rewrite u32_id by lia. apply Z.eqb_eq.
    - intros x Hx. specialize (N x Hx). destruct (pid =? -1); exact N. }
  assert (CL : filter (fun x => negb (x =? next_handle w)) (handles w) = handles w) by (apply (filter_keep _ (next_handle w)); [intros x Hx; apply FB; exact Hx|lia]).
  unfold open_handle. destruct l as [|a l'] eqn:Hl; [|rewrite <- Hl in *; rewrite G]; (eexists; split; [reflexivity|]; split; [reflexivity|]; cbn; rewrite Z.eqb_refl; exact CL).
Qed.
(** C125.  A process that may not be opened: ECHILD, though it is in the snapshot, and a child as well; nothing stays open. *)
Theorem wait_not_opened : forall pid o st info ru w l q P, known_options o -> pid = -1 \/ 0 < pid < 2147483648 ->
  snapshot w = Some l -> (forall x, (if pid =? -1 then p_parent x =? self w else p_id x =? pid) = true <-> P x) -> first_of P q l -> fresh w -> p_open q = false ->
  exists w', waitpid_internal pid o st info ru w = Ok (Ret (-1) None false false, w') /\ errno w' = 10 /\ handles w' = handles w.
Proof.
  intros pid o st info ru w l q P K HP S E F FR O. rewrite (internal_found pid o st info ru w l q P K HP S E F FR). cbv zeta. rewrite O. destruct FR as [FP FB]. unfold wait_found, wait_object. cbn [Z.eqb].
  change (WAIT_FAILED =? WAIT_OBJECT_0) with false. change (WAIT_FAILED =? WAIT_TIMEOUT) with false. cbn [andb]. unfold no_child. eexists. split; [reflexivity|]. split; [reflexivity|]. cbn.
  destruct (Z.eqb_spec (next_handle w) 0); [lia|]. cbn. rewrite Z.eqb_refl. cbn. rewrite filter_zero by (intros x Hx; apply FB; exact Hx). apply (filter_keep _ (next_handle w)); [intros x Hx; apply FB; exact Hx|lia].
Qed.
Example wait_not_opened_holds : exists w', waitpid_internal 5 0 true false false (Wst 3 (Some [Proc 5 3 false true (Some 9) true]) [7] 40 0) = Ok (Ret (-1) None false false, w') /\ errno w' = 10 /\ handles w' = [7].
Proof.
  apply (wait_not_opened 5 0 true false false (Wst 3 (Some [Proc 5 3 false true (Some 9) true]) [7] 40 0) [Proc 5 3 false true (Some 9) true] (Proc 5 3 false true (Some 9) true) (fun x => p_id x = 5)); try reflexivity; [right; lia|intros x; apply Z.eqb_eq| |split; [reflexivity|intros h [<-|[]]; cbn; lia]].
  exists [], []. split; [reflexivity|]. split; [reflexivity|]. intros x [].
Qed.
Example wait_first_child_holds : exists r w1 w2, wait4 (-1) true 0 false (Wst 3 (Some [Proc 5 3 true false (Some 9) true; Proc 6 3 true true (Some 1) true]) [] 40 0) = Ok (r, w1) /\ wait4 (-1) true 0 false (Wst 3 (Some [Proc 5 3 true false (Some 9) true]) [] 40 0) = Ok (r, w2) /\ r = Ret 3 (Some 2304) false false.
Proof. eexists _, _, _. split; [vm_compute; reflexivity|]. split; vm_compute; reflexivity. Qed.
Example wait_first_child_hyp : first_of (fun x => p_parent x = 3) (Proc 5 3 true false (Some 9) true) [Proc 4 1 true true None true; Proc 5 3 true false (Some 9) true; Proc 6 3 true true (Some 1) true].
Proof. exists [Proc 4 1 true true None true], [Proc 6 3 true true (Some 1) true]. split; [reflexivity|]. split; [reflexivity|]. intros x [<-|[]]; discriminate. Qed.
Example wait_no_child_holds : exists w', waitpid 9 true WNOHANG w5 = Ok (Ret (-1) None false false, w') /\ errno w' = 10 /\ handles w' = [].
Proof.
  refine (wait_no_child 9 WNOHANG true w5 _ eq_refl (or_intror _) eq_refl _ _); [lia| |split; [reflexivity|intros h []]]. intros x [<-|[<-|[]]]; cbn; discriminate.
Qed.
Print Assumptions wait_first_child.
Print Assumptions wait_any_refuted.
Print Assumptions wait_no_child.
Print Assumptions wait_not_opened.

(** C126.  waitid with WEXITED (wait.h 303), which says that ends of processes are waited for, is turned down in every case, with a negative errno. *)
Theorem waitid_exited_fails : forall t id info o w, Z.testbit o 2 = true -> (t = P_PGID -> s32 id <> -2147483648) ->
  waitid t id info o w = Ok (Ret (-1) None false false, Wst (self w) (snapshot w) (handles w) (next_handle w) (-22)).
Proof.
  intros t id info o w B G. assert (H : Z.land o (Z.lnot 16777227) <> 0).
  { intros H. assert (X : Z.testbit (Z.land o (Z.lnot 16777227)) 2 = true) by (rewrite Z.land_spec, B; reflexivity). rewrite H in X. discriminate. }
  assert (I : forall pid, waitpid_internal pid o false info false w = Ok (Ret (-1) None false false, Wst (self w) (snapshot w) (handles w) (next_handle w) (-22))).
  { intros pid. unfold waitpid_internal. change (Z.lnot (Z.lor (Z.lor (Z.lor WUNTRACED WNOWAIT) WCONTINUED) WNOHANG)) with (Z.lnot 16777227). rewrite (proj2 (Z.eqb_neq _ _) H). reflexivity. }
  unfold waitid. destruct t; cbn [bind]; [apply I|apply I|]. destruct (Z.eqb_spec (s32 id) (-2147483648)) as [e|e]; [exfalso; exact (G eq_refl e)|]. apply I.
Qed.
(** C126.  Options the code does not know give -1 with errno set to minus EINVAL, whatever the process; the known ones never do. *)
Theorem waitpid_options_exact : forall pid o st w, (~ known_options o -> waitpid pid st o w = Ok (Ret (-1) None false false, Wst (self w) (snapshot w) (handles w) (next_handle w) (-22))) /\
  (known_options o -> forall r w', waitpid pid st o w = Ok (r, w') -> errno w' = errno w \/ errno w' = 10).
Proof.
  intros pid o st w. split.
  - intros N. unfold waitpid, waitpid_internal. change (Z.lnot (Z.lor (Z.lor (Z.lor WUNTRACED WNOWAIT) WCONTINUED) WNOHANG)) with (Z.lnot 16777227). unfold known_options in N. rewrite (proj2 (Z.eqb_neq _ _) N). reflexivity.
  - intros K r w'. unfold waitpid, waitpid_internal. rewrite known_masked by exact K. cbn [negb]. destruct ((pid <? -1) || (pid =? 0)); [discriminate|].
    destruct (snapshot w) as [l|]; [|intros H; injection H as <- <-; right; reflexivity]. unfold open_handle, no_child. destruct l as [|a l']; [intros H; injection H as <- <-; right; reflexivity|].
    destruct (find _ _) as [q|]; [|intros H; injection H as <- <-; right; reflexivity]. unfold wait_found, no_child.
    destruct (p_open q); cbn -[Z.add wait_object WAIT_OBJECT_0 WAIT_TIMEOUT]; (destruct (_ =? INVALID_HANDLE) || idtac; try (intros H; injection H as <- <-; right; reflexivity));
      (destruct (wait_object _ _ _) as [s|]; [|intros H; injection H as <- <-; left; reflexivity]);
      (destruct (s =? WAIT_OBJECT_0); [intros H; injection H as <- <-; left; reflexivity|]);
      (destruct ((s =? WAIT_TIMEOUT) && _); intros H; injection H as <- <-; [left; reflexivity|right; reflexivity]).
Qed.
(** C126.  Process groups are not provided: the program is ended by abort(), and so is every waitid(P_ALL) with options the code knows. *)
Theorem wait_groups_abort : forall pid o st info id w, known_options o -> (pid = 0 \/ pid < -1 -> waitpid pid st o w = Panics) /\ waitid P_ALL id info o w = Panics /\ (1 < id < 2147483648 -> waitid P_PGID id info o w = Panics).
Proof.
  intros pid o st info id w K. assert (I : forall p i s, p = 0 \/ p < -1 -> waitpid_internal p o s i false w = Panics).
  { intros p i s H. unfold waitpid_internal. rewrite known_masked by exact K. cbn [negb]. assert (((p <? -1) || (p =? 0)) = true) as -> by (destruct (Z.ltb_spec p (-1)), (Z.eqb_spec p 0); cbn; lia || reflexivity). reflexivity. }
  split; [apply I|]. split; [apply I; left; reflexivity|]. intros B. unfold waitid. rewrite s32_id by lia. destruct (Z.eqb_spec id (-2147483648)); [lia|]. cbn [bind]. apply I. right. lia.
Qed.
(** C126.  The usual call, waitid(P_PID, 5, &info, WEXITED), for the child 5 that has ended: -1 and errno -22, which is no error number; without WEXITED it gives the caller's number instead of 0, and zeros in the
    structure, the number of the child and its status among them. *)
Theorem waitid_refuted : exists w w1 w2, p_ended child5 = true /\ snapshot w = Some [child5] /\ waitid P_PID 5 true WEXITED w = Ok (Ret (-1) None false false, w1) /\ errno w1 = -22 /\
  waitid P_PID 5 true 0 w = Ok (Ret 3 None true false, w2) /\ waitid P_ALL 0 true 0 w = Panics.
Proof. exists (Wst 3 (Some [child5]) [] 40 0). eexists _, _. split; [reflexivity|]. split; [reflexivity|]. split; [vm_compute; reflexivity|]. split; [reflexivity|]. split; vm_compute; reflexivity. Qed.
Example waitid_exited_fails_holds := waitid_exited_fails P_PID 5 true 5 w5 eq_refl (fun H => match H with end).
Example waitpid_options_exact_holds : waitpid 5 true 64 w5 = Ok (Ret (-1) None false false, Wst 3 (snapshot w5) [] 40 (-22)) /\ known_options 11.
Proof. split; vm_compute; reflexivity. Qed.
Example wait_groups_abort_holds := wait_groups_abort 0 WNOHANG true false 12 w5 eq_refl.
Print Assumptions waitid_exited_fails.
Print Assumptions waitpid_options_exact.
Print Assumptions wait_groups_abort.
Print Assumptions waitid_refuted.
