(** C68: what unwinding an exception does with the memory of _malloc, for any number of allocations before and inside a try block. *)
From Verif Require Import BaseLemmas ExcModel ExcProofs.

(** [ws]: the word the program stores first in each block it obtains; then [s]. *)
Fixpoint allocs (ws : list Z) (s : stmt) : stmt := match ws with [] => s | w :: ws => Seq (Malloc w) (allocs ws s) end.
(** Blocks obtained before a try block, blocks obtained in it, a throw, a handler. *)
Definition prog (before inside : list Z) (e a : Z) : stmt := allocs before (Try (allocs inside (Throw e)) (CatchAny (Act a) CNil) false Skip).
(** The numbers [a], [a + 1], ..., [n] of them. *)
Fixpoint range (a : Z) (n : nat) : list Z := match n with O => [] | S n => a :: range (a + 1) n end.
(** The first block a thread obtains comes with one protector, which is a number too. *)
Definition blocks (first : Z) (n : nat) : list Z := match n with O => [] | S n => first :: range (first + 2) n end.
Definition freed (bs : list Z) : list event := map EFree (rev bs).
(** Where the try block has its context when [n] blocks came before. *)
Definition ctx_after (n : nat) : Z := match n with O => 2 | S _ => 3 + Z.of_nat n end.
Definition inside_blocks (n m : nat) : list Z := match n with O => blocks 3 m | S _ => range (4 + Z.of_nat n) m end.

(** ** Allocating *)
Definition ent (b : Z) : entry := Entry DFree b false.
Definition prot_of (st : est) : Z := if s_protector (scopes st root) =? 0 then fresh st + 1 else s_protector (scopes st root).
Definition taken (st : est) (n : nat) : list Z := if s_protector (scopes st root) =? 0 then blocks (fresh st) n else range (fresh st) n.
Record got (ws : list Z) (st st' : est) : Prop := Got {
  g_ready : ready st' = true; g_cur : cur st' = cur st; g_hs : hook_set st' = hook_set st; g_hu : hook_unwind st' = hook_unwind st; g_junk : junk st' = junk st; g_trace : trace st' = trace st;
  g_fresh : fresh st' = fresh st + zlen ws + (if s_protector (scopes st root) =? 0 then 1 else 0);
  g_root : exists r, scopes st' root = Scope (s_arr (scopes st root)) (map ent (rev (taken st (length ws))) ++ s_defers (scopes st root)) (s_err (scopes st root)) (s_panic (scopes st root)) true r (prot_of st) (s_live (scopes st root));
  g_ctx : ctxs st' (cur st) = c_set_stack (prot_of st) (ctxs st (cur st)); g_other : forall i, i <> cur st -> ctxs st' i = ctxs st i;
  g_node : exists nx, nodes st' (prot_of st) = Node true nx true 0 (last ws 0) true }.

Lemma one_ok w st : ready st = true -> 0 < fresh st -> got [w] st (malloc_full root w (raii_init st)).
Proof.
  intros R F. unfold raii_init. rewrite R. unfold malloc_full.
  set (st0 := set_fresh (fresh st + 1) st). set (st1 := if s_protector (scopes st0 root) =? 0 then _ else st0).
  assert (Q : scopes st1 root = s_set_protector (prot_of st) (scopes st root) /\ fresh st1 = fresh st + 1 + (if s_protector (scopes st root) =? 0 then 1 else 0) /\ ctxs st1 = ctxs st /\ cur st1 = cur st /\ ready st1 = true /\ hook_set st1 = hook_set st /\ hook_unwind st1 = hook_unwind st /\ junk st1 = junk st /\ trace st1 = trace st).
  { unfold st1, prot_of. change (scopes st0 root) with (scopes st root). destruct (s_protector (scopes st root) =? 0) eqn:E.
    - ctx_tac. rewrite upd_same. unfold st0. repeat split; try assumption; cbn [set_fresh fresh]; try lia.
    - unfold st0. repeat split; try assumption; cbn [set_fresh fresh]; try lia. cbn [set_fresh scopes]. destruct (scopes st root); reflexivity. }
  clearbody st1. destruct Q as (Q1 & Q2 & Q3 & Q4 & Q5 & Q6 & Q7 & Q8 & Q9). unfold protect. rewrite Q1. cbn [s_set_protector s_protector].
  constructor; ctx_tac; try assumption; rewrite ?Q4.
  - rewrite upd_same, Q1. cbn [s_set_protector s_set_prot s_set_defers s_arr s_defers s_err s_panic s_rec s_live length]. unfold taken. exists (s_rec (scopes st root)).
    destruct (s_protector (scopes st root) =? 0); reflexivity.
  - rewrite upd_same, Q3. reflexivity.
  - intros i Hi. rewrite upd_other by exact Hi. now rewrite Q3.
  - rewrite upd_same. eexists. reflexivity.
Qed.
Lemma allocs_ok fuel lx s : forall ws st, ready st = true -> 0 < fresh st -> ws <> [] -> exists st', exec fuel lx root (allocs ws s) st = exec fuel lx root s st' /\ got ws st st'.
Proof.
  induction ws as [|w ws IH]; intros st R F N; [congruence|]. cbn [allocs exec andthen].
  pose proof (one_ok w st R F) as O. set (st1 := malloc_full root w (raii_init st)) in *. clearbody st1. destruct ws as [|w2 ws]; [exists st1; auto|].
  destruct O as [O1 O2 O3 O4 O5 O6 O7 (r & O8) O9 O10 O11].
  destruct (IH st1) as (st' & E & [K1 K2 K3 K4 K5 K6 K7 (r' & K8) K9 K10 K11]); [assumption| |discriminate|].
  { rewrite O7. cbn. destruct (_ =? 0); lia. }
  exists st'. split; [exact E|].
  assert (P : prot_of st <> 0) by (unfold prot_of; destruct (Z.eqb_spec (s_protector (scopes st root)) 0); lia).
  assert (P1 : prot_of st1 = prot_of st) by (unfold prot_of at 1; rewrite O8; cbn [s_protector]; apply Z.eqb_neq in P; now rewrite P).
  assert (Pz : s_protector (scopes st1 root) =? 0 = false) by (rewrite O8; now apply Z.eqb_neq).
  rewrite P1, ?Pz in *.
  constructor; try congruence.
  - rewrite K7, O7. cbn [length]. lia.
  - exists r'. rewrite K8, O8. cbn [s_arr s_defers s_err s_panic s_live]. f_equal. rewrite app_assoc, <- map_app, <- rev_app_distr. do 3 f_equal. unfold taken. rewrite Pz, O7.
    destruct (s_protector (scopes st root) =? 0); cbn [length]; [replace (fresh st + _ + 1) with (fresh st + 2) by lia|replace (fresh st + _ + 0) with (fresh st + 1) by lia]; cbn [app blocks range]; reflexivity.
  - rewrite O2 in *. rewrite K9, O9. reflexivity.
  - intros i Hi. rewrite K10 by congruence. now apply O10.
  - destruct K11 as (nx & K11). exists nx. exact K11.
Qed.

(** ** Throwing *)
Lemma frees_ok thr sc : forall bs ran st, exists st', run_entries thr sc ran (map ent bs) st = Ok (RNorm, st') /\ ready st' = ready st /\ cur st' = cur st /\ ctxs st' = ctxs st /\ nodes st' = nodes st /\ trace st' = trace st ++ map EFree bs /\
  s_arr (scopes st' sc) = s_arr (scopes st sc) /\ s_live (scopes st' sc) = s_live (scopes st sc) /\ s_prot (scopes st' sc) = s_prot (scopes st sc) /\ s_protector (scopes st' sc) = s_protector (scopes st sc) /\ s_err (scopes st' sc) = s_err (scopes st sc).
Proof.
  induction bs as [|b bs IH]; intros ran st; cbn [map run_entries]. { exists st. cbn. rewrite app_nil_r. repeat split; reflexivity. }
  cbn [ent e_check]. rewrite andb_false_r. cbn [run_entry e_kind andthen e_data].
  destruct (IH (ran ++ [e_done (Entry DFree b false)]) (with_scope sc (s_set_defers (ran ++ e_done (Entry DFree b false) :: map ent bs)) (emit (EFree b) st))) as (st' & E & A1 & A2 & A3 & A4 & A5 & A6 & A7 & A8 & A9 & A10).
  exists st'. split; [exact E|]. cbn [with_scope set_scopes scopes emit] in *. rewrite upd_same in *. rewrite A1, A2, A3, A4, A5, A6, A7, A8, A9, A10. cbn. rewrite <- app_assoc. repeat split; reflexivity.
Qed.

(** What no throw in a try block changes. *)
Record same (st st' : est) : Prop := Same {
  a_cur : cur st' = cur st; a_next : c_next (ctxs st' (cur st)) = c_next (ctxs st (cur st)) }.
Lemma throw_plain f e st : c_unstack (ctxs st (cur st)) = false -> hook_set st = false -> cur st <> root -> c_raii (ctxs st (cur st)) = false ->
  (c_stack (ctxs st (cur st)) = 0 \/ c_stack (ctxs st (cur st)) <> 0 /\ exists nx, nodes st (c_stack (ctxs st (cur st))) = Node true nx true 0 0 true) ->
  exists st', ex_throw (S f) e 0 st = Ok (RJump (cur st) (Z.lor (c_state (ctxs st (cur st))) 1), st') /\ same st st' /\ scopes st' = scopes st /\ ready st' = ready st /\ trace st' = trace st.
Proof.
  intros U Hs Hc R N. cbn [ex_throw]. rewrite U. set (id := cur st) in *. unfold setup. set (st1 := with_ctx id (c_thrown e 0) st). change (hook_set st1) with (hook_set st). rewrite Hs.
  assert (C1 : ctxs st1 id = c_thrown e 0 (ctxs st id)) by (unfold st1; ctx_tac; apply upd_same). rewrite C1. cbn [c_thrown c_raii]. rewrite R. cbn [bind].
  unfold unwind. set (st2 := with_ctx id (c_set_unstack true) st1).
  assert (C2 : ctxs st2 id = c_set_unstack true (c_thrown e 0 (ctxs st id))) by (unfold st2; ctx_tac; rewrite upd_same, C1; reflexivity). rewrite C2. cbn [c_set_unstack c_thrown c_unwind andb c_stack].
  assert (E : unwind_ptrs (S f) (c_stack (ctxs st id)) 0 st2 = Ok st2).
  { cbn [unwind_ptrs]. change (nodes st2) with (nodes st). destruct N as [N|[N0 [nx N]]]; [rewrite N; reflexivity|]. apply Z.eqb_neq in N0. rewrite N0, N. reflexivity. }
  rewrite E. cbn [bind andthen]. apply Z.eqb_neq in Hc. rewrite Hc. eexists. split; [|split; [constructor|split; [|split]]].
  - do 3 f_equal. ctx_tac. rewrite upd_same, C2. reflexivity.
  - reflexivity.
  - ctx_tac. fold id. rewrite upd_same, C2. reflexivity.
  - reflexivity.
  - reflexivity.
  - reflexivity.
Qed.
Lemma throw_wild f e st nx w : c_unstack (ctxs st (cur st)) = false -> hook_set st = false -> c_raii (ctxs st (cur st)) = false ->
  c_stack (ctxs st (cur st)) <> 0 -> nodes st (c_stack (ctxs st (cur st))) = Node true nx true 0 w true -> w <> 0 -> ex_throw (S f) e 0 st = Undef WildPointer.
Proof.
  intros U Hs R N0 N W. cbn [ex_throw]. rewrite U. set (id := cur st) in *. unfold setup. set (st1 := with_ctx id (c_thrown e 0) st). change (hook_set st1) with (hook_set st). rewrite Hs.
  assert (C1 : ctxs st1 id = c_thrown e 0 (ctxs st id)) by (unfold st1; ctx_tac; apply upd_same). rewrite C1. cbn [c_thrown c_raii]. rewrite R. cbn [bind].
  unfold unwind. set (st2 := with_ctx id (c_set_unstack true) st1).
  assert (C2 : ctxs st2 id = c_set_unstack true (c_thrown e 0 (ctxs st id))) by (unfold st2; ctx_tac; rewrite upd_same, C1; reflexivity). rewrite C2. cbn [c_set_unstack c_thrown c_unwind andb c_stack].
  cbn [unwind_ptrs]. change (nodes st2) with (nodes st). apply Z.eqb_neq in N0. rewrite N0, N. cbn [n_live n_ok n_val negb]. apply Z.eqb_neq in W. rewrite Z.eqb_sym, W. unfold release. cbn [n_free n_val]. rewrite W. reflexivity.
Qed.
Lemma throw_root f e st D : c_unstack (ctxs st (cur st)) = false -> hook_set st = false -> hook_unwind st = false -> ready st = true -> cur st <> root -> c_raii (ctxs st (cur st)) = true ->
  s_live (scopes st root) = true -> s_arr (scopes st root) = true -> s_prot (scopes st root) = true -> s_defers (scopes st root) = map ent D -> D <> [] ->
  exists st', ex_throw (S f) e 0 st = Ok (RJump (cur st) (Z.lor (c_state (ctxs st (cur st))) 1), st') /\ same st st' /\ s_defers (scopes st' root) = [] /\ ready st' = true /\ trace st' = trace st ++ map EFree D.
Proof.
  intros U Hs Hu Rd Hc R L A P Df Dn. cbn [ex_throw]. rewrite U. set (id := cur st) in *. unfold setup. set (st1 := with_ctx id (c_thrown e 0) st). change (hook_set st1) with (hook_set st). rewrite Hs.
  assert (C1 : ctxs st1 id = c_thrown e 0 (ctxs st id)) by (unfold st1; ctx_tac; apply upd_same). rewrite C1. cbn [c_thrown c_raii]. rewrite R. cbn [bind].
  unfold raii_init. change (ready st1) with (ready st). rewrite Rd. unfold record_err. set (st2 := with_ctx id _ (with_scope root _ st1)). unfold unwind. set (st3 := with_ctx id (c_set_unstack true) st2).
  assert (C3 : ctxs st3 id = Ctx (c_next (ctxs st id)) (c_state (ctxs st id)) e 0 true true true (c_stack (ctxs st id)) root (c_data (ctxs st id))).
  { unfold st3, st2. ctx_tac. rewrite !upd_same, C1. change (scopes st1) with (scopes st). rewrite P. unfold c_set_unstack, c_set_unwind, c_swap_set, c_thrown. cbn. rewrite R. reflexivity. }
  assert (S3 : scopes st3 root = s_set_err e 0 (scopes st root)) by (unfold st3, st2; ctx_tac; apply upd_same).
  change (hook_unwind st3) with (hook_unwind st). change (ready st3) with (ready st). rewrite C3, Hu, Rd. cbn [c_unwind c_raii c_data andb]. change (root =? root) with true. cbv iota.
  assert (B3 : cur st3 = id /\ ready st3 = true /\ trace st3 = trace st) by (repeat split; assumption). clearbody st3. clear st1 st2 C1. destruct B3 as (B1 & B2 & B3).
  unfold deferred_free. rewrite S3. cbn [s_set_err s_live s_arr s_defers s_err]. rewrite L, A, Df. cbn [negb].
  set (st4 := with_scope root _ st3). destruct (frees_ok (ex_throw f) root D [] st4) as (st5 & E5 & F1 & F2 & F3 & F4 & F5 & F6 & F7 & F8 & F9 & F10). rewrite E5. cbn [andthen].
  replace (match map ent D with [] => false | _ :: _ => true end) with true by (destruct D; [congruence|reflexivity]).
  assert (Se : exists st6, settle_protector root true st5 = Ok st6 /\ cur st6 = id /\ ready st6 = true /\ ctxs st6 = ctxs st3 /\ nodes st6 = nodes st5 /\ trace st6 = trace st ++ map EFree D).
  { change (ready st4) with (ready st3) in F1. change (cur st4) with (cur st3) in F2. change (ctxs st4) with (ctxs st3) in F3. change (trace st4) with (trace st3) in F5. rewrite B3 in F5.
    unfold settle_protector. destruct (_ && _ && _); eexists; split; try reflexivity; ctx_tac; repeat split; congruence. }
  destruct Se as (st6 & E6 & G1 & G2 & G3 & G4 & G5). rewrite E6. cbn [bind].
  assert (Dp : exists st7, drop_protector root st6 = st7 /\ cur st7 = id /\ ready st7 = true /\ trace st7 = trace st6 /\ c_next (ctxs st7 id) = c_next (ctxs st3 id) /\ c_state (ctxs st7 id) = c_state (ctxs st3 id)).
  { eexists. split; [reflexivity|]. unfold drop_protector; cbv zeta. destruct (s_protector (scopes st6 root) =? 0); [rewrite G3; repeat split; assumption|]. destruct (n_ok _); ctx_tac; rewrite G1; [rewrite upd_same; cbn [c_set_stack c_next c_state]|]; rewrite G3; repeat split; assumption. }
  destruct Dp as (st7 & E7 & H1 & H2 & H3 & H4 & H5). rewrite E7. cbn [andthen]. apply Z.eqb_neq in Hc. rewrite Hc.
  eexists. split; [|split; [constructor|split; [|split]]].
  - do 3 f_equal. ctx_tac. rewrite upd_same. cbn [c_set_stack c_set_unstack c_state]. rewrite H5, C3. reflexivity.
  - exact H1.
  - ctx_tac. fold id. rewrite upd_same. cbn [c_set_stack c_set_unstack c_next]. rewrite H4, C3. reflexivity.
  - ctx_tac. rewrite upd_same. reflexivity.
  - exact H2.
  - ctx_tac. rewrite H3, G5. reflexivity.
Qed.

(** ** The handler and the end of the program *)
Lemma landed fu f id a body st : cur st = id -> exists st', landing (S f) id body (fun st => handle fu id root (CatchAny (Act a) CNil) st) (fun st => Ok (RNorm, st)) 1 st = Ok (RNorm, st') /\ trace st' = trace st ++ [EAct a] /\ scopes st' = scopes st /\ ready st' = ready st.
Proof.
  intros C. cbn [landing]. change (1 =? 0) with false. cbv iota. set (st1 := with_ctx id (c_set_state 1) st). cbn [andthen handle exec].
  assert (C1 : ctxs st1 id = c_set_state 1 (ctxs st id)) by (unfold st1; ctx_tac; apply upd_same). rewrite C1. change (c_state (c_set_state 1 (ctxs st id)) =? 1) with true. cbv iota. cbn [andthen].
  unfold end_try. set (st2 := emit _ _). change (cur st2) with (cur st). rewrite C, Z.eqb_refl.
  assert (C2 : ctxs (set_cur (c_next (ctxs st2 id)) st2) id = c_set_state 2 (c_set_state 1 (ctxs st id))) by (unfold st2; ctx_tac; rewrite upd_same, C1; reflexivity). rewrite C2. change (Z.odd (c_state (c_set_state 2 (c_set_state 1 (ctxs st id))))) with false. cbv iota.
  eexists. split; [reflexivity|]. repeat split; reflexivity.
Qed.
Lemma fold_frees : forall l st, trace (fold_left (fun st e => emit (EFree (e_data e)) st) (map ent l) st) = trace st ++ map EFree l.
Proof. induction l as [|b l IH]; intros st; cbn [map fold_left]; [now rewrite app_nil_r|]. rewrite IH. cbn [emit trace ent e_data]. rewrite <- app_assoc. reflexivity. Qed.
Lemma free_root_all st l : ready st = true -> s_arr (scopes st root) = true -> s_defers (scopes st root) = map ent l -> trace (free_root st) = trace st ++ map EFree l.
Proof. intros R A D. unfold free_root. rewrite R, A, D. cbn [andb]. unfold with_scope, set_scopes. cbn [trace]. apply fold_frees. Qed.
Lemma free_root_none st : s_defers (scopes st root) = [] -> trace (free_root st) = trace st.
Proof. intros D. apply free_root_id. auto. Qed.
Definition tried (inside : list Z) (e a : Z) : stmt := Try (allocs inside (Throw e)) (CatchAny (Act a) CNil) false Skip.

(** The try block in a thread that already uses the library. *)
Record used (B : list Z) (st : est) : Prop := Used {
  u_ready : ready st = true; u_hs : hook_set st = false; u_hu : hook_unwind st = false; u_arr : s_arr (scopes st root) = true; u_live : s_live (scopes st root) = true; u_prot : s_prot (scopes st root) = true;
  u_protector : s_protector (scopes st root) <> 0; u_defers : s_defers (scopes st root) = map ent (rev B); u_fresh : root < fresh st }.
Lemma tried_used inside e a fuel lx B st : used B st -> B <> [] -> (2 <= fuel)%nat ->
  let all := B ++ range (fresh st + 1) (length inside) in
  if Z.odd (junk st (16 * fresh st + 3)) then exists st', exec fuel lx root (tried inside e a) st = Ok (RNorm, st') /\ trace st' = trace st ++ freed all ++ [EAct a] /\ s_defers (scopes st' root) = []
  else if last inside 0 =? 0 then exists st', exec fuel lx root (tried inside e a) st = Ok (RNorm, st') /\ trace st' = trace st ++ [EAct a] /\ ready st' = true /\ s_arr (scopes st' root) = true /\ s_defers (scopes st' root) = map ent (rev all)
  else exec fuel lx root (tried inside e a) st = Undef WildPointer.
Proof.
  intros [U1 U2 U3 U4 U5 U6 U7 U8 U9] Bn Hf all. do 2 (destruct fuel as [|fuel]; [lia|]). set (r := Z.odd (junk st (16 * fresh st + 3))). unfold tried. cbn [exec]. unfold new_ctx. set (id := fresh st) in *.
  set (st0 := set_cur id _). set (hnd := fun st => handle (S (S fuel)) id root (CatchAny (Act a) CNil) st). set (fin := fun st : est => Ok (RNorm, st)). set (body := fun st => exec (S (S fuel)) id root (allocs inside (Throw e)) st).
  cbn [landing]. change (0 =? 0) with true. cbv iota. set (st1 := with_ctx id (c_set_state 0) st0).
  assert (P : exists st2 m, body st1 = ex_throw (S (S fuel)) e 0 st2 /\ cur st2 = id /\ hook_set st2 = false /\ hook_unwind st2 = false /\ ready st2 = true /\ trace st2 = trace st /\ c_unstack (ctxs st2 id) = false /\ c_raii (ctxs st2 id) = r /\ c_state (ctxs st2 id) = 0 /\
     s_arr (scopes st2 root) = true /\ s_live (scopes st2 root) = true /\ s_prot (scopes st2 root) = true /\ s_defers (scopes st2 root) = map ent (rev all) /\ m = last inside 0 /\
     (c_stack (ctxs st2 id) = 0 /\ m = 0 \/ c_stack (ctxs st2 id) <> 0 /\ exists nx, nodes st2 (c_stack (ctxs st2 id)) = Node true nx true 0 m true)).
  { assert (S1 : scopes st1 = scopes st) by reflexivity. assert (X1 : c_unstack (ctxs st1 id) = false /\ c_raii (ctxs st1 id) = r /\ c_state (ctxs st1 id) = 0 /\ c_stack (ctxs st1 id) = 0) by (unfold st1, st0; ctx_tac; rewrite !upd_same; repeat split; reflexivity). destruct X1 as (X1 & X2 & X3 & X4).
    assert (F1 : fresh st1 = id + 1) by reflexivity. assert (Z1 : ready st1 = true /\ hook_set st1 = false /\ hook_unwind st1 = false /\ cur st1 = id /\ trace st1 = trace st) by (repeat split; assumption). destruct Z1 as (Z1 & Z2 & Z3 & Z4 & Z5). clearbody st1. clear st0.
    destruct inside as [|w ws].
    - exists st1, 0. unfold body, all. cbn [allocs exec length range last]. rewrite app_nil_r, S1, X4. repeat split; try assumption. left; auto.
    - destruct (allocs_ok (S (S fuel)) id (Throw e) (w :: ws) st1 Z1) as (st2 & E & [G1 G2 G3 G4 G5 G6 G7 (r' & G8) G9 G10 (nx & G11)]); [rewrite F1; unfold root in *; lia|discriminate|].
      assert (Pz : (s_protector (scopes st1 root) =? 0) = false) by (rewrite S1; now apply Z.eqb_neq).
      exists st2, (last (w :: ws) 0). unfold body. rewrite E. cbn [exec]. rewrite Z4 in *. rewrite G8, G9. cbn [c_set_stack c_unstack c_raii c_state c_stack s_arr s_live s_prot s_defers].
      rewrite S1. split; [reflexivity|]. repeat (split; [first [assumption|congruence]|]).
      split. { rewrite U8, <- map_app, <- rev_app_distr. unfold taken. rewrite Pz, F1. reflexivity. }
      split; [reflexivity|]. right. split; [|exists nx; exact G11]. unfold prot_of. rewrite Pz, S1. exact U7. }
  destruct P as (st2 & m & Eb & P1 & P2 & P3 & P4 & P5 & P6 & P7 & P8 & P9 & P10 & P11 & P12 & Pm & P13). fold (body st1). rewrite Eb. rewrite <- P1 in P6, P7, P8, P13.
  assert (Idr : cur st2 <> root) by (rewrite P1; unfold root in *; lia).
  destruct r.
  - destruct (throw_root (S fuel) e st2 (rev all)) as (st3 & E3 & [A1 A2] & D3 & R3 & T3); try assumption. { unfold all. intros Q. apply (f_equal (@rev Z)) in Q. rewrite rev_involutive in Q. cbn in Q. apply app_eq_nil in Q as [Q _]. congruence. }
    rewrite E3, P8, P1. cbn [andthen]. rewrite Z.eqb_refl. change (Z.lor 0 1) with 1. destruct (landed (S (S fuel)) fuel id a body st3) as (st4 & E4 & T4 & S4 & R4); [congruence|].
    exists st4. split; [exact E4|]. rewrite T4, T3, P5, S4, D3, <- app_assoc. auto.
  - rewrite <- Pm. destruct (Z.eqb_spec m 0) as [M|M].
    + destruct (throw_plain (S fuel) e st2) as (st3 & E3 & [A1 A2] & S3 & R3 & T3); try assumption. { destruct P13 as [[Q _]|[Q (nx & N)]]; [left; exact Q|right; split; [exact Q|exists nx; rewrite N, M; reflexivity]]. }
      rewrite E3, P8, P1. cbn [andthen]. rewrite Z.eqb_refl. change (Z.lor 0 1) with 1. destruct (landed (S (S fuel)) fuel id a body st3) as (st4 & E4 & T4 & S4 & R4); [congruence|].
      exists st4. split; [exact E4|]. rewrite T4, T3, P5, S4, S3, R4, R3. auto.
    + destruct P13 as [[_ Q]|[Q (nx & N)]]; [congruence|]. rewrite (throw_wild (S fuel) e st2 nx m) by assumption. reflexivity.
Qed.

(** The try block as the first use of the library. *)
Lemma tried_first w ws e a fuel j : (2 <= fuel)%nat -> exists st', exec fuel 0 root (tried (w :: ws) e a) (start j) = Ok (RNorm, st') /\ trace st' = freed (blocks 3 (S (length ws))) ++ [EAct a] /\ s_defers (scopes st' root) = [].
Proof.
  intros Hf. do 2 (destruct fuel as [|fuel]; [lia|]). unfold tried. cbn [exec]. unfold new_ctx. change (fresh (start j)) with 2.
  set (st0 := set_cur 2 _). set (hnd := fun st => handle (S (S fuel)) 2 root (CatchAny (Act a) CNil) st). set (fin := fun st : est => Ok (RNorm, st)). set (body := fun st => exec (S (S fuel)) 2 root (allocs (w :: ws) (Throw e)) st).
  cbn [landing]. change (0 =? 0) with true. cbv iota. set (st1 := with_ctx 2 (c_set_state 0) st0).
  assert (Ei : body st1 = body (raii_init st1)) by reflexivity. fold (body st1). rewrite Ei. set (st2 := raii_init st1).
  assert (S2 : scopes st2 root = Scope true [] 0 0 false false 0 true) by reflexivity.
  assert (X2 : c_unstack (ctxs st2 2) = false /\ c_raii (ctxs st2 2) = true /\ c_state (ctxs st2 2) = 0) by (repeat split; reflexivity). destruct X2 as (X1 & X2 & X3).
  assert (Z1 : ready st2 = true /\ hook_set st2 = false /\ hook_unwind st2 = false /\ cur st2 = 2 /\ trace st2 = [] /\ fresh st2 = 3) by (repeat split; reflexivity). destruct Z1 as (Z1 & Z2 & Z3 & Z4 & Z5 & Z6). clearbody st2. clear Ei st0 st1.
  destruct (allocs_ok (S (S fuel)) 2 (Throw e) (w :: ws) st2 Z1) as (st3 & E & [G1 G2 G3 G4 G5 G6 G7 (r' & G8) G9 G10 (nx & G11)]); [lia|discriminate|].
  unfold body at 1. rewrite E. cbn [exec]. rewrite Z4 in *. rewrite S2 in G8. cbn [s_arr s_defers s_err s_panic s_live] in G8. rewrite app_nil_r in G8. unfold taken in G8. rewrite S2, Z6 in G8. cbn [s_protector] in G8. change (0 =? 0) with true in G8. cbv iota in G8.
  destruct (throw_root (S fuel) e st3 (rev (blocks 3 (length (w :: ws))))) as (st4 & E4 & [A1 A2] & D4 & R4 & T4); rewrite ?G2, ?G8, ?G9; cbn [c_set_stack c_unstack c_raii s_live s_arr s_prot s_defers]; try assumption; try reflexivity; try congruence; try (unfold root; lia).
  { cbn [length blocks rev]. intros Q. apply app_eq_nil in Q as [_ Q]. discriminate. }
  rewrite E4, G2, G9. cbn [c_set_stack c_state]. rewrite X3. cbn [andthen]. rewrite Z.eqb_refl. change (Z.lor 0 1) with 1. destruct (landed (S (S fuel)) fuel 2 a body st4) as (st5 & E5 & T5 & S5 & R5); [congruence|].
  exists st5. split; [exact E5|]. rewrite T5, T4, G6, Z5, S5, D4. auto.
Qed.

(** Every program of this shape, exactly. *)
Definition outcome (before inside : list Z) (a : Z) (j : Z -> Z) : out (list event * final) :=
  let n := length before in let all := blocks 2 n ++ inside_blocks n (length inside) in
  if (Nat.eqb n 0) || Z.odd (j (16 * ctx_after n + 3)) then Ok (freed all ++ [EAct a], Finished)
  else if last inside 0 =? 0 then Ok (EAct a :: freed all, Finished)
  else Undef WildPointer.
Theorem unwind_exact : forall before inside e a j fuel, (2 <= fuel)%nat -> run fuel (prog before inside e a) j = outcome before inside a j.
Proof.
  intros [|b bs] inside e a j fuel Hf; unfold run, outcome, prog; fold (tried inside e a).
  - cbn [allocs length Nat.eqb orb blocks app inside_blocks]. destruct inside as [|w ws].
    + do 2 (destruct fuel as [|fuel]; [lia|]). cbn [length blocks freed rev map app]. unfold tried. cbn. destruct (Z.odd (j _)); reflexivity.
    + destruct (tried_first w ws e a fuel j Hf) as (st & E & T & D). rewrite E, free_root_none, T by exact D. reflexivity.
  - destruct (allocs_ok fuel 0 (tried inside e a) (b :: bs) (raii_init (start j))) as (st & E & [G1 G2 G3 G4 G5 G6 G7 (r' & G8) G9 G10 (nx & G11)]); [reflexivity|cbn; lia|discriminate|].
    assert (Ei : exec fuel 0 root (allocs (b :: bs) (tried inside e a)) (start j) = exec fuel 0 root (allocs (b :: bs) (tried inside e a)) (raii_init (start j))) by reflexivity.
    rewrite Ei, E. set (n := length (b :: bs)) in *.
    assert (Fr : fresh st = 3 + Z.of_nat n) by (rewrite G7; change (fresh (raii_init (start j))) with 2; change (s_protector (scopes (raii_init (start j)) root) =? 0) with true; cbv iota; unfold n; lia).
    assert (U : used (blocks 2 n) st) by (constructor; rewrite ?G8; try assumption; try reflexivity; try (rewrite Fr; unfold root; lia); cbn; try lia; now rewrite app_nil_r).
    pose proof (tried_used inside e a fuel 0 (blocks 2 n) st U ltac:(discriminate) Hf) as T. cbv zeta in T. rewrite Fr, G5, G6 in T. cbn [trace raii_init start app] in T.
    change (junk (raii_init (start j))) with j in T. change (trace (raii_init (start j))) with (@nil event) in T. cbn [app] in T.
    replace (Nat.eqb n 0) with false by reflexivity. cbn [orb]. replace (ctx_after n) with (3 + Z.of_nat n) by reflexivity. change (inside_blocks n (length inside)) with (range (4 + Z.of_nat n) (length inside)). replace (3 + Z.of_nat n + 1) with (4 + Z.of_nat n) in T by lia.
    destruct (Z.odd _); [|destruct (last inside 0 =? 0)].
    + destruct T as (st' & E' & T & D). rewrite E', free_root_none, T by exact D. reflexivity.
    + destruct T as (st' & E' & T & R & A & D). rewrite E', (free_root_all st' _ R A D), T. reflexivity.
    + rewrite T. reflexivity.
Qed.
Example unwind_exact_met : run 2 (prog [7; 8] [9; 0] 10 1) (fun _ => 0) = Ok ([EAct 1; EFree 7; EFree 6; EFree 4; EFree 2], Finished) /\ run 2 (prog [7; 8] [0; 9] 10 1) (fun _ => 0) = Undef WildPointer /\
  run 2 (prog [7; 8] [0; 9] 10 1) (fun _ => 1) = Ok ([EFree 7; EFree 6; EFree 4; EFree 2; EAct 1], Finished) /\ run 2 (prog [] [5; 6; 7] 10 1) (fun _ => 0) = Ok ([EFree 6; EFree 5; EFree 3; EAct 1], Finished).
Proof. repeat split; rewrite unwind_exact by lia; reflexivity. Qed.

(** The blocks of one program are all different, so none of them is freed twice. *)
Lemma range_ge : forall n a x, In x (range a n) -> a <= x < a + Z.of_nat n.
Proof. induction n as [|n IH]; intros a x; cbn [range]; [intros []|]. intros [<-|H]; [lia|]. apply IH in H. lia. Qed.
Lemma range_nodup : forall n a, NoDup (range a n).
Proof. induction n as [|n IH]; intros a; cbn [range]; constructor; [|apply IH]. intros H. apply range_ge in H. lia. Qed.
Lemma blocks_nodup a n : NoDup (blocks a n).
Proof. destruct n; cbn [blocks]; constructor; [|apply range_nodup]. intros H. apply range_ge in H. lia. Qed.
Lemma nodup_app (l1 l2 : list Z) : NoDup l1 -> NoDup l2 -> (forall x, In x l1 -> ~ In x l2) -> NoDup (l1 ++ l2).
Proof. induction l1 as [|x l1 IH]; intros H1 H2 H; [exact H2|]. inversion H1 as [|? ? N1 N2]; subst. cbn. constructor; [|apply IH; auto; intros y Hy; apply H; right; exact Hy]. intros I. apply in_app_or in I as [I|I]; [auto|]. apply (H x); [left; reflexivity|exact I]. Qed.
Lemma all_nodup n m : NoDup (blocks 2 n ++ inside_blocks n m).
Proof.
  destruct n as [|n]; [apply blocks_nodup|]. cbn [inside_blocks]. apply nodup_app; [apply blocks_nodup|apply range_nodup|].
  intros x H1 H2. apply range_ge in H2. cbn [blocks] in H1. destruct H1 as [H1|H1]; [lia|]. apply range_ge in H1. lia.
Qed.

(** Whenever the program ends, every block it obtained is freed, once, and nothing else is. *)
Definition frees (t : list event) : list Z := flat_map (fun e => match e with EFree b => [b] | _ => [] end) t.
Lemma frees_freed l t : frees (freed l ++ t) = rev l ++ frees t.
Proof. unfold frees, freed. rewrite flat_map_app. f_equal. induction (rev l) as [|x r IH]; cbn; [reflexivity|]. now rewrite IH. Qed.
Lemma range_length : forall n a, length (range a n) = n. Proof. induction n; intros; cbn; auto. Qed.
Theorem unwind_frees_each_once : forall before inside e a j fuel t f, (2 <= fuel)%nat -> run fuel (prog before inside e a) j = Ok (t, f) ->
  NoDup (frees t) /\ length (frees t) = (length before + length inside)%nat /\ f = Finished /\ In (EAct a) t.
Proof.
  intros before inside e a j fuel t f Hf E. rewrite unwind_exact in E by exact Hf. unfold outcome in E. cbv zeta in E. set (all := blocks 2 (length before) ++ inside_blocks (length before) (length inside)) in *.
  assert (L : length (rev all) = (length before + length inside)%nat).
  { rewrite rev_length. unfold all. rewrite app_length. f_equal; [destruct before; cbn; rewrite ?range_length; reflexivity|]. destruct before; cbn; [|apply range_length]. destruct inside; cbn; rewrite ?range_length; reflexivity. }
  assert (N : NoDup (rev all)) by (apply NoDup_rev, all_nodup).
  destruct (_ || _); [|destruct (last inside 0 =? 0)]; [| |discriminate]; injection E as <- <-.
  - rewrite frees_freed. cbn. rewrite app_nil_r. repeat split; auto. apply in_or_app. right. left. reflexivity.
  - replace (EAct a :: freed all) with ([EAct a] ++ freed all ++ []) by (cbn; now rewrite app_nil_r). change (frees ([EAct a] ++ freed all ++ [])) with (frees (freed all ++ [])). rewrite frees_freed. cbn. rewrite app_nil_r. repeat split; auto.
Qed.
Example unwind_frees_each_once_met := unwind_frees_each_once [7; 8] [9; 0] 10 1 (fun _ => 0) 2 _ _ ltac:(lia) ltac:(vm_compute; reflexivity).
(** Exactly when an address that is no block is freed: the thread has memory from before the block, the block's context happens to say the library is
    not in use, and the first word of the newest block obtained inside is not 0. *)
Theorem unwind_wild_iff : forall before inside e a j fuel, (2 <= fuel)%nat ->
  (run fuel (prog before inside e a) j = Undef WildPointer <-> before <> [] /\ Z.odd (j (16 * ctx_after (length before) + 3)) = false /\ last inside 0 <> 0).
Proof.
  intros before inside e a j fuel Hf. rewrite unwind_exact by exact Hf. unfold outcome. destruct before as [|b bs]; [cbn; split; [discriminate|intros [H _]; congruence]|].
  change (Nat.eqb (length (b :: bs)) 0) with false. cbn [orb]. destruct (Z.odd _) eqn:O; [split; [discriminate|intros (_ & H & _); discriminate]|].
  destruct (Z.eqb_spec (last inside 0) 0) as [H|H]; [split; [discriminate|intros (_ & _ & Q); congruence]|]. split; [|reflexivity]. intros _. repeat split; [discriminate|exact H].
Qed.
Example unwind_wild_iff_met : run 2 (prog [7] [0; 3] 10 1) (fun _ => 0) = Undef WildPointer.
Proof. apply unwind_wild_iff; [lia|]. repeat split; discriminate. Qed.

(** ** C37: however the protected pointers are linked *)
Definition on (st : est) (L : list Z) : nat := length (filter (fun q => n_ok (nodes st q)) L).
Definition stage (st : est) (L : list Z) (temp : Z) : nat := (2 * on st L + (if (temp =? 0)%Z then 0 else 1))%nat.
Lemma on_off L : forall N p, NoDup L -> In p L -> n_ok (N p) = true -> length (filter (fun q => n_ok (N q)) L) = S (length (filter (fun q => n_ok (upd N p (n_off (N p)) q)) L)).
Proof.
  induction L as [|x L IH]; intros N p ND Hp E; [contradiction|]. apply NoDup_cons_iff in ND as [Nx ND]. cbn [filter].
  assert (Out : forall M, ~ In p M -> filter (fun q => n_ok (upd N p (n_off (N p)) q)) M = filter (fun q => n_ok (N q)) M).
  { induction M as [|y M IM]; intros Hm; [reflexivity|]. cbn [filter]. rewrite upd_other by (intros ->; apply Hm; left; reflexivity). rewrite IM by (intros X; apply Hm; right; exact X). reflexivity. }
  destruct Hp as [-> |Hp].
  - rewrite E, upd_same. cbn [n_off n_ok length]. rewrite Out by exact Nx. reflexivity.
  - rewrite upd_other by (intros ->; contradiction). destruct (n_ok (N x)); cbn [length]; rewrite (IH N p ND Hp E); reflexivity.
Qed.
(** Whatever the links between the protected pointers are (after a context was left they may form cycles), unwinding comes to an
    end, releases no pointer twice, and what it released is no longer protected; the others stay as they are. *)
Theorem unwinding_ends : forall L fuel p temp st, NoDup L -> (forall q, n_ok (nodes st q) = true -> In q L) -> (2 * length L + 1 < fuel)%nat ->
  unwind_ptrs fuel p temp st <> NoFuel /\
  forall st', unwind_ptrs fuel p temp st = Ok st' -> exists R, NoDup R /\
    (forall q, In q R -> n_ok (nodes st q) = true /\ n_val (nodes st q) <> 0 /\ n_ok (nodes st' q) = false) /\
    (forall q, ~ In q R -> nodes st' q = nodes st q) /\
    trace st' = trace st ++ map (fun q => ERelease (n_act (nodes st q)) (n_val (nodes st q))) R.
Proof.
  intros L fuel p temp st ND HL Hf. assert (Hm : (stage st L temp < fuel)%nat).
  { unfold stage, on. assert (length (filter (fun q => n_ok (nodes st q)) L) <= length L)%nat by (clear; induction L as [|x L IH]; cbn; [lia|]; destruct (n_ok _); cbn; lia). destruct (temp =? 0); lia. }
  clear Hf. revert p temp st HL Hm. induction fuel as [|f IH]; intros p temp st HL Hm; [lia|]. cbn [unwind_ptrs].
  assert (Stop : Ok st <> NoFuel /\ forall st', Ok st = Ok st' -> exists R, NoDup R /\ (forall q, In q R -> n_ok (nodes st q) = true /\ n_val (nodes st q) <> 0 /\ n_ok (nodes st' q) = false) /\ (forall q, ~ In q R -> nodes st' q = nodes st q) /\
     trace st' = trace st ++ map (fun q => ERelease (n_act (nodes st q)) (n_val (nodes st q))) R).
  { split; [discriminate|]. intros st' E. injection E as <-. exists []. split; [constructor|]. split; [intros q []|]. split; [reflexivity|]. cbn [map]. now rewrite app_nil_r. }
  destruct (p =? 0); [exact Stop|]. destruct (n_live (nodes st p)); cbn [negb]; [|split; [discriminate|intros ? X; discriminate]]. destruct (n_ok (nodes st p)) eqn:Ep; cbn [negb]; [|exact Stop].
  set (v := n_val (nodes st p)) in *. destruct (Z.eqb_spec temp v) as [_|Nt]; [exact Stop|]. clear Stop. destruct (Z.eqb_spec v 0) as [Ev|Nv].
  - cbn [bind]. rewrite Ev in *. apply IH; [exact HL|]. revert Hm. unfold stage. apply Z.eqb_neq in Nt. rewrite Nt. cbn [Z.eqb]. lia.
  - unfold release. fold v. apply Z.eqb_neq in Nv as Nv'. rewrite Nv'. destruct (n_free (nodes st p)); [cbn [bind]; split; [discriminate|intros ? X; discriminate]|]. cbn [bind].
    set (st1 := emit _ (with_node p n_off st)).
    assert (N1 : nodes st1 = upd (nodes st) p (n_off (nodes st p))) by reflexivity.
    destruct (IH (n_next (nodes st1 p)) v st1) as [A B].
    + intros q. rewrite N1. intros Q. apply HL. unfold upd in Q. destruct (Z.eqb_spec q p) as [Eq|_]; [rewrite Eq; exact Ep|exact Q].
    + revert Hm. unfold stage, on. rewrite N1. rewrite (on_off L (nodes st) p ND (HL p Ep) Ep). destruct (v =? 0), (temp =? 0); lia.
    + split; [exact A|]. intros st' E. destruct (B st' E) as (R & R1 & R2 & R3 & R4). 
      assert (Np : ~ In p R) by (intros X; destruct (R2 p X) as [X1 _]; rewrite N1, upd_same in X1; discriminate).
      exists (p :: R). split; [constructor; assumption|]. split.
      { intros q [<- |Q]; [split; [exact Ep|]; split; [exact Nv|]; rewrite (R3 p Np), N1, upd_same; reflexivity|].
        destruct (R2 q Q) as (X1 & X2 & X3). rewrite N1, upd_other in X1, X2 by (intros ->; contradiction). auto. }
      split. { intros q Q. rewrite (R3 q) by (intros X; apply Q; right; exact X). rewrite N1. apply upd_other. intros ->. apply Q. left. reflexivity. }
      rewrite R4. change (trace st1) with (trace st ++ [ERelease (n_act (nodes st p)) v]). rewrite <- app_assoc. cbn [map app]. f_equal. f_equal. apply map_ext_in. intros q Q. rewrite N1, upd_other by (intros ->; contradiction). reflexivity.
Qed.
(** Two pointers, each linked to the other. *)
Definition ring : est := with_node 6 (fun _ => Node true 5 false 2 8 true) (with_node 5 (fun _ => Node true 6 false 1 7 true) (start (fun _ => 0))).
Example unwinding_ends_met := unwinding_ends [5; 6] 6 5 0 ring ltac:(repeat constructor; cbn; intuition discriminate)
  ltac:(intros q; unfold ring, with_node, upd; cbn; destruct (q =? 6) eqn:A; destruct (q =? 5) eqn:B; cbn; intros; try discriminate; lia) ltac:(cbn; lia).
Example unwinding_ring : match unwind_ptrs 6 5 0 ring with Ok st => trace st = [ERelease 1 7; ERelease 2 8] /\ n_ok (nodes st 5) = false | _ => False end.
Proof. vm_compute. split; reflexivity. Qed.
(** ** C38: the scope of a guard *)
Lemma throw_not_norm fuel : forall ex pm st st', ex_throw fuel ex pm st <> Ok (RNorm, st').
Proof.
  destruct fuel as [|f]; intros ex pm st st' H; [discriminate|]. cbn [ex_throw] in H.
  destruct (c_unstack (ctxs st (cur st))); [discriminate|].
  destruct (setup _ ex pm _) as [s1| | |]; [|discriminate..]. cbn [bind] in H.
  unfold andthen in H. destruct (unwind _ _ _ s1) as [[[| |] s2]| | |]; try discriminate.
  destruct (cur st =? root); discriminate.
Qed.
Lemma landing_final (P : est -> Prop) id body handlers final : (forall st st', final st = Ok (RNorm, st') -> P st') -> (forall st k, P st -> P (set_cur k st)) ->
  forall fuel v st st', landing fuel id body handlers final v st = Ok (RNorm, st') -> P st'.
Proof.
  intros F C. induction fuel as [|f IH]; intros v st st' H; [discriminate|]. cbn [landing] in H.
  set (m := andthen (if v =? 0 then body (with_ctx id (c_set_state v) st) else _) _) in H.
  destruct m as [[[|j v'|] s1]| | |] eqn:M; try discriminate.
  - injection H as <-. unfold m in M. unfold andthen at 1 in M.
    destruct (if v =? 0 then _ else _) as [[[| |] s2]| | |]; try discriminate.
    unfold andthen at 1 in M. destruct (handlers s2) as [[[| |] s3]| | |]; try discriminate.
    unfold andthen in M. destruct (final s3) as [[[| |] s4]| | |] eqn:E; try discriminate.
    apply F in E. unfold end_try in M.
    set (s5 := if cur s4 =? id then _ else s4) in M. assert (P5 : P s5) by (unfold s5; destruct (cur s4 =? id); auto).
    destruct (Z.odd _); [elim (throw_not_norm _ _ _ _ _ M)|]. injection M as <-. exact P5.
  - destruct (j =? id); [eapply IH; exact H|discriminate].
Qed.
(** A guard that is left normally has released its scope, and the thread is back in the scope and with the hooks it had before,
    whatever the body did; any later use of that scope is undefined. *)
Theorem guard_scope_gone : forall fuel lx sc b st st', exec fuel lx sc (Guard b) st = Ok (RNorm, st') ->
  let g := fresh (raii_init st) in
  s_live (scopes st' g) = false /\ arena st' = arena st /\ hook_set st' = hook_set st /\ hook_unwind st' = hook_unwind st /\
  (forall thr, deferred_free thr g st' = Undef UseAfterFree).
Proof.
  intros fuel lx sc b st st' H. cbv zeta.
  assert (A : arena (raii_init st) = arena st /\ hook_set (raii_init st) = hook_set st /\ hook_unwind (raii_init st) = hook_unwind st)
    by (unfold raii_init; destruct (ready st); auto). destruct A as (A1 & A2 & A3). rewrite <- A1, <- A2, <- A3.
  enough (G : s_live (scopes st' (fresh (raii_init st))) = false /\ arena st' = arena (raii_init st) /\ hook_set st' = hook_set (raii_init st) /\ hook_unwind st' = hook_unwind (raii_init st)).
  { destruct G as (G1 & G2 & G3 & G4). repeat split; try assumption. intros thr. unfold deferred_free. rewrite G1. reflexivity. }
  cbn [exec] in H. remember (raii_init st) as s0. destruct (new_ctx _) as [id s1]. revert H.
  apply (landing_final (fun s => s_live (scopes s (fresh s0)) = false /\ arena s = arena s0 /\ hook_set s = hook_set s0 /\ hook_unwind s = hook_unwind s0)).
  - intros s s' E. injection E as <-. cbn. unfold upd. rewrite Z.eqb_refl. repeat split.
  - intros s k E. exact E.
Qed.
Example guard_scope_gone_case : match exec 9 root root (Seq (Guard (Seq (Malloc 0) (Defer (DFun 1 None None) 4))) (Act 3)) (start (fun _ => 1)) with
  | Ok (RNorm, st) => s_live (scopes st 2) = false /\ hook_set st = false | _ => False end.
Proof. vm_compute. split; reflexivity. Qed.
Print Assumptions guard_scope_gone.
Print Assumptions unwind_exact.
Print Assumptions unwind_frees_each_once.
Print Assumptions unwind_wild_iff.
Print Assumptions unwinding_ends.
