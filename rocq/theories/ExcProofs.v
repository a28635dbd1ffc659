(** Proofs for exceptions and guards. *)
From Verif Require Import BaseLemmas ExcModel SpecExc.

Scheme stmt_mut := Induction for stmt Sort Prop with clauses_mut := Induction for clauses Sort Prop.
Combined Scheme stmt_clauses_ind from stmt_mut, clauses_mut.

Lemma upd_same {A} (f : Z -> A) k v : upd f k v k = v.
Proof. unfold upd. rewrite Z.eqb_refl. reflexivity. Qed.
Lemma upd_other {A} (f : Z -> A) k v x : x <> k -> upd f k v x = f x.
Proof. unfold upd. intros H. destruct (Z.eqb_spec x k); [contradiction|reflexivity]. Qed.

(** The fields of a context that matter to control. *)
Record csame (c c' : ctx) : Prop := CSame { cs_next : c_next c' = c_next c; cs_state : c_state c' = c_state c; cs_ex : c_ex c' = c_ex c; cs_panic : c_panic c' = c_panic c;
  cs_unstack : c_unstack c' = c_unstack c; cs_stack : c_stack c' = c_stack c }.
(** [c'] is [c] after exception [e] was thrown at it. *)
Record cthrown (e : exn) (c c' : ctx) : Prop := CThrown { ct_next : c_next c' = c_next c; ct_state : c_state c' = c_state c; ct_ex : c_ex c' = fst e; ct_panic : c_panic c' = snd e;
  ct_unstack : c_unstack c' = false; ct_stack : c_stack c' = 0 }.
Lemma csame_refl c : csame c c.
Proof. constructor; reflexivity. Qed.
Lemma csame_trans a b c : csame a b -> csame b c -> csame a c.
Proof. intros [] []; constructor; congruence. Qed.
Lemma csame_thrown e a b c : csame a b -> cthrown e b c -> cthrown e a c.
Proof. intros [] []; constructor; congruence. Qed.

Definition mk (p : dfun * Z) : entry := Entry (DUser (fst p)) (snd p) true.
Record scope_ok (s : scope) (g : gst) : Prop := ScopeOk { so_arr : s_arr s = true; so_defers : s_defers s = map mk (fst g); so_prot : s_prot s = false; so_protector : s_protector s = 0; so_live : s_live s = true;
  so_pending : s_pending s = snd g }.

Record inv (st : est) (sc : Z) (g : gst) : Prop := Inv {
  i_cur : 1 <= cur st < fresh st; i_unstack : c_unstack (ctxs st (cur st)) = false; i_stack : c_stack (ctxs st (cur st)) = 0;
  i_hook : hook_unwind st = hook_set st;
  i_root : ready st = true -> s_prot (scopes st root) = false /\ s_defers (scopes st root) = [];
  i_in : hook_set st = true -> ready st = true /\ arena st = sc /\ 2 <= sc < fresh st /\ scope_ok (scopes st sc) g;
  i_out : hook_set st = false -> sc = root }.

(** What a statement leaves alone. *)
Record keep (sc : Z) (st st' : est) : Prop := Keep {
  k_cur : cur st' = cur st; k_fresh : fresh st <= fresh st'; k_set : hook_set st' = hook_set st; k_unwind : hook_unwind st' = hook_unwind st; k_arena : arena st' = arena st;
  k_ctx : forall i, i < fresh st -> i <> cur st -> csame (ctxs st i) (ctxs st' i);
  k_scope : forall i, 2 <= i < fresh st -> i <> sc -> scopes st' i = scopes st i }.
Lemma keep_refl sc st : keep sc st st.
Proof. constructor; auto; try lia. intros. apply csame_refl. Qed.
Lemma keep_trans sc a b c : keep sc a b -> keep sc b c -> keep sc a c.
Proof.
  intros [A1 A2 A3 A4 A5 A6 A7] [B1 B2 B3 B4 B5 B6 B7]. constructor; try congruence; try lia.
  - intros i Hi Hc. eapply csame_trans; [apply A6; auto|]. apply B6; [lia|congruence].
  - intros i Hi Hs. rewrite B7 by (auto; lia). apply A7; auto.
Qed.

(** How a statement ends, against the reference result. *)
Definition ends (st st' : est) (r : rres) (x : res) : Prop :=
  match r with
  | Done => x = RNorm /\ csame (ctxs st (cur st)) (ctxs st' (cur st))
  | Raised e => if cur st =? root then x = RExit (fst e) (snd e)
                else x = RJump (cur st) (Z.lor (c_state (ctxs st (cur st))) 1) /\ cthrown e (ctxs st (cur st)) (ctxs st' (cur st))
  end.
(** After termination only the trace matters. *)
Definition gone (st : est) (r : rres) : Prop := match r with Done => False | Raised _ => cur st = root end.
Definition post (sc : Z) (st : est) (t : list event) (r : rres) (g' : gst) (m : out (res * est)) : Prop :=
  exists x st', m = Ok (x, st') /\ trace st' = trace st ++ t /\ ends st st' r x /\
    (ready st' = true -> s_defers (scopes st' root) = []) /\ keep sc st st' /\ inv st' sc g'.

(** ** primitive steps *)
Ltac ctx_tac := cbn [ctxs set_ctxs with_ctx set_cur set_scopes with_scope set_nodes with_node set_fresh set_hooks set_arena set_ready emit cur fresh hook_set hook_unwind arena ready junk trace scopes nodes].

Lemma free_root_id st : (ready st = true -> s_defers (scopes st root) = []) -> trace (free_root st) = trace st.
Proof. unfold free_root. intros H. destruct (ready st); cbn [andb]; [|reflexivity]. destruct (s_arr (scopes st root)); [|reflexivity]. rewrite H by reflexivity. reflexivity. Qed.

Lemma raii_init_keep st sc g : inv st sc g -> 1 <= fresh st -> let st' := raii_init st in
  keep sc st st' /\ inv st' sc g /\ csame (ctxs st (cur st)) (ctxs st' (cur st)) /\ trace st' = trace st /\ ready st' = true /\ fresh st' = fresh st.
Proof.
  intros I Hf. pose proof I as [I1 I2 I3 I4 I5 I6 I7]. unfold raii_init. destruct (ready st) eqn:R.
  { cbn zeta. split; [apply keep_refl|]. split; [exact I|]. split; [apply csame_refl|]. auto. }
  cbn zeta. assert (Hk : hook_set st = false) by (destruct (hook_set st); [destruct (I6 eq_refl); congruence|reflexivity]).
  split; [|split; [|split; [|split; [|split]]]]; ctx_tac; auto.
  - constructor; ctx_tac; auto; try lia.
    + intros i Hi Hc. rewrite upd_other by auto. apply csame_refl.
    + intros i Hi Hs. rewrite upd_other by (unfold root; lia). reflexivity.
  - constructor; ctx_tac; rewrite ?upd_same; auto; try congruence.
  - rewrite upd_same. constructor; reflexivity.
Qed.

(** ex_throw. *)
Lemma throw_post f st sc g ex pm : inv st sc g ->
  post sc st [] (Raised (ex, pm)) (fst g, pend (ex, pm)) (ex_throw (S f) ex pm st).
Proof.
  intros I. pose proof I as [I1 I2 I3 I4 I5 I6 I7]. unfold post. cbn [ex_throw]. rewrite I2.
  set (c := cur st) in *. set (st1 := with_ctx c (c_thrown ex pm) st).
  (* setup *)
  assert (Q : exists st2, setup c ex pm st1 = Ok st2 /\ cthrown (ex, pm) (ctxs st c) (ctxs st2 c) /\ c_unwind (ctxs st2 c) = false /\
              trace st2 = trace st /\ keep sc st st2 /\ (ready st2 = true -> s_prot (scopes st2 root) = false /\ s_defers (scopes st2 root) = []) /\
              (hook_set st2 = true -> ready st2 = true /\ arena st2 = sc /\ 2 <= sc < fresh st2 /\ scope_ok (scopes st2 sc) (fst g, pend (ex, pm)))).
  { unfold setup. change (hook_set st1) with (hook_set st). change (arena st1) with (arena st). destruct (hook_set st) eqn:Hk.
    - destruct (I6 eq_refl) as (R & A & B & [O1 O2 O3 O4 O5 O6]). rewrite A. replace (sc =? 0) with false by lia. eexists. split; [reflexivity|].
      unfold record_err, st1. ctx_tac. rewrite !upd_same. cbn [c_set_unwind c_swap_set c_thrown s_set_err c_next c_state c_ex c_panic c_unstack c_stack c_unwind s_prot].
      split; [constructor; cbn; auto|]. split; [exact O3|]. split; [reflexivity|]. split; [|split].
      + constructor; ctx_tac; auto; try lia.
        * intros i Hi Hc. rewrite !upd_other by auto. apply csame_refl.
        * intros i Hi Hs. rewrite upd_other by auto. reflexivity.
      + intros _. rewrite upd_other by (unfold root; lia). auto.
      + intros _. rewrite ?upd_same. split; [auto|]. split; [auto|]. split; [lia|].
        constructor; cbn [s_set_err s_arr s_defers s_prot s_protector s_live s_pending fst snd]; auto.
    - pose proof (I7 eq_refl) as ->. destruct (c_raii (ctxs st1 c)) eqn:Ri.
      + eexists. split; [reflexivity|].
        assert (Cc : cur st1 = c) by reflexivity. unfold raii_init. change (ready st1) with (ready st).
        unfold record_err. destruct (ready st) eqn:R; unfold st1; ctx_tac; rewrite !upd_same; cbn [c_set_unwind c_swap_set c_thrown c_raii_init s_set_err c_next c_state c_ex c_panic c_unstack c_stack c_unwind s_prot s_defers];
          [destruct (I5 eq_refl) as [P0 D0]|]; fold c; rewrite ?upd_same; cbn [c_set_unwind c_swap_set c_thrown c_raii_init c_next c_state c_ex c_panic c_unstack c_stack c_unwind].
        * split; [constructor; cbn; auto|]. split; [exact P0|]. split; [reflexivity|]. split; [|split].
          -- constructor; ctx_tac; auto; try lia.
             ++ intros i Hi Hc. rewrite !upd_other by auto. apply csame_refl.
             ++ intros i Hi Hs. rewrite upd_other by auto. reflexivity.
          -- intros _. auto.
          -- rewrite Hk. discriminate.
        * split; [constructor; cbn; auto|]. split; [reflexivity|]. split; [reflexivity|]. split; [|split].
          -- constructor; ctx_tac; auto; try lia.
             ++ intros i Hi Hc. rewrite !upd_other by auto. apply csame_refl.
             ++ intros i Hi Hs. rewrite !upd_other by auto. reflexivity.
          -- intros _. auto.
          -- rewrite Hk. discriminate.
      + eexists. split; [reflexivity|]. unfold st1. ctx_tac. rewrite upd_same. cbn [c_thrown c_next c_state c_ex c_panic c_unstack c_stack c_unwind].
        split; [constructor; cbn; auto|]. split; [reflexivity|]. split; [reflexivity|]. split; [|split; [exact I5|]].
        * constructor; ctx_tac; auto; try lia. intros i Hi Hc. rewrite !upd_other by auto. apply csame_refl.
        * rewrite Hk. discriminate. }
  destruct Q as (st2 & -> & [T1 T2 T3 T4 T5 T6] & U & Tr & K & R2 & S2). cbn [bind].
  (* unwind *)
  unfold unwind. ctx_tac. rewrite upd_same. cbn [c_set_unstack c_unwind c_raii c_data c_stack]. rewrite U, T6. cbn [andb unwind_ptrs bind andthen]. replace (0 =? 0) with true by reflexivity. cbn [bind andthen].
  set (st3 := with_ctx c (fun c => c_set_stack 0 (c_set_unstack false c)) (with_ctx c (c_set_unstack true) st2)).
  assert (C3 : cthrown (ex, pm) (ctxs st c) (ctxs st3 c)).
  { unfold st3. ctx_tac. rewrite !upd_same. cbn [c_set_stack c_set_unstack]. constructor; cbn [c_next c_state c_ex c_panic c_unstack c_stack]; auto. }
  assert (K3 : keep sc st st3).
  { destruct K as [K1 K2 K3 K4 K5 K6 K7]. constructor; unfold st3; ctx_tac; auto. intros i Hi Hc. rewrite !upd_other by auto. apply K6; auto. }
  destruct K3 as [K1 K2 K3' K4 K5 K6 K7].
  assert (N3 : inv st3 sc (fst g, pend (ex, pm))).
  { destruct C3 as [? ? ? ? C5 C6]. constructor; auto.
    - rewrite K1. fold c. unfold c in *. lia.
    - rewrite K1. exact C5.
    - rewrite K1. exact C6.
    - congruence.
    - rewrite K3'. exact I7. }
  assert (D3 : ready st3 = true -> s_defers (scopes st3 root) = []) by (intros X; apply R2; exact X).
  assert (Tr3 : trace st3 = trace st ++ []) by (rewrite app_nil_r; exact Tr).
  unfold ends. fold c. destruct (c =? root).
  - unfold terminate. change (cur st3) with (cur st2). change (cur st2) with (cur st3). rewrite K1. fold c. destruct C3 as [? ? C3a C3b ? ?]. rewrite C3a, C3b.
    eexists _, _. split; [reflexivity|].
    assert (FR : free_root st3 = st3 \/ free_root st3 = with_scope root s_reset st3).
    { unfold free_root. destruct (ready st3 && s_arr (scopes st3 root)) eqn:Q; [|auto]. apply andb_true_iff in Q. destruct Q as [Q _]. rewrite (D3 Q). auto. }
    split; [rewrite free_root_id by exact D3; exact Tr3|]. split; [reflexivity|].
    destruct FR as [-> | -> ].
    + split; [exact D3|]. split; [constructor; auto|exact N3].
    + split; [intros _; ctx_tac; rewrite upd_same; reflexivity|]. split.
      * constructor; ctx_tac; auto. intros i Hi Hs. rewrite upd_other by (unfold root; lia). apply K7; auto.
      * destruct N3 as [M1 M2 M3 M4 M5 M6 M7]. constructor; ctx_tac; auto.
        -- intros Q. rewrite upd_same. destruct (M5 Q). auto.
        -- intros Q. destruct (M6 Q) as (X1 & X2 & X3 & X4). rewrite upd_other by (unfold root; lia). auto.
  - eexists _, _. split; [reflexivity|]. split; [exact Tr3|]. split; [split; [destruct C3 as [? C3s ? ? ? ?]; rewrite C3s; reflexivity|exact C3]|].
    split; [exact D3|]. split; [constructor; auto|exact N3].
Qed.
