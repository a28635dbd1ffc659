(** C73-C75: thread-local variables. *)
From Verif Require Import BaseLemmas TlsModel SpecTls.

(** ** C73: native *)
Lemma updn_same {A} (f : nat -> A) k v : updn f k v k = v. Proof. unfold updn. now rewrite Nat.eqb_refl. Qed.
Lemma updn_other {A} (f : nat -> A) k v x : x <> k -> updn f k v x = f x. Proof. intros H. unfold updn. now apply Nat.eqb_neq in H as ->. Qed.

Lemma nrun_ext l s s' : (forall t, s t = s' t) -> nrun l s = nrun l s'.
Proof.
  revert s s'. induction l as [|[t o] l IH]; intros s s' H; [reflexivity|]. cbn [nrun]. rewrite <- H. destruct (nop o (s t)) as [r f]. f_equal. apply IH. intros u. unfold updn. now destruct (u =? t)%nat.
Qed.
Lemma nrun_cong l : forall s s' t, s t = s' t -> filter (fun r => (fst r =? t)%nat) (nrun l s) = nrun (filter (fun e => (fst e =? t)%nat) l) s'.
Proof.
  induction l as [|[u o] l IH]; intros s s' t H; [reflexivity|]. cbn [nrun filter fst].
  destruct (Nat.eqb_spec u t) as [->|N].
  - cbn [nrun]. rewrite <- H. destruct (nop o (s t)) as [r f] eqn:E. cbn [filter fst]. rewrite Nat.eqb_refl. f_equal. apply IH. now rewrite !updn_same.
  - destruct (nop o (s u)) as [r f]. cbn [filter fst]. apply Nat.eqb_neq in N as N'. rewrite N'. apply IH. rewrite updn_other by congruence. exact H.
Qed.
(** What a thread gets does not depend on what the other threads do, whatever the operations (also redirections) and the interleaving. *)
Theorem native_isolated l s t : filter (fun r => (fst r =? t)%nat) (nrun l s) = nrun (filter (fun e => (fst e =? t)%nat) l) s.
Proof. now apply nrun_cong. Qed.

(** The state after a history. *)
Fixpoint nexec (l : list (nat * top)) (s : nstate) : nstate :=
  match l with [] => s | (t, o) :: l => nexec l (updn s t (snd (nop o (s t)))) end.
Lemma nrun_app l l' s : nrun (l ++ l') s = nrun l s ++ nrun l' (nexec l s).
Proof. revert s. induction l as [|[t o] l IH]; intros s; [reflexivity|]. cbn [nrun nexec app]. destruct (nop o (s t)) as [r f]. cbn [snd app]. f_equal. apply IH. Qed.
Lemma nexec_app l l' s : nexec (l ++ l') s = nexec l' (nexec l s).
Proof. revert s. induction l as [|[t o] l IH]; intros s; [reflexivity|]. cbn [nexec app]. apply IH. Qed.
Lemma nexec_inv h : forallb (fun e => own_op (snd e)) h = true -> forall t v,
  n_buf (nexec h nstart t v) = match latest t v h with Some x => x | None => 0 end /\
  n_tls (nexec h nstart t v) = if unused t v h then NNull else NBuf.
Proof.
  induction h as [|[u o] h IH] using rev_ind; intros P t v; [split; reflexivity|].
  rewrite forallb_app in P. apply andb_true_iff in P as [P Q]. cbn in Q. rewrite andb_true_r in Q. specialize (IH P).
  rewrite nexec_app. cbn [nexec]. unfold latest, unused. rewrite rev_unit. cbn [find].
  destruct (Nat.eq_dec t u) as [->|N].
  2:{ rewrite updn_other by congruence. replace (writes t v (u, o)) with false. 2:{ unfold writes. cbn. destruct o; try reflexivity. symmetry. apply andb_false_iff. left. apply Nat.eqb_neq. congruence. }
      replace (uses t v (u, o)) with false. 2:{ unfold uses. cbn. destruct o; try reflexivity; symmetry; apply andb_false_iff; left; apply Nat.eqb_neq; congruence. }
      apply IH. }
  rewrite updn_same. destruct (IH u v) as [B T]. unfold latest, unused in B, T.
  destruct o as [w|w x|w|w|w x]; try discriminate; unfold writes at 1, uses at 1; cbn [snd fst]; rewrite ?Nat.eqb_refl; cbn [andb].
  - unfold nop. cbn [snd]. destruct (Nat.eqb_spec w v) as [->|N].
    + rewrite updn_same. unfold nget. rewrite T. destruct (find (uses u v) (rev h)) as [[? []]|] eqn:?; cbn [n_buf n_tls]; rewrite ?T; auto.
    + rewrite updn_other by congruence. auto.
  - unfold nop. cbn [snd]. destruct (Nat.eqb_spec w v) as [->|N].
    + rewrite updn_same. unfold nget. rewrite T. destruct (find (uses u v) (rev h)) as [[? []]|] eqn:?; cbn [n_buf n_tls]; rewrite ?T; auto.
    + rewrite updn_other by congruence. auto.
  - unfold nop. cbn [snd]. auto.
  - unfold nop. cbn [snd]. destruct (Nat.eqb_spec w v) as [->|N].
    + rewrite updn_same. cbn [n_buf n_tls]. auto.
    + rewrite updn_other by congruence. auto.
Qed.
(** Whatever all threads did before, an operation yields what a private variable starting at zero would. *)
Theorem native_private h t o : forallb (fun e => own_op (snd e)) h = true -> own_op o = true ->
  nrun (h ++ [(t, o)]) nstart = nrun h nstart ++ [(t, answer (Some 0) h t o)].
Proof.
  intros P Q. rewrite nrun_app. f_equal. pose proof (nexec_inv h P t) as I. cbn [nrun]. destruct o as [w|w x|w|w|w x]; try discriminate; unfold nop; cbn [answer].
  - destruct (I w) as [B T]. unfold nget. rewrite T. do 3 f_equal. destruct (unused t w h); cbn [n_tls n_buf]; rewrite ?T; rewrite B; now destruct (latest t w h).
  - reflexivity.
  - destruct (I w) as [B T]. rewrite T. destruct (unused t w h); reflexivity.
  - reflexivity.
Qed.
Example native_case : nrun [(0%nat, Wr 0 5); (1%nat, Rd 0); (1%nat, Wr 0 7); (0%nat, Del 0); (0%nat, Emp 0); (0%nat, Rd 0); (1%nat, Rd 0); (1%nat, Emp 0)] nstart
  = [(0%nat, RUnit); (1%nat, RVal (Some 0)); (1%nat, RUnit); (0%nat, RUnit); (0%nat, RBool true); (0%nat, RVal (Some 5)); (1%nat, RVal (Some 7)); (1%nat, RBool false)].
Proof. reflexivity. Qed.
(** The two "plain" forms: a variable that holds its initial value is read as the (truncated) address of a buffer. *)
Theorem native_plain_refuted : exists bits initial addr, initial = 0 /\ bits = 32 /\ 0 < addr < 2 ^ 47 /\ plain_get bits initial addr initial <> initial.
Proof. exists 32, 0, 140737353977856. vm_compute. repeat split; intros H; discriminate. Qed.
(** Exactly: what is read is always a value of the type, and the first read is right only for a buffer whose truncated address is the initial value. *)
Theorem native_plain_exact : forall bits initial addr tls, 0 <= bits -> 0 <= tls < 2 ^ bits ->
  0 <= plain_get bits initial addr tls < 2 ^ bits /\ (tls <> initial -> plain_get bits initial addr tls = tls) /\
  (plain_get bits initial addr initial = initial <-> exists k, addr = k * 2 ^ bits + initial /\ 0 <= initial < 2 ^ bits).
Proof.
  intros bits initial addr tls Hb Ht. assert (P : 0 < 2 ^ bits) by (apply Z.pow_pos_nonneg; lia). pose proof (Z.mod_pos_bound addr (2 ^ bits) P) as M. unfold plain_get. rewrite Z.eqb_refl.
  split; [destruct (tls =? initial); lia|]. split; [intros N; destruct (Z.eqb_spec tls initial); [contradiction|reflexivity]|]. split.
  - intros E. exists (addr / 2 ^ bits). pose proof (Z.div_mod addr (2 ^ bits)) as D. rewrite E in *. split; [|exact M]. rewrite Z.mul_comm. apply D. lia.
  - intros (k & -> & Hi). rewrite Z.add_comm, Z.mod_add by lia. apply Z.mod_small. exact Hi.
Qed.
Example native_plain_met : plain_get 32 0 (5 * 2 ^ 32) 0 = 0 /\ plain_get 32 0 (5 * 2 ^ 32 + 16) 0 = 16 /\ plain_get 32 0 16 9 = 9. Proof. repeat split. Qed.

(** ** C74: emulated *)
Definition seen (v : nat) (h : list top) : bool := existsb (fun o => rw_op o && (var_of o =? v)%nat) h.
Definition lastw (t v : nat) (h : list top) : option Z := latest t v (map (pair t) h).
Lemma lastw_snoc t v h o : lastw t v (h ++ [o]) = match o with Wr w x => if (w =? v)%nat then Some x else lastw t v h | _ => lastw t v h end.
Proof.
  unfold lastw, latest. rewrite map_app, rev_app_distr. cbn [map rev app find]. unfold writes at 1. cbn [snd fst]. destruct o; try reflexivity. rewrite Nat.eqb_refl. cbn [andb]. now destruct (v0 =? v)%nat.
Qed.
Lemma seen_snoc v h o : seen v (h ++ [o]) = seen v h || (rw_op o && (var_of o =? v)%nat).
Proof. unfold seen. rewrite existsb_app. cbn. now rewrite orb_false_r. Qed.
Lemma unused_seen t v h : forallb kept_op h = true -> unused t v (map (pair t) h) = negb (seen v h).
Proof.
  induction h as [|o h IH] using rev_ind; intros P; [reflexivity|]. rewrite forallb_app in P. apply andb_true_iff in P as [P Q]. cbn in Q. rewrite andb_true_r in Q.
  rewrite seen_snoc. unfold unused in *. rewrite map_app, rev_app_distr. cbn [map rev app find]. unfold uses at 1. cbn [snd fst]. specialize (IH P).
  destruct o as [w|w x|w|w|w x]; try discriminate; cbn [rw_op var_of andb]; rewrite ?Nat.eqb_refl, ?orb_false_r; cbn [andb]; try exact IH; destruct (w =? v)%nat; rewrite ?orb_true_r, ?orb_false_r; auto.
Qed.
Lemma answers_app i t h l l' : answers i t h (l ++ l') = answers i t h l ++ answers i t (h ++ l) l'.
Proof. revert h. induction l as [|o l IH]; intros h; cbn [answers app]; [now rewrite app_nil_r|]. rewrite IH, <- app_assoc. reflexivity. Qed.
Lemma answers_length i t h l : length (answers i t h l) = length l.
Proof. revert h. induction l as [|o l IH]; intros h; cbn [answers length]; [reflexivity|]. now rewrite IH. Qed.

Section Emulated.
Variables (prog : nat -> list top) (L : bool).
(** [O]: the variables whose key exists. *)
Definition slot_ok (O : nat -> bool) (s : emu) (t : nat) (done : list top) (v : nat) : Prop :=
  let p := slots s (ekey s v) t in
  (p = 0 /\ seen v done = false /\ lastw t v done = None) \/
  (p <> 0 /\ heap s p = Some (EObj t v (lastw t v done) true) /\ (seen v done = true \/ (pc (ethreads s t) = P6 p /\ exists o r, todo (ethreads s t) = o :: r /\ rw_op o = true /\ var_of o = v))).
Definition pc_ok (O : nat -> bool) (s : emu) (t : nat) : Prop :=
  match todo (ethreads s t) with
  | [] => pc (ethreads s t) = P0
  | o :: _ =>
      let v := var_of o in
      if rw_op o then
        match pc (ethreads s t) with
        | P0 => True
        | P1 => t = 0%nat /\ O v = false /\ eflag s v = false
        | P2 => t = 0%nat /\ O v = false /\ eflag s v = true
        | P3 => O v = true
        | P4 => O v = true /\ slots s (ekey s v) t = 0
        | P5 p => O v = true /\ slots s (ekey s v) t = 0 /\ 0 < p /\ heap s p = Some (EObj t v None true)
        | P6 p => O v = true /\ slots s (ekey s v) t = p /\ p <> 0
        end
      else pc (ethreads s t) = P0
  end.
Definition thread_ok (O : nat -> bool) (s : emu) (t : nat) : Prop :=
  exists done, prog t = done ++ todo (ethreads s t) /\ elog (ethreads s t) = answers None t [] done /\
    (forall v, O v = true -> slot_ok O s t done v) /\ (forall v, O v = false -> seen v done = false /\ lastw t v done = None) /\ pc_ok O s t.
Definition at_p2 (s : emu) (v : nat) : Prop := pc (ethreads s 0%nat) = P2 /\ exists o r, todo (ethreads s 0%nat) = o :: r /\ rw_op o = true /\ var_of o = v.
Definition Inv (O : nat -> bool) (s : emu) : Prop :=
  0 <= nkeys s /\ 0 < hnext s /\ (forall k, kdel s k = false) /\ (forall p, hnext s <= p -> heap s p = None) /\
  (forall v, O v = true -> eflag s v = true /\ 0 <= ekey s v < nkeys s) /\
  (forall v w, O v = true -> O w = true -> ekey s v = ekey s w -> v = w) /\
  (forall v, O v = false -> eflag s v = true -> at_p2 s v) /\
  (forall t, thread_ok O s t).

Lemma upd_same {A} (f : Z -> A) k v : upd f k v k = v. Proof. unfold upd. now rewrite Z.eqb_refl. Qed.
Lemma upd_other {A} (f : Z -> A) k v x : x <> k -> upd f k v x = f x. Proof. intros H. unfold upd. now apply Z.eqb_neq in H as ->. Qed.

Lemma frame O s s' u : thread_ok O s u -> ethreads s' u = ethreads s u ->
  (forall v, O v = true -> ekey s' v = ekey s v /\ slots s' (ekey s v) u = slots s (ekey s v) u) ->
  (forall p o, heap s p = Some o -> o_thread o = u -> heap s' p = Some o) -> (u = 0%nat -> forall v, eflag s' v = eflag s v) -> thread_ok O s' u.
Proof.
  intros (done & A & B & C & D & E) T K H F. exists done. rewrite T. repeat split; auto.
  - intros v V. destruct (K v V) as [K1 K2]. specialize (C v V). unfold slot_ok in *. rewrite T, K1, K2. destruct C as [C|(C1 & C2 & C3)]; [left; exact C|right]. repeat split; auto.
  - apply D. assumption.
  - apply D. assumption.
  - unfold pc_ok in *. rewrite T. destruct (todo (ethreads s u)) as [|o r]; [exact E|]. destruct (rw_op o); [|exact E]. destruct (pc (ethreads s u)); auto.
    + destruct E as (-> & E1 & E2). rewrite F; auto.
    + destruct E as (-> & E1 & E2). rewrite F; auto.
    + destruct E as (E1 & E2). destruct (K _ E1) as [-> ->]. auto.
    + destruct E as (E1 & E2 & E3 & E4). destruct (K _ E1) as [-> ->]. auto.
    + destruct E as (E1 & E2 & E3). destruct (K _ E1) as [-> ->]. auto.
Qed.
Lemma valid_O O s v : Inv O s -> O v = true -> valid_key (ekey s v) s = true.
Proof.
  intros (_ & _ & K & _ & F & _) V. destruct (F v V) as [_ B]. unfold valid_key. rewrite K. cbn. rewrite andb_true_r. apply andb_true_iff. split; [apply Z.leb_le|apply Z.ltb_lt]; lia.
Qed.
(** The pieces of the invariant that a step of [t] which keeps keys and flags has to re-establish. *)
Lemma keep O s s' t : Inv O s -> eflag s' = eflag s -> ekey s' = ekey s -> nkeys s' = nkeys s -> kdel s' = kdel s -> hnext s <= hnext s' ->
  (forall p, hnext s' <= p -> heap s' p = None) ->
  (forall u, u <> t -> ethreads s' u = ethreads s u) -> (forall k u, u <> t -> slots s' k u = slots s k u) ->
  (forall p o, heap s p = Some o -> o_thread o <> t -> heap s' p = Some o) ->
  (t = 0%nat -> forall v, at_p2 s v -> O v = false -> False) ->
  thread_ok O s' t -> Inv O s'.
Proof.
  intros (I1 & I2 & I3 & I4 & I5 & I6 & I7 & I8) F K N D HN H T S HP P2 TK.
  split; [lia|]. split; [lia|]. split; [rewrite D; exact I3|]. split; [exact H|]. split; [rewrite F, K, N; exact I5|]. split; [rewrite K; exact I6|]. split.
  - intros v V W. rewrite F in W. pose proof (I7 v V W) as Q. destruct t as [|t]; [exfalso; exact (P2 eq_refl v Q V)|]. unfold at_p2 in *. rewrite (T 0%nat) by discriminate. exact Q.
  - intros u. destruct (Nat.eq_dec u t) as [->|U]; [exact TK|]. apply frame with s; auto.
    + intros v V. rewrite K. split; auto.
    + intros p o X Y. apply HP; congruence.
    + intros _ v. now rewrite F.
Qed.
Lemma step O s t : Inv O s ->
  (forall o r, todo (ethreads s t) = o :: r -> kept_op o = true /\ (O (var_of o) = true \/ (t = 0%nat /\ rw_op o = true))) ->
  (forallb kept_op (prog t) = true) ->
  exists s' O', estep L t s = Ok s' /\ Inv O' s' /\ (forall v, O v = true -> O' v = true).
Proof.
  intros I Hop Hk. assert (I' := I). destruct I' as (I1 & I2 & I3 & I4 & I5 & I6 & I7 & I8). destruct (I8 t) as (done & A & B & C & D & E).
  unfold estep. unfold pc_ok in E. destruct (ethreads s t) as [td q lg] eqn:ET. cbn [todo pc elog] in *.
  destruct td as [|o r]; [exists s, O; auto|]. destruct (Hop o r eq_refl) as [Ko Vo]. clear Hop.
  assert (KD : forallb kept_op done = true). { rewrite A, forallb_app in Hk. now apply andb_true_iff in Hk as [? _]. }
  destruct (rw_op o) eqn:RW.
  2:{ (* Emp *)
    destruct o as [w|w x|w|w|w x]; try discriminate. subst q. destruct Vo as [V|[_ V]]; [|discriminate]. cbn [var_of] in V.
    unfold tss_get. rewrite (valid_O O s w I V). cbn [bind]. eexists _, O. split; [reflexivity|]. split; [|auto].
    apply keep with s t; auto; try reflexivity; try lia.
    - intros u U. cbn. now apply updn_other.
    - intros -> v [Q _] _. rewrite ET in Q. discriminate.
    - exists (done ++ [Emp w]). cbn [set_thread ethreads]. rewrite updn_same. cbn [todo elog pc]. repeat split.
      + rewrite A, <- app_assoc. reflexivity.
      + rewrite answers_app, <- B. cbn [app answers]. f_equal. f_equal. cbn [answer]. rewrite unused_seen by exact KD.
        specialize (C w V). unfold slot_ok in C. rewrite ET in C. destruct C as [(-> & -> & _)|(N & _ & [S|[S _]])]; [reflexivity| |discriminate]. rewrite S. apply Z.eqb_neq in N as ->. reflexivity.
      + intros v Vv. specialize (C v Vv). unfold slot_ok in *. cbn [set_thread slots ekey heap ethreads]. rewrite updn_same, seen_snoc, lastw_snoc, orb_false_r. cbn [rw_op andb]. rewrite ?orb_false_r.
        destruct C as [C|(C1 & C2 & C3)]; [left; exact C|right; split; [exact C1|]; split; [exact C2|]]. rewrite ET in C3. destruct C3 as [C3|[C3 _]]; [left; exact C3|discriminate].
      + rewrite seen_snoc. cbn. rewrite orb_false_r. now apply D.
      + rewrite lastw_snoc. now apply D.
      + unfold pc_ok. cbn [set_thread ethreads]. rewrite updn_same. cbn [todo pc]. destruct r as [|o' r']; [reflexivity|]. destruct (rw_op o'); [exact Logic.I|reflexivity]. }
  (* a step that only moves the program counter *)
  assert (MOVE : forall q', (match q' with P0 => True | P3 => O (var_of o) = true | P1 => t = 0%nat /\ O (var_of o) = false /\ eflag s (var_of o) = false
       | P4 => O (var_of o) = true /\ slots s (ekey s (var_of o)) t = 0 | P6 p => O (var_of o) = true /\ slots s (ekey s (var_of o)) t = p /\ p <> 0 | _ => False end) -> q <> P2 -> (forall p, q <> P6 p) ->
       Inv O (set_thread t (TlsModel.ET (o :: r) q' lg) s)).
  { intros q' Q N2 N6. apply keep with s t; auto; try reflexivity; try lia.
    - intros u U. cbn. now apply updn_other.
    - intros -> v [X _] _. rewrite ET in X. cbn in X. contradiction.
    - exists done. cbn [set_thread ethreads]. rewrite updn_same. cbn [todo elog pc]. repeat split; auto; try (apply D; assumption).
      + intros v Vv. specialize (C v Vv). unfold slot_ok in *. cbn [set_thread slots ekey heap ethreads]. rewrite updn_same. rewrite ET in C. cbn [pc todo] in *. destruct C as [C|(C1 & C2 & C3)]; [left; exact C|right; split; [exact C1|]; split; [exact C2|]]. destruct C3 as [C3|[C3 _]]; [left; exact C3|]. exfalso. exact (N6 _ C3).
      + unfold pc_ok. cbn [set_thread ethreads slots ekey eflag heap]. rewrite updn_same. cbn [todo pc]. rewrite RW. destruct q'; tauto. }
  destruct q as [| | | | |p|p].
  - (* P0 *) destruct o as [w|w x| | |]; try discriminate; cbn [var_of] in *;
    (eexists _, O; split; [reflexivity|]; split; [|auto]; apply MOVE; [|discriminate|discriminate];
     destruct (eflag s w) eqn:F; [destruct (O w) eqn:OW; [reflexivity|exfalso; destruct Vo as [Vo|[-> _]]; [discriminate|]; destruct (I7 w OW F) as [X _]; rewrite ET in X; discriminate]
       | destruct (O w) eqn:OW; [destruct (I5 w OW); congruence|]; destruct Vo as [Vo|[-> _]]; [discriminate|auto]]).
  - (* P1 *) destruct E as (-> & OW & F).
    assert (X : Inv O (set_thread 0 (TlsModel.ET (o :: r) P2 lg) (set_flag (var_of o) true s))).
    { split; [exact I1|]. split; [exact I2|]. split; [exact I3|]. split; [exact I4|]. split; [|split; [exact I6|split]].
      - intros v V. cbn. destruct (I5 v V). split; [|assumption]. unfold updn. destruct (v =? var_of o)%nat; auto.
      - intros v V W. cbn in W. unfold updn in W. destruct (Nat.eqb_spec v (var_of o)) as [->|N].
        + split; cbn; [reflexivity|]. exists o, r. auto.
        + exfalso. destruct (I7 v V W) as [Z _]. rewrite ET in Z. discriminate.
      - intros u. destruct (Nat.eq_dec u 0) as [->|U].
        + exists done. cbn [set_thread ethreads set_flag]. rewrite updn_same. cbn [todo elog pc]. repeat split; auto; try (apply D; assumption).
          * intros v Vv. specialize (C v Vv). unfold slot_ok in *. cbn [set_thread set_flag slots ekey heap ethreads]. rewrite updn_same. rewrite ET in C. cbn [pc todo] in *. destruct C as [C|(C1 & C2 & C3)]; [left; exact C|right; split; [exact C1|]; split; [exact C2|]]. destruct C3 as [C3|[C3 _]]; [left; exact C3|discriminate].
          * unfold pc_ok. cbn [set_thread set_flag ethreads slots ekey eflag heap]. rewrite updn_same. cbn [todo pc]. rewrite RW, updn_same. auto.
        + apply frame with s; auto. cbn. now apply updn_other. intros U'. congruence. }
    destruct o as [w|w x| | |]; try discriminate; eexists _, O; (split; [reflexivity|]); split; auto.
  - (* P2 *) destruct E as (-> & OW & F).
    assert (X : Inv (updn O (var_of o) true) (set_thread 0 (TlsModel.ET (o :: r) P3 lg) (new_key (var_of o) s))).
    { assert (NW : forall v, O v = true -> v <> var_of o) by (intros v V ->; congruence).
      split; [cbn; lia|]. split; [exact I2|]. split; [exact I3|]. split; [exact I4|]. split; [|split; [|split]].
      - intros v V. cbn. unfold updn in *. destruct (v =? var_of o)%nat eqn:Q; [apply Nat.eqb_eq in Q as ->; split; [exact F|lia]|]. destruct (I5 v V). split; [assumption|lia].
      - intros v w V W. cbn. unfold updn in *. destruct (v =? var_of o)%nat eqn:Q; destruct (w =? var_of o)%nat eqn:Q'; try apply Nat.eqb_eq in Q as ->; try apply Nat.eqb_eq in Q' as ->; auto.
        + destruct (I5 w W). lia.
        + destruct (I5 v V). lia.
      - intros v V W. exfalso. cbn in *. unfold updn in V. destruct (Nat.eqb_spec v (var_of o)) as [|N]; [discriminate|]. destruct (I7 v V W) as (_ & o' & r' & T1 & _ & T2). rewrite ET in T1. cbn in T1. congruence.
      - intros u. destruct (Nat.eq_dec u 0) as [->|U].
        + exists done. cbn [set_thread ethreads new_key]. rewrite updn_same. cbn [todo elog pc]. split; [exact A|]. split; [exact B|]. split; [|split].
          * intros v Vv. unfold slot_ok. cbn [set_thread new_key slots ekey heap ethreads]. rewrite updn_same. cbn [pc todo]. destruct (Nat.eq_dec v (var_of o)) as [->|N].
            -- rewrite updn_same, upd_same. left. destruct (D _ OW). auto.
            -- rewrite updn_other in Vv by assumption. rewrite (updn_other (ekey s)) by assumption. specialize (C v Vv). unfold slot_ok in C. destruct (I5 v Vv). rewrite upd_other by lia. rewrite ET in C. cbn [pc todo] in *. destruct C as [C|(C1 & C2 & C3)]; [left; exact C|right; split; [exact C1|]; split; [exact C2|]]. destruct C3 as [C3|[C3 _]]; [left; exact C3|discriminate].
          * intros v Vv. apply D. unfold updn in Vv. destruct (v =? var_of o)%nat; [discriminate|assumption].
          * unfold pc_ok. cbn [set_thread ethreads]. rewrite updn_same. cbn [todo pc]. rewrite RW. apply updn_same.
        + destruct (I8 u) as (dn & A' & B' & C' & D' & E'). exists dn. cbn [set_thread ethreads new_key]. rewrite updn_other by assumption. split; [exact A'|]. split; [exact B'|]. split; [|split].
          * intros v Vv. unfold slot_ok in *. cbn [set_thread new_key slots ekey heap ethreads]. rewrite (updn_other (ethreads s)) by assumption. destruct (Nat.eq_dec v (var_of o)) as [->|N].
            -- rewrite updn_same, upd_same. left. destruct (D' _ OW). auto.
            -- rewrite updn_other in Vv by assumption. rewrite (updn_other (ekey s)) by assumption. specialize (C' v Vv). destruct (I5 v Vv). rewrite upd_other by lia. exact C'.
          * intros v Vv. apply D'. unfold updn in Vv. destruct (v =? var_of o)%nat; [discriminate|assumption].
          * unfold pc_ok in *. cbn [set_thread ethreads new_key slots ekey heap eflag]. rewrite (updn_other (ethreads s)) by assumption. destruct (todo (ethreads s u)) as [|o' r']; [exact E'|]. destruct (rw_op o'); [|exact E'].
            destruct (pc (ethreads s u)); auto; try (destruct E'; congruence).
            -- unfold updn. destruct (var_of o' =? var_of o)%nat; auto.
            -- destruct E' as [O' Y]. rewrite (updn_other O) by auto. rewrite updn_other by auto. destruct (I5 _ O'). rewrite upd_other by lia. auto.
            -- destruct E' as [O' Y]. rewrite (updn_other O) by auto. rewrite updn_other by auto. destruct (I5 _ O'). rewrite upd_other by lia. auto.
            -- destruct E' as [O' Y]. rewrite (updn_other O) by auto. rewrite updn_other by auto. destruct (I5 _ O'). rewrite upd_other by lia. auto. }
    destruct o as [w|w x| | |]; try discriminate; eexists _, _; (split; [reflexivity|]); (split; [exact X|]); intros v V; unfold updn; destruct (v =? _)%nat; auto.
  - (* P3 *) pose proof (valid_O O s _ I E) as VK.
    destruct o as [w|w x| | |]; try discriminate; cbn [var_of] in *; unfold tss_get; rewrite VK; cbn [bind]; (eexists _, O; split; [reflexivity|]; split; [|auto]; apply MOVE; [|discriminate|discriminate];
      destruct (Z.eqb_spec (slots s (ekey s w) t) 0); auto).
  - (* P4 *) destruct E as [OW SZ].
    assert (X : Inv O (set_thread t (TlsModel.ET (o :: r) (P5 (hnext s)) lg) (new_obj t (var_of o) s))).
    { apply keep with s t; auto; try reflexivity; try (cbn; lia).
      - intros p Hp. cbn in *. rewrite upd_other by lia. apply I4. lia.
      - intros u U. cbn. now apply updn_other.
      - intros p x Hp _. cbn. rewrite upd_other; [assumption|]. intros ->. rewrite I4 in Hp by lia. discriminate.
      - intros -> v [X _] _. rewrite ET in X. discriminate.
      - exists done. cbn [set_thread ethreads new_obj]. rewrite updn_same. cbn [todo elog pc]. repeat split; auto; try (apply D; assumption).
        + intros v Vv. specialize (C v Vv). unfold slot_ok in *. cbn [set_thread new_obj slots ekey heap ethreads]. rewrite updn_same. rewrite ET in C. cbn [pc todo] in *. destruct C as [C|(C1 & C2 & C3)]; [left; exact C|right; split; [exact C1|]; split]. rewrite upd_other; [exact C2|]. intros EQ. rewrite EQ, I4 in C2 by lia. discriminate. destruct C3 as [C3|[C3 _]]; [left; exact C3|discriminate].
        + unfold pc_ok. cbn [set_thread ethreads new_obj slots ekey heap]. rewrite updn_same. cbn [todo pc]. rewrite RW. rewrite upd_same. auto. }
    destruct o as [w|w x| | |]; try discriminate; eexists _, O; (split; [reflexivity|]); split; auto.
  - (* P5 *) destruct E as (OW & SZ & PP & HP). pose proof (valid_O O s _ I OW) as VK.
    assert (X : Inv O (set_thread t (TlsModel.ET (o :: r) (P6 p) lg) (set_slot (ekey s (var_of o)) t p s))).
    { apply keep with s t; auto; try reflexivity; try (cbn; lia).
      - intros u U. cbn. now apply updn_other.
      - intros k u U. cbn. unfold upd. destruct (Z.eqb_spec k (ekey s (var_of o))) as [->|]; [|reflexivity]. now apply updn_other.
      - intros -> v [X _] _. rewrite ET in X. discriminate.
      - exists done. cbn [set_thread ethreads set_slot]. rewrite updn_same. cbn [todo elog pc]. repeat split; auto; try (apply D; assumption).
        + intros v Vv. specialize (C v Vv). unfold slot_ok in *. cbn [set_thread set_slot slots ekey heap ethreads]. rewrite updn_same. rewrite ET in C. cbn [pc todo] in *. destruct (Nat.eq_dec v (var_of o)) as [->|N].
          * rewrite upd_same, updn_same. right. destruct C as [(_ & C1 & C2)|(C1 & _)]; [|congruence]. split; [lia|]. rewrite C2. split; [exact HP|]. right. split; [reflexivity|]. exists o, r. auto.
          * rewrite upd_other by (intros EQ; apply N; auto). destruct C as [C|(C1 & C2 & C3)]; [left; exact C|right; split; [exact C1|]; split; [exact C2|]]. destruct C3 as [C3|[C3 _]]; [left; exact C3|discriminate].
        + unfold pc_ok. cbn [set_thread ethreads set_slot slots ekey heap]. rewrite updn_same. cbn [todo pc]. rewrite RW. rewrite upd_same, updn_same. repeat split; auto. lia. }
    destruct o as [w|w x| | |]; try discriminate; cbn [var_of] in *; rewrite VK; eexists _, O; (split; [reflexivity|]); split; auto.
  - (* P6 *) destruct E as (OW & SZ & PP). pose proof (C _ OW) as C0. unfold slot_ok in C0. rewrite SZ in C0. destruct C0 as [[? _]|(_ & HP & _)]; [congruence|].
    set (nv := match o with Wr _ y => Some y | _ => lastw t (var_of o) done end).
    set (rs := match o with Wr _ _ => RUnit | _ => RVal (lastw t (var_of o) done) end).
    set (s1 := match o with Wr _ y => set_obj p (EObj t (var_of o) (Some y) true) s | _ => s end).
    assert (RUN : (let* r0 := eaccess o p s in let '(r0, s0) := r0 in Ok (set_thread t (TlsModel.ET r P0 (lg ++ [r0])) s0)) = Ok (set_thread t (TlsModel.ET r P0 (lg ++ [rs])) s1)).
    { unfold eaccess. rewrite HP. cbn [o_live negb o_thread o_var o_val]. subst rs s1. destruct o; try discriminate; reflexivity. }
    assert (H1 : heap s1 p = Some (EObj t (var_of o) nv true)). { subst s1 nv. destruct o; try discriminate; cbn [set_obj heap]; rewrite ?upd_same; auto. }
    assert (H2 : forall p', p' <> p -> heap s1 p' = heap s p'). { intros p' N. subst s1. destruct o; try discriminate; auto. cbn. now rewrite upd_other. }
    assert (H3 : eflag s1 = eflag s /\ ekey s1 = ekey s /\ nkeys s1 = nkeys s /\ kdel s1 = kdel s /\ hnext s1 = hnext s /\ slots s1 = slots s /\ ethreads s1 = ethreads s). { subst s1. destruct o; try discriminate; repeat split. }
    destruct H3 as (S1 & S2 & S3 & S4 & S5 & S6 & S7).
    assert (X : Inv O (set_thread t (TlsModel.ET r P0 (lg ++ [rs])) s1)).
    { apply keep with s t; auto; try (cbn; lia).
      - intros p' Hp. cbn in *. rewrite H2; [apply I4; lia|]. intros ->. rewrite I4 in HP by lia. discriminate.
      - intros u U. cbn. rewrite S7. now apply updn_other.
      - intros k u U. cbn. now rewrite S6.
      - intros p' o' Hp Ho. cbn. rewrite H2; [assumption|]. intros ->. rewrite HP in Hp. injection Hp as <-. cbn in Ho. congruence.
      - intros -> v [X _] _. rewrite ET in X. discriminate.
      - exists (done ++ [o]). cbn [set_thread ethreads]. rewrite S7, updn_same. cbn [todo elog pc]. repeat split.
        + rewrite A, <- app_assoc. reflexivity.
        + rewrite answers_app, <- B. cbn [app answers]. f_equal. f_equal. subst rs. destruct o; try discriminate; cbn [answer var_of]; [|reflexivity]. unfold lastw. now destruct (latest _ _ _).
        + intros v Vv. unfold slot_ok. cbn [set_thread slots ekey heap ethreads]. rewrite S2, S6. rewrite seen_snoc, RW. cbn [andb]. destruct (Nat.eq_dec v (var_of o)) as [->|N].
          * right. rewrite SZ, Nat.eqb_refl, orb_true_r. split; [exact PP|]. split; [|left; reflexivity]. rewrite H1. subst nv. do 2 f_equal. rewrite lastw_snoc. destruct o; try discriminate; auto. cbn [var_of]. now rewrite Nat.eqb_refl.
          * specialize (C v Vv). unfold slot_ok in C. rewrite ET in C. cbn [pc todo] in C. replace (var_of o =? v)%nat with false by (symmetry; apply Nat.eqb_neq; congruence). rewrite orb_false_r.
            replace (lastw t v (done ++ [o])) with (lastw t v done). 2:{ rewrite lastw_snoc. destruct o; auto. cbn [var_of] in N. destruct (Nat.eqb_spec v0 v); [congruence|auto]. }
            destruct C as [C|(C1 & C2 & C3)]; [left; exact C|right; split; [exact C1|]; split].
            -- rewrite H2; [exact C2|]. intros EQ. rewrite EQ, HP in C2. congruence.
            -- destruct C3 as [C3|[_ (o' & r' & Q1 & _ & Q2)]]; [left; exact C3|]. injection Q1 as <- <-. congruence.
        + rewrite seen_snoc. destruct (D v H) as [-> _]. cbn. rewrite RW. cbn. apply Nat.eqb_neq. intros EQ. rewrite EQ in OW. congruence.
        + destruct (D v H) as [_ Q]. rewrite lastw_snoc. destruct o; auto. cbn [var_of] in *. destruct (Nat.eqb_spec v0 v); [congruence|auto].
        + unfold pc_ok. cbn [set_thread ethreads]. rewrite S7, updn_same. cbn [todo pc]. destruct r as [|o' r']; [reflexivity|]. destruct (rw_op o'); [exact Logic.I|reflexivity]. }
    destruct o as [w|w x| | |]; try discriminate; rewrite RUN; eexists _, O; (split; [reflexivity|]); split; auto.
Qed.
End Emulated.

Lemma Inv_start prog k0 : 0 <= k0 -> Inv prog (fun _ => false) (estart k0 prog).
Proof.
  intros K. split; [exact K|]. split; [cbn; lia|]. split; [reflexivity|]. split; [reflexivity|]. split; [discriminate|]. split; [discriminate|]. split; [discriminate|].
  intros t. exists []. repeat split; try reflexivity. { discriminate. } unfold pc_ok. cbn. destruct (prog t) as [|o r]; [reflexivity|]. destruct (rw_op o); [exact I|reflexivity].
Qed.
Lemma seen_app v a b : seen v (a ++ b) = seen v a || seen v b.
Proof. unfold seen. apply existsb_app. Qed.
Section Phases.
Variables (prog : nat -> list top) (first rest : list top) (L : bool).
Hypotheses (H0 : prog 0%nat = first ++ rest) (H1 : forallb rw_op first = true) (H2 : forall t, forallb kept_op (prog t) = true)
  (H3 : forall t o, In o (prog t) -> seen (var_of o) first = true).
Lemma started O s : Inv prog O s -> (length first <= length (elog (ethreads s 0)))%nat -> forall v, seen v first = true -> O v = true.
Proof.
  intros I Le v S. destruct I as (_ & _ & _ & _ & _ & _ & _ & T). destruct (T 0%nat) as (done & A & B & _ & D & _). destruct (O v) eqn:OV; [reflexivity|]. destruct (D v OV) as [Q _]. exfalso.
  assert (E : done = first ++ skipn (length first) done).
  { rewrite B, answers_length in Le. rewrite H0 in A. assert (F : firstn (length first) (first ++ rest) = firstn (length first) (done ++ todo (ethreads s 0%nat))) by now rewrite A.
    rewrite firstn_app, Nat.sub_diag, firstn_all, firstn_O, app_nil_r in F. rewrite firstn_app in F. replace (length first - length done)%nat with 0%nat in F by lia. rewrite firstn_O, app_nil_r in F. rewrite F at 1. symmetry. apply firstn_skipn. }
  rewrite E, seen_app, S in Q. discriminate.
Qed.
Lemma solo_cond O s : Inv prog O s -> forall o r, todo (ethreads s 0) = o :: r -> kept_op o = true /\ (O (var_of o) = true \/ (0%nat = 0%nat /\ rw_op o = true)).
Proof.
  intros I o r E. assert (I' := I). destruct I' as (_ & _ & _ & _ & _ & _ & _ & T). destruct (T 0%nat) as (done & A & B & _ & D & _). rewrite E in A.
  assert (IN : In o (prog 0%nat)) by (rewrite A; apply in_elt). split. { pose proof (H2 0%nat) as Q. rewrite forallb_forall in Q. now apply Q. }
  destruct (le_lt_dec (length first) (length done)) as [Le|Lt].
  - left. apply (started O s I); [rewrite B, answers_length; exact Le|]. eapply H3; eauto.
  - right. split; [reflexivity|]. rewrite H0 in A. assert (X : nth_error (first ++ rest) (length done) = Some o). { rewrite A, nth_error_app2, Nat.sub_diag by lia. reflexivity. }
    rewrite nth_error_app1 in X by assumption. apply nth_error_In in X. rewrite forallb_forall in H1. now apply H1.
Qed.
Lemma solo n O s : Inv prog O s -> exists s' O', erun L (repeat 0%nat n) s = Ok s' /\ Inv prog O' s'.
Proof.
  revert O s. induction n as [|n IH]; intros O s I; [exists s, O; auto|]. cbn [repeat erun]. destruct (step prog L O s 0%nat I (solo_cond O s I) (H2 0%nat)) as (s1 & O1 & E & I1 & _). rewrite E. cbn [bind]. eapply IH; eauto.
Qed.
Lemma together ts O s : Inv prog O s -> (forall v, seen v first = true -> O v = true) -> exists s' O', erun L ts s = Ok s' /\ Inv prog O' s'.
Proof.
  revert O s. induction ts as [|t ts IH]; intros O s I V; [exists s, O; auto|]. cbn [erun].
  destruct (step prog L O s t I) as (s1 & O1 & E & I1 & M).
  - intros o r Q. assert (I' := I). destruct I' as (_ & _ & _ & _ & _ & _ & _ & T). destruct (T t) as (done & A & _). rewrite Q in A. assert (IN : In o (prog t)) by (rewrite A; apply in_elt). split.
    + pose proof (H2 t) as K. rewrite forallb_forall in K. now apply K.
    + left. apply V. eapply H3; eauto.
  - apply H2.
  - rewrite E. cbn [bind]. eapply IH; eauto.
Qed.
End Phases.
(** Thread 0 first uses every variable once ([first]) while the other threads wait; from then on, under every schedule, each thread
    gets from every variable what a private one gives (with indeterminate contents before the first write).  Missing from the
    full claim: first uses by several threads at a time, tests for emptiness before the first use, redirections, deletion (all refuted
    below). *)
Theorem emulated_private_partial prog first rest L k0 n ts : 0 <= k0 -> prog 0%nat = first ++ rest -> forallb rw_op first = true ->
  (forall t, forallb kept_op (prog t) = true) -> (forall t o, In o (prog t) -> seen (var_of o) first = true) ->
  exists s1, erun L (repeat 0%nat n) (estart k0 prog) = Ok s1 /\
    ((length first <= length (elog (ethreads s1 0%nat)))%nat ->
     exists s, erun L ts s1 = Ok s /\
       forall t, exists done, prog t = done ++ todo (ethreads s t) /\ elog (ethreads s t) = answers None t [] done).
Proof.
  intros K H0 H1 H2 H3. destruct (solo prog first rest L H0 H1 H2 H3 n _ _ (Inv_start prog k0 K)) as (s1 & O1 & E & I1). exists s1. split; [exact E|]. intros Le.
  destruct (together prog first L H2 H3 ts O1 s1 I1) as (s & O' & E' & I').
  - eapply started; eauto.
  - exists s. split; [exact E'|]. intros t. destruct I' as (_ & _ & _ & _ & _ & _ & _ & T). destruct (T t) as (done & A & B & _). exists done. auto.
Qed.
(** Fifteen steps of thread 0, then two threads interleaved. *)
Definition two (a b : list top) : nat -> list top := fun t => match t with 0%nat => a | 1%nat => b | _ => [] end.
Definition logs (o : out emu) : option (list tres * list tres) := match o with Ok s => Some (elog (ethreads s 0%nat), elog (ethreads s 1%nat)) | _ => None end.
Example emulated_case : logs (let* s := erun false (repeat 0%nat 15) (estart 3 (two [Wr 0 1; Rd 1; Rd 0; Emp 1] [Emp 0; Wr 0 5; Rd 0; Emp 0])) in erun false (concat (repeat [0; 1]%nat 12)) s)
  = Some ([RUnit; RVal None; RVal (Some 1); RBool false], [RBool true; RUnit; RVal (Some 5); RBool false]).
Proof. vm_compute. reflexivity. Qed.
(** Two threads use variable 1 for the first time together: thread 1 finds the flag set but no key yet, so it uses key 0, which is
    that of variable 0: its write to variable 1 changes variable 0. *)
Theorem emulated_race_refuted : exists ts, logs (erun false ts (estart 0 (two [Wr 0 1; Wr 1 2] [Wr 0 5; Wr 1 7; Rd 0]))) = Some ([RUnit], [RUnit; RUnit; RVal (Some 7)])
  /\ answers None 1 [] [Wr 0 5; Wr 1 7; Rd 0] = [RUnit; RUnit; RVal (Some 5)].
Proof. exists (repeat 0 7 ++ repeat 1 5 ++ [0; 0] ++ repeat 1 6)%nat. vm_compute. split; reflexivity. Qed.
(** The same race when key 0 belongs to somebody else: thread 1 stores its object there and loses it. *)
Theorem emulated_lost_refuted : exists ts, logs (erun false ts (estart 1 (two [Wr 0 1] [Wr 0 5; Rd 0]))) = Some ([RUnit], [RUnit; RVal None])
  /\ answers None 1 [] [Wr 0 5; Rd 0] = [RUnit; RVal (Some 5)].
Proof. exists ([0; 0] ++ repeat 1 5 ++ repeat 0 5 ++ repeat 1 5)%nat. vm_compute. split; reflexivity. Qed.
(** One thread: after variable 0 was used, the test whether variable 1 has been used (raii_init after ex_init) answers yes and
    yields the object of variable 0; as the first call of the program the test uses a key that does not exist. *)
Theorem emulated_empty_refuted : exists ts, logs (erun false ts (estart 0 (two [Wr 0 5; Emp 1] []))) = Some ([RUnit; RBool false], [])
  /\ answers None 0 [] [Wr 0 5; Emp 1] = [RUnit; RBool true].
Proof. exists (repeat 0 8)%nat. vm_compute. split; reflexivity. Qed.
Theorem emulated_first_refuted : exists ts, erun false ts (estart 0 (two [Emp 0] [])) = Undef WildPointer.
Proof. exists [0%nat]. vm_compute. reflexivity. Qed.
(** Leaving the program inside a try block (ex_update has stored the address of the local context): except_del passes that address to free. *)
Theorem emulated_exit_refuted : exists ts, erun false ts (estart 0 (two [Wr 0 5; Upd 0 9; Del 0] [])) = Undef WildPointer.
Proof. exists (repeat 0 9)%nat. vm_compute. reflexivity. Qed.
(** The first read: zero in the native build, indeterminate in this one. *)
Theorem emulated_initial_refuted : exists ts, logs (erun false ts (estart 0 (two [Rd 0] []))) = Some ([RVal None], []) /\ nrun [(0%nat, Rd 0)] nstart = [(0%nat, RVal (Some 0))].
Proof. exists (repeat 0 7)%nat. vm_compute. split; reflexivity. Qed.

(** v_del by one thread: its own object is released, and only that one; the key is gone for every thread. *)
Theorem emulated_delete : forall L t v rest s o, let k := ekey s v in let p := slots s k t in
  todo (ethreads s t) = Del v :: rest -> eflag s v = true -> valid_key k s = true -> 0 < p -> heap s p = Some o -> o_live o = true ->
  exists s', estep L t s = Ok s' /\ todo (ethreads s' t) = rest /\ (forall u, u <> t -> ethreads s' u = ethreads s u) /\
    (forall j, valid_key j s' = true <-> valid_key j s = true /\ j <> k) /\ valid_key (ekey s' v) s' = false /\ (forall w, w <> v -> ekey s' w = ekey s w) /\
    (forall w, eflag s' w = true <-> eflag s w = true /\ w <> v) /\
    (exists o', heap s' p = Some o' /\ o_live o' = false) /\ (forall q, q <> p -> heap s' q = heap s q).
Proof.
  intros L t v rest s o k p E F V P H A. unfold estep. rewrite E, F. unfold tss_get. change (valid_key (ekey (set_flag v false s) v) (set_flag v false s)) with (valid_key k s). rewrite V. cbn [bind].
  change (slots (set_flag v false s) (ekey (set_flag v false s) v) t) with p. unfold efree. replace (p =? 0) with false by lia. replace (p <? 0) with false by lia.
  change (heap (set_flag v false s) p) with (heap s p). rewrite H, A. cbn [bind]. eexists. split; [reflexivity|].
  unfold valid_key in *. apply andb_prop in V as [V Vd]. apply andb_prop in V as [V0 V1].
  cbn [set_thread del_key set_obj set_flag todo ethreads ekey eflag heap nkeys kdel]. unfold updn at 1. rewrite Nat.eqb_refl. cbn [todo].
  split; [reflexivity|]. split; [intros u Hu; unfold updn; apply Nat.eqb_neq in Hu; rewrite Hu; reflexivity|].
  split. { intros j. unfold upd. fold k. destruct (Z.eqb_spec j k) as [-> |N]; [rewrite andb_false_r; split; [discriminate|intros [_ X]; contradiction]|]. split; [auto|intros [X _]; exact X]. }
  split. { unfold updn. rewrite Nat.eqb_refl. reflexivity. }
  split. { intros w Hw. unfold updn. apply Nat.eqb_neq in Hw. rewrite Hw. reflexivity. }
  split. { intros w. unfold updn. destruct (Nat.eqb_spec w v) as [-> |N]; [split; [discriminate|intros [_ X]; contradiction]|]. split; [auto|intros [X _]; exact X]. }
  split. { eexists. rewrite upd_same. split; reflexivity. }
  intros q Hq. apply upd_other. exact Hq.
Qed.
(** Two threads have used variable 0; thread 0 deletes it. *)
Example emulated_delete_met : match erun false (repeat 0 7 ++ repeat 1 6)%nat (estart 0 (two [Wr 0 5; Del 0] [Wr 0 7])) with
  Ok s => andb (eflag s 0%nat) (valid_key (ekey s 0%nat) s) = true /\ slots s 0 0%nat = 1 /\ heap s 1 = Some (EObj 0 0 (Some 5) true) | _ => False end.
Proof. vm_compute. repeat split. Qed.
(** v_update: the thread that stored the address of a local object reads that object next, and no other thread's object changes. *)
Theorem emulated_update : forall L t v x rest s, let k := ekey s v in
  todo (ethreads s t) = Upd v x :: Rd v :: rest -> eflag s v = true -> valid_key k s = true -> 0 < hnext s ->
  exists s', erun L [t; t; t; t] s = Ok s' /\ todo (ethreads s' t) = rest /\ elog (ethreads s' t) = elog (ethreads s t) ++ [RUnit; RVal (Some x)] /\
    (forall u, u <> t -> ethreads s' u = ethreads s u /\ slots s' k u = slots s k u) /\ (forall q, 0 <= q -> heap s' q = heap s q) /\ slots s' k t < 0.
Proof.
  intros L t v x rest s k E F V Hn. cbn [erun]. unfold estep at 1. rewrite E. fold k. rewrite V. cbn [bind].
  set (s1 := set_thread t _ _). assert (T1 : ethreads s1 t = ET (Rd v :: rest) P0 (elog (ethreads s t) ++ [RUnit])) by (unfold s1; cbn [set_thread ethreads]; unfold updn; rewrite Nat.eqb_refl; reflexivity).
  unfold estep at 1. rewrite T1. cbn [todo pc elog]. change (eflag s1 v) with (eflag s v). rewrite F. cbn [bind].
  set (s2 := set_thread t _ s1). assert (T2 : ethreads s2 t = ET (Rd v :: rest) P3 (elog (ethreads s t) ++ [RUnit])) by (unfold s2; cbn [set_thread ethreads]; unfold updn; rewrite Nat.eqb_refl; reflexivity).
  unfold estep at 1. rewrite T2. cbn [todo pc elog]. unfold tss_get. change (valid_key (ekey s2 v) s2) with (valid_key k s). rewrite V. cbn [bind].
  assert (S2 : slots s2 (ekey s2 v) t = - hnext s) by (change (ekey s2 v) with k; unfold s2, s1; cbn [set_thread set_slot slots]; rewrite upd_same; unfold updn; rewrite Nat.eqb_refl; reflexivity).
  rewrite S2. replace (- hnext s =? 0) with false by lia.
  set (s3 := set_thread t _ s2). assert (T3 : ethreads s3 t = ET (Rd v :: rest) (P6 (- hnext s)) (elog (ethreads s t) ++ [RUnit])) by (unfold s3; cbn [set_thread ethreads]; unfold updn; rewrite Nat.eqb_refl; reflexivity).
  unfold estep at 1. rewrite T3. cbn [todo pc elog]. unfold eaccess. assert (H3 : heap s3 (- hnext s) = Some (EObj t v (Some x) true)) by (unfold s3, s2, s1; cbn [set_thread set_slot new_local heap]; apply upd_same).
  rewrite H3. cbn [o_live negb bind o_val]. eexists. split; [reflexivity|].
  cbn [set_thread ethreads slots heap]. unfold updn at 1 2. rewrite Nat.eqb_refl. cbn [todo elog]. split; [reflexivity|]. split; [rewrite <- app_assoc; reflexivity|].
  split. { intros u Hu. apply Nat.eqb_neq in Hu. unfold s3, s2, s1. cbn [set_thread set_slot new_local ethreads slots]. unfold updn. rewrite Hu. split; [reflexivity|]. rewrite upd_same, Hu. reflexivity. }
  split. { intros q Hq. unfold s3, s2, s1. cbn [set_thread set_slot new_local heap]. apply upd_other. lia. }
  change (ekey s2 v) with k in S2. unfold s3. cbn [set_thread slots]. rewrite S2. lia.
Qed.
Example emulated_update_met : match erun false (repeat 0 7)%nat (estart 0 (two [Wr 0 5; Upd 0 9; Rd 0] [])) with
  Ok s => exists s', erun false [0; 0; 0; 0]%nat s = Ok s' /\ elog (ethreads s' 0%nat) = [RUnit; RUnit; RVal (Some 9)] | _ => False end.
Proof. vm_compute. eexists. split; reflexivity. Qed.
(** After a deletion, the test whether a variable has been used is undefined for every variable that holds that key: the other one that was never used. *)
Theorem emulated_deleted_refuted : exists ts, erun false ts (estart 0 (two [Wr 0 5; Del 0; Emp 1] [])) = Undef WildPointer /\ answers None 0 [] [Wr 0 5; Del 0; Emp 1] = [RUnit; RUnit; RBool true].
Proof. exists (repeat 0 9)%nat. vm_compute. split; reflexivity. Qed.

(** ** C75: throwing in the emulated build *)
Definition exits (thr : Z -> Z -> est -> out (res * est)) : Prop := forall ex pm st r st', thr ex pm st = Ok (r, st') -> exists e p, r = RExit e p.
Definition kept (st : est) (m : out (res * est)) : Prop := forall r st', m = Ok (r, st') -> (r = RNorm /\ cur st' = cur st) \/ exists e p, r = RExit e p.
Lemma kept_andthen st m k : kept st m -> (forall st', cur st' = cur st -> kept st' (k st')) -> kept st (andthen m k).
Proof.
  intros H K r st' E. unfold andthen in E. destruct m as [[r1 s1]| | |]; try discriminate. destruct (H r1 s1 eq_refl) as [[-> C]|(e & p & ->)].
  - destruct (K s1 C r st' E) as [[A B]|X]; [left; split; [exact A|congruence]|right; exact X].
  - injection E as <- <-. right. eauto.
Qed.
Lemma is_caught_cur sc n st : cur (snd (is_caught sc n st)) = cur st.
Proof. unfold is_caught. cbn [snd]. destruct (negb _ && _); reflexivity. Qed.
Lemma kept_entry thr e st : exits thr -> kept st (run_entry thr e st).
Proof.
  intros X r st' E. unfold run_entry in E. destruct (e_kind e) as [f|]; [|injection E as <- <-; left; auto].
  destruct (d_recover f) as [n|].
  - destruct (arena _ =? 0); [discriminate|]. cbn [bind] in E. pose proof (is_caught_cur (arena (emit (EDefer (d_act f) (e_data e)) st)) n (emit (EDefer (d_act f) (e_data e)) st)) as C. destruct (is_caught _ n _) as [b s1]. cbn [snd] in C.
    destruct (d_throw f) as [x|]; [right; eapply X; eauto|]. injection E as <- <-. left. split; [reflexivity|]. destruct b; exact C.
  - cbn [bind] in E. destruct (d_throw f) as [x|]; [right; eapply X; eauto|]. injection E as <- <-. left. auto.
Qed.
Lemma kept_entries thr sc todo : exits thr -> forall ran st, kept st (run_entries thr sc ran todo st).
Proof.
  intros X. induction todo as [|e l IH]; intros ran st. { intros r st' E. injection E as <- <-. left. auto. }
  cbn [run_entries]. set (s0 := if _ && _ then _ else st). assert (C : cur s0 = cur st) by (subst s0; destruct (_ && _); reflexivity).
  intros r st' E. match type of E with andthen ?m ?k = _ => destruct (kept_andthen s0 m k (kept_entry thr e s0 X)) with (2 := E) as [[A B]|Q] end; [|left; split; [exact A|congruence]|right; exact Q].
  intros s1 C1 r1 s1' E1. destruct (IH _ _ _ _ E1) as [[A B]|Q]; [left; split; [exact A|rewrite B; reflexivity]|right; exact Q].
Qed.
Lemma release_cur n st st' : release n st = Ok st' -> cur st' = cur st.
Proof. unfold release. destruct (n_free n); [destruct (n_val n =? 0); [|discriminate]|]; intros E; injection E as <-; reflexivity. Qed.
Lemma settle_cur sc b st st' : settle_protector sc b st = Ok st' -> cur st' = cur st.
Proof.
  unfold settle_protector. destruct (_ && _); [|intros E; injection E as <-; reflexivity]. destruct b; [intros E; injection E as <-; reflexivity|].
  destruct (release _ _) as [s1| | |] eqn:E1; cbn [bind]; try discriminate. intros E. injection E as <-. apply release_cur in E1. exact E1.
Qed.
Lemma drop_cur sc st : cur (drop_protector sc st) = cur st.
Proof. unfold drop_protector. destruct (_ =? 0); [reflexivity|]. destruct (n_ok _); reflexivity. Qed.
Lemma kept_free thr sc st : exits thr -> kept st (deferred_free thr sc st).
Proof.
  intros X. unfold deferred_free. destruct (negb (s_live _)); [intros ? ?; discriminate|]. destruct (negb (s_arr _)); [intros r st' E; injection E as <- <-; left; auto|].
  set (s0 := with_scope sc _ st). intros r st' E. match type of E with andthen ?m ?k = _ => destruct (kept_andthen s0 m k (kept_entries thr sc _ X [] s0)) with (2 := E) as [[A B]|Q] end; [|left; auto|right; exact Q].
  intros s1 C1 r1 s2 E1. destruct (settle_protector _ _ s1) as [s3| | |] eqn:E3; cbn [bind] in E1; try discriminate. injection E1 as <- <-. left. split; [reflexivity|]. cbn [with_scope set_scopes cur]. rewrite drop_cur. now apply settle_cur in E3.
Qed.
Lemma unwind_ptrs_cur fuel : forall p temp st st', unwind_ptrs fuel p temp st = Ok st' -> cur st' = cur st.
Proof.
  induction fuel as [|f IH]; intros p temp st st'; cbn [unwind_ptrs]; [discriminate|]. destruct (p =? 0); [intros E; injection E as <-; reflexivity|]. destruct (negb (n_live _)); [discriminate|]. destruct (negb (n_ok _)); [intros E; injection E as <-; reflexivity|].
  destruct (temp =? _); [intros E; injection E as <-; reflexivity|]. destruct (n_val (nodes st p) =? 0); cbn [bind]; [apply IH|].
  destruct (release _ _) as [s1| | |] eqn:E1; cbn [bind]; try discriminate. intros E. apply IH in E. apply release_cur in E1. rewrite E, E1. reflexivity.
Qed.
Lemma kept_unwind fuel thr id st : exits thr -> kept st (unwind fuel thr id st).
Proof.
  intros X. unfold unwind. set (s0 := with_ctx id _ st). intros r st' E.
  match type of E with andthen ?m ?k = _ => destruct (kept_andthen s0 m k) with (3 := E) as [[A B]|Q] end; [| |left; auto|right; exact Q].
  - destruct (_ && hook_unwind _); [now apply kept_free|]. destruct (_ && _ && _); [now apply kept_free|]. intros r1 s1 E1. destruct (unwind_ptrs _ _ _ _) as [s2| | |] eqn:E2; cbn [bind] in E1; try discriminate. injection E1 as <- <-. left. split; [reflexivity|]. now apply unwind_ptrs_cur in E2.
  - intros s1 C r1 s2 E1. injection E1 as <- <-. left. auto.
Qed.
Lemma setup_cur id ex pm st st' : setup id ex pm st = Ok st' -> cur st' = cur st.
Proof.
  unfold setup. destruct (hook_set st); [destruct (arena st =? 0); [discriminate|]; intros E; injection E as <-; reflexivity|]. destruct (c_raii _); intros E; injection E as <-; [|reflexivity]. cbn. unfold raii_init. destruct (ready st); reflexivity.
Qed.
(** In the emulated build no throw ever reaches a handler: whatever the state (any number of enclosing try blocks and guards), if
    ex_throw ends at all it ends the program. *)
Theorem emulated_throw_exits fuel : exits (ex_throw_emulated fuel).
Proof.
  induction fuel as [|f IH]; intros ex pm st r st' E; cbn [ex_throw_emulated] in E; [discriminate|].
  destruct (c_unstack _); [injection E as <- <-; eauto|].
  destruct (setup _ _ _ _) as [s1| | |] eqn:E1; cbn [bind] in E; try discriminate. apply setup_cur in E1. cbn in E1.
  unfold andthen in E. destruct (unwind (S f) _ _ s1) as [[r1 s2]| | |] eqn:E2; try discriminate.
  destruct (kept_unwind _ _ _ _ IH _ _ E2) as [[-> C]|(e & p & ->)].
  - rewrite C, E1, Z.eqb_refl in E. injection E as <- <-. eauto.
  - injection E as <- <-. eauto.
Qed.
(** A try block in main with a throw in it: the native build jumps to the block's handler, the emulated one exits. *)
Theorem emulated_throw_refuted : exists st id, cur st = id /\ id <> root
  /\ (exists st', ex_throw 5 7 0 st = Ok (RJump id 1, st')) /\ (exists st', ex_throw_emulated 5 7 0 st = Ok (RExit 7 0, st')).
Proof. exists (snd (new_ctx (start (fun _ => 0)))), 2. split; [reflexivity|]. split; [discriminate|]. split; eexists; vm_compute; reflexivity. Qed.

(** * The theorems above on concrete values: their hypotheses can be met. *)
Example emulated_private_partial_met := emulated_private_partial (two [Wr 0 1; Rd 1; Rd 0; Emp 1] [Emp 0; Wr 0 5; Rd 0; Emp 0]) [Wr 0 1; Rd 1] [Rd 0; Emp 1] false 3 15 (concat (repeat [0; 1]%nat 12))
  ltac:(lia) eq_refl eq_refl ltac:(intros [|[|t]]; reflexivity) ltac:(intros [|[|t]] o; cbn; intuition (subst; reflexivity)).

Print Assumptions native_isolated.
Print Assumptions native_private.
Print Assumptions native_plain_refuted.
Print Assumptions emulated_private_partial.
Print Assumptions emulated_race_refuted.
Print Assumptions emulated_lost_refuted.
Print Assumptions emulated_empty_refuted.
Print Assumptions emulated_first_refuted.
Print Assumptions emulated_exit_refuted.
Print Assumptions emulated_initial_refuted.
Print Assumptions emulated_throw_exits.
Print Assumptions emulated_throw_refuted.

Print Assumptions native_plain_exact.
Print Assumptions emulated_delete.
Print Assumptions emulated_deleted_refuted.

Print Assumptions emulated_update.
