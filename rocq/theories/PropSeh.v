(** The exceptions of the Windows build. *)
From Verif Require Import BaseLemmas SehModel.
Import ListNotations.

(** A registration: of a code or of a signal, with its name. *)
Inductive reg := Code (code ex : Z) | Sig (sig ex : Z).
(** What is registered. *)
Definition key (r : reg) : bool * Z := match r with Code c _ => (true, c) | Sig s _ => (false, s) end.
Definition reg_name (r : reg) : Z := match r with Code _ e => e | Sig _ e => e end.
(** The registrations use no NULL and no number 0. *)
Definition good_reg (r : reg) : Prop := snd (key r) <> 0 /\ reg_name r <> 0.
(** The last name registered for a key. *)
Fixpoint last_name (k : bool * Z) (l : list reg) : option Z :=
  match l with
  | [] => None
  | r :: l => match last_name k l with Some e => Some e | None => if (Bool.eqb (fst k) (fst (key r))) && (snd k =? snd (key r)) then Some (reg_name r) else None end
  end.
(** The table after registrations. *)
Definition register (t : list wslot) (r : reg) : list wslot := match r with Code c e => ex_signal_seh c e t | Sig s e => ex_signal_win s e t end.
Definition slot_of (r : reg) : wslot := match r with Code c e => WSlot e 0 c | Sig s e => WSlot e s 0 end.
Fixpoint upd (r : reg) (al : list reg) : list reg := match al with [] => [r] | a :: al => if (Bool.eqb (fst (key r)) (fst (key a))) && (snd (key r) =? snd (key a)) then r :: al else a :: upd r al end.
Lemma key_dec (a b : reg) : (Bool.eqb (fst (key a)) (fst (key b))) && (snd (key a) =? snd (key b)) = true <-> key a = key b.
Proof. rewrite andb_true_iff, Bool.eqb_true_iff, Z.eqb_eq. destruct (key a), (key b); cbn. split; [intros (-> & ->); reflexivity|intros [= -> ->]; auto]. Qed.
Lemma store_upd r : good_reg r -> forall al n, Forall good_reg al -> (In (key r) (map key al) \/ (0 < n)%nat) ->
  register (map slot_of al ++ repeat empty_slot n) r = map slot_of (upd r al) ++ repeat empty_slot (if existsb (fun a => (Bool.eqb (fst (key r)) (fst (key a))) && (snd (key r) =? snd (key a))) al then n else n - 1).
Proof.
  intros (K0 & N0) al. induction al as [|a al IH]; intros n G H.
  - cbn [map app existsb upd]. destruct H as [[]|H]. destruct n as [|n]; [lia|]. cbn [repeat]. replace (S n - 1)%nat with n by lia. destruct r as [c e|s e]; cbn [register]; unfold ex_signal_seh, ex_signal_win; cbn; reflexivity.
  - inversion G as [|? ? (Ka & Na) Gt]; subst. assert (E : register (map slot_of (a :: al) ++ repeat empty_slot n) r = if (Bool.eqb (fst (key r)) (fst (key a))) && (snd (key r) =? snd (key a)) then slot_of r :: map slot_of al ++ repeat empty_slot n else slot_of a :: register (map slot_of al ++ repeat empty_slot n) r).
    { destruct r as [c e|s e], a as [c2 e2|s2 e2]; cbn [key fst snd reg_name] in *; cbn [register map app slot_of]; unfold ex_signal_seh, ex_signal_win; cbn [store w_ex w_sig w_seh Bool.eqb andb];
      (rewrite (proj2 (Z.eqb_neq e2 0)) by assumption); cbn [orb].
      - rewrite (Z.eqb_sym c2). destruct (c =? c2); reflexivity.
      - rewrite (proj2 (Z.eqb_neq 0 c)) by congruence. reflexivity.
      - rewrite (proj2 (Z.eqb_neq 0 s)) by congruence. reflexivity.
      - rewrite (Z.eqb_sym s2). destruct (s =? s2); reflexivity. }
    rewrite E. cbn [upd existsb]. destruct ((Bool.eqb (fst (key r)) (fst (key a))) && (snd (key r) =? snd (key a))) eqn:Q; cbn [orb map app]; [reflexivity|]. f_equal. apply IH; [exact Gt|]. destruct H as [[H|H]|H]; [|left; exact H|right; exact H].
    symmetry in H. apply key_dec in H. congruence.
Qed.
Lemma find_app {A} (f : A -> bool) l1 l2 : find f (l1 ++ l2) = match find f l1 with Some x => Some x | None => find f l2 end.
Proof. induction l1 as [|a l1 IH]; [reflexivity|]. cbn. destruct (f a); auto. Qed.
(** The name of a key in the representation. *)
Fixpoint assoc (k : bool * Z) (al : list reg) : option Z := match al with [] => None | a :: al => if (Bool.eqb (fst k) (fst (key a))) && (snd k =? snd (key a)) then Some (reg_name a) else assoc k al end.
Lemma look_rep (k : bool * Z) al n : snd k <> 0 -> (if fst k then seh_name (snd k) else sig_name (snd k)) (map slot_of al ++ repeat empty_slot n) = assoc k al.
Proof.
  intros K. destruct k as [b z]. cbn [fst snd] in *. assert (R : forall f : wslot -> bool, f empty_slot = false -> find f (repeat empty_slot n) = None) by (intros f F; induction n as [|m IHm]; [reflexivity|]; cbn; rewrite F; exact IHm).
  induction al as [|a al IH].
  - cbn [map app assoc]. destruct b; unfold seh_name, sig_name; rewrite R; try reflexivity; cbn [empty_slot w_seh w_sig]; apply Z.eqb_neq; congruence.
  - cbn [map app assoc fst snd]. rewrite <- IH. destruct b, a as [c e|s e]; unfold seh_name, sig_name; cbn [find slot_of w_seh w_sig key fst snd Bool.eqb andb reg_name].
    + rewrite (Z.eqb_sym c). destruct (z =? c); reflexivity.
    + rewrite (proj2 (Z.eqb_neq 0 z)) by congruence. reflexivity.
    + rewrite (proj2 (Z.eqb_neq 0 z)) by congruence. reflexivity.
    + rewrite (Z.eqb_sym s). destruct (z =? s); reflexivity.
Qed.
Lemma assoc_upd k r al : assoc k (upd r al) = if (Bool.eqb (fst k) (fst (key r))) && (snd k =? snd (key r)) then Some (reg_name r) else assoc k al.
Proof.
  induction al as [|a al IH]; [reflexivity|]. cbn [upd]. destruct ((Bool.eqb (fst (key r)) (fst (key a))) && (snd (key r) =? snd (key a))) eqn:Q; cbn [assoc].
  - apply key_dec in Q. rewrite Q. destruct (Bool.eqb (fst k) (fst (key a)) && (snd k =? snd (key a))); reflexivity.
  - rewrite IH. destruct ((Bool.eqb (fst k) (fst (key a))) && (snd k =? snd (key a))) eqn:Q2; [|reflexivity]. destruct ((Bool.eqb (fst k) (fst (key r))) && (snd k =? snd (key r))) eqn:Q3; [|reflexivity].
    exfalso. rewrite andb_true_iff, Bool.eqb_true_iff, Z.eqb_eq in Q2, Q3. destruct Q2 as (A & B), Q3 as (C & D). rewrite <- A, <- B, <- C, <- D in Q. rewrite Bool.eqb_reflx, Z.eqb_refl in Q. discriminate Q.
Qed.
Lemma upd_keys r al : map key (upd r al) = if existsb (fun a => (Bool.eqb (fst (key r)) (fst (key a))) && (snd (key r) =? snd (key a))) al then map key al else map key al ++ [key r].
Proof.
  induction al as [|a al IH]; [reflexivity|]. cbn [upd existsb]. destruct ((Bool.eqb (fst (key r)) (fst (key a))) && (snd (key r) =? snd (key a))) eqn:Q; cbn [map orb]; [apply key_dec in Q; rewrite Q; reflexivity|]. rewrite IH. destruct (existsb _ al); reflexivity.
Qed.
Lemma upd_good r al : good_reg r -> Forall good_reg al -> Forall good_reg (upd r al).
Proof. intros R. induction 1 as [|a al A F IH]; [constructor; [exact R|constructor]|]. cbn [upd]. destruct (_ && _); constructor; assumption. Qed.
Lemma existsb_key r al : existsb (fun a => (Bool.eqb (fst (key r)) (fst (key a))) && (snd (key r) =? snd (key a))) al = true <-> In (key r) (map key al).
Proof.
  induction al as [|a al IH]; cbn; [split; [discriminate|tauto]|]. rewrite orb_true_iff, IH. rewrite key_dec. split; (intros [H|H]; [left; congruence|right; exact H]).
Qed.
(** C137: however codes and signals are registered, up to 32 different ones, each is found under the name registered last. *)
Theorem seh_registry : forall l keys, Forall good_reg l -> incl (map key l) keys -> (length keys <= 32)%nat -> forall k : bool * Z, snd k <> 0 ->
  (if fst k then seh_name (snd k) else sig_name (snd k)) (fold_left register l empty_table) = last_name k l.
Proof.
  intros l keys G I L.
  assert (S : forall l al n, Forall good_reg l -> Forall good_reg al -> NoDup (map key al) -> incl (map key al) keys -> incl (map key l) keys -> (length al + n = 32)%nat ->
    exists al' n', fold_left register l (map slot_of al ++ repeat empty_slot n) = map slot_of al' ++ repeat empty_slot n' /\ forall k, assoc k al' = match last_name k l with Some e => Some e | None => assoc k al end).
  { clear l G I. induction l as [|r l IH]; intros al n G Ga Nd Ia Il Ln; [exists al, n; split; reflexivity|]. inversion G as [|? ? Gr Gl]; subst. cbn [fold_left].
    assert (H : In (key r) (map key al) \/ (0 < n)%nat).
    { destruct (existsb (fun a => (Bool.eqb (fst (key r)) (fst (key a))) && (snd (key r) =? snd (key a))) al) eqn:Q; [left; apply existsb_key; exact Q|]. right. assert (~ In (key r) (map key al)) by (intros C; apply existsb_key in C; congruence).
      assert (B : (length (key r :: map key al) <= length keys)%nat). { apply NoDup_incl_length; [constructor; assumption|]. intros x [<-|X]; [apply Il; left; reflexivity|apply Ia; exact X]. }
      cbn [length] in B. rewrite map_length in B. lia. }
    rewrite store_upd by assumption. set (n' := if existsb _ al then n else (n - 1)%nat). pose proof (upd_keys r al) as UK. destruct (IH (upd r al) n') as (al' & m & E & A).
    - exact Gl.
    - apply upd_good; assumption.
    - rewrite UK. destruct (existsb _ al) eqn:Q; [exact Nd|]. apply NoDup_rev in Nd. rewrite <- (rev_involutive (map key al ++ [key r])). apply NoDup_rev. rewrite rev_app_distr. cbn. constructor; [|exact Nd]. rewrite <- in_rev. intros C. apply existsb_key in C. congruence.
    - rewrite UK. destruct (existsb _ al); [exact Ia|]. apply incl_app; [exact Ia|]. intros x [<-|[]]. apply Il. left. reflexivity.
    - intros x X. apply Il. right. exact X.
    - rewrite <- (map_length key), UK. subst n'. destruct (existsb _ al) eqn:Q; [rewrite map_length; exact Ln|]. rewrite app_length, map_length. cbn [length]. destruct H as [H|H]; [apply existsb_key in H; congruence|lia].
    - exists al', m. split; [exact E|]. intros k. rewrite A. cbn [last_name]. destruct (last_name k l); [reflexivity|]. rewrite assoc_upd. destruct (Bool.eqb (fst k) (fst (key r)) && (snd k =? snd (key r))); reflexivity. }
  intros k K. destruct (S l [] 32%nat G) as (al & n & E & A); [constructor|constructor|intros x []|exact I|reflexivity|]. cbn [map app] in E. unfold empty_table. rewrite E, look_rep by exact K. rewrite A. cbn [assoc]. destruct (last_name k l); reflexivity.
Qed.
(** The registrations of ex_signal_setup and one more meet the hypotheses. *)
Example seh_registry_holds : seh_name 3221225477 (fold_left register (map (fun d => Code (fst d) (snd d)) default_codes ++ map (fun d => Sig (fst d) (snd d)) default_signals ++ [Code 3221225477 77]) empty_table) = Some 77.
Proof.
  set (l := _ ++ _ ++ _). assert (G : Forall good_reg l) by (subst l; repeat (constructor; [split; discriminate|]); constructor).
  pose proof (seh_registry l (map key l) G (incl_refl _) ltac:(vm_compute; lia) (true, 3221225477) ltac:(discriminate)) as R. cbn [fst snd] in R. rewrite R. reflexivity.
Qed.
(** A 33rd code is not found: it is dropped with a message. *)
Example seh_registry_full : seh_name 33 (fold_left register (map (fun i => Code (Z.of_nat i) 5) (seq 1 33)) empty_table) = None.
Proof. reflexivity. Qed.

(** What structured exceptions should do: an exception is a name; a handler takes the names it is for, others pass on after the finally block; rethrow() throws the name being
    handled, and so does a throw in a handler with its own.  The handler of ex_catch_if is for every exception, which passes on after it.  Places are left out. *)
Inductive result := Ends | Throws (x : Z).
Definition takes (k : catcher) (x : Z) : bool := match k with Catch e => e =? x | CatchAny | CatchIf => true end.
Fixpoint ref (names : Z -> Z) (cur : Z) (s : stm) : result * list event :=
  match s with
  | Skip => (Ends, [])
  | Emit n => (Ends, [Did n])
  | Throw x _ => (Throws x, [])
  | Fault code => (Throws (names code), [])
  | Rethrow => (Throws cur, [])
  | Then a b => match ref names cur a with (Ends, e1) => let '(r, e2) := ref names cur b in (r, e1 ++ e2) | other => other end
  | Try _ b k h fin =>
      match ref names cur b with
      | (Ends, e) => (Ends, e ++ [Finally fin])
      | (Throws x, e) =>
          if takes k x then let '(r, e2) := ref names x h in (match k, r with CatchIf, Ends => Throws x | _, r => r end, e ++ Handling x 0 :: e2 ++ [Finally fin])
          else (Throws x, e ++ [Finally fin])
      end
  end.
(** The events without places. *)
Definition no_place (e : event) : event := match e with Handling x _ => Handling x 0 | e => e end.
(** Where a statement stands: outside of handlers, in a handler of ex_catch, in one of ex_catch_any or ex_catch_if. *)
Inductive where_ := Outside | InCatch | InAny.
(** The programs without the cases in which the Windows blocks differ: no faults; every exception that leaves a body is one its handler is for; rethrow() only in the handler of an
    ex_catch; no exception leaves a handler in another way; ex_catch(panic) is not used. *)
Fixpoint tame (names : Z -> Z) (cur : Z) (w : where_) (s : stm) : Prop :=
  match s with
  | Skip | Emit _ => True
  | Throw x _ => x <> 0 /\ w = Outside
  | Fault _ => False
  | Rethrow => w = InCatch
  | Then a b => tame names cur w a /\ tame names cur w b
  | Try _ b k h _ =>
      tame names cur Outside b /\ (forall e, k = Catch e -> e <> 0 /\ e <> panic_name) /\
      (forall x e, ref names cur b = (Throws x, e) -> takes k x = true /\ tame names x (match k with Catch _ => InCatch | CatchAny | CatchIf => InAny end) h) /\
      (w <> Outside -> forall x e, ref names cur s <> (Throws x, e))
  end.
(** The table knows the code of a throw before anything without a name. *)
Definition knows_panic (t : list wslot) : Prop := exists l1 s l2, t = l1 ++ s :: l2 /\ w_seh s = exception_panic /\ w_ex s <> 0 /\ Forall (fun s => w_ex s <> 0) l1.
Lemma default_knows : knows_panic default_table.
Proof. exists (firstn 8 default_table), (nth 8 default_table empty_slot), (skipn 9 default_table). split; [reflexivity|]. split; [reflexivity|]. split; [discriminate|]. repeat (constructor; [discriminate|]). constructor. Qed.
Lemma find_panic t f : knows_panic t -> (forall s, w_seh s = exception_panic -> f s = true) -> exists s, find f t = Some s /\ w_ex s <> 0.
Proof.
  intros (l1 & s & l2 & -> & S & N & F) H. induction F as [|a l1 A F IH]; cbn [app find].
  - rewrite (H s S). eauto.
  - destruct (f a); eauto.
Qed.
(** The filter of ex_catch(e) for a throw. *)
Lemma catch_hit t got e c : knows_panic t -> e <> 0 -> x_ex c <> 0 -> x_panic c <> 0 -> x_panic c = e \/ x_ex c = e ->
  exists m, m <> 0 /\ catch_seh t got e exception_panic c = (Execute, WCtx m (x_panic c) 0 (x_caught c) 1 true).
Proof.
  intros T E X P M. unfold catch_seh. rewrite (proj2 (Z.eqb_neq (x_panic c) 0)) by exact P. rewrite andb_false_r. rewrite (proj2 (Z.eqb_neq (x_ex c) 0)) by exact X. cbn [andb].
  assert (N : negb (name_eq (x_panic c) e) && negb (name_eq (x_ex c) e) = false).
  { unfold name_eq. rewrite (proj2 (Z.eqb_neq (x_panic c) 0)), (proj2 (Z.eqb_neq (x_ex c) 0)), (proj2 (Z.eqb_neq e 0)) by assumption. destruct M as [-> | ->]; rewrite Z.eqb_refl; cbn; [reflexivity|apply andb_false_r]. }
  rewrite N. unfold catch_loop. match goal with |- context [find ?f t] => destruct (find_panic t f T) as (s & F & W) end.
  - intros s S. rewrite S, Z.eqb_refl. cbn [orb]. reflexivity.
  - rewrite F. exists (w_ex s). split; [exact W|]. change (s32 exception_panic <? 0) with true. rewrite orb_true_r. reflexivity.
Qed.
Lemma catch_miss t got e code c : x_ex c <> 0 -> x_panic c <> e -> x_ex c <> e -> catch_seh t got e code c = (Execute, c).
Proof.
  intros X P M. assert (N1 : name_eq (x_ex c) e = false) by (unfold name_eq; rewrite (proj2 (Z.eqb_neq (x_ex c) e)) by exact M; apply andb_false_r). assert (N2 : name_eq (x_panic c) e = false) by (unfold name_eq; rewrite (proj2 (Z.eqb_neq (x_panic c) e)) by exact P; apply andb_false_r).
  unfold catch_seh. rewrite N1, N2. cbn [negb andb]. destruct (x_panic c =? 0); [reflexivity|]. rewrite (proj2 (Z.eqb_neq (x_ex c) 0)) by exact X. reflexivity.
Qed.
Lemma own_here c (fs : list wctx) : own (length fs) (c :: fs) = c :: fs.
Proof. unfold own. cbn [length]. rewrite Nat.sub_diag. reflexivity. Qed.

(** C137, the registrations of ex_signal_setup: the codes of winnt.h have different names, the signals of signal.h too; where a signal and a code say the same, they are thrown under the same name. *)
Theorem seh_defaults : let t := ex_signal_setup_win empty_table in
  exists segv bounds fpe zero ill overflow stack invalid panic int abrt brk term,
    NoDup [segv; bounds; fpe; zero; ill; overflow; stack; invalid; panic; int; abrt; brk; term] /\ panic = panic_name /\
    map (fun c => seh_name c t) [0xC0000005; 0xC000008C; 0xC000008E; 0xC0000094; 0xC000001D; 0xC0000095; 0xC00000FD; 0xC0000008; exception_panic; 0xC000013A] =
      map Some [segv; bounds; fpe; zero; ill; overflow; stack; invalid; panic; int] /\
    map (fun c => sig_name c t) [11; 22; 8; 4; 21; 2; 15] = map Some [segv; abrt; fpe; ill; brk; int; term].
Proof.
  cbv zeta. exists 2, 3, 4, 5, 6, 7, 8, 9, 1, 10, 11, 12, 13. split; [repeat (constructor; [cbn; intros H; repeat (destruct H as [H|H]; [discriminate H|]); exact H|]); constructor|]. split; [reflexivity|]. split; vm_compute; reflexivity.
Qed.

(** C138, when the filter of ex_catch(E) passes an exception on to the enclosing block: only when the panic text is E, the name is not, and neither the code nor the one caught
    last is in the table. (In every other case it asks for the handler.) *)
Theorem win_filter_search : forall t got e code c, t <> [] ->
  (fst (catch_seh t got e code c) = Search <->
   name_eq (x_panic c) e = true /\ name_eq (x_ex c) e = false /\ (x_ex c <> 0 \/ 0 <= s32 code) /\ forall s, In s t -> w_seh s <> code /\ w_seh s <> u32 (x_caught c)).
Proof.
  intros t got e code c T. unfold catch_seh.
  assert (PZ : name_eq (x_panic c) e = true -> x_panic c =? 0 = false) by (unfold name_eq; destruct (x_panic c =? 0); [discriminate|reflexivity]).
  assert (EZ : name_eq (x_ex c) e = true -> x_ex c =? 0 = false) by (unfold name_eq; destruct (x_ex c =? 0); [discriminate|reflexivity]).
  assert (LOOP : forall found, found = true \/ name_eq (x_ex c) e = true -> forall c', x_ex c' = x_ex c \/ found = true -> fst (catch_loop t got e code found c') <> Search).
  { intros found Y c' X. unfold catch_loop. destruct t as [|s0 t]; [destruct (T eq_refl)|]. cbn [find]. destruct Y as [->|Y]; [|destruct X as [->| ->]; [rewrite Y|]]; rewrite ?orb_true_r; cbn [orb]; destruct (got || _); discriminate. }
  destruct (name_eq (x_ex c) e) eqn:NE.
  - cbn [negb andb]. rewrite (EZ eq_refl). cbn [andb]. rewrite andb_false_r. split; [intros H; destruct (LOOP false (or_intror eq_refl) c (or_introl eq_refl) H)|intros (_ & H & _); discriminate H].
  - cbn [negb andb]. destruct (name_eq (x_panic c) e) eqn:NP; cbn [negb andb].
    + rewrite (PZ eq_refl). destruct ((x_ex c =? 0) && (s32 code <? 0)) eqn:Z.
      * split; [|intros (_ & _ & [H|H] & _); apply andb_true_iff in Z; lia]. destruct (find (fun s => w_seh s =? code) t); [|discriminate]. intros H. destruct (LOOP true (or_introl eq_refl) _ (or_intror eq_refl) H).
      * unfold catch_loop. rewrite NE. split.
        -- intros H. split; [reflexivity|]. split; [reflexivity|]. split; [apply andb_false_iff in Z; lia|]. match type of H with context [find ?f t] => destruct (find f t) eqn:F end; [destruct (got || _); discriminate H|].
           intros s S. pose proof (find_none _ _ F s S) as N. cbn [orb] in N. rewrite orb_false_r in N. apply orb_false_iff in N. lia.
        -- intros (_ & _ & _ & A). match goal with |- context [find ?f t] => destruct (find f t) as [s|] eqn:F end; [|reflexivity]. apply find_some in F. destruct F as (S & F). cbn [orb] in F. rewrite orb_false_r in F. apply orb_true_iff in F. specialize (A s S). lia.
    + split; [|intros (H & _); discriminate H]. destruct (x_panic c =? 0); [discriminate|]. destruct ((x_ex c =? 0) && _); [|discriminate].
      destruct (find (fun s => w_seh s =? code) t); [|discriminate]. intros H. destruct (LOOP true (or_introl eq_refl) _ (or_intror eq_refl) H).
Qed.
(** A code that is in no slot. *)
Example win_filter_search_holds : let c := WCtx 7 9 0 0 0 false in
  fst (catch_seh [WSlot 7 11 3] false 9 5 c) = Search /\ fst (catch_seh [WSlot 7 11 5] false 9 5 c) = Execute /\ fst (catch_seh [WSlot 7 11 3] false 7 5 c) = Execute.
Proof. vm_compute. repeat split. Qed.

(** C138: a tame program does on Windows what structured exceptions should do: the same steps, handlers with the same names and finally blocks; an exception that nothing takes
    ends the program. *)
Theorem win_refines : forall t got names s, knows_panic t -> tame names 0 Outside s ->
  match ref names 0 s with
  | (Ends, e) => exists e', run t got s [] = (Normal, [], e') /\ map no_place e' = e
  | (Throws x, e) => exists e', run t got s [] = (Terminated, [], e') /\ map no_place e' = e ++ [Ended x]
  end.
Proof.
  intros t got names s0 T H0.
  assert (G : forall s cur w fs, tame names cur w s -> (w <> Outside -> exists c r, fs = c :: r /\ (w = InCatch -> x_state c = 2 /\ x_panic c = cur /\ x_ex c <> 0 /\ cur <> 0 /\ x_rethrown c = true)) ->
    match ref names cur s with
    | (Ends, e) => exists e', run t got s fs = (Normal, fs, e') /\ map no_place e' = e
    | (Throws x, e) => x <> 0 /\
        match w with
        | Outside => match fs with
                     | [] => exists e', run t got s fs = (Terminated, [], e') /\ map no_place e' = e ++ [Ended x]
                     | c :: r => exists m p e', run t got s fs = (Raised exception_panic, WCtx m x p (x_caught c) (x_state c) (x_rethrown c) :: r, e') /\ m <> 0 /\ map no_place e' = e
                     end
        | _ => x = cur /\ w = InCatch /\ exists c r e', fs = c :: r /\ run t got s fs = (Jump, WCtx (x_ex c) (x_panic c) (x_place c) (x_caught c) 3 false :: r, e') /\ map no_place e' = e
        end
    end).
  2: { specialize (G s0 0 Outside [] H0 ltac:(congruence)). destruct (ref names 0 s0) as [[|x] e]; [exact G|destruct G as (_ & G); exact G]. }
  clear s0 H0. induction s as [|n|x p|code| |a IHa b IHb|g b IHb k h IHh fin]; intros cur w fs TM Hw.
  - exists []. split; reflexivity.
  - exists [Did n]. split; reflexivity.
  - cbn [ref run]. destruct TM as (X & ->). split; [exact X|]. destruct fs as [|c r]; cbn [ex_throw].
    + exists [Ended x]. unfold err_name. rewrite (proj2 (Z.eqb_neq x 0)) by exact X. split; reflexivity.
    + exists panic_name, p, []. split; [reflexivity|]. split; [discriminate|reflexivity].
  - destruct TM.
  - cbn [tame] in TM. subst w. cbn [ref run]. destruct (Hw ltac:(discriminate)) as (c & r & -> & HC). destruct (HC eq_refl) as (S & P & X & CU & R). split; [exact CU|]. split; [reflexivity|]. split; [reflexivity|]. exists c, r, []. split; [reflexivity|]. split; [|reflexivity].
    unfold rethrow. rewrite R, orb_true_r, S. reflexivity.
  - destruct TM as (TA & TB). cbn [ref run]. specialize (IHa cur w fs TA Hw). destruct (ref names cur a) as [[|x] e1].
    + destruct IHa as (e' & -> & E). specialize (IHb cur w fs TB Hw). destruct (ref names cur b) as [[|x] e2].
      * destruct IHb as (e2' & -> & E2). exists (e' ++ e2'). split; [reflexivity|]. rewrite map_app, E, E2. reflexivity.
      * destruct IHb as (X & IHb). split; [exact X|]. destruct w.
        -- destruct fs as [|c r]; [destruct IHb as (e2' & -> & E2); exists (e' ++ e2'); split; [reflexivity|]; rewrite map_app, E, E2, app_assoc; reflexivity|].
           destruct IHb as (m & p & e2' & -> & M & E2). exists m, p, (e' ++ e2'). split; [reflexivity|]. split; [exact M|]. rewrite map_app, E, E2. reflexivity.
        -- destruct IHb as (C & CW & c & r & e2' & F & -> & E2). split; [exact C|]. split; [exact CW|]. exists c, r, (e' ++ e2'). split; [exact F|]. split; [reflexivity|]. rewrite map_app, E, E2. reflexivity.
        -- destruct IHb as (C & CW & c & r & e2' & F & -> & E2). split; [exact C|]. split; [exact CW|]. exists c, r, (e' ++ e2'). split; [exact F|]. split; [reflexivity|]. rewrite map_app, E, E2. reflexivity.
    + destruct IHa as (X & IHa). split; [exact X|]. destruct w.
      * destruct fs as [|c r]; [destruct IHa as (e' & -> & E); exists e'; split; [reflexivity|exact E]|]. destruct IHa as (m & p & e' & -> & M & E). exists m, p, e'. split; [reflexivity|]. split; assumption.
      * destruct IHa as (C & CW & c & r & e' & F & -> & E). split; [exact C|]. split; [exact CW|]. exists c, r, e'. split; [exact F|]. split; [reflexivity|exact E].
      * destruct IHa as (C & CW & c & r & e' & F & -> & E). split; [exact C|]. split; [exact CW|]. exists c, r, e'. split; [exact F|]. split; [reflexivity|exact E].
  - destruct TM as (TB & KK & TH & NW). specialize (IHb cur Outside (fresh g :: fs) TB ltac:(congruence)). cbn [ref run]. cbn [ref] in NW. destruct (ref names cur b) as [[|x] e1] eqn:RB.
    + destruct IHb as (e' & -> & E). unfold finish. cbn [fresh x_state Z.land Z.eqb]. exists (e' ++ [Finally fin]). split; [reflexivity|]. rewrite map_app, E. reflexivity.
    + destruct (TH x e1 eq_refl) as (TK & TH'). destruct IHb as (X & m & p & e' & -> & M & E). set (c := WCtx m x p (x_caught (fresh g)) (x_state (fresh g)) (x_rethrown (fresh g))). rewrite TK in *.
      set (ww := match k with Catch _ => InCatch | CatchAny | CatchIf => InAny end) in *.
      assert (FL : exists m2 p2 rt, filter t got k exception_panic c = (Execute, WCtx m2 x p2 (r_caught g) 1 rt) /\ m2 <> 0 /\ (ww = InCatch -> rt = true)).
      { destruct k as [ee| |]; cbn [filter].
        - cbn [takes] in TK. apply Z.eqb_eq in TK. subst ee. destruct (catch_hit t got x c T X M X (or_introl eq_refl)) as (m2 & M2 & ->). exists m2, 0, true. split; [reflexivity|]. split; [exact M2|reflexivity].
        - unfold catch_filter_seh. rewrite Z.eqb_refl. exists m, p, false. split; [reflexivity|]. split; [exact M|discriminate].
        - unfold catch_filter_seh. rewrite Z.eqb_refl. exists m, p, false. split; [reflexivity|]. split; [exact M|discriminate]. }
      destruct FL as (m2 & p2 & rt & -> & M2 & RT). rewrite own_here. cbn [x_state x_ex x_panic x_place x_caught x_rethrown]. rewrite Z.eqb_refl. assert (EN : err_name m2 x = x) by (unfold err_name; rewrite (proj2 (Z.eqb_neq x 0)) by exact X; reflexivity). rewrite EN.
      specialize (IHh x ww (WCtx m2 x p2 (r_caught g) (handler_state k) rt :: fs) TH'). destruct (ref names x h) as [[|y] e2] eqn:RH.
      * destruct IHh as (e2' & -> & E2). { intros _. eexists _, _. split; [reflexivity|]. intros WW. cbn. split; [subst ww; destruct k; [reflexivity|discriminate|discriminate]|]. split; [reflexivity|]. split; [exact M2|]. split; [exact X|exact (RT WW)]. }
        destruct k as [ee| |]; cbn [handler_state].
        -- unfold finish. cbn [x_state Z.land Z.eqb Pos.land]. eexists. split; [reflexivity|]. rewrite !map_app, E, E2. cbn [map no_place]. rewrite <- !app_assoc. reflexivity.
        -- unfold finish. cbn [x_state Z.land Z.eqb Pos.land]. eexists. split; [reflexivity|]. rewrite !map_app, E, E2. cbn [map no_place]. rewrite <- !app_assoc. reflexivity.
        -- assert (WO : w = Outside) by (destruct w; [reflexivity| |]; exfalso; eapply NW; [discriminate|reflexivity|discriminate|reflexivity]). subst w.
           split; [exact X|]. unfold finish. cbn [x_state Z.land Z.eqb Pos.land x_ex x_place x_panic]. destruct fs as [|c0 r0]; cbn [ex_throw].
           ++ rewrite EN. eexists. split; [reflexivity|]. rewrite !map_app, E, E2. cbn [map no_place app]. rewrite <- !app_assoc. cbn [app]. rewrite <- !app_assoc. reflexivity.
           ++ exists m2, p2. eexists. split; [reflexivity|]. split; [exact M2|]. rewrite !map_app, E, E2. cbn [map no_place app]. rewrite <- !app_assoc. reflexivity.
      * destruct IHh as (Y & IHh). { intros _. eexists _, _. split; [reflexivity|]. intros WW. cbn. split; [subst ww; destruct k; [reflexivity|discriminate|discriminate]|]. split; [reflexivity|]. split; [exact M2|]. split; [exact X|exact (RT WW)]. }
        assert (J : exists ee e2', k = Catch ee /\ run t got h (WCtx m2 x p2 (r_caught g) (handler_state k) rt :: fs) = (Jump, WCtx m2 x p2 (r_caught g) 3 false :: fs, e2') /\ map no_place e2' = e2 /\ y = x).
        { subst ww. destruct k as [ee| |]; destruct IHh as (YX & CW & c2 & r2 & e2' & F & R & E2); try discriminate CW. injection F as <- <-. exists ee, e2'. split; [reflexivity|]. split; [exact R|]. split; [exact E2|exact YX]. }
        destruct J as (ee & e2' & -> & -> & E2 & ->). assert (WO : w = Outside) by (destruct w; [reflexivity| |]; exfalso; eapply NW; [discriminate|reflexivity|discriminate|reflexivity]). subst w.
        split; [exact Y|]. unfold finish. cbn [x_state Z.land Z.eqb Pos.land x_ex x_place x_panic]. destruct fs as [|c0 r0]; cbn [ex_throw].
        -- rewrite EN. eexists. split; [reflexivity|]. rewrite !map_app, E, E2. cbn [map no_place app]. rewrite <- !app_assoc. cbn [app]. rewrite <- !app_assoc. reflexivity.
        -- exists m2, p2. eexists. split; [reflexivity|]. split; [exact M2|]. rewrite !map_app, E, E2. cbn [map no_place app]. rewrite <- !app_assoc. reflexivity.
Qed.
(** A tame program: an exception is rethrown by an inner handler and taken by the outer one; another passes an ex_catch_if and is taken by ex_catch_any. *)
Definition tame_sample : stm :=
  Then (Try (Rest 9 9 9) (Try (Rest 0 0 (-1)) (Then (Emit 1) (Throw 50 7)) (Catch 50) (Then (Emit 2) Rethrow) 3) (Catch 50) (Emit 4) 5) (Then (Try (Rest 1 1 1) (Try (Rest 2 2 2) (Throw 60 8) CatchIf (Emit 10) 11) CatchAny (Emit 6) 7) (Throw 70 9)).
(** It meets the hypotheses of [win_refines] and ends with the exception that nothing takes. *)
Example win_refines_holds : tame (fun _ => 0) 0 Outside tame_sample /\ ref (fun _ => 0) 0 tame_sample = (Throws 70, [Did 1; Handling 50 0; Did 2; Finally 3; Handling 50 0; Did 4; Finally 5; Handling 60 0; Did 10; Finally 11; Handling 60 0; Did 6; Finally 7]) /\
  run default_table false tame_sample [] = (Terminated, [], [Did 1; Handling 50 0; Did 2; Finally 3; Handling 50 0; Did 4; Finally 5; Handling 60 8; Did 10; Finally 11; Handling 60 8; Did 6; Finally 7; Ended 70]).
Proof.
  split; [|split; reflexivity]. cbn. repeat match goal with |- _ /\ _ => split | |- forall _, _ => intro | |- True => exact I | H : Catch _ = Catch _ |- _ => injection H as <- | H : CatchAny = Catch _ |- _ => discriminate H | H : CatchIf = Catch _ |- _ => discriminate H | H : (_, _) = (_, _) |- _ => injection H as <- <- end; first [discriminate | reflexivity | contradiction | auto].
Qed.
(** C138: an exception that is not for the handler of the block in which it is thrown is lost: the program goes on behind the block as if nothing was thrown. *)
Theorem win_lost : forall t got g b e h fin fs c ev, run t got b (fresh g :: fs) = (Raised exception_panic, c :: fs, ev) -> x_state c = 0 -> x_ex c <> 0 -> x_panic c <> e -> x_ex c <> e ->
  run t got (Try g b (Catch e) h fin) fs = (Normal, fs, ev ++ [Finally fin]).
Proof. intros t got g b e h fin fs c ev R S X P M. cbn [run]. rewrite R. cbn [filter]. rewrite catch_miss by assumption. rewrite own_here, S. cbn [Z.eqb]. unfold finish. rewrite S. reflexivity. Qed.
(** C138 is refuted: the outer block for 50 does not get the exception 50 that passes the inner block for 51, and without an outer block the program does not end. *)
Theorem win_catch_refuted : exists inner outer, ref (fun _ => 0) 0 outer = (Ends, [Finally 8; Handling 50 0; Did 2; Finally 9]) /\ run default_table false outer [] = (Normal, [], [Finally 8; Finally 9]) /\
  ref (fun _ => 0) 0 inner = (Throws 50, [Finally 8]) /\ run default_table false inner [] = (Normal, [], [Finally 8]).
Proof. exists (Try (Rest 0 0 (-1)) (Throw 50 7) (Catch 51) (Emit 1) 8), (Try (Rest 0 0 (-1)) (Try (Rest 0 0 (-1)) (Throw 50 7) (Catch 51) (Emit 1) 8) (Catch 50) (Emit 2) 9). repeat split. Qed.
(** The hypotheses of [win_lost] hold of a throw, with anything before it. *)
Example win_lost_holds : run default_table false (Try (Rest 3 4 5) (Then (Emit 1) (Throw 50 7)) (Catch 51) (Emit 2) 8) [] = (Normal, [], [Did 1] ++ [Finally 8]).
Proof. eapply win_lost; [reflexivity|reflexivity|discriminate|discriminate|discriminate]. Qed.

(** A handler that ends normally with the events [eh]. *)
Definition plain (t : list wslot) (got : bool) (h : stm) (fs : list wctx) (eh : list event) : Prop := forall o, run t got h (o :: fs) = (Normal, o :: fs, eh).
(** C139: a fault in the body of an ex_catch block is lost when the uninitialised member panic of the block is NULL, whatever its code and the name of the handler. *)
Theorem fault_lost : forall t got g code e h fin fs, r_panic g = 0 -> run t got (Try g (Fault code) (Catch e) h fin) fs = (Normal, fs, [Finally fin]).
Proof. intros t got g code e h fin fs P. cbn [run filter]. unfold catch_seh. cbn [fresh x_ex x_panic]. rewrite P. cbn [name_eq Z.eqb negb andb]. rewrite own_here. cbn [x_state Z.eqb]. reflexivity. Qed.
(** C139: when that member is not NULL, the handler gets the fault, if its code is registered, whatever the name of the handler; if the code is not registered, it is lost. *)
Theorem fault_any_name : forall t got g code e h fin fs eh, r_panic g <> 0 -> s32 code < 0 -> plain t got h fs eh ->
  run t got (Try g (Fault code) (Catch e) h fin) fs = (Normal, fs, match seh_name code t with Some m => Handling m 0 :: eh ++ [Finally fin] | None => [Finally fin] end).
Proof.
  intros t got g code e h fin fs eh P S H. cbn [run filter]. unfold catch_seh. cbn [fresh x_ex x_panic x_place x_caught x_state x_rethrown]. rewrite (proj2 (Z.eqb_neq (r_panic g) 0)) by exact P. rewrite andb_false_r. assert (L : s32 code <? 0 = true) by (apply Z.ltb_lt; exact S). rewrite L. cbn [Z.eqb andb].
  unfold seh_name. destruct (find (fun s => w_seh s =? code) t) as [s|] eqn:F; cbn [option_map].
  - unfold catch_loop. destruct t as [|s0 t]; [discriminate F|]. cbn [find orb x_ex x_panic x_caught]. rewrite L, orb_true_r. rewrite own_here. cbn [x_state Z.eqb Pos.eqb x_ex x_panic x_place x_caught x_rethrown]. rewrite H. unfold finish. cbn [x_state Z.land Z.eqb Pos.land]. unfold err_name. cbn [Z.eqb app]. reflexivity.
  - rewrite own_here. cbn [x_state Z.eqb]. reflexivity.
Qed.
(** C139: ex_catch_any gets every registered fault with its name, if the uninitialised member caught is no code of the table. *)
Theorem fault_catch_any : forall t got g code h fin fs eh m, code <> exception_panic -> seh_name code t = Some m -> Forall (fun s => w_seh s <> u32 (r_caught g)) t -> plain t got h fs eh ->
  run t got (Try g (Fault code) CatchAny h fin) fs = (Normal, fs, Handling m 0 :: eh ++ [Finally fin]).
Proof.
  intros t got g code h fin fs eh m N S C H. cbn [run filter]. unfold catch_filter_seh. rewrite (proj2 (Z.eqb_neq _ _) N). cbn [fresh x_caught].
  assert (F : find (fun s => (w_seh s =? code) || (u32 (r_caught g) =? w_seh s)) t = find (fun s => w_seh s =? code) t).
  { clear S H. induction C as [|s t A C IH]; [reflexivity|]. cbn [find]. rewrite (proj2 (Z.eqb_neq (u32 (r_caught g)) (w_seh s))) by congruence. rewrite orb_false_r, IH. reflexivity. }
  rewrite F. unfold seh_name in S. destruct (find (fun s => w_seh s =? code) t) as [s|]; [|discriminate S]. injection S as <-. rewrite own_here. cbn [x_state Z.eqb Pos.eqb x_ex x_panic x_place x_caught x_rethrown]. rewrite H. reflexivity.
Qed.
(** C139: a fault that is not registered passes ex_catch_any, without its finally block; the enclosing ex_catch_any lets it pass, too, and an enclosing ex_catch loses it, unless
    the member panic of the inner block is left with a value. *)
Theorem fault_unknown : forall t got g1 g2 code h1 h2 fin1 fin2 e fs, code <> exception_panic -> seh_name code t = None -> Forall (fun s => w_seh s <> u32 (r_caught g2)) t ->
  let inner := Try g2 (Fault code) CatchAny h2 fin2 in
  run t got inner fs = (Raised code, fresh g2 :: fs, []) /\ run t got (Try g1 inner CatchAny h1 fin1) fs = (Raised code, fresh g2 :: fresh g1 :: fs, []) /\
  (r_panic g2 = 0 -> run t got (Try g1 inner (Catch e) h1 fin1) fs = (Normal, fs, [Finally fin1])).
Proof.
  intros t got g1 g2 code h1 h2 fin1 fin2 e fs N SN C inner.
  assert (F : catch_filter_seh t code (fresh g2) = (Search, fresh g2)).
  { unfold catch_filter_seh. rewrite (proj2 (Z.eqb_neq _ _) N). cbn [fresh x_caught].
    assert (F : find (fun s => (w_seh s =? code) || (u32 (r_caught g2) =? w_seh s)) t = None).
    { revert SN. unfold seh_name. induction C as [|s t A C IH]; intros S; [reflexivity|]. cbn [find] in *. rewrite (proj2 (Z.eqb_neq (u32 (r_caught g2)) (w_seh s))) by congruence. rewrite orb_false_r. destruct (w_seh s =? code); [discriminate S|auto]. }
    rewrite F. reflexivity. }
  assert (R : forall fs, run t got inner fs = (Raised code, fresh g2 :: fs, [])) by (intros fs'; unfold inner; cbn [run filter]; rewrite F; reflexivity).
  split; [apply R|]. split.
  - cbn [run]. rewrite R. cbn [filter]. rewrite F. reflexivity.
  - intros P. cbn [run]. rewrite R. cbn [filter]. unfold catch_seh. cbn [fresh x_ex x_panic]. rewrite P. cbn [name_eq Z.eqb negb andb]. unfold own. cbn [length]. replace (S (S (length fs)) - S (length fs))%nat with 1%nat by lia. cbn [skipn x_state Z.eqb]. reflexivity.
Qed.
(** C139: a code that is not negative (an information of Windows) is lost in an ex_catch block. *)
Theorem fault_positive : forall t got g code e h fin fs, 0 <= s32 code -> r_panic g <> e -> run t got (Try g (Fault code) (Catch e) h fin) fs = (Normal, fs, [Finally fin]).
Proof.
  intros t got g code e h fin fs S E. cbn [run filter]. unfold catch_seh. cbn [fresh x_ex x_panic x_place x_caught x_state x_rethrown]. assert (L : s32 code <? 0 = false) by (apply Z.ltb_ge; exact S). rewrite L. cbn [name_eq Z.eqb negb andb].
  assert (N : name_eq (r_panic g) e = false) by (unfold name_eq; rewrite (proj2 (Z.eqb_neq _ _) E); apply andb_false_r). rewrite N. cbn [negb andb]. destruct (r_panic g =? 0); rewrite own_here; reflexivity.
Qed.
(** The C++ exception code is not registered; DBG_CONTINUE (0x00010002) is positive. *)
Example fault_unknown_holds : run default_table false (Try (Rest 0 0 (-1)) (Try (Rest 0 0 (-1)) (Fault 3765269347) CatchAny (Emit 1) 2) (Catch 77) (Emit 3) 4) [] = (Normal, [], [Finally 4]) /\
  run default_table false (Try (Rest 5 0 (-1)) (Fault 65538) (Catch 77) (Emit 3) 4) [] = (Normal, [], [Finally 4]).
Proof.
  split; [|apply fault_positive; [vm_compute; discriminate|discriminate]].
  apply (fault_unknown default_table false (Rest 0 0 (-1)) (Rest 0 0 (-1)) 3765269347 (Emit 3) (Emit 1) 4 2 77 []); [discriminate|reflexivity| |reflexivity]. repeat (constructor; [discriminate|]). constructor.
Qed.
(** C139 is refuted: a division by zero (code 0xC0000094, name 5) is lost in a block for it, given to a block for the name 77, and a code that is not registered is taken for an access
    violation by ex_catch_any when the uninitialised member caught is 0. *)
Theorem fault_refuted : exists code other, seh_name code default_table = Some 5 /\ run default_table false (Try (Rest 0 0 (-1)) (Fault code) (Catch 5) (Emit 1) 9) [] = (Normal, [], [Finally 9]) /\
  run default_table false (Try (Rest 1234 0 (-1)) (Fault code) (Catch 77) (Emit 1) 9) [] = (Normal, [], [Handling 5 0; Did 1; Finally 9]) /\
  seh_name other default_table = None /\ run default_table false (Try (Rest 0 0 0) (Fault other) CatchAny (Emit 1) 9) [] = (Normal, [], [Handling sig_segv 0; Did 1; Finally 9]).
Proof. exists 3221225620, 3765269347. repeat split. Qed.
(** The hypotheses of [fault_any_name] and [fault_catch_any]. *)
Example fault_holds : run default_table false (Try (Rest 8 0 0) (Fault 3221225477) (Catch 77) (Emit 1) 9) [] = (Normal, [], [Handling sig_segv 0; Did 1; Finally 9]) /\
  run default_table false (Try (Rest 8 0 (-1)) (Fault 3221225477) CatchAny (Emit 1) 9) [] = (Normal, [], [Handling sig_segv 0; Did 1; Finally 9]).
Proof.
  split; [exact (fault_any_name default_table false (Rest 8 0 0) 3221225477 77 (Emit 1) 9 [] [Did 1] ltac:(discriminate) ltac:(reflexivity) (fun _ => eq_refl))|].
  apply (fault_catch_any default_table false (Rest 8 0 (-1)) 3221225477 (Emit 1) 9 [] [Did 1] sig_segv); [discriminate|reflexivity| |intros o; reflexivity]. repeat (constructor; [discriminate|]). constructor.
Qed.

(** C140: ex_catch forgets where the exception was thrown: the handler gets the place "unknown", line 0, for every throw. *)
Theorem win_place_lost : forall t got g x p h fin fs eh, knows_panic t -> x <> 0 -> plain t got h fs eh -> run t got (Try g (Throw x p) (Catch x) h fin) fs = (Normal, fs, Handling x 0 :: eh ++ [Finally fin]).
Proof.
  intros t got g x p h fin fs eh T X H. cbn [run ex_throw filter]. destruct (catch_hit t got x (WCtx panic_name x p (x_caught (fresh g)) (x_state (fresh g)) (x_rethrown (fresh g))) T X ltac:(discriminate) X (or_introl eq_refl)) as (m & M & ->). cbn [x_panic x_caught]. rewrite own_here. cbn [x_state Z.eqb Pos.eqb x_ex x_panic x_place x_caught x_rethrown].
  rewrite H. unfold err_name. rewrite (proj2 (Z.eqb_neq x 0)) by exact X. reflexivity.
Qed.
(** C140: ex_catch_any keeps the name and the place of every throw. *)
Theorem win_place_kept : forall t got g x p h fin fs eh, x <> 0 -> plain t got h fs eh -> run t got (Try g (Throw x p) CatchAny h fin) fs = (Normal, fs, Handling x p :: eh ++ [Finally fin]).
Proof.
  intros t got g x p h fin fs eh X H. cbn [run ex_throw filter]. unfold catch_filter_seh. rewrite Z.eqb_refl. rewrite own_here. cbn [x_state Z.eqb Pos.eqb x_ex x_panic x_place x_caught x_rethrown]. rewrite H. unfold err_name. rewrite (proj2 (Z.eqb_neq x 0)) by exact X. reflexivity.
Qed.
(** C140 is refuted: thrown at 7, handled with place unknown. *)
Theorem win_place_refuted : exists p s e', s = Try (Rest 0 0 (-1)) (Throw 50 p) (Catch 50) Skip 9 /\ p <> 0 /\ run default_table false s [] = (Normal, [], Handling 50 0 :: e').
Proof. exists 7, (Try (Rest 0 0 (-1)) (Throw 50 7) (Catch 50) Skip 9), [Finally 9]. repeat split. discriminate. Qed.
(** Both hold of the table of a program that has entered a block. *)
Example win_place_holds : run default_table true (Try (Rest 1 2 3) (Throw 50 7) (Catch 50) (Emit 4) 9) [] = (Normal, [], [Handling 50 0; Did 4; Finally 9]) /\ run default_table true (Try (Rest 1 2 3) (Throw 50 7) CatchAny (Emit 4) 9) [] = (Normal, [], [Handling 50 7; Did 4; Finally 9]).
Proof. split; [apply (win_place_lost default_table true (Rest 1 2 3) 50 7 (Emit 4) 9 [] [Did 4] default_knows)|apply (win_place_kept default_table true (Rest 1 2 3) 50 7 (Emit 4) 9 [] [Did 4])]; first [discriminate | intros o; reflexivity]. Qed.

(** Every filter stops a throw. *)
Lemma panic_executes t got k c : knows_panic t -> exists c', filter t got k exception_panic c = (Execute, c').
Proof.
  intros T. assert (L : forall e found c0, exists c', catch_loop t got e exception_panic found c0 = (Execute, c')).
  { intros e found c0. unfold catch_loop. match goal with |- context [find ?f t] => destruct (find_panic t f T) as (s & F & _) end; [intros s S; rewrite S, Z.eqb_refl, orb_true_r; reflexivity|]. rewrite F. destruct (got || _); eauto. }
  destruct k as [e| |]; cbn [filter]; [|unfold catch_filter_seh; rewrite Z.eqb_refl; eauto|unfold catch_filter_seh; rewrite Z.eqb_refl; eauto]. unfold catch_seh. destruct (_ && _); [eauto|]. destruct (_ && _).
  - destruct (find _ t); [apply L|eauto].
  - destruct (_ && _); [eauto|apply L].
Qed.
(** C141: an exception that is raised while the context of an inner block is the current one, as in its handler, is lost in the enclosing block: neither handler of it runs, and the
    program goes on behind it. *)
Theorem win_inner_lost : forall t got g b k h fin fs c ev, knows_panic t -> run t got b (fresh g :: fs) = (Raised exception_panic, c :: fresh g :: fs, ev) -> run t got (Try g b k h fin) fs = (Normal, fs, ev ++ [Finally fin]).
Proof.
  intros t got g b k h fin fs c ev T R. cbn [run]. rewrite R. destruct (panic_executes t got k c T) as (c' & ->). unfold own. cbn [length]. replace (S (S (length fs)) - S (length fs))%nat with 1%nat by lia. cbn [skipn fresh x_state Z.eqb]. reflexivity.
Qed.
(** C141: so a throw in a handler never reaches the enclosing block, of whatever kind, and the finally block of the inner one is not run. *)
Theorem win_handler_throw : forall t got g1 g2 x p y q k1 k2 h fin1 fin2 fs, knows_panic t -> x <> 0 -> takes k2 x = true ->
  exists p', run t got (Try g1 (Try g2 (Throw x p) k2 (Throw y q) fin2) k1 h fin1) fs = (Normal, fs, [Handling x p'; Finally fin1]).
Proof.
  intros t got g1 g2 x p y q k1 k2 h fin1 fin2 fs T X K.
  assert (I : exists c p', run t got (Try g2 (Throw x p) k2 (Throw y q) fin2) (fresh g1 :: fs) = (Raised exception_panic, c :: fresh g1 :: fs, [Handling x p'])).
  { cbn [run ex_throw]. set (c := WCtx panic_name x p _ _ _). assert (EN : forall m, err_name m x = x) by (intros; unfold err_name; rewrite (proj2 (Z.eqb_neq x 0)) by exact X; reflexivity). destruct k2 as [e| |]; cbn [filter].
    - cbn [takes] in K. apply Z.eqb_eq in K. subst e. destruct (catch_hit t got x c T X ltac:(discriminate) X (or_introl eq_refl)) as (m & M & ->). rewrite (own_here _ (fresh g1 :: fs)). cbn [x_state Z.eqb Pos.eqb x_ex x_panic x_place x_caught x_rethrown]. subst c. cbn [x_panic]. rewrite EN. eexists _, _. reflexivity.
    - unfold catch_filter_seh. rewrite Z.eqb_refl. rewrite (own_here _ (fresh g1 :: fs)). cbn [x_state Z.eqb Pos.eqb x_ex x_panic x_place x_caught x_rethrown]. subst c. cbn [x_panic x_ex x_place]. rewrite EN. eexists _, _. reflexivity.
    - unfold catch_filter_seh. rewrite Z.eqb_refl. rewrite (own_here _ (fresh g1 :: fs)). cbn [x_state Z.eqb Pos.eqb x_ex x_panic x_place x_caught x_rethrown]. subst c. cbn [x_panic x_ex x_place]. rewrite EN. eexists _, _. reflexivity. }
  destruct I as (c & p' & I). exists p'. rewrite (win_inner_lost t got g1 _ k1 h fin1 fs c [Handling x p'] T I). reflexivity.
Qed.
(** C141, after a fault whose code is in the table, rethrow() in the handler of ex_catch_any jumps, whatever the uninitialised members hold. *)
Theorem win_rethrow_fault : forall t code c fs, code <> exception_panic -> In code (map w_seh t) ->
  let '(a, c') := catch_filter_seh t code c in a = Execute /\ x_state c' = 1 /\ x_panic c' = 0 /\ exists c'', rethrow (c' :: fs) = (Jump, c'' :: fs, []) /\ x_ex c'' = x_ex c'.
Proof.
  intros t code c fs N I. unfold catch_filter_seh. rewrite (proj2 (Z.eqb_neq code exception_panic)) by exact N. match goal with |- context [find ?f t] => destruct (find f t) as [s|] eqn:F end.
  - split; [reflexivity|]. split; [reflexivity|]. split; [reflexivity|]. cbn [rethrow x_caught x_rethrown]. rewrite orb_true_r. eexists. split; reflexivity.
  - exfalso. apply in_map_iff in I. destruct I as (s & E & S). pose proof (find_none _ _ F s S) as Q. cbn in Q. rewrite E, Z.eqb_refl in Q. discriminate Q.
Qed.
Print Assumptions win_rethrow_fault.
(** A division by zero, with caught below zero. *)
Example win_rethrow_fault_holds : 0xC0000094 <> exception_panic /\ In 0xC0000094 (map w_seh default_table) /\ fst (catch_filter_seh default_table 0xC0000094 (fresh (Rest 0 0 (-7)))) = Execute.
Proof. split; [discriminate|]. split; [vm_compute; tauto|vm_compute; reflexivity]. Qed.
(** C141: rethrow() in the handler of an ex_catch_any reaches the enclosing block, with name and place, exactly when the uninitialised member caught is not negative; otherwise it is
    lost there. *)
Theorem win_rethrow_any : forall t got g1 g2 x p k h fin1 fin2 fs, knows_panic t -> x <> 0 ->
  if -1 <? r_caught g2 then run t got (Try g2 (Throw x p) CatchAny Rethrow fin2) (fresh g1 :: fs) = (Raised exception_panic, WCtx panic_name x p (r_caught g1) 0 false :: fs, [Handling x p; Finally fin2])
  else run t got (Try g1 (Try g2 (Throw x p) CatchAny Rethrow fin2) k h fin1) fs = (Normal, fs, [Handling x p; Finally fin1]).
Proof.
  intros t got g1 g2 x p k h fin1 fin2 fs T X. assert (EN : err_name panic_name x = x) by (unfold err_name; rewrite (proj2 (Z.eqb_neq x 0)) by exact X; reflexivity). destruct (-1 <? r_caught g2) eqn:C.
  - cbn [run ex_throw filter]. unfold catch_filter_seh. rewrite Z.eqb_refl. rewrite (own_here _ (fresh g1 :: fs)). cbn [fresh x_state Z.eqb Pos.eqb x_ex x_panic x_place x_caught x_rethrown]. unfold rethrow. cbn [x_caught]. rewrite C, EN. reflexivity.
  - change [Handling x p; Finally fin1] with ([Handling x p] ++ [Finally fin1]). eapply win_inner_lost; [exact T|]. cbn [run ex_throw filter]. unfold catch_filter_seh. rewrite Z.eqb_refl. rewrite (own_here _ (fresh g1 :: fs)). cbn [fresh x_state Z.eqb Pos.eqb x_ex x_panic x_place x_caught x_rethrown]. unfold rethrow. cbn [x_caught x_rethrown]. rewrite C, EN. reflexivity.
Qed.
(** C141: ex_catch(panic) takes every throw, and its rethrow() gives the exception the first name of the table instead of panic. *)
Theorem win_panic_renamed : forall s0 t got g x p fin c fs, w_ex s0 <> 0 -> x <> 0 ->
  run (s0 :: t) got (Try g (Throw x p) (Catch panic_name) Rethrow fin) (c :: fs) = (Raised exception_panic, WCtx (w_ex s0) x 0 (x_caught c) (x_state c) (x_rethrown c) :: fs, [Handling x 0; Finally fin]).
Proof.
  intros s0 t got g x p fin c fs W X. cbn [run ex_throw filter]. unfold catch_seh, catch_loop. cbn [x_ex x_panic x_caught find]. change (name_eq panic_name panic_name) with true. cbn [negb andb]. change (panic_name =? 0) with false. cbn [andb]. rewrite ?andb_false_r. rewrite ?orb_true_r. change (s32 exception_panic <? 0) with true. rewrite ?orb_true_r.
  rewrite (own_here _ (c :: fs)). cbn [x_state Z.eqb Pos.eqb x_ex x_panic x_place x_caught x_rethrown]. unfold rethrow. cbn [x_caught x_rethrown]. rewrite orb_true_r. unfold err_name. rewrite (proj2 (Z.eqb_neq x 0)) by exact X. reflexivity.
Qed.
(** C141: rethrow() in the handler of another ex_catch(x) reaches the enclosing block with the message x, without its place, under the name of the first slot of the table whose code
    is that of a throw or equals the uninitialised member caught. *)
Theorem win_rethrow_name : forall l1 s l2 got g x p fin c fs, x <> 0 -> x <> panic_name -> Forall (fun s => w_seh s <> exception_panic /\ w_seh s <> u32 (r_caught g)) l1 -> w_seh s = exception_panic \/ w_seh s = u32 (r_caught g) ->
  run (l1 ++ s :: l2) got (Try g (Throw x p) (Catch x) Rethrow fin) (c :: fs) = (Raised exception_panic, WCtx (w_ex s) x 0 (x_caught c) (x_state c) (x_rethrown c) :: fs, [Handling x 0; Finally fin]).
Proof.
  intros l1 s l2 got g x p fin c fs X XP F S. cbn [run ex_throw filter]. unfold catch_seh, catch_loop. cbn [fresh x_ex x_panic x_caught x_place x_state x_rethrown]. rewrite (proj2 (Z.eqb_neq x 0)) by exact X. rewrite andb_false_r. change (panic_name =? 0) with false. cbn [andb].
  assert (N1 : name_eq x x = true) by (unfold name_eq; rewrite (proj2 (Z.eqb_neq x 0)) by exact X; rewrite Z.eqb_refl; reflexivity). assert (N2 : name_eq panic_name x = false) by (unfold name_eq; rewrite (proj2 (Z.eqb_neq panic_name x)) by congruence; apply andb_false_r). rewrite N1, N2. cbn [negb andb].
  assert (FI : find (fun s => false || (w_seh s =? exception_panic) || (u32 (r_caught g) =? w_seh s) || false) (l1 ++ s :: l2) = Some s).
  { clear - F S. induction F as [|a l1 (A & B) F IH]; cbn [app find].
    - destruct S as [S|S]; rewrite S, Z.eqb_refl; rewrite ?orb_true_r; reflexivity.
    - rewrite (proj2 (Z.eqb_neq _ _) A). rewrite (proj2 (Z.eqb_neq (u32 (r_caught g)) (w_seh a))) by congruence. exact IH. }
  rewrite FI. change (s32 exception_panic <? 0) with true. rewrite orb_true_r. rewrite (own_here _ (c :: fs)). cbn [x_state Z.eqb Pos.eqb x_ex x_panic x_place x_caught x_rethrown]. unfold rethrow. cbn [x_caught x_rethrown]. rewrite orb_true_r. unfold err_name. rewrite (proj2 (Z.eqb_neq x 0)) by exact X. reflexivity.
Qed.
(** With the table of a program that has entered a block, and caught with the bits of the code of a division by zero, the exception 50 is rethrown under the name divide_by_zero (5). *)
Example win_rethrow_name_holds : run default_table false (Try (Rest 0 0 (-1073741676)) (Throw 50 7) (Catch 50) Rethrow 9) [fresh (Rest 1 2 3)] = (Raised exception_panic, [WCtx 5 50 0 3 0 false], [Handling 50 0; Finally 9]).
Proof.
  apply (win_rethrow_name (firstn 3 default_table) (nth 3 default_table empty_slot) (skipn 4 default_table) false (Rest 0 0 (-1073741676)) 50 7 9 (fresh (Rest 1 2 3)) []); [discriminate|discriminate| |right; reflexivity]. repeat (constructor; [split; discriminate|]). constructor.
Qed.
(** C141 is refuted: a throw in a handler, a rethrow() in a handler of ex_catch_any and a rethrow() through two blocks for panic do not reach the enclosing handler. *)
Theorem win_handler_refuted : exists a b c, ref (fun _ => 0) 0 a = (Ends, [Handling 50 0; Finally 8; Handling 60 0; Did 1; Finally 9]) /\ run default_table false a [] = (Normal, [], [Handling 50 0; Finally 9]) /\
  ref (fun _ => 0) 0 b = (Ends, [Handling 50 0; Finally 8; Handling 50 0; Did 1; Finally 9]) /\ run default_table false b [] = (Normal, [], [Handling 50 7; Finally 9]) /\
  run default_table false c [] = (Normal, [], [Handling 50 0; Finally 8; Finally 9]).
Proof.
  exists (Try (Rest 0 0 (-1)) (Try (Rest 0 0 (-1)) (Throw 50 7) (Catch 50) (Throw 60 2) 8) (Catch 60) (Emit 1) 9), (Try (Rest 0 0 (-1)) (Try (Rest 0 0 (-1)) (Throw 50 7) CatchAny Rethrow 8) (Catch 50) (Emit 1) 9),
    (Try (Rest 0 0 (-1)) (Try (Rest 0 0 (-1)) (Throw 50 7) (Catch panic_name) Rethrow 8) (Catch panic_name) (Emit 1) 9). repeat split.
Qed.
(** The hypotheses hold of the table of a program that has entered a block. *)
Example win_handler_holds : (exists p', run default_table false (Try (Rest 1 2 3) (Try (Rest 4 5 6) (Throw 50 7) CatchAny (Throw 60 8) 9) CatchAny (Emit 10) 11) [] = (Normal, [], [Handling 50 p'; Finally 11])) /\
  run default_table false (Try (Rest 4 5 6) (Throw 50 7) CatchAny Rethrow 9) [fresh (Rest 1 2 3)] = (Raised exception_panic, [WCtx panic_name 50 7 3 0 false], [Handling 50 7; Finally 9]) /\
  run default_table false (Try (Rest 4 5 6) (Throw 50 7) (Catch panic_name) Rethrow 9) [fresh (Rest 1 2 3)] = (Raised exception_panic, [WCtx sig_segv 50 0 3 0 false], [Handling 50 0; Finally 9]).
Proof.
  split; [apply (win_handler_throw default_table false (Rest 1 2 3) (Rest 4 5 6) 50 7 60 8 CatchAny CatchAny (Emit 10) 11 9 [] default_knows); [discriminate|reflexivity]|].
  split; [apply (win_rethrow_any default_table false (Rest 1 2 3) (Rest 4 5 6) 50 7 CatchAny Skip 0 9 [] default_knows); discriminate|].
  exact (win_panic_renamed (hd empty_slot default_table) (tl default_table) false (Rest 4 5 6) 50 7 9 (fresh (Rest 1 2 3)) [] ltac:(discriminate) ltac:(discriminate)).
Qed.

(** C142: a guard section (ex_catch_if) is transparent for a throw: after its handler and its finally block everything is as if the exception had been thrown behind it, with the
    same name and place; without enclosing block the program ends with that name. *)
Theorem win_guard_throw : forall t got g x p h fin fs eh, x <> 0 -> plain t got h fs eh ->
  run t got (Try g (Throw x p) CatchIf h fin) fs = (let '(r, fs', e) := run t got (Throw x p) fs in (r, fs', Handling x p :: eh ++ Finally fin :: e)).
Proof.
  intros t got g x p h fin fs eh X H. cbn [run ex_throw filter]. unfold catch_filter_seh. rewrite Z.eqb_refl. rewrite own_here. cbn [x_state Z.eqb Pos.eqb x_ex x_panic x_place x_caught x_rethrown]. rewrite H. unfold finish. cbn [handler_state x_state Z.land Z.eqb x_ex x_place x_panic].
  unfold err_name. rewrite (proj2 (Z.eqb_neq x 0)) by exact X. destruct fs as [|c r]; reflexivity.
Qed.
(** C142: so it is for every body that ends with an exception, for example in another guard section inside of it. *)
Theorem win_guard_body : forall t got g b h fin fs c ev eh, run t got b (fresh g :: fs) = (Raised exception_panic, c :: fs, ev) -> plain t got h fs eh ->
  run t got (Try g b CatchIf h fin) fs =
    (match fs with [] => Terminated | _ => Raised exception_panic end,
     match fs with [] => [] | d :: r => WCtx (x_ex c) (x_panic c) (x_place c) (x_caught d) (x_state d) (x_rethrown d) :: r end,
     ev ++ Handling (if x_panic c =? 0 then x_ex c else x_panic c) (x_place c) :: eh ++ Finally fin :: match fs with [] => [Ended (if x_panic c =? 0 then x_ex c else x_panic c)] | _ => [] end).
Proof.
  intros t got g b h fin fs c ev eh R H. cbn [run]. rewrite R. cbn [filter]. unfold catch_filter_seh. rewrite Z.eqb_refl. rewrite own_here. cbn [x_state Z.eqb Pos.eqb x_ex x_panic x_place x_caught x_rethrown]. rewrite H. unfold finish. cbn [handler_state x_state Z.land Z.eqb Pos.land x_ex x_place x_panic].
  change (Z.of_N 1 =? 0) with false. destruct fs as [|d r]; cbn [ex_throw]; rewrite <- !app_assoc; reflexivity.
Qed.
(** C142: a registered fault leaves a guard section as an exception with its name, without place. *)
Theorem win_guard_fault : forall t got g code h fin fs eh m, code <> exception_panic -> seh_name code t = Some m -> Forall (fun s => w_seh s <> u32 (r_caught g)) t -> plain t got h fs eh ->
  run t got (Try g (Fault code) CatchIf h fin) fs = (let '(r, fs', e) := ex_throw m 0 0 fs in (r, fs', Handling m 0 :: eh ++ Finally fin :: e)).
Proof.
  intros t got g code h fin fs eh m N S C H. cbn [run filter]. unfold catch_filter_seh. rewrite (proj2 (Z.eqb_neq _ _) N). cbn [fresh x_caught].
  assert (F : find (fun s => (w_seh s =? code) || (u32 (r_caught g) =? w_seh s)) t = find (fun s => w_seh s =? code) t).
  { clear S H. induction C as [|s t A C IH]; [reflexivity|]. cbn [find]. rewrite (proj2 (Z.eqb_neq (u32 (r_caught g)) (w_seh s))) by congruence. rewrite orb_false_r, IH. reflexivity. }
  rewrite F. unfold seh_name in S. destruct (find (fun s => w_seh s =? code) t) as [s|]; [|discriminate S]. injection S as <-. rewrite own_here. cbn [x_state Z.eqb Pos.eqb x_ex x_panic x_place x_caught x_rethrown]. rewrite H. unfold finish. cbn [handler_state x_state Z.land Z.eqb x_ex x_place x_panic].
  destruct fs as [|c r]; reflexivity.
Qed.
(** C142: an enclosing ex_catch for that name gets it, but under the first name of the table; one for another name loses it. *)
Theorem win_guard_fault_caught : forall s0 t got g1 g2 code e h1 h2 fin1 fin2 fs eh1 eh2 m, code <> exception_panic -> seh_name code (s0 :: t) = Some m -> m <> 0 ->
  Forall (fun s => w_seh s <> u32 (r_caught g2)) (s0 :: t) -> plain (s0 :: t) got h2 (fresh g1 :: fs) eh2 -> plain (s0 :: t) got h1 fs eh1 ->
  run (s0 :: t) got (Try g1 (Try g2 (Fault code) CatchIf h2 fin2) (Catch e) h1 fin1) fs =
    (Normal, fs, Handling m 0 :: eh2 ++ Finally fin2 :: (if m =? e then Handling (w_ex s0) 0 :: eh1 else []) ++ [Finally fin1]).
Proof.
  intros s0 t got g1 g2 code e h1 h2 fin1 fin2 fs eh1 eh2 m N S M C H2 H1. pose proof (win_guard_fault (s0 :: t) got g2 code h2 fin2 (fresh g1 :: fs) eh2 m N S C H2) as G. set (tr := Try g2 (Fault code) CatchIf h2 fin2) in *. set (tt := s0 :: t) in *. cbn [run]. rewrite G. cbn [ex_throw filter]. unfold catch_seh. cbn [fresh x_ex x_panic x_place x_caught x_state x_rethrown].
  rewrite (proj2 (Z.eqb_neq m 0)) by exact M. unfold name_eq at 1. rewrite (proj2 (Z.eqb_neq m 0)) by exact M. cbn [negb andb]. destruct (m =? e) eqn:E.
  - apply Z.eqb_eq in E. subst e. rewrite (proj2 (Z.eqb_neq m 0)) by exact M. cbn [negb andb]. assert (NN : name_eq m m = true) by (unfold name_eq; rewrite (proj2 (Z.eqb_neq m 0)) by exact M; rewrite Z.eqb_refl; reflexivity). rewrite NN. cbn [negb]. rewrite andb_false_r. unfold catch_loop. subst tt. cbn [find x_ex x_caught]. rewrite NN, orb_true_r.
    change (s32 exception_panic <? 0) with true. rewrite orb_true_r. rewrite own_here. cbn [x_state Z.eqb Pos.eqb x_ex x_panic x_place x_caught x_rethrown handler_state]. rewrite H1. unfold finish. cbn [x_state Z.land Z.eqb Pos.land]. cbn [err_name Z.eqb]. unfold err_name. cbn [Z.eqb app]. change (Z.of_N 0 =? 0) with true. cbn [app]. rewrite <- ?app_assoc. cbn [app]. rewrite <- ?app_assoc. cbn [app]. reflexivity.
  - rewrite andb_false_r. cbn [negb Z.eqb andb]. rewrite own_here. cbn [x_state Z.eqb]. unfold finish. cbn [x_state Z.land Z.eqb Pos.land app]. rewrite <- ?app_assoc. reflexivity.
Qed.
(** C142 is refuted: a division by zero that passes a guard section is handled by a block for it as an access violation, and lost in a block for another name instead of passing on. *)
Theorem win_guard_refuted : exists code, seh_name code default_table = Some 5 /\
  run default_table false (Try (Rest 0 0 (-1)) (Try (Rest 0 0 (-1)) (Fault code) CatchIf (Emit 1) 2) (Catch 5) (Emit 3) 4) [] = (Normal, [], [Handling 5 0; Did 1; Finally 2; Handling sig_segv 0; Did 3; Finally 4]) /\
  run default_table false (Try (Rest 0 0 (-1)) (Try (Rest 0 0 (-1)) (Fault code) CatchIf (Emit 1) 2) (Catch 77) (Emit 3) 4) [] = (Normal, [], [Handling 5 0; Did 1; Finally 2; Finally 4]).
Proof. exists 3221225620. repeat split. Qed.
(** The hypotheses hold: a throw and a division by zero that pass a guard section. *)
Example win_guard_holds : run default_table false (Try (Rest 1 2 3) (Try (Rest 4 5 6) (Throw 50 7) CatchIf (Emit 8) 10) CatchIf (Emit 4) 9) [] = (Terminated, [], [Handling 50 7; Did 8; Finally 10; Handling 50 7; Did 4; Finally 9; Ended 50]) /\
  run default_table false (Try (Rest 1 2 3) (Throw 50 7) CatchIf (Emit 4) 9) [] = (Terminated, [], [Handling 50 7; Did 4; Finally 9; Ended 50]) /\
  run default_table false (Try (Rest 1 2 (-1)) (Fault 3221225620) CatchIf (Emit 4) 9) [] = (Terminated, [], [Handling 5 0; Did 4; Finally 9; Ended 5]) /\
  run default_table false (Try (Rest 0 0 (-1)) (Try (Rest 0 0 (-1)) (Fault 3221225620) CatchIf (Emit 1) 2) (Catch 5) (Emit 3) 4) [] = (Normal, [], [Handling 5 0; Did 1; Finally 2; Handling sig_segv 0; Did 3; Finally 4]).
Proof.
  split; [apply (win_guard_body default_table false (Rest 1 2 3) (Try (Rest 4 5 6) (Throw 50 7) CatchIf (Emit 8) 10) (Emit 4) 9 [] (WCtx panic_name 50 7 3 0 false) [Handling 50 7; Did 8; Finally 10] [Did 4]); [reflexivity|intros o; reflexivity]|].
  split; [exact (win_guard_throw default_table false (Rest 1 2 3) 50 7 (Emit 4) 9 [] [Did 4] ltac:(discriminate) (fun _ => eq_refl))|].
  split; [apply (win_guard_fault default_table false (Rest 1 2 (-1)) 3221225620 (Emit 4) 9 [] [Did 4] 5); [discriminate|reflexivity| |intros o; reflexivity]; repeat (constructor; [discriminate|]); constructor|].
  apply (win_guard_fault_caught (hd empty_slot default_table) (tl default_table) false (Rest 0 0 (-1)) (Rest 0 0 (-1)) 3221225620 5 (Emit 3) (Emit 1) 4 2 [] [Did 3] [Did 1] 5); [discriminate|reflexivity|discriminate| |intros o; reflexivity|intros o; reflexivity]. repeat (constructor; [discriminate|]). constructor.
Qed.

Print Assumptions seh_registry.
Print Assumptions win_refines.
Print Assumptions win_lost.
Print Assumptions win_catch_refuted.
Print Assumptions fault_lost.
Print Assumptions fault_any_name.
Print Assumptions fault_catch_any.
Print Assumptions fault_unknown.
Print Assumptions fault_positive.
Print Assumptions fault_refuted.
Print Assumptions win_place_lost.
Print Assumptions win_place_kept.
Print Assumptions win_place_refuted.
Print Assumptions win_inner_lost.
Print Assumptions win_handler_throw.
Print Assumptions win_rethrow_any.
Print Assumptions win_panic_renamed.
Print Assumptions win_rethrow_name.
Print Assumptions win_handler_refuted.
Print Assumptions win_guard_throw.
Print Assumptions win_guard_fault.
Print Assumptions win_guard_fault_caught.
Print Assumptions win_guard_refuted.
Print Assumptions win_guard_body.
Print Assumptions win_filter_search.
Print Assumptions seh_defaults.
