(** C99: the strings made for a scope. *)
From Coq Require Import String.
From Verif Require Import StrScopeModel StrBuild Base64Decode DeferCancel PropDefer.
Open Scope list_scope.
Open Scope Z_scope.

(** Arguments the functions are specified for: see C18-C24. *)
Definition legal (fuel : nat) (c : scall) : Prop :=
  match c with
  | Split t delim => text t /\ zlen t < 2147483647 /\ delim <> Some [] /\ (List.length t < fuel)%nat
  | Concat args => Forall text args /\ zlen (concat args) < 18446744073709551615
  | Replace h needle repl => text h /\ text repl /\ needle <> [] /\ (List.length h < fuel)%nat /\ zlen h + 1 < 18446744073709551616 /\
      forall r, substituted needle repl h r -> zlen r + 1 < 18446744073709551616
  | Memdup src len => 0 <= len <= zlen src
  | Encode t | Decode t => all_bytes t /\ zlen t < 18446744073709551616
  | Other o => op_word o
  end.
(** The calls that obtain memory; the size they need. *)
Definition needs (c : scall) (size : Z) : Prop :=
  match c with
  | Split t delim => t <> [] /\ zlen t <> 8 /\ exists ws, splits (match delim with Some d => d | None => [32] end) t ws /\ size = 8 * (zlen ws + 1) + zlen t + 1
  | Concat args => size = zlen (concat args) + 1
  | Replace h needle repl => exists r, occurs needle h /\ substituted needle repl h r /\ size = zlen r + 1
  | Memdup _ len => size = len + 1
  | Encode t => size = 4 * ((zlen t + 2) / 3) + 1 /\ size <= 4294967296
  | Decode t => exists p, base64_part t p /\ p <> [] /\ zlen p mod 4 = 0 /\ size = zlen p / 4 * 3 + 1
  | Other _ => False
  end.
(** The last group of a text to be decoded has more than two padding characters. *)
Definition misfit (c : scall) : Prop := match c with Decode t => exists p, base64_part t p /\ bad_padding p | _ => False end.

(** What one call may do: a string call that needs [size] bytes registers one block (its release function is RAII_FREE) and returns it, or NULL at a bad padding; one that
    needs none registers nothing and returns NULL; any other use of the scope registers one function. *)
Definition registers (rfree : Z) (c : scall) (l : list (Z * Z)) (a : Z) : Prop :=
  match c with
  | Other _ => exists f d, l = [(f, d)]
  | _ => (exists size b, needs c size /\ 0 < b /\ l = [(rfree, b)] /\ ((misfit c /\ a = 0) \/ (~ misfit c /\ a = b))) \/ ((forall size, ~ needs c size) /\ l = [] /\ a = 0)
  end.

(** A call as seen from the scope: nothing, a block of its own, or an unprotected block. *)
Inductive shape := Nothing | Owned (size : Z) (ok : bool) | Bare (size : Z).
Definition does (E : env) (rfree : Z) (h : shape) (s : scope) : out (list (Z * Z) * Z * scope) :=
  match h with
  | Nothing => Ok ([], 0, s)
  | Owned size ok => let* (a, s1) := scoped E rfree size s in Ok ([(rfree, a)], (if ok then a else 0), s1)
  | Bare size => let a := place E (ticks s) size in if a =? 0 then Panics else let* (_, s1) := raii_deferred E rfree a (tick s) in Ok ([(rfree, a)], a, s1)
  end.
Lemma part_fun s p : base64_part s p -> forall q, base64_part s q -> q = p.
Proof. induction 1; intros q Q; inversion Q; subst; try tauto; f_equal; auto. Qed.
Definition does_null (E : env) (t : nat) (c : scall) (h : shape) : out Z :=
  match h with
  | Nothing => Ok 0
  | Owned size _ | Bare size => if place E t size =? 0 then Panics else match c with Split _ _ | Concat _ | Replace _ _ _ => Ok (place E t size) | _ => Undef NullDeref end
  end.
Lemma call_shape fuel S E rfree t0 c s : oob S <> None -> legal fuel c -> (forall o, c <> Other o) ->
  exists h, str_call fuel S E rfree c s = does E rfree h s /\ str_call_null fuel S E t0 c = does_null E t0 c h /\
    match h with Nothing => forall size, ~ needs c size | Owned size ok => 0 < size /\ needs c size /\ (ok = true -> ~ misfit c) /\ (ok = false -> misfit c) | Bare size => 0 < size /\ needs c size /\ ~ misfit c end.
Proof.
  intros HS L NO. destruct c as [t delim|args|h needle repl|src len|t|t|o]; cbn [legal] in L; cbn [str_call str_call_null needs misfit]; [| | | | | |exfalso; eapply NO; reflexivity].
  - destruct L as (Ht & Hl & Hd & Hf). destruct (Z.eq_dec (zlen t) 0) as [T0|T0].
    { exists Nothing. assert (t = []) as -> by (destruct t; [reflexivity|cbn [List.length] in T0; lia]). unfold str_split_ex. rewrite is_str_eq_empty by (auto; lia). cbn [bind]. cbn.
      split; [reflexivity|]. split; [reflexivity|]. intros size (X & _). tauto. }
    destruct (Z.eq_dec (zlen t) 8) as [T8|T8].
    { exists Nothing. unfold str_split_ex. rewrite is_str_eq_empty by (auto; lia). rewrite T8. cbn. split; [reflexivity|]. split; [reflexivity|]. intros size (_ & X & _). tauto. }
    destruct (str_split_ok fuel S t delim (match delim with Some d => d | None => [32] end) HS Ht ltac:(intros ->; cbn in T0; lia) T8 Hl) as (os & ws & txt & E1 & Sp & Lt & F2).
    { destruct delim; auto. } { destruct delim as [d|]; [intros ->; tauto|discriminate]. } { exact Hf. }
    rewrite E1. cbn [bind]. assert (F3 : List.length os = List.length ws) by (clear - F2; induction F2; cbn [List.length]; congruence).
    exists (Owned (8 * zlen (map Some os ++ [None]) + zlen txt) true). split; [reflexivity|]. split; [reflexivity|]. rewrite app_length, map_length. cbn [List.length].
    split; [lia|]. split; [|split; [tauto|discriminate]]. split; [intros ->; cbn in T0; lia|]. split; [exact T8|]. exists ws. split; [exact Sp|]. lia.
  - destruct L as (Ha & Hl). rewrite str_concat_ok by auto. cbn [bind]. rewrite app_length. cbn [List.length].
    exists (Bare (Z.of_nat (List.length (concat args) + 1))). split; [reflexivity|]. split; [reflexivity|]. split; [lia|]. split; [lia|tauto].
  - destruct L as (Hh & Hx & Hn & Hf & Hl & Hr). destruct (str_replace_ok fuel h needle repl Hh Hx Hn Hf Hl) as [[No E1]|(Oc & r & Sr & E1)].
    + rewrite E1. exists Nothing. split; [reflexivity|]. split; [reflexivity|]. intros size (r & X & _). tauto.
    + rewrite (E1 (Hr r Sr)). cbn [bind]. rewrite app_length. cbn [List.length]. exists (Owned (Z.of_nat (List.length r + 1)) true). split; [reflexivity|]. split; [reflexivity|].
      split; [lia|]. split; [|split; [tauto|discriminate]]. exists r. split; [exact Oc|]. split; [exact Sr|]. lia.
  - rewrite str_memdup_ok by lia. cbn [bind]. exists (Owned (zlen (slice src 0 len ++ [0])) true). split; [reflexivity|]. split; [reflexivity|].
    assert (Ls : zlen (slice src 0 len) = len) by (apply slice_length; lia). rewrite app_length. cbn [List.length]. split; [lia|]. split; [lia|]. split; [tauto|discriminate].
  - destruct L as (Hb & Hl). rewrite encode64_ok by auto. destruct (Z.ltb_spec (4 * ((zlen t + 2) / 3)) 4294967296) as [Lt|Lt]; cbn [bind].
    + exists (Owned (zlen (rfc4648 t ++ [0])) true). split; [reflexivity|]. split; [reflexivity|].
      assert (Lr : zlen (rfc4648 t) = 4 * ((zlen t + 2) / 3)) by (rewrite rfc_enc by exact Hb; apply enc_length). rewrite app_length. cbn [List.length].
      split; [lia|]. split; [lia|]. split; [tauto|discriminate].
    + exists Nothing. split; [reflexivity|]. split; [reflexivity|]. intros size (-> & X). lia.
  - destruct L as (Hb & Hl). destruct (part_exists t) as (p & Hp). rewrite (decode_count_ok t p Hp Hb). cbn [bind]. rewrite Z.add_0_l.
    assert (Lp : zlen p <= zlen t) by (clear - Hp; induction Hp; cbn [List.length] in *; lia).
    destruct (Z.eqb_spec (zlen p) 0) as [P0|P0]; cbn [orb].
    { exists Nothing. split; [reflexivity|]. split; [reflexivity|]. intros size (q & Q & N & _). rewrite (part_fun _ _ Hp _ Q) in N. destruct p; [tauto|cbn [List.length] in P0; lia]. }
    destruct (Z.eqb_spec (zlen p mod 4) 0) as [P4|P4]; cbn [negb].
    2:{ exists Nothing. split; [reflexivity|]. split; [reflexivity|]. intros size (q & Q & _ & N & _). rewrite (part_fun _ _ Hp _ Q) in N. tauto. }
    assert (U : u64 (zlen p / 4 * 3 + 1) = zlen p / 4 * 3 + 1) by (unfold u64; lia). rewrite U.
    assert (Pn : p <> []) by (intros ->; cbn in P0; lia).
    destruct (decode64_ok t p Hp Hb Hl) as [[B E1]|(_ & _ & B & o & rest & _ & E1 & _)]; rewrite E1; cbn [bind].
    + exists (Owned (zlen p / 4 * 3 + 1) false). split. { cbn [does]. destruct (scoped E rfree _ s) as [[a s1]| | |]; reflexivity. } split; [reflexivity|].
      split; [lia|]. split; [exists p; auto|]. split; [discriminate|]. intros _. exists p. split; [exact Hp|]. tauto.
    + exists (Owned (zlen p / 4 * 3 + 1) true). split. { cbn [does]. destruct (scoped E rfree _ s) as [[a s1]| | |]; reflexivity. } split; [reflexivity|].
      split; [lia|]. split; [exists p; auto|]. split; [|discriminate]. intros _ (q & Q & X). rewrite (part_fun _ _ Hp _ Q) in X. tauto.
Qed.

(** The invariant: one step keeps the scope's list, or appends what the call reports. *)
Definition follows (s : scope) (l : list (Z * Z * Z)) (s' : scope) (r : list (Z * Z)) : Prop :=
  w_type s' = w_type s /\ trace s' = trace s /\ (r = [] -> s' = s) /\
  exists l', holds s' l' /\ zlen l' <= zlen l + zlen r /\ (zlen l' = zlen l + zlen r -> exists l2, l' = l ++ l2 /\ map strip l2 = r).
Lemma does_ok E rfree h s l : fits E -> word rfree -> holds s l -> match h with Nothing => True | Owned size _ | Bare size => 0 < size end ->
  does E rfree h s = Panics \/
  exists r a s', does E rfree h s = Ok (r, a, s') /\ follows s l s' r /\
    match h with Nothing => r = [] /\ a = 0 | Owned _ ok => exists b, 0 < b /\ r = [(rfree, b)] /\ a = (if ok then b else 0) | Bare _ => 0 < a /\ r = [(rfree, a)] end.
Proof.
  intros F W H Hs. destruct h as [|size ok|size]; cbn [does].
  - right. exists [], 0, s. split; [reflexivity|]. split; [|auto]. split; [reflexivity|]. split; [reflexivity|]. split; [reflexivity|].
    exists l. split; [exact H|]. split; [lia|]. intros _. exists []. rewrite app_nil_r. auto.
  - unfold scoped. destruct (malloc_full_ok E size rfree s l F H Hs W) as [(s1 & E1)|[E1|(a & s1 & E1 & Pa & Ft & T & Q)]]; rewrite E1; cbn [bind]; [left; reflexivity|left; reflexivity|].
    right. eexists _, _, s1. split; [reflexivity|]. split; [|exists a; auto]. split; [exact Ft|]. split; [exact T|]. split; [discriminate|].
    destruct Q as [Q|Q]; eexists; (split; [exact Q|]); cbn [List.length]; rewrite ?app_length; cbn [List.length]; (split; [lia|]); intros X; [lia|]. eexists. split; reflexivity.
  - cbv zeta. destruct (F (ticks s) size Hs) as [P|[P1 P2]]; [rewrite P; left; reflexivity|]. remember (place E (ticks s) size) as a. replace (a =? 0) with false by lia.
    unfold raii_deferred. destruct (deferred_any_ok E rfree a 0 (tick s) l F) as (i & s1 & E1 & Fr & Tr & _ & Q).
    { apply holds_tick. exact H. } { unfold wordy, word in *. cbn [fst snd]. lia. }
    rewrite E1. cbn [bind]. right. eexists _, _, s1. split; [reflexivity|]. split; [|split; [lia|reflexivity]].
    split. { destruct Fr as (_ & _ & _ & X & _). exact X. } split; [exact Tr|]. split; [discriminate|].
    destruct Q as [[_ Q]|[Q _]]; eexists; (split; [exact Q|]); cbn [List.length]; rewrite ?app_length; cbn [List.length]; (split; [lia|]); intros X; [lia|]. eexists. split; reflexivity.
Qed.
Lemma call_ok fuel S E rfree c s l : oob S <> None -> fits E -> word rfree -> legal fuel c -> holds s l ->
  str_call fuel S E rfree c s = Panics \/
  exists r a s', str_call fuel S E rfree c s = Ok (r, a, s') /\ follows s l s' r /\ registers rfree c r a.
Proof.
  intros HS F W L H.
  assert (D : (forall o, c <> Other o) \/ exists o, c = Other o) by (destruct c; try (left; congruence); right; eauto).
  destruct D as [N|(o & ->)].
  - destruct (call_shape fuel S E rfree 0 c s HS L N) as (h & E1 & _ & Q). rewrite E1.
    destruct (does_ok E rfree h s l F W H) as [P|(r & a & s' & E2 & Fo & X)]; [destruct h; tauto|left; exact P|].
    right. exists r, a, s'. split; [exact E2|]. split; [exact Fo|].
    assert (G : (exists size b, needs c size /\ 0 < b /\ r = [(rfree, b)] /\ ((misfit c /\ a = 0) \/ (~ misfit c /\ a = b))) \/ ((forall size, ~ needs c size) /\ r = [] /\ a = 0)).
    { destruct h as [|size ok|size]; [right; tauto| |].
      - left. destruct X as (b & Pb & Er & Ea). destruct Q as (_ & Nd & Q1 & Q2). exists size, b. split; [exact Nd|]. split; [exact Pb|]. split; [exact Er|]. destruct ok; [right|left]; split; auto.
      - left. exists size, a. split; [tauto|]. split; [tauto|]. split; [tauto|]. right. tauto. }
    destruct c; try exact G. exfalso. eapply N. reflexivity.
  - cbn [str_call legal] in *. destruct (run_ops E [o] s) as [[r s1]| | |] eqn:R; cbn [bind].
    + right. exists r, 0, s1. split; [reflexivity|].
      assert (X : exists f d, r = [(f, d)]).
      { cbn [run_ops] in R. destruct o as [f d c|size f].
        - destruct (raii_deferred_any E f d c s) as [[i s2]| | |]; try discriminate. cbn [bind] in R. injection R as <- <-. eauto.
        - destruct (malloc_full E size f s) as [[[a|] s2]| | |]; try discriminate. cbn [bind] in R. injection R as <- <-. eauto. }
      split; [|exact X]. destruct (run_ops_ok E F [o] s l r s1 H ltac:(constructor; auto) R) as (l' & A1 & A2 & A3 & A4 & A5).
      destruct X as (f & d & ->). cbn [List.length] in *. split; [exact A2|]. split; [exact A3|]. split; [discriminate|]. exists l'. cbn [List.length]. auto.
    + exfalso. cbn [run_ops] in R. destruct o as [f d c|size f].
      * destruct (deferred_any_ok E f d c s l F H L) as (i & s1 & E1 & _). rewrite E1 in R. discriminate.
      * destruct (malloc_full_ok E size f s l F H ltac:(apply L) ltac:(apply L)) as [(s1 & E1)|[E1|(a & s1 & E1 & _)]]; rewrite E1 in R; discriminate.
    + left. reflexivity.
    + exfalso. cbn [run_ops] in R. destruct o as [f d c|size f].
      * destruct (deferred_any_ok E f d c s l F H L) as (i & s1 & E1 & _). rewrite E1 in R. discriminate.
      * destruct (malloc_full_ok E size f s l F H ltac:(apply L) ltac:(apply L)) as [(s1 & E1)|[E1|(a & s1 & E1 & _)]]; rewrite E1 in R; discriminate.
Qed.
(** Every call in a row does what one call may do. *)
Inductive all_register (rfree : Z) : list scall -> list (Z * Z) -> list Z -> Prop :=
| all_none : all_register rfree [] [] []
| all_more c cs l1 l2 a rs : registers rfree c l1 a -> all_register rfree cs l2 rs -> all_register rfree (c :: cs) (l1 ++ l2) (a :: rs).
Lemma calls_ok fuel S E rfree : oob S <> None -> fits E -> word rfree -> forall cs s l, Forall (legal fuel) cs -> holds s l ->
  str_calls fuel S E rfree cs s = Panics \/
  exists r a s', str_calls fuel S E rfree cs s = Ok (r, a, s') /\ follows s l s' r /\ all_register rfree cs r a.
Proof.
  intros HS F W. induction cs as [|c cs IH]; intros s l L H; cbn [str_calls].
  { right. exists [], [], s. split; [reflexivity|]. split; [|constructor]. split; [reflexivity|]. split; [reflexivity|]. split; [reflexivity|].
    exists l. split; [exact H|]. split; [lia|]. intros _. exists []. rewrite app_nil_r. auto. }
  inversion L as [|? ? L1 L2]; subst. destruct (call_ok fuel S E rfree c s l HS F W L1 H) as [P|(r1 & a1 & s1 & E1 & (F1 & F2 & F3 & l1 & H1 & Le1 & X1) & R1)]; [rewrite P; left; reflexivity|].
  rewrite E1. cbn [bind]. destruct (IH s1 l1 L2 H1) as [P|(r2 & a2 & s2 & E2 & (G1 & G2 & G3 & l2 & H2 & Le2 & X2) & R2)]; [rewrite P; left; reflexivity|].
  rewrite E2. cbn [bind]. right. eexists _, _, s2. split; [reflexivity|]. split; [|constructor; auto].
  split; [congruence|]. split; [congruence|]. split. { intros X. apply app_eq_nil in X as [X Y]. rewrite G3, F3 by auto. reflexivity. }
  exists l2. split; [exact H2|]. rewrite app_length. split; [lia|]. intros Q.
  destruct (X2 ltac:(lia)) as (m2 & -> & <-). destruct (X1 ltac:(rewrite app_length in *; lia)) as (m1 & -> & <-). exists (m1 ++ m2). rewrite app_assoc, map_app. auto.
Qed.

(** * C99 *)
(** Whatever strings are made for a scope, in whatever order and mixed with other uses of it: nothing undefined happens (only a failing allocator ends in
    a panic), every call that needs memory registers exactly one block of the size it needs, and the others register nothing. *)
Theorem strings_registered : forall fuel S E rfree cs a st n, oob S <> None -> fits E -> word rfree -> Forall (legal fuel) cs ->
  str_calls fuel S E rfree cs (unique_init a st n) = Panics \/
  exists l rs s, str_calls fuel S E rfree cs (unique_init a st n) = Ok (l, rs, s) /\ all_register rfree cs l rs /\ trace s = [].
Proof.
  intros fuel S E rfree cs a st n HS F W L. destruct (calls_ok fuel S E rfree HS F W cs (unique_init a st n) [] L) as [P|(l & rs & s & E1 & (_ & T & _) & R)]; [apply holds_init; reflexivity|auto|].
  right. exists l, rs, s. split; [exact E1|]. split; [exact R|]. rewrite T. reflexivity.
Qed.
(** Each of these blocks is released once with the scope, newest first, among the other functions deferred on it, then the protector and the array.  Missing: the case in
    which the array of deferred functions could not grow, refuted below. *)
Theorem strings_released_partial : forall fuel S E user rfree cs a st n l rs s er pa, oob S <> None -> fits E -> word rfree -> Forall (legal fuel) cs ->
  str_calls fuel S E rfree cs (unique_init a st n) = Ok (l, rs, s) -> raii_deferred_count s = zlen l ->
  Forall (fun p => isfn E (fst p) = true /\ act E (fst p) (snd p) = []) l ->
  exists s', raii_deferred_free E user (set_err er pa s) = Ok s' /\
    trace s' = map (fun p => Call (fst p) (snd p)) (rev l) ++ returned [protector_at s; w_base s] /\ released s'.
Proof.
  intros fuel S E user rfree cs a st n l rs s er pa HS F W L R C Q. rewrite returned_two.
  assert (H0 : holds (unique_init a st n) []) by (apply holds_init; reflexivity).
  destruct (calls_ok fuel S E rfree HS F W cs (unique_init a st n) [] L H0) as [P|(l0 & rs0 & s0 & E1 & (Ft & Tr & Nil & l' & Hl & Le & X) & _)]; [congruence|].
  rewrite R in E1. injection E1 as <- <- <-.
  assert (Z1 : zlen l' = zlen l) by (destruct Hl as (_ & _ & <- & _); exact C).
  destruct (X ltac:(cbn [List.length]; lia)) as (l2 & El & Er). cbn [app] in El. subst l'.
  destruct (free_ok E user (set_err er pa s) l2 Hl) as (s' & E1 & T1 & Rel & _).
  - cbn [set_err w_type]. rewrite Ft. reflexivity.
  - subst l. clear - Q. induction l2; constructor; inversion Q; subst; auto.
  - intros ->. right. right. cbn [map] in Er. rewrite (Nil (eq_sym Er)). reflexivity.
  - exists s'. split; [exact E1|]. split; [|exact Rel]. rewrite T1. cbn [set_err trace w_base]. rewrite Tr. cbn [unique_init raii_deferred_init set_blk set_words trace app].
    f_equal. rewrite <- Er, <- map_rev, map_map. reflexivity.
Qed.
(** The array cannot grow (the second request fails): str_concat_ex returns its block, nobody releases it. *)
Definition second_fails : env :=
  Env (fun t n => if Nat.eqb t 1 then 0 else if (0 <? n) && (n <? 65536) && (Z.of_nat t <? 1000) then 65536 * (1 + Z.of_nat t) else 0) (fun _ _ => 0) (fun f => f =? 200) nothing.
Theorem strings_released_refuted : exists E s0 a tr, fits E /\ fresh s0 /\
  (let* (_, rs, s1) := str_calls 9 strict E 200 [Concat [bs "ab"; bs "cde"]] s0 in let* s2 := raii_deferred_free E user0 s1 in Ok (rs, trace s2)) = Ok ([a], tr) /\
  0 < a /\ tr = [].
Proof.
  exists second_fails, (unique_init 5000 0 0), 65536, []. split. { intros t n Hn. cbn [second_fails place]. destruct (Nat.eqb t 1); [left; auto|].
    destruct ((0 <? n) && (n <? 65536) && (Z.of_nat t <? 1000)) eqn:X; [right; lia|left; auto]. }
  split; [exists 5000, 0, 0%nat; auto|]. split; [vm_compute; reflexivity|]. split; [lia|reflexivity].
Qed.
(** With a NULL scope the first three functions leave the block to the caller (it is the result); the other three, whenever they need memory, dereference NULL. *)
Theorem strings_null_scope : forall fuel S E t c, oob S <> None -> fits E -> legal fuel c -> (forall o, c <> Other o) ->
  str_call_null fuel S E t c = Panics \/ (str_call_null fuel S E t c = Ok 0 /\ forall size, ~ needs c size) \/
  exists size, needs c size /\
    match c with
    | Split _ _ | Concat _ | Replace _ _ _ => 0 < place E t size /\ str_call_null fuel S E t c = Ok (place E t size)
    | _ => str_call_null fuel S E t c = Undef NullDeref
    end.
Proof.
  intros fuel S E t c HS F L NO. destruct (call_shape fuel S E 0 t c (unique_init 0 0 t) HS L NO) as (h & _ & -> & Q). destruct h as [|size ok|size]; cbn [does_null].
  - right. left. auto.
  - destruct Q as (Ps & Nd & _). destruct (F t size Ps) as [P|[P1 _]]; [rewrite P; left; reflexivity|]. replace (place E t size =? 0) with false by lia.
    right. right. exists size. split; [exact Nd|]. destruct c; auto.
  - destruct Q as (Ps & Nd & _). destruct (F t size Ps) as [P|[P1 _]]; [rewrite P; left; reflexivity|]. replace (place E t size =? 0) with false by lia.
    right. right. exists size. split; [exact Nd|]. destruct c; auto.
Qed.

(** The hypotheses are met: two words, a text whose padding is wrong, an eight-character text (which str_split_ex refuses), a concatenation and a deferred function. *)
Definition some_calls : list scall :=
  [Split (bs "a,b") (Some (bs ",")); Decode (bs "ab=="); Decode (bs "a==="); Split (bs "a,b,c,de") (Some (bs ",")); Concat [bs "x"; bs "yz"]; Other (Defer 100 7 0); Encode (bs "hi"); Replace (bs "abc") (bs "d") (bs "e")].
Definition some_env : env := tidy [100; 200] nothing.
Example strings_case : match str_calls 9 (machine (fun _ => 0)) some_env 200 some_calls (unique_init 5000 0 0) with
  | Ok (l, rs, s) => l = [(200, 65536); (200, 262144); (200, 327680); (200, 393216); (100, 7); (200, 458752)] /\ rs = [65536; 262144; 0; 0; 393216; 0; 458752; 0] /\
      match raii_deferred_free some_env user0 s with
      | Ok s' => trace s' = [Call 200 458752; Call 100 7; Call 200 393216; Call 200 327680; Call 200 262144; Call 200 65536; Freed 131072; Freed 196608]
      | _ => False end
  | _ => False end.
Proof. vm_compute. repeat split. Qed.
Lemma some_legal : Forall (legal 9) some_calls.
Proof.
  assert (Tx : forall l, forallb (fun x => (0 <? x) && (x <? 256)) l = true -> text l) by (intros l H; apply Forall_forall; intros x Hx; rewrite forallb_forall in H; specialize (H x Hx); lia).
  assert (By : forall l, forallb (fun x => (0 <=? x) && (x <? 256)) l = true -> all_bytes l) by (intros l H; apply Forall_forall; intros x Hx; rewrite forallb_forall in H; specialize (H x Hx); lia).
  assert (Sp : forall t, text t -> zlen t < 2147483647 -> (List.length t < 9)%nat -> legal 9 (Split t (Some (bs ",")))) by (intros t A B C; cbn [legal]; repeat split; auto; discriminate).
  assert (De : forall t, all_bytes t -> zlen t < 18446744073709551616 -> legal 9 (Decode t)) by (intros t A B; split; auto).
  unfold some_calls. apply Forall_cons; [apply Sp; [apply Tx; reflexivity|cbn; lia|cbn; lia]|]. do 2 (apply Forall_cons; [apply De; [apply By; reflexivity|cbn; lia]|]).
  apply Forall_cons; [apply Sp; [apply Tx; reflexivity|cbn; lia|cbn; lia]|]. apply Forall_cons. 2: apply Forall_cons. 3: apply Forall_cons; [apply De; [apply By; reflexivity|cbn; lia]|]. 3: apply Forall_cons.
  - split; [repeat (constructor; [apply Tx; reflexivity|]); constructor|cbn; lia].
  - cbn [legal op_word]. unfold wordy, SpecDefer.word. cbn [fst snd]. lia.
  - split; [apply Tx; reflexivity|]. split; [apply Tx; reflexivity|]. split; [discriminate|]. split; [cbn; lia|]. split; [cbn; lia|].
    intros r H. assert (X : zlen r <= 3); [|lia]. clear - H.
    assert (G : forall h, substituted (bs "d") (bs "e") h r -> zlen r <= zlen h); [|exact (G _ H)]. clear H. revert r.
    intros r h H. induction H; cbn [List.length] in *; rewrite ?app_length in *; cbn in *; lia.
  - constructor.
Qed.
Example strings_registered_met := strings_registered 9 (machine (fun _ => 0)) some_env 200 some_calls 5000 0 0 ltac:(discriminate) ltac:(apply tidy_fits) ltac:(unfold word; lia) some_legal.
Definition after_calls := match str_calls 9 (machine (fun _ => 0)) some_env 200 some_calls (unique_init 5000 0 0) with Ok x => x | _ => ([], [], unique_init 0 0 0) end.
Example strings_released_met := strings_released_partial 9 (machine (fun _ => 0)) some_env user0 200 some_calls 5000 0 0 (fst (fst after_calls)) (snd (fst after_calls)) (snd after_calls) 3 0
  ltac:(discriminate) ltac:(apply tidy_fits) ltac:(unfold word; lia) some_legal ltac:(vm_compute; reflexivity) ltac:(vm_compute; reflexivity) ltac:(vm_compute; repeat constructor).
Example strings_null_met : str_call_null 9 strict some_env 0 (Encode (bs "hi")) = Undef NullDeref /\ str_call_null 9 strict some_env 0 (Concat [bs "hi"]) = Ok 65536 /\
  str_call_null 9 (machine (fun _ => 0)) some_env 0 (Split (bs "a,b") None) = Ok 65536.
Proof. vm_compute. repeat split. Qed.
Print Assumptions strings_registered.
Print Assumptions strings_released_partial.
Print Assumptions strings_released_refuted.
Print Assumptions strings_null_scope.
