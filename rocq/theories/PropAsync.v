(** C101: signals that arrive at any instants of the life of a guard's scope. *)
From Verif Require Import AsyncModel.
Open Scope Z_scope.

(** Specification.  What is deferred: function, data, check; oldest first. *)
Definition fd (x : Z * Z * Z) : Z * Z := fst x.
(** An entry whose function has been called. *)
Definition null (x : Z * Z * Z) : Z * Z * Z := (fst (fst x), 0, snd x).
(** The calls made by a release of [l], interrupted by signals after the numbers of steps [js]; [b]: there is an array. *)
Fixpoint called (b : bool) (l : list (Z * Z * Z)) (js : list nat) : out (list (Z * Z)) :=
  match js with
  | [] => Ok (rev (map fd l))
  | j :: js =>
      let n := length l in
      if (j <=? 1)%nat then called b l js
      else if (j <=? 3 * n + 3)%nat then
        let q := ((j - 2) / 3)%nat in
        let keep := firstn (n - q) l in
        let gone := skipn (n - q) l in
        let half := if ((j - 2) mod 3 =? 2)%nat then skipn (n - q - 1) keep else [] in
        let* r := called b (keep ++ map null gone) js in
        Ok (rev (map fd gone) ++ map fd half ++ r)
      else if (j =? 3 * n + 4)%nat then let* r := called b [] js in Ok (rev (map fd l) ++ r)
      else if (j =? 3 * n + 5)%nat && b then Undef DoubleFree
      else Ok (rev (map fd l))
  end.
(** The whole life: [l] is deferred already; the calls, and whether an array is lost. *)
Fixpoint outcome (l todo : list (Z * Z * Z)) (js : list nat) : out (list (Z * Z) * nat) :=
  match js with
  | [] => Ok (rev (map fd (l ++ todo)), 0%nat)
  | j :: js =>
      match todo with
      | [] => let* r := called (0 <? length l)%nat l (match j with O => js | S j => j :: js end) in Ok (r, 0%nat)
      | x :: todo =>
          let grow := (length l mod 16 =? 0)%nat in
          let cost := if grow then 6%nat else 5%nat in
          if (cost <=? j)%nat then outcome (l ++ [x]) todo (j - cost :: js)%nat
          else if grow then
            match j with
            | O => let* r := called (0 <? length l)%nat l js in Ok (r, 0%nat)
            | 1%nat => match l with [] => Ok ([], 1%nat) | _ => Undef UseAfterFree end
            | 2%nat => let* r := called true l js in Ok (r, 0%nat)
            | _ => Undef UninitRead
            end
          else if (j <=? 1)%nat then let* r := called true l js in Ok (r, 0%nat)
          else Undef UninitRead
      end
  end.

(** The blocks not released. *)
Definition alive (m : list blk) : nat := length (filter b_live m).
(** An entry that is written. *)
Definition cell (x : Z * Z * Z) : entry := Entry (Some (fst (fst x))) (Some (snd (fst x))) (Some (snd x)).
(** The array of the scope holds [l]. *)
Definition holds (lk : nat) (b : bool) (l : list (Z * Z * Z)) (cs : list entry) (D : list blk) (s : st) : Prop :=
  tag s = true /\ elems s = length l /\ alive D = lk /\
  if b then base s = Some (length D) /\ mem s = D ++ [Blk true (map cell l ++ cs)] else base s = None /\ l = [] /\ mem s = D.

Lemma alive_app a b : alive (a ++ b) = (alive a + alive b)%nat.
Proof. unfold alive. rewrite filter_app, app_length. reflexivity. Qed.
Lemma setn_mid {A} (a : list A) x b y : setn (a ++ x :: b) (length a) y = a ++ y :: b.
Proof.
  unfold setn. replace (firstn (length a) (a ++ x :: b)) with a by (rewrite firstn_app, Nat.sub_diag, firstn_all, firstn_O, app_nil_r; reflexivity).
  replace (skipn (length a) (a ++ x :: b)) with (x :: b) by (rewrite skipn_app, Nat.sub_diag, skipn_all; reflexivity). reflexivity.
Qed.
Lemma nth_mid {A} (a : list A) x b : nth_error (a ++ x :: b) (length a) = Some x.
Proof. rewrite nth_error_app2, Nat.sub_diag by lia. reflexivity. Qed.
Lemma steps_add a b p s : steps (a + b) p s = (let* (p, s) := steps a p s in steps b p s).
Proof. revert p s. induction a as [|a IH]; intros p s; [reflexivity|]. cbn [steps Nat.add]. destruct (step p s) as [[p' s']| | |]; [apply IH|reflexivity..]. Qed.
Lemma steps_fin n s : steps n Fin s = Ok (Fin, s).
Proof. induction n; [reflexivity|]. cbn. assumption. Qed.

(** One entry of the release. *)
Lemma one lk a x z cs D s : holds lk true (a ++ x :: z) cs D s ->
  let p := Some (length D) in let i := S (length a) in
  exists s1 s2 s3, step (RTest p i) s = Ok (RCall p i, s1) /\ step (RCall p i) s1 = Ok (RNull p i, s2) /\ step (RNull p i) s2 = Ok (RTest p (length a), s3) /\
    holds lk true (a ++ x :: z) cs D s1 /\ holds lk true (a ++ x :: z) cs D s2 /\ holds lk true (a ++ null x :: z) cs D s3 /\
    calls s1 = calls s /\ calls s2 = calls s ++ [fd x] /\ calls s3 = calls s ++ [fd x] /\ err s1 = err s /\ err s2 = err s /\ err s3 = err s.
Proof.
  intros H p i.
  assert (Ld : forall s, holds lk true (a ++ x :: z) cs D s -> load p (length a) s = Ok (cell x)).
  { intros s0 (_ & _ & _ & Eb & Em). unfold load, block, p. rewrite Em, nth_mid. cbn [b_live b_cells bind]. rewrite map_app, <- app_assoc. cbn [map app].
    rewrite <- (map_length cell a), nth_mid. reflexivity. }
  set (s1 := if err s then (if snd x =? 0 then s else set_recovered false s) else s).
  assert (E1 : step (RTest p i) s = Ok (RCall p i, s1)) by (unfold step, i, s1; rewrite (Ld s H); cbn; destruct (err s); reflexivity).
  assert (H1 : holds lk true (a ++ x :: z) cs D s1 /\ calls s1 = calls s /\ err s1 = err s).
  { unfold s1. destruct (err s) eqn:Ee; [destruct (snd x =? 0)|]; repeat split; try apply H; exact Ee. }
  destruct H1 as (H1 & C1 & R1). clearbody s1.
  set (s2 := set_calls (calls s1 ++ [fd x]) s1).
  assert (E2 : step (RCall p i) s1 = Ok (RNull p i, s2)).
  { unfold step, i. replace (S (length a) - 1)%nat with (length a) by lia. rewrite (Ld s1 H1). cbn. unfold s2, fd. destruct x as [[f d] c]. reflexivity. }
  assert (H2 : holds lk true (a ++ x :: z) cs D s2) by apply H1.
  exists s1, s2. eexists. split; [exact E1|]. split; [exact E2|]. split.
  { unfold step, i. replace (S (length a) - 1)%nat with (length a) by lia. unfold store, block, p. destruct H2 as (_ & _ & _ & Eb & Em). rewrite Em, nth_mid. cbn [b_live b_cells bind].
    rewrite map_app, <- app_assoc. cbn [map app]. rewrite <- (map_length cell a). rewrite nth_mid, !setn_mid, (map_length cell a). reflexivity. }
  split; [exact H1|]. split; [exact H2|]. split.
  { destruct H2 as (T & N & A & Eb & Em). split; [exact T|]. split; [cbn [elems set_mem]; rewrite N, !app_length; reflexivity|]. split; [exact A|]. split; [exact Eb|].
    cbn [mem set_mem]. f_equal. f_equal. rewrite map_app, <- app_assoc. cbn [map app]. reflexivity. }
  cbn. rewrite C1, R1. auto 8.
Qed.
(** [m] of them. *)
Lemma many lk m : forall a z cs D s, holds lk true (a ++ m ++ z) cs D s ->
  exists s', steps (3 * length m) (RTest (Some (length D)) (length a + length m)) s = Ok (RTest (Some (length D)) (length a), s') /\
    holds lk true (a ++ map null m ++ z) cs D s' /\ calls s' = calls s ++ rev (map fd m) /\ err s' = err s.
Proof.
  induction m as [|x m IH] using rev_ind; intros a z cs D s H.
  - exists s. cbn. rewrite Nat.add_0_r, app_nil_r. auto.
  - rewrite <- app_assoc in H. cbn [app] in H. rewrite app_assoc in H. destruct (one _ _ _ _ _ _ _ H) as (s1 & s2 & s3 & E1 & E2 & E3 & _ & _ & H3 & _ & _ & C3 & _ & _ & R3).
    rewrite <- app_assoc in H3. destruct (IH a (null x :: z) cs D s3 H3) as (s' & E & H' & C' & R').
    exists s'. split; [|split; [|split]].
    + rewrite app_length in *. cbn [length]. replace (3 * (length m + 1))%nat with (3 + 3 * length m)%nat by lia. rewrite steps_add.
      replace (length a + (length m + 1))%nat with (S (length a + length m)) by lia. cbn [steps]. rewrite E1. cbn [bind]. rewrite E2. cbn [bind]. rewrite E3. exact E.
    + rewrite map_app, <- app_assoc. exact H'.
    + rewrite C', C3, map_app, rev_app_distr, <- app_assoc. reflexivity.
    + congruence.
Qed.
(** The first steps of a release. *)
Lemma start lk b l cs D s : holds lk b l cs D s -> exists s', steps 2 RType s = Ok (RTest (base s) (length l), s') /\ holds lk b l cs D s' /\ calls s' = calls s /\ err s' = err s.
Proof. intros H. cbn [steps step]. destruct H as (T & N & A & B). rewrite T. cbn. rewrite N. eexists. split; [reflexivity|]. split; [|auto]. split; [exact T|]. auto. Qed.
Lemma holds_base lk b l cs D s : holds lk b l cs D s -> base s = if b then Some (length D) else None.
Proof. intros (_ & _ & _ & H). destruct b; apply H. Qed.

(** A release up to a signal inside the loop. *)
Lemma within lk b l cs D s j : holds lk b l cs D s -> (2 <= j <= 3 * length l + 3)%nat ->
  let q := ((j - 2) / 3)%nat in let keep := firstn (length l - q) l in let gone := skipn (length l - q) l in
  let half := if ((j - 2) mod 3 =? 2)%nat then skipn (length l - q - 1) keep else [] in
  exists p s', steps j RType s = Ok (p, s') /\ holds lk b (keep ++ map null gone) cs D s' /\ calls s' = calls s ++ rev (map fd gone) ++ map fd half.
Proof.
  intros H J q keep gone half. destruct (start _ _ _ _ _ _ H) as (s1 & E1 & H1 & C1 & _).
  assert (Q : (q <= length l)%nat) by (unfold q; lia).
  set (r := ((j - 2) mod 3)%nat) in *. assert (Ej : j = (2 + (3 * q + r))%nat) by (unfold q, r; lia). assert (Hr : (r < 3)%nat) by (unfold r; lia). assert (Hq : q = length l -> (r <= 1)%nat) by (unfold q, r; lia).
  assert (El : l = keep ++ gone) by (symmetry; apply firstn_skipn). assert (Lg : length gone = q) by (unfold gone; rewrite skipn_length; lia).
  assert (Lk : length keep = (length l - q)%nat) by (unfold keep; rewrite firstn_length; lia).
  assert (K : exists s2, steps (2 + 3 * q) RType s = Ok (RTest (base s) (length keep), s2) /\ holds lk b (keep ++ map null gone) cs D s2 /\ calls s2 = calls s ++ rev (map fd gone)).
  { rewrite steps_add, E1. cbn [bind]. rewrite (holds_base _ _ _ _ _ _ H). destruct b.
    - rewrite El, <- (app_nil_r gone) in H1. destruct (many _ gone keep [] cs D s1 H1) as (s2 & E2 & H2 & C2 & _). rewrite app_nil_r in H2. exists s2.
      rewrite Lg in E2. replace (length keep + q)%nat with (length l) in E2 by lia. split; [exact E2|]. split; [exact H2|congruence].
    - assert (Z0 : l = []) by apply H. assert (q = 0%nat) by (rewrite Z0 in Q; apply Nat.le_0_r; exact Q). assert (Zg : gone = []) by (apply length_zero_iff_nil; congruence).
      assert (Zk : keep = []) by (clear -El Z0 Zg; rewrite Zg, Z0, app_nil_r in El; auto). rewrite Zg, Zk, H0. rewrite Z0 in E1, H1 |- *. exists s1. cbn. rewrite app_nil_r. auto. }
  destruct K as (s2 & E2 & H2 & C2).
  destruct (Nat.eq_dec r 0) as [R0|R0].
  { exists (RTest (base s) (length keep)), s2. rewrite Ej, R0, Nat.add_0_r. split; [exact E2|]. split; [exact H2|]. unfold half. rewrite R0. cbn. rewrite app_nil_r. exact C2. }
  destruct (Nat.eq_dec q (length l)) as [Ql|Ql].
  { assert (r = 1%nat) by (apply Hq in Ql; lia). exists RElems, s2. rewrite Ej, Nat.add_assoc, steps_add, E2. cbn [bind]. rewrite H0, Lk, Ql, Nat.sub_diag. split; [reflexivity|]. split; [exact H2|]. unfold half. rewrite H0. cbn. rewrite app_nil_r. exact C2. }
  assert (Bt : b = true) by (destruct b; [reflexivity|]; assert (Z0 : l = []) by apply H; apply (f_equal (@length _)) in Z0; cbn [length] in Z0; lia). subst b.
  assert (Nk : keep <> []) by (intros X; rewrite X in Lk; cbn [length] in Lk; lia). pose proof (exists_last Nk) as (a & x & Ek).
  rewrite Ek, <- app_assoc in H2. cbn [app] in H2. destruct (one _ _ _ _ _ _ _ H2) as (t1 & t2 & t3 & F1 & F2 & _ & G1 & G2 & _ & D1 & D2 & _).
  assert (Lx : length keep = S (length a)) by (rewrite Ek, app_length; cbn; lia).
  destruct (Nat.eq_dec r 1) as [R1|R1].
  - exists (RCall (Some (length D)) (S (length a))), t1. rewrite Ej, Nat.add_assoc, steps_add, E2. cbn [bind]. rewrite R1, Lx, (holds_base _ _ _ _ _ _ H). cbn [steps]. rewrite F1. split; [reflexivity|].
    split; [rewrite Ek, <- app_assoc; exact G1|]. unfold half. rewrite R1. cbn. rewrite app_nil_r. congruence.
  - assert (R2 : r = 2%nat) by lia. exists (RNull (Some (length D)) (S (length a))), t2. rewrite Ej, Nat.add_assoc, steps_add, E2. cbn [bind]. rewrite R2, Lx, (holds_base _ _ _ _ _ _ H). cbn [steps]. rewrite F1. cbn [bind]. rewrite F2. split; [reflexivity|].
    split; [rewrite Ek, <- app_assoc; exact G2|]. unfold half. rewrite R2. cbn [Nat.eqb]. rewrite <- Lk, Lx, Ek. replace (S (length a) - 1)%nat with (length a) by lia.
    rewrite skipn_app, Nat.sub_diag, skipn_all. cbn. rewrite D2, C2, <- app_assoc. reflexivity.
Qed.
(** The last steps of a release. *)
Lemma ending lk b l cs D s : holds lk b l cs D s -> exists s1 s2 s3 s4 s5,
  steps (3 * length l + 4) RType s = Ok (RFree, s1) /\ holds lk b [] (map cell (map null l) ++ cs) D s1 /\ calls s1 = calls s ++ rev (map fd l) /\
  steps (3 * length l + 5) RType s = Ok (RBase, s2) /\ tag s2 = true /\ elems s2 = 0%nat /\ base s2 = base s /\ alive (mem s2) = lk /\ (forall k, base s2 = Some k -> exists c, nth_error (mem s2) k = Some (Blk false c)) /\ calls s2 = calls s ++ rev (map fd l) /\
  steps (3 * length l + 6) RType s = Ok (RZero, s3) /\ steps (3 * length l + 7) RType s = Ok (RClear, s4) /\ holds lk false [] [] (mem s3) s3 /\ holds lk false [] [] (mem s4) s4 /\ calls s3 = calls s ++ rev (map fd l) /\ calls s4 = calls s ++ rev (map fd l) /\
  steps (3 * length l + 8) RType s = Ok (Fin, s5) /\ tag s5 = false /\ alive (mem s5) = lk /\ calls s5 = calls s ++ rev (map fd l).
Proof.
  intros H. assert (X : (2 <= 3 * length l + 3 <= 3 * length l + 3)%nat) by lia. destruct (within _ _ _ _ _ _ _ H X) as (p & s0 & E0 & H0 & C0).
  assert (Q : ((3 * length l + 3 - 2) / 3 = length l)%nat) by lia. assert (R : ((3 * length l + 3 - 2) mod 3 = 1)%nat) by lia. rewrite Q, R, Nat.sub_diag in *. cbn [firstn skipn app Nat.eqb map] in H0, C0. rewrite app_nil_r in C0.
  assert (Ep : p = RElems).
  { revert E0. replace (3 * length l + 3)%nat with (2 + 3 * length l + 1)%nat by lia. rewrite steps_add.
    assert (Y : (2 <= 2 + 3 * length l <= 3 * length l + 3)%nat) by lia. destruct (start _ _ _ _ _ _ H) as (s1 & E1 & H1 & _ & _). rewrite steps_add, E1. cbn [bind].
    rewrite (holds_base _ _ _ _ _ _ H). destruct b.
    - destruct (many lk l [] [] cs D s1) as (s2 & E2 & _); [cbn [app]; rewrite app_nil_r; exact H1|]. cbn [length Nat.add] in E2. rewrite E2. cbn. congruence.
    - assert (Z0 : l = []) by apply H. rewrite Z0. cbn. congruence. }
  subst p. destruct H0 as (T & N & A & B).
  assert (S4 : forall t, steps (3 * length l + (3 + t)) RType s = steps t RElems s0) by (intros t; rewrite Nat.add_assoc, steps_add, E0; reflexivity).
  assert (Bs : base s0 = base s) by (rewrite (holds_base _ _ _ _ _ _ H); destruct b; apply B).
  set (s1 := set_elems 0 s0).
  assert (Fr : exists m, free_ (base s1) s1 = Ok (set_mem m s1) /\ alive m = lk /\ forall k, base s0 = Some k -> exists c, nth_error m k = Some (Blk false c)).
  { unfold free_. destruct b.
    - destruct B as [B1 B2]. cbn [s1 set_elems base mem]. rewrite B1, B2, nth_mid. cbn [b_live b_cells]. rewrite setn_mid. eexists. split; [reflexivity|]. split; [rewrite alive_app; cbn; lia|].
      intros k [= <-]. rewrite nth_mid. eauto.
    - destruct B as (B1 & _ & B2). cbn [s1 set_elems base]. rewrite B1. exists (mem s0). split; [destruct s0; reflexivity|]. split; [congruence|discriminate]. }
  destruct Fr as (m & Fr & Al & Dead).
  exists s1, (set_mem m s1), (set_base None (set_mem m s1)), (set_elems 0 (set_base None (set_mem m s1))), (St false None 0 (err s0) (recovered s0) m (calls s0)).
  split; [exact (S4 1%nat)|]. split.
  { split; [exact T|]. split; [reflexivity|]. split; [exact A|]. destruct b; [|tauto]. destruct B as [B1 B2]. split; [exact B1|]. cbn [map app]. exact B2. }
  split; [exact C0|]. split; [transitivity (steps 2 RElems s0); [exact (S4 2%nat)|]; cbn [steps step bind]; fold s1; rewrite Fr; reflexivity|].
  split; [exact T|]. split; [reflexivity|]. split; [exact Bs|]. split; [exact Al|]. split; [exact Dead|]. split; [exact C0|].
  split; [transitivity (steps 3 RElems s0); [exact (S4 3%nat)|]; cbn [steps step bind]; fold s1; rewrite Fr; reflexivity|]. split; [transitivity (steps 4 RElems s0); [exact (S4 4%nat)|]; cbn [steps step bind]; fold s1; rewrite Fr; reflexivity|].
  split; [repeat split; assumption|]. split; [repeat split; assumption|]. split; [exact C0|]. split; [exact C0|].
  split; [transitivity (steps 5 RElems s0); [exact (S4 5%nat)|]; cbn [steps step bind]; fold s1; rewrite Fr; reflexivity|]. auto.
Qed.

(** What is left of the state after a signal. *)
Definition hit (s : st) : st := snd (signal s).
Lemma hit_holds lk b l cs D s : holds lk b l cs D s -> holds lk b l cs D (hit s).
Proof. intros H. apply H. Qed.
(** Once the array is dangling no further signal helps. *)
Lemma doomed js : forall p0 s k c, tag s = true -> elems s = 0%nat -> base s = Some k -> nth_error (mem s) k = Some (Blk false c) -> p0 = RType ->
  life js p0 s = Undef DoubleFree.
Proof.
  assert (St5 : forall n s k c, tag s = true -> elems s = 0%nat -> base s = Some k -> nth_error (mem s) k = Some (Blk false c) ->
    steps n RType s = Undef DoubleFree \/ ((n < 5)%nat /\ exists p s', steps n RType s = Ok (p, s') /\ tag s' = true /\ elems s' = 0%nat /\ base s' = Some k /\ mem s' = mem s)).
  { intros n s k c T N B M. destruct (le_lt_dec 5 n) as [L|L].
    - left. replace n with (5 + (n - 5))%nat by lia. rewrite steps_add. destruct s as [t b e er rc m cl]. cbn in T, N, B, M. subst. cbn. rewrite M. reflexivity.
    - right. split; [exact L|]. do 5 (destruct n as [|n]; [cbn [steps step bind]; rewrite ?T; cbn [bind steps step]; rewrite ?N; cbn [bind steps step]; do 2 eexists; split; [reflexivity|]; cbn; auto|]). lia. }
  induction js as [|j js IH]; intros p0 s k c T N B M ->; cbn [life].
  - unfold finish. rewrite N. destruct (St5 (10 + 9 * 0 + 3 * 0)%nat s k c T N B M) as [-> |[L _]]; [reflexivity|lia].
  - destruct (St5 j s k c T N B M) as [-> |(L & p & s' & -> & T' & N' & B' & M')]; [reflexivity|]. cbn [bind signal]. apply (IH RType _ k c); cbn; auto. congruence.
Qed.
(** A released scope stays so. *)
Lemma released js : forall s, tag s = false -> exists s', life js RType s = Ok s' /\ calls s' = calls s /\ mem s' = mem s /\ tag s' = false.
Proof.
  assert (K : forall n s, tag s = false -> exists p, steps n RType s = Ok (p, s) /\ ((0 < n)%nat -> p = Fin)).
  { intros [|n] s T; [exists RType; split; [reflexivity|lia]|]. exists Fin. cbn [steps step bind]. rewrite T. split; [apply steps_fin|reflexivity]. }
  induction js as [|j js IH]; intros s T; cbn [life].
  - unfold finish. destruct (K (10 + 9 * 0 + 3 * elems s)%nat s T) as (p & -> & P). rewrite P by lia. cbn. exists s. auto.
  - destruct (K j s T) as (p & -> & _). cbn [bind signal]. destruct (IH (hit s) T) as (s' & E & C & M & T'). exists s'. auto.
Qed.
Lemma called_none js : called false [] js = Ok [].
Proof. induction js as [|j js IH]; [reflexivity|]. cbn [called length]. destruct (_ <=? 1)%nat; [exact IH|]. destruct (_ <=? _)%nat.
  { rewrite !firstn_nil, !skipn_nil. cbn [map app rev]. rewrite IH. cbn. destruct (_ =? 2)%nat; reflexivity. }
  destruct (_ =? _)%nat; [rewrite IH; reflexivity|]. rewrite andb_false_r. reflexivity. Qed.
(** The release with any number of signals. *)
Lemma release_all js : forall lk b l cs D s, holds lk b l cs D s ->
  match called b l js with
  | Ok cs => exists s', life js RType s = Ok s' /\ calls s' = calls s ++ cs /\ alive (mem s') = lk /\ tag s' = false
  | o => life js RType s = match o with Undef u => Undef u | Panics => Panics | _ => NoFuel end
  end.
Proof.
  induction js as [|j js IH]; intros lk b l cs D s H.
  - cbn [called life]. destruct (ending _ _ _ _ _ _ H) as (s1 & s2 & s3 & s4 & s5 & _ & _ & _ & _ & _ & _ & _ & _ & _ & _ & _ & _ & _ & _ & _ & _ & E & T & A & C).
    exists s5. split; [|auto]. unfold finish. replace (elems s) with (length l) by (symmetry; apply H). replace (10 + 9 * 0 + 3 * length l)%nat with (3 * length l + 8 + 2)%nat by lia. rewrite steps_add, E. reflexivity.
  - assert (Then : forall p s' cs' D' lk' l' b' pre, steps j RType s = Ok (p, s') -> holds lk' b' l' cs' D' s' -> lk' = lk -> calls s' = calls s ++ pre ->
      match (let* r := called b' l' js in Ok (pre ++ r)) with
      | Ok cs => exists s', life (j :: js) RType s = Ok s' /\ calls s' = calls s ++ cs /\ alive (mem s') = lk /\ tag s' = false
      | o => life (j :: js) RType s = match o with Undef u => Undef u | Panics => Panics | _ => NoFuel end
      end).
    { intros p s' cs' D' lk' l' b' pre E H' -> C. cbn [life]. rewrite E. cbn [bind signal]. specialize (IH _ _ _ _ _ _ (hit_holds _ _ _ _ _ _ H')).
      destruct (called b' l' js) as [r| | |]; cbn [bind]; [|exact IH..]. destruct IH as (s2 & E2 & C2 & A2 & T2). exists s2. split; [exact E2|]. split; [|auto].
      rewrite C2. cbn [hit signal snd calls]. rewrite C, app_assoc. reflexivity. }
    cbn [called]. destruct (j <=? 1)%nat eqn:J1; [apply Nat.leb_le in J1|apply Nat.leb_gt in J1].
    { assert (X : exists p s', steps j RType s = Ok (p, s') /\ holds lk b l cs D s' /\ calls s' = calls s ++ []).
      { destruct H as (T & H). rewrite app_nil_r. destruct j as [|[|j]]; [exists RType, s|exists RStart, s|lia]; (split; [cbn; rewrite ?T; reflexivity|]); split; [split; assumption|reflexivity|split; assumption|reflexivity]. }
      destruct X as (p & s' & E & H' & C). specialize (Then p s' cs D lk l b [] E H' eq_refl C). destruct (called b l js); exact Then. }
    destruct (j <=? 3 * length l + 3)%nat eqn:J2; [apply Nat.leb_le in J2|apply Nat.leb_gt in J2].
    { destruct (within lk b l cs D s j H) as (p & s' & E & H' & C); [lia|]. specialize (Then p s' cs D lk _ b _ E H' eq_refl C).
      destruct (called b _ js); cbn [bind] in *; rewrite <- ?app_assoc in Then; exact Then. }
    destruct (ending _ _ _ _ _ _ H) as (s1 & s2 & s3 & s4 & s5 & E1 & H1 & C1 & E2 & T2 & N2 & B2 & A2 & D2 & C2 & E3 & E4 & H3 & H4 & C3 & C4 & E5 & T5 & A5 & C5).
    destruct (j =? 3 * length l + 4)%nat eqn:J3; [apply Nat.eqb_eq in J3|apply Nat.eqb_neq in J3].
    { rewrite <- J3 in E1. exact (Then _ _ _ _ _ _ _ _ E1 H1 eq_refl C1). }
    assert (Ends : forall p s', steps j RType s = Ok (p, s') -> holds lk false [] [] (mem s') s' -> calls s' = calls s ++ rev (map fd l) ->
      exists s', life (j :: js) RType s = Ok s' /\ calls s' = calls s ++ rev (map fd l) /\ alive (mem s') = lk /\ tag s' = false).
    { intros p s' E H' C. specialize (Then p s' [] (mem s') lk [] false _ E H' eq_refl C). rewrite called_none in Then. cbn [bind] in Then. rewrite app_nil_r in Then. exact Then. }
    destruct (j =? 3 * length l + 5)%nat eqn:J4; [apply Nat.eqb_eq in J4|apply Nat.eqb_neq in J4]; cbn [andb].
    { rewrite <- J4 in E2. destruct b.
      - cbn [life]. rewrite E2. cbn [bind signal]. assert (Bk : base s2 = Some (length D)) by (rewrite B2; apply H). destruct (D2 _ Bk) as (c & M). apply (doomed js _ _ (length D) c); auto.
      - apply (Ends _ _ E2); [|exact C2]. split; [exact T2|]. split; [exact N2|]. split; [exact A2|]. split; [|auto]. rewrite B2. apply H. }
    destruct (Nat.eq_dec j (3 * length l + 6)) as [J5|J5]; [rewrite <- J5 in E3; exact (Ends _ _ E3 H3 C3)|].
    destruct (Nat.eq_dec j (3 * length l + 7)) as [J6|J6]; [rewrite <- J6 in E4; exact (Ends _ _ E4 H4 C4)|].
    cbn [life]. replace j with (3 * length l + 8 + (j - (3 * length l + 8)))%nat by lia. rewrite steps_add, E5. cbn [bind]. rewrite steps_fin. cbn [bind signal].
    destruct (released js (hit s5) T5) as (s' & E & C & M & T'). exists s'. split; [exact E|]. rewrite C, M. split; [exact C5|]. split; [exact A5|exact T'].
Qed.

(** The newest entry cannot be read: no further signal helps. *)
Definition broken (u : ub) (s : st) : Prop := tag s = true /\ exists i, elems s = S i /\ (let* e := load (base s) i s in known (e_check e)) = Undef u.
Lemma doomed_entry js : forall u s, broken u s -> err s = true -> life js RType s = Undef u.
Proof.
  assert (K : forall n u s, broken u s -> err s = true -> if (n <=? 2)%nat then exists p s', steps n RType s = Ok (p, s') /\ broken u (hit s') else steps n RType s = Undef u).
  { intros n u s (T & i & N & B) E. destruct n as [|[|[|n]]]; cbn [Nat.leb].
    - exists RType, s. split; [reflexivity|]. split; [exact T|exists i; split; [exact N|exact B]].
    - exists RStart, s. split; [cbn; rewrite T; reflexivity|]. split; [exact T|exists i; split; [exact N|exact B]].
    - eexists _, _. split; [cbn; rewrite T; cbn; reflexivity|]. split; [exact T|exists i; split; [exact N|exact B]].
    - cbn [steps step]. rewrite T. cbn [bind steps step]. rewrite N. cbn [set_recovered err]. rewrite E. set (s1 := set_recovered (negb true) s).
      replace (load (base s) i s1) with (load (base s) i s) by reflexivity. destruct (load (base s) i s) as [e| | |]; cbn [bind] in *; try congruence. destruct (known (e_check e)); cbn [bind]; congruence. }
  induction js as [|j js IH]; intros u s B E; cbn [life].
  - unfold finish. pose proof (K (10 + 9 * 0 + 3 * elems s)%nat u s B E) as X. replace (10 + 9 * 0 + 3 * elems s <=? 2)%nat with false in X by (symmetry; apply Nat.leb_gt; lia). rewrite X. reflexivity.
  - pose proof (K j u s B E) as X. destruct (j <=? 2)%nat; [|rewrite X; reflexivity]. destruct X as (p & s' & -> & B'). cbn [bind signal]. exact (IH _ _ B' eq_refl).
Qed.
(** Between two deferrals. *)
Definition blank : entry := Entry None None None.
Definition ready (l : list (Z * Z * Z)) (s : st) : Prop := calls s = [] /\ err s = false /\
  exists D, holds 0 (0 <? length l)%nat l (repeat blank (16 * ((length l + 15) / 16) - length l)) D s.
Lemma firstn_repeat_app l n : firstn (length l + n) (l ++ []) ++ repeat blank (length l + n - length (l ++ [])) = l ++ repeat blank n.
Proof. rewrite app_nil_r, firstn_all2 by lia. f_equal. f_equal. lia. Qed.
(** Making room. *)
Lemma room l x t s : ready l s -> let grow := (length l mod 16 =? 0)%nat in
  exists D s2, steps (if grow then 2 else 1) (Go (x :: t)) s = Ok (Take x t, s2) /\ calls s2 = [] /\ err s2 = false /\
    holds 0 true l (repeat blank (S (16 * ((length l + 16) / 16) - S (length l)))) D s2 /\
    (grow = true -> exists k s1, steps 1 (Go (x :: t)) s = Ok (Grown k x t, s1) /\ calls s1 = [] /\
      match l with [] => holds 1 false [] [] (mem s1) s1 | _ => broken UseAfterFree s1 end).
Proof.
  intros (C & E & D & H) grow. unfold grow. destruct (length l mod 16 =? 0)%nat eqn:G; [apply Nat.eqb_eq in G|apply Nat.eqb_neq in G].
  - assert (N : elems s = length l) by apply H. destruct l as [|y l'].
    + destruct H as (T & _ & A & B & _ & M). exists D. cbn [length] in *. eexists. cbn [steps step]. rewrite N. cbn [Nat.modulo Nat.divmod fst snd Nat.sub Nat.eqb]. rewrite B. cbn [realloc bind steps step].
      split; [reflexivity|]. split; [exact C|]. split; [exact E|]. split.
      { split; [exact T|]. split; [exact N|]. split; [exact A|]. cbn [base mem set_base set_mem]. rewrite M. split; [reflexivity|]. reflexivity. }
      intros _. do 2 eexists. split; [reflexivity|]. split; [exact C|]. split; [exact T|]. split; [exact N|]. split; [cbn [mem set_mem]; rewrite alive_app, M, A; reflexivity|]. split; [exact B|]. auto.
    + set (l := y :: l') in *. assert (Ln : (0 < length l)%nat) by (unfold l; cbn; lia). replace (0 <? length l)%nat with true in H by (symmetry; apply Nat.ltb_lt; exact Ln).
      replace (16 * ((length l + 15) / 16) - length l)%nat with 0%nat in H by lia. cbn [repeat] in H. destruct H as (T & _ & A & B & M).
      exists (D ++ [Blk false (map cell l ++ [])]). cbn [steps step]. rewrite N, G. cbn [Nat.eqb]. unfold realloc, block, free_. rewrite B, M, nth_mid. cbn [b_live b_cells bind]. rewrite setn_mid. cbn [b_live bind steps step].
      eexists. split; [reflexivity|]. split; [exact C|]. split; [exact E|]. split.
      { split; [exact T|]. split; [exact N|]. split; [rewrite alive_app, A; reflexivity|]. cbn [base mem set_base set_mem]. split; [reflexivity|]. f_equal. f_equal. f_equal.
        rewrite <- (map_length cell l) at 1 2. fold blank. rewrite firstn_repeat_app. f_equal. f_equal. lia. }
      intros _. do 2 eexists. split; [reflexivity|]. split; [exact C|]. unfold l. split; [exact T|]. exists (length l'). split; [exact N|]. unfold load, block. cbn [base set_mem mem]. rewrite B, <- app_assoc. cbn [app]. rewrite nth_mid. reflexivity.
  - assert (Ln : (0 < length l)%nat) by (destruct l; [elim G; reflexivity|cbn; lia]). replace (0 <? length l)%nat with true in H by (symmetry; apply Nat.ltb_lt; exact Ln).
    exists D, s. assert (N : elems s = length l) by apply H. cbn [steps step]. rewrite N. apply Nat.eqb_neq in G. rewrite G. split; [reflexivity|]. split; [exact C|]. split; [exact E|]. split; [|discriminate].
    apply Nat.eqb_neq in G. replace (S (16 * ((length l + 16) / 16) - S (length l))) with (16 * ((length l + 15) / 16) - length l)%nat by lia. exact H.
Qed.
(** Writing the entry. *)
Lemma write l x t s m D : calls s = [] -> err s = false -> holds 0 true l (repeat blank (S m)) D s ->
  exists p3 s3 p4 s4 p5 s5 s6, steps 1 (Take x t) s = Ok (p3, s3) /\ steps 2 (Take x t) s = Ok (p4, s4) /\ steps 3 (Take x t) s = Ok (p5, s5) /\ steps 4 (Take x t) s = Ok (Go t, s6) /\
    broken UninitRead s3 /\ broken UninitRead s4 /\ broken UninitRead s5 /\ calls s6 = [] /\ err s6 = false /\ holds 0 true (l ++ [x]) (repeat blank m) D s6.
Proof.
  intros C E (T & N & A & B & M). cbn [repeat] in M. set (i := length l) in *.
  assert (Q : forall s e, base s = Some (length D) -> mem s = D ++ [Blk true (map cell l ++ e :: repeat blank m)] -> (load (base s) i s = Ok e) /\ forall f, store (Some (length D)) i f s = Ok (set_mem (D ++ [Blk true (map cell l ++ f e :: repeat blank m)]) s)).
  { intros s0 e B0 M0. unfold load, store, block, i. rewrite B0, M0, nth_mid. cbn [b_live b_cells bind]. rewrite <- (map_length cell l), nth_mid. split; [reflexivity|]. intros f. rewrite !setn_mid. reflexivity. }
  set (s3 := set_elems (S i) s). destruct (Q s3 blank B M) as [L3 W3].
  set (e4 := Entry (Some (fst (fst x))) None None). set (s4 := set_mem (D ++ [Blk true (map cell l ++ e4 :: repeat blank m)]) s3). destruct (Q s4 e4 B eq_refl) as [L4 W4].
  set (e5 := Entry (Some (fst (fst x))) (Some (snd (fst x))) None). set (s5 := set_mem (D ++ [Blk true (map cell l ++ e5 :: repeat blank m)]) s4). destruct (Q s5 e5 B eq_refl) as [L5 W5].
  exists (Func (Some (length D)) i x t), s3, (Data (Some (length D)) i x t), s4, (Check (Some (length D)) i x t), s5, (set_mem (D ++ [Blk true (map cell l ++ cell x :: repeat blank m)]) s5).
  assert (E3 : step (Take x t) s = Ok (Func (Some (length D)) i x t, s3)) by (cbn [step]; rewrite B, N; reflexivity).
  assert (E4 : step (Func (Some (length D)) i x t) s3 = Ok (Data (Some (length D)) i x t, s4)) by (cbn [step]; rewrite W3; reflexivity).
  assert (E5 : step (Data (Some (length D)) i x t) s4 = Ok (Check (Some (length D)) i x t, s5)) by (cbn [step]; rewrite W4; reflexivity).
  cbn [steps]. rewrite E3. cbn [bind]. rewrite E4. cbn [bind]. rewrite E5. cbn [bind step]. rewrite W5. cbn [bind].
  do 4 (split; [reflexivity|]).
  assert (Br : forall s' e, tag s' = true -> elems s' = S i -> load (base s') i s' = Ok e -> e_check e = None -> broken UninitRead s') by (intros s' e T' N' L' K; split; [exact T'|]; exists i; rewrite L'; cbn [bind]; rewrite K; auto).
  split; [exact (Br s3 blank T eq_refl L3 eq_refl)|]. split; [exact (Br s4 e4 T eq_refl L4 eq_refl)|]. split; [exact (Br s5 e5 T eq_refl L5 eq_refl)|].
  split; [exact C|]. split; [exact E|]. split; [exact T|]. split; [cbn; rewrite app_length; cbn; unfold i; lia|]. split; [exact A|]. split; [exact B|].
  cbn [mem set_mem]. rewrite map_app, <- app_assoc. reflexivity.
Qed.
(** Every life: any body, any number of signals at any instants. *)
Theorem signals_exact : forall body js,
  match outcome [] body js with
  | Ok (cs, lk) => exists s', life js (Go body) empty = Ok s' /\ calls s' = cs /\ alive (mem s') = lk /\ tag s' = false
  | o => life js (Go body) empty = match o with Undef u => Undef u | Panics => Panics | _ => NoFuel end
  end.
Proof.
  assert (G : forall body l s js, ready l s -> match outcome l body js with
    | Ok (cs, lk) => exists s', life js (Go body) s = Ok s' /\ calls s' = cs /\ alive (mem s') = lk /\ tag s' = false
    | o => life js (Go body) s = match o with Undef u => Undef u | Panics => Panics | _ => NoFuel end
    end).
  2: { intros body js. apply G. split; [reflexivity|]. split; [reflexivity|]. exists []. repeat split. }
  assert (Rel : forall lk b l cs D s js, holds lk b l cs D s -> calls s = [] ->
    match (let* r := called b l js in Ok (r, lk)) with
    | Ok (cs, lk) => exists s', life js RType s = Ok s' /\ calls s' = cs /\ alive (mem s') = lk /\ tag s' = false
    | o => life js RType s = match o with Undef u => Undef u | Panics => Panics | _ => NoFuel end
    end).
  { intros lk b l cs D s js H C. pose proof (release_all js _ _ _ _ _ _ H) as R. destruct (called b l js); cbn [bind]; [|exact R..]. rewrite C in R. exact R. }
  assert (One : forall l x t s, ready l s -> exists s6, steps (if (length l mod 16 =? 0)%nat then 6 else 5) (Go (x :: t)) s = Ok (Go t, s6) /\ ready (l ++ [x]) s6).
  { intros l x t s H. destruct (room l x t s H) as (D & s2 & E2 & C2 & R2 & H2 & _). destruct (write _ x t s2 _ D C2 R2 H2) as (p3 & s3 & p4 & s4 & p5 & s5 & s6 & _ & _ & _ & E6 & _ & _ & _ & C6 & R6 & H6).
    exists s6. split.
    - destruct (_ =? 0)%nat; [change 6%nat with (2 + 4)%nat|change 5%nat with (1 + 4)%nat]; rewrite steps_add, E2; exact E6.
    - split; [exact C6|]. split; [exact R6|]. exists D. rewrite app_length. cbn [length]. replace (0 <? length l + 1)%nat with true by (symmetry; apply Nat.ltb_lt; lia).
      replace (16 * ((length l + 1 + 15) / 16) - (length l + 1))%nat with (16 * ((length l + 16) / 16) - S (length l))%nat by (replace (length l + 1 + 15)%nat with (length l + 16)%nat by lia; lia). exact H6. }
  assert (Dn : forall body l s, ready l s -> exists n s', (n <= 6 * length body)%nat /\ steps n (Go body) s = Ok (Go [], s') /\ ready (l ++ body) s').
  { induction body as [|x t IH]; intros l s H; [exists 0%nat, s; rewrite app_nil_r; auto|]. destruct (One l x t s H) as (s6 & E6 & H6). destruct (IH _ _ H6) as (n & s' & L & E & H').
    eexists (_ + n)%nat, s'. split; [|split; [rewrite steps_add, E6; exact E|rewrite <- app_assoc in H'; exact H']]. cbn [length]. destruct (_ =? 0)%nat; lia. }
  induction body as [|x t IH]; intros l s js H.
  - destruct js as [|j js].
    + cbn [outcome life]. rewrite app_nil_r. destruct H as (C & R & D & H). destruct (ending _ _ _ _ _ _ H) as (_ & _ & _ & _ & s5 & _ & _ & _ & _ & _ & _ & _ & _ & _ & _ & _ & _ & _ & _ & _ & _ & E & T & A & C5).
      exists s5. rewrite C in C5. split; [|auto]. unfold finish. replace (elems s) with (length l) by (symmetry; apply H). change (length (@nil (Z * Z * Z))) with 0%nat.
      replace (10 + 9 * 1 + 3 * length l)%nat with (1 + (3 * length l + 8 + 10))%nat by lia. rewrite (steps_add 1). cbn [steps step bind]. rewrite steps_add, E. cbn [bind]. rewrite steps_fin. reflexivity.
    + cbn [outcome]. destruct H as (C & R & D & H). destruct j as [|j].
      * cbn [life steps bind signal]. exact (Rel _ _ _ _ _ _ js (hit_holds _ _ _ _ _ _ H) C).
      * cbn [life steps step bind]. exact (Rel _ _ _ _ _ _ (j :: js) H C).
  - destruct js as [|j js].
    + cbn [outcome life]. destruct (Dn (x :: t) l s H) as (n & s' & L & E & C & R & D & H').
      destruct (ending _ _ _ _ _ _ H') as (_ & _ & _ & _ & s5 & _ & _ & _ & _ & _ & _ & _ & _ & _ & _ & _ & _ & _ & _ & _ & _ & E5 & T & A & C5).
      exists s5. rewrite C in C5. split; [|auto]. unfold finish. assert (N : elems s = length l) by (destruct H as (_ & _ & D0 & H); apply H). rewrite N.
      rewrite app_length in E5. cbn [length] in *. replace (10 + 9 * S (S (length t)) + 3 * length l)%nat with (n + (1 + (3 * (length l + S (length t)) + 8 + (10 + 9 * S (S (length t)) + 3 * length l - n - 1 - (3 * (length l + S (length t)) + 8)))))%nat by lia.
      rewrite steps_add, E. cbn [bind]. rewrite (steps_add 1). cbn [steps step bind]. rewrite steps_add, E5. cbn [bind]. rewrite steps_fin. reflexivity.
    + cbn [outcome]. destruct (One l x t s H) as (s6 & E6 & H6). set (cost := if (length l mod 16 =? 0)%nat then 6%nat else 5%nat) in *.
      destruct (cost <=? j)%nat eqn:J; [apply Nat.leb_le in J|apply Nat.leb_gt in J].
      { specialize (IH _ _ (j - cost :: js)%nat H6). cbn [life] in *. replace (steps j (Go (x :: t)) s) with (steps (j - cost) (Go t) s6); [exact IH|].
        replace j with (cost + (j - cost))%nat at 2 by lia. rewrite steps_add, E6. reflexivity. }
      destruct (room l x t s H) as (D & s2 & E2 & C2 & R2 & H2 & Gr). destruct (write _ x t s2 _ D C2 R2 H2) as (p3 & s3 & p4 & s4 & p5 & s5 & s6' & E3 & E4 & E5 & _ & B3 & B4 & B5 & _).
      unfold cost in *. destruct (length l mod 16 =? 0)%nat eqn:G.
      * assert (S2 : forall k, steps (2 + k) (Go (x :: t)) s = steps k (Take x t) s2) by (intros k; rewrite steps_add, E2; reflexivity).
        destruct j as [|[|[|[|[|[|j]]]]]]; [..|lia].
        -- cbn [life steps bind signal]. destruct H as (C & R & D0 & H). exact (Rel _ _ _ _ _ _ js (hit_holds _ _ _ _ _ _ H) C).
        -- destruct (Gr eq_refl) as (k & s1 & E1 & C1 & X). cbn [life]. rewrite E1. cbn [bind signal]. destruct l as [|y l'].
           ++ pose proof (Rel _ _ _ _ _ _ js (hit_holds _ _ _ _ _ _ X) C1) as Y. rewrite called_none in Y. exact Y.
           ++ apply doomed_entry; [exact X|reflexivity].
        -- cbn [life]. pose proof (S2 0%nat) as X2. cbn [Nat.add] in X2. rewrite X2. cbn [steps bind signal]. exact (Rel _ _ _ _ _ _ js (hit_holds _ _ _ _ _ _ H2) C2).
        -- cbn [life]. pose proof (S2 1%nat) as X2. cbn [Nat.add] in X2. rewrite X2, E3. cbn [bind signal]. apply doomed_entry; [exact B3|reflexivity].
        -- cbn [life]. pose proof (S2 2%nat) as X2. cbn [Nat.add] in X2. rewrite X2, E4. cbn [bind signal]. apply doomed_entry; [exact B4|reflexivity].
        -- cbn [life]. pose proof (S2 3%nat) as X2. cbn [Nat.add] in X2. rewrite X2, E5. cbn [bind signal]. apply doomed_entry; [exact B5|reflexivity].
      * assert (S2 : forall k, steps (1 + k) (Go (x :: t)) s = steps k (Take x t) s2) by (intros k; rewrite steps_add, E2; reflexivity).
        destruct j as [|[|[|[|[|j]]]]]; [..|lia]; cbn [Nat.leb].
        -- cbn [life steps bind signal]. destruct H as (C & R & D0 & H). replace (0 <? length l)%nat with true in H by (symmetry; apply Nat.ltb_lt; destruct l; [discriminate G|cbn; lia]).
           exact (Rel _ _ _ _ _ _ js (hit_holds _ _ _ _ _ _ H) C).
        -- cbn [life]. pose proof (S2 0%nat) as X2. cbn [Nat.add] in X2. rewrite X2. cbn [steps bind signal]. exact (Rel _ _ _ _ _ _ js (hit_holds _ _ _ _ _ _ H2) C2).
        -- cbn [life]. pose proof (S2 1%nat) as X2. cbn [Nat.add] in X2. rewrite X2, E3. cbn [bind signal]. apply doomed_entry; [exact B3|reflexivity].
        -- cbn [life]. pose proof (S2 2%nat) as X2. cbn [Nat.add] in X2. rewrite X2, E4. cbn [bind signal]. apply doomed_entry; [exact B4|reflexivity].
        -- cbn [life]. pose proof (S2 3%nat) as X2. cbn [Nat.add] in X2. rewrite X2, E5. cbn [bind signal]. apply doomed_entry; [exact B5|reflexivity].
Qed.
Example signals_case : outcome [] [(1, 10, 0); (2, 20, 0)] [17%nat] = Ok ([(2, 20); (2, 0); (1, 10)], 0%nat) /\ outcome [] [(1, 10, 0)] [1%nat] = Ok ([], 1%nat) /\
  outcome [] (repeat (1, 10, 0) 17) [82%nat] = Undef UseAfterFree /\ outcome [] (repeat (1, 10, 0) 2) [9%nat; 1%nat] = Undef UninitRead /\ outcome [] [(1, 10, 0)] [15%nat; 2%nat] = Undef DoubleFree.
Proof. vm_compute. auto 6. Qed.

(** Without signals, and with one that arrives between two deferrals: everything deferred before is called once, newest first, with its data, and
    the array is released. *)
Theorem signal_between_partial : forall body rest, (exists s', life [] (Go body) empty = Ok s' /\ calls s' = rev (map fd body) /\ alive (mem s') = 0%nat) /\
  exists j s', steps j (Go (body ++ rest)) empty = Ok (Go rest, s') /\ exists s2, life [j] (Go (body ++ rest)) empty = Ok s2 /\ calls s2 = rev (map fd body) /\ alive (mem s2) = 0%nat.
Proof.
  intros body rest. split.
  { pose proof (signals_exact body []) as X. replace (outcome [] body []) with (Ok (rev (map fd body), 0%nat)) in X by (destruct body; reflexivity). destruct X as (s2 & E2 & C & A & _). exists s2. auto. }
  assert (G : forall b l s, ready l s -> exists j s', steps j (Go (b ++ rest)) s = Ok (Go rest, s') /\ ready (l ++ b) s').
  { induction b as [|x t IH]; intros l s H; [exists 0%nat, s; rewrite app_nil_r; auto|].
    destruct (room l x (t ++ rest) s H) as (D & s2 & E2 & C2 & R2 & H2 & _). destruct (write _ x (t ++ rest) s2 _ D C2 R2 H2) as (p3 & s3 & p4 & s4 & p5 & s5 & s6 & _ & _ & _ & E6 & _ & _ & _ & C6 & R6 & H6).
    assert (H7 : ready (l ++ [x]) s6).
    { split; [exact C6|]. split; [exact R6|]. exists D. rewrite app_length. cbn [length]. replace (0 <? length l + 1)%nat with true by (symmetry; apply Nat.ltb_lt; lia).
      replace (16 * ((length l + 1 + 15) / 16) - (length l + 1))%nat with (16 * ((length l + 16) / 16) - S (length l))%nat by (replace (length l + 1 + 15)%nat with (length l + 16)%nat by lia; lia). exact H6. }
    destruct (IH _ _ H7) as (j & s' & E & H'). exists ((if (length l mod 16 =? 0)%nat then 2 else 1) + (4 + j))%nat, s'. cbn [app]. rewrite !steps_add, E2. cbn [bind]. rewrite steps_add, E6. split; [exact E|]. rewrite <- app_assoc in H'. exact H'. }
  destruct (G body [] empty) as (j & s' & E & H'); [split; [reflexivity|]; split; [reflexivity|]; exists []; repeat split|]. exists j, s'. split; [exact E|]. cbn [app] in H'.
  destruct H' as (C & _ & D & H'). cbn [life]. rewrite E. cbn [bind signal]. pose proof (release_all [] _ _ _ _ _ _ (hit_holds _ _ _ _ _ _ H')) as R. cbn [called] in R. destruct R as (s2 & E2 & C2 & A2 & _).
  exists s2. split; [exact E2|]. cbn [hit signal snd calls] in C2. rewrite C in C2. auto.
Qed.
Example signal_between_met := signal_between_partial [(1, 10, 0); (2, 20, 1)] [(3, 30, 0)].
Lemma called_once : forall l j, l <> [] -> let n := length l in
  called true l [j] = Ok (rev (map fd l)) <-> (j <= 3 \/ 3 * n + 4 <= j /\ j <> 3 * n + 5)%nat.
Proof.
  intros l j Hl n. assert (Hn : (0 < n)%nat) by (unfold n; destruct l; [contradiction|cbn; lia]). cbn [called]. fold n.
  destruct (j <=? 1)%nat eqn:J1; [apply Nat.leb_le in J1; split; [lia|reflexivity]|apply Nat.leb_gt in J1].
  destruct (j <=? 3 * n + 3)%nat eqn:J2; [apply Nat.leb_le in J2|apply Nat.leb_gt in J2].
  - cbn [bind]. destruct (le_lt_dec j 3) as [J|J].
    + split; [lia|]. intros _. replace ((j - 2) / 3)%nat with 0%nat by lia. replace ((j - 2) mod 3 =? 2)%nat with false by (symmetry; apply Nat.eqb_neq; lia).
      rewrite Nat.sub_0_r. unfold n. rewrite firstn_all, skipn_all. cbn. rewrite app_nil_r. reflexivity.
    + split; [|lia]. intros X. exfalso. apply (f_equal (fun o => match o with Ok z => length z | _ => 0%nat end)) in X. cbv beta iota in X. revert X. rewrite !app_length, !rev_length, !map_length, app_length, map_length, firstn_length, skipn_length. fold n.
      destruct ((j - 2) mod 3 =? 2)%nat eqn:R; [apply Nat.eqb_eq in R|apply Nat.eqb_neq in R; change (length (@nil (Z * Z * Z))) with 0%nat; intros X; lia]. rewrite skipn_length, firstn_length. fold n. intros X. lia.
  - destruct (j =? 3 * n + 4)%nat eqn:J3; [apply Nat.eqb_eq in J3; split; [lia|intros _; cbn; rewrite app_nil_r; reflexivity]|apply Nat.eqb_neq in J3].
    destruct (j =? 3 * n + 5)%nat eqn:J4; [apply Nat.eqb_eq in J4; cbn [andb]; split; [discriminate|lia]|apply Nat.eqb_neq in J4]. cbn [andb]. split; [lia|reflexivity].
Qed.
(** One signal during the release of [n] functions, after [j] of its steps: the claim holds exactly if the signal arrives before the first call, or
    after the number of entries was set to 0 but not between the release of the array and the store that forgets it. *)
Theorem signal_in_release : forall lk l cs D s j, holds lk true l cs D s -> l <> [] -> let n := length l in
  (exists s', life [j] RType s = Ok s' /\ calls s' = calls s ++ rev (map fd l) /\ alive (mem s') = lk) <-> (j <= 3 \/ 3 * n + 4 <= j /\ j <> 3 * n + 5)%nat.
Proof.
  intros lk l cs D s j H Hl n. unfold n. rewrite <- (called_once l j Hl). pose proof (release_all [j] _ _ _ _ _ _ H) as R. split.
  - intros (s' & E & C & A). destruct (called true l [j]) as [r| | |]; [|congruence..]. destruct R as (s2 & E2 & C2 & _). rewrite E in E2. injection E2 as <-. rewrite C in C2. apply app_inv_head in C2. congruence.
  - intros E. rewrite E in R. destruct R as (s' & R1 & R2 & R3 & _). eauto.
Qed.
Example signal_in_release_met j := signal_in_release 0 [(1, 10, 0); (2, 20, 0)] [] [] (St true (Some 0%nat) 2 false false [Blk true [cell (1, 10, 0); cell (2, 20, 0)]] []) j
  ltac:(repeat split) ltac:(discriminate).
Example signal_in_release_case : called true [(1, 10, 0); (2, 20, 0)] [4%nat] = Ok [(2, 20); (2, 20); (1, 10)].
Proof. reflexivity. Qed.

(** The claim is false: a function called twice with the same data, a function pointer that was never written, the old array used after its
    release, the array released twice, the array lost. *)
Theorem signal_twice_refuted : exists body j s', life [j] (Go body) empty = Ok s' /\ calls s' = [(2, 20); (2, 20); (1, 10)] /\ map fd body = [(1, 10); (2, 20)].
Proof. exists [(1, 10, 0); (2, 20, 0)], 16%nat. eexists. split; [vm_compute; reflexivity|]. split; reflexivity. Qed.
Theorem signal_undefined_refuted : exists body j1 j2 j3, life [j1] (Go body) empty = Undef UninitRead /\ life [j2] (Go body) empty = Undef UseAfterFree /\ life [j3] (Go body) empty = Undef DoubleFree.
Proof. exists (repeat (1, 10, 0) 17), 3%nat, 82%nat, 144%nat. vm_compute. auto. Qed.
Theorem signal_loses_refuted : exists body j s', life [j] (Go body) empty = Ok s' /\ alive (mem s') = 1%nat.
Proof. exists [(1, 10, 0)], 1%nat. eexists. split; vm_compute; reflexivity. Qed.
Print Assumptions signals_exact. Print Assumptions signal_between_partial. Print Assumptions signal_in_release. Print Assumptions signal_twice_refuted.
Print Assumptions signal_undefined_refuted. Print Assumptions signal_loses_refuted.
