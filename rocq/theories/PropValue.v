(** C149: the value behind a pointer (ValueModel.v). *)
From Verif Require Import Base BaseLemmas ValueModel.
Import ListNotations.

(** The bytes of a number in memory, lowest first, N1570 6.2.6.2 on a little-endian machine. *)
Fixpoint stored (n : nat) (x : Z) : list Z := match n with O => [] | S n => x mod 256 :: stored n (x / 256) end.
(** What the type of a member holds. *)
Definition in_member (m : member) (x : Z) : Prop :=
  let w := 2 ^ (8 * Z.of_nat (bytes_of m)) in if is_signed m then - w <= 2 * x < w else 0 <= x < w.
(** The number read back. *)
Lemma le_stored n : forall x, le (stored n x) = x mod 2 ^ (8 * Z.of_nat n).
Proof.
  induction n as [|n IH]; intros x; [cbn; symmetry; apply Z.mod_1_r|]. cbn [stored le]. rewrite IH. replace (8 * Z.of_nat (S n)) with (8 + 8 * Z.of_nat n) by lia. rewrite Z.pow_add_r by lia. change (2 ^ 8) with 256. rewrite Z.rem_mul_r; [lia|lia|]. apply Z.pow_pos_nonneg; lia.
Qed.
(** Their number. *)
Lemma stored_length n : forall x, length (stored n x) = n.
Proof. induction n as [|n IH]; intros x; cbn; [reflexivity|]. f_equal. apply IH. Qed.

(** C149: the outcome for every object: the first 256 bytes if it has that many, undefined behaviour for a smaller object and for NULL; get_arg is the same function, and thrd_get differs for
    NULL only. *)
Theorem value_exact : forall d, get_arg d = raii_value d /\
  (forall v, raii_value d = Ok v <-> exists rest, d = Some (v ++ rest) /\ length v = 256%nat) /\
  (raii_value d = Undef OobRead <-> exists b, d = Some b /\ (length b < 256)%nat) /\ (raii_value d = Undef UninitRead <-> d = None) /\
  (forall v, result_value d = Ok v <-> raii_value d = Ok v) /\ (result_value d = Undef NullDeref <-> d = None).
Proof.
  intros [b|]; cbn [get_arg raii_value result_value].
  - change union_size with 256%nat. split; [reflexivity|]. destruct (Nat.ltb_spec (length b) 256) as [L|L].
    + split; [|split; [|split; [|split; [|]]]].
      * intros v. split; [discriminate|]. intros (rest & E & V). injection E as ->. rewrite app_length in L. lia.
      * split; [intros _; exists b; split; [reflexivity|exact L]|reflexivity].
      * split; discriminate.
      * intros v. reflexivity.
      * split; discriminate.
    + split; [|split; [|split; [|split; [|]]]].
      * intros v. split.
        -- intros E. assert (V : firstn 256 b = v) by congruence. rewrite <- V. exists (skipn 256 b). rewrite firstn_skipn. split; [reflexivity|]. apply firstn_length_le. exact L.
        -- intros (rest & E & V). injection E as ->. rewrite <- V, firstn_app, Nat.sub_diag, firstn_O, app_nil_r, firstn_all. reflexivity.
      * split; [discriminate|]. intros (b' & E & L'). injection E as <-. lia.
      * split; discriminate.
      * intros v. reflexivity.
      * split; discriminate.
  - split; [reflexivity|]. split; [intros v; split; [discriminate|intros (? & E & _); discriminate E]|]. split; [split; [discriminate|intros (? & E & _); discriminate E]|]. split; [split; reflexivity|]. split; [intros v; split; discriminate|split; reflexivity].
Qed.
(** A member of the union. *)
Lemma value_member : forall m x rest, In m members -> in_member m x -> (256 <= bytes_of m + length rest)%nat ->
  exists v, raii_value (Some (stored (bytes_of m) x ++ rest)) = Ok v /\ read_member m v = x.
Proof.
  intros m x rest M X L. exists (firstn 256 (stored (bytes_of m) x ++ rest)). split.
  - cbn [raii_value]. change union_size with 256%nat. rewrite (proj2 (Nat.ltb_ge _ _)); [reflexivity|]. rewrite app_length, stored_length. exact L.
  - assert (B : (bytes_of m <= 256)%nat /\ (0 < bytes_of m)%nat) by (cbn in M; decompose [or] M; subst; cbn; lia || contradiction). unfold read_member. rewrite firstn_firstn, Nat.min_l by lia.
    rewrite firstn_app, stored_length, Nat.sub_diag, firstn_O, app_nil_r. rewrite firstn_all2 by (rewrite stored_length; lia). rewrite le_stored. unfold in_member in X. set (w := 2 ^ (8 * Z.of_nat (bytes_of m))) in *.
    assert (W : 0 < w) by (apply Z.pow_pos_nonneg; lia). destruct (is_signed m); cbn [andb].
    + destruct (Z.ltb_spec x 0) as [N|N].
      * assert (E : x mod w = x + w) by (symmetry; apply (Z.mod_unique x w (-1)); lia). rewrite E. destruct (Z.leb_spec w (2 * (x + w))); lia.
      * rewrite Z.mod_small by lia. destruct (Z.leb_spec w (2 * x)); lia.
    + apply Z.mod_small. exact X.
Qed.
(** C149, where it holds: the union has a signed and an unsigned member of one, two, four and eight bytes, and of an object of at least 256 bytes that begins with a number of that type (a slot of an
    argument pack, a result, which have 272), the member is that number, for every number. *)
Theorem value_member_partial : forall n sg, In n [1; 2; 4; 8]%nat -> let m := Member n sg in In m members /\
  forall x rest, in_member m x -> (256 <= n + length rest)%nat -> exists v, raii_value (Some (stored n x ++ rest)) = Ok v /\ read_member m v = x.
Proof.
  intros n sg N m. assert (M : In m members) by (unfold m, members; cbn in N; decompose [or] N; subst; try contradiction; destruct sg; cbn; tauto). split; [exact M|]. intros x rest X L. exact (value_member m x rest M X L).
Qed.
(** C149 is refuted for the documented use (README.md 45-54, examples/thrd_async.c, tests/test-defer.c): the argument is the address of an int, and get_arg reads 256 bytes from it. *)
Theorem value_int_refuted : exists x, in_member (Member 4 true) x /\ get_arg (Some (stored 4 x)) = Undef OobRead.
Proof. exists 194232491. split; [cbn; lia|reflexivity]. Qed.
(** C149, NULL is refuted: the message is logged and then there is no value to return. *)
Theorem value_null_refuted : exists d, raii_value d = Undef UninitRead /\ result_value d = Undef NullDeref.
Proof. exists None. split; reflexivity. Qed.
(** The hypotheses of the theorems: -5 in a slot of 272 bytes. *)
Example value_slot : In (Member 4 true) members /\ in_member (Member 4 true) (-5) /\ stored 4 (-5) = [251; 255; 255; 255] /\
  (let* v := get_arg (Some (stored 4 (-5) ++ repeat 0 268)) in Ok (read_member (Member 4 true) v, read_member (Member 4 false) v, read_member (Member 1 false) v)) = Ok (-5, 4294967291, 251).
Proof. split; [left; reflexivity|]. split; [cbn; lia|]. split; reflexivity. Qed.
Print Assumptions value_exact.
Print Assumptions value_member_partial.
Print Assumptions value_int_refuted.
Print Assumptions value_null_refuted.
