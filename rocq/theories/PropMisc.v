(** Properties C62 (type predicates), C64 (mmap emulation), C65 (first call on a thread). *)
From Verif Require PropDefer.
From Verif Require Import Base BaseLemmas MiscModel SpecDefer SpecBase64 Base64Proofs Base64Decode DeferProofs DeferCancel.
From Coq Require Import String.

(** * C62 *)
(** Specification: the header's three groups of enumerators, written out. *)
Definition value_tags : list raii_type :=
  [T_INT; T_ENUM; T_INTEGER; T_UINT; T_SLONG; T_ULONG; T_LLONG; T_MAXSIZE; T_FLOAT; T_DOUBLE; T_BOOL; T_SHORT;
   T_USHORT; T_CHAR; T_UCHAR; T_UCHAR_P; T_CHAR_P; T_CONST_CHAR; T_STRING; T_ARRAY; T_HASH; T_OBJ; T_PTR; T_FUNC].
Definition instance_tags : list raii_type :=
  [T_DEF_ARR; T_DEF_FUNC; T_ROUTINE; T_OA_HASH; T_REFLECT_TYPE; T_REFLECT_INFO; T_REFLECT_VALUE; T_MAP_VALUE;
   T_MAP_STRUCT; T_MAP_ITER; T_MAP_ARR; T_ERR_PTR; T_ERR_CONTEXT; T_PROMISE; T_FUTURE; T_FUTURE_ARG; T_EVENT_ARG;
   T_ARGS; T_PROCESS; T_SCHED; T_CHANNEL; T_STRUCT; T_UNION; T_VALUE].
Definition other_tags : list raii_type :=
  [T_NULL; T_NAN; T_NO_INSTANCE; T_ARENA; T_THREAD; T_GUARDED_STATUS; T_QUEUE; T_SPAWN; T_POOL; T_SYNC; T_COUNT].

Theorem tag_groups_cover : forall t, In t (value_tags ++ instance_tags ++ other_tags).
Proof. intros t. destruct t; cbn; tauto. Qed.

(** Every enumerator is classified as its group says. *)
Theorem tags_classified : forall t,
  (is_value (Some (code t)) = Ok true <-> In t value_tags) /\
  (is_instance (Some (code t)) = Ok true <-> In t instance_tags) /\
  (is_valid (Some (code t)) = Ok true <-> In t (value_tags ++ instance_tags)) /\
  (is_value (Some (code t)) = Ok true \/ is_value (Some (code t)) = Ok false) /\
  (is_instance (Some (code t)) = Ok true \/ is_instance (Some (code t)) = Ok false).
Proof.
  intros t. destruct t; vm_compute; repeat split; intros; try reflexivity; try discriminate; auto 60;
  repeat match goal with H : _ \/ _ |- _ => destruct H end; try discriminate; contradiction.
Qed.

(** No first word of any object is both a value and an instance, and nothing outside 1..49 is either. *)
Theorem tags_exclusive : forall w,
  ~ (is_value (Some w) = Ok true /\ is_instance (Some w) = Ok true) /\
  (is_valid (Some w) = Ok true -> 1 <= w mod 4294967296 <= 49 /\ w mod 4294967296 <> 25).
Proof.
  intros w. unfold is_valid, is_value, is_instance, type_of, u32. cbn [bind].
  change (code T_NULL) with 0. change (code T_NAN) with 25. change (code T_NO_INSTANCE) with 50.
  set (x := w mod 4294967296). clearbody x. split.
  - intros [A B]. apply Ok_inj in A. apply Ok_inj in B. lia.
  - destruct ((0 <? x) && (x <? 25)) eqn:A; [lia|]. cbn [bind]. intros B. apply Ok_inj in B. lia.
Qed.

(** Tags are distinct numbers, so is_type and is_instance_of compare enumerators. *)
Theorem is_type_exact : forall t u, is_type (Some (code t)) (code u) = Ok true <-> t = u.
Proof.
  intros t u. split.
  - intros H.
    assert (A : forallb (fun a => forallb (fun b => match is_type (Some (code a)) (code b) with Ok true => raii_type_beq a b | _ => true end) raii_types) raii_types = true) by (vm_compute; reflexivity).
    rewrite forallb_forall in A. specialize (A t ltac:(destruct t; cbn; tauto)).
    rewrite forallb_forall in A. specialize (A u ltac:(destruct u; cbn; tauto)). rewrite H in A.
    apply internal_raii_type_dec_bl. auto.
  - intros <-. destruct t; vm_compute; reflexivity.
Qed.
Theorem is_instance_of_exact : forall t u, is_instance_of (Some (code t)) (Some (code u)) = Ok true <-> t = u.
Proof.
  intros t u. rewrite <- is_type_exact. unfold is_instance_of, is_type, type_of. cbn [bind].
  replace (u32 (code u)) with (code u) by (destruct u; vm_compute; reflexivity). tauto.
Qed.
(** is_guard recognises exactly the guard status. *)
Theorem is_guard_exact : forall t, is_guard (Some (code t)) = true <-> t = T_GUARDED_STATUS.
Proof. intros []; vm_compute; split; congruence. Qed.
(** The object predicates other than is_empty and is_guard need a non-NULL pointer. *)
Theorem null_has_no_type : is_value None = Undef NullDeref /\ is_instance None = Undef NullDeref /\ is_valid None = Undef NullDeref /\
  (forall c, is_type None c = Undef NullDeref) /\ (forall o, is_instance_of None o = Undef NullDeref) /\ is_guard None = false.
Proof. repeat split. Qed.
Theorem empty_zero : (forall p, is_empty p = true <-> p = None) /\ (forall n, is_zero n = true <-> n mod 18446744073709551616 = 0) /\
  (forall b, is_true b = b) /\ (forall b, is_false b = negb b).
Proof.
  split. { intros [?|]; cbn; split; congruence. }
  split. { intros n. unfold is_zero, u64. lia. }
  split; intros []; reflexivity.
Qed.
(** The tags given to exception records (include/exception.h 140-146: ex_protected_st = 3 and ex_context_st = 4) and
    the tag of an arena (src/arena.c, RAII_ARENA + RAII_STRUCT) are not in the enumeration's own groups: an ex_ptr_t or
    ex_context_t counts as a value, and an arena as neither. *)
Theorem foreign_tags : is_value (Some 3) = Ok true /\ is_value (Some 4) = Ok true /\
  is_instance (Some 3) = Ok false /\ is_instance (Some 4) = Ok false /\ is_valid (Some (code T_ARENA + code T_STRUCT)) = Ok false.
Proof. repeat split; vm_compute; reflexivity. Qed.
Example tags_case : code T_FUNC = 24 /\ code T_COUNT = 58 /\ is_value (Some (code T_STRING)) = Ok true /\
  is_instance (Some (code T_FUTURE)) = Ok true /\ is_valid (Some (code T_SPAWN)) = Ok false /\ is_zero 18446744073709551616 = true.
Proof. repeat split; vm_compute; reflexivity. Qed.

(** * C64 *)
(** Specification.  What a page protection allows, from the Windows documentation of memory protection constants. *)
Inductive allows : Z -> bool -> bool -> bool -> Prop :=      (* protection, read, write, execute *)
| noaccess : allows 1 false false false
| readonly : allows 2 true false false
| readwrite : allows 4 true true false
| execute : allows 16 false false true
| execute_read : allows 32 true false true
| execute_readwrite : allows 64 true true true.
(** Bits of a POSIX mask. *)
Definition wants_read (prot : Z) := Z.testbit prot 0.
Definition wants_write (prot : Z) := Z.testbit prot 1.
Definition wants_exec (prot : Z) := Z.testbit prot 2.

Lemma land_bit prot k : 0 <= k -> (negb (Z.land prot (2 ^ k) =? 0)) = Z.testbit prot k.
Proof.
  intros Hk. destruct (Z.testbit prot k) eqn:B.
  - apply negb_true_iff, Z.eqb_neq. intros E. assert (X : Z.testbit (Z.land prot (2 ^ k)) k = true) by (rewrite Z.land_spec, B, Z.pow2_bits_true by lia; reflexivity).
    rewrite E, Z.bits_0 in X. discriminate.
  - apply negb_false_iff, Z.eqb_eq. apply Z.bits_inj'. intros n Hn. rewrite Z.land_spec, Z.bits_0.
    destruct (Z.eq_dec n k) as [->|]; [rewrite B; reflexivity|]. rewrite Z.pow2_bits_false by lia. apply andb_false_r.
Qed.

Lemma land_b0 prot : negb (Z.land prot 1 =? 0) = Z.testbit prot 0. Proof. apply (land_bit prot 0). lia. Qed.
Lemma land_b1 prot : negb (Z.land prot 2 =? 0) = Z.testbit prot 1. Proof. apply (land_bit prot 1). lia. Qed.
Lemma land_b2 prot : negb (Z.land prot 4 =? 0) = Z.testbit prot 2. Proof. apply (land_bit prot 2). lia. Qed.

(** Every non-empty mask: the page may be read, and written or executed exactly when asked. *)
Theorem page_protection_partial : forall prot, prot <> 0 ->
  allows (map_prot_page prot) true (wants_write prot) (wants_exec prot).
Proof.
  intros prot H. unfold map_prot_page, PROT_NONE, PROT_EXEC, PROT_WRITE, wants_write, wants_exec.
  destruct (Z.eqb_spec prot 0); [contradiction|].
  rewrite land_b2. rewrite land_b1.
  destruct (Z.testbit prot 2), (Z.testbit prot 1); constructor.
Qed.
(** The empty mask becomes 0, which is no page protection at all: CreateFileMapping and VirtualProtect reject it,
    so mmap and mprotect with PROT_NONE (allowed by POSIX) always fail. *)
Theorem page_protection_refuted : exists prot, prot = PROT_NONE /\ forall r w x, ~ allows (map_prot_page prot) r w x.
Proof. exists 0. split; [reflexivity|]. intros r w x H. inversion H. Qed.

(** The view's access rights are exactly the requested ones. *)
Theorem view_access : forall prot,
  map_prot_file prot = (if wants_read prot then 4 else 0) + (if wants_write prot then 2 else 0) + (if wants_exec prot then 32 else 0).
Proof.
  intros prot. unfold map_prot_file, PROT_NONE, PROT_READ, PROT_EXEC, PROT_WRITE, wants_read, wants_write, wants_exec.
  destruct (Z.eqb_spec prot 0) as [->|]; [reflexivity|].
  rewrite land_b2. rewrite land_b1. rewrite land_b0.
  destruct (Z.testbit prot 2), (Z.testbit prot 1), (Z.testbit prot 0); reflexivity.
Qed.

Lemma land32 x : Z.land x 4294967295 = x mod 4294967296.
Proof. change 4294967295 with (Z.ones 32). rewrite Z.land_ones by lia. reflexivity. Qed.
Lemma low64 x : low_half true x = x mod 4294967296.
Proof. unfold low_half, u32. rewrite land32. apply Z.mod_mod. lia. Qed.
Lemma high64 x : high_half true x = (x / 4294967296) mod 4294967296.
Proof. unfold high_half, u32. rewrite land32, Z.shiftr_div_pow2 by lia. apply Z.mod_mod. lia. Qed.

(** 64-bit Windows: the two halves of offset and size are 32-bit numbers that make up the offset and the end of the
    mapping. *)
Theorem mmap_split64 : forall len prot off, 0 < len -> 0 <= off -> off + len < 9223372036854775808 -> prot <> PROT_EXEC ->
  exists r, mmap true len prot off = Ok (Ask r) /\
    4294967296 * r_off_high r + r_off_low r = off /\ 4294967296 * r_size_high r + r_size_low r = off + len /\
    0 <= r_off_low r < 4294967296 /\ 0 <= r_size_low r < 4294967296 /\
    0 <= r_off_high r < 4294967296 /\ 0 <= r_size_high r < 4294967296 /\
    r_view r = len /\ r_protect r = map_prot_page prot /\ r_access r = map_prot_file prot.
Proof.
  intros len prot off H1 H2 H3 H4. unfold mmap, off_add, off_conv. rewrite s64_id by lia.
  replace ((-9223372036854775808 <=? off + len) && (off + len <? 9223372036854775808)) with true by lia. cbn [bind].
  destruct (Z.eqb_spec len 0); [lia|]. destruct (Z.eqb_spec prot PROT_EXEC); [contradiction|]. cbn [orb].
  eexists. split; [reflexivity|]. cbn [r_off_high r_off_low r_size_high r_size_low r_view r_protect r_access].
  rewrite !low64, !high64. repeat split; lia.
Qed.
(** 32-bit Windows: the offset is exact, the size only below 4 GiB. *)
Theorem mmap_split32_partial : forall len prot off, 0 < len -> 0 <= off -> off + len < 4294967296 -> prot <> PROT_EXEC ->
  exists r, mmap false len prot off = Ok (Ask r) /\ r_off_high r = 0 /\ r_off_low r = off /\ r_size_high r = 0 /\ r_size_low r = off + len.
Proof.
  intros len prot off H1 H2 H3 H4. unfold mmap, off_add, off_conv. rewrite !u32_id by (rewrite ?u32_id; lia). cbn [bind].
  destruct (Z.eqb_spec len 0); [lia|]. destruct (Z.eqb_spec prot PROT_EXEC); [contradiction|]. cbn [orb].
  eexists. split; [reflexivity|]. cbn [r_off_high r_off_low r_size_high r_size_low]. unfold low_half. rewrite !u32_id by lia. auto.
Qed.
(** A mapping of 2 GiB at offset 3 GiB loses the carry of the size: the mapping object is created 1 GiB long. *)
Theorem mmap_split32_refuted : exists len off r, 0 < len < 4294967296 /\ 0 <= off < 4294967296 /\
  mmap false len PROT_READ off = Ok (Ask r) /\ 4294967296 * r_size_high r + r_size_low r <> off + len.
Proof.
  exists 2147483648, 3221225472, (Request 2 0 1073741824 4 0 3221225472 2147483648).
  split; [lia|]. split; [lia|]. split; [vm_compute; reflexivity|]. cbn. lia.
Qed.
(** Near the end of the 64-bit range the sum itself is undefined, and it is computed before the length is looked at. *)
Theorem mmap_overflow_refuted : exists len off, mmap true len PROT_READ off = Undef SignedOverflow /\ 0 <= off < 9223372036854775808 /\ 0 < len < 18446744073709551616.
Proof. exists 4096, 9223372036854775807. split; [vm_compute; reflexivity|lia]. Qed.
Theorem mmap_rejects : forall w len prot off m, mmap w len prot off = Ok m -> (m = EINVAL <-> len = 0 \/ prot = PROT_EXEC).
Proof.
  intros w len prot off m. unfold mmap. destruct (off_add w off (off_conv w len)); cbn [bind]; try discriminate.
  destruct (Z.eqb_spec len 0); cbn [orb]; [|destruct (Z.eqb_spec prot PROT_EXEC)]; intros E; apply Ok_inj in E; subst m; try tauto.
  split; [discriminate|tauto].
Qed.
Example mmap_case : mmap true 8192 3 20000000000 = Ok (Ask (Request 4 4 2820139008 6 4 2820130816 8192)).
Proof. vm_compute. reflexivity. Qed.

(** * C65 *)
(** Words passed in the histories. *)
Definition call_ok (c : tcall) : Prop :=
  match c with
  | CEncode s | CDecode s => all_bytes s /\ Z.of_nat (List.length s) < 18446744073709551616
  | CDefer f d => word f /\ word d
  | _ => True
  end.
Definition initialised (t : thread) : Prop := exists s l, t = Some s /\ holds s l.

Lemma calloc_on_ok E n t : fits E -> 0 < n -> initialised t ->
  calloc_on E n t = Panics \/ exists a t', calloc_on E n t = Ok (a, t') /\ initialised t'.
Proof.
  intros F Hn (s & l & -> & H). unfold calloc_on.
  destruct (malloc_full_ok E n FREE_FN s l F H Hn ltac:(unfold word, FREE_FN; lia)) as [(s1 & ->)|[->|(a & s1 & -> & _ & _ & _ & D)]]; cbn [bind]; auto.
  right. exists a, (Some s1). split; [reflexivity|]. destruct D as [D|D]; [exists s1, l|exists s1, (l ++ [(FREE_FN, a, 0)])]; auto.
Qed.

Lemma encode_len n : 0 <= n < 18446744073709551616 -> (u64 (str_base64_len n + 1) <? n) = false -> 0 < u64 (str_base64_len n + 1).
Proof.
  intros H L. destruct (Z.eq_dec n 0) as [->|]; [vm_compute; reflexivity|].
  assert (0 <= u64 (str_base64_len n + 1)) by (unfold u64; lia). lia.
Qed.

Lemma init_initialised a st t : t = None \/ initialised t -> initialised (init_call a st t).
Proof.
  intros [->|(s & l & -> & H)]; [|exists s, l; auto]. eexists _, []. split; [reflexivity|]. apply holds_init. reflexivity.
Qed.

Lemma encode_call_ok E a st t s : fits E -> t = None \/ initialised t -> all_bytes s -> Z.of_nat (List.length s) < 18446744073709551616 ->
  raii_encode64 E a st t s = Panics \/
  exists t', raii_encode64 E a st t s = (let* r := str_encode64_ex s in Ok (r, t')) /\ initialised t'.
Proof.
  intros F I Hb Hl. pose proof (init_initialised a st t I) as I2.
  unfold raii_encode64, encode64_on.
  destruct (u64 (str_base64_len (Z.of_nat (List.length s)) + 1) <? Z.of_nat (List.length s)) eqn:L.
  - right. exists (init_call a st t). split; auto. unfold str_encode64_ex. rewrite L. reflexivity.
  - destruct (calloc_on_ok E _ _ F (encode_len (Z.of_nat (List.length s)) ltac:(lia) L) I2) as [->|(x & t' & -> & I3)]; cbn [bind]; [auto|].
    right. exists t'. auto.
Qed.

Lemma decode_call_ok E t s : fits E -> initialised t -> all_bytes s -> Z.of_nat (List.length s) < 18446744073709551616 ->
  raii_decode64 E t s = Panics \/ exists t', raii_decode64 E t s = (let* r := str_decode64_ex s in Ok (r, t')) /\ initialised t'.
Proof.
  intros F I Hb Hl. unfold raii_decode64, decode64_on.
  destruct (part_exists s) as [p Hp]. pose proof (decode_count_ok s p Hp Hb 0) as C. unfold str_decode64_ex. rewrite C. cbn [bind].
  assert (Lp : Z.of_nat (List.length p) <= Z.of_nat (List.length s)). { clear - Hp. induction Hp; cbn [List.length] in *; lia. }
  destruct ((0 + zlen p =? 0) || negb ((0 + zlen p) mod 4 =? 0)); [right; exists t; auto|].
  destruct (calloc_on_ok E (u64 ((0 + zlen p) / 4 * 3 + 1)) t F) as [->|(x & t' & -> & I3)]; auto.
  { rewrite u64_id by lia. lia. }
  right. exists t'. split; auto.
Qed.

(** On a thread that has a scope, raii_decode64 is str_decode64_ex; raii_encode64 is str_encode64_ex on every thread. *)
Theorem encode64_first_call : forall E a st s, fits E -> all_bytes s -> Z.of_nat (List.length s) < 18446744073709551616 ->
  raii_encode64 E a st None s = Panics \/
  exists t', raii_encode64 E a st None s = (let* r := str_encode64_ex s in Ok (r, t')).
Proof. intros E a st s F Hb Hl. destruct (encode_call_ok E a st None s F (or_introl eq_refl) Hb Hl) as [->|(t' & -> & _)]; eauto. Qed.

(** Any history whose first call is raii_encode64 or raii_init has no undefined behaviour (it can panic when memory runs out). *)
Theorem calls_after_init_partial : forall E a st first rest, fits E ->
  (first = CInit \/ exists s, first = CEncode s) -> Forall call_ok (first :: rest) ->
  run_calls E a st (first :: rest) None = Panics \/ exists t, run_calls E a st (first :: rest) None = Ok t.
Proof.
  intros E a st first rest F H1 H2. cbn [run_calls]. inversion H2 as [|? ? C1 C2]; subst.
  assert (G : step_call E a st first None = Panics \/ exists t, step_call E a st first None = Ok t /\ initialised t).
  { destruct H1 as [->|[s ->]]; cbn [step_call].
    - right. eexists. split; [reflexivity|]. apply init_initialised. auto.
    - destruct C1 as [Cb Cl]. destruct (encode_call_ok E a st None s F (or_introl eq_refl) Cb Cl) as [->|(t' & -> & I)]; cbn [bind]; auto.
      right. rewrite (encode64_ok s Cb Cl). destruct (_ <? _); cbn [bind]; eauto. }
  destruct G as [->|(t & -> & I)]; cbn [bind]; auto. clear H1 H2 C1 first.
  revert t I. induction C2 as [|c l Hc Hl IH]; intros t I; cbn [run_calls]; eauto.
  assert (G : step_call E a st c t = Panics \/ exists t', step_call E a st c t = Ok t' /\ initialised t').
  { destruct c as [s|s| |f d|]; cbn [step_call].
    - destruct Hc as [Cb Cl]. destruct (encode_call_ok E a st t s F (or_intror I) Cb Cl) as [->|(t' & -> & I')]; cbn [bind]; auto.
      right. rewrite (encode64_ok s Cb Cl). destruct (_ <? _); cbn [bind]; eauto.
    - destruct Hc as [Cb Cl]. destruct (decode_call_ok E t s F I Cb Cl) as [->|(t' & -> & I')]; cbn [bind]; auto.
      right. destruct (part_exists s) as [p Hp]. destruct (decode64_ok s p Hp Cb Cl) as [[_ ->]|(_ & _ & _ & o & r & _ & -> & _)]; cbn [bind]; eauto.
    - right. eexists. split; [reflexivity|]. apply init_initialised. auto.
    - destruct I as (s & ls & -> & H). destruct Hc. cbn [raii_defer]. unfold raii_deferred.
      destruct (deferred_any_ok E f d 0 s ls F H) as (i & s' & -> & _ & _ & _ & D). { repeat split; cbn; auto; unfold word in *; lia. }
      cbn [bind]. right. eexists. split; [reflexivity|]. destruct D as [[_ D]|[D _]]; eexists _, _; split; eauto.
    - destruct I as (s & ls & -> & H). cbn. right. eexists. split; [reflexivity|]. exists s, ls. auto. }
  destruct G as [->|(t' & -> & I')]; cbn [bind]; auto.
Qed.

(** raii_decode64 as a thread's first call dereferences NULL for every text that decodes to something. *)
Theorem decode64_first_call_null : forall E s blk, all_bytes s -> Z.of_nat (List.length s) < 18446744073709551616 ->
  (forall n, 0 < n <= Z.of_nat (List.length s) + 1 -> place E 0 n <> 0) ->
  str_decode64_ex s = Ok (Some blk) -> raii_decode64 E None s = Undef NullDeref.
Proof.
  intros E s blk Hb Hl Hp H. unfold raii_decode64, decode64_on. destruct (part_exists s) as [p Pp].
  assert (Hle : zlen p <= zlen s) by (clear -Pp; induction Pp; cbn [List.length]; lia).
  pose proof (decode_count_ok s p Pp Hb 0) as C. unfold str_decode64_ex in H. rewrite C in *. cbn [bind] in *.
  destruct (Z.eqb_spec (0 + zlen p) 0) as [|Nz]; [discriminate|].
  destruct (Z.eqb_spec ((0 + zlen p) mod 4) 0) as [M|]; [|discriminate].
  assert (B : 0 < (0 + zlen p) / 4 * 3 + 1 <= zlen s + 1 /\ (0 + zlen p) / 4 * 3 + 1 < 18446744073709551616).
  { pose proof (Z_div_mod_eq_full (0 + zlen p) 4). lia. }
  cbn [orb negb]. unfold calloc_on.
  assert (U : u64 ((0 + zlen p) / 4 * 3 + 1) = (0 + zlen p) / 4 * 3 + 1) by (apply Z.mod_small; lia).
  rewrite U.
  destruct (Z.eqb_spec (place E 0 ((0 + zlen p) / 4 * 3 + 1)) 0) as [X|]; [destruct (Hp _ (proj1 B) X)|reflexivity].
Qed.
Definition some_env : env := Env (fun n _ => 4096 * Z.of_nat n + 4096) (fun _ _ => 0) (fun _ => true) (fun _ _ => []).
Theorem decode64_fresh_thread_refuted : exists l, Forall call_ok l /\ run_calls some_env 1000000 0 l None = Undef NullDeref.
Proof.
  exists [CDecode (map (fun c => Z.of_nat (Ascii.nat_of_ascii c)) (list_ascii_of_string "YWJj"%string))].
  split; [|vm_compute; reflexivity]. constructor; [|constructor]. split; [|cbn; lia].
  cbn. repeat constructor; unfold byte; lia.
Qed.
(** raii_defer and raii_mid have the same gap. *)
Theorem defer_fresh_thread_null : forall E f d, raii_defer E f d None = Undef NullDeref /\ raii_mid None = Undef NullDeref.
Proof. split; reflexivity. Qed.
Example calls_case : exists t, run_calls some_env 1000000 0 [CEncode [97; 98]; CDecode [89; 87; 73; 61]; CDefer 5 6; CMid] None = Ok (Some t) /\ w_elems t = 3.
Proof. eexists. split; vm_compute; reflexivity. Qed.

(** * The theorems above on concrete values: their hypotheses can be met. *)
Ltac calc := vm_compute; first [reflexivity | discriminate | (intros; discriminate)].
Ltac met := first [ lazymatch goal with |- _ = _ => vm_compute; reflexivity end | lia | (repeat constructor; cbn; lia) | (left; discriminate) | (right; calc) | (intros; lia) | calc | (split; calc) ].
Example mmap_split64_met := mmap_split64 8192 3 4294967296 ltac:(met) ltac:(met) ltac:(met) ltac:(met).
Example mmap_split32_partial_met := mmap_split32_partial 8192 3 65536 ltac:(met) ltac:(met) ltac:(met) ltac:(met).
Example page_protection_partial_met := page_protection_partial 3 ltac:(met).
Definition YWJj : list Z := [89; 87; 74; 106].
Lemma YWJj_bytes : all_bytes YWJj. Proof. repeat constructor; unfold byte; lia. Qed.
Example decode64_first_call_null_met := decode64_first_call_null (PropDefer.tidy [100] (fun _ _ => [])) YWJj [97; 98; 99; 0] YWJj_bytes ltac:(met)
  ltac:(intros n Hn; cbn [List.length YWJj] in Hn; cbn [place PropDefer.tidy]; replace ((0 <? n) && (n <? 65536) && (Z.of_nat 0 <? 1000))%bool with true by lia; discriminate) ltac:(met).
Example encode64_first_call_met := encode64_first_call (PropDefer.tidy [100] (fun _ _ => [])) 5000 0 YWJj ltac:(apply PropDefer.tidy_fits) YWJj_bytes ltac:(met).
Example calls_after_init_partial_met := calls_after_init_partial (PropDefer.tidy [100] (fun _ _ => [])) 5000 0 CInit [CDecode YWJj; CEncode YWJj]
  ltac:(apply PropDefer.tidy_fits) ltac:(left; reflexivity) ltac:(repeat constructor; unfold byte; cbn; lia).

Print Assumptions tag_groups_cover. Print Assumptions tags_classified. Print Assumptions tags_exclusive. Print Assumptions is_type_exact.
Print Assumptions is_instance_of_exact.
Print Assumptions is_guard_exact. Print Assumptions null_has_no_type. Print Assumptions empty_zero. Print Assumptions foreign_tags.
Print Assumptions page_protection_partial. Print Assumptions page_protection_refuted. Print Assumptions view_access. Print Assumptions mmap_split64.
Print Assumptions mmap_split32_partial. Print Assumptions mmap_split32_refuted. Print Assumptions mmap_overflow_refuted. Print Assumptions mmap_rejects.
Print Assumptions encode64_first_call. Print Assumptions calls_after_init_partial. Print Assumptions decode64_first_call_null.
Print Assumptions decode64_fresh_thread_refuted. Print Assumptions defer_fresh_thread_null.
