(** C21-C23: base64. *)
From Coq Require Import String.
From Verif Require Import Base64Decode.
Open Scope string_scope.
Open Scope list_scope.
Open Scope Z_scope.

(** * C21 *)
(** Every write of the model is checked against the allocated block, so [Ok]
    also says that no write left it.  The result is NULL exactly when the
    encoded length does not fit in 32 bits (the mask ~3u is 32 bits wide). *)
Theorem encode64_rfc4648 : forall s, all_bytes s -> Z.of_nat (List.length s) < 18446744073709551616 ->
  str_encode64_ex s =
  if 4 * ((Z.of_nat (List.length s) + 2) / 3) <? 4294967296 then Ok (Some (rfc4648 s ++ [0])) else Ok None.
Proof. exact encode64_ok. Qed.
Example encode64_case :
  str_encode64_ex (bs "any carnal pleas") = Ok (Some (bs "YW55IGNhcm5hbCBwbGVhcw==" ++ [0])) /\
  rfc4648 (bs "any carnal pleas") = bs "YW55IGNhcm5hbCBwbGVhcw==".
Proof. split; vm_compute; reflexivity. Qed.

(** * C22 *)
(** C22 for non-empty strings that can be encoded.  Missing: "" (refuted below). *)
Theorem decode64_encode64_partial : forall s, all_bytes s -> s <> [] -> Z.of_nat (List.length s) < 3221225470 ->
  exists t rest, str_encode64_ex s = Ok (Some (t ++ [0])) /\ ~ In 0 t /\ str_decode64_ex t = Ok (Some (s ++ 0 :: rest)).
Proof. exact roundtrip64. Qed.
Theorem decode64_encode64_refuted : exists s t, str_encode64_ex s = Ok (Some (t ++ [0])) /\ str_decode64_ex t = Ok None.
Proof. exists [], []. split; vm_compute; reflexivity. Qed.
Example roundtrip64_case : str_decode64_ex (bs "YW55IGNhcm5hbCBwbGVhcw==") = Ok (Some (bs "any carnal pleas" ++ [0; 0; 0])).
Proof. vm_compute. reflexivity. Qed.

(** * C23 *)
(** [p] are the characters of [s] that belong to the alphabet or are '='. *)
Theorem decode64_safe : forall s p, all_bytes s -> Z.of_nat (List.length s) < 18446744073709551616 -> base64_part s p ->
  ((p = [] \/ Z.of_nat (List.length p) mod 4 <> 0 \/ bad_padding p) /\ str_decode64_ex s = Ok None) \/
  (p <> [] /\ Z.of_nat (List.length p) mod 4 = 0 /\ ~ bad_padding p /\
   exists blk, str_decode64_ex s = Ok (Some blk) /\ Z.of_nat (List.length blk) = Z.of_nat (List.length p) / 4 * 3 + 1 /\ In 0 blk).
Proof.
  intros s p Hs Hl Hp. destruct (decode64_ok s p Hp Hs Hl) as [?|(H1 & H2 & H3 & o & rest & _ & E & L)]; auto.
  right. repeat split; auto. exists (o ++ 0 :: rest). repeat split; auto. apply in_or_app. right. left. auto.
Qed.
Theorem base64_part_total : forall s, exists p, base64_part s p.
Proof. exact part_exists. Qed.
(** Characters outside the alphabet make no difference to the decoded text. *)
Theorem decode64_ignores_others : forall s p blk, all_bytes s -> Z.of_nat (List.length s) < 18446744073709551616 -> base64_part s p ->
  str_decode64_ex s = Ok (Some blk) ->
  exists o r r', blk = o ++ 0 :: r /\ str_decode64_ex p = Ok (Some (o ++ 0 :: r')).
Proof.
  intros s p blk Hs Hl Hp E.
  assert (Hpp : base64_part p p). { clear - Hp. induction Hp; auto; constructor; auto. }
  assert (Lp : Z.of_nat (List.length p) <= Z.of_nat (List.length s)). { clear - Hp. induction Hp; cbn [List.length] in *; lia. }
  destruct (decode64_ok s p Hp Hs Hl) as [[_ F]|(H1 & H2 & H3 & o & rest & G & F & L)]; [congruence|].
  destruct (decode64_ok p p Hpp (part_bytes s p Hp Hs) ltac:(lia)) as [[[?|[?|?]] _]|(_ & _ & _ & o' & rest' & G' & F' & _)]; try tauto.
  exists o, rest, rest'. split; [congruence|]. rewrite F'. congruence.
Qed.
Theorem is_base64_iff : forall s, all_bytes s -> exists t, is_base64 s = Ok t /\ (t = true <-> Forall base64_char s).
Proof. exact is_base64_ok. Qed.
Example decode64_case :
  str_decode64_ex (bs "YW55 !! IGNh") = Ok (Some (bs "any ca" ++ [0])) /\ str_decode64_ex (bs "YW55I") = Ok None /\
  str_decode64_ex (bs "YW55I===") = Ok None /\ is_base64 (bs "aB3+/=") = Ok true /\ is_base64 (bs "a b") = Ok false.
Proof. repeat split; vm_compute; reflexivity. Qed.

(** * The theorems above on concrete values: their hypotheses can be met. *)
Ltac calc := vm_compute; first [reflexivity | discriminate | (intros; discriminate)].
Ltac met := first [ lia | (left; discriminate) | (right; calc) | (apply all_bytes_dec; calc) | (apply digits_dec; calc) | (intros; lia) | (intros; reflexivity) | calc | (split; calc) ].
Example encode64_met := encode64_rfc4648 (bs "any carnal pleas") ltac:(met) ltac:(met).
Example decode64_encode64_met := decode64_encode64_partial (bs "any carnal pleas") ltac:(met) ltac:(discriminate) ltac:(met).
Lemma part_case : base64_part (bs "YW5! 5=") (bs "YW55=").
Proof.
  repeat (first [ apply part_nil
                | apply part_keep; [unfold base64_char; vm_compute; intuition congruence|]
                | apply part_drop; [unfold base64_char; vm_compute; intuition congruence|] ]).
Qed.
Example decode64_met := decode64_safe (bs "YW5! 5=") (bs "YW55=") ltac:(met) ltac:(met) part_case.
Lemma part_case2 : base64_part (bs "YW!55") (bs "YW55").
Proof.
  repeat (first [ apply part_nil
                | apply part_keep; [unfold base64_char; vm_compute; intuition congruence|]
                | apply part_drop; [unfold base64_char; vm_compute; intuition congruence|] ]).
Qed.
Example decode64_ignores_met := decode64_ignores_others (bs "YW!55") (bs "YW55") [97; 110; 121; 0] ltac:(met) ltac:(met) part_case2 ltac:(met).
Example is_base64_met := is_base64_iff (bs "aB3+/=") ltac:(met).

Print Assumptions encode64_rfc4648. Print Assumptions decode64_encode64_partial. Print Assumptions decode64_encode64_refuted.
Print Assumptions decode64_safe. Print Assumptions base64_part_total. Print Assumptions decode64_ignores_others. Print Assumptions is_base64_iff.
