(** Lemmas on the model of getopt: exchange, and the calls against a specification of scanning. *)
From Verif Require Import BaseLemmas GetoptModel.
Import ListNotations.

Lemma rda_at p x q : rda (p ++ x :: q) (zlen p) = Ok x.
Proof. unfold rda. rewrite app_length. cbn. replace ((0 <=? zlen p) && (zlen p <? Z.of_nat (length p + S (length q)))) with true by lia. rewrite Nat2Z.id, nth_middle. reflexivity. Qed.
Lemma wra_at p x q y : wra (p ++ x :: q) (zlen p) y = Ok (p ++ y :: q).
Proof.
  unfold wra. rewrite app_length. cbn [length]. replace ((0 <=? zlen p) && (zlen p <? Z.of_nat (length p + S (length q)))) with true by lia. rewrite Nat2Z.id.
  rewrite firstn_app, firstn_all, Nat.sub_diag. cbn [firstn]. rewrite app_nil_r. rewrite skipn_app, skipn_all2 by lia. replace (S (length p) - length p)%nat with 1%nat by lia. reflexivity.
Qed.
(** The for loop swaps two blocks of the same length. *)
Lemma swap_run_blocks : forall X Y p m q, length X = length Y -> swap_run (length X) (zlen p) (zlen p + zlen X + zlen m) (p ++ X ++ m ++ Y ++ q) = Ok (p ++ Y ++ m ++ X ++ q).
Proof.
  induction X as [|x X IH]; intros [|y Y] p m q L; try discriminate; [reflexivity|]. cbn [length] in L. cbn [swap_run length]. cbn [app].
  rewrite rda_at. cbn [bind]. replace (zlen p + Z.of_nat (S (length X)) + zlen m) with (zlen (p ++ x :: X ++ m)) by (rewrite !app_length; cbn; rewrite app_length; lia).
  replace (p ++ x :: X ++ m ++ y :: Y ++ q) with ((p ++ x :: X ++ m) ++ y :: Y ++ q) at 1 by (rewrite <- app_assoc; cbn; rewrite <- app_assoc; reflexivity). rewrite rda_at. cbn [bind].
  rewrite wra_at. cbn [bind]. replace (zlen (p ++ x :: X ++ m)) with (zlen (p ++ y :: X ++ m)) by (rewrite !app_length; reflexivity).
  replace (p ++ y :: X ++ m ++ y :: Y ++ q) with ((p ++ y :: X ++ m) ++ y :: Y ++ q) by (rewrite <- app_assoc; cbn; rewrite <- app_assoc; reflexivity). rewrite wra_at. cbn [bind].
  specialize (IH Y (p ++ [y]) (m ++ [x]) q ltac:(lia)).
  replace (zlen (p ++ [y])) with (zlen p + 1) in IH by (rewrite app_length; cbn; lia). replace (zlen p + 1 + zlen X + zlen (m ++ [x])) with (zlen (p ++ y :: X ++ m) + 1) in IH by (rewrite !app_length; cbn; rewrite app_length; lia).
  rewrite <- !app_assoc in IH. cbn [app] in IH. rewrite <- !app_assoc. cbn [app]. rewrite <- !app_assoc.  exact IH.
Qed.
Lemma swap_run_blocks' n a b l X Y p m q : length X = length Y -> n = length X -> a = zlen p -> b = zlen p + zlen X + zlen m -> l = p ++ X ++ m ++ Y ++ q -> swap_run n a b l = Ok (p ++ Y ++ m ++ X ++ q).
Proof. intros L -> -> -> ->. apply swap_run_blocks. exact L. Qed.
(** The while loop exchanges two adjacent blocks and keeps the order inside each. *)
Lemma exchange_loop_blocks : forall fuel A B p q, (length A + length B <= fuel)%nat -> exchange_loop fuel (zlen p) (zlen p + zlen A) (zlen p + zlen A + zlen B) (p ++ A ++ B ++ q) = Ok (p ++ B ++ A ++ q).
Proof.
  induction fuel as [|fuel IH]; intros A B p q F; cbn [exchange_loop].
  - destruct A, B; cbn in F; try lia. replace (zlen p + zlen (@nil Z) <? zlen p + zlen (@nil Z) + zlen (@nil Z)) with false by (cbn; lia). reflexivity.
  - destruct (Nat.eq_dec (length A) 0) as [EA|NA]; [destruct A; [|discriminate]; replace (zlen p <? zlen p + zlen (@nil Z)) with false by (cbn; lia); rewrite andb_false_r; reflexivity|].
    destruct (Nat.eq_dec (length B) 0) as [EB|NB]; [destruct B; [|discriminate]; replace (zlen p + zlen A <? zlen p + zlen A + zlen (@nil Z)) with false by (cbn; lia); reflexivity|].
    replace (zlen p + zlen A <? zlen p + zlen A + zlen B) with true by lia. replace (zlen p <? zlen p + zlen A) with true by lia. cbn [andb].
    destruct (Z.ltb_spec (zlen p + zlen A - zlen p) (zlen p + zlen A + zlen B - (zlen p + zlen A))) as [C|C].
    + assert (X : exists B1 B2, B = B1 ++ B2 /\ length B2 = length A) by (exists (firstn (length B - length A) B), (skipn (length B - length A) B); rewrite firstn_skipn, skipn_length; split; [reflexivity|lia]).
      destruct X as (B1 & B2 & -> & L2). assert (L1 : (length B1 + length B2 = length (B1 ++ B2))%nat) by (rewrite app_length; reflexivity).
      rewrite (swap_run_blocks' _ _ _ _ A B2 p B1 q) by (rewrite ?app_length, <- ?app_assoc; try reflexivity; lia). cbn [bind].
      replace (zlen p + zlen A) with (zlen p + zlen B2) by lia. replace (zlen p + zlen B2 + zlen (B1 ++ B2) - (zlen p + zlen B2 - zlen p)) with (zlen p + zlen B2 + zlen B1) by lia.
      rewrite (IH B2 B1 p (A ++ q)) by lia. rewrite <- !app_assoc. reflexivity.
    + assert (X : exists A1 A2, A = A1 ++ A2 /\ length A1 = length B) by (exists (firstn (length B) A), (skipn (length B) A); rewrite firstn_skipn, firstn_length; split; [reflexivity|lia]).
      destruct X as (A1 & A2 & -> & L1). assert (L2 : (length A1 + length A2 = length (A1 ++ A2))%nat) by (rewrite app_length; reflexivity).
      rewrite (swap_run_blocks' _ _ _ _ A1 B p A2 q) by (rewrite ?app_length, <- ?app_assoc; try reflexivity; lia). cbn [bind].
      replace (zlen p + (zlen p + zlen (A1 ++ A2) + zlen B - (zlen p + zlen (A1 ++ A2)))) with (zlen (p ++ B)) by (rewrite app_length; lia).
      replace (zlen p + zlen (A1 ++ A2)) with (zlen (p ++ B) + zlen A2) by (rewrite !app_length; lia). replace (zlen (p ++ B) + zlen A2 + zlen B) with (zlen (p ++ B) + zlen A2 + zlen A1) by lia.
      replace (p ++ B ++ A2 ++ A1 ++ q) with ((p ++ B) ++ A2 ++ A1 ++ q) by (rewrite <- app_assoc; reflexivity). rewrite (IH A2 A1 (p ++ B) q) by lia. rewrite <- !app_assoc. reflexivity.
Qed.
Lemma exchange_blocks A B p q s : argv s = p ++ A ++ B ++ q -> first_nonopt s = zlen p -> last_nonopt s = zlen p + zlen A -> optind s = zlen p + zlen A + zlen B ->
  exchange s = Ok (set_nonopts (zlen p + zlen B) (zlen p + zlen A + zlen B) (set_argv (p ++ B ++ A ++ q) s)).
Proof.
  intros E F L O. unfold exchange. rewrite E, F, L, O. rewrite exchange_loop_blocks by (rewrite !app_length; lia). cbn [bind]. repeat f_equal; lia.
Qed.
