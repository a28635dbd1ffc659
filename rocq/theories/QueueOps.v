(** Each macro of queue.h does what its meaning says. *)
From Verif Require Import Base BaseLemmas QueueModel SpecQueue QueueProofs.

Lemma enc0 h v : enc (fun _ => 0) h v = v. Proof. reflexivity. Qed.
Ltac note P := let T := type of P in lazymatch goal with _ : T |- _ => fail | _ => pose proof P end.
Lemma add_neq x y c : x <> y -> x + c <> y + c. Proof. lia. Qed.
Ltac arith := repeat match goal with H : _ <> _ |- _ => clear H end; lia.
(** Two addresses differ. *)
Ltac dis := first [assumption | apply not_eq_sym; assumption | apply add_neq; first [assumption | apply not_eq_sym; assumption] | arith].
(** Reads: the value of a cell after some stores. *)
Ltac look := rewrite ?Z.add_0_r; repeat (first [rewrite upd_eq | rewrite upd_neq by dis]); try eassumption; try reflexivity.
(** The cell is allocated. *)
Ltac alloc := rewrite ?Z.add_0_r; repeat apply upd_alloc; first [assumption | congruence].
Ltac rd := erewrite get_ok; [cbn [bind]|arith|solve [look]].
Ltac wr := rewrite set_ok; [cbn [bind]|arith|alloc].
Ltac sto := rewrite st_ok; [cbn [bind]|alloc].
Ltac ev := cbn [bind]; repeat first [rd | wr | sto].
Ltac nz x := rewrite (proj2 (Z.eqb_neq x 0)) by arith.
Ltac facts_of F U D T X ck m0 IV SP h g :=
  repeat match goal with
  | A : In ?x U |- _ => note (sep_U F U D T X h g SP x A)
  | A : In ?x U |- _ => note (h_nx F U D T X h g SP x A)
  | A : In ?x U |- _ => note (h_pv F U D T X h g SP x eq_refl A)
  | A : In ?x U |- _ => note (last_nx F U D T X h g SP x eq_refl A)
  | A : In ?x U |- _ => note (last_pv F U D T X h g SP x eq_refl eq_refl A)
  | A : In ?x U |- _ => note (cookie_nx F U D T X h g SP x eq_refl A)
  | A : In ?x U |- _ => note (inv_nx F U D T X ck m0 _ _ _ _ _ x IV A)
  | A : In ?x U |- _ => note (inv_pvn F U D T X ck m0 _ _ _ _ _ x eq_refl IV A)
  | A : In ?x U, B : In ?y U |- _ => note (nx_pv F U D T X h g SP x y eq_refl A B)
  end;
  pose proof (sep_ph F U D T X h g SP); pose proof (sep_F F U D T X h g SP).
Lemma t_le F D T h a le es b : touched F D T h (a ++ [le]) es b (le + F). Proof. left. symmetry. apply endc_snoc. Qed.
Ltac touches := rewrite ?Z.add_0_r; first [apply t_end | apply t_le | apply t_nx; left; reflexivity | apply t_pv; [reflexivity|left; reflexivity] | apply t_b; reflexivity | apply t_last; reflexivity].
Ltac mod_ := repeat (apply mods_upd; [first [exact I | touches]|]); apply mods_nil.
Ltac frame := match goal with
  | |- forall c, ~ touched _ _ _ _ _ _ _ c -> _ => apply mods_frame; mod_
  | |- forall c, _ <> None -> _ => apply (mods_alloc (fun _ => True)); mod_
  end.
Ltac pvs := let Q := fresh in intros _ ? ? Q; first [discriminate Q | injection Q as <- <-]; look.
Ltac fin := first [solve [frame] | solve [pvs] | solve [intros; discriminate] | solve [intros; look] | solve [look] | idtac].
Lemma app_mid {A} (a : list A) x b : a ++ x :: b = (a ++ [x]) ++ b. Proof. rewrite <- app_assoc. reflexivity. Qed.
Lemma in_mid {A} (a : list A) x b : In x (a ++ x :: b). Proof. apply in_or_app. right. left. reflexivity. Qed.
Lemma in_mid2 {A} (a : list A) x y b : In y (a ++ x :: y :: b). Proof. apply in_or_app. right. right. left. reflexivity. Qed.
Lemma incl_pre {A} (a b U : list A) : incl (a ++ b) U -> incl a U.
Proof. intros I x J. apply I, in_or_app. left. assumption. Qed.

(** The cell behind the elements [a]. *)
Ltac cell_of F U D T X ck IV SP h g a b :=
  let IL := fresh in assert (IL : incl a U) by (first [exact (i_l _ _ _ _ _ _ _ _ _ _ _ _ IV) | exact (incl_pre _ _ _ (i_l _ _ _ _ _ _ _ _ _ _ _ _ IV))]);
  try pose proof (endc_last F U D T X ck h g SP a eq_refl IL); pose proof (endc_pos F U D T X ck h g SP a IL); try pose proof (endc_cookie F U D T X ck h g SP a eq_refl IL);
  repeat match goal with
  | A : In ?x U |- _ => note (endc_pv F U D T X h g SP a x eq_refl IL A)
  | A : In ?x U, N : ~ In ?x a |- _ => note (endc_nx F U D T X ck h g SP a x IL A N)
  end.
Lemma heads_apart F U D X h g : sep F U D true X h g -> h <> g /\ h <> g + 8 /\ h + 8 <> g /\ h + 8 <> g + 8.
Proof.
  intros SP. assert (N : forall c d, In c (head_cells true X h) -> In d (head_cells true X g) -> c <> d) by (intros c d A B ->; exact (sep_hg _ _ _ _ _ _ _ SP d A B)).
  repeat split; apply N; auto using hc_first, hc_last.
Qed.
Lemma endc_apart F U D X h g a : sep F U D true X h g -> incl a U -> endc F h a <> g /\ endc F h a <> g + 8.
Proof.
  intros SP I. pose proof (heads_apart _ _ _ _ _ _ SP) as (A & B & C & E).
  destruct (endc_cases F U h a I) as [->|(e & J & _ & ->)]; [split; assumption|]. pose proof (sep_swap _ _ _ _ _ _ _ SP) as SP'.
  split; apply not_eq_sym; [exact (h_nx F U D true X g h SP' e J)|exact (last_nx F U D true X g h SP' e eq_refl J)].
Qed.
(** The other queue is not empty, or it is. *)
Lemma nonempty_ok h m v : h <> 0 -> m h = Some v -> empty h m = Ok (v =? 0).
Proof. intros N M. unfold empty, first. rewrite (get_ok h 0 m v N) by (rewrite Z.add_0_r; exact M). reflexivity. Qed.

(** Two-word heads. *)
Lemma two_init F U D m0 m h g : apart F D true false U h g -> (forall c, In c (cells F D true false U h g) -> m c <> None) -> (forall c, m c = m0 c) ->
  exists m' m'', simpleq_init h m = Ok m' /\ simpleq_init g m' = Ok m'' /\ inv F U D true false (fun _ => 0) m0 m'' h [] g [].
Proof.
  intros AP AL FR. apply apart_sep in AP. rename AP into SP. pose proof (sep_swap _ _ _ _ _ _ _ SP) as SP'.
  destruct (heads_apart _ _ _ _ _ _ SP) as (D1 & D2 & D3 & D4). pose proof (sep_ph _ _ _ _ _ _ _ SP). pose proof (sep_pg _ _ _ _ _ _ _ SP).
  assert (m h <> None) by (apply AL; left; reflexivity). assert (m (h + 8) <> None) by (apply AL; right; left; reflexivity).
  assert (m g <> None) by (apply AL; right; right; left; reflexivity). assert (m (g + 8) <> None) by (apply AL; right; right; right; left; reflexivity).
  unfold simpleq_init. ev. do 2 eexists. split; [reflexivity|]. ev. split; [reflexivity|].
  apply init_inv; try assumption; try (intros; look; fail); try discriminate.
  - intros c J. repeat apply upd_alloc. apply AL. unfold cells. apply in_or_app. destruct J as [J|J]; [left; assumption|right]. apply in_or_app. destruct J as [J|(e & I & J)]; [left; assumption|right].
    apply in_flat_map. exists e. auto.
  - intros c N1 N2. rewrite <- FR. assert (c <> h /\ c <> h + 8 /\ c <> g /\ c <> g + 8) as (N3 & N4 & N5 & N6).
    { repeat split; intros ->; [apply N1, hc_first|apply N1, hc_last; reflexivity|apply N2, hc_first|apply N2, hc_last; reflexivity]. }
    look.
Qed.

Section Tailq.
Variables (F : Z) (U : list Z) (m0 : mem).
Notation TI := (inv F U true true false (fun _ => 0) m0).
Ltac facts IV SP h g := facts_of F U true true false (fun _ : Z => 0) m0 IV SP h g.
Ltac cell IV SP h g a b := cell_of F U true true false (fun _ : Z => 0) IV SP h g a b.
Lemma tq_insert_head m h l g k e : TI m h l g k -> In e U -> ~ In e l -> ~ In e k -> exists m', tailq_insert_head F h e m = Ok m' /\ TI m' h (e :: l) g k.
Proof.
  intros IV Ie Nl Nk. pose proof (i_sep _ _ _ _ _ _ _ _ _ _ _ _ IV) as SP.
  pose proof (inv_end _ _ _ _ _ _ _ _ _ [] l _ _ IV) as E0. rewrite enc0 in E0. change (endc F h []) with h in E0.
  pose proof (inv_last _ _ _ _ _ _ _ _ _ _ _ _ eq_refl IV) as E1.
  unfold tailq_insert_head. destruct l as [|x b]; cbn [hd] in E0.
  - facts IV SP h g. ev. cbn [Z.eqb]. ev. eexists. split; [reflexivity|].
    apply (ins_inv _ _ _ _ _ _ _ m _ h [] [] g k e IV Ie Nl Nk); rewrite ?enc0; cbn [hd]; change (endc F h []) with h; fin.
  - assert (Ix : In x U) by (apply (i_l _ _ _ _ _ _ _ _ _ _ _ _ IV); left; reflexivity). assert (x <> e) by (intros ->; apply Nl; left; reflexivity).
    facts IV SP h g. ev. nz x. ev. eexists. split; [reflexivity|].
    apply (ins_inv _ _ _ _ _ _ _ m _ h [] (x :: b) g k e IV Ie Nl Nk); rewrite ?enc0; cbn [hd]; change (endc F h []) with h; fin.
Qed.
Lemma tq_insert_tail m h l g k e : TI m h l g k -> In e U -> ~ In e l -> ~ In e k -> exists m', tailq_insert_tail F h e m = Ok m' /\ TI m' h (l ++ [e]) g k.
Proof.
  intros IV Ie Nl Nk. pose proof (i_sep _ _ _ _ _ _ _ _ _ _ _ _ IV) as SP.
  pose proof (inv_last _ _ _ _ _ _ _ _ _ _ _ _ eq_refl IV) as E1. rewrite enc0 in E1.
  assert (IV' : TI m h (l ++ []) g k) by (rewrite app_nil_r; exact IV). pose proof (inv_end _ _ _ _ _ _ _ _ _ l [] _ _ IV') as E0. rewrite enc0 in E0. cbn [hd] in E0.
  unfold tailq_insert_tail. facts IV SP h g. cell IV SP h g l (@nil Z). ev. eexists. split; [reflexivity|].
  assert (Nl' : ~ In e (l ++ [])) by (rewrite app_nil_r; assumption).
  apply (ins_inv _ _ _ _ _ _ _ m _ h l [] g k e IV' Ie Nl' Nk); rewrite ?enc0; cbn [hd]; fin.
Qed.
Lemma tq_insert_after m h a le b g k e : TI m h (a ++ le :: b) g k -> In e U -> ~ In e (a ++ le :: b) -> ~ In e k ->
  exists m', tailq_insert_after F h le e m = Ok m' /\ TI m' h (a ++ le :: e :: b) g k.
Proof.
  intros IV Ie Nl Nk. pose proof (i_sep _ _ _ _ _ _ _ _ _ _ _ _ IV) as SP.
  assert (Il : In le U) by (apply (i_l _ _ _ _ _ _ _ _ _ _ _ _ IV), in_mid). assert (le <> e) by (intros ->; apply Nl, in_mid).
  rewrite app_mid in IV, Nl. rewrite app_mid. pose proof (inv_end _ _ _ _ _ _ _ _ _ (a ++ [le]) b _ _ IV) as E0. rewrite enc0, endc_snoc in E0.
  pose proof (inv_last _ _ _ _ _ _ _ _ _ _ _ _ eq_refl IV) as E1.
  unfold tailq_insert_after. destruct b as [|x b]; cbn [hd] in E0.
  - facts IV SP h g. ev. cbn [Z.eqb]. ev. eexists. split; [reflexivity|].
    apply (ins_inv _ _ _ _ _ _ _ m _ h (a ++ [le]) [] g k e IV Ie Nl Nk); rewrite ?enc0, ?endc_snoc; cbn [hd]; fin.
  - assert (Ix : In x U) by (apply (i_l _ _ _ _ _ _ _ _ _ _ _ _ IV), in_mid). assert (x <> e) by (intros ->; apply Nl, in_mid).
    assert (x <> le) by (intros ->; apply (proj1 (inv_nodup _ _ _ _ _ _ _ _ _ _ _ _ _ _ IV)), in_or_app; right; left; reflexivity).
    facts IV SP h g. ev. nz x. ev. eexists. split; [reflexivity|].
    apply (ins_inv _ _ _ _ _ _ _ m _ h (a ++ [le]) (x :: b) g k e IV Ie Nl Nk); rewrite ?enc0, ?endc_snoc; cbn [hd]; fin.
Qed.
Lemma tq_insert_before m h a le b g k e : TI m h (a ++ le :: b) g k -> In e U -> ~ In e (a ++ le :: b) -> ~ In e k ->
  exists m', insert_before F le e m = Ok m' /\ TI m' h (a ++ e :: le :: b) g k.
Proof.
  intros IV Ie Nl Nk. pose proof (i_sep _ _ _ _ _ _ _ _ _ _ _ _ IV) as SP.
  assert (Il : In le U) by (apply (i_l _ _ _ _ _ _ _ _ _ _ _ _ IV), in_mid). assert (le <> e) by (intros ->; apply Nl, in_mid).
  assert (Na : ~ In e a) by (intros J; apply Nl, in_or_app; left; assumption).
  pose proof (inv_end _ _ _ _ _ _ _ _ _ a (le :: b) _ _ IV) as E0. rewrite enc0 in E0. cbn [hd] in E0.
  pose proof (inv_pv _ _ _ _ _ _ _ _ _ a le b _ _ eq_refl IV) as E1.
  unfold insert_before. facts IV SP h g. cell IV SP h g a (le :: b). ev. eexists. split; [reflexivity|].
  apply (ins_inv _ _ _ _ _ _ _ m _ h a (le :: b) g k e IV Ie Nl Nk); rewrite ?enc0; cbn [hd]; fin.
Qed.
Lemma tq_remove m h a e b g k : TI m h (a ++ e :: b) g k -> exists m', tailq_remove F h e m = Ok m' /\ TI m' h (a ++ b) g k.
Proof.
  intros IV. pose proof (i_sep _ _ _ _ _ _ _ _ _ _ _ _ IV) as SP.
  assert (Ie : In e U) by (apply (i_l _ _ _ _ _ _ _ _ _ _ _ _ IV), in_mid). destruct (inv_nodup _ _ _ _ _ _ _ _ _ _ _ _ _ _ IV) as (Na & Nb & Nk).
  pose proof (inv_end _ _ _ _ _ _ _ _ _ a (e :: b) _ _ IV) as E0. rewrite enc0 in E0. cbn [hd] in E0.
  pose proof (inv_pv _ _ _ _ _ _ _ _ _ a e b _ _ eq_refl IV) as E1.
  pose proof IV as IV'. rewrite app_mid in IV'. pose proof (inv_end _ _ _ _ _ _ _ _ _ (a ++ [e]) b _ _ IV') as E2. rewrite enc0, endc_snoc in E2.
  pose proof (inv_last _ _ _ _ _ _ _ _ _ _ _ _ eq_refl IV) as E3.
  unfold tailq_remove. destruct b as [|x b]; cbn [hd] in E2.
  - facts IV SP h g. cell IV SP h g a (@nil Z). ev. cbn [Z.eqb]. ev. eexists. split; [reflexivity|].
    apply (rem_inv _ _ _ _ _ _ _ m _ h a e [] g k IV); rewrite ?enc0; cbn [hd]; fin.
  - assert (Ix : In x U) by (apply (i_l _ _ _ _ _ _ _ _ _ _ _ _ IV), in_mid2). assert (x <> e) by (intros ->; apply Nb; left; reflexivity).
    facts IV SP h g. cell IV SP h g a (x :: b). ev. nz x. ev. eexists. split; [reflexivity|].
    apply (rem_inv _ _ _ _ _ _ _ m _ h a e (x :: b) g k IV); rewrite ?enc0; cbn [hd]; fin.
Qed.
Lemma tq_replace m h a e b g k e2 : TI m h (a ++ e :: b) g k -> In e2 U -> ~ In e2 (a ++ e :: b) -> ~ In e2 k ->
  exists m', tailq_replace F h e e2 m = Ok m' /\ TI m' h (a ++ e2 :: b) g k.
Proof.
  intros IV I2 N2 K2. pose proof (i_sep _ _ _ _ _ _ _ _ _ _ _ _ IV) as SP.
  assert (Ie : In e U) by (apply (i_l _ _ _ _ _ _ _ _ _ _ _ _ IV), in_mid). destruct (inv_nodup _ _ _ _ _ _ _ _ _ _ _ _ _ _ IV) as (Na & Nb & Nk).
  assert (e2 <> e) by (intros ->; apply N2, in_mid). assert (Na2 : ~ In e2 a) by (intros J; apply N2, in_or_app; left; assumption).
  pose proof (inv_end _ _ _ _ _ _ _ _ _ a (e :: b) _ _ IV) as E0. rewrite enc0 in E0. cbn [hd] in E0.
  pose proof (inv_pv _ _ _ _ _ _ _ _ _ a e b _ _ eq_refl IV) as E1.
  pose proof IV as IV'. rewrite app_mid in IV'. pose proof (inv_end _ _ _ _ _ _ _ _ _ (a ++ [e]) b _ _ IV') as E2. rewrite enc0, endc_snoc in E2.
  pose proof (inv_last _ _ _ _ _ _ _ _ _ _ _ _ eq_refl IV) as E3.
  unfold tailq_replace. destruct b as [|x b]; cbn [hd] in E2.
  - facts IV SP h g. cell IV SP h g a (@nil Z). ev. cbn [Z.eqb]. ev. eexists. split; [reflexivity|].
    apply (rep_inv _ _ _ _ _ _ _ m _ h a e [] g k e2 IV I2 N2 K2); rewrite ?enc0; cbn [hd]; fin.
  - assert (Ix : In x U) by (apply (i_l _ _ _ _ _ _ _ _ _ _ _ _ IV), in_mid2). assert (x <> e) by (intros ->; apply Nb; left; reflexivity).
    assert (x <> e2) by (intros ->; apply N2, in_mid2).
    facts IV SP h g. cell IV SP h g a (x :: b). ev. nz x. ev. eexists. split; [reflexivity|].
    apply (rep_inv _ _ _ _ _ _ _ m _ h a e (x :: b) g k e2 IV I2 N2 K2); rewrite ?enc0; cbn [hd]; fin.
Qed.
Lemma tq_concat m h l g k : TI m h l g k -> exists m', tailq_concat F h g m = Ok m' /\ TI m' h (l ++ k) g [].
Proof.
  intros IV. pose proof (i_sep _ _ _ _ _ _ _ _ _ _ _ _ IV) as SP. pose proof (sep_swap _ _ _ _ _ _ _ SP) as SP'. pose proof (inv_swap _ _ _ _ _ _ _ _ _ _ _ _ IV) as IV'.
  pose proof (inv_end _ _ _ _ _ _ _ _ _ [] k _ _ IV') as E0. rewrite enc0 in E0. change (endc F g []) with g in E0.
  pose proof (sep_pg _ _ _ _ _ _ _ SP). unfold tailq_concat. rewrite (nonempty_ok g m _) with (2 := E0) by arith. cbn [bind].
  destruct k as [|x k]; cbn [hd] in *.
  - cbn [Z.eqb]. exists m. split; [reflexivity|]. rewrite app_nil_r. exact IV.
  - pose proof (inv_last _ _ _ _ _ _ _ _ _ _ _ _ eq_refl IV) as E1. pose proof (inv_last _ _ _ _ _ _ _ _ _ _ _ _ eq_refl IV') as E2. rewrite enc0 in E1, E2.
    assert (IVn : TI m h (l ++ []) g (x :: k)) by (rewrite app_nil_r; exact IV). pose proof (inv_end _ _ _ _ _ _ _ _ _ l [] _ _ IVn) as E3. rewrite enc0 in E3. cbn [hd] in E3.
    assert (Ix : In x U) by (apply (i_k _ _ _ _ _ _ _ _ _ _ _ _ IV); left; reflexivity).
    facts IV SP h g. pose proof (h_pv F U true true false g h SP' x eq_refl Ix). pose proof (last_pv F U true true false g h SP' x eq_refl eq_refl Ix).
    cell IV SP h g l (@nil Z). destruct (heads_apart _ _ _ _ _ _ SP) as (D1 & D2 & D3 & D4). destruct (endc_apart _ _ _ _ _ _ l SP (i_l _ _ _ _ _ _ _ _ _ _ _ _ IV)) as (D5 & D6).
    assert (D7 : endc F g (x :: k) <> 0) by (pose proof (endc_pos F U true true false (fun _ => 0) g h SP' (x :: k) (i_k _ _ _ _ _ _ _ _ _ _ _ _ IV)); arith).
    nz x. unfold simpleq_init. ev. eexists. split; [reflexivity|].
    apply (cat_inv F U true true false (fun _ => 0) m0 m _ h l g x k eq_refl eq_refl IV); rewrite ?enc0; fin.
Qed.
End Tailq.

Section Lists.
Variables (F : Z) (U : list Z) (m0 : mem).
Notation LI := (inv F U true false false (fun _ => 0) m0).
Ltac facts IV SP h g := facts_of F U true false false (fun _ : Z => 0) m0 IV SP h g.
Ltac cell IV SP h g a b := cell_of F U true false false (fun _ : Z => 0) IV SP h g a b.
Lemma li_insert_head m h l g k e : LI m h l g k -> In e U -> ~ In e l -> ~ In e k -> exists m', list_insert_head F h e m = Ok m' /\ LI m' h (e :: l) g k.
Proof.
  intros IV Ie Nl Nk. pose proof (i_sep _ _ _ _ _ _ _ _ _ _ _ _ IV) as SP.
  pose proof (inv_end _ _ _ _ _ _ _ _ _ [] l _ _ IV) as E0. rewrite enc0 in E0. change (endc F h []) with h in E0.
  unfold list_insert_head. destruct l as [|x b]; cbn [hd] in E0.
  - facts IV SP h g. ev. cbn [Z.eqb]. ev. eexists. split; [reflexivity|].
    apply (ins_inv _ _ _ _ _ _ _ m _ h [] [] g k e IV Ie Nl Nk); rewrite ?enc0; cbn [hd]; change (endc F h []) with h; fin.
  - assert (Ix : In x U) by (apply (i_l _ _ _ _ _ _ _ _ _ _ _ _ IV); left; reflexivity). assert (x <> e) by (intros ->; apply Nl; left; reflexivity).
    facts IV SP h g. ev. nz x. ev. eexists. split; [reflexivity|].
    apply (ins_inv _ _ _ _ _ _ _ m _ h [] (x :: b) g k e IV Ie Nl Nk); rewrite ?enc0; cbn [hd]; change (endc F h []) with h; fin.
Qed.
Lemma li_insert_after m h a le b g k e : LI m h (a ++ le :: b) g k -> In e U -> ~ In e (a ++ le :: b) -> ~ In e k ->
  exists m', list_insert_after F le e m = Ok m' /\ LI m' h (a ++ le :: e :: b) g k.
Proof.
  intros IV Ie Nl Nk. pose proof (i_sep _ _ _ _ _ _ _ _ _ _ _ _ IV) as SP.
  assert (Il : In le U) by (apply (i_l _ _ _ _ _ _ _ _ _ _ _ _ IV), in_mid). assert (le <> e) by (intros ->; apply Nl, in_mid).
  rewrite app_mid in IV, Nl. rewrite app_mid. pose proof (inv_end _ _ _ _ _ _ _ _ _ (a ++ [le]) b _ _ IV) as E0. rewrite enc0, endc_snoc in E0.
  unfold list_insert_after. destruct b as [|x b]; cbn [hd] in E0.
  - facts IV SP h g. ev. cbn [Z.eqb]. ev. eexists. split; [reflexivity|].
    apply (ins_inv _ _ _ _ _ _ _ m _ h (a ++ [le]) [] g k e IV Ie Nl Nk); rewrite ?enc0, ?endc_snoc; cbn [hd]; fin.
  - assert (Ix : In x U) by (apply (i_l _ _ _ _ _ _ _ _ _ _ _ _ IV), in_mid). assert (x <> e) by (intros ->; apply Nl, in_mid).
    assert (x <> le) by (intros ->; apply (proj1 (inv_nodup _ _ _ _ _ _ _ _ _ _ _ _ _ _ IV)), in_or_app; right; left; reflexivity).
    facts IV SP h g. ev. nz x. ev. eexists. split; [reflexivity|].
    apply (ins_inv _ _ _ _ _ _ _ m _ h (a ++ [le]) (x :: b) g k e IV Ie Nl Nk); rewrite ?enc0, ?endc_snoc; cbn [hd]; fin.
Qed.
Lemma li_insert_before m h a le b g k e : LI m h (a ++ le :: b) g k -> In e U -> ~ In e (a ++ le :: b) -> ~ In e k ->
  exists m', insert_before F le e m = Ok m' /\ LI m' h (a ++ e :: le :: b) g k.
Proof.
  intros IV Ie Nl Nk. pose proof (i_sep _ _ _ _ _ _ _ _ _ _ _ _ IV) as SP.
  assert (Il : In le U) by (apply (i_l _ _ _ _ _ _ _ _ _ _ _ _ IV), in_mid). assert (le <> e) by (intros ->; apply Nl, in_mid).
  assert (Na : ~ In e a) by (intros J; apply Nl, in_or_app; left; assumption).
  pose proof (inv_end _ _ _ _ _ _ _ _ _ a (le :: b) _ _ IV) as E0. rewrite enc0 in E0. cbn [hd] in E0.
  pose proof (inv_pv _ _ _ _ _ _ _ _ _ a le b _ _ eq_refl IV) as E1.
  unfold insert_before. facts IV SP h g. cell IV SP h g a (le :: b). ev. eexists. split; [reflexivity|].
  apply (ins_inv _ _ _ _ _ _ _ m _ h a (le :: b) g k e IV Ie Nl Nk); rewrite ?enc0; cbn [hd]; fin.
Qed.
Lemma li_remove m h a e b g k : LI m h (a ++ e :: b) g k -> exists m', list_remove F e m = Ok m' /\ LI m' h (a ++ b) g k.
Proof.
  intros IV. pose proof (i_sep _ _ _ _ _ _ _ _ _ _ _ _ IV) as SP.
  assert (Ie : In e U) by (apply (i_l _ _ _ _ _ _ _ _ _ _ _ _ IV), in_mid). destruct (inv_nodup _ _ _ _ _ _ _ _ _ _ _ _ _ _ IV) as (Na & Nb & Nk).
  pose proof (inv_end _ _ _ _ _ _ _ _ _ a (e :: b) _ _ IV) as E0. rewrite enc0 in E0. cbn [hd] in E0.
  pose proof (inv_pv _ _ _ _ _ _ _ _ _ a e b _ _ eq_refl IV) as E1.
  pose proof IV as IV'. rewrite app_mid in IV'. pose proof (inv_end _ _ _ _ _ _ _ _ _ (a ++ [e]) b _ _ IV') as E2. rewrite enc0, endc_snoc in E2.
  unfold list_remove. destruct b as [|x b]; cbn [hd] in E2.
  - facts IV SP h g. cell IV SP h g a (@nil Z). ev. cbn [Z.eqb]. ev. eexists. split; [reflexivity|].
    apply (rem_inv _ _ _ _ _ _ _ m _ h a e [] g k IV); rewrite ?enc0; cbn [hd]; fin.
  - assert (Ix : In x U) by (apply (i_l _ _ _ _ _ _ _ _ _ _ _ _ IV), in_mid2). assert (x <> e) by (intros ->; apply Nb; left; reflexivity).
    facts IV SP h g. cell IV SP h g a (x :: b). ev. nz x. ev. eexists. split; [reflexivity|].
    apply (rem_inv _ _ _ _ _ _ _ m _ h a e (x :: b) g k IV); rewrite ?enc0; cbn [hd]; fin.
Qed.
Lemma li_replace m h a e b g k e2 : LI m h (a ++ e :: b) g k -> In e2 U -> ~ In e2 (a ++ e :: b) -> ~ In e2 k ->
  exists m', list_replace F e e2 m = Ok m' /\ LI m' h (a ++ e2 :: b) g k.
Proof.
  intros IV I2 N2 K2. pose proof (i_sep _ _ _ _ _ _ _ _ _ _ _ _ IV) as SP.
  assert (Ie : In e U) by (apply (i_l _ _ _ _ _ _ _ _ _ _ _ _ IV), in_mid). destruct (inv_nodup _ _ _ _ _ _ _ _ _ _ _ _ _ _ IV) as (Na & Nb & Nk).
  assert (e2 <> e) by (intros ->; apply N2, in_mid). assert (Na2 : ~ In e2 a) by (intros J; apply N2, in_or_app; left; assumption).
  pose proof (inv_end _ _ _ _ _ _ _ _ _ a (e :: b) _ _ IV) as E0. rewrite enc0 in E0. cbn [hd] in E0.
  pose proof (inv_pv _ _ _ _ _ _ _ _ _ a e b _ _ eq_refl IV) as E1.
  pose proof IV as IV'. rewrite app_mid in IV'. pose proof (inv_end _ _ _ _ _ _ _ _ _ (a ++ [e]) b _ _ IV') as E2. rewrite enc0, endc_snoc in E2.
  unfold list_replace. destruct b as [|x b]; cbn [hd] in E2.
  - facts IV SP h g. cell IV SP h g a (@nil Z). ev. cbn [Z.eqb]. ev. eexists. split; [reflexivity|].
    apply (rep_inv _ _ _ _ _ _ _ m _ h a e [] g k e2 IV I2 N2 K2); rewrite ?enc0; cbn [hd]; fin.
  - assert (Ix : In x U) by (apply (i_l _ _ _ _ _ _ _ _ _ _ _ _ IV), in_mid2). assert (x <> e) by (intros ->; apply Nb; left; reflexivity).
    assert (x <> e2) by (intros ->; apply N2, in_mid2).
    facts IV SP h g. cell IV SP h g a (x :: b). ev. nz x. ev. eexists. split; [reflexivity|].
    apply (rep_inv _ _ _ _ _ _ _ m _ h a e (x :: b) g k e2 IV I2 N2 K2); rewrite ?enc0; cbn [hd]; fin.
Qed.
End Lists.

(** One-word heads. *)
Lemma one_init F U D m0 m h g : apart F D false false U h g -> (forall c, In c (cells F D false false U h g) -> m c <> None) -> (forall c, m c = m0 c) ->
  exists m' m'', slist_init h m = Ok m' /\ slist_init g m' = Ok m'' /\ inv F U D false false (fun _ => 0) m0 m'' h [] g [].
Proof.
  intros AP AL FR. apply apart_sep in AP. rename AP into SP.
  assert (D1 : h <> g) by (intros ->; exact (sep_hg _ _ _ _ _ _ _ SP g (hc_first false false g) (hc_first false false g))).
  pose proof (sep_ph _ _ _ _ _ _ _ SP). pose proof (sep_pg _ _ _ _ _ _ _ SP).
  assert (m h <> None) by (apply AL; left; reflexivity). assert (m g <> None) by (apply AL; right; left; reflexivity).
  unfold slist_init. ev. do 2 eexists. split; [reflexivity|]. ev. split; [reflexivity|].
  apply init_inv; try assumption; try (intros; look; fail); try discriminate.
  - intros c J. repeat apply upd_alloc. apply AL. unfold cells. apply in_or_app. destruct J as [J|J]; [left; assumption|right]. apply in_or_app. destruct J as [J|(e & I & J)]; [left; assumption|right].
    apply in_flat_map. exists e. auto.
  - intros c N1 N2. rewrite <- FR. assert (c <> h /\ c <> g) as (N3 & N4) by (split; intros ->; [apply N1, hc_first|apply N2, hc_first]). look.
Qed.

Section Slists.
Variables (F : Z) (U : list Z) (m0 : mem).
Notation SI := (inv F U false false false (fun _ => 0) m0).
Ltac facts IV SP h g := facts_of F U false false false (fun _ : Z => 0) m0 IV SP h g.
Ltac cell IV SP h g a b := cell_of F U false false false (fun _ : Z => 0) IV SP h g a b.
Lemma sl_insert_head m h l g k e : SI m h l g k -> In e U -> ~ In e l -> ~ In e k -> exists m', slist_insert_head F h e m = Ok m' /\ SI m' h (e :: l) g k.
Proof.
  intros IV Ie Nl Nk. pose proof (i_sep _ _ _ _ _ _ _ _ _ _ _ _ IV) as SP.
  pose proof (inv_end _ _ _ _ _ _ _ _ _ [] l _ _ IV) as E0. rewrite enc0 in E0. change (endc F h []) with h in E0.
  unfold slist_insert_head. facts IV SP h g. ev. eexists. split; [reflexivity|].
  apply (ins_inv _ _ _ _ _ _ _ m _ h [] l g k e IV Ie Nl Nk); rewrite ?enc0; change (endc F h []) with h; fin.
Qed.
Lemma sl_insert_after m h a le b g k e : SI m h (a ++ le :: b) g k -> In e U -> ~ In e (a ++ le :: b) -> ~ In e k ->
  exists m', slist_insert_after F le e m = Ok m' /\ SI m' h (a ++ le :: e :: b) g k.
Proof.
  intros IV Ie Nl Nk. pose proof (i_sep _ _ _ _ _ _ _ _ _ _ _ _ IV) as SP.
  assert (Il : In le U) by (apply (i_l _ _ _ _ _ _ _ _ _ _ _ _ IV), in_mid). assert (le <> e) by (intros ->; apply Nl, in_mid).
  rewrite app_mid in IV, Nl. rewrite app_mid. pose proof (inv_end _ _ _ _ _ _ _ _ _ (a ++ [le]) b _ _ IV) as E0. rewrite enc0, endc_snoc in E0.
  unfold slist_insert_after. facts IV SP h g. ev. eexists. split; [reflexivity|].
  apply (ins_inv _ _ _ _ _ _ _ m _ h (a ++ [le]) b g k e IV Ie Nl Nk); rewrite ?enc0, ?endc_snoc; fin.
Qed.
Lemma sl_remove_head m h e b g k : SI m h (e :: b) g k -> exists m', slist_remove_head F h m = Ok m' /\ SI m' h b g k.
Proof.
  intros IV. pose proof (i_sep _ _ _ _ _ _ _ _ _ _ _ _ IV) as SP. assert (Ie : In e U) by (apply (i_l _ _ _ _ _ _ _ _ _ _ _ _ IV); left; reflexivity).
  pose proof (inv_end _ _ _ _ _ _ _ _ _ [] (e :: b) _ _ IV) as E0. rewrite enc0 in E0. change (endc F h []) with h in E0. cbn [hd] in E0.
  pose proof (inv_end _ _ _ _ _ _ _ _ _ [e] b _ _ IV) as E1. rewrite enc0 in E1. change (endc F h [e]) with (e + F) in E1.
  unfold slist_remove_head. facts IV SP h g. ev. eexists. split; [reflexivity|].
  apply (rem_inv _ _ _ _ _ _ _ m _ h [] e b g k IV); rewrite ?enc0; change (endc F h []) with h; fin.
Qed.
Lemma sl_remove_after m h a le e b g k : SI m h (a ++ le :: e :: b) g k -> exists m', slist_remove_after F le m = Ok m' /\ SI m' h (a ++ le :: b) g k.
Proof.
  intros IV. pose proof (i_sep _ _ _ _ _ _ _ _ _ _ _ _ IV) as SP.
  assert (Il : In le U) by (apply (i_l _ _ _ _ _ _ _ _ _ _ _ _ IV), in_mid). assert (Ie : In e U) by (apply (i_l _ _ _ _ _ _ _ _ _ _ _ _ IV), in_mid2).
  rewrite app_mid in IV. rewrite app_mid. pose proof (inv_end _ _ _ _ _ _ _ _ _ (a ++ [le]) (e :: b) _ _ IV) as E0. rewrite enc0, endc_snoc in E0. cbn [hd] in E0.
  pose proof IV as IV'. rewrite app_mid in IV'. pose proof (inv_end _ _ _ _ _ _ _ _ _ ((a ++ [le]) ++ [e]) b _ _ IV') as E1. rewrite enc0, endc_snoc in E1.
  unfold slist_remove_after. facts IV SP h g. ev. eexists. split; [reflexivity|].
  apply (rem_inv _ _ _ _ _ _ _ m _ h (a ++ [le]) e b g k IV); rewrite ?enc0, ?endc_snoc; fin.
Qed.
Lemma sl_find m h g k e b : forall a y p fuel, SI m h (p ++ y :: a ++ e :: b) g k -> (length a < fuel)%nat ->
  exists le a', slist_find F fuel y e m = Ok le /\ p ++ y :: a ++ e :: b = a' ++ le :: e :: b.
Proof.
  induction a as [|z a IH]; intros y p fuel IV L; (destruct fuel as [|fuel]; [cbn in L; lia|]); cbn [slist_find app] in *.
  - pose proof (i_sep _ _ _ _ _ _ _ _ _ _ _ _ IV) as SP. assert (Iy : In y U) by (apply (i_l _ _ _ _ _ _ _ _ _ _ _ _ IV), in_mid).
    pose proof IV as IV'. rewrite app_mid in IV'. pose proof (inv_end _ _ _ _ _ _ _ _ _ (p ++ [y]) (e :: b) _ _ IV') as E0. rewrite enc0, endc_snoc in E0. cbn [hd] in E0.
    facts IV SP h g. rd. rewrite Z.eqb_refl. exists y, p. split; reflexivity.
  - pose proof (i_sep _ _ _ _ _ _ _ _ _ _ _ _ IV) as SP. assert (Iy : In y U) by (apply (i_l _ _ _ _ _ _ _ _ _ _ _ _ IV), in_mid).
    pose proof IV as IV'. rewrite app_mid in IV'. pose proof (inv_end _ _ _ _ _ _ _ _ _ (p ++ [y]) (z :: a ++ e :: b) _ _ IV') as E0. rewrite enc0, endc_snoc in E0. cbn [hd] in E0.
    facts IV SP h g. rd. assert (N : z <> e).
    { intros ->. pose proof (i_nd _ _ _ _ _ _ _ _ _ _ _ _ IV') as N. rewrite <- app_assoc in N. apply NoDup_app_l in N. destruct N as (_ & N & _). cbn [app] in N.
      inversion N as [|? ? NI _]; subst. apply NI. apply in_or_app. left. apply in_mid. }
    rewrite (proj2 (Z.eqb_neq z e) N). destruct (IH z (p ++ [y]) fuel IV' ltac:(cbn in L; lia)) as (le & a' & R & E). exists le, a'. split; [exact R|]. rewrite <- E. apply app_mid.
Qed.
Lemma sl_remove m h a e b g k fuel : SI m h (a ++ e :: b) g k -> (length a <= fuel)%nat -> exists m', slist_remove F fuel h e m = Ok m' /\ SI m' h (a ++ b) g k.
Proof.
  intros IV L. pose proof (i_sep _ _ _ _ _ _ _ _ _ _ _ _ IV) as SP. pose proof (sep_ph _ _ _ _ _ _ _ SP) as HP.
  pose proof (inv_end _ _ _ _ _ _ _ _ _ [] (a ++ e :: b) _ _ IV) as E0. rewrite enc0 in E0. change (endc F h []) with h in E0.
  unfold slist_remove. destruct a as [|y a]; cbn [app hd] in *.
  - rd. rewrite Z.eqb_refl. exact (sl_remove_head m h e b g k IV).
  - rd. assert (N : y <> e).
    { intros ->. pose proof (i_nd _ _ _ _ _ _ _ _ _ _ _ _ IV) as N. inversion N as [|? ? NI _]; subst. apply NI. apply in_or_app. left. apply in_mid. }
    rewrite (proj2 (Z.eqb_neq y e) N). destruct (sl_find m h g k e b a y [] fuel IV ltac:(cbn in L; lia)) as (le & a' & R & E). cbn [app] in E.
    rewrite R. cbn [bind]. rewrite E in IV. destruct (sl_remove_after m h a' le e b g k IV) as (m' & R' & IV'). exists m'. split; [exact R'|].
    rewrite (app_mid a' le) in E. rewrite (app_mid a' le) in IV'. change (y :: a ++ e :: b) with ((y :: a) ++ e :: b) in E. apply app_inv_tail in E. rewrite <- E in IV'. exact IV'.
Qed.
End Slists.

Section Simpleq.
Variables (F : Z) (U : list Z) (m0 : mem).
Notation QI := (inv F U false true false (fun _ => 0) m0).
Ltac facts IV SP h g := facts_of F U false true false (fun _ : Z => 0) m0 IV SP h g.
Ltac cell IV SP h g a b := cell_of F U false true false (fun _ : Z => 0) IV SP h g a b.
Lemma sq_insert_head m h l g k e : QI m h l g k -> In e U -> ~ In e l -> ~ In e k -> exists m', simpleq_insert_head F h e m = Ok m' /\ QI m' h (e :: l) g k.
Proof.
  intros IV Ie Nl Nk. pose proof (i_sep _ _ _ _ _ _ _ _ _ _ _ _ IV) as SP.
  pose proof (inv_end _ _ _ _ _ _ _ _ _ [] l _ _ IV) as E0. rewrite enc0 in E0. change (endc F h []) with h in E0.
  pose proof (inv_last _ _ _ _ _ _ _ _ _ _ _ _ eq_refl IV) as E1.
  unfold simpleq_insert_head. destruct l as [|x b]; cbn [hd] in E0.
  - facts IV SP h g. ev. cbn [Z.eqb]. ev. eexists. split; [reflexivity|].
    apply (ins_inv _ _ _ _ _ _ _ m _ h [] [] g k e IV Ie Nl Nk); rewrite ?enc0; cbn [hd]; change (endc F h []) with h; fin.
  - assert (Ix : In x U) by (apply (i_l _ _ _ _ _ _ _ _ _ _ _ _ IV); left; reflexivity). assert (x <> e) by (intros ->; apply Nl; left; reflexivity).
    facts IV SP h g. ev. nz x. ev. eexists. split; [reflexivity|].
    apply (ins_inv _ _ _ _ _ _ _ m _ h [] (x :: b) g k e IV Ie Nl Nk); rewrite ?enc0; cbn [hd]; change (endc F h []) with h; fin.
Qed.
Lemma sq_insert_tail m h l g k e : QI m h l g k -> In e U -> ~ In e l -> ~ In e k -> exists m', simpleq_insert_tail F h e m = Ok m' /\ QI m' h (l ++ [e]) g k.
Proof.
  intros IV Ie Nl Nk. pose proof (i_sep _ _ _ _ _ _ _ _ _ _ _ _ IV) as SP.
  pose proof (inv_last _ _ _ _ _ _ _ _ _ _ _ _ eq_refl IV) as E1. rewrite enc0 in E1.
  assert (IV' : QI m h (l ++ []) g k) by (rewrite app_nil_r; exact IV). pose proof (inv_end _ _ _ _ _ _ _ _ _ l [] _ _ IV') as E0. rewrite enc0 in E0. cbn [hd] in E0.
  unfold simpleq_insert_tail. facts IV SP h g. cell IV SP h g l (@nil Z). ev. eexists. split; [reflexivity|].
  assert (Nl' : ~ In e (l ++ [])) by (rewrite app_nil_r; assumption).
  apply (ins_inv _ _ _ _ _ _ _ m _ h l [] g k e IV' Ie Nl' Nk); rewrite ?enc0; cbn [hd]; fin.
Qed.
Lemma sq_insert_after m h a le b g k e : QI m h (a ++ le :: b) g k -> In e U -> ~ In e (a ++ le :: b) -> ~ In e k ->
  exists m', simpleq_insert_after F h le e m = Ok m' /\ QI m' h (a ++ le :: e :: b) g k.
Proof.
  intros IV Ie Nl Nk. pose proof (i_sep _ _ _ _ _ _ _ _ _ _ _ _ IV) as SP.
  assert (Il : In le U) by (apply (i_l _ _ _ _ _ _ _ _ _ _ _ _ IV), in_mid). assert (le <> e) by (intros ->; apply Nl, in_mid).
  rewrite app_mid in IV, Nl. rewrite app_mid. pose proof (inv_end _ _ _ _ _ _ _ _ _ (a ++ [le]) b _ _ IV) as E0. rewrite enc0, endc_snoc in E0.
  pose proof (inv_last _ _ _ _ _ _ _ _ _ _ _ _ eq_refl IV) as E1.
  unfold simpleq_insert_after. destruct b as [|x b]; cbn [hd] in E0.
  - facts IV SP h g. ev. cbn [Z.eqb]. ev. eexists. split; [reflexivity|].
    apply (ins_inv _ _ _ _ _ _ _ m _ h (a ++ [le]) [] g k e IV Ie Nl Nk); rewrite ?enc0, ?endc_snoc; cbn [hd]; fin.
  - assert (Ix : In x U) by (apply (i_l _ _ _ _ _ _ _ _ _ _ _ _ IV), in_mid).
    facts IV SP h g. ev. nz x. ev. eexists. split; [reflexivity|].
    apply (ins_inv _ _ _ _ _ _ _ m _ h (a ++ [le]) (x :: b) g k e IV Ie Nl Nk); rewrite ?enc0, ?endc_snoc; cbn [hd]; fin.
Qed.
Lemma sq_remove_head m h e b g k : QI m h (e :: b) g k -> exists m', simpleq_remove_head F h m = Ok m' /\ QI m' h b g k.
Proof.
  intros IV. pose proof (i_sep _ _ _ _ _ _ _ _ _ _ _ _ IV) as SP. assert (Ie : In e U) by (apply (i_l _ _ _ _ _ _ _ _ _ _ _ _ IV); left; reflexivity).
  pose proof (inv_end _ _ _ _ _ _ _ _ _ [] (e :: b) _ _ IV) as E0. rewrite enc0 in E0. change (endc F h []) with h in E0. cbn [hd] in E0.
  pose proof (inv_end _ _ _ _ _ _ _ _ _ [e] b _ _ IV) as E1. rewrite enc0 in E1. change (endc F h [e]) with (e + F) in E1.
  pose proof (inv_last _ _ _ _ _ _ _ _ _ _ _ _ eq_refl IV) as E2.
  unfold simpleq_remove_head. destruct b as [|x b]; cbn [hd] in E1.
  - facts IV SP h g. ev. cbn [Z.eqb]. ev. eexists. split; [reflexivity|].
    apply (rem_inv _ _ _ _ _ _ _ m _ h [] e [] g k IV); rewrite ?enc0; change (endc F h []) with h; fin.
  - assert (Ix : In x U) by (apply (i_l _ _ _ _ _ _ _ _ _ _ _ _ IV); right; left; reflexivity).
    facts IV SP h g. ev. nz x. eexists. split; [reflexivity|].
    apply (rem_inv _ _ _ _ _ _ _ m _ h [] e (x :: b) g k IV); rewrite ?enc0; change (endc F h []) with h; fin.
Qed.
Lemma sq_remove_after m h a le e b g k : QI m h (a ++ le :: e :: b) g k -> exists m', simpleq_remove_after F h le m = Ok m' /\ QI m' h (a ++ le :: b) g k.
Proof.
  intros IV. pose proof (i_sep _ _ _ _ _ _ _ _ _ _ _ _ IV) as SP.
  assert (Il : In le U) by (apply (i_l _ _ _ _ _ _ _ _ _ _ _ _ IV), in_mid). assert (Ie : In e U) by (apply (i_l _ _ _ _ _ _ _ _ _ _ _ _ IV), in_mid2).
  assert (IL : incl (a ++ le :: e :: b) U) by apply (i_l _ _ _ _ _ _ _ _ _ _ _ _ IV).
  rewrite app_mid in IV. rewrite app_mid. pose proof (inv_end _ _ _ _ _ _ _ _ _ (a ++ [le]) (e :: b) _ _ IV) as E0. rewrite enc0, endc_snoc in E0. cbn [hd] in E0.
  pose proof IV as IV'. rewrite app_mid in IV'. pose proof (inv_end _ _ _ _ _ _ _ _ _ ((a ++ [le]) ++ [e]) b _ _ IV') as E1. rewrite enc0, endc_snoc in E1.
  pose proof (inv_last _ _ _ _ _ _ _ _ _ _ _ _ eq_refl IV) as E2.
  unfold simpleq_remove_after. destruct b as [|x b]; cbn [hd] in E1.
  - facts IV SP h g. ev. cbn [Z.eqb]. ev. eexists. split; [reflexivity|].
    apply (rem_inv _ _ _ _ _ _ _ m _ h (a ++ [le]) e [] g k IV); rewrite ?enc0, ?endc_snoc; fin.
  - assert (Ix : In x U) by (apply IL; apply in_or_app; right; right; right; left; reflexivity).
    facts IV SP h g. ev. nz x. eexists. split; [reflexivity|].
    apply (rem_inv _ _ _ _ _ _ _ m _ h (a ++ [le]) e (x :: b) g k IV); rewrite ?enc0, ?endc_snoc; fin.
Qed.
Lemma sq_concat m h l g k : QI m h l g k -> exists m', simpleq_concat h g m = Ok m' /\ QI m' h (l ++ k) g [].
Proof.
  intros IV. pose proof (i_sep _ _ _ _ _ _ _ _ _ _ _ _ IV) as SP. pose proof (sep_swap _ _ _ _ _ _ _ SP) as SP'. pose proof (inv_swap _ _ _ _ _ _ _ _ _ _ _ _ IV) as IV'.
  pose proof (inv_end _ _ _ _ _ _ _ _ _ [] k _ _ IV') as E0. rewrite enc0 in E0. change (endc F g []) with g in E0.
  pose proof (sep_pg _ _ _ _ _ _ _ SP). unfold simpleq_concat. rewrite (nonempty_ok g m _) with (2 := E0) by arith. cbn [bind].
  destruct k as [|x k]; cbn [hd] in *.
  - cbn [Z.eqb]. exists m. split; [reflexivity|]. rewrite app_nil_r. exact IV.
  - pose proof (inv_last _ _ _ _ _ _ _ _ _ _ _ _ eq_refl IV) as E1. pose proof (inv_last _ _ _ _ _ _ _ _ _ _ _ _ eq_refl IV') as E2. rewrite enc0 in E1, E2.
    assert (IVn : QI m h (l ++ []) g (x :: k)) by (rewrite app_nil_r; exact IV). pose proof (inv_end _ _ _ _ _ _ _ _ _ l [] _ _ IVn) as E3. rewrite enc0 in E3. cbn [hd] in E3.
    assert (Ix : In x U) by (apply (i_k _ _ _ _ _ _ _ _ _ _ _ _ IV); left; reflexivity).
    facts IV SP h g.
    cell IV SP h g l (@nil Z). destruct (heads_apart _ _ _ _ _ _ SP) as (D1 & D2 & D3 & D4). destruct (endc_apart _ _ _ _ _ _ l SP (i_l _ _ _ _ _ _ _ _ _ _ _ _ IV)) as (D5 & D6).
    assert (D7 : endc F g (x :: k) <> 0) by (pose proof (endc_pos F U false true false (fun _ => 0) g h SP' (x :: k) (i_k _ _ _ _ _ _ _ _ _ _ _ _ IV)); arith).
    nz x. unfold simpleq_init. ev. eexists. split; [reflexivity|].
    apply (cat_inv F U false true false (fun _ => 0) m0 m _ h l g x k eq_refl eq_refl IV); rewrite ?enc0; fin.
Qed.
End Simpleq.

(** ** XOR simple queues, where an unsigned long has 64 bits *)
Lemma lxor_range a b : 0 <= a < 2 ^ 64 -> 0 <= b < 2 ^ 64 -> 0 <= Z.lxor a b < 2 ^ 64.
Proof.
  intros A B. assert (N : 0 <= Z.lxor a b) by (apply Z.lxor_nonneg; lia). split; [assumption|].
  assert (E : Z.lxor a b mod 2 ^ 64 = Z.lxor a b).
  { apply Z.bits_inj'. intros n Hn. destruct (Z_lt_ge_dec n 64) as [L|L]; [apply Z.mod_pow2_bits_low; assumption|].
    rewrite Z.mod_pow2_bits_high by lia. rewrite Z.lxor_spec.
    rewrite <- (Z.mod_small a (2 ^ 64)), <- (Z.mod_small b (2 ^ 64)) by assumption. rewrite !Z.mod_pow2_bits_high by lia. reflexivity. }
  rewrite <- E. apply Z.mod_pos_bound. lia.
Qed.
Section Xsimpleq.
Variables (F : Z) (U : list Z) (m0 : mem) (ck : Z -> Z).
Notation XI := (inv F U false true true ck m0).
Hypothesis CK : forall h, 0 <= ck h < 2 ^ 64.
Hypothesis UB : forall e, In e U -> e + F < 2 ^ 64.
Ltac facts IV SP h g := facts_of F U false true true ck m0 IV SP h g.
Ltac cell IV SP h g a b := cell_of F U false true true ck IV SP h g a b.
Lemma xor_c m h c p : h <> 0 -> m (h + 16) = Some c -> 0 <= p < 2 ^ 64 -> xor 64 h p m = Ok (Z.lxor c p).
Proof. intros H M R. unfold xor. rewrite (get_ok h 16 m c H M). cbn [bind]. rewrite Z.mod_small by assumption. reflexivity. Qed.
Lemma xor_enc m h p : h <> 0 -> m (h + 16) = Some (ck h) -> 0 <= p < 2 ^ 64 -> xor 64 h p m = Ok (enc ck h p).
Proof. intros H M R. exact (xor_c m h (ck h) p H M R). Qed.
Lemma xor_dec m h p : h <> 0 -> m (h + 16) = Some (ck h) -> 0 <= p < 2 ^ 64 -> xor 64 h (enc ck h p) m = Ok p.
Proof.
  intros H M R. rewrite (xor_c m h (ck h) _ H M) by (apply lxor_range; auto). unfold enc. rewrite <- Z.lxor_assoc, Z.lxor_nilpotent, Z.lxor_0_l. reflexivity.
Qed.
Lemma enc_neq h p q : p <> q -> (enc ck h p =? enc ck h q) = false.
Proof.
  intros N. apply Z.eqb_neq. intros E. apply N. unfold enc in E. apply (f_equal (Z.lxor (ck h))) in E. rewrite <- !Z.lxor_assoc, Z.lxor_nilpotent, !Z.lxor_0_l in E. exact E.
Qed.
Lemma range_e m h l g k e : XI m h l g k -> In e U -> 0 <= e < 2 ^ 64 /\ 0 <= e + F < 2 ^ 64.
Proof.
  intros IV I. pose proof (i_sep _ _ _ _ _ _ _ _ _ _ _ _ IV) as SP. pose proof (sep_U _ _ _ _ _ _ _ SP e I). pose proof (sep_F _ _ _ _ _ _ _ SP). specialize (UB e I). clear - H H0 UB. lia.
Qed.
Ltac xo := first [rewrite xor_enc by (solve [arith | look | assumption | auto]) | rewrite xor_dec by (solve [arith | look | assumption | auto])]; cbn [bind].
Ltac xev := cbn [bind]; repeat first [rd | wr | sto | xo].
Lemma xq_insert_head m h l g k e : XI m h l g k -> In e U -> ~ In e l -> ~ In e k -> exists m', x_insert_head F 64 h e m = Ok m' /\ XI m' h (e :: l) g k.
Proof.
  intros IV Ie Nl Nk. pose proof (i_sep _ _ _ _ _ _ _ _ _ _ _ _ IV) as SP.
  pose proof (inv_end _ _ _ _ _ _ _ _ _ [] l _ _ IV) as E0. change (endc F h []) with h in E0.
  pose proof (inv_last _ _ _ _ _ _ _ _ _ _ _ _ eq_refl IV) as E1. pose proof (inv_cookie _ _ _ _ _ _ _ _ _ _ _ _ eq_refl IV) as EC.
  destruct (range_e _ _ _ _ _ _ IV Ie) as (R1 & R2).
  unfold x_insert_head. destruct l as [|x b]; cbn [hd] in E0.
  - facts IV SP h g. xev. rewrite Z.eqb_refl. xev. eexists. split; [reflexivity|].
    apply (ins_inv _ _ _ _ _ _ _ m _ h [] [] g k e IV Ie Nl Nk); cbn [hd]; change (endc F h []) with h; fin.
  - assert (Ix : In x U) by (apply (i_l _ _ _ _ _ _ _ _ _ _ _ _ IV); left; reflexivity). assert (x <> e) by (intros ->; apply Nl; left; reflexivity).
    facts IV SP h g. xev. rewrite enc_neq by arith. xev. eexists. split; [reflexivity|].
    apply (ins_inv _ _ _ _ _ _ _ m _ h [] (x :: b) g k e IV Ie Nl Nk); cbn [hd]; change (endc F h []) with h; fin.
Qed.
Lemma xq_insert_tail m h l g k e : XI m h l g k -> h < 2 ^ 64 -> In e U -> ~ In e l -> ~ In e k -> exists m', x_insert_tail F 64 h e m = Ok m' /\ XI m' h (l ++ [e]) g k.
Proof.
  intros IV HB Ie Nl Nk. pose proof (i_sep _ _ _ _ _ _ _ _ _ _ _ _ IV) as SP.
  pose proof (inv_last _ _ _ _ _ _ _ _ _ _ _ _ eq_refl IV) as E1. pose proof (inv_cookie _ _ _ _ _ _ _ _ _ _ _ _ eq_refl IV) as EC.
  assert (IV' : XI m h (l ++ []) g k) by (rewrite app_nil_r; exact IV). pose proof (inv_end _ _ _ _ _ _ _ _ _ l [] _ _ IV') as E0. cbn [hd] in E0.
  destruct (range_e _ _ _ _ _ _ IV Ie) as (R1 & R2).
  assert (R3 : 0 <= endc F h l < 2 ^ 64).
  { destruct (endc_cases F U h l (i_l _ _ _ _ _ _ _ _ _ _ _ _ IV)) as [-> |(y & J & _ & -> )]; [|exact (proj2 (range_e _ _ _ _ _ _ IV J))].
    pose proof (sep_ph _ _ _ _ _ _ _ SP). clear - H HB. lia. }
  unfold x_insert_tail. facts IV SP h g. cell IV SP h g l (@nil Z). xev. eexists. split; [reflexivity|].
  assert (Nl' : ~ In e (l ++ [])) by (rewrite app_nil_r; assumption).
  apply (ins_inv _ _ _ _ _ _ _ m _ h l [] g k e IV' Ie Nl' Nk); cbn [hd]; fin.
Qed.
Lemma xq_insert_after m h a le b g k e : XI m h (a ++ le :: b) g k -> In e U -> ~ In e (a ++ le :: b) -> ~ In e k ->
  exists m', x_insert_after F 64 h le e m = Ok m' /\ XI m' h (a ++ le :: e :: b) g k.
Proof.
  intros IV Ie Nl Nk. pose proof (i_sep _ _ _ _ _ _ _ _ _ _ _ _ IV) as SP.
  assert (Il : In le U) by (apply (i_l _ _ _ _ _ _ _ _ _ _ _ _ IV), in_mid). assert (le <> e) by (intros ->; apply Nl, in_mid).
  destruct (range_e _ _ _ _ _ _ IV Ie) as (R1 & R2).
  rewrite app_mid in IV, Nl. rewrite app_mid. pose proof (inv_end _ _ _ _ _ _ _ _ _ (a ++ [le]) b _ _ IV) as E0. rewrite endc_snoc in E0.
  pose proof (inv_last _ _ _ _ _ _ _ _ _ _ _ _ eq_refl IV) as E1. pose proof (inv_cookie _ _ _ _ _ _ _ _ _ _ _ _ eq_refl IV) as EC.
  unfold x_insert_after. destruct b as [|x b]; cbn [hd] in E0.
  - facts IV SP h g. xev. rewrite Z.eqb_refl. xev. eexists. split; [reflexivity|].
    apply (ins_inv _ _ _ _ _ _ _ m _ h (a ++ [le]) [] g k e IV Ie Nl Nk); rewrite ?endc_snoc; cbn [hd]; fin.
  - assert (Ix : In x U) by (apply (i_l _ _ _ _ _ _ _ _ _ _ _ _ IV), in_mid).
    facts IV SP h g. xev. rewrite enc_neq by arith. xev. eexists. split; [reflexivity|].
    apply (ins_inv _ _ _ _ _ _ _ m _ h (a ++ [le]) (x :: b) g k e IV Ie Nl Nk); rewrite ?endc_snoc; cbn [hd]; fin.
Qed.
Lemma xq_remove_head m h e b g k : XI m h (e :: b) g k -> h < 2 ^ 64 -> exists m', x_remove_head F 64 h m = Ok m' /\ XI m' h b g k.
Proof.
  intros IV HB. pose proof (i_sep _ _ _ _ _ _ _ _ _ _ _ _ IV) as SP. assert (Ie : In e U) by (apply (i_l _ _ _ _ _ _ _ _ _ _ _ _ IV); left; reflexivity).
  destruct (range_e _ _ _ _ _ _ IV Ie) as (R1 & R2).
  pose proof (inv_end _ _ _ _ _ _ _ _ _ [] (e :: b) _ _ IV) as E0. change (endc F h []) with h in E0. cbn [hd] in E0.
  pose proof (inv_end _ _ _ _ _ _ _ _ _ [e] b _ _ IV) as E1. change (endc F h [e]) with (e + F) in E1.
  pose proof (inv_last _ _ _ _ _ _ _ _ _ _ _ _ eq_refl IV) as E2. pose proof (inv_cookie _ _ _ _ _ _ _ _ _ _ _ _ eq_refl IV) as EC.
  unfold x_remove_head. destruct b as [|x b]; cbn [hd] in E1.
  - facts IV SP h g. xev. rewrite Z.eqb_refl. xev. eexists. split; [reflexivity|].
    apply (rem_inv _ _ _ _ _ _ _ m _ h [] e [] g k IV); change (endc F h []) with h; fin.
  - assert (Ix : In x U) by (apply (i_l _ _ _ _ _ _ _ _ _ _ _ _ IV); right; left; reflexivity).
    facts IV SP h g. xev. rewrite enc_neq by arith. eexists. split; [reflexivity|].
    apply (rem_inv _ _ _ _ _ _ _ m _ h [] e (x :: b) g k IV); change (endc F h []) with h; fin.
Qed.
Lemma xq_remove_after m h a le e b g k : XI m h (a ++ le :: e :: b) g k -> exists m', x_remove_after F 64 h le m = Ok m' /\ XI m' h (a ++ le :: b) g k.
Proof.
  intros IV. pose proof (i_sep _ _ _ _ _ _ _ _ _ _ _ _ IV) as SP.
  assert (Il : In le U) by (apply (i_l _ _ _ _ _ _ _ _ _ _ _ _ IV), in_mid). assert (Ie : In e U) by (apply (i_l _ _ _ _ _ _ _ _ _ _ _ _ IV), in_mid2).
  assert (IL : incl (a ++ le :: e :: b) U) by apply (i_l _ _ _ _ _ _ _ _ _ _ _ _ IV).
  destruct (range_e _ _ _ _ _ _ IV Ie) as (R1 & R2). destruct (range_e _ _ _ _ _ _ IV Il) as (R3 & R4).
  rewrite app_mid in IV. rewrite app_mid. pose proof (inv_end _ _ _ _ _ _ _ _ _ (a ++ [le]) (e :: b) _ _ IV) as E0. rewrite endc_snoc in E0. cbn [hd] in E0.
  pose proof IV as IV'. rewrite app_mid in IV'. pose proof (inv_end _ _ _ _ _ _ _ _ _ ((a ++ [le]) ++ [e]) b _ _ IV') as E1. rewrite endc_snoc in E1.
  pose proof (inv_last _ _ _ _ _ _ _ _ _ _ _ _ eq_refl IV) as E2. pose proof (inv_cookie _ _ _ _ _ _ _ _ _ _ _ _ eq_refl IV) as EC.
  unfold x_remove_after. destruct b as [|x b]; cbn [hd] in E1.
  - facts IV SP h g. xev. rewrite Z.eqb_refl. xev. eexists. split; [reflexivity|].
    apply (rem_inv _ _ _ _ _ _ _ m _ h (a ++ [le]) e [] g k IV); rewrite ?endc_snoc; fin.
  - assert (Ix : In x U) by (apply IL; apply in_or_app; right; right; right; left; reflexivity).
    facts IV SP h g. xev. rewrite enc_neq by arith. eexists. split; [reflexivity|].
    apply (rem_inv _ _ _ _ _ _ _ m _ h (a ++ [le]) e (x :: b) g k IV); rewrite ?endc_snoc; fin.
Qed.
(** Three-word heads. *)
Lemma xq_init m h g : apart F false true true U h g -> (forall c, In c (cells F false true true U h g) -> m c <> None) -> (forall c, m c = m0 c) -> h < 2 ^ 64 -> g < 2 ^ 64 ->
  exists m' m'', x_init 64 (ck h) h m = Ok m' /\ x_init 64 (ck g) g m' = Ok m'' /\ XI m'' h [] g [].
Proof.
  intros AP AL FR HB GB. apply apart_sep in AP. rename AP into SP. pose proof (sep_swap _ _ _ _ _ _ _ SP) as SP'.
  assert (N : forall c d, In c (head_cells true true h) -> In d (head_cells true true g) -> c <> d) by (intros c d A B ->; exact (sep_hg _ _ _ _ _ _ _ SP d A B)).
  pose proof (sep_ph _ _ _ _ _ _ _ SP). pose proof (sep_pg _ _ _ _ _ _ _ SP).
  assert (In h (head_cells true true h) /\ In (h + 8) (head_cells true true h) /\ In (h + 16) (head_cells true true h)) as (A1 & A2 & A3) by (repeat split; cbn; tauto).
  assert (In g (head_cells true true g) /\ In (g + 8) (head_cells true true g) /\ In (g + 16) (head_cells true true g)) as (B1 & B2 & B3) by (repeat split; cbn; tauto).
  pose proof (N _ _ A1 B1). pose proof (N _ _ A1 B2). pose proof (N _ _ A1 B3). pose proof (N _ _ A2 B1). pose proof (N _ _ A2 B2). pose proof (N _ _ A2 B3). pose proof (N _ _ A3 B1). pose proof (N _ _ A3 B2). pose proof (N _ _ A3 B3).
  assert (m h <> None /\ m (h + 8) <> None /\ m (h + 16) <> None) as (? & ? & ?) by (repeat split; apply AL; apply in_or_app; left; assumption).
  assert (m g <> None /\ m (g + 8) <> None /\ m (g + 16) <> None) as (? & ? & ?) by (repeat split; apply AL; apply in_or_app; right; apply in_or_app; left; assumption).
  assert (0 <= h < 2 ^ 64 /\ 0 <= g < 2 ^ 64) as (R1 & R2) by (clear - HB GB H H0; lia).
  unfold x_init. xev. do 2 eexists. split; [reflexivity|]. xev. split; [reflexivity|].
  apply init_inv; try assumption; try (intros; look; fail); try discriminate.
  - intros c J. repeat apply upd_alloc. apply AL. unfold cells. apply in_or_app. destruct J as [J|J]; [left; assumption|right]. apply in_or_app. destruct J as [J|(e & I & J)]; [left; assumption|right].
    apply in_flat_map. exists e. auto.
  - intros c N1 N2. rewrite <- FR. assert (c <> h /\ c <> h + 8 /\ c <> h + 16 /\ c <> g /\ c <> g + 8 /\ c <> g + 16) as (N3 & N4 & N5 & N6 & N7 & N8).
    { repeat split; intros ->; auto. }
    look.
Qed.
End Xsimpleq.
