(** The directory streams of include/compat/dirent_msvc.h. *)
From Verif Require Import BaseLemmas DirModel.
Import ListNotations.

Section Spec.
Variable tomb : list Z -> option (list Z).
Variable hr : bool.
(** A name in bytes, if it has one of less than PATH_MAX bytes. *)
Definition bytes_of (s : list Z) : option (list Z) := match tomb s with Some b => if zlen b <? 260 then Some b else None | None => None end.
(** The type of a file by its attributes: device (bit 6), directory (bit 4), or plain. *)
Definition type_of (attr : Z) : Z := if Z.testbit attr 6 then 8192 else if Z.testbit attr 4 then 16384 else 32768.
(** What readdir is to show of a file: its name or else its short name, and its type; a question mark if it has neither. *)
Definition shown (f : fdata) : entry :=
  match bytes_of (f_name f), bytes_of (f_alt f) with
  | Some b, _ => Ent b (zlen b) (type_of (f_attr f)) 280
  | None, Some b => if zlen (f_alt f) =? 0 then Ent [63] 1 0 0 else Ent b (zlen b) (type_of (f_attr f)) 280
  | None, None => Ent [63] 1 0 0
  end.
(** What a stream over the files [rem] of the directory [p] is to give. *)
Fixpoint expected (l : list op) (rem : list fdata) (dsk : list Z -> option (list fdata * Z)) (p : list Z) : list (option entry) :=
  match l with
  | [] => []
  | Read :: l => match rem with f :: rem => Some (shown f) :: expected l rem dsk p | [] => None :: expected l [] dsk p end
  | Rewind :: l => expected l (match dsk p with Some (fs, _) => fs | None => [] end) dsk p
  | Change dsk :: l => expected l rem dsk p
  end.
(** The names that can be converted are shorter than PATH_MAX bytes, or the handler comes back. *)
Definition good_name (s : list Z) : Prop := hr = true \/ forall b, tomb s = Some b -> zlen b < 260.
(** Both names of a file. *)
Definition good (f : fdata) : Prop := good_name (f_name f) /\ good_name (f_alt f).
(** All files. *)
Definition good_disk (D : list Z -> option (list fdata * Z)) : Prop := forall p l e, D p = Some (l, e) -> Forall good l.
(** All files after each change. *)
Definition good_ops (l : list op) : Prop := Forall (fun o => match o with Change D => good_disk D | _ => True end) l.

(** A stream with the files [rem] still to come, opened when the searches [S] and the blocks [B] were there. *)
Definition stream (rem : list fdata) (d : dir) (w : world) (p : list Z) (S : list (Z * (list fdata * Z))) (B : list Z) : Prop :=
  0 < next w /\ exists pb, patt (d_wdir d) = Some (pb, p) /\ blocks w = pb :: w_block (d_wdir d) :: d_block d :: B /\
  ((handle (d_wdir d) = -1 /\ cached (d_wdir d) = false /\ searches w = S /\ rem = []) \/
   (0 < handle (d_wdir d) /\ exists rest e, searches w = (handle (d_wdir d), (rest, e)) :: S /\
      ((exists f, cached (d_wdir d) = true /\ data (d_wdir d) = Some f /\ rem = f :: rest) \/ (cached (d_wdir d) = false /\ rem = rest)))).

Lemma bit_test : forall a n, 0 <= n -> negb (Z.land a (2 ^ n) =? 0) = Z.testbit a n.
Proof.
  intros a n Hn. destruct (Z.testbit a n) eqn:T.
  - destruct (Z.eqb_spec (Z.land a (2 ^ n)) 0) as [E|E]; [|reflexivity]. exfalso. assert (X : Z.testbit (Z.land a (2 ^ n)) n = true) by (rewrite Z.land_spec, T, Z.pow2_bits_true by lia; reflexivity). rewrite E, Z.bits_0 in X. discriminate.
  - destruct (Z.eqb_spec (Z.land a (2 ^ n)) 0) as [E|E]; [reflexivity|]. exfalso. apply E. apply Z.bits_inj'. intros i Hi. rewrite Z.land_spec, Z.bits_0, Z.pow2_bits_eqb by lia. destruct (Z.eqb_spec n i) as [<-|]; [rewrite T; reflexivity|apply andb_false_r].
Qed.
Lemma file_type_ok : forall a, file_type a = type_of a.
Proof. intros a. unfold file_type, type_of. change 64 with (2 ^ 6). change 16 with (2 ^ 4). rewrite !bit_test by lia. reflexivity. Qed.
Lemma convert_ok : forall s, good_name s -> convert hr tomb s = Ok (bytes_of s).
Proof.
  intros s G. unfold convert, bytes_of. destruct (tomb s) as [b|] eqn:T; [|reflexivity]. destruct (Z.ltb_spec (zlen b) 260); [reflexivity|]. destruct G as [-> |G]; [reflexivity|]. specialize (G b T). lia.
Qed.
Lemma convert_cases : forall s, convert hr tomb s = Ok (bytes_of s) \/ convert hr tomb s = Panics.
Proof. intros s. unfold convert, bytes_of. destruct (tomb s) as [b|]; [|left; reflexivity]. destruct (zlen b <? 260); [left; reflexivity|]. destruct hr; [left|right]; reflexivity. Qed.

Lemma next_ok : forall rem d w p S B, stream rem d w p S B ->
  exists d' w', dirent_next (d_wdir d) w = Ok (match rem with f :: _ => Some f | [] => None end, d', w') /\ stream (tl rem) (Dir (d_block d) d') w' p S B /\ disk w' = disk w /\ derrno w' = derrno w.
Proof.
  intros rem [db [wb h pt c dt]] w p S B (N & pb & PT & BL & H). cbn [d_wdir d_block w_block handle patt cached data] in *. unfold dirent_next. cbn [d_wdir d_block w_block handle patt cached data].
  assert (L : live wb w = true) by (unfold live; rewrite BL; cbn; rewrite Z.eqb_refl, !orb_true_r; reflexivity). rewrite L. cbn [negb].
  destruct H as [(H1 & -> & SE & ->)|(H1 & rest & e & SE & H)].
  - rewrite H1. cbn. eexists _, _. split; [reflexivity|]. split; [|split; reflexivity]. split; [exact N|]. exists pb. split; [exact PT|]. split; [exact BL|]. left. repeat split; assumption.
  - destruct H as [(f & -> & -> & ->)|(-> & ->)].
    + cbn [tl]. eexists _, _. split; [reflexivity|]. split; [|split; reflexivity]. split; [exact N|]. exists pb. split; [exact PT|]. split; [exact BL|]. right. split; [exact H1|]. exists rest, e. split; [exact SE|]. right. split; reflexivity.
    + destruct (Z.eqb_spec h INVALID) as [X|_]; [unfold INVALID in X; lia|]. cbn [negb]. unfold find_next. rewrite SE. cbn [lookup]. rewrite Z.eqb_refl. destruct rest as [|f rest].
      * cbn [bind]. unfold find_close. cbn [searches lookup]. rewrite Z.eqb_refl. cbn [bind remove]. rewrite ?Z.eqb_refl.
        eexists _, _. split; [reflexivity|]. split; [|split; reflexivity]. split; [exact N|]. exists pb. split; [exact PT|]. split; [exact BL|]. left. cbn. repeat split; reflexivity.
      * cbn [bind tl]. eexists _, _. split; [reflexivity|]. split; [|split; reflexivity]. split; [exact N|]. exists pb. split; [exact PT|]. split; [exact BL|]. right. split; [exact H1|].
        exists rest, e. split; [cbn; rewrite Z.eqb_refl; reflexivity|]. right. split; reflexivity.
Qed.
Lemma stream_live : forall rem d w p S B, stream rem d w p S B -> live (d_block d) w = true.
Proof. intros rem d w p S B (N & pb & PT & BL & H). unfold live. rewrite BL. cbn. rewrite Z.eqb_refl, !orb_true_r. reflexivity. Qed.
Lemma read_ok : forall rem d w p S B, stream rem d w p S B ->
  (exists d' w', readdir tomb hr d w = Ok (match rem with f :: _ => Some (shown f) | [] => None end, d', w') /\ stream (tl rem) d' w' p S B /\ disk w' = disk w /\ derrno w' = derrno w) \/
  (readdir tomb hr d w = Panics /\ exists f r, rem = f :: r /\ ~ good f).
Proof.
  intros rem d w p S B H. destruct (next_ok _ _ _ _ _ _ H) as (d' & w' & E & H' & D & DE). unfold readdir. rewrite (stream_live _ _ _ _ _ _ H). cbn [negb]. rewrite E. cbn [bind].
  destruct rem as [|f rem]; [left; eexists _, _; split; [reflexivity|]; split; [exact H'|split; assumption]|]. cbn [tl] in H'.
  destruct (convert_cases (f_name f)) as [C|C]; rewrite C; cbn [bind].
  2:{ right. split; [reflexivity|]. exists f, rem. split; [reflexivity|]. intros [G _]. rewrite convert_ok in C by exact G. discriminate. }
  destruct (bytes_of (f_name f)) as [b|] eqn:BN; cbn [bind].
  - left. eexists _, _. split; [unfold shown; rewrite BN, file_type_ok; replace (zlen b + 1 - 1) with (zlen b) by lia; reflexivity|]. split; [exact H'|split; assumption].
  - destruct (f_alt f) as [|a alt] eqn:FA; cbn [bind].
    + left. eexists _, _. split; [unfold shown; rewrite BN, FA; destruct (bytes_of []); reflexivity|]. split; [exact H'|split; assumption].
    + rewrite <- FA. destruct (convert_cases (f_alt f)) as [C2|C2]; rewrite C2; cbn [bind].
      * left. eexists _, _. split; [|split; [exact H'|split; assumption]]. unfold shown. rewrite BN. assert (zlen (f_alt f) =? 0 = false) as -> by (rewrite FA; reflexivity).
        destruct (bytes_of (f_alt f)) as [b|]; [rewrite file_type_ok; replace (zlen b + 1 - 1) with (zlen b) by lia|]; reflexivity.
      * right. split; [reflexivity|]. exists f, rem. split; [reflexivity|]. intros [_ G]. rewrite convert_ok in C2 by exact G. discriminate.
Qed.
Lemma close_search : forall rem d w p S B, stream rem d w p S B ->
  exists w', (if negb (handle (d_wdir d) =? INVALID) then find_close (handle (d_wdir d)) w else Ok w) = Ok w' /\ searches w' = S /\ blocks w' = blocks w /\ next w' = next w /\ disk w' = disk w /\ derrno w' = derrno w.
Proof.
  intros rem d w p S B (N & pb & PT & BL & [(H1 & _ & SE & _)|(H1 & rest & e & SE & _)]).
  - rewrite H1. cbn. exists w. repeat split; assumption.
  - destruct (Z.eqb_spec (handle (d_wdir d)) INVALID) as [X|_]; [unfold INVALID in X; lia|]. cbn [negb]. unfold find_close. rewrite SE. cbn [lookup]. rewrite Z.eqb_refl. eexists. split; [reflexivity|]. cbn. rewrite Z.eqb_refl. repeat split; reflexivity.
Qed.
Lemma rewind_ok : forall rem d w p S B, stream rem d w p S B ->
  exists d' w', rewinddir d w = Ok (d', w') /\ stream (match disk w p with Some (fs, _) => fs | None => [] end) d' w' p S B /\ disk w' = disk w.
Proof.
  intros rem d w p S B H. pose proof (stream_live _ _ _ _ _ _ H) as L. destruct (close_search _ _ _ _ _ _ H) as (w1 & C & S1 & B1 & N1 & D1 & _). destruct H as (N & pb & PT & BL & _).
  unfold rewinddir, wrewinddir. rewrite L. cbn [negb]. assert (L2 : live (w_block (d_wdir d)) w = true) by (unfold live; rewrite BL; cbn; rewrite Z.eqb_refl, !orb_true_r; reflexivity). rewrite L2. cbn [negb]. rewrite C. cbn [bind].
  unfold dirent_first, find_first. rewrite PT, D1. destruct (disk w p) as [[[|f fs] e]|] eqn:DK; cbn [bind]; (eexists _, _; split; [reflexivity|]; split; [|reflexivity]); (split; [cbn; lia|]); exists pb; cbn; rewrite ?B1;
    (split; [reflexivity || exact PT|]); (split; [exact BL|]).
  - left. repeat split; assumption.
  - right. split; [lia|]. exists fs, e. rewrite S1. split; [reflexivity|]. left. exists f. repeat split; reflexivity.
  - left. repeat split; assumption.
Qed.
Lemma run_ok : forall l rem d w p S B, stream rem d w p S B ->
  (exists rem' d' w', run tomb hr l d w = Ok (expected l rem (disk w) p, d', w') /\ stream rem' d' w' p S B) \/ (run tomb hr l d w = Panics /\ (Forall good rem -> good_disk (disk w) -> good_ops l -> False)).
Proof.
  intros l. induction l as [|o l IH]; intros rem d w p S B H; [left; exists rem, d, w; split; [reflexivity|exact H]|]. destruct o as [| |D]; cbn [run expected].
  - destruct (read_ok _ _ _ _ _ _ H) as [(d' & w' & E & H' & DK & _)|(E & f & r & -> & NG)]; rewrite E; cbn [bind].
    + destruct (IH _ _ _ _ _ _ H') as [(rem' & d2 & w2 & E2 & H2)|(E2 & NG)]; rewrite E2; cbn [bind].
      * left. exists rem', d2, w2. split; [|exact H2]. rewrite DK. destruct rem; reflexivity.
      * right. split; [reflexivity|]. intros G GD GO. apply NG; [destruct G; cbn; [constructor|assumption]|rewrite DK; exact GD|inversion GO; assumption].
    + right. split; [reflexivity|]. intros G _ _. inversion G. contradiction.
  - destruct (rewind_ok _ _ _ _ _ _ H) as (d' & w' & E & H' & DK). rewrite E. cbn [bind]. destruct (IH _ _ _ _ _ _ H') as [(rem' & d2 & w2 & E2 & H2)|(E2 & NG)]; rewrite E2.
    + left. exists rem', d2, w2. rewrite DK. split; [reflexivity|exact H2].
    + right. split; [reflexivity|]. intros G GD GO. apply NG; [|rewrite DK; exact GD|inversion GO; assumption]. destruct (disk w p) as [[fs e]|] eqn:X; [exact (GD _ _ _ X)|constructor].
  - destruct (IH rem d (World D (searches w) (next w) (blocks w) (derrno w) (lasterr w)) p S B H) as [(rem' & d2 & w2 & E2 & H2)|(E2 & NG)]; rewrite E2.
    + left. exists rem', d2, w2. split; [reflexivity|exact H2].
    + right. split; [reflexivity|]. intros G GD GO. inversion GO; subst. apply NG; assumption.
Qed.
Lemma close_ok : forall rem d w p S B, stream rem d w p S B -> exists w', closedir (Some d) w = Ok (0, w') /\ searches w' = S /\ blocks w' = B /\ derrno w' = derrno w.
Proof.
  intros rem d w p S B H. pose proof (stream_live _ _ _ _ _ _ H) as L. destruct (close_search _ _ _ _ _ _ H) as (w1 & C & S1 & B1 & N1 & D1 & E1). destruct H as (N & pb & PT & BL & _).
  unfold closedir, wclosedir. rewrite L. cbn [negb]. assert (L2 : live (w_block (d_wdir d)) w = true) by (unfold live; rewrite BL; cbn; rewrite Z.eqb_refl, !orb_true_r; reflexivity). rewrite L2. cbn [negb]. rewrite C. cbn [bind]. rewrite PT.
  unfold free, live. rewrite B1, BL. cbn -[Z.eqb]. rewrite !Z.eqb_refl. cbn -[Z.eqb]. rewrite !Z.eqb_refl. cbn -[Z.eqb]. rewrite !Z.eqb_refl. cbn. rewrite ?Z.eqb_refl. eexists. split; [reflexivity|]. cbn. repeat split; assumption.
Qed.
End Spec.

(** The pattern for a directory: its full path, a backslash unless it ends in a separator, and a star. *)
Definition pattern_of (full : list Z) : list Z := full ++ (match rev full with c :: _ => if (c =? 92) || (c =? 47) || (c =? 58) then [] else [92] | [] => [92] end) ++ [42].

Lemma last_rev : forall (l : list Z) d, last l d = match rev l with c :: _ => c | [] => d end.
Proof.
  intros l d. destruct (rev l) as [|c r] eqn:R.
  - assert (l = []) as -> by (rewrite <- (rev_involutive l), R; reflexivity). reflexivity.
  - assert (l = rev r ++ [c]) as -> by (rewrite <- (rev_involutive l), R; reflexivity). apply last_last.
Qed.
(** C130.  When the full path still fits the size asked for, the pattern is built inside the buffer, whatever the path. *)
Theorem pattern_built : forall n f, zlen f < n -> f <> [] -> make_pattern n (Some f) = Ok (Some (pattern_of f)).
Proof.
  intros n f B NE. unfold make_pattern, pattern_of. destruct f as [|c g] eqn:F; [congruence|]. rewrite <- F in *. clear F NE c g. assert (L : 0 <= zlen f) by lia.
  destruct (Z.leb_spec (zlen f + 1) n) as [_|X]; [|lia]. rewrite last_rev. unfold is_sep.
  assert (Q : forall sep : list Z, zlen sep <= 1 -> zlen f + zlen sep + 1 <? (2 * n + 16) / 2 = true). { intros sep H. apply Z.ltb_lt. replace (2 * n + 16) with ((n + 8) * 2) by lia. rewrite Z.div_mul by lia. lia. }
  destruct (rev f) as [|c r].
  - change ((0 =? 92) || (0 =? 47) || (0 =? 58)) with false. cbv iota. rewrite Q by (cbn; lia). reflexivity.
  - destruct ((c =? 92) || (c =? 47) || (c =? 58)); rewrite Q by (cbn; lia); reflexivity.
Qed.
(** C130.  And only then: if the directory has become longer between the two calls of GetFullPathNameW (another thread has changed the current directory), the code reads what was never stored, or outside the buffer. *)
Theorem pattern_exact : forall n f, 0 <= n -> (exists r, make_pattern n (Some f) = Ok r) <-> (f = [] \/ zlen f < n).
Proof.
  intros n f B. split.
  - intros (r & E). unfold make_pattern in E. destruct f as [|c f]; [left; reflexivity|]. right. destruct (Z.leb_spec (zlen (c :: f) + 1) n); [lia|]. destruct (_ <? _); discriminate.
  - intros [-> |H]; [exists None; reflexivity|]. destruct f as [|c f]; [exists None; reflexivity|]. exists (Some (pattern_of (c :: f))). apply pattern_built; [exact H|discriminate].
Qed.

(** C128.  A stream that opendir gives shows the files the directory has: every program that reads, goes back to the beginning and reads on, any number of times while the disk changes, is given the files in order,
    then NULL for ever, and from the beginning the files there are at that time.  Names of at most 259 bytes, or a handler that comes back. *)
Theorem dir_lists : forall tomb towc hr a name w d w' ops, 0 < next w -> opendir towc hr a name w = Ok (Some d, w') ->
  exists full fs e, a_full2 a = Some full /\ disk w (pattern_of full) = Some (fs, e) /\ fs <> [] /\
  (Forall (good tomb hr) fs -> good_disk tomb hr (disk w) -> good_ops tomb hr ops -> exists d2 w2, run tomb hr ops d w' = Ok (expected tomb ops fs (disk w) (pattern_of full), d2, w2)).
Proof.
  intros tomb towc hr a name w d w' ops N H. assert (G : exists full fs e, a_full2 a = Some full /\ disk w (pattern_of full) = Some (fs, e) /\ fs <> [] /\ disk w' = disk w /\ stream fs d w' (pattern_of full) (searches w) (blocks w)).
  2:{ destruct G as (full & fs & e & A & DK & NE & DW & ST). exists full, fs, e. split; [exact A|]. split; [exact DK|]. split; [exact NE|]. intros G1 G2 G3.
      destruct (run_ok tomb hr ops _ _ _ _ _ _ ST) as [(rem' & d2 & w2 & E & _)|(_ & NG)]; [exists d2, w2; rewrite <- DW; exact E|exfalso; apply NG; [exact G1|rewrite DW; exact G2|exact G3]]. }
  unfold opendir in H. destruct name as [|c name]; [discriminate|]. unfold malloc in H. destruct (a_dir a); [|discriminate]. destruct (convert hr towc (c :: name)) as [[n|]| | |]; cbn [bind] in H; try discriminate.
  2:{ destruct (free _ _); cbn in H; discriminate. }
  unfold wopendir in H. destruct n as [|c' n]; [cbn -[free] in H; destruct (free _ _); cbn in H; discriminate|]. unfold malloc in H. destruct (a_wdir a).
  2:{ cbn -[free] in H. destruct (free _ _); cbn in H; discriminate. }
  destruct (a_patt a).
  2:{ cbn -[free wclosedir] in H. destruct (wclosedir _ _) as [[r w2]| | |]; cbn -[free] in H; try discriminate. destruct (free _ w2); cbn in H; discriminate. }
  destruct (make_pattern (full_size (a_full1 a)) (a_full2 a)) as [[s|]| | |] eqn:MP; cbn -[free wclosedir dirent_first Z.add] in H; try discriminate.
  2:{ destruct (wclosedir _ _) as [[r w2]| | |]; cbn -[free] in H; try discriminate. destruct (free _ w2); cbn in H; discriminate. }
  assert (P : exists full, a_full2 a = Some full /\ s = pattern_of full).
  { destruct (a_full2 a) as [f|]; [|discriminate]. exists f. split; [reflexivity|]. assert (Q : f = [] \/ zlen f < full_size (a_full1 a)).
    { apply pattern_exact; [unfold full_size; destruct (a_full1 a); lia|]. eexists. exact MP. }
    destruct f as [|x f]; [discriminate|]. destruct Q as [Q|Q]; [discriminate|]. rewrite pattern_built in MP by (exact Q || discriminate). congruence. }
  destruct P as (full & A & ->). exists full. unfold dirent_first, find_first in H. cbn -[free wclosedir Z.add] in H. destruct (disk w (pattern_of full)) as [[[|f fs] e]|] eqn:DK.
  - destruct (wclosedir _ _) as [[r w2]| | |]; cbn -[free] in H; try discriminate. destruct (free _ w2); cbn in H; discriminate.
  - cbn -[Z.add] in H. injection H as <- <-. exists (f :: fs), e. split; [exact A|]. split; [reflexivity|]. split; [discriminate|]. split; [reflexivity|]. split; [cbn -[Z.add]; lia|]. eexists. cbn -[Z.add]. split; [reflexivity|]. split; [reflexivity|]. right. split; [lia|].
    exists fs, e. split; [reflexivity|]. left. exists f. repeat split; reflexivity.
  - destruct (wclosedir _ _) as [[r w2]| | |]; cbn -[free] in H; try discriminate. destruct (free _ w2); cbn in H; discriminate.
Qed.
Definition id_conv (s : list Z) : option (list Z) := if existsb (fun c => 255 <? c) s then None else Some s.
Definition files : list fdata := [Fdata [46] [] 16; Fdata [97; 98] [] 32; Fdata [955; 120] [76; 126; 49] 32; Fdata [955] [] 32].
Definition disk0 (p : list Z) : option (list fdata * Z) := if list_eq_dec Z.eq_dec p [67; 58; 92; 100; 92; 42] then Some (files, 18) else None.
Definition world0 : world := World disk0 [] 1 [] 0 0.
Definition ans0 : answers := Answers true true true (Some [67; 58; 92; 100]) (Some [67; 58; 92; 100]).
Example dir_lists_holds : exists d w1 d2 w2, opendir id_conv false ans0 [100] world0 = Ok (Some d, w1) /\
  run id_conv false [Read; Read; Rewind; Read; Read; Read; Read; Read; Read] d w1 =
    Ok ([Some (Ent [46] 1 16384 280); Some (Ent [97; 98] 2 32768 280); Some (Ent [46] 1 16384 280); Some (Ent [97; 98] 2 32768 280); Some (Ent [76; 126; 49] 3 32768 280); Some (Ent [63] 1 0 0); None; None], d2, w2).
Proof. eexists _, _, _, _. split; vm_compute; reflexivity. Qed.
Example dir_lists_hyp : Forall (good id_conv false) files /\ good_disk id_conv false disk0 /\ good_ops id_conv false [Read; Rewind; Change disk0].
Proof.
  assert (F : Forall (good id_conv false) files) by (apply Forall_forall; intros f H; cbn in H; decompose [or] H; try contradiction; subst f; split; right; intros b; vm_compute; intros E; inversion E; reflexivity).
  assert (D : good_disk id_conv false disk0) by (intros p l e; unfold disk0; destruct (list_eq_dec Z.eq_dec p _); intros H; inversion H; subst; exact F).
  split; [exact F|]. split; [exact D|]. apply Forall_forall. intros o H. cbn in H. decompose [or] H; try contradiction; subst o; try exact I. exact D.
Qed.
Print Assumptions dir_lists.

(** C128.  The wide stream gives the name as it is, with its length and type, for a name as Windows has them (at most 259 characters). *)
Theorem wide_names : forall d w f d' w', dirent_next d w = Ok (Some f, d', w') -> zlen (f_name f) < 260 -> ~ In 0 (f_name f) ->
  wreaddir d w = Ok (Some (Ent (f_name f) (zlen (f_name f)) (type_of (f_attr f)) 544), d', w').
Proof.
  intros d w f d' w' E L NZ. unfold wreaddir. rewrite E. cbn [bind]. rewrite file_type_ok.
  assert (C : forall l n, 0 <= n -> n + zlen l < 260 -> ~ In 0 l -> copy_name n l = l).
  { intros l. induction l as [|c l IH]; intros n Hn B N; [reflexivity|]. cbn [copy_name length] in *. destruct (Z.ltb_spec (n + 1) 260); [|lia]. destruct (Z.eqb_spec c 0) as [-> |]; [exfalso; apply N; left; reflexivity|]. cbn [negb andb]. f_equal. apply IH; [lia|lia|].
    intros I. apply N. right. exact I. }
  rewrite C by (lia || exact NZ). reflexivity.
Qed.
Example wide_names_holds : exists d w d' w', dirent_next d w = Ok (Some (Fdata [955; 120] [76] 16), d', w') /\ wreaddir d w = Ok (Some (Ent [955; 120] 2 16384 544), d', w').
Proof. exists (Wdir 5 9 None true (Some (Fdata [955; 120] [76] 16))), (World disk0 [(9, ([], 18))] 10 [5] 0 0). eexists _, _. split; vm_compute; reflexivity. Qed.
Print Assumptions wide_names.

(** C129.  A failing opendir gives back all it has taken, and whatever is done with a stream, closing it does; no block or search is released twice or used after it. The only outcomes besides are the end of the
    program by the handler of the C library, and those of C130. *)
Theorem dir_resources : forall tomb towc hr a name w ops, 0 < next w ->
  match opendir towc hr a name w with
  | Ok (None, w') => searches w' = searches w /\ blocks w' = blocks w
  | Ok (Some d, w') =>
      match run tomb hr ops d w' with
      | Ok (_, d2, w2) => exists w3, closedir (Some d2) w2 = Ok (0, w3) /\ searches w3 = searches w /\ blocks w3 = blocks w
      | Panics => hr = false
      | _ => False
      end
  | Undef _ => exists f, a_full2 a = Some f /\ full_size (a_full1 a) <= zlen f
  | Panics => hr = false
  | NoFuel => False
  end.
Proof.
  intros tomb towc hr a name w ops N.
  assert (CV : forall conv s r, convert hr conv s = r -> match r with Ok _ => True | Panics => hr = false | _ => False end).
  { intros conv s r <-. unfold convert. destruct (conv s); [|exact I]. destruct (_ <? _); [exact I|]. destruct hr; [exact I|reflexivity]. }
  assert (RUN : forall fs d w' p, stream fs d w' p (searches w) (blocks w) -> match run tomb hr ops d w' with Ok (_, d2, w2) => exists w3, closedir (Some d2) w2 = Ok (0, w3) /\ searches w3 = searches w /\ blocks w3 = blocks w | Panics => hr = false | _ => False end).
  { intros fs d w' p ST. destruct (run_ok tomb hr ops _ _ _ _ _ _ ST) as [(rem' & d2 & w2 & E & ST2)|(E & NG)]; rewrite E.
    - assert (CO : exists w3, closedir (Some d2) w2 = Ok (0, w3) /\ searches w3 = searches w /\ blocks w3 = blocks w /\ derrno w3 = derrno w2) by (eapply close_ok; eassumption). destruct CO as (w3 & C & S3 & B3 & _). exists w3. split; [exact C|]. split; assumption.
    - destruct hr eqn:HR; [|reflexivity]. exfalso. apply NG.
      + apply Forall_forall. intros f _. split; left; reflexivity.
      + intros q l e _. apply Forall_forall. intros f _. split; left; reflexivity.
      + apply Forall_forall. intros o _. destruct o; try exact I. intros q l e _. apply Forall_forall. intros f' _. split; left; reflexivity. }
  unfold opendir. destruct name as [|c name]; [split; reflexivity|]. unfold malloc. destruct (a_dir a); [|split; reflexivity].
  destruct (convert hr towc (c :: name)) as [[n|]| | |] eqn:C; cbn [bind]; pose proof (CV _ _ _ C) as Q; try exact Q; try contradiction.
  2:{ unfold wclosedir, free, live; repeat (rewrite ?Z.eqb_refl, ?orb_true_r; cbn -[Z.add Z.eqb]); split; reflexivity. }
  unfold wopendir. destruct n as [|c' n]. { unfold wclosedir, free, live; repeat (rewrite ?Z.eqb_refl, ?orb_true_r; cbn -[Z.add Z.eqb]); split; reflexivity. }
  unfold malloc. destruct (a_wdir a). 2:{ unfold wclosedir, free, live; repeat (rewrite ?Z.eqb_refl, ?orb_true_r; cbn -[Z.add Z.eqb]); split; reflexivity. }
  destruct (a_patt a). 2:{ unfold wclosedir, free, live; repeat (rewrite ?Z.eqb_refl, ?orb_true_r; cbn -[Z.add Z.eqb]); split; reflexivity. }
  destruct (make_pattern (full_size (a_full1 a)) (a_full2 a)) as [[s|]|u| |] eqn:MP.
  - cbn -[free wclosedir dirent_first Z.add]. unfold dirent_first, find_first. cbn -[free wclosedir Z.add]. destruct (disk w s) as [[[|f fs] e]|] eqn:DK.
    + unfold wclosedir, free, live; repeat (rewrite ?Z.eqb_refl, ?orb_true_r; cbn -[Z.add Z.eqb]); split; reflexivity.
    + cbn -[Z.add run closedir]. apply (RUN (f :: fs) _ _ s). split; [cbn -[Z.add]; lia|]. eexists. cbn -[Z.add]. split; [reflexivity|]. split; [reflexivity|]. right. split; [lia|]. exists fs, e. split; [reflexivity|]. left. exists f. repeat split; reflexivity.
    + unfold wclosedir, free, live; repeat (rewrite ?Z.eqb_refl, ?orb_true_r; cbn -[Z.add Z.eqb]); split; reflexivity.
  - unfold wclosedir, free, live; repeat (rewrite ?Z.eqb_refl, ?orb_true_r; cbn -[Z.add Z.eqb]); split; reflexivity.
  - cbn [bind]. unfold make_pattern in MP. destruct (a_full2 a) as [[|x f]|]; try discriminate. exists (x :: f). split; [reflexivity|]. destruct (Z.leb_spec (zlen (x :: f) + 1) (full_size (a_full1 a))) as [H|H]; [|lia].
    assert (X : exists r, make_pattern (full_size (a_full1 a)) (Some (x :: f)) = Ok r) by (apply pattern_exact; [lia|right; lia]). destruct X as (r & X). unfold make_pattern in X. destruct (Z.leb_spec (zlen (x :: f) + 1) (full_size (a_full1 a))); [|lia]. rewrite X in MP. discriminate.
  - unfold make_pattern in MP. destruct (a_full2 a) as [[|x f]|]; try discriminate. destruct (_ <=? _); destruct (_ <? _); discriminate.
  - unfold make_pattern in MP. destruct (a_full2 a) as [[|x f]|]; try discriminate. destruct (_ <=? _); destruct (_ <? _); discriminate.
Qed.
Example dir_resources_holds := dir_resources id_conv id_conv false ans0 [100] world0 [Read; Read; Read; Read; Read; Read; Rewind; Read] eq_refl.
(** C129, the precondition: a stream that has been closed is not used again; each of the functions uses released memory, also through the wide stream alone. *)
Theorem dir_after_close : forall tomb hr d w, live (d_block d) w = false \/ live (w_block (d_wdir d)) w = false ->
  readdir tomb hr d w = Undef UseAfterFree /\ rewinddir d w = Undef UseAfterFree /\ closedir (Some d) w = Undef UseAfterFree.
Proof.
  intros tomb hr d w H. unfold readdir, rewinddir, closedir, dirent_next, wrewinddir, wclosedir. destruct (live (d_block d) w); cbn [negb]; [|repeat split; reflexivity]. destruct H as [H|H]; [discriminate H|]. rewrite H. repeat split; reflexivity.
Qed.
(** Reading behind closedir. *)
Example dir_after_close_holds : exists d w w', closedir (Some d) w = Ok (0, w') /\ readdir id_conv false d w' = Undef UseAfterFree.
Proof. exists (Dir 4 (Wdir 5 (-1) None false None)), (World (fun _ => None) [] 10 [5; 4] 0 0). eexists. split; vm_compute; reflexivity. Qed.
Print Assumptions dir_after_close.
(** C130, exactly when opening goes wrong: when the second full path is longer than the first was (or the first call failed and the second did not), with memory at hand. *)
Theorem opendir_race_exact : forall a c name w, 0 < next w -> a_wdir a = true -> a_patt a = true ->
  ((exists u, wopendir a (c :: name) w = Undef u) <-> exists f, a_full2 a = Some f /\ f <> [] /\ forall g, a_full1 a = Some g -> (length g < length f)%nat).
Proof.
  intros a c name w N AW AP. unfold wopendir, malloc. rewrite AW, AP.
  destruct (a_full2 a) as [[|x f]|] eqn:A2.
  - split; [|intros (f & E & F & _); injection E as <-; destruct (F eq_refl)]. cbn [make_pattern bind]. unfold wclosedir, free, live; repeat (rewrite ?Z.eqb_refl, ?orb_true_r; cbn -[Z.add Z.eqb]). intros (u & E). discriminate E.
  - split.
    + intros (u & E). exists (x :: f). split; [reflexivity|]. split; [discriminate|]. intros g G. destruct (Nat.lt_ge_cases (length g) (length (x :: f))) as [L|L]; [exact L|]. exfalso.
      assert (P : exists r, make_pattern (full_size (a_full1 a)) (Some (x :: f)) = Ok r) by (clear E; rewrite G; cbn [full_size]; apply pattern_exact; [lia|right; cbn [length] in *; lia]). destruct P as (r & P). rewrite P in E. cbn [bind] in E. destruct r as [s|].
      * unfold dirent_first, find_first in E. cbn -[free wclosedir Z.add] in E. destruct (disk w s) as [[[|f0 fs] e]|] eqn:DK; [|discriminate E|].
        -- revert E. unfold wclosedir, free, live; repeat (rewrite ?Z.eqb_refl, ?orb_true_r; cbn -[Z.add Z.eqb]). discriminate.
        -- revert E. unfold wclosedir, free, live; repeat (rewrite ?Z.eqb_refl, ?orb_true_r; cbn -[Z.add Z.eqb]). discriminate.
      * revert E. unfold wclosedir, free, live; repeat (rewrite ?Z.eqb_refl, ?orb_true_r; cbn -[Z.add Z.eqb]). discriminate.
    + intros (f0 & E & _ & L). injection E as <-. unfold make_pattern. assert (Q : Z.of_nat (length (x :: f)) + 1 <=? full_size (a_full1 a) = false).
      { apply Z.leb_gt. unfold full_size. destruct (a_full1 a) as [g|]; [specialize (L g eq_refl); lia|lia]. }
      rewrite Q. destruct (_ <? _); eexists; reflexivity.
  - split; [|intros (f & E & _); discriminate E]. cbn [make_pattern bind]. unfold wclosedir, free, live; repeat (rewrite ?Z.eqb_refl, ?orb_true_r; cbn -[Z.add Z.eqb]). intros (u & E). discriminate E.
Qed.
(** A directory that was renamed in between. *)
Example opendir_race_exact_holds : let a := Answers true true true (Some [67; 58]) (Some [67; 58; 92]) in a_wdir a = true /\ a_patt a = true /\ 0 < next world0 /\ exists u, wopendir a [100] world0 = Undef u.
Proof. repeat split. eexists. vm_compute. reflexivity. Qed.
Print Assumptions opendir_race_exact.
Example dir_resources_fails := dir_resources id_conv id_conv false (Answers true true true (Some [90]) (Some [90])) [100] world0 [] eq_refl.
(** C129.  NULL is turned down by closedir, and with ENOENT by opendir for an empty name. *)
Theorem dir_null : forall towc hr a w, closedir None w = Ok (-1, set_errno 9 w) /\ opendir towc hr a [] w = Ok (None, set_errno 2 w).
Proof. intros. split; reflexivity. Qed.
Example dir_null_holds := dir_null id_conv false ans0 world0.
Print Assumptions dir_resources.
Print Assumptions dir_null.

Example pattern_built_holds : make_pattern 5 (Some [67; 58; 92; 100]) = Ok (Some [67; 58; 92; 100; 92; 42]) /\ make_pattern 4 (Some [67; 58; 92]) = Ok (Some [67; 58; 92; 42]).
Proof. split; vm_compute; reflexivity. Qed.
Example pattern_exact_holds := proj2 (pattern_exact 5 [67; 58; 92; 100] ltac:(lia)) (or_intror eq_refl).
(** C130.  The current directory becomes longer between the two calls: the buffer is read before anything was stored in it; if it becomes eight characters longer, behind its end. *)
Theorem opendir_race_refuted : exists a a' w, a_full1 a = Some [67; 58] /\ a_full2 a = Some [67; 58; 92; 97] /\ opendir id_conv false a [97] w = Undef UninitRead /\
  a_full1 a' = Some [67; 58] /\ opendir id_conv false a' [97] w = Undef OobRead.
Proof.
  exists (Answers true true true (Some [67; 58]) (Some [67; 58; 92; 97])), (Answers true true true (Some [67; 58]) (Some [67; 58; 92; 97; 98; 99; 100; 101; 102; 103; 104; 105])), world0. repeat split; vm_compute; reflexivity.
Qed.
Print Assumptions pattern_built.
Print Assumptions pattern_exact.
Print Assumptions opendir_race_refuted.

(** C131.  Whatever error ends a search (any number, not only 18, no more files), readdir gives NULL and leaves errno as it was: a caller cannot tell an error from the end. *)
Theorem read_error_silent : forall tomb hr d w, cached (d_wdir d) = false -> handle (d_wdir d) <> -1 -> live (d_block d) w = true -> live (w_block (d_wdir d)) w = true ->
  forall e, lookup (handle (d_wdir d)) (searches w) = Some ([], e) ->
  exists d' w', readdir tomb hr d w = Ok (None, d', w') /\ derrno w' = derrno w /\ lasterr w' = e /\ handle (d_wdir d') = -1.
Proof.
  intros tomb hr [db [wb h pt c dt]] w C H L1 L2 e LK. cbn [d_wdir d_block w_block handle cached] in *. subst c. unfold readdir, dirent_next. cbn [d_wdir d_block w_block handle cached]. rewrite L1, L2. cbn [negb].
  destruct (Z.eqb_spec h INVALID) as [X|_]; [contradiction|]. cbn [negb]. unfold find_next. rewrite LK. cbn [bind]. unfold find_close. cbn [searches]. rewrite LK. cbn [bind]. eexists _, _. split; [reflexivity|]. repeat split; reflexivity.
Qed.
(** C131.  A directory of two files whose search fails with 5 (access denied) after the first: the stream ends after it, like one that has one file.  A name whose bytes are more than 259 ends the program, though it
    has a short name that would do. *)
Theorem read_error_refuted : exists D d w1 d2 w2 f d3 w3, D [67; 58; 92; 100; 92; 42] = Some ([Fdata [97] [] 32], 5) /\ opendir id_conv false ans0 [100] (World D [] 1 [] 0 0) = Ok (Some d, w1) /\
  run id_conv false [Read; Read] d w1 = Ok ([Some (Ent [97] 1 32768 280); None], d2, w2) /\ derrno w2 = 0 /\ lasterr w2 = 5 /\
  zlen (f_name f) = 130 /\ f_alt f = [76; 126; 49] /\ opendir id_conv false ans0 [100] (World (fun _ => Some ([f], 18)) [] 1 [] 0 0) = Ok (Some d3, w3) /\
  readdir (fun s => Some (flat_map (fun c => if c <? 128 then [c] else [195; c mod 64 + 128]) s)) false d3 w3 = Panics.
Proof.
  exists (fun _ => Some ([Fdata [97] [] 32], 5)). eexists _, _, _, _, (Fdata (repeat 233 130) [76; 126; 49] 32), _, _. split; [reflexivity|]. do 2 (split; [vm_compute; reflexivity|]). do 5 (split; [reflexivity|]). split; vm_compute; reflexivity.
Qed.
(** C131.  A directory in which nothing is found (an empty root directory has no "." entry) cannot be opened: ENOENT, as if it was not there. *)
Theorem empty_root_refuted : exists D w', D [67; 58; 92; 42] = Some ([], 18) /\ opendir id_conv false (Answers true true true (Some [67; 58; 92]) (Some [67; 58; 92])) [67; 58; 92] (World D [] 1 [] 0 0) = Ok (None, w') /\ derrno w' = ENOENT.
Proof. exists (fun _ => Some ([], 18)). eexists. split; [reflexivity|]. split; [vm_compute; reflexivity|]. reflexivity. Qed.
Example read_error_silent_holds : exists d' w', readdir id_conv false (Dir 3 (Wdir 4 7 (Some (5, [42])) false None)) (World disk0 [(7, ([], 5))] 8 [5; 4; 3] 0 0) = Ok (None, d', w') /\ derrno w' = 0 /\ lasterr w' = 5 /\ handle (d_wdir d') = -1.
Proof. apply (read_error_silent id_conv false); [reflexivity|discriminate|reflexivity|reflexivity|reflexivity]. Qed.
Print Assumptions read_error_silent.
Print Assumptions read_error_refuted.
Print Assumptions empty_root_refuted.
