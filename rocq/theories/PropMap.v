(** The mmap emulation as a whole: src/mman.c. *)
From Verif Require Import BaseLemmas MapModel PropMisc.
Import ListNotations.


(** C114.  Whatever Windows answers: mmap leaves no file mapping handle open; it gives MAP_FAILED and makes no view, or gives the base of the one view it has made. *)
Theorem mmap_keeps_handles : forall win64 a addr len prot flags off w r w', mmap_run win64 a addr len prot flags off w = Ok (r, w') ->
  handles w' = handles w /\ ((r = MAP_FAILED /\ views w' = views w) \/ (exists v, views w' = v :: views w /\ v_base v = r /\ v_len v = len)).
Proof.
  intros win64 a addr len prot flags off w r w'. unfold mmap_run, mmap. destruct (off_add win64 off (off_conv win64 len)) as [mx| | |]; cbn [bind]; try discriminate.
  destruct ((len =? 0) || (prot =? PROT_EXEC)); cbn [bind]; [intros E; injection E as <- <-; cbn; auto|].
  destruct (negb _ && _); [intros E; injection E as <- <-; cbn; auto|].
  unfold create_mapping. destruct (a_create a) as [h|e]; [|intros E; injection E as <- <-; cbn; auto].
  unfold map_view. destruct (a_view a) as [b|e]; intros E; injection E as <- <-; cbn; rewrite ?Z.eqb_refl; (split; [reflexivity|]); eauto 6.
Qed.
(** C114.  What errno is after each outcome. *)
Theorem mmap_errno_exact : forall win64 a addr len prot flags off w r w', mmap_run win64 a addr len prot flags off w = Ok (r, w') ->
  let anonymous := negb (Z.land flags MAP_ANONYMOUS =? 0) in
  werrno w' =
    if (len =? 0) || (prot =? PROT_EXEC) then E_INVAL
    else if negb anonymous && match a_file a with None => true | Some _ => false end then E_BADF
    else match a_create a, a_view a, a_close a with
         | inr e, _, _ | inl _, inr _, Some e | inl _, inr e, None => s32 (u32 e)
         | inl _, inl _, _ => 0
         end.
Proof.
  intros win64 a addr len prot flags off w r w'. unfold mmap_run, mmap. destruct (off_add win64 off (off_conv win64 len)) as [mx| | |]; cbn [bind]; try discriminate.
  destruct ((len =? 0) || (prot =? PROT_EXEC)); cbn [bind]; [intros E; injection E as <- <-; reflexivity|]. cbv zeta. set (anonymous := negb (Z.land flags MAP_ANONYMOUS =? 0)). clearbody anonymous.
  assert (M : forall e d, map_mman_error e d = s32 (u32 e)) by (intros e d; unfold map_mman_error; destruct (Z.eqb_spec (u32 e) 0) as [-> |]; reflexivity).
  destruct anonymous; cbn [negb andb]; [|destruct (a_file a); cbn [negb andb]; [|intros E; injection E as <- <-; reflexivity]];
    (unfold create_mapping; destruct (a_create a) as [h|e]; [|intros E; injection E as <- <-; cbn; apply M];
     unfold map_view; destruct (a_view a) as [b|e]; intros E; injection E as <- <-; cbn; [reflexivity|]; destruct (a_close a); apply M).
Qed.
Definition w0 : win := Win [] [] (fun _ => 4096) (fun f p => f + p) 0 0 0.
(** C114.  errno is the Windows error number: access denied (5) is reported as 5, which is EIO, and not as EPERM, the default the code names; if CloseHandle resets the last error, a failing call
    leaves errno 0. *)
Theorem mmap_errno_refuted : exists a a' w' w'', mmap_run true a 0 4096 PROT_READ MAP_SHARED 0 w0 = Ok (MAP_FAILED, w') /\ a_create a = inr 5 /\ werrno w' = 5 /\ werrno w' <> E_PERM /\
  mmap_run true a' 0 4096 PROT_READ MAP_SHARED 0 w0 = Ok (MAP_FAILED, w'') /\ werrno w'' = 0.
Proof.
  exists (Answers (Some 3) (inr 5) (inl 0) None), (Answers (Some 3) (inl 7) (inr 8) (Some 0)). eexists _, _. split; [vm_compute; reflexivity|]. split; [reflexivity|]. split; [vm_compute; reflexivity|]. split; [vm_compute; discriminate|].
  split; [vm_compute; reflexivity|]. reflexivity.
Qed.
(** C114.  The other functions give 0 or -1 with the Windows error in errno, and change nothing else. *)
Theorem mman_calls_exact : forall vp vl addr len prot flags w,
  mprotect vp addr len prot w = (match vp addr len (map_prot_page prot) with None => (0, w) | Some e => (-1, set_errno (s32 (u32 e)) (set_last e w)) end) /\
  msync vl addr len flags w = mlock vl addr len w /\
  mlock vl addr len w = (match vl addr len with None => (0, w) | Some e => (-1, set_errno (s32 (u32 e)) (set_last e w)) end).
Proof.
  intros. assert (M : forall e d, map_mman_error e d = s32 (u32 e)) by (intros e d; unfold map_mman_error; destruct (Z.eqb_spec (u32 e) 0) as [-> |]; reflexivity).
  unfold mprotect, msync, mlock, answer_call, fail_errno. split; [|split; [reflexivity|]].
  - destruct (vp addr len (map_prot_page prot)); [rewrite M|]; reflexivity.
  - destruct (vl addr len); [rewrite M|]; reflexivity.
Qed.
Example mmap_keeps_handles_holds : exists w', mmap_run true (Answers (Some 3) (inl 7) (inl 65536) None) 0 100 3 MAP_SHARED 8192 w0 = Ok (65536, w') /\ handles w' = [] /\ views w' = [View 65536 100 3 8192 6] /\ flen w' 3 = 8292 /\ flen w' 4 = 4096.
Proof. eexists. split; [vm_compute; reflexivity|]. repeat split; vm_compute; reflexivity. Qed.
Example mmap_errno_exact_holds := mmap_errno_exact true (Answers None (inl 7) (inl 65536) None) 0 100 3 MAP_SHARED 0 w0 (-1) _ eq_refl.
Example mman_calls_exact_holds : mprotect (fun _ _ p => if p =? 4 then None else Some 87) 65536 100 PROT_NONE w0 = (-1, set_errno 87 (set_last 87 w0)) /\ fst (mlock (fun _ _ => None) 65536 100 w0) = 0.
Proof. split; vm_compute; reflexivity. Qed.

(** C114.  getpagesize asks the system once, and gives the same value every time. *)
Theorem getpagesize_once : forall dw dw' w, 0 < dw < 2147483648 -> g_pagesize w = 0 ->
  exists w1, getpagesize dw w = (dw, true, w1) /\ getpagesize dw' w1 = (dw, false, w1).
Proof.
  intros dw dw' w B G. unfold getpagesize at 1. rewrite G, Z.eqb_refl. assert (V : s32 (u32 dw) = dw) by (rewrite u32_id by lia; apply s32_id; lia). rewrite V. eexists. split; [reflexivity|].
  unfold getpagesize. cbn [g_pagesize]. destruct (Z.eqb_spec dw 0); [lia|reflexivity].
Qed.
Example getpagesize_once_holds := getpagesize_once 4096 8192 w0 ltac:(lia) eq_refl.

(** C115.  mmap looks at MAP_FIXED and MAP_ANONYMOUS only: MAP_PRIVATE (mman.h 59, "Changes are private") and MAP_NOEXTEND (66, "don't change file size") make no difference. *)
Theorem mmap_flags_ignored : forall win64 a addr len prot flags flags' off w, Z.land flags 48 = Z.land flags' 48 -> mmap_run win64 a addr len prot flags off w = mmap_run win64 a addr len prot flags' off w.
Proof.
  intros win64 a addr len prot flags flags' off w H.
  assert (A : Z.land flags MAP_ANONYMOUS = Z.land flags' MAP_ANONYMOUS) by (change MAP_ANONYMOUS with (Z.land 48 32); rewrite !Z.land_assoc, H; reflexivity).
  assert (F : Z.land flags MAP_FIXED = Z.land flags' MAP_FIXED) by (change MAP_FIXED with (Z.land 48 16); rewrite !Z.land_assoc, H; reflexivity).
  unfold mmap_run. rewrite A, F. reflexivity.
Qed.
(** C115.  After every successful mmap of a file with PROT_WRITE, private or not, a load through the mapping gives the byte of the file, a store changes that byte of the file and no other, and the file is at least as long as the mapping reaches. *)
Theorem mmap_writes_file : forall a addr len prot flags off w r w' f i b, 0 < len -> 0 <= off -> off + len < 9223372036854775808 -> Z.testbit prot 1 = true -> Z.land flags MAP_ANONYMOUS = 0 ->
  a_file a = Some f -> mmap_run true a addr len prot flags off w = Ok (r, w') -> r <> MAP_FAILED -> 0 <= i < len ->
  load (r + i) w' = Ok (bytes w f (off + i)) /\ exists w'', store (r + i) b w' = Ok w'' /\ bytes w'' f (off + i) = b /\ load (r + i) w'' = Ok b /\ (forall g p, g <> f \/ p <> off + i -> bytes w'' g p = bytes w g p) /\ flen w' f = Z.max (flen w f) (off + len) /\ forall g, g <> f -> flen w' g = flen w g.
Proof.
  intros a addr len prot flags off w r w' f i b L O B WB AN AF E NF I.
  assert (PE : prot <> PROT_EXEC) by (intros ->; discriminate). destruct (mmap_split64 len prot off L O B PE) as (q & Q & OFF & SZ & _ & _ & _ & _ & QV & QP & QA).
  unfold mmap_run in E. rewrite Q in E. cbn [bind] in E. rewrite AN, AF in E. cbn in E.
  unfold create_mapping in E. destruct (a_create a) as [h|e]; [|injection E as <- <-; contradiction]. unfold map_view in E. destruct (a_view a) as [bb|e]; [|injection E as <- <-; contradiction]. injection E as <- <-.
  unfold store, load. cbn [views close_handle find]. set (base := if negb (Z.land flags MAP_FIXED =? 0) then addr else bb).
  assert (IV : in_view (base + i) (View base (r_view q) f (join_halves (r_off_high q) (r_off_low q)) (r_access q)) = true) by (unfold in_view; cbn [v_base v_len]; rewrite QV; lia). rewrite IV. cbn [v_access v_off v_base v_file bytes].
  assert (AW : Z.land (r_access q) FILE_MAP_WRITE =? 0 = false).
  { rewrite QA, view_access. unfold wants_read, wants_write, wants_exec. rewrite WB. destruct (Z.testbit prot 0), (Z.testbit prot 2); reflexivity. }
  assert (AR : Z.land (r_access q) (Z.lor FILE_MAP_READ FILE_MAP_WRITE) =? 0 = false).
  { rewrite QA, view_access. unfold wants_read, wants_write, wants_exec. rewrite WB. destruct (Z.testbit prot 0), (Z.testbit prot 2); reflexivity. }
  rewrite AW, AR. unfold join_halves. rewrite OFF, SZ. replace (off + (base + i - base)) with (off + i) by lia. split; [reflexivity|]. eexists. split; [reflexivity|]. cbn [bytes flen close_handle views find].
  unfold join_halves in IV. rewrite OFF in IV. rewrite IV. cbn [v_access v_off v_base v_file bytes]. rewrite AR. replace (off + (base + i - base)) with (off + i) by lia. rewrite !Z.eqb_refl. cbn [andb]. split; [reflexivity|]. split; [reflexivity|].
  assert (G : (r_protect q =? PAGE_READWRITE) || (r_protect q =? PAGE_EXECUTE_READWRITE) = true).
  { rewrite QP. unfold map_prot_page, PROT_NONE, PROT_EXEC, PROT_WRITE. destruct (Z.eqb_spec prot 0) as [-> |]; [discriminate|]. rewrite land_b1, WB. cbn. destruct (negb (Z.land prot 4 =? 0)); reflexivity. }
  rewrite G. split; [|split; [lia|]].
  - intros g p H. destruct (Z.eqb_spec g f), (Z.eqb_spec p (off + i)); cbn [andb]; try reflexivity. exfalso. destruct H; contradiction.
  - intros g H. destruct (Z.eqb_spec g f); [contradiction|reflexivity].
Qed.
(** C115.  An anonymous mapping (MAP_ANONYMOUS) never touches a file, whatever descriptor is given: neither mmap nor a store through the mapping changes the length or a byte of any file. *)
Theorem mmap_anonymous_no_file : forall a addr len prot flags off w r w' i b w'', 0 < len -> 0 <= off -> off + len < 9223372036854775808 -> Z.land flags MAP_ANONYMOUS <> 0 ->
  (forall h, a_create a = inl h -> 0 < h) -> mmap_run true a addr len prot flags off w = Ok (r, w') -> r <> MAP_FAILED -> 0 <= i < len -> store (r + i) b w' = Ok w'' ->
  forall f, 0 <= f -> flen w' f = flen w f /\ forall p, bytes w'' f p = bytes w f p.
Proof.
  intros a addr len prot flags off w r w' i b w'' L O B AN HP E NF I S f F. destruct (Z.eq_dec prot PROT_EXEC) as [-> |PE].
  { exfalso. unfold mmap_run, mmap in E. destruct (off_add true off (off_conv true len)); cbn [bind] in E; try discriminate. change (PROT_EXEC =? PROT_EXEC) with true in E. rewrite orb_true_r in E. injection E as <- _. apply NF. reflexivity. }
  destruct (mmap_split64 len prot off L O B PE) as (q & Q & OFF & SZ & _ & _ & _ & _ & QV & QP & QA).
  unfold mmap_run in E. rewrite Q in E. cbn [bind] in E. rewrite (proj2 (Z.eqb_neq _ _) AN) in E. cbn [negb andb] in E.
  unfold create_mapping in E. destruct (a_create a) as [h|e]; [|injection E as <- <-; contradiction]. specialize (HP h eq_refl). unfold map_view in E. destruct (a_view a) as [bb|e]; [|injection E as <- <-; contradiction]. injection E as <- <-.
  cbn [flen close_handle]. destruct (Z.eqb_spec f (- h)); [lia|]. split; [reflexivity|]. intros p. unfold store in S. cbn [views close_handle find] in S. set (base := if negb (Z.land flags MAP_FIXED =? 0) then addr else bb) in *.
  unfold in_view at 1 in S. cbn [v_base v_len] in S. rewrite QV in S. replace ((base <=? base + i) && (base + i <? base + len)) with true in S by lia. cbn [v_access v_off v_base v_file] in S.
  destruct (Z.land (r_access q) FILE_MAP_WRITE =? 0); [discriminate|]. injection S as <-. cbn [bytes]. destruct (Z.eqb_spec f (- h)); [lia|]. reflexivity.
Qed.
Example mmap_writes_file_holds : exists w' w'', mmap_run true (Answers (Some 3) (inl 7) (inl 65536) None) 0 100 3 MAP_PRIVATE 8192 w0 = Ok (65536, w') /\ store 65546 255 w' = Ok w'' /\ bytes w'' 3 8202 = 255.
Proof.
  destruct (mmap_run true (Answers (Some 3) (inl 7) (inl 65536) None) 0 100 3 MAP_PRIVATE 8192 w0) as [[r w']| | |] eqn:E; [|discriminate E..].
  assert (r = 65536) as -> by (vm_compute in E; congruence). destruct (mmap_writes_file (Answers (Some 3) (inl 7) (inl 65536) None) 0 100 3 MAP_PRIVATE 8192 w0 65536 w' 3 10 255) as (_ & w'' & S1 & S2 & _); try reflexivity; try lia; auto; [discriminate|].
  exists w', w''. auto.
Qed.
Example mmap_anonymous_no_file_holds : exists w' w'', mmap_run true (Answers (Some 3) (inl 7) (inl 65536) None) 0 100 3 (MAP_PRIVATE + MAP_ANONYMOUS) 0 w0 = Ok (65536, w') /\ store 65546 255 w' = Ok w'' /\ flen w' 3 = 4096 /\ bytes w'' 3 10 = 13.
Proof.
  destruct (mmap_run true (Answers (Some 3) (inl 7) (inl 65536) None) 0 100 3 (MAP_PRIVATE + MAP_ANONYMOUS) 0 w0) as [[r w']| | |] eqn:E; [|discriminate E..].
  assert (r = 65536) as -> by (vm_compute in E; congruence). destruct (store 65546 255 w') as [w''| | |] eqn:S; try (vm_compute in E; injection E as <-; discriminate S).
  exists w', w''. split; [reflexivity|]. split; [exact S|]. destruct (mmap_anonymous_no_file (Answers (Some 3) (inl 7) (inl 65536) None) 0 100 3 (MAP_PRIVATE + MAP_ANONYMOUS) 0 w0 65536 w' 10 255 w'') with (f := 3) as [F1 F2];
    try lia; try assumption; try discriminate; [intros h H; injection H as <-; lia|]. rewrite F1, F2. split; reflexivity.
Qed.
Example mmap_flags_ignored_holds := mmap_flags_ignored true (Answers (Some 3) (inl 7) (inl 65536) None) 0 100 3 MAP_PRIVATE (MAP_SHARED + MAP_NOEXTEND) 8192 w0 eq_refl.
(** C115.  With MAP_PRIVATE and MAP_NOEXTEND the store is seen in the file, and the file has grown. *)
Theorem mmap_private_refuted : exists a w' w'', mmap_run true a 0 100 (PROT_READ + PROT_WRITE) (MAP_PRIVATE + MAP_NOEXTEND) 8192 w0 = Ok (65536, w') /\ store 65536 255 w' = Ok w'' /\
  bytes w0 3 8192 <> 255 /\ bytes w'' 3 8192 = 255 /\ flen w0 3 = 4096 /\ flen w' 3 = 8292.
Proof. exists (Answers (Some 3) (inl 7) (inl 65536) None). eexists _, _. split; [vm_compute; reflexivity|]. split; [vm_compute; reflexivity|]. vm_compute. repeat split; discriminate. Qed.

(** Views of a process do not overlap. *)
Definition apart (l : list view) : Prop := forall l1 v l2 v' l3 a, l = l1 ++ v :: l2 ++ v' :: l3 -> in_view a v = true -> in_view a v' = false.
Lemma find_out a l : apart l -> forall v, In v l -> in_view a v = true -> find (in_view a) (filter (fun x => negb (v_base x =? v_base v)) l) = None.
Proof.
  intros H v J I. destruct (find _ _) as [x|] eqn:E; [exfalso|reflexivity]. apply find_some in E. destruct E as (JX & IX). apply filter_In in JX. destruct JX as (JX & NB). destruct (Z.eqb_spec (v_base x) (v_base v)); [discriminate|].
  apply in_split in J. destruct J as (l1 & l2 & ->). rewrite in_app_iff in JX. destruct JX as [JX|[<- |JX]]; [|contradiction|].
  - apply in_split in JX. destruct JX as (k1 & k2 & ->). rewrite (H k1 x k2 v l2 a) in I; [discriminate|rewrite <- app_assoc; reflexivity|auto].
  - apply in_split in JX. destruct JX as (k1 & k2 & ->). rewrite (H l1 v k1 x k2 a) in IX; [discriminate|reflexivity|auto].
Qed.
(** C116.  munmap does not look at its length: called with the base of a mapping it takes away all of it, whatever part was named; called with any other address it fails and takes away nothing. *)
Theorem munmap_exact : forall e addr len w, apart (views w) ->
  (forall v, In v (views w) -> v_base v = addr -> exists w', munmap e addr len w = (0, w') /\ (forall a, in_view a v = true -> load a w' = Undef WildPointer) /\
     (forall x, In x (views w') <-> In x (views w) /\ v_base x <> addr)) /\
  ((forall v, In v (views w) -> v_base v <> addr) -> munmap e addr len w = (-1, set_errno (s32 (u32 e)) (set_last e w))).
Proof.
  intros e addr len w H. split.
  - intros v J B. unfold munmap. assert (X : existsb (fun v => v_base v =? addr) (views w) = true) by (apply existsb_exists; exists v; split; [auto|]; apply Z.eqb_eq; auto). rewrite X. eexists. split; [reflexivity|]. split.
    + intros a I. unfold load. cbn [views]. rewrite <- B. rewrite (find_out a (views w) H v J I). reflexivity.
    + intros x. cbn [views]. rewrite filter_In. destruct (Z.eqb_spec (v_base x) addr); cbn; intuition congruence.
  - intros N. unfold munmap. destruct (existsb (fun v => v_base v =? addr) (views w)) eqn:X.
    + apply existsb_exists in X. destruct X as (v & J & B). apply Z.eqb_eq in B. exfalso. apply (N v); auto.
    + unfold fail_errno, map_mman_error. cbn [lasterr set_last]. destruct (Z.eqb_spec (u32 e) 0) as [-> |]; reflexivity.
Qed.
Definition w2 : win := Win [] [View 65536 8192 3 0 6; View 131072 4096 4 0 4] (fun _ => 8192) (fun f p => f + p) 0 0 0.
Lemma w2_apart : apart (views w2).
Proof.
  intros l1 v l2 v' l3 a E. cbn in E. destruct l1 as [|x1 l1].
  - destruct l2 as [|x2 l2]; [|destruct l2; discriminate]. injection E as E1 E2 E3. subst. unfold in_view. cbn. lia.
  - destruct l1 as [|x3 l1]; [destruct l2; discriminate|destruct l1; discriminate].
Qed.
Example munmap_exact_holds : exists w', munmap 487 65536 4096 w2 = (0, w') /\ (forall a, 65536 <= a < 73728 -> load a w' = Undef WildPointer) /\ munmap 487 69632 4096 w2 = (-1, set_errno 487 (set_last 487 w2)).
Proof.
  destruct (munmap_exact 487 65536 4096 w2 w2_apart) as (A & _). destruct (A (View 65536 8192 3 0 6)) as (w' & E & L & _); [cbn; auto|reflexivity|]. exists w'. split; [exact E|]. split.
  - intros a B. apply L. unfold in_view. cbn. lia.
  - apply (munmap_exact 487 69632 4096 w2 w2_apart). intros v J. cbn in J. destruct J as [<- |[<- |[]]]; cbn; lia.
Qed.
(** C116.  Unmapping the first half of a mapping takes the second half too; unmapping the second half fails (mmap(2): the pages named are unmapped). *)
Theorem munmap_part_refuted : exists w', munmap 487 65536 4096 w2 = (0, w') /\ load 69632 w2 = Ok 4099 /\ load 69632 w' = Undef WildPointer /\ fst (munmap 487 69632 4096 w2) = -1 /\ load 69632 (snd (munmap 487 69632 4096 w2)) = Ok 4099.
Proof. eexists. split; [vm_compute; reflexivity|]. vm_compute. auto. Qed.

Print Assumptions mmap_keeps_handles.
Print Assumptions mmap_errno_exact.
Print Assumptions mmap_errno_refuted.
Print Assumptions mman_calls_exact.
Print Assumptions getpagesize_once.
Print Assumptions mmap_flags_ignored.
Print Assumptions mmap_writes_file.
Print Assumptions mmap_anonymous_no_file.
Print Assumptions mmap_private_refuted.
Print Assumptions munmap_exact.
Print Assumptions munmap_part_refuted.
