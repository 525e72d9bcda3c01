(** ToolsExamples.v: concrete runs of the tools with the run length codec. *)
From Coq Require Import Lia Strings.String.
From Verif Require Import Base Format Zlib RleZlib LLCompress Compress Parser ParserProofs ParserFacts Decompress DecompressProofs
  DecompressFacts MidProofs MidFacts DecompressExamples ArchiveSpec ArchiveFacts ArchiveDecode ArchiveEntry ArchiveProps ArchiveExamples
  FS ArgParser ArgSpec ArgFacts ArgMore ArgExamples Tools ToolsSpec ToolsFacts ToolsMore.
Local Notation b := list_byte_of_string.

(** ** The self extract tool *)

(** The directory of the tool: a directory sub with a file a, the tool, an output file. *)
Definition se_file (d : bytes) : snode := SFile true true 420 (lenN d) d false.
Definition se_tree : list (bytes * snode) :=
  [(b "sub", SDir 493 [(b "a", se_file (b "xyz"))]); (b "tool", se_file (b "TOOL")); (b "__out.exe", se_file (b "TO"))].
(** The same with a file of the output file's name in sub. *)
Definition se_tree2 : list (bytes * snode) :=
  [(b "sub", SDir 493 [(b "__out.exe", se_file (b "xyz"))]); (b "tool", se_file (b "TOOL")); (b "__out.exe", se_file (b "TO"))].
Definition se_ls (t : list (bytes * snode)) (d : bytes) : option (list (bytes * snode)) :=
  if bytes_eqb d (b ".") then Some t else None.
Definition se_rd (k n : N) : N := 3.
Definition se_wr (k n : N) : N := n.
Definition se_opn (k : N) : bool := true.
Definition se_run t wr cfuel argv0 exe :=
  se_main rle_zlib LE (ax_jk x11) ax_hj ax_xjk ax_hjunk ax_al (se_ls t) se_rd wr se_opn true cfuel 3 argv0 exe.

Lemma se_quiet_file d : quiet (se_file d).
Proof. apply q_file. Qed.
Lemma se_tree_quiet : Forall (fun x => quiet (snd x)) se_tree.
Proof.
  repeat apply Forall_cons; try apply Forall_nil; cbn [snd]; try apply se_quiet_file.
  apply q_dir. repeat apply Forall_cons; try apply Forall_nil. apply se_quiet_file.
Qed.
Lemma se_tree2_quiet : Forall (fun x => quiet (snd x)) se_tree2.
Proof.
  repeat apply Forall_cons; try apply Forall_nil; cbn [snd]; try apply se_quiet_file.
  apply q_dir. repeat apply Forall_cons; try apply Forall_nil. apply se_quiet_file.
Qed.
Lemma se_tree_fits : tree_fits (Some se_tree).
Proof. unfold tree_fits, listing, se_tree, se_file. fits_case. Qed.
Lemma se_tree2_fits : tree_fits (Some se_tree2).
Proof. unfold tree_fits, listing, se_tree2, se_file. fits_case. Qed.
Ltac names_case := repeat (constructor; [cbn; intuition congruence|]); constructor.
Lemma se_tree_names : NoDup (map fst se_tree).
Proof. vm_compute. names_case. Qed.
Lemma se_tree2_names : NoDup (map fst se_tree2).
Proof. vm_compute. names_case. Qed.
Lemma se_tree_below : Forall (fun x => below_free (b "tool") (snd x)) se_tree /\ Forall (fun x => below_free se_out (snd x)) se_tree.
Proof.
  split; (repeat apply Forall_cons; try apply Forall_nil; cbn [snd]; try (apply bf_leaf; reflexivity);
    apply bf_dir; repeat apply Forall_cons; try apply Forall_nil; cbn [fst snd]; (split; [intros _ H; vm_compute in H; discriminate|apply bf_leaf; reflexivity])).
Qed.

(** The archive of [t] that the tool makes. *)
Definition se_arch t : bytes :=
  match compress_dir rle_zlib LE (se_filter (b "tool")) (ax_jk x11) ax_hj ax_xjk ax_hjunk ax_al 3 Z_BEST_COMPRESSION 1 false [] (Some t) (true, true) with
  | Ok (_, cevs, _, _, _) => cev_bytes cevs
  | _ => []
  end.

Lemma se_builds t cevs ws wx led :
  compress_dir rle_zlib LE (se_filter (b "tool")) (ax_jk x11) ax_hj ax_xjk ax_hjunk ax_al 3 Z_BEST_COMPRESSION 1 false [] (Some t) (true, true)
    = Ok (CRet 0, cevs, ws, wx, led) -> cev_bytes cevs <> [] ->
  se_run t se_wr 9 (b "./tool") (Some (b "TOOL")) = Ok (SeBuild (CRet 0) (b "TOOL" ++ zeros (max_exe true - lenN (b "TOOL")) ++ cev_bytes cevs)).
Proof.
  intros H Hn. unfold se_run. eapply se_main_builds; [vm_compute; discriminate|reflexivity|reflexivity|reflexivity|vm_compute; reflexivity|exact H|exact Hn].
Qed.

Lemma ex_c62 : exists out cevs ws wx led,
  compress_dir rle_zlib LE (se_filter (b "tool")) (ax_jk x11) ax_hj ax_xjk ax_hjunk ax_al 3 Z_BEST_COMPRESSION 1 false [] (Some se_tree) (true, true)
    = Ok (CRet 0, cevs, ws, wx, led) /\
  lenN (b "TOOL") <= max_exe true /\ (forall k n, se_wr k n = n) /\
  se_run se_tree se_wr 9 (b "./tool") (Some (b "TOOL")) = Ok (SeBuild (CRet 0) out) /\ 524288 < lenN out /\
  junk_ok (ax_jk x11) ax_hj ax_xjk ax_hjunk /\ tree_fits (Some se_tree) /\ last_not_full cevs.
Proof.
  eexists _, _, _, _, _. split; [vm_compute; reflexivity|]. split; [vm_compute; discriminate|]. split; [reflexivity|].
  split; [eapply se_builds; [vm_compute; reflexivity|discriminate]|].
  split; [rewrite !lenN_app, lenN_zeros; change (lenN (b "TOOL")) with 4; change (max_exe true) with 524288; rewrite N.add_assoc;
    change (4 + (524288 - 4)) with 524288; rewrite cev_bytes_cons, lenN_app; vm_compute; reflexivity|].
  split; [apply ax_junk|]. split; [exact se_tree_fits|]. apply ax_not_full. vm_compute. reflexivity.
Qed.

Lemma ex_c63_partial : exists out, se_run se_tree se_wr 9 (b "./tool") (Some (b "TOOL")) = Ok (SeBuild (CRet 0) out) /\
  se_name_dir (b "./tool") = (b "tool", b ".") /\ se_ls se_tree (b ".") = Some se_tree /\
  Forall (fun x => quiet (snd x)) se_tree /\ tree_fits (Some se_tree) /\
  NoDup (map fst se_tree) /\ Forall (fun x => below_free (b "tool") (snd x)) se_tree /\ Forall (fun x => below_free se_out (snd x)) se_tree /\
  preorder (without_own (b "tool") se_tree) = [ADir (b "sub") 493; AFile (b "a") 420 3 (b "xyz"); AEnd].
Proof.
  eexists. split; [eapply se_builds; [vm_compute; reflexivity|discriminate]|]. split; [reflexivity|]. split; [reflexivity|].
  split; [exact se_tree_quiet|]. split; [exact se_tree_fits|]. split; [exact se_tree_names|].
  split; [apply se_tree_below|]. split; [apply se_tree_below|]. vm_compute. reflexivity.
Qed.

(** C63: sub/__out.exe is left out, the output file is packed. *)
Definition se_ops (c : bytes) : list dop := ax_ops 77 c.
Lemma se_ops_ok c : lenN c < two32 -> Forall dop_ok (se_ops c) /\ dfed (se_ops c) = c.
Proof.
  intro H. split.
  - apply Forall_cons; [|apply Forall_cons; [|apply Forall_nil]]; cbn [dop_ok].
    + split; [unfold normal_flush, Z_NO_FLUSH; lia|rewrite lenN_takeN; lia].
    + split; [unfold normal_flush, Z_NO_FLUSH; lia|rewrite lenN_dropN; lia].
  - unfold dfed, se_ops, ax_ops. cbn [map concat]. rewrite app_nil_r. apply takeN_dropN.
Qed.

Lemma unpacks_run c rs rets s evs : unpacks rle_zlib c rs -> lenN c < two32 ->
  run_dops BE ex_alloc 4000 ex_sess (se_ops c) = Ok (rets, s, evs) -> 0 < z_aout (d_zs s) -> presents rs evs.
Proof.
  intros U L H R. destruct (se_ops_ok c L) as [A B]. exact (U BE ex_alloc 4000%nat ex_sess (se_ops c) rets s evs (fun _ _ => eq_refl) ex_started A B H R).
Qed.

Lemma ex_c63 : exists out, se_run se_tree2 se_wr 9 (b "./tool") (Some (b "TOOL")) = Ok (SeBuild (CRet 0) out) /\
  Forall (fun x => quiet (snd x)) se_tree2 /\ tree_fits (Some se_tree2) /\ NoDup (map fst se_tree2) /\
  preorder (without_own (b "tool") se_tree2) = [ADir (b "sub") 493; AFile (b "__out.exe") 420 3 (b "xyz"); AEnd] /\
  ~ unpacks rle_zlib (dropN (max_exe true) out) (preorder (without_own (b "tool") se_tree2)) /\
  unpacks rle_zlib (dropN (max_exe true) out) [ADir (b "sub") 493; AEnd; AFile (b "__out.exe") 420 2 (b "TO")].
Proof.
  eexists. split; [eapply se_builds; [vm_compute; reflexivity|discriminate]|].
  split; [exact se_tree2_quiet|]. split; [exact se_tree2_fits|]. split; [exact se_tree2_names|]. split; [vm_compute; reflexivity|].
  rewrite app_assoc. rewrite dropN_app_exact by (rewrite lenN_app, lenN_zeros; vm_compute; reflexivity). split.
  - intro U. eapply unpacks_run in U; [|vm_compute; reflexivity|vm_compute; reflexivity|vm_compute; reflexivity].
    replace (preorder (without_own (b "tool") se_tree2)) with [ADir (b "sub") 493; AFile (b "__out.exe") 420 3 (b "xyz"); AEnd] in U by (vm_compute; reflexivity).
    destruct U as [[E _]|(evs' & E & S)]; [discriminate|]. injection E as <-. vm_compute in S.
    inversion S; subst. match goal with Q : shows _ _ |- _ => solve [inversion Q] end.
  - match goal with |- unpacks _ (cev_bytes ?c) _ => set (cevs := c) end.
    edestruct (dir_unpacks rle_zlib rle_contract LE (se_filter (b "tool")) (ax_jk x11) ax_hj ax_xjk ax_hjunk ax_al 3 Z_BEST_COMPRESSION 1 (Some se_tree2) (true, true) cevs)
      as (recs & f1 & t & T & U); [apply ax_junk|exact se_tree2_fits|exact se_tree2_quiet|apply ax_not_full; vm_compute; reflexivity|vm_compute; reflexivity|].
    assert (E : exists f1' vs' t', trav (se_filter (b "tool")) (true, true) (jobs [] se_tree2) f1' vs' [ADir (b "sub") 493; AEnd; AFile (b "__out.exe") 420 2 (b "TO")] t').
    { exists (false, false). eexists _, _.
      assert (Hd : forall n, dotb n = false -> ~ dotted n) by (intros n Q Z; apply dotb_spec in Z; congruence).
      unfold se_tree2, jobs. cbn [map fst snd].
      eapply tr_dir; [apply Hd; reflexivity|vm_compute; reflexivity|]. cbn [jobs map fst snd app].
      eapply tr_skip; [apply Hd; reflexivity|vm_compute; reflexivity|discriminate|discriminate|].
      eapply tr_end. eapply tr_skip; [apply Hd; reflexivity|vm_compute; reflexivity|discriminate|discriminate|].
      eapply tr_file; [apply Hd; reflexivity|vm_compute; reflexivity|]. constructor. }
    destruct E as (f1' & vs' & t' & T').
    destruct (trav_det _ _ _ _ _ _ _ T (jobs_all (fun _ x => quiet x) _ _ se_tree2_quiet) _ _ _ _ T') as (_ & _ & -> & _). exact U.
Qed.

(** The output file is where the tool was started, not where the executable is: a path without
    delimiter names no directory and an empty archive is made. *)
Lemma ex_c63_dir : exists out, se_run se_tree se_wr 9 (b "tool") (Some (b "TOOL")) = Ok (SeBuild (CRet 0) out) /\
  se_name_dir (b "tool") = (b "tool", b "tool") /\ se_ls se_tree (b "tool") = None /\
  unpacks rle_zlib (dropN (max_exe true) out) [].
Proof.
  eexists. split; [unfold se_run; eapply se_main_builds; [vm_compute; discriminate|reflexivity|reflexivity|reflexivity|vm_compute; reflexivity|vm_compute; reflexivity|discriminate]|].
  split; [reflexivity|]. split; [reflexivity|].
  rewrite app_assoc. rewrite dropN_app_exact by (rewrite lenN_app, lenN_zeros; vm_compute; reflexivity).
  match goal with |- unpacks _ (cev_bytes ?c) _ => set (cevs := c) end.
  edestruct (dir_unpacks rle_zlib rle_contract LE (se_filter (b "tool")) (ax_jk x11) ax_hj ax_xjk ax_hjunk ax_al 3 Z_BEST_COMPRESSION 1 None (true, true) cevs)
      as (recs & f1 & t & T & U); [apply ax_junk|apply Forall_nil|apply Forall_nil|apply ax_not_full; vm_compute; reflexivity|vm_compute; reflexivity|].
  cbn [listing] in T. inversion T; subst. exact U.
Qed.

(** Nothing can be written after the executable: the tool still returns 0. *)
Definition se_full (k n : N) : N := if k <? 2 then n else 0.
Lemma ex_c66 : se_run se_tree se_full 9 (b "./tool") (Some (b "TOOL")) = Ok (SeBuild (CRet 0) (b "TOOL")) /\
  dropN (max_exe true) (b "TOOL") = [].
Proof. split; vm_compute; reflexivity. Qed.

(** fread fails: the copy loop never ends. *)
Lemma se_copy_stuck wr : forall fuel k n rest w, rest <> [] -> se_copy (fun _ _ => 0) wr fuel k n rest w = NoFuel.
Proof.
  induction fuel as [|fuel IH]; intros k n rest w H; [reflexivity|]. cbn [se_copy].
  destruct rest as [|x r]; [now elim H|]. rewrite N.min_0_r. cbn [N.ltb N.compare]. now apply IH.
Qed.

(** ** compressdir *)
Definition cd_ls (d : bytes) : option (list (bytes * snode)) := if bytes_eqb d (b "dir") then Some ax_tree else None.
Definition cd_run room args :=
  cd_main rle_zlib LE (ax_jk x11) ax_hj ax_xjk ax_hjunk ax_al (fun _ => true) cd_ls room 9 3 args.

(** With -cf nothing is archived. *)
Lemma ex_c64 : cd_run 10000 (map b ["-of"; "out"; "-cf"; "conf"]%string) = Ok (CRet 0, Some (b "out", [])).
Proof. vm_compute. reflexivity. Qed.

(** The disk is full. *)
Lemma ex_c64_full : exists data, cd_run 6 (map b ["-of"; "out"; "-if"; "dir"]%string) = Ok (CRet 0, Some (b "out", data)) /\
  cd_ls (b "dir") = Some ax_tree /\ Forall (fun x => quiet (snd x)) ax_tree /\ ~ unpacks rle_zlib data (preorder ax_tree).
Proof.
  eexists. split; [vm_compute; reflexivity|]. split; [reflexivity|]. split; [exact ax_quiet|].
  intro U. eapply unpacks_run in U; [|vm_compute; reflexivity|vm_compute; reflexivity|vm_compute; reflexivity].
  destruct U as [[E _]|(evs' & E & S)]; vm_compute in E; discriminate.
Qed.

(** The folder does not exist. *)
Lemma ex_c64_none : exists data, cd_run 10000 (map b ["-of"; "out"; "-if"; "nodir"]%string) = Ok (CRet 0, Some (b "out", data)) /\
  cd_ls (b "nodir") = None /\ data <> [].
Proof. eexists. split; [vm_compute; reflexivity|]. split; [reflexivity|discriminate]. Qed.

Lemma ex_c64_partial : exists data cevs ws wx led,
  cd_run 10000 (map b ["-of"; "out"; "-if"; "dir"]%string) = Ok (CRet 0, Some (b "out", data)) /\
  compress_dir rle_zlib LE cd_filter (ax_jk x11) ax_hj ax_xjk ax_hjunk ax_al 3 Z_BEST_COMPRESSION 1 false [] (cd_ls (b "dir")) tt
    = Ok (CRet 0, cevs, ws, wx, led) /\
  cd_ls (b "dir") = Some ax_tree /\ tree_fits (Some ax_tree) /\ Forall (fun x => quiet (snd x)) ax_tree /\
  last_not_full cevs /\ lenN (cev_bytes cevs) <= 10000 /\
  cd_run 10000 (map b ["x"; "-h"]%string) = Ok (CRet 0, None) /\
  cd_run 10000 (map b ["-if"; "dir"]%string) = Ok (CRet 1, None).
Proof.
  eexists _, _, _, _, _. split; [vm_compute; reflexivity|]. split; [vm_compute; reflexivity|].
  split; [reflexivity|]. split; [exact ax_fits|]. split; [exact ax_quiet|].
  split; [apply ax_not_full; vm_compute; reflexivity|]. split; [vm_compute; discriminate|].
  split; vm_compute; reflexivity.
Qed.

Lemma ex_c65 : exists o f, forall z e jk hj xjk hjunk al opn ls room pfuel fuel, (2 <= pfuel)%nat ->
  cd_main z e jk hj xjk hjunk al opn ls room pfuel fuel [b "-of"; o; f] = UB.
Proof.
  exists (b "out"), (b "folder"). intros. apply cd_folder_last; [assumption|reflexivity|vm_compute; reflexivity|vm_compute; discriminate].
Qed.
Lemma ex_c65_last : starts_dash (b "out") = false /\ pr_map cd_prs (b "folder") = None /\ 3 <= lenN (b "folder").
Proof. split; [reflexivity|]. split; [vm_compute; reflexivity|vm_compute; discriminate]. Qed.
Lemma ex_c65_partial : starts_dash (b "out") = false /\ pr_map cd_prs (b "dir") = None /\
  exists data, data <> [] /\ cd_run 10000 [b "dir"; b "-of"; b "out"] = Ok (CRet 0, Some (b "out", data)).
Proof.
  split; [reflexivity|]. split; [vm_compute; reflexivity|]. eexists. split; [|vm_compute; reflexivity]. discriminate.
Qed.

Lemma se_stuck z e jk hj xjk hjunk al ls wr ndebug cfuel fuel argv0 exe : exe <> [] -> lenN exe <= max_exe ndebug ->
  se_main z e jk hj xjk hjunk al ls (fun _ _ => 0) wr (fun _ => true) ndebug cfuel fuel argv0 (Some exe) = NoFuel.
Proof.
  intros Hn Hl. unfold se_main. destruct (max_exe ndebug <? lenN exe) eqn:E; [lia|]. destruct (se_name_dir argv0) as [name dir].
  cbn [negb]. rewrite se_copy_stuck by exact Hn. reflexivity.
Qed.
Lemma ex_c67_refuted : b "TOOL" <> [] /\ lenN (b "TOOL") <= max_exe false.
Proof. split; discriminate. Qed.
Lemma ex_c67 : (forall k n, 0 < n -> 0 < se_rd k n) /\
  exists w, se_copy se_rd se_wr 9 0 0 (b "executable") (WF [] 0) = Ok (w, 4) /\ wf_data w = b "executable".
Proof. split; [intros; reflexivity|]. eexists. split; vm_compute; reflexivity. Qed.
