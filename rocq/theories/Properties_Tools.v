(** Properties_Tools.v: properties C62 to C67 (self extract tool, compressdir).

    Notions used (ToolsSpec.v): [unpacks z content rs]: decoding the bytes [content], given in any
    pieces, presents the records [rs]; [without_own exe es]: the entries of a directory without the
    executable and the output file; [below_free nm nd]: no file below [nd] has the name [nm].
    [preorder], [quiet], [tree_fits], [last_not_full]: as for C29.  [wr k n = n]: every write stores
    everything; [rd]: what each fread delivers (anything). *)
From Coq Require Import Strings.String.
From Verif Require Import Base Format Zlib RleZlib LLCompress Compress ArchiveSpec ArchiveFacts ArchiveEntry ArchiveExamples
  ArgParser ArgSpec ArgExamples Tools ToolsSpec ToolsFacts ToolsMore ToolsExamples ToolsCut.

(** C62. *)
Theorem C62_layout : forall z (C : zlib_contract z) e jk hj xjk hjunk al ls rd wr opn ndebug cfuel fuel argv0 exe out,
  lenN exe <= max_exe ndebug -> (forall k n, wr k n = n) ->
  se_main z e jk hj xjk hjunk al ls rd wr opn ndebug cfuel fuel argv0 (Some exe) = Ok (SeBuild (CRet 0) out) ->
  exists cevs ws wx led,
    compress_dir z e (se_filter (fst (se_name_dir argv0))) jk hj xjk hjunk al fuel Z_BEST_COMPRESSION 1 false []
      (ls (snd (se_name_dir argv0))) (true, true) = Ok (CRet 0, cevs, ws, wx, led) /\
    prefix exe out /\ dropN (max_exe ndebug) out = cev_bytes cevs /\
    (junk_ok jk hj xjk hjunk -> tree_fits (ls (snd (se_name_dir argv0))) -> last_not_full cevs ->
     forall cfuel' fuel' argv0',
       se_main z e jk hj xjk hjunk al ls rd wr opn ndebug cfuel' fuel' argv0' (Some out) = Ok (SeRun (cev_bytes cevs))).
Proof. exact se_layout. Qed.
Print Assumptions C62_layout.
Example C62_case : exists out cevs ws wx led,
  compress_dir rle_zlib LE (se_filter (list_byte_of_string "tool")) (ax_jk x11) ax_hj ax_xjk ax_hjunk ax_al 3 Z_BEST_COMPRESSION 1
    false [] (Some se_tree) (true, true) = Ok (CRet 0, cevs, ws, wx, led) /\
  lenN (list_byte_of_string "TOOL") <= max_exe true /\ (forall k n, se_wr k n = n) /\
  se_run se_tree se_wr 9 (list_byte_of_string "./tool") (Some (list_byte_of_string "TOOL")) = Ok (SeBuild (CRet 0) out) /\
  524288 < lenN out /\
  junk_ok (ax_jk x11) ax_hj ax_xjk ax_hjunk /\ tree_fits (Some se_tree) /\ last_not_full cevs.
Proof. exact ex_c62. Qed.

(** C63: false.  A file sub/__out.exe that is found before the output file is left out instead of it. *)
Theorem C63_refuted : exists out,
  se_run se_tree2 se_wr 9 (list_byte_of_string "./tool") (Some (list_byte_of_string "TOOL")) = Ok (SeBuild (CRet 0) out) /\
  Forall (fun x => quiet (snd x)) se_tree2 /\ tree_fits (Some se_tree2) /\ NoDup (map fst se_tree2) /\
  preorder (without_own (list_byte_of_string "tool") se_tree2) =
    [ADir (list_byte_of_string "sub") 493; AFile (list_byte_of_string "__out.exe") 420 3 (list_byte_of_string "xyz"); AEnd] /\
  ~ unpacks rle_zlib (dropN (max_exe true) out) (preorder (without_own (list_byte_of_string "tool") se_tree2)) /\
  unpacks rle_zlib (dropN (max_exe true) out)
    [ADir (list_byte_of_string "sub") 493; AEnd; AFile (list_byte_of_string "__out.exe") 420 2 (list_byte_of_string "TO")].
Proof. exact ex_c63. Qed.
Print Assumptions C63_refuted.

(** C63: false also if the tool is called without a directory in its path: nothing is packed. *)
Theorem C63_no_directory_refuted : exists out,
  se_run se_tree se_wr 9 (list_byte_of_string "tool") (Some (list_byte_of_string "TOOL")) = Ok (SeBuild (CRet 0) out) /\
  se_name_dir (list_byte_of_string "tool") = (list_byte_of_string "tool", list_byte_of_string "tool") /\
  se_ls se_tree (list_byte_of_string "tool") = None /\ unpacks rle_zlib (dropN (max_exe true) out) [].
Proof. exact ex_c63_dir. Qed.
Print Assumptions C63_no_directory_refuted.

(** What remains of C63: if no file in a subdirectory has one of the two names. *)
Theorem C63_partial : forall z (C : zlib_contract z) e jk hj xjk hjunk al ls rd wr opn ndebug cfuel fuel argv0 exe out es,
  lenN exe <= max_exe ndebug -> (forall k n, wr k n = n) ->
  se_main z e jk hj xjk hjunk al ls rd wr opn ndebug cfuel fuel argv0 (Some exe) = Ok (SeBuild (CRet 0) out) ->
  let '(name, dir) := se_name_dir argv0 in
  ls dir = Some es -> junk_ok jk hj xjk hjunk -> tree_fits (Some es) -> Forall (fun x => quiet (snd x)) es ->
  NoDup (map fst es) -> Forall (fun x => below_free name (snd x)) es -> Forall (fun x => below_free se_out (snd x)) es ->
  exists cevs, dropN (max_exe ndebug) out = cev_bytes cevs /\
    (last_not_full cevs -> unpacks z (dropN (max_exe ndebug) out) (preorder (without_own name es))).
Proof. exact se_packs. Qed.
Print Assumptions C63_partial.
Example C63_case : exists out,
  se_run se_tree se_wr 9 (list_byte_of_string "./tool") (Some (list_byte_of_string "TOOL")) = Ok (SeBuild (CRet 0) out) /\
  se_name_dir (list_byte_of_string "./tool") = (list_byte_of_string "tool", list_byte_of_string ".") /\
  se_ls se_tree (list_byte_of_string ".") = Some se_tree /\
  Forall (fun x => quiet (snd x)) se_tree /\ tree_fits (Some se_tree) /\
  NoDup (map fst se_tree) /\ Forall (fun x => below_free (list_byte_of_string "tool") (snd x)) se_tree /\
  Forall (fun x => below_free se_out (snd x)) se_tree /\
  preorder (without_own (list_byte_of_string "tool") se_tree) =
    [ADir (list_byte_of_string "sub") 493; AFile (list_byte_of_string "a") 420 3 (list_byte_of_string "xyz"); AEnd].
Proof. exact ex_c63_partial. Qed.

(** C64: false.  With -cf nothing is archived. *)
Theorem C64_refuted :
  cd_run 10000 (map list_byte_of_string ["-of"; "out"; "-cf"; "conf"]%string) = Ok (CRet 0, Some (list_byte_of_string "out", [])).
Proof. exact ex_c64. Qed.
Print Assumptions C64_refuted.

(** C64: false if the disk is full. *)
Theorem C64_disk_full_refuted : exists data,
  cd_run 6 (map list_byte_of_string ["-of"; "out"; "-if"; "dir"]%string) = Ok (CRet 0, Some (list_byte_of_string "out", data)) /\
  cd_ls (list_byte_of_string "dir") = Some ax_tree /\ Forall (fun x => quiet (snd x)) ax_tree /\
  ~ unpacks rle_zlib data (preorder ax_tree).
Proof. exact ex_c64_full. Qed.
Print Assumptions C64_disk_full_refuted.

(** C64: false if the input folder cannot be opened. *)
Theorem C64_no_folder_refuted : exists data,
  cd_run 10000 (map list_byte_of_string ["-of"; "out"; "-if"; "nodir"]%string) = Ok (CRet 0, Some (list_byte_of_string "out", data)) /\
  cd_ls (list_byte_of_string "nodir") = None /\ data <> [].
Proof. exact ex_c64_none. Qed.
Print Assumptions C64_no_folder_refuted.

(** What remains of C64: help was requested; or only a configuration file was given and the output is
    empty; or the output holds what could be written of the archive of the requested folder. *)
Theorem C64_partial : forall z (C : zlib_contract z) e jk hj xjk hjunk al opn ls room pfuel fuel args file,
  junk_ok jk hj xjk hjunk ->
  cd_main z e jk hj xjk hjunk al opn ls room pfuel fuel args = Ok (CRet 0, file) ->
  exists p s, run_aops cd_options prs_new = Ok p /\ parse_args pfuel args p = Ok s /\
  let given o := value_right (list_byte_of_string o) (ps_prs s) in
  ((exists v, given "-h"%string = Ok (Some v)) /\ file = None) \/
  exists out data, given "-of"%string = Ok (Some out) /\ opn out = true /\ file = Some (out, data) /\
    ((given "-if"%string = Ok None /\ (exists v, given "-cf"%string = Ok (Some v)) /\ ps_argc s = 0 /\ data = []) \/
     exists dir cevs,
       (given "-if"%string = Ok (Some dir) \/
        given "-if"%string = Ok None /\ 0 < ps_argc s /\ arg_at 0 (ps_cells s) = Ok dir) /\
       data = takeN room (cev_bytes cevs) /\
       forall es, ls dir = Some es -> tree_fits (Some es) -> Forall (fun x => quiet (snd x)) es ->
         last_not_full cevs -> lenN (cev_bytes cevs) <= room -> unpacks z data (preorder es)).
Proof. exact cd_status. Qed.
Print Assumptions C64_partial.
Example C64_case : exists data cevs ws wx led,
  cd_run 10000 (map list_byte_of_string ["-of"; "out"; "-if"; "dir"]%string) = Ok (CRet 0, Some (list_byte_of_string "out", data)) /\
  compress_dir rle_zlib LE cd_filter (ax_jk x11) ax_hj ax_xjk ax_hjunk ax_al 3 Z_BEST_COMPRESSION 1 false []
    (cd_ls (list_byte_of_string "dir")) tt = Ok (CRet 0, cevs, ws, wx, led) /\
  cd_ls (list_byte_of_string "dir") = Some ax_tree /\ tree_fits (Some ax_tree) /\ Forall (fun x => quiet (snd x)) ax_tree /\
  last_not_full cevs /\ lenN (cev_bytes cevs) <= 10000 /\
  cd_run 10000 (map list_byte_of_string ["x"; "-h"]%string) = Ok (CRet 0, None) /\
  cd_run 10000 (map list_byte_of_string ["-if"; "dir"]%string) = Ok (CRet 1, None).
Proof. exact ex_c64_partial. Qed.

(** C65: false.  After the output file, every folder name of three or more bytes crashes the program. *)
Theorem C65_refuted : exists o f, forall z e jk hj xjk hjunk al opn ls room pfuel fuel, (2 <= pfuel)%nat ->
  cd_main z e jk hj xjk hjunk al opn ls room pfuel fuel [list_byte_of_string "-of"; o; f] = UB.
Proof. exact ex_c65. Qed.
Print Assumptions C65_refuted.
Theorem C65_folder_last_crashes : forall z e jk hj xjk hjunk al opn ls room pfuel fuel o f, (2 <= pfuel)%nat ->
  starts_dash o = false -> pr_map cd_prs f = None -> 3 <= lenN f ->
  cd_main z e jk hj xjk hjunk al opn ls room pfuel fuel [list_byte_of_string "-of"; o; f] = UB.
Proof. exact cd_folder_last. Qed.
Print Assumptions C65_folder_last_crashes.
Example C65_last_case : starts_dash (list_byte_of_string "out") = false /\ pr_map cd_prs (list_byte_of_string "folder") = None /\
  3 <= lenN (list_byte_of_string "folder").
Proof. exact ex_c65_last. Qed.

(** What remains of C65: the folder is archived if it comes before the other arguments. *)
Theorem C65_partial : forall z e jk hj xjk hjunk al opn ls room pfuel fuel o f, (2 <= pfuel)%nat ->
  starts_dash o = false -> pr_map cd_prs f = None -> f <> [] -> opn o = true ->
  cd_main z e jk hj xjk hjunk al opn ls room pfuel fuel [f; list_byte_of_string "-of"; o] =
  (do (r, data) <- cd_archive z e jk hj xjk hjunk al ls room fuel f; Ok (r, Some (o, data))).
Proof. exact cd_folder_first. Qed.
Print Assumptions C65_partial.
Example C65_case : starts_dash (list_byte_of_string "out") = false /\ pr_map cd_prs (list_byte_of_string "dir") = None /\
  exists data, data <> [] /\
    cd_run 10000 [list_byte_of_string "dir"; list_byte_of_string "-of"; list_byte_of_string "out"] =
      Ok (CRet 0, Some (list_byte_of_string "out", data)).
Proof. exact ex_c65_partial. Qed.

(** C66: false.  Nothing can be written after the executable, and the tool returns 0. *)
Theorem C66_refuted :
  se_run se_tree se_full 9 (list_byte_of_string "./tool") (Some (list_byte_of_string "TOOL")) =
    Ok (SeBuild (CRet 0) (list_byte_of_string "TOOL")) /\
  dropN (max_exe true) (list_byte_of_string "TOOL") = [].
Proof. exact ex_c66. Qed.
Print Assumptions C66_refuted.

(** What remains of C66: on a disk that fills up the status is that of a run with enough space, and the file is the beginning of the file
    written then.  [fills wr]: after a write that did not store everything nothing is stored any more. *)
Theorem C66_partial : forall z e jk hj xjk hjunk al ls rd wr opn ndebug cfuel fuel argv0 exe r out,
  fills wr ->
  se_main z e jk hj xjk hjunk al ls rd wr opn ndebug cfuel fuel argv0 exe = Ok (SeBuild r out) ->
  exists out', se_main z e jk hj xjk hjunk al ls rd (fun _ n => n) opn ndebug cfuel fuel argv0 exe = Ok (SeBuild r out') /\ prefix out out'.
Proof. exact se_full_disk. Qed.
Print Assumptions C66_partial.
Example C66_case : fills se_full /\ se_run se_tree se_full 9 (list_byte_of_string "./tool") (Some (list_byte_of_string "TOOL")) =
    Ok (SeBuild (CRet 0) (list_byte_of_string "TOOL")).
Proof. exact ex_c66_fills. Qed.

(** C67: false.  If fread delivers nothing the tool runs forever. *)
Theorem C67_refuted : forall z e jk hj xjk hjunk al ls wr ndebug cfuel fuel argv0 exe, exe <> [] -> lenN exe <= max_exe ndebug ->
  se_main z e jk hj xjk hjunk al ls (fun _ _ => 0) wr (fun _ => true) ndebug cfuel fuel argv0 (Some exe) = NoFuel.
Proof. exact se_stuck. Qed.
Print Assumptions C67_refuted.
Example C67_refuted_case : list_byte_of_string "TOOL" <> [] /\ lenN (list_byte_of_string "TOOL") <= max_exe false.
Proof. exact ex_c67_refuted. Qed.

(** What remains of C67: if every fread delivers something, copying ends. *)
Theorem C67_partial : forall rd wr, (forall k n, 0 < n -> 0 < rd k n) -> forall fuel k n rest w, (List.length rest < fuel)%nat ->
  exists w' n', se_copy rd wr fuel k n rest w = Ok (w', n').
Proof. exact copy_ends. Qed.
Print Assumptions C67_partial.
Example C67_case : (forall k n, 0 < n -> 0 < se_rd k n) /\
  exists w, se_copy se_rd se_wr 9 0 0 (list_byte_of_string "executable") (WF [] 0) = Ok (w, 4) /\
            wf_data w = list_byte_of_string "executable".
Proof. exact ex_c67. Qed.
