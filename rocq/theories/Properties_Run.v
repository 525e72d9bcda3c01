(** Properties_Run.v: properties C68 to C73 (running a self extracting file, extracting what compressdir wrote).

    Notions used: [se_go ... inp o]: the executable, followed by the bytes [inp], is run in state [o]; its result [r] has the
    exit status [sr_ret r], the programs started with the state of the file system at that time [sr_started r], the final
    state [sr_os r].  [start k p o]: what starting program [p] does (anything): [None] if it cannot be started, else its exit
    status.  [remove]: what removing .out_dir does (anything).  [without_own], [below_free]: as for C63; [calm], [extractable],
    [free_spot], [overlay], [dir_tree], [room_left]: as for C39; [archive_of]: as for C17. *)
From Coq Require Import Strings.String.
From Verif Require Import Base Format Zlib RleZlib LLCompress Compress Parser ParserProofs ParserFacts Decompress DecompressProofs
  DecompressFacts MidProofs MidFacts DecompressExamples ArchiveSpec ArchiveFacts ArchiveDecode ArchiveEntry ArchiveProps ArchiveExamples
  FS FSFacts HL HLSpec HLFacts HLDrive HLProps HLSafe MkdirFacts HLTame HLMkdir HLMore HLExamples
  ArgParser ArgSpec ArgFacts ArgMore ArgExamples Tools ToolsSpec ToolsFacts ToolsMore ToolsExamples SelfRun SelfRunFacts SelfRunExamples.

(** C68: false.  In a directory with nothing but the tool nothing is packed; running the file creates no .out_dir and starts nothing. *)
Theorem C68_self_extraction_refuted : exists out r,
  se_run gx_alone se_wr 9 (list_byte_of_string "./tool") (Some (list_byte_of_string "TOOL")) = Ok (SeBuild (CRet 0) out) /\
  without_own (list_byte_of_string "tool") gx_alone = [] /\ free_spot (gx_remove (hx_os 1000)) (list_byte_of_string ".out_dir") [[x77]; (list_byte_of_string ".out_dir")] /\
  gx_go (Some 0%Z) (Some 0%Z) (dropN (max_exe true) out) (hx_os 1000) = Ok r /\ sr_started r = [] /\
  o_fs (sr_os r) [[x77]; (list_byte_of_string ".out_dir")] = None.
Proof. exact ex_c68_empty. Qed.
Print Assumptions C68_self_extraction_refuted.

(** What remains of C68: at least one file is packed, none in a subdirectory has one of the two names (C63), the files can be
    created at .out_dir (C39), the last steps of zlib did not fill their buffers (C06, C13). *)
Theorem C68_self_extraction_partial : forall z (C : zlib_contract z) e jk hj xjk hjunk al ls rd wr opn ndebug cfuel fuel argv0 exe out es hal stk e' alloc al' obuf hjunk' pjunk remove start o t efuel,
  lenN exe <= max_exe ndebug -> (forall k n, wr k n = n) ->
  se_main z e jk hj xjk hjunk al ls rd wr opn ndebug cfuel fuel argv0 (Some exe) = Ok (SeBuild (CRet 0) out) ->
  ls (snd (se_name_dir argv0)) = Some es -> junk_ok jk hj xjk hjunk -> tree_fits (Some es) -> Forall (fun x => quiet (snd x)) es ->
  NoDup (map fst es) -> Forall (fun x => below_free (fst (se_name_dir argv0)) (snd x)) es -> Forall (fun x => below_free se_out (snd x)) es ->
  let packed := without_own (fst (se_name_dir argv0)) es in let o1 := remove o in
  calm z hal al' stk obuf hjunk' pjunk -> (forall k n, alloc k n = true) -> (length (dropN (max_exe ndebug) out) < efuel)%nat -> preorder packed <> [] ->
  Forall (fun x => extractable (o_priv o1) (o_umask o1) (lenN (list_byte_of_string ".out_dir")) (fst x) (snd x)) packed ->
  free_spot o1 (list_byte_of_string ".out_dir") t -> usable_dir (o_priv o1) (o_umask o1) MODE_BASE_DIR -> (forall r, o_fs o1 (t ++ r) = None) ->
  volume (preorder packed) <= o_free o1 ->
  exists cevs, dropN (max_exe ndebug) out = cev_bytes cevs /\ (last_not_full cevs ->
    (forall cfuel' fuel' argv0', se_main z e jk hj xjk hjunk al ls rd wr opn ndebug cfuel' fuel' argv0' (Some out) =
       Ok (SeRun (cev_bytes cevs))) /\
    exists dfuel0, forall dfuel, (dfuel0 <= dfuel)%nat -> exists r s,
      se_go hal stk z e' alloc efuel dfuel al' obuf hjunk' pjunk true remove start (cev_bytes cevs) o = Ok r /\ sr_sess r = Some s /\
      (room_left s -> exists o2 more, sr_started r = (list_byte_of_string ".out_dir/maind.exe", o2) :: more /\ same_env o1 o2 /\
         forall q, o_fs o2 q = overlay t (dir_tree (o_umask o1) packed) (o_fs o1) q)).
Proof. exact self_round_trip. Qed.
Print Assumptions C68_self_extraction_partial.
Example C68_case : exists out cevs r s,
  se_run se_tree se_wr 9 (list_byte_of_string "./tool") (Some (list_byte_of_string "TOOL")) = Ok (SeBuild (CRet 0) out) /\
  dropN (max_exe true) out = cev_bytes cevs /\ last_not_full cevs /\
  calm rle_zlib hx_hal ax_al hx_stk (zeros DEF_CHUNK_SIZE) ax_hjunk ex_pj /\ (length (dropN (max_exe true) out) < 4000)%nat /\
  preorder (without_own (list_byte_of_string "tool") se_tree) <> [] /\
  Forall (fun x => extractable false 18 (lenN (list_byte_of_string ".out_dir")) (fst x) (snd x)) (without_own (list_byte_of_string "tool") se_tree) /\
  free_spot (gx_remove (hx_os 1000)) (list_byte_of_string ".out_dir") [[x77]; (list_byte_of_string ".out_dir")] /\ (forall r, o_fs (gx_remove (hx_os 1000)) ([[x77]; (list_byte_of_string ".out_dir")] ++ r) = None) /\
  volume (preorder (without_own (list_byte_of_string "tool") se_tree)) = 3 /\
  gx_go (Some 0%Z) None (cev_bytes cevs) (hx_os 1000) = Ok r /\ sr_sess r = Some s /\ room_left s /\
  exists o2, sr_started r = [(list_byte_of_string ".out_dir/maind.exe", o2)] /\
    o_fs o2 [[x77]; (list_byte_of_string ".out_dir"); list_byte_of_string "sub"; list_byte_of_string "a"] = Some (IFile 420 (list_byte_of_string "xyz")) /\ o_fs o2 [[x77]; (list_byte_of_string ".out_dir"); list_byte_of_string "tool"] = None.
Proof. exact ex_c68. Qed.

(** C69: false.  Both programs end with status 3, the run with 0. *)
Theorem C69_exit_status_refuted : exists r, gx_go (Some 3%Z) (Some 3%Z) (se_arch se_tree) (hx_os 1000) = Ok r /\
  map fst (sr_started r) = [list_byte_of_string ".out_dir/maind.exe"; list_byte_of_string ".out_dir/main.exe"] /\ sr_ret r = 0%Z.
Proof. exact ex_c69. Qed.
Print Assumptions C69_exit_status_refuted.

(** C69: false also if no program can be started. *)
Theorem C69_not_started_refuted : exists r, gx_go None None (se_arch se_tree) (hx_os 1000) = Ok r /\ sr_ret r = 0%Z.
Proof. exact ex_c69_none. Qed.
Print Assumptions C69_not_started_refuted.

(** What remains of C69: the status tells whether the archive was found to be one of a directory, that is, whether starting a
    program was tried. *)
Theorem C69_exit_status_partial : forall z hal stk e alloc fuel dfuel al obuf hjunk pjunk dup remove start inp o r,
  se_go hal stk z e alloc fuel dfuel al obuf hjunk pjunk dup remove start inp o = Ok r ->
  (sr_ret r = 0%Z /\ sr_started r <> []) \/ (sr_ret r = 1%Z /\ sr_started r = []).
Proof. exact self_status. Qed.
Print Assumptions C69_exit_status_partial.
Example C69_case : exists r, gx_go (Some 0%Z) None [] (hx_os 1000) = Ok r /\ sr_ret r = 1%Z /\ sr_started r = [].
Proof. exact ex_c69_fails. Qed.

(** C70: false.  maind.exe was started and ended with 3. *)
Theorem C70_one_program_refuted : exists r, gx_go (Some 3%Z) (Some 0%Z) (se_arch se_tree) (hx_os 1000) = Ok r /\
  map fst (sr_started r) = [list_byte_of_string ".out_dir/maind.exe"; list_byte_of_string ".out_dir/main.exe"].
Proof. exact ex_c70. Qed.
Print Assumptions C70_one_program_refuted.

(** What remains of C70 and C71: main.exe is started in the state that maind.exe left if that could not be started or ended with
    a status other than 0; .out_dir is removed if maind.exe ended with 0. *)
Theorem C70_programs_partial : forall z hal stk e alloc fuel dfuel al obuf hjunk pjunk dup remove start inp o r,
  se_go hal stk z e alloc fuel dfuel al obuf hjunk pjunk dup remove start inp o = Ok r ->
  sr_started r = [] \/
  exists o2, let '(c1, o3) := start 0 (list_byte_of_string ".out_dir/maind.exe") o2 in
    (c1 = Some 0%Z /\ sr_started r = [(list_byte_of_string ".out_dir/maind.exe", o2)] /\ sr_os r = remove o3) \/
    (c1 <> Some 0%Z /\ sr_started r = [(list_byte_of_string ".out_dir/maind.exe", o2); (list_byte_of_string ".out_dir/main.exe", o3)] /\
     sr_os r = snd (start 1 (list_byte_of_string ".out_dir/main.exe") o3)).
Proof. exact self_programs. Qed.
Print Assumptions C70_programs_partial.
Example C70_case : exists r, gx_go (Some 0%Z) (Some 0%Z) (se_arch se_tree) (hx_os 1000) = Ok r /\
  map fst (sr_started r) = [list_byte_of_string ".out_dir/maind.exe"].
Proof. exact ex_c70_partial. Qed.

(** C71: false.  main.exe ended with 0 and the unpacked files are still there. *)
Theorem C71_removed_refuted : exists r, gx_go None (Some 0%Z) (se_arch se_tree) (hx_os 1000) = Ok r /\
  map fst (sr_started r) = [list_byte_of_string ".out_dir/maind.exe"; list_byte_of_string ".out_dir/main.exe"] /\
  o_fs (sr_os r) [[x77]; (list_byte_of_string ".out_dir"); list_byte_of_string "sub"; list_byte_of_string "a"] = Some (IFile 420 (list_byte_of_string "xyz")).
Proof. exact ex_c71. Qed.
Print Assumptions C71_removed_refuted.

(** What remains of C71: .out_dir is removed if maind.exe ended with 0. *)
Theorem C71_removed_partial : forall z hal stk e alloc fuel dfuel al obuf hjunk pjunk dup remove start inp o r,
  se_go hal stk z e alloc fuel dfuel al obuf hjunk pjunk dup remove start inp o = Ok r ->
  sr_started r = [] \/
  exists o2, let '(c1, o3) := start 0 (list_byte_of_string ".out_dir/maind.exe") o2 in
    (c1 = Some 0%Z /\ sr_started r = [(list_byte_of_string ".out_dir/maind.exe", o2)] /\ sr_os r = remove o3) \/
    (c1 <> Some 0%Z /\ sr_started r = [(list_byte_of_string ".out_dir/maind.exe", o2); (list_byte_of_string ".out_dir/main.exe", o3)] /\
     sr_os r = snd (start 1 (list_byte_of_string ".out_dir/main.exe") o3)).
Proof. exact self_programs. Qed.
Print Assumptions C71_removed_partial.
Example C71_case : exists r, gx_go (Some 0%Z) None (se_arch se_tree) (hx_os 1000) = Ok r /\
  map fst (sr_started r) = [list_byte_of_string ".out_dir/maind.exe"] /\ o_fs (sr_os r) [[x77]; (list_byte_of_string ".out_dir"); list_byte_of_string "sub"; list_byte_of_string "a"] = None.
Proof. exact ex_c71_partial. Qed.

(** C72: false.  The last 28 bytes of the executable are missing; a program is started before the only file was created. *)
Theorem C72_complete_before_start_refuted : exists r n o more, lenN (rx_arch (rx_file [x78] [x31;x32;x33] 420)) = 368 /\
  gx_go (Some 0%Z) None (takeN 340 (rx_arch (rx_file [x78] [x31;x32;x33] 420))) (hx_os 1000) = Ok r /\
  sr_started r = (n, o) :: more /\ o_fs o [[x77]; (list_byte_of_string ".out_dir"); [x78]] = None /\ sr_ret r = 0%Z.
Proof. exact ex_c72. Qed.
Print Assumptions C72_complete_before_start_refuted.

(** What remains of C72: a program is only started if the archive is one of a directory. *)
Theorem C72_complete_before_start_partial : forall z (C : zlib_contract z) hal stk e alloc fuel dfuel al obuf hjunk pjunk dup remove start inp o r,
  calm z hal al stk obuf hjunk pjunk -> supported z C inp ->
  se_go hal stk z e alloc fuel dfuel al obuf hjunk pjunk dup remove start inp o = Ok r -> sr_started r <> [] ->
  archive_of ContentDirectory (zc_dec C inp).
Proof. exact self_started_type. Qed.
Print Assumptions C72_complete_before_start_partial.
Example C72_case : exists r, calm rle_zlib hx_hal ax_al hx_stk (zeros DEF_CHUNK_SIZE) ax_hjunk ex_pj /\
  supported rle_zlib rle_contract (se_arch se_tree) /\ gx_go (Some 0%Z) None (se_arch se_tree) (hx_os 1000) = Ok r /\ sr_started r <> [].
Proof. exact ex_c72_partial. Qed.

(** C73: false.  compressdir archives an empty folder and returns 0; extracting the archive creates nothing. *)
Theorem C73_compressdir_round_trip_refuted : exists data ret o',
  cd_main rle_zlib LE (ax_jk x11) ax_hj ax_xjk ax_hjunk ax_al (fun _ => true) (fun _ => Some []) 10000 9 3 (map list_byte_of_string ["-of"; "out"; "-if"; "dir"]%string)
    = Ok (CRet 0, Some (list_byte_of_string "out", data)) /\ data <> [] /\
  free_spot (hx_os 1000) [x6f] [[x77]; [x6f]] /\
  did (hx_extract [x6f] 0 data (hx_os 1000)) ret o' /\ ret = ContentNone /\ o_fs o' [[x77]; [x6f]] = None.
Proof. exact ex_c73_empty. Qed.
Print Assumptions C73_compressdir_round_trip_refuted.

(** What remains of C73, with the conditions of C39; the output was not cut by a full disk (C64). *)
Theorem C73_compressdir_round_trip_partial : forall z (C : zlib_contract z) e jk hj xjk hjunk al opn ls room pfuel fuel args out data,
  junk_ok jk hj xjk hjunk ->
  cd_main z e jk hj xjk hjunk al opn ls room pfuel fuel args = Ok (CRet 0, Some (out, data)) -> data <> [] ->
  exists p s dir cevs, run_aops cd_options prs_new = Ok p /\ parse_args pfuel args p = Ok s /\
    (value_right (list_byte_of_string "-if") (ps_prs s) = Ok (Some dir) \/
     value_right (list_byte_of_string "-if") (ps_prs s) = Ok None /\ 0 < ps_argc s /\ arg_at 0 (ps_cells s) = Ok dir) /\
    data = takeN room (cev_bytes cevs) /\
    forall es e' alloc hal al' stk obuf hjunk' pjunk T t o efuel,
      ls dir = Some es -> tree_fits (Some es) -> last_not_full cevs -> lenN data < room ->
      (length data < efuel)%nat -> calm z hal al' stk obuf hjunk' pjunk ->
      (forall k n, alloc k n = true) -> preorder es <> [] -> Forall (fun x => quiet (snd x)) es -> NoDup (map fst es) ->
      Forall (fun x => extractable (o_priv o) (o_umask o) (lenN T) (fst x) (snd x)) es ->
      free_spot o T t -> usable_dir (o_priv o) (o_umask o) MODE_BASE_DIR -> (forall r, o_fs o (t ++ r) = None) ->
      volume (preorder es) <= o_free o ->
      exists dfuel0, forall dfuel, (dfuel0 <= dfuel)%nat -> exists ret s h ds o',
        exec (extract T hal stk z e' alloc 0 efuel dfuel al' obuf hjunk' pjunk data false) o = Ok ((ret, Some (s, h, ds)), o') /\
        (room_left s -> ret = ContentDirectory /\ same_env o o' /\ forall q, o_fs o' q = overlay t (dir_tree (o_umask o) es) (o_fs o) q).
Proof. exact cd_round_trip. Qed.
Print Assumptions C73_compressdir_round_trip_partial.
Example C73_case : exists data cevs ws wx led ret o',
  junk_ok (ax_jk x11) ax_hj ax_xjk ax_hjunk /\
  gx_cd 10000 (map list_byte_of_string ["-of"; "out"; "-if"; "dir"]%string) = Ok (CRet 0, Some (list_byte_of_string "out", data)) /\ data <> [] /\
  compress_dir rle_zlib LE cd_filter (ax_jk x11) ax_hj ax_xjk ax_hjunk ax_al 3 Z_BEST_COMPRESSION 1 false [] (gx_ls (list_byte_of_string "dir")) tt
    = Ok (CRet 0, cevs, ws, wx, led) /\ data = cev_bytes cevs /\ last_not_full cevs /\ lenN data < 10000 /\ (length data < 4000)%nat /\
  gx_ls (list_byte_of_string "dir") = Some hx_tree /\ tree_fits (Some hx_tree) /\
  calm rle_zlib hx_hal ax_al hx_stk (zeros DEF_CHUNK_SIZE) ax_hjunk ex_pj /\
  preorder hx_tree <> [] /\ Forall (fun x => quiet (snd x)) hx_tree /\ NoDup (map fst hx_tree) /\
  Forall (fun x => extractable false 18 1 (fst x) (snd x)) hx_tree /\ free_spot (hx_os 1000) [x6f] [[x77]; [x6f]] /\
  usable_dir false 18 MODE_BASE_DIR /\ (forall r, o_fs (hx_os 1000) ([[x77]; [x6f]] ++ r) = None) /\ volume (preorder hx_tree) = 4 /\
  did_all (hx_extract [x6f] 0 data (hx_os 1000)) ret o' /\
  o_fs o' [[x77]; [x6f]; [x64]; [x61;x62;x63]] = Some (IFile 420 [x31;x32;x33]).
Proof. exact ex_c73. Qed.
