(** Properties_WinCd.v: C139 (compressdir on Windows).  Notions used in the statements:
    - [wcd_main ... opn ls locked room ... args] (WinCd.v): the program with the arguments [args]; [opn], [ls], [room]: as for [cd_main] in
      Properties_Tools.v; [locked out dir p]: the file [p] of the folder [dir] is open elsewhere, or is the file [out] which the program has opened for writing;
      result: the status, and name and contents of the output file;
    - [unpacks z data rs]: decoding [data] shows the entries [rs] (Properties_Tools.v); [preorder]: entries of a listing;
      [unlinked_all es]: without its links (C135); [file_at p es]: the listing [es] has a file at [p]. *)
From Coq Require Import Strings.String.
From Verif Require Import Base Format Zlib RleZlib LLCompress Compress Parser ParserProofs ParserFacts Decompress DecompressProofs
  DecompressFacts MidProofs MidFacts DecompressExamples ArchiveSpec ArchiveFacts ArchiveDecode ArchiveEntry ArchiveProps ArchiveExamples
  FS FSFacts HL HLSpec HLFacts HLDrive HLProps HLSafe MkdirFacts HLTame HLMkdir HLMore HLExamples WinArchive WinArchiveSpec WinArchiveFacts WinArchiveProps WinCopy
  WinTools WinExtract WinExtractSpec WinExtractFacts WinExtractTame WinExtractExamples WinArchiveExamples
  ArgParser ArgSpec ArgFacts ArgMore ArgExamples Tools ToolsSpec ToolsFacts ToolsMore ToolsExamples WinCd WinCdSpec WinCdFacts WinCdExamples.

(** C139: false.  A link of the folder is left out, and the status is 0. *)
Theorem C139_windows_compressdir_refuted : exists data,
  wcd_run (map list_byte_of_string ["-of"; "out"; "-if"; "dir"]%string) = Ok (CRet 0, Some (list_byte_of_string "out", data)) /\
  wcd_ls (list_byte_of_string "dir") = Some wx_tree /\ Forall (fun x => quiet (snd x)) wx_tree /\ ~ unpacks rle_zlib data (preorder wx_tree).
Proof. exact ex_c139_link. Qed.
Print Assumptions C139_windows_compressdir_refuted.
(** What remains of C139: the status 0 means that help was requested; or that only a configuration file was given and the output is empty; or
    that the output holds what could be written of the archive of the requested folder without its links, and that no file of the folder is in use:
    in particular the output does not lie in the folder. *)
Theorem C139_windows_compressdir_partial : forall z (C : zlib_contract z) e jk xjk hjunk al opn ls locked room pfuel fuel args file,
  junk_ok jk (fun _ n => zeros n) xjk hjunk ->
  wcd_main z e jk xjk hjunk al opn ls locked room pfuel fuel args = Ok (CRet 0, file) ->
  exists p s, run_aops cd_options prs_new = Ok p /\ parse_args pfuel args p = Ok s /\
  let given o := value_right (list_byte_of_string o) (ps_prs s) in
  ((exists v, given "-h"%string = Ok (Some v)) /\ file = None) \/
  exists out data, given "-of"%string = Ok (Some out) /\ opn out = true /\ file = Some (out, data) /\
    ((given "-if"%string = Ok None /\ (exists v, given "-cf"%string = Ok (Some v)) /\ ps_argc s = 0 /\ data = []) \/
     exists dir cevs,
       (given "-if"%string = Ok (Some dir) \/
        given "-if"%string = Ok None /\ 0 < ps_argc s /\ arg_at 0 (ps_cells s) = Ok dir) /\
       data = takeN room (cev_bytes cevs) /\
       forall es, ls dir = Some es -> tree_fits (Some es) ->
         (forall p, file_at p es -> locked out dir p = false) /\
         (Forall (fun x => quiet (snd x)) es -> last_not_full cevs -> lenN (cev_bytes cevs) <= room -> unpacks z data (preorder (unlinked_all es)))).
Proof. exact wcd_status. Qed.
Print Assumptions C139_windows_compressdir_partial.
Example C139_case : exists data cevs ws wx led,
  wcd_run (map list_byte_of_string ["-of"; "out"; "-if"; "dir"]%string) = Ok (CRet 0, Some (list_byte_of_string "out", data)) /\
  wcompress_dir rle_zlib LE cd_filter (ax_jk x11) ax_xjk ax_hjunk ax_al (wcd_locked (list_byte_of_string "out") (list_byte_of_string "dir")) 3
    Z_BEST_COMPRESSION 1 false [] (wcd_ls (list_byte_of_string "dir")) tt = Ok (CRet 0, cevs, ws, wx, led) /\
  wcd_ls (list_byte_of_string "dir") = Some wx_tree /\ tree_fits (Some wx_tree) /\ Forall (fun x => quiet (snd x)) wx_tree /\
  last_not_full cevs /\ lenN (cev_bytes cevs) <= 10000 /\
  file_at [list_byte_of_string "D"; list_byte_of_string "b.TXT"] wx_tree /\
  wcd_locked (list_byte_of_string "dir/D/b.TXT") (list_byte_of_string "dir") [list_byte_of_string "D"; list_byte_of_string "b.TXT"] = true /\
  exists rest, wcd_run (map list_byte_of_string ["-of"; "dir/D/b.TXT"; "-if"; "dir"]%string) = Ok (CRet 2, Some (list_byte_of_string "dir/D/b.TXT", rest)).
Proof. exact ex_c139. Qed.
