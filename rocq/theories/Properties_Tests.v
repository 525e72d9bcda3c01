(** Properties_Tests.v: properties C92 to C98 (the programs in src/tests).

    Notions used: [hlt_main], [llt_main]: the high and the low level test program; [tt_args argv = Some (f, inp, out)]: the
    option letter, the input and the output name; [tr_ret], [tr_file], [tr_os], [tr_sess]: returned value, file written by a
    compressing option, state of the file system, session of the decompressor.  [archives_with z xs es F]: [F] is an archive
    the library wrote of a folder with the entries [es] and the extra buffers [xs]; [archives_file z data F]: of a file;
    [written]: one of these, depending on the option.  [as_files xs]: the extra buffers as entries; [dir_tree]: what must be
    on disk; [room_left]: the last inflate step did not fill its buffer (C13); [unpacks]: decoding presents the records;
    [e_records]: the records of three files below new directories with mode 0.
    [names_end]: no directory name contains a NUL.
    [rdf], [ls], [opn], [room]: reading the input, listing the folder, opening the output, space on the disk. *)
From Coq Require Import Strings.String.
From Verif Require Import Base Format Zlib RleZlib LLCompress CompressFacts Compress Parser Decompress DecompressProofs DecompressExamples MidProofs MidFacts
  ArchiveSpec ArchiveFacts ArchiveDecode ArchiveEntry ArchiveExamples FS FSFacts HL HLSpec HLFacts HLDrive HLProps HLMore HLExamples ArgParser Tools ToolsSpec
  TestTools TestToolsFacts TestToolsProps TestToolsSafe TestToolsExamples.
Local Notation b := list_byte_of_string.

(** C92: false.  The low level program extracts everything and returns 1. *)
Theorem C92_low_level_status_refuted : exists r, archives_with rle_zlib [] hx_tree (hx_arch hx_tree) /\
  tt_args (map b argv_b) = Some (x62, b "in", [x6f]) /\
  tx_ll [] (hx_arch hx_tree) 0 argv_b (hx_os 1000) = Ok r /\
  (exists s, tr_sess r = Some s /\ room_left s) /\
  o_fs (tr_os r) [[x77]; [x6f]; [x64]; [x61;x62;x63]] = Some (IFile 420 [x31;x32;x33]) /\
  o_fs (tr_os r) [[x77]; [x6f]; [x62]] = Some (IFile 493 [x7a]) /\ tr_ret r = CRet 1.
Proof. exact ex_c92_low. Qed.
Print Assumptions C92_low_level_status_refuted.

(** C92: the low level program never reports success. *)
Theorem C92_low_level_status_never : forall z e jk hj xjk hjunk al opn rdf ls room hal alloc dfuel obuf pjunk fuel argv o r inp out,
  tt_args argv = Some (x62, inp, out) ->
  llt_main z e jk hj xjk hjunk al opn rdf ls room hal alloc dfuel obuf pjunk fuel argv o = Ok r -> tr_ret r = CRet 1.
Proof. exact llt_never. Qed.
Print Assumptions C92_low_level_status_never.

(** C92: false for the high level program too.  The first 100 bytes of an archive: 0 is returned, a file is missing. *)
Theorem C92_high_level_status_refuted : exists r, archives_with rle_zlib [] hx_tree (hx_arch hx_tree) /\
  tx_hl [] (takeN 100 (hx_arch hx_tree)) 0 0 argv_b (hx_os 1000) = Ok r /\ tr_ret r = CRet 0 /\
  o_fs (tr_os r) [[x77]; [x6f]; [x62]] = None.
Proof. exact ex_c92_high. Qed.
Print Assumptions C92_high_level_status_refuted.

(** What remains of C92: for a complete archive of a folder extracted to a free place the high level program returns 0 and
    everything is there. *)
Theorem C92_high_level_folder_partial : forall z (C : zlib_contract z) e jk hj xjk hjunk al opn rdf ls room xm hal stk alloc
    obuf pjunk fuel argv inp T t o xs es F,
  tt_args argv = Some (x62, inp, T) -> rdf inp = Some (F, false) ->
  archives_with z xs es F -> (length F < fuel)%nat -> calm z hal al stk obuf hjunk pjunk -> (forall k n, alloc k n = true) ->
  preorder (as_files xs ++ es) <> [] -> Forall (fun x => quiet (snd x)) es -> Forall (fun x => plain (xb_path x)) xs ->
  NoDup (map fst (as_files xs ++ es)) ->
  Forall (fun x => extractable (o_priv o) (o_umask o) (lenN T) (fst x) (snd x)) (as_files xs ++ es) ->
  free_spot o T t -> usable_dir (o_priv o) (o_umask o) MODE_BASE_DIR -> (forall r, o_fs o (t ++ r) = None) ->
  volume (preorder (as_files xs ++ es)) <= o_free o ->
  exists dfuel0, forall dfuel, (dfuel0 <= dfuel)%nat -> exists r s,
    hlt_main z e jk hj xjk hjunk al opn rdf ls room xm hal stk alloc dfuel obuf pjunk fuel argv o = Ok r /\ tr_sess r = Some s /\
    (room_left s -> tr_ret r = CRet 0 /\ same_env o (tr_os r) /\
      forall q, o_fs (tr_os r) q = overlay t (dir_tree (o_umask o) (as_files xs ++ es)) (o_fs o) q).
Proof. exact hlt_dir. Qed.
Print Assumptions C92_high_level_folder_partial.
Example C92_folder_case : exists r, archives_with rle_zlib [] hx_tree (hx_arch hx_tree) /\
  tt_args (map b argv_b) = Some (x62, b "in", [x6f]) /\ tx_rd (hx_arch hx_tree) (b "in") = Some (hx_arch hx_tree, false) /\
  calm rle_zlib hx_hal ax_al hx_stk (zeros DEF_CHUNK_SIZE) ax_hjunk ex_pj /\
  (length (hx_arch hx_tree) < 4000)%nat /\ preorder (as_files [] ++ hx_tree) <> [] /\ Forall (fun x => quiet (snd x)) hx_tree /\
  NoDup (map fst (as_files [] ++ hx_tree)) /\
  Forall (fun x => extractable false 18 1 (fst x) (snd x)) (as_files [] ++ hx_tree) /\ free_spot (hx_os 1000) [x6f] [[x77]; [x6f]] /\
  usable_dir false 18 MODE_BASE_DIR /\ (forall r, o_fs (hx_os 1000) ([[x77]; [x6f]] ++ r) = None) /\
  volume (preorder (as_files [] ++ hx_tree)) = 4 /\
  tx_hl [] (hx_arch hx_tree) 0 0 argv_b (hx_os 1000) = Ok r /\ (exists s, tr_sess r = Some s /\ room_left s) /\
  tr_ret r = CRet 0 /\ o_fs (tr_os r) [[x77]; [x6f]; [x62]] = Some (IFile 493 [x7a]).
Proof. exact ex_c92_dir. Qed.

(** What remains of C92: the same for the archive of a file. *)
Theorem C92_high_level_file_partial : forall z (C : zlib_contract z) e jk hj xjk hjunk al opn rdf ls room xm hal stk alloc
    obuf pjunk fuel argv inp T t m o data F,
  tt_args argv = Some (x62, inp, T) -> rdf inp = Some (F, false) ->
  archives_file z data F -> (length F < fuel)%nat -> calm z hal al stk obuf hjunk pjunk ->
  data <> [] -> writable_spot o T t m -> lenN data <= o_free o ->
  exists dfuel0, forall dfuel, (dfuel0 <= dfuel)%nat -> exists r s,
    hlt_main z e jk hj xjk hjunk al opn rdf ls room xm hal stk alloc dfuel obuf pjunk fuel argv o = Ok r /\ tr_sess r = Some s /\
    same_env o (tr_os r) /\ (room_left s -> tr_ret r = CRet 0 /\ forall q, o_fs (tr_os r) q = upd (o_fs o) t (IFile m data) q).
Proof. exact hlt_file. Qed.
Print Assumptions C92_high_level_file_partial.
Example C92_file_case : exists r, archives_file rle_zlib [x61;x62] (hx_farch [x61;x62]) /\
  writable_spot (hx_os 1000) [x6f] [[x77]; [x6f]] 420 /\
  tx_hl [] (hx_farch [x61;x62]) 0 0 argv_b (hx_os 1000) = Ok r /\ (exists s, tr_sess r = Some s /\ room_left s) /\
  tr_ret r = CRet 0 /\ o_fs (tr_os r) [[x77]; [x6f]] = Some (IFile 420 [x61;x62]).
Proof. exact ex_c92_file. Qed.

(** C93: false.  The disk is full after 6 bytes: 0 is returned. *)
Theorem C93_status_of_compressing_refuted : exists r, tx_hl hx_tree [] 6 0 ["t"; "c"; "dir"]%string (hx_os 1000) = Ok r /\ tr_ret r = CRet 0 /\
  lenN (tx_file (Ok r)) = 6 /\ hx_arch hx_tree <> tx_file (Ok r) /\
  forall r', tx_hl hx_tree [] 6000 0 ["t"; "c"; "dir"]%string (hx_os 1000) = Ok r' -> tr_file r' <> tr_file r.
Proof. exact ex_c93_full. Qed.
Print Assumptions C93_status_of_compressing_refuted.

(** C93: false.  The folder to be archived does not exist: 0 is returned. *)
Theorem C93_missing_folder_refuted : exists r, tx_ls hx_tree (b "none") = None /\
  tx_hl hx_tree [] 6000 0 ["t"; "c"; "none"]%string (hx_os 1000) = Ok r /\ tr_ret r = CRet 0.
Proof. exact ex_c93_none. Qed.
Print Assumptions C93_missing_folder_refuted.

(** What remains of C93: the folder exists, the disk has room; the file written is an archive of the input. *)
Theorem C93_high_level_partial : forall z (C : zlib_contract z) e jk hj xjk hjunk al opn rdf ls room xm hal stk alloc
    dfuel obuf pjunk fuel argv o r f inp out es,
  junk_ok jk hj xjk hjunk -> xm < two32 ->
  tt_args argv = Some (f, inp, out) -> f <> x62 -> (f <> x61 -> tree_fits (Some es) /\ ls inp = Some es) ->
  hlt_main z e jk hj xjk hjunk al opn rdf ls room xm hal stk alloc dfuel obuf pjunk fuel argv o = Ok r -> tr_ret r = CRet 0 ->
  tr_os r = o /\ In f [x61; x63; x64; x65] /\ exists cevs, tr_file r = Some (out, takeN room (cev_bytes cevs)) /\
    (last_not_full cevs -> lenN (cev_bytes cevs) <= room -> written z f xm (rdf inp) es (takeN room (cev_bytes cevs))).
Proof. exact hlt_writes. Qed.
Print Assumptions C93_high_level_partial.
Theorem C93_low_level_partial : forall z (C : zlib_contract z) e jk hj xjk hjunk al opn rdf ls room xm hal alloc
    dfuel obuf pjunk fuel argv o r f inp out es,
  junk_ok jk hj xjk hjunk ->
  tt_args argv = Some (f, inp, out) -> (f <> x61 -> tree_fits (Some es) /\ ls inp = Some es) ->
  llt_main z e jk hj xjk hjunk al opn rdf ls room hal alloc dfuel obuf pjunk fuel argv o = Ok r -> tr_ret r = CRet 0 ->
  tr_os r = o /\ In f [x61; x63] /\ exists cevs, tr_file r = Some (out, takeN room (cev_bytes cevs)) /\
    (last_not_full cevs -> lenN (cev_bytes cevs) <= room -> written z f xm (rdf inp) es (takeN room (cev_bytes cevs))).
Proof. exact llt_writes. Qed.
Print Assumptions C93_low_level_partial.
Example C93_case : exists r, junk_ok (ax_jk x11) ax_hj ax_xjk ax_hjunk /\ tt_args (map b ["t"; "c"; "dir"]%string) = Some (x63, b "dir", b "out.zlib") /\
  tree_fits (Some hx_tree) /\ tx_ls hx_tree (b "dir") = Some hx_tree /\
  tx_hl hx_tree [] 6000 0 ["t"; "c"; "dir"]%string (hx_os 1000) = Ok r /\ tr_ret r = CRet 0 /\
  exists cevs, tr_file r = Some (b "out.zlib", cev_bytes cevs) /\ last_not_full cevs /\ lenN (cev_bytes cevs) <= 6000.
Proof. exact ex_c93. Qed.

(** C94: false.  Option d archives the uninitialised mode of its extra buffer. *)
Theorem C94_option_d_determined_refuted : exists r r', tx_hl hx_tree [] 6000 420 ["t"; "d"; "dir"]%string (hx_os 1000) = Ok r /\ tr_ret r = CRet 0 /\
  tx_hl hx_tree [] 6000 0 ["t"; "d"; "dir"]%string (hx_os 1000) = Ok r' /\ tr_ret r' = CRet 0 /\ tr_file r <> tr_file r'.
Proof. exact ex_c94. Qed.
Print Assumptions C94_option_d_determined_refuted.

(** What remains of C94: whatever the mode was, what option d wrote is an archive of the folder and the buffer with that mode
    (C93), and extracting it gives them, see C92. *)
Theorem C94_option_d_partial : forall z (C : zlib_contract z) e jk hj xjk hjunk al opn rdf ls room xm hal stk alloc
    dfuel obuf pjunk fuel argv o r inp out es,
  junk_ok jk hj xjk hjunk -> xm < two32 -> tt_args argv = Some (x64, inp, out) -> tree_fits (Some es) -> ls inp = Some es ->
  hlt_main z e jk hj xjk hjunk al opn rdf ls room xm hal stk alloc dfuel obuf pjunk fuel argv o = Ok r -> tr_ret r = CRet 0 ->
  exists cevs, tr_file r = Some (out, takeN room (cev_bytes cevs)) /\
    (last_not_full cevs -> lenN (cev_bytes cevs) <= room ->
     archives_with z [XB (b "__not_updateabe_files") (b "mconfig.bconf" ++ [x00]) xm] es (takeN room (cev_bytes cevs))).
Proof. exact hlt_d. Qed.
Print Assumptions C94_option_d_partial.
Example C94_case : exists r, archives_with rle_zlib (tt_root_bufs 420) hx_tree (hx_xarch false (tt_root_bufs 420) hx_tree) /\
  Forall (fun x => plain (xb_path x)) (tt_root_bufs 420) /\ NoDup (map fst (as_files (tt_root_bufs 420) ++ hx_tree)) /\
  tx_hl [] (hx_xarch false (tt_root_bufs 420) hx_tree) 0 0 argv_b (hx_os 1000) = Ok r /\ (exists s, tr_sess r = Some s /\ room_left s) /\
  tr_ret r = CRet 0 /\ o_fs (tr_os r) [[x77]; [x6f]; b "__not_updateabe_files"] = Some (IFile 420 (b "mconfig.bconf" ++ [x00])).
Proof. exact ex_c94_partial. Qed.

(** C95: false.  Option b extracts what option e wrote, returns 0, and the buffers are missing. *)
Theorem C95_option_e_extractable_refuted : exists r r', tx_hl hx_tree [] 6000 420 ["t"; "e"; "dir"]%string (hx_os 1000) = Ok r /\ tr_ret r = CRet 0 /\
  tr_file r = Some (b "out.zlib", tx_e) /\
  tx_hl [] tx_e 0 0 argv_b (hx_os 1000) = Ok r' /\ tr_ret r' = CRet 0 /\
  o_fs (tr_os r') [[x77]; [x6f]; [x61]] = Some (IDir 0) /\ o_fs (tr_os r') [[x77]; [x6f]; [x61]; [x62]] = None.
Proof. exact ex_c95. Qed.
Print Assumptions C95_option_e_extractable_refuted.

(** What remains of C95: decoding what option e wrote presents the buffers and the folder; the directories of the buffers have
    mode 0. *)
Theorem C95_option_e_partial : forall z (C : zlib_contract z) e jk hj xjk hjunk al opn rdf ls room xm hal stk alloc
    dfuel obuf pjunk fuel argv o r inp out es,
  junk_ok jk hj xjk hjunk -> xm < two32 ->
  tt_args argv = Some (x65, inp, out) -> tree_fits (Some es) -> ls inp = Some es -> Forall (fun x => quiet (snd x)) es ->
  hlt_main z e jk hj xjk hjunk al opn rdf ls room xm hal stk alloc dfuel obuf pjunk fuel argv o = Ok r -> tr_ret r = CRet 0 ->
  exists cevs, tr_file r = Some (out, takeN room (cev_bytes cevs)) /\
    (last_not_full cevs -> lenN (cev_bytes cevs) <= room -> unpacks z (takeN room (cev_bytes cevs)) (e_records ++ preorder es)).
Proof. exact hlt_e. Qed.
Print Assumptions C95_option_e_partial.
Example C95_case : exists r, tt_args (map b ["t"; "e"; "dir"]%string) = Some (x65, b "dir", b "out.zlib") /\ 420 < two32 /\
  tree_fits (Some hx_tree) /\ Forall (fun x => quiet (snd x)) hx_tree /\
  tx_hl hx_tree [] 6000 420 ["t"; "e"; "dir"]%string (hx_os 1000) = Ok r /\ tr_ret r = CRet 0.
Proof. exact ex_c95_partial. Qed.

(** C96: false.  A symbolic link becomes an empty file whose descriptor stays open. *)
Theorem C96_low_level_round_trip_refuted : exists r, archives_with rle_zlib [] tx_links (hx_arch tx_links) /\
  tx_ll [] (hx_arch tx_links) 0 argv_b (hx_os 1000) = Ok r /\ (exists s, tr_sess r = Some s /\ room_left s) /\
  o_fs (tr_os r) [[x77]; [x6f]; [x6c]] = Some (IFile 493 []) /\ o_fds (tr_os r) <> [].
Proof. exact ex_c96_link. Qed.
Print Assumptions C96_low_level_round_trip_refuted.

(** What remains of C96: files and directories, extracted to a free place; names are one byte shorter than the high level
    functions allow. *)
Theorem C96_low_level_folder_partial : forall z (C : zlib_contract z) e jk hj xjk hjunk al opn rdf ls room hal alloc
    obuf pjunk fuel argv inp T t o xs es F,
  tt_args argv = Some (x62, inp, T) -> rdf inp = Some (F, false) ->
  archives_with z xs es F -> (length F < fuel)%nat -> lt_calm z hal al obuf hjunk pjunk -> (forall k n, alloc k n = true) ->
  preorder (as_files xs ++ es) <> [] -> Forall (fun x => quiet (snd x)) es -> Forall (fun x => plain (xb_path x)) xs ->
  NoDup (map fst (as_files xs ++ es)) ->
  Forall (fun x => extractable (o_priv o) (o_umask o) (lenN T + 1) (fst x) (snd x)) (as_files xs ++ es) ->
  free_spot o T t -> usable_dir (o_priv o) (o_umask o) MODE_BASE_DIR -> (forall r, o_fs o (t ++ r) = None) ->
  volume (preorder (as_files xs ++ es)) <= o_free o ->
  exists dfuel0, forall dfuel, (dfuel0 <= dfuel)%nat -> exists r s,
    llt_main z e jk hj xjk hjunk al opn rdf ls room hal alloc dfuel obuf pjunk fuel argv o = Ok r /\ tr_sess r = Some s /\
    (room_left s -> same_env o (tr_os r) /\
      forall q, o_fs (tr_os r) q = overlay t (dir_tree (o_umask o) (as_files xs ++ es)) (o_fs o) q).
Proof. exact llt_dir. Qed.
Print Assumptions C96_low_level_folder_partial.
Example C96_folder_case : exists r, lt_calm rle_zlib hx_hal ax_al (zeros LT_CHUNK) ax_hjunk ex_pj /\
  archives_with rle_zlib [] hx_tree (hx_arch hx_tree) /\
  Forall (fun x => extractable false 18 2 (fst x) (snd x)) (as_files [] ++ hx_tree) /\
  tx_ll [] (hx_arch hx_tree) 0 argv_b (hx_os 1000) = Ok r /\ (exists s, tr_sess r = Some s /\ room_left s) /\
  o_fs (tr_os r) [[x77]; [x6f]; [x64]; [x61;x62;x63]] = Some (IFile 420 [x31;x32;x33]).
Proof. exact ex_c96_dir. Qed.

(** What remains of C96: the archive of a file. *)
Theorem C96_low_level_file_partial : forall z (C : zlib_contract z) e jk hj xjk hjunk al opn rdf ls room hal alloc
    obuf pjunk fuel argv inp T t m o data F,
  tt_args argv = Some (x62, inp, T) -> rdf inp = Some (F, false) ->
  archives_file z data F -> (length F < fuel)%nat -> lt_calm z hal al obuf hjunk pjunk ->
  data <> [] -> writable_spot o T t m -> lenN data <= o_free o ->
  exists dfuel0, forall dfuel, (dfuel0 <= dfuel)%nat -> exists r s,
    llt_main z e jk hj xjk hjunk al opn rdf ls room hal alloc dfuel obuf pjunk fuel argv o = Ok r /\ tr_sess r = Some s /\
    same_env o (tr_os r) /\ (room_left s -> forall q, o_fs (tr_os r) q = upd (o_fs o) t (IFile m data) q).
Proof. exact llt_file. Qed.
Print Assumptions C96_low_level_file_partial.
Example C96_file_case : exists r, archives_file rle_zlib [x61;x62] (hx_farch [x61;x62]) /\
  tx_ll [] (hx_farch [x61;x62]) 0 argv_b (hx_os 1000) = Ok r /\ (exists s, tr_sess r = Some s /\ room_left s) /\
  o_fs (tr_os r) [[x77]; [x6f]] = Some (IFile 420 [x61;x62]).
Proof. exact ex_c96_file. Qed.

(** C97: false.  The target cannot be opened and the data are written to a NULL FILE pointer. *)
Theorem C97_low_level_safe_refuted : archives_file rle_zlib [x61;x62] (hx_farch [x61;x62]) /\
  tx_ll [] (hx_farch [x61;x62]) 0 ["t"; "b"; "in"; "none/o"]%string (hx_os 1000) = UB.
Proof. exact ex_c97_open. Qed.
Print Assumptions C97_low_level_safe_refuted.

(** C97: false.  The target folder exists already and a path is printed from a NULL pointer. *)
Theorem C97_existing_folder_refuted : archives_with rle_zlib [] tx_one (hx_arch tx_one) /\ o_fs (hx_os 1000) [[x77]] = Some (IDir 493) /\
  tx_ll [] (hx_arch tx_one) 0 ["t"; "b"; "in"; "/w"]%string (hx_os 1000) = UB.
Proof. exact ex_c97_exists. Qed.
Print Assumptions C97_existing_folder_refuted.

(** C97: false.  The name in the archive has no NUL. *)
Theorem C97_unterminated_name_refuted : tx_ll [] (rx_arch (file_item LE 8 420 0 ex_j ++ List.repeat x61 16)) 0 argv_b (hx_os 1000) = UB.
Proof. exact ex_c97_name. Qed.
Print Assumptions C97_unterminated_name_refuted.

(** What remains of C97: archives of files and blobs, also damaged ones, if the target can be opened. *)
Theorem C97_low_level_file_partial : forall z (C : zlib_contract z) e jk hj xjk hjunk al opn rdf ls room hal alloc
    obuf pjunk fuel argv inp T o F rderr typ fd o1,
  tt_args argv = Some (x62, inp, T) -> rdf inp = Some (F, rderr) ->
  (length F < fuel)%nat -> lt_calm z hal al obuf hjunk pjunk -> ~ In x00 T ->
  archive_of typ (zc_dec C F) -> typ = ContentFile \/ typ = ContentBlob -> sys_open true T MODE_FOPEN o = (RFd fd, o1) ->
  exists dfuel0, forall dfuel, (dfuel0 <= dfuel)%nat -> exists r,
    llt_main z e jk hj xjk hjunk al opn rdf ls room hal alloc dfuel obuf pjunk fuel argv o = Ok r.
Proof. exact llt_safe_file. Qed.
Print Assumptions C97_low_level_file_partial.
Example C97_file_case : exists r, lt_calm rle_zlib hx_hal ax_al (zeros LT_CHUNK) ax_hjunk ex_pj /\
  archive_of ContentFile (zc_dec rle_contract (takeN 10 (hx_farch [x61;x62]))) /\ lenN (hx_farch [x61;x62]) = 12 /\
  (exists fd o1, sys_open true [x6f] MODE_FOPEN (hx_os 1000) = (RFd fd, o1)) /\
  tx_ll [] (takeN 10 (hx_farch [x61;x62])) 0 argv_b (hx_os 1000) = Ok r.
Proof. exact ex_c97_file. Qed.

(** What remains of C97: archives the library wrote of folders, if the target can be created; any other call may fail and the
    disk may be full. *)
Theorem C97_low_level_folder_partial : forall z (C : zlib_contract z) e jk hj xjk hjunk al opn rdf ls room hal alloc
    obuf pjunk fuel argv inp T o F rderr xs es o1,
  tt_args argv = Some (x62, inp, T) -> rdf inp = Some (F, rderr) ->
  (length F < fuel)%nat -> lt_calm z hal al obuf hjunk pjunk -> ~ In x00 T -> (forall k n, alloc k n = true) ->
  archives_with z xs es F -> Forall (fun x => quiet (snd x)) es -> names_end (preorder es) -> sys_mkdir T MODE_0775 o = (ROk, o1) ->
  exists dfuel0, forall dfuel, (dfuel0 <= dfuel)%nat -> exists r,
    llt_main z e jk hj xjk hjunk al opn rdf ls room hal alloc dfuel obuf pjunk fuel argv o = Ok r.
Proof. exact llt_safe_dir. Qed.
Print Assumptions C97_low_level_folder_partial.
Example C97_folder_case : exists r, archives_with rle_zlib [] hx_tree (hx_arch hx_tree) /\ names_end (preorder hx_tree) /\
  (exists o1, sys_mkdir [x6f] MODE_0775 (hx_os 0) = (ROk, o1)) /\
  tx_ll [] (hx_arch hx_tree) 0 argv_b (hx_os 0) = Ok r /\ o_fs (tr_os r) [[x77]; [x6f]; [x62]] = Some (IFile 493 []).
Proof. exact ex_c97_dir. Qed.

(** C98: false.  The name of the program has no backslash: the program ends with a failed assertion or uses NULL. *)
Theorem C98_icon_test_path_refuted : ~ In x5c (b "test.exe") /\
  it_main true [b "test.exe"; b "i.ico"] = Ok ItAbort /\ it_main false [b "test.exe"; b "i.ico"] = UB.
Proof. exact ex_c98. Qed.
Print Assumptions C98_icon_test_path_refuted.

(** What remains of C98: the program edited is the one beside the test. *)
Theorem C98_icon_test_path_partial : forall asserts d n icon r, ~ In x5c n ->
  it_main asserts ((d ++ x5c :: n) :: icon :: r) = Ok (ItCall (d ++ x5c :: b "hello_world_test.exe") icon).
Proof. exact it_path. Qed.
Print Assumptions C98_icon_test_path_partial.
Example C98_case : it_main true [b "C:\d\test.exe"; b "i.ico"] = Ok (ItCall (b "C:\d\hello_world_test.exe") (b "i.ico")).
Proof. exact ex_c98_partial. Qed.
