(** Properties_Copy.v: properties C103 to C106 (killed extraction, copies of directories, cut archives, start of the self extract tool).

    Notions used: [archives_dir], [archives_file], [cut_input], [layout], [begun], [fill], [target_with], [overlay], [calm], [quiet],
    [extractable], [free_spot], [writable_spot], [usable_dir], [room_left]: as for C39, C40 and C99.
    [reach p o o']: a process that runs p from the state o can be killed in the state o': between two system calls, or in a write of
    which a part was done.
    [sane fs]: every entry of fs has a plain name and lies in a directory.  [lists fs s es]: es is what listing the directory s of fs, stat,
    readlink and reading the files give, in any order.  [no_links fs s]: no symbolic links below s.  [suitable]: the copies are not too long
    for the system and their directories can be used.  [copy um fs s fs' t]: in fs' the directory t is what s was in fs, with the
    permissions that the umask um leaves, and nothing else is different.
    [calls], [unsplit]: as for C83.
    [junk_ok], [last_not_full], [tree_fits], [cd_main]: as for C73; [se_main]: as for C62; [se_boot]: main of the self extract tool with
    its argument vector, the array it copies argv[0] to (holding [junk] before) and the result of strdup. *)
From Coq Require Import Strings.String.
From Verif Require Import Base Format Zlib RleZlib LLCompress CompressFacts Compress Parser ParserProofs ParserFacts Decompress DecompressProofs MidProofs MidFacts
  DecompressExamples ArchiveSpec ArchiveFacts ArchiveDecode ArchiveEntry ArchiveProps ArchiveExamples ArgParser ArgSpec Tools ToolsSpec ToolsFacts ToolsExamples
  FS FSFacts HL HLSpec HLFacts HLDrive HLProps HLSafe MkdirFacts HLTame HLMore HLExamples LinkFacts LinkExamples LinkMore LinkMoreExamples SelfRun SelfRunFacts SelfRunExamples
  CutSpec CutFacts CutRun CutProps Unique CutExamples Crash CrashExamples CopySpec CopyFacts CopyExamples CutTools SelfBoot SelfBootFacts.
Local Notation b := list_byte_of_string.
Local Open Scope list_scope.

(** C103: an extraction that is killed at any moment leaves a beginning of the directory. *)
Theorem C103_killed : forall z (C : zlib_contract z) es F e alloc hal al stk obuf hjunk pjunk T archive inp rderr t o fuel dfuel o',
  archives_dir z es F -> cut_input archive F inp ->
  calm z hal al stk obuf hjunk pjunk -> (forall k n, alloc k n = true) ->
  Forall (fun x => quiet (snd x)) es -> NoDup (map fst es) ->
  Forall (fun x => extractable (o_priv o) (o_umask o) (lenN T) (fst x) (snd x)) es ->
  free_spot o T t -> usable_dir (o_priv o) (o_umask o) MODE_BASE_DIR -> (forall r, o_fs o (t ++ r) = None) ->
  reach (extract T hal stk z e alloc archive fuel dfuel al obuf hjunk pjunk inp rderr) o o' ->
  (forall q, o_fs o' q = o_fs o q) \/
  exists done, begun done (layout (o_umask o) [] es) /\
    forall q, o_fs o' q = overlay t (target_with (IDir (dir_perm (o_umask o) MODE_BASE_DIR)) (fill (o_free o) done)) (o_fs o) q.
Proof. exact killed. Qed.
Print Assumptions C103_killed.
Example C103_case : exists o1 o2, archives_dir rle_zlib hx_tree (hx_arch hx_tree) /\ cut_input 0 (hx_arch hx_tree) (hx_arch hx_tree) /\
  calm rle_zlib hx_hal ax_al hx_stk (zeros DEF_CHUNK_SIZE) ax_hjunk ex_pj /\ Forall (fun x => quiet (snd x)) hx_tree /\ NoDup (map fst hx_tree) /\
  Forall (fun x => extractable false 18 1 (fst x) (snd x)) hx_tree /\ free_spot (hx_os 1000) [x6f] [[x77]; [x6f]] /\
  usable_dir false 18 MODE_BASE_DIR /\ (forall r, o_fs (hx_os 1000) ([[x77]; [x6f]] ++ r) = None) /\
  reach (kx [x6f] (hx_arch hx_tree)) (hx_os 1000) o1 /\ o_fs o1 [[x77]; [x6f]; [x64]; [x61;x62;x63]] = Some (IFile 420 [x31]) /\ o_fs o1 [[x77]; [x6f]; [x62]] = None /\
  reach (kx [x6f] (hx_arch hx_tree)) (hx_os 1000) o2 /\ o_fs o2 [[x77]; [x6f]; [x64]; [x61;x62;x63]] = Some (IFile 420 [x31;x32;x33]) /\
  o_fs o2 [[x77]; [x6f]; [x62]] = None.
Proof. exact ex_c103. Qed.

(** C103 for archives of single files: the file that was at the target is lost as soon as the extraction begins. *)
Theorem C103_killed_file : forall z (C : zlib_contract z) data F e alloc hal al stk obuf hjunk pjunk T archive inp rderr t m o fuel dfuel o',
  archives_file z data F -> cut_input archive F inp -> calm z hal al stk obuf hjunk pjunk -> writable_spot o T t m ->
  reach (extract T hal stk z e alloc archive fuel dfuel al obuf hjunk pjunk inp rderr) o o' ->
  (forall q, o_fs o' q = o_fs o q) \/ exists x, prefix x data /\ forall q, o_fs o' q = upd (o_fs o) t (IFile m x) q.
Proof. exact killed_file. Qed.
Print Assumptions C103_killed_file.
Example C103_file_case : exists o', archives_file rle_zlib [x61;x62] (hx_farch [x61;x62]) /\ writable_spot (hx_os 1000) [x2f;x66] [[x66]] 420 /\
  o_fs (hx_os 1000) [[x66]] = Some (IFile 420 [x6f;x6c;x64]) /\
  reach (kx [x2f;x66] (hx_farch [x61;x62])) (hx_os 1000) o' /\ o_fs o' [[x66]] = Some (IFile 420 [x61]).
Proof. exact ex_c103_file. Qed.

(** C104: archiving a directory of the file system and extracting the archive copies it. *)
Theorem C104_copied : forall z (C : zlib_contract z) s es F e alloc hal al stk obuf hjunk pjunk T archive inp t o fuel,
  sane (o_fs o) -> lists (o_fs o) s es -> no_links (o_fs o) s -> suitable (o_priv o) (o_umask o) (lenN T) (o_fs o) s ->
  (exists c, o_fs o (s ++ [c]) <> None) -> archives_dir z es F ->
  input_of archive F inp -> (length inp < fuel)%nat -> calm z hal al stk obuf hjunk pjunk -> (forall k n, alloc k n = true) ->
  free_spot o T t -> usable_dir (o_priv o) (o_umask o) MODE_BASE_DIR -> volume (preorder es) <= o_free o ->
  exists dfuel0, forall dfuel, (dfuel0 <= dfuel)%nat -> exists ret q h ds o',
    exec (extract T hal stk z e alloc archive fuel dfuel al obuf hjunk pjunk inp false) o = Ok ((ret, Some (q, h, ds)), o') /\
    (room_left q -> ret = ContentDirectory /\ same_env o o' /\ copy (o_umask o) (o_fs o) s (o_fs o') t).
Proof. exact copied. Qed.
Print Assumptions C104_copied.
Example C104_case : exists ret o', sane (o_fs (cp_os [])) /\ lists (o_fs (cp_os [])) [[x73]] cp_tree /\ no_links (o_fs (cp_os [])) [[x73]] /\
  suitable false 18 1 (o_fs (cp_os [])) [[x73]] /\ archives_dir rle_zlib cp_tree (hx_arch cp_tree) /\ free_spot (cp_os []) [x6f] [[x77]; [x6f]] /\
  usable_dir false 18 MODE_BASE_DIR /\ volume (preorder cp_tree) <= 1000 /\
  did_all (hx_extract [x6f] 0 (hx_arch cp_tree) (cp_os [])) ret o' /\ ret = ContentDirectory /\
  o_fs o' [[x77]; [x6f]; [x64]] = Some (IDir 1005) /\ o_fs o' [[x77]; [x6f]; [x64]; [x61;x62;x63]] = Some (IFile 420 [x31;x32;x33]) /\
  o_fs o' [[x77]; [x6f]; [x65]] = Some (IDir 493).
Proof. exact ex_c104. Qed.

(** The names of the files that [sane] allows: up to 255 bytes. *)
Example C104_longest_name : plain (repeat x61 255) /\ ~ plain (repeat x61 256).
Proof. exact ex_longest_name. Qed.
(** C104 with symbolic links: for archives that fit into one buffer (see C83). *)
Theorem C104_copied_links : forall z (C : zlib_contract z) s es F e alloc hal al stk obuf hjunk pjunk T archive inp t o fuel,
  sane (o_fs o) -> lists (o_fs o) s es -> suitable (o_priv o) (o_umask o) (lenN T) (o_fs o) s ->
  (exists c, o_fs o (s ++ [c]) <> None) -> archives_dir z es F -> homely o -> lenN F < DEF_CHUNK_SIZE -> lenN (zc_dec C F) < 128 + DEF_CHUNK_SIZE ->
  input_of archive F inp -> (length inp < fuel)%nat -> calm z hal al stk obuf hjunk pjunk -> (forall k n, alloc k n = true) ->
  free_spot o T t -> usable_dir (o_priv o) (o_umask o) MODE_BASE_DIR -> volume (preorder es) <= o_free o ->
  exists dfuel0, forall dfuel, (dfuel0 <= dfuel)%nat -> exists ret q h ds o',
    exec (extract T hal stk z e alloc archive fuel dfuel al obuf hjunk pjunk inp false) o = Ok ((ret, Some (q, h, ds)), o') /\
    (room_left q -> ret = ContentDirectory /\ same_env o o' /\ copy (o_umask o) (o_fs o) s (o_fs o') t).
Proof. exact copied_links. Qed.
Print Assumptions C104_copied_links.
Example C104_links_case : exists ret o', sane (o_fs (cp_os cp_link)) /\ lists (o_fs (cp_os cp_link)) [[x73]] cp_ltree /\
  suitable false 18 1 (o_fs (cp_os cp_link)) [[x73]] /\ archives_dir rle_zlib cp_ltree (hx_arch cp_ltree) /\ homely (cp_os cp_link) /\
  lenN (hx_arch cp_ltree) < DEF_CHUNK_SIZE /\ lenN (zc_dec rle_contract (hx_arch cp_ltree)) < 128 + DEF_CHUNK_SIZE /\
  free_spot (cp_os cp_link) [x6f] [[x77]; [x6f]] /\
  did_all (hx_extract [x6f] 0 (hx_arch cp_ltree) (cp_os cp_link)) ret o' /\ ret = ContentDirectory /\
  o_fs o' [[x77]; [x6f]; [x6c]] = Some (ILink [x64;x2f;x61;x62;x63]).
Proof. exact ex_c104_links. Qed.

(** C104 with symbolic links, for archives of any size whose targets were not split (see C83). *)
Theorem C104_copied_links_whole : forall z (C : zlib_contract z) s es F e alloc hal al stk obuf hjunk pjunk T archive inp t o fuel,
  sane (o_fs o) -> lists (o_fs o) s es -> suitable (o_priv o) (o_umask o) (lenN T) (o_fs o) s ->
  (exists c, o_fs o (s ++ [c]) <> None) -> archives_dir z es F -> homely o ->
  input_of archive F inp -> (length inp < fuel)%nat -> calm z hal al stk obuf hjunk pjunk -> (forall k n, alloc k n = true) ->
  free_spot o T t -> usable_dir (o_priv o) (o_umask o) MODE_BASE_DIR -> volume (preorder es) <= o_free o ->
  exists dfuel0, forall dfuel, (dfuel0 <= dfuel)%nat -> exists q evs, calls z e alloc al obuf hjunk pjunk dfuel fuel archive inp q evs /\
    (room_left q -> unsplit evs -> exists h ds o',
      exec (extract T hal stk z e alloc archive fuel dfuel al obuf hjunk pjunk inp false) o = Ok ((ContentDirectory, Some (q, h, ds)), o') /\
      same_env o o' /\ copy (o_umask o) (o_fs o) s (o_fs o') t).
Proof. exact copied_links_whole. Qed.
Print Assumptions C104_copied_links_whole.
Example C104_whole_case : exists q evs, sane (o_fs (cp_os cp_link)) /\ lists (o_fs (cp_os cp_link)) [[x73]] cp_ltree /\
  suitable false 18 1 (o_fs (cp_os cp_link)) [[x73]] /\ archives_dir rle_zlib cp_ltree (hx_arch cp_ltree) /\ homely (cp_os cp_link) /\
  free_spot (cp_os cp_link) [x6f] [[x77]; [x6f]] /\
  calls rle_zlib LE ex_alloc ax_al (zeros DEF_CHUNK_SIZE) ax_hjunk ex_pj 5000 5000 0 (hx_arch cp_ltree) q evs /\ room_left q /\
  unsplit evs /\ link_sizes evs <> [].
Proof. exact ex_c104_whole. Qed.

(** C104: a copy of a copy is equal to the first copy. *)
Theorem C104_copied_again : forall z (C : zlib_contract z) fs0 s t es F e alloc hal al stk obuf hjunk pjunk T archive inp t2 o fuel d c m,
  sane fs0 -> no_links fs0 s -> suitable (o_priv o) (o_umask o) (lenN T) fs0 s -> (exists c, fs0 (s ++ [c]) <> None) ->
  copy (o_umask o) fs0 s (o_fs o) t -> t = d ++ [c] -> plain c -> fs0 d = Some (IDir m) ->
  lists (o_fs o) t es -> archives_dir z es F ->
  input_of archive F inp -> (length inp < fuel)%nat -> calm z hal al stk obuf hjunk pjunk -> (forall k n, alloc k n = true) ->
  free_spot o T t2 -> usable_dir (o_priv o) (o_umask o) MODE_BASE_DIR -> volume (preorder es) <= o_free o ->
  exists dfuel0, forall dfuel, (dfuel0 <= dfuel)%nat -> exists ret q h ds o',
    exec (extract T hal stk z e alloc archive fuel dfuel al obuf hjunk pjunk inp false) o = Ok ((ret, Some (q, h, ds)), o') /\
    (room_left q -> forall r, r <> [] -> o_fs o' (t2 ++ r) = o_fs o (t ++ r)).
Proof. exact copied_again. Qed.
Print Assumptions C104_copied_again.
Example C104_again_case : exists ret o', sane (o_fs (cp_os [])) /\ no_links (o_fs (cp_os [])) [[x73]] /\ suitable false 18 2 (o_fs (cp_os [])) [[x73]] /\
  copy 18 (o_fs (cp_os [])) [[x73]] (o_fs cp_os2) [[x77]; [x6f]] /\ plain [x6f] /\ o_fs (cp_os []) [[x77]] = Some (IDir 493) /\
  lists (o_fs cp_os2) [[x77]; [x6f]] cp_tree2 /\ archives_dir rle_zlib cp_tree2 (hx_arch cp_tree2) /\ free_spot cp_os2 [x6f;x6f] [[x77]; [x6f;x6f]] /\
  did_all (hx_extract [x6f;x6f] 0 (hx_arch cp_tree2) cp_os2) ret o' /\ ret = ContentDirectory /\
  o_fs o' [[x77]; [x6f;x6f]; [x64]] = Some (IDir 1005) /\ o_fs o' [[x77]; [x6f;x6f]; [x64]; [x61;x62;x63]] = Some (IFile 420 [x31;x32;x33]).
Proof. exact ex_c104_again. Qed.

(** C105: what compressdir has written when it is killed, or when the disk is full, extracts to a beginning of the folder. *)
Theorem C105_cut_archive : forall z (C : zlib_contract z) e jk hj xjk hjunk al opn ls room pfuel fuel args out data,
  junk_ok jk hj xjk hjunk ->
  cd_main z e jk hj xjk hjunk al opn ls room pfuel fuel args = Ok (CRet 0, Some (out, data)) -> data <> [] ->
  exists p s dir cevs, run_aops cd_options prs_new = Ok p /\ parse_args pfuel args p = Ok s /\
    (value_right (b "-if") (ps_prs s) = Ok (Some dir) \/
     value_right (b "-if") (ps_prs s) = Ok None /\ 0 < ps_argc s /\ arg_at 0 (ps_cells s) = Ok dir) /\
    data = takeN room (cev_bytes cevs) /\
    forall es inp e' alloc hal al' stk obuf hjunk' pjunk T t o efuel,
      ls dir = Some es -> tree_fits (Some es) -> last_not_full cevs -> prefix inp data -> (List.length inp < efuel)%nat ->
      calm z hal al' stk obuf hjunk' pjunk -> (forall k n, alloc k n = true) -> Forall (fun x => quiet (snd x)) es -> NoDup (map fst es) ->
      Forall (fun x => extractable (o_priv o) (o_umask o) (lenN T) (fst x) (snd x)) es ->
      free_spot o T t -> usable_dir (o_priv o) (o_umask o) MODE_BASE_DIR -> (forall r, o_fs o (t ++ r) = None) ->
      (exists dfuel0, forall dfuel, (dfuel0 <= dfuel)%nat -> exists ret s h ds o',
         exec (extract T hal stk z e' alloc 0 efuel dfuel al' obuf hjunk' pjunk inp false) o = Ok ((ret, Some (s, h, ds)), o')) /\
      forall dfuel ret x o',
        exec (extract T hal stk z e' alloc 0 efuel dfuel al' obuf hjunk' pjunk inp false) o = Ok ((ret, x), o') ->
        (forall q, o_fs o' q = o_fs o q) /\ ret = ContentNone \/
        exists done, begun done (layout (o_umask o) [] es) /\ ret = ContentDirectory /\
          forall q, o_fs o' q = overlay t (target_with (IDir (dir_perm (o_umask o) MODE_BASE_DIR)) (fill (o_free o) done)) (o_fs o) q.
Proof. exact cd_cut. Qed.
Print Assumptions C105_cut_archive.
Example C105_case : exists data cevs ws wx led ret o',
  junk_ok (ax_jk x11) ax_hj ax_xjk ax_hjunk /\
  gx_cd 69 (map b ["-of"; "out"; "-if"; "dir"]%string) = Ok (CRet 0, Some (b "out", data)) /\ data <> [] /\ lenN data = 69 /\
  compress_dir rle_zlib LE cd_filter (ax_jk x11) ax_hj ax_xjk ax_hjunk ax_al 3 Z_BEST_COMPRESSION 1 false [] (gx_ls (b "dir")) tt
    = Ok (CRet 0, cevs, ws, wx, led) /\ lenN (cev_bytes cevs) = 168 /\ last_not_full cevs /\ gx_ls (b "dir") = Some hx_tree /\ tree_fits (Some hx_tree) /\
  did_all (hx_extract [x6f] 0 data (hx_os 1000)) ret o' /\ ret = ContentDirectory /\
  o_fs o' [[x77]; [x6f]; [x64]; [x61;x62;x63]] = Some (IFile 420 [x31;x32]) /\ o_fs o' [[x77]; [x6f]; [x62]] = None.
Proof. exact ex_c105. Qed.

(** C106: false.  Without arguments (argc is 0) a null pointer is read. *)
Theorem C106_no_arguments_refuted : forall z e jk hj xjk hjunk al ls rd wr opn ndebug cfuel fuel junk dup files,
  se_boot z e jk hj xjk hjunk al ls rd wr opn ndebug cfuel fuel junk dup files [] = UB.
Proof. exact boot_no_args. Qed.
Print Assumptions C106_no_arguments_refuted.

(** C106: false.  From 4191 bytes on argv[0] is copied without its end. *)
Theorem C106_long_name_refuted : forall z e jk hj xjk hjunk al ls rd wr opn ndebug cfuel fuel junk dup files argv0 args,
  VC_BUFFER_SIZE - 1 <= lenN argv0 -> ~ In x00 argv0 -> ~ In x00 (dropN (VC_BUFFER_SIZE - 1) junk) ->
  se_boot z e jk hj xjk hjunk al ls rd wr opn ndebug cfuel fuel junk dup files (argv0 :: args) = UB.
Proof. exact boot_long. Qed.
Print Assumptions C106_long_name_refuted.
Example C106_long_case : VC_BUFFER_SIZE - 1 <= lenN (repeat x61 4191) /\ ~ In x00 (repeat x61 4191) /\ ~ In x00 (dropN (VC_BUFFER_SIZE - 1) (repeat x41 4192)).
Proof. exact ex_c106_long. Qed.

(** C106: false.  If strdup fails, NULL is compared with the names of the files (but not with those of directories). *)
Theorem C106_no_memory_refuted : sb_boot false [b "./tool"] = UB /\ sb_unnamed [(b "f", SFile true true 420 1 (b "F") false)] = UB /\
  exists out, sb_unnamed [(b "d", SDir 493 [])] = Ok (SeBuild (CRet 0) out).
Proof. exact ex_c106_no_memory. Qed.
Print Assumptions C106_no_memory_refuted.

(** What remains of C106: shorter names, memory available; up to the extraction of an appended archive. *)
Theorem C106_start_partial : forall z e jk hj xjk hjunk al ls rd wr opn ndebug cfuel fuel junk files argv0 args,
  lenN argv0 < VC_BUFFER_SIZE - 1 -> ~ In x00 argv0 ->
  se_boot z e jk hj xjk hjunk al ls rd wr opn ndebug cfuel fuel junk true files (argv0 :: args) =
    se_main z e jk hj xjk hjunk al ls rd wr opn ndebug cfuel fuel argv0 (files argv0) /\
  se_boot z e jk hj xjk hjunk al ls rd wr opn ndebug cfuel fuel junk true files (argv0 :: args) <> UB.
Proof. exact boot_safe. Qed.
Print Assumptions C106_start_partial.
Example C106_case : lenN (b "./tool") < VC_BUFFER_SIZE - 1 /\ ~ In x00 (b "./tool") /\ exists out, sb_boot true [b "./tool"] = Ok (SeBuild (CRet 0) out) /\ 524288 < lenN out.
Proof. exact ex_c106. Qed.
