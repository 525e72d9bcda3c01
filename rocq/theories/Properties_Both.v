(** Properties C146 (the command line of the installer) and C147-C149 (archives taken from one system to the other).
    [apt_main W argv]: the installer tool with the arguments [argv], the program's name first; result: exit status and what it did, in order.
    [package_url p], [package_dir]: address of the package p, the directory it is unpacked to, as written in the source.
    [same_tree fs t ws v]: below t and v the two file systems have the same entries, names compared without case; the same kinds and contents;
    read-only on Windows if the owner may not write on Unix.  [dir_modes P nd]: the permissions reported for directories at or below nd satisfy P.
    [win_ready maxd maxf L fs s]: below s the names mean the same on Windows, no two of a directory differ only in case, paths are within the limits.
    Other notions: Properties_Extract.v, Properties_Copy.v, Properties_WinExtract.v, Properties_WinArchive.v. *)
From Coq Require Import String.
From Verif Require Import Base Format Zlib RleZlib LLCompress Compress Parser ParserProofs ParserFacts Decompress DecompressProofs
  DecompressFacts MidProofs MidFacts DecompressExamples ArchiveSpec ArchiveFacts ArchiveDecode ArchiveEntry ArchiveProps ArchiveExamples
  FS FSFacts HL HLSpec HLFacts HLDrive HLProps HLSafe MkdirFacts HLTame HLMkdir HLMore HLExamples WinTools WinExtract WinExtractSpec WinExtractFacts
  WinExtractTame WinExtractExamples BothFacts BothExamples CutSpec CopySpec CopyFacts CopyExamples WinArchive WinArchiveSpec WinArchiveFacts WinArchiveProps
  WinArchiveExamples CrossFacts CrossExamples.
From Verif Require AptGet AptGetExamples AptMore.
Local Notation b := list_byte_of_string.

(** C146: without a command nothing is done and the status is -1. *)
Theorem C146_no_command : forall W argv, (List.length argv < 2)%nat -> AptGet.apt_main W argv = Ok ((-1)%Z, []).
Proof. exact AptMore.no_command. Qed.
Print Assumptions C146_no_command.
(** C146: without a package, or with another command, nothing is done and the status is 0. *)
Theorem C146_other_command : forall W prog cmd more, (more = [] \/ cmd <> b "install") -> AptGet.apt_main W (prog :: cmd :: more) = Ok (0%Z, []).
Proof. exact AptMore.other_command. Qed.
Print Assumptions C146_other_command.
(** C146: whenever install p ends, the first thing done is the download of p; if it fails, it is the only one and its result the status. *)
Theorem C146_first_download : forall W prog package more r log, ~ In x00 package ->
  AptGet.apt_main W (prog :: b "install" :: package :: more) = Ok (r, log) ->
  exists log', log = AptGet.AWeb (AptMore.package_url package) AptMore.package_dir :: log' /\
    (AptGet.w_web W (AptMore.package_url package) AptMore.package_dir <> 0%Z ->
     r = AptGet.w_web W (AptMore.package_url package) AptMore.package_dir /\ log' = []).
Proof. exact AptMore.first_download. Qed.
Print Assumptions C146_first_download.
(** A complete run, in strings; and two that do nothing. *)
Example C146_case :
  AptGet.apt_main (AptGetExamples.ag_world (Some (b "root: C:\app" ++ [x0a] ++ b "run: a.exe" ++ [x0a])) true [Some x00]) [b "apt-get"; b "install"; b "p"] =
    Ok (0%Z, [AptGet.AWeb (AptMore.package_url (b "p")) (b "C:\.dsi-tmp"); AptGet.AOpen (b "C:\.dsi-tmp\s"); AptGet.ADelete (b "C:\.dsi-tmp\s");
      AptGet.AMove (b "C:\.dsi-tmp") (b "C:\app"); AptGet.AStart (b "C:\app\a.exe /Install"); AptGet.AWait]) /\
  AptGet.apt_main (AptGetExamples.ag_world None true [Some x00]) [b "apt-get"] = Ok ((-1)%Z, []) /\
  AptGet.apt_main (AptGetExamples.ag_world None true [Some x00]) [b "apt-get"; b "remove"; b "p"] = Ok (0%Z, []).
Proof. exact AptMore.ex_c146. Qed.

(** C147: false.  Files a and A are two files on Unix and one on Windows; both extractions report success. *)
Theorem C147_both_systems_refuted : exists ret o' wret w', archives_dir rle_zlib wx_two (hx_arch wx_two) /\
  calm rle_zlib hx_hal ax_al hx_stk (zeros DEF_CHUNK_SIZE) ax_hjunk ex_pj /\
  free_spot (hx_os 1000) [x6f] [[x77]; [x6f]] /\ wfree 248 wx_w [x6f] [[x77]; [x6f]] /\
  did_all (hx_extract [x6f] 0 (hx_arch wx_two) (hx_os 1000)) ret o' /\ wdid_all (wx_extract [x6f] (hx_arch wx_two) wx_w) wret w' /\
  ret = ContentDirectory /\ wret = Some ContentDirectory /\ ~ same_tree (o_fs o') [[x77]; [x6f]] (w_fs w') [[x77]; [x6f]].
Proof. exact ex_c147_refuted. Qed.
Print Assumptions C147_both_systems_refuted.
(** What remains of C147: the conditions of C39 and C124 together, and a umask that lets owners write.  The machines may differ in everything:
    byte order, memory, buffers, targets. *)
Theorem C147_both_systems_partial : forall z (C : zlib_contract z) es F e alloc hal al stk obuf hjunk pjunk T archive inp t o fuel
    we walloc whal wal wstk wobuf whjunk wpjunk maxd maxf deny V v w,
  archives_dir z es F -> input_of archive F inp -> (List.length inp < fuel)%nat -> preorder es <> [] -> Forall (fun x => quiet (snd x)) es ->
  calm z hal al stk obuf hjunk pjunk -> (forall k n, alloc k n = true) ->
  Forall (fun x => extractable (o_priv o) (o_umask o) (lenN T) (fst x) (snd x)) es ->
  free_spot o T t -> usable_dir (o_priv o) (o_umask o) MODE_BASE_DIR -> (forall r, o_fs o (t ++ r) = None) ->
  volume (preorder es) <= o_free o -> N.testbit (o_umask o) 7 = false ->
  calm z whal wal wstk wobuf whjunk wpjunk -> (forall k n, walloc k n = true) -> (forall q, deny q = false) -> maxf <= PATH_MAX ->
  NoDup (map (fun x => fold_case (fst x)) es) -> Forall (fun x => wextractable maxd maxf (lenN V) (fst x) (snd x)) es -> wfree maxd w V v ->
  exists dfuel0, forall dfuel, (dfuel0 <= dfuel)%nat -> exists ret s h ds o' wret ws wh wds w',
    exec (extract T hal stk z e alloc archive fuel dfuel al obuf hjunk pjunk inp false) o = Ok ((ret, Some (s, h, ds)), o') /\
    xextract maxd maxf deny V whal wstk z we walloc archive fuel dfuel wal wobuf whjunk wpjunk inp false w = Ok (Some wret, Some (ws, wh, wds), w') /\
    (room_left s -> room_left ws -> ret = wret /\ same_tree (o_fs o') t (w_fs w') v).
Proof. exact both_disks. Qed.
Print Assumptions C147_both_systems_partial.
Example C147_case : exists ret o' wret w', archives_dir rle_zlib bo_tree (hx_arch bo_tree) /\ (List.length (hx_arch bo_tree) < 4000)%nat /\
  calm rle_zlib hx_hal ax_al hx_stk (zeros DEF_CHUNK_SIZE) ax_hjunk ex_pj /\ preorder bo_tree <> [] /\ Forall (fun x => quiet (snd x)) bo_tree /\
  Forall (fun x => extractable false 18 1 (fst x) (snd x)) bo_tree /\ free_spot (hx_os 1000) [x6f] [[x77]; [x6f]] /\
  usable_dir false 18 MODE_BASE_DIR /\ (forall r, o_fs (hx_os 1000) ([[x77]; [x6f]] ++ r) = None) /\ volume (preorder bo_tree) = 1 /\ N.testbit 18 7 = false /\
  NoDup (map (fun x => fold_case (fst x)) bo_tree) /\ Forall (fun x => wextractable 248 260 1 (fst x) (snd x)) bo_tree /\ wfree 248 wx_w [x6f] [[x77]; [x6f]] /\
  did_all (hx_extract [x6f] 0 (hx_arch bo_tree) (hx_os 1000)) ret o' /\ wdid_all (wx_extract [x6f] (hx_arch bo_tree) wx_w) wret w' /\
  o_fs o' [[x77]; [x6f]; [x44]; [x62;x2e;x54;x58;x54]] = Some (IFile 292 [x31]) /\
  w_fs w' [[x77]; [x6f]; [x64]; [x62;x2e;x74;x78;x74]] = Some (XFile true [x31]).
Proof. exact ex_c147. Qed.

(** C148: a directory of Windows (files and directories, at least one entry) archived there and extracted on Unix is the same directory. *)
Theorem C148_windows_to_unix : forall z (C : zlib_contract z) ws s es F e alloc hal al stk obuf hjunk pjunk T archive inp t o fuel,
  wsane ws -> wlists ws s es -> wsuitable PATH_MAX PATH_MAX (lenN T) ws s -> (exists c, ws (s ++ [c]) <> None) ->
  (forall c nd, In (c, nd) es -> ~ dotted c -> dir_modes (usable_dir (o_priv o) (o_umask o)) nd) -> warchives_dir z es F ->
  input_of archive F inp -> (List.length inp < fuel)%nat -> calm z hal al stk obuf hjunk pjunk -> (forall k n, alloc k n = true) ->
  free_spot o T t -> usable_dir (o_priv o) (o_umask o) MODE_BASE_DIR -> (forall r, o_fs o (t ++ r) = None) ->
  volume (preorder (unlinked_all es)) <= o_free o -> N.testbit (o_umask o) 7 = false ->
  exists dfuel0, forall dfuel, (dfuel0 <= dfuel)%nat -> exists ret q h ds o',
    exec (extract T hal stk z e alloc archive fuel dfuel al obuf hjunk pjunk inp false) o = Ok ((ret, Some (q, h, ds)), o') /\
    (room_left q -> ret = ContentDirectory /\ same_env o o' /\ same_tree (o_fs o') t ws s).
Proof. exact to_unix. Qed.
Print Assumptions C148_windows_to_unix.
Example C148_case : exists ret o', wsane (w_fs wc_w) /\ wlists (w_fs wc_w) [[x73]] wc_tree /\ wsuitable PATH_MAX PATH_MAX 1 (w_fs wc_w) [[x73]] /\
  w_fs wc_w [[x73]; [x64]] <> None /\ (forall c nd, In (c, nd) wc_tree -> ~ dotted c -> dir_modes (usable_dir false 18) nd) /\
  warchives_dir rle_zlib wc_tree (wa_arch wa_free wc_tree) /\
  calm rle_zlib hx_hal ax_al hx_stk (zeros DEF_CHUNK_SIZE) ax_hjunk ex_pj /\ free_spot (hx_os 1000) [x6f] [[x77]; [x6f]] /\ usable_dir false 18 MODE_BASE_DIR /\
  (forall r, o_fs (hx_os 1000) ([[x77]; [x6f]] ++ r) = None) /\ volume (preorder (unlinked_all wc_tree)) <= 1000 /\ N.testbit 18 7 = false /\
  did_all (hx_extract [x6f] 0 (wa_arch wa_free wc_tree) (hx_os 1000)) ret o' /\ ret = ContentDirectory /\
  o_fs o' [[x77]; [x6f]; [x44]; [x62;x2e;x54;x58;x54]] = Some (IFile 292 [x31]) /\ o_fs o' [[x77]; [x6f]; [x65]] = Some (IFile 420 [x32;x33]).
Proof. exact ex_c148. Qed.

(** C149: a directory of Unix whose names mean the same on Windows, archived there and extracted on Windows, is the same directory. *)
Theorem C149_unix_to_windows : forall maxd maxf deny z (C : zlib_contract z) fs s es F e alloc hal al stk obuf hjunk pjunk T archive inp t w fuel,
  sane fs -> lists fs s es -> no_links fs s -> win_ready maxd maxf (lenN T) fs s -> (exists c, fs (s ++ [c]) <> None) -> archives_dir z es F ->
  input_of archive F inp -> (List.length inp < fuel)%nat -> calm z hal al stk obuf hjunk pjunk -> (forall k n, alloc k n = true) -> (forall q, deny q = false) ->
  maxf <= PATH_MAX -> wfree maxd w T t ->
  exists dfuel0, forall dfuel, (dfuel0 <= dfuel)%nat -> exists ret q h ds w',
    xextract maxd maxf deny T hal stk z e alloc archive fuel dfuel al obuf hjunk pjunk inp false w = Ok (Some ret, Some (q, h, ds), w') /\
    (room_left q -> ret = ContentDirectory /\ same_w w w' /\ same_tree fs s (w_fs w') t).
Proof. exact to_windows. Qed.
Print Assumptions C149_unix_to_windows.
Example C149_case : exists ret w', sane (o_fs (cp_os [])) /\ lists (o_fs (cp_os [])) [[x73]] cp_tree /\ no_links (o_fs (cp_os [])) [[x73]] /\
  win_ready 248 260 1 (o_fs (cp_os [])) [[x73]] /\ o_fs (cp_os []) [[x73]; [x64]] <> None /\ archives_dir rle_zlib cp_tree (hx_arch cp_tree) /\
  calm rle_zlib hx_hal ax_al hx_stk (zeros DEF_CHUNK_SIZE) ax_hjunk ex_pj /\ wfree 248 wx_w [x6f] [[x77]; [x6f]] /\
  wdid_all (wx_extract [x6f] (hx_arch cp_tree) wx_w) ret w' /\ ret = Some ContentDirectory /\
  w_fs w' [[x77]; [x6f]; [x64]; [x61;x62;x63]] = Some (XFile false [x31;x32;x33]) /\ w_fs w' [[x77]; [x6f]; [x65]] = Some XDir.
Proof. exact ex_c149. Qed.
(** A directory of Windows taken to Unix and back has not changed. *)
Theorem C149_there_and_back : forall fs t ws s ws' v, same_tree fs t ws s -> same_tree fs t ws' v -> forall p, ws (s ++ p) = ws' (v ++ p).
Proof. exact there_and_back. Qed.
Print Assumptions C149_there_and_back.
