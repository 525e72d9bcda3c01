(** Properties C39-C48 and C51-C55 (extraction to disk).
    [exec (extract T ... archive ... inp rderr) o]: ZlibWtDecompressFileOrDirEx reads the file contents [inp] (then a read
    error if [rderr]) with size limit [archive] (0: none) and target path [T], starting in the file system state [o].
    [calm]: memory allocations succeed, the stack holds a path, the buffers have their declared sizes.
    [archives_dir z es F]: [F] is an archive of the listing [es] written with some filter that accepts everything, level, byte
    order; the last deflate step did not fill its buffer (C06).  [room_left s]: neither did the last inflate step (C13).
    [free_spot o T t]: [T] leads to the free entry [t] of a directory in which the process may create entries.
    [overlay t g fs]: the tree [g] at [t], elsewhere [fs].  [dir_tree um es]: the listing [es] created with umask [um]. *)
From Verif Require Import Base Format Zlib RleZlib LLCompress Compress Parser ParserProofs ParserFacts Decompress DecompressProofs
  DecompressFacts MidProofs MidFacts DecompressExamples ArchiveSpec ArchiveFacts ArchiveDecode ArchiveEntry ArchiveProps ArchiveExamples
  FS FSFacts HL HLSpec HLFacts HLDrive HLProps HLSafe MkdirFacts HLTame HLMkdir HLMore HLExamples.

(** C39: false.  The archive of an empty directory creates nothing. *)
Theorem C39_directory_on_disk_refuted : exists ret o', archives_dir rle_zlib [] (hx_arch []) /\ free_spot (hx_os 1000) [x6f] [[x77]; [x6f]] /\
  did (hx_extract [x6f] 0 (hx_arch []) (hx_os 1000)) ret o' /\ ret = ContentNone /\ o_fs o' [[x77]; [x6f]] = None.
Proof. exact ex_c39_empty. Qed.
Print Assumptions C39_directory_on_disk_refuted.
(** What remains of C39: trees of files and directories with at least one entry, directories in which the process may
    create entries, enough free space. *)
Theorem C39_directory_on_disk_partial : forall z (C : zlib_contract z) es F e alloc hal al stk obuf hjunk pjunk T archive inp t o fuel,
  archives_dir z es F -> input_of archive F inp -> (length inp < fuel)%nat -> calm z hal al stk obuf hjunk pjunk ->
  (forall k n, alloc k n = true) -> preorder es <> [] -> Forall (fun x => quiet (snd x)) es -> NoDup (map fst es) ->
  Forall (fun x => extractable (o_priv o) (o_umask o) (lenN T) (fst x) (snd x)) es ->
  free_spot o T t -> usable_dir (o_priv o) (o_umask o) MODE_BASE_DIR -> (forall r, o_fs o (t ++ r) = None) ->
  volume (preorder es) <= o_free o ->
  exists dfuel0, forall dfuel, (dfuel0 <= dfuel)%nat -> exists ret s h ds o',
    exec (extract T hal stk z e alloc archive fuel dfuel al obuf hjunk pjunk inp false) o = Ok ((ret, Some (s, h, ds)), o') /\
    (room_left s -> ret = ContentDirectory /\ same_env o o' /\ forall q, o_fs o' q = overlay t (dir_tree (o_umask o) es) (o_fs o) q).
Proof. exact disk_dir. Qed.
Print Assumptions C39_directory_on_disk_partial.
Example C39_case : exists ret o', archives_dir rle_zlib hx_tree (hx_arch hx_tree) /\
  calm rle_zlib hx_hal ax_al hx_stk (zeros DEF_CHUNK_SIZE) ax_hjunk ex_pj /\
  (length (hx_arch hx_tree) < 4000)%nat /\ preorder hx_tree <> [] /\ Forall (fun x => quiet (snd x)) hx_tree /\ NoDup (map fst hx_tree) /\
  Forall (fun x => extractable false 18 1 (fst x) (snd x)) hx_tree /\ free_spot (hx_os 1000) [x6f] [[x77]; [x6f]] /\
  usable_dir false 18 MODE_BASE_DIR /\ (forall r, o_fs (hx_os 1000) ([[x77]; [x6f]] ++ r) = None) /\ volume (preorder hx_tree) = 4 /\
  did_all (hx_extract [x6f] 0 (hx_arch hx_tree) (hx_os 1000)) ret o' /\
  o_fs o' [[x77]; [x6f]; [x64]; [x61;x62;x63]] = Some (IFile 420 [x31;x32;x33]) /\ o_fs o' [[x77]; [x6f]; [x64]; [x65]] = Some (IDir 448).
Proof. exact ex_c39. Qed.

(** C40: false.  The archive of an empty file creates nothing. *)
Theorem C40_file_on_disk_refuted : exists ret o', archives_file rle_zlib [] (hx_farch []) /\ writable_spot (hx_os 1000) [x6f] [[x77]; [x6f]] 420 /\
  did (hx_extract [x6f] 0 (hx_farch []) (hx_os 1000)) ret o' /\ ret = ContentNone /\ o_fs o' [[x77]; [x6f]] = None.
Proof. exact ex_c40_empty. Qed.
Print Assumptions C40_file_on_disk_refuted.
(** What remains of C40: files with at least one byte.  [writable_spot o T t m]: [T] leads to [t], a free entry or a writable
    file; [m] is the mode of the file afterwards. *)
Theorem C40_file_on_disk_partial : forall z (C : zlib_contract z) data F e alloc hal al stk obuf hjunk pjunk T archive inp t m o fuel,
  archives_file z data F -> input_of archive F inp -> (length inp < fuel)%nat -> calm z hal al stk obuf hjunk pjunk ->
  data <> [] -> writable_spot o T t m -> lenN data <= o_free o ->
  exists dfuel0, forall dfuel, (dfuel0 <= dfuel)%nat -> exists ret s h ds o',
    exec (extract T hal stk z e alloc archive fuel dfuel al obuf hjunk pjunk inp false) o = Ok ((ret, Some (s, h, ds)), o') /\
    same_env o o' /\ (room_left s -> ret = ContentFile /\ forall q, o_fs o' q = upd (o_fs o) t (IFile m data) q).
Proof. exact disk_file. Qed.
Print Assumptions C40_file_on_disk_partial.
Example C40_case : exists ret o', archives_file rle_zlib [x61;x62] (hx_farch [x61;x62]) /\ writable_spot (hx_os 1000) [x2f;x66] [[x66]] 420 /\
  did_all (hx_extract [x2f;x66] 0 (hx_farch [x61;x62]) (hx_os 1000)) ret o' /\ ret = ContentFile /\ o_fs (hx_os 1000) [[x66]] = Some (IFile 420 [x6f;x6c;x64]) /\
  o_fs o' [[x66]] = Some (IFile 420 [x61;x62]).
Proof. exact ex_c40. Qed.

(** C41: false.  An entry named "../x". *)
Theorem C41_stays_below_refuted : exists ret o', did (hx_extract [x6f] 0 (rx_arch (rx_file [x2e;x2e;x2f;x78] [x31] 420)) (hx_os 1000)) ret o' /\
  free_spot (hx_os 1000) [x6f] [[x77]; [x6f]] /\ o_fs (hx_os 1000) [[x77]; [x78]] = None /\ o_fs o' [[x77]; [x78]] = Some (IFile 420 [x31]).
Proof. exact ex_c41_up. Qed.
Print Assumptions C41_stays_below_refuted.
(** What remains of C41: archives, also truncated or damaged ones, for which every decoding calls back only with plain names
    of the announced length, leaves only directories it entered and contains no links ([lists_tame]); nothing outside the
    target is created or changed, for every umask, privilege and amount of free space. *)
Theorem C41_stays_below_partial : forall z (C : zlib_contract z) e alloc hal al stk obuf hjunk pjunk, calm z hal al stk obuf hjunk pjunk ->
  forall T archive inp t o fuel, (length inp < fuel)%nat ->
  supported z C (first_bytes archive inp) -> lists_tame (z := z) e alloc (lenN T) stk (first_bytes archive inp) ->
  free_spot o T t -> slash_end T = false -> usable_dir (o_priv o) (o_umask o) MODE_BASE_DIR -> (forall r, o_fs o (t ++ r) = None) ->
  exists dfuel0, forall dfuel, (dfuel0 <= dfuel)%nat -> exists ret s h ds o',
    exec (extract T hal stk z e alloc archive fuel dfuel al obuf hjunk pjunk inp false) o = Ok ((ret, Some (s, h, ds)), o') /\
    forall q, strip t q = None -> o_fs o' q = o_fs o q.
Proof. exact stays_below. Qed.
Print Assumptions C41_stays_below_partial.
(** Every beginning of an archive written by the library is such an archive. *)
Theorem C41_own_archives : forall z (C : zlib_contract z) e alloc hal al stk obuf hjunk pjunk, calm z hal al stk obuf hjunk pjunk ->
  forall L es F archive inp, (forall k n, alloc k n = true) -> archives_dir z es F -> prefix (first_bytes archive inp) F ->
  forall priv um, Forall (fun x => quiet (snd x)) es -> Forall (fun x => extractable priv um L (fst x) (snd x)) es ->
  supported z C (first_bytes archive inp) /\ lists_tame (z := z) e alloc L stk (first_bytes archive inp).
Proof. exact own_tame. Qed.
Print Assumptions C41_own_archives.
Example C41_case : archives_dir rle_zlib hx_tree (hx_arch hx_tree) /\
  prefix (first_bytes 100 (hx_arch hx_tree)) (hx_arch hx_tree) /\ lenN (hx_arch hx_tree) = 168 /\
  supported rle_zlib rle_contract (first_bytes 100 (hx_arch hx_tree)) /\
  lists_tame (z := rle_zlib) LE ex_alloc 1 hx_stk (first_bytes 100 (hx_arch hx_tree)) /\
  slash_end [x6f] = false /\ free_spot (hx_os 1000) [x6f] [[x77]; [x6f]].
Proof. exact ex_c41. Qed.

(** C42: false.  The target /w exists; the entry x is created in the root directory. *)
Theorem C42_existing_target_refuted : exists ret o', did (hx_extract [x2f;x77] 0 (rx_arch (rx_file [x78] [x31] 420)) (hx_os 1000)) ret o' /\
  exists_at (hx_os 1000) [x2f;x77] /\ o_fs (hx_os 1000) [[x78]] = None /\ o_fs o' [[x78]] = Some (IFile 420 [x31]).
Proof. exact ex_c42_root. Qed.
Print Assumptions C42_existing_target_refuted.
(** What remains of C42: an extraction that returns reports failure and removes nothing ([keeps]). *)
Theorem C42_existing_target_partial : forall z (C : zlib_contract z) e alloc hal al stk obuf hjunk pjunk, calm z hal al stk obuf hjunk pjunk ->
  forall T archive fuel dfuel inp rderr o ret x o',
  archive_of ContentDirectory (zc_dec C (first_bytes archive inp)) -> exists_at o T ->
  exec (extract T hal stk z e alloc archive fuel dfuel al obuf hjunk pjunk inp rderr) o = Ok ((ret, x), o') ->
  ret = ContentNone /\ keeps (o_fs o) (o_fs o').
Proof. exact target_exists. Qed.
Print Assumptions C42_existing_target_partial.
Example C42_case : exists ret o', did (hx_extract [x2f;x77] 0 (hx_arch [([x62], SFile true true 493 1 [x7a] false)]) (hx_os 1000)) ret o' /\ exists_at (hx_os 1000) [x2f;x77] /\
  archive_of ContentDirectory (zc_dec rle_contract (first_bytes 0 (hx_arch [([x62], SFile true true 493 1 [x7a] false)]))).
Proof. exact ex_c42. Qed.

(** C43: false.  The end of the archive is missing. *)
Theorem C43_success_is_complete_refuted : exists ret o', lenN (rx_arch (rx_file [x78] [x31;x32;x33] 420)) = 368 /\
  did (hx_extract [x6f] 0 (takeN 340 (rx_arch (rx_file [x78] [x31;x32;x33] 420))) (hx_os 1000)) ret o' /\
  ret = ContentDirectory /\ o_fs o' [[x77]; [x6f]; [x78]] = None.
Proof. exact ex_c43_cut. Qed.
Print Assumptions C43_success_is_complete_refuted.
(** What remains of C43: the content type reported is the one stated by the header of the archive. *)
Theorem C43_success_is_complete_partial : forall z (C : zlib_contract z) e alloc hal al stk obuf hjunk pjunk, calm z hal al stk obuf hjunk pjunk ->
  forall T archive fuel dfuel inp rderr o ret x o', supported z C (first_bytes archive inp) ->
  exec (extract T hal stk z e alloc archive fuel dfuel al obuf hjunk pjunk inp rderr) o = Ok ((ret, x), o') -> ret <> ContentNone ->
  exists typ, archive_of typ (zc_dec C (first_bytes archive inp)) /\
    ((ret = ContentDirectory /\ typ = ContentDirectory) \/ (ret = ContentFile /\ (typ = ContentFile \/ typ = ContentBlob))).
Proof. exact extract_type. Qed.
Print Assumptions C43_success_is_complete_partial.
Example C43_case : exists ret o', did (hx_extract [x6f] 0 (hx_arch hx_tree) (hx_os 1000)) ret o' /\ ret = ContentDirectory /\
  supported rle_zlib rle_contract (first_bytes 0 (hx_arch hx_tree)).
Proof. exact ex_c43. Qed.

(** C44.  [ds]: the bytes passed to the decompression session, in order. *)
Theorem C44_archive_size_limit : forall z T hal stk e alloc archive fuel dfuel al obuf hjunk pjunk inp rderr o ret (s : dsess z) h ds o',
  exec (extract T hal stk z e alloc archive fuel dfuel al obuf hjunk pjunk inp rderr) o = Ok ((ret, Some (s, h, ds)), o') ->
  prefix ds (first_bytes archive inp) /\ (ret <> ContentNone \/ rderr = false -> h_err h = false -> ds = first_bytes archive inp).
Proof. exact extract_fed. Qed.
Print Assumptions C44_archive_size_limit.
Example C44_case : exists s h ds o',
  hx_extract [x6f] 168 (hx_arch hx_tree ++ [x41;x42]) (hx_os 1000) = Ok ((ContentDirectory, Some (s, h, ds)), o') /\
  h_err h = false /\ first_bytes 168 (hx_arch hx_tree ++ [x41;x42]) = hx_arch hx_tree.
Proof. exact ex_c44. Qed.

(** C45: false.  A truncated archive leaves the file open. *)
Theorem C45_files_closed_refuted : exists ret o', did (hx_extract [x6f] 0 (takeN 354 (rx_arch (rx_file [x78] [x31;x32;x33] 420))) (hx_os 1000)) ret o' /\
  o_fds (hx_os 1000) = [] /\ o_fds o' <> [].
Proof. exact ex_c45_open. Qed.
Print Assumptions C45_files_closed_refuted.
(** What remains of C45: for the archives of C41, at most one file is left open, and none if the callbacks [evs] end as many
    files as they begin. *)
Theorem C45_files_closed_partial : forall z (C : zlib_contract z) e alloc hal al stk obuf hjunk pjunk, calm z hal al stk obuf hjunk pjunk ->
  forall T archive inp t o fuel, (length inp < fuel)%nat ->
  supported z C (first_bytes archive inp) -> lists_tame (z := z) e alloc (lenN T) stk (first_bytes archive inp) ->
  free_spot o T t -> slash_end T = false -> usable_dir (o_priv o) (o_umask o) MODE_BASE_DIR -> (forall r, o_fs o (t ++ r) = None) ->
  exists dfuel0, forall dfuel, (dfuel0 <= dfuel)%nat -> exists ret s0 ops rets s evs h o',
    exec (extract T hal stk z e alloc archive fuel dfuel al obuf hjunk pjunk inp false) o = Ok ((ret, Some (s, h, dfed ops)), o') /\
    started z s0 /\ Forall dop_ok ops /\ prefix (dfed ops) (first_bytes archive inp) /\
    run_dops e alloc dfuel s0 ops = Ok (rets, s, evs) /\ only_below t o o' /\ (file_opens evs = file_ends evs -> o_fds o' = o_fds o).
Proof. exact tame_first. Qed.
Print Assumptions C45_files_closed_partial.
(** A complete directory archive leaves no file open. *)
Theorem C45_complete_archive : forall z (C : zlib_contract z) es F e alloc hal al stk obuf hjunk pjunk T archive inp t o fuel,
  archives_dir z es F -> input_of archive F inp -> (length inp < fuel)%nat -> calm z hal al stk obuf hjunk pjunk ->
  (forall k n, alloc k n = true) -> preorder es <> [] -> Forall (fun x => quiet (snd x)) es -> NoDup (map fst es) ->
  Forall (fun x => extractable (o_priv o) (o_umask o) (lenN T) (fst x) (snd x)) es ->
  free_spot o T t -> usable_dir (o_priv o) (o_umask o) MODE_BASE_DIR -> (forall r, o_fs o (t ++ r) = None) ->
  volume (preorder es) <= o_free o ->
  exists dfuel0, forall dfuel, (dfuel0 <= dfuel)%nat -> exists ret s h ds o',
    exec (extract T hal stk z e alloc archive fuel dfuel al obuf hjunk pjunk inp false) o = Ok ((ret, Some (s, h, ds)), o') /\
    (room_left s -> o_fds o' = o_fds o).
Proof. exact complete_closed. Qed.
Print Assumptions C45_complete_archive.
Example C45_case : archives_dir rle_zlib hx_tree (hx_arch hx_tree) /\
  supported rle_zlib rle_contract (first_bytes 100 (hx_arch hx_tree)) /\
  lists_tame (z := rle_zlib) LE ex_alloc 1 hx_stk (first_bytes 100 (hx_arch hx_tree)) /\ free_spot (hx_os 1000) [x6f] [[x77]; [x6f]].
Proof. exact ex_c45. Qed.

(** C46.  [joined B cs]: the path [B]/c1/.../ck. *)
Theorem C46_missing_parents : forall B, ~ In x00 B -> forall o b cs mode,
  free_spot o B b -> (forall r, o_fs o (b ++ r) = None) -> usable_dir (o_priv o) (o_umask o) mode ->
  Forall plain cs -> (length cs <= 61)%nat -> lenN (joined B cs) < PATH_MAX ->
  exists o', exec (mkdir_recurse true (joined B cs) mode) o = Ok (0%Z, o') /\ same_env o o' /\
    (forall r, prefix r cs -> o_fs o' (b ++ r) = Some (IDir (dir_perm (o_umask o) mode))) /\
    (forall q, (forall r, prefix r cs -> q <> b ++ r) -> o_fs o' q = o_fs o q).
Proof. exact mkdir_creates. Qed.
Print Assumptions C46_missing_parents.
Theorem C46_directory_exists : forall B, ~ In x00 B -> forall o t mode,
  dir_at o B t -> lenN B < PATH_MAX -> exec (mkdir_recurse true B mode) o = Ok (1%Z, o).
Proof. exact mkdir_on_dir. Qed.
Print Assumptions C46_directory_exists.
Theorem C46_file_exists : forall B, ~ In x00 B -> forall o d c m x mode,
  namei false o B = WAt d c (Some (IFile m x)) -> exec (mkdir_recurse true B mode) o = Ok ((-1)%Z, o).
Proof. exact mkdir_on_file. Qed.
Print Assumptions C46_file_exists.
Example C46_case : free_spot (hx_os 1000) [x6f] [[x77]; [x6f]] /\ (forall r, o_fs (hx_os 1000) ([[x77]; [x6f]] ++ r) = None) /\
  usable_dir false 18 493 /\ Forall plain [[x61]; [x62]] /\ joined [x6f] [[x61]; [x62]] = [x6f;x2f;x61;x2f;x62] /\
  dir_at (hx_os 1000) [x2f;x77] [[x77]] /\ namei false (hx_os 1000) [x2f;x66] = WAt [] [x66] (Some (IFile 420 [x6f;x6c;x64])).
Proof. exact ex_c46. Qed.

(** C47: false.  63 missing levels; a trailing separator.  [mkdir_all ps mode o]: the directories [ps] created one by one. *)
Theorem C47_any_depth_refuted : Forall plain (deep 62) /\ (exists o', mkdir_all (stairs [x6f] (deep 62)) 493 (hx_os 1000) = Some o') /\
  exists o', exec (mkdir_recurse true (joined [x6f] (deep 62)) 493) (hx_os 1000) = Ok ((-1)%Z, o').
Proof. exact ex_c47_deep. Qed.
Print Assumptions C47_any_depth_refuted.
Theorem C47_any_spelling_refuted : (exists o', mkdir_all [[x6e]; [x6e;x2f;x6d;x2f]] 493 (hx_os 1000) = Some o') /\
  exists o', exec (mkdir_recurse true [x6e;x2f;x6d;x2f] 493) (hx_os 1000) = Ok ((-1)%Z, o').
Proof. exact ex_c47_slash. Qed.
Print Assumptions C47_any_spelling_refuted.
(** What remains of C47: at most 62 missing levels separated by single separators.  [stairs B cs]: B, B/c1, B/c1/c2, ... *)
Theorem C47_any_depth_partial : forall B, ~ In x00 B -> forall o o' cs mode,
  Forall plain cs -> (length cs <= 61)%nat -> mkdir_all (stairs B cs) mode o = Some o' ->
  exec (mkdir_recurse true (joined B cs) mode) o = Ok (0%Z, o').
Proof. exact mkdir_one_by_one. Qed.
Print Assumptions C47_any_depth_partial.
Example C47_case : Forall plain (deep 20) /\ exists o', mkdir_all (stairs [x6f] (deep 20)) 493 (hx_os 1000) = Some o'.
Proof. exact ex_c47. Qed.

(** C48: false.  The parent of the working directory must not be searched; the archive contains a link. *)
Theorem C48_working_directory_refuted : exists ret o', did (hx_extract [x2f;x77;x2f;x6f] 0 (rx_arch (rx_link [x6c] [x78])) hx_locked) ret o' /\
  o_cwd hx_locked = [[x70];[x63]] /\ o_cwd o' = [[x77];[x6f]].
Proof. exact ex_c48_moved. Qed.
Print Assumptions C48_working_directory_refuted.
(** What remains of C48: the process may search all directories above its working directory; any archive. *)
Theorem C48_working_directory_partial : forall z T hal stk e alloc archive fuel dfuel al obuf hjunk pjunk inp rderr o ret x o',
  reachable o ->
  exec (extract T hal stk z e alloc archive fuel dfuel al obuf hjunk pjunk inp rderr) o = Ok ((ret, x), o') -> o_cwd o' = o_cwd o.
Proof. exact extract_home. Qed.
Print Assumptions C48_working_directory_partial.
Example C48_case : exists ret o', did (hx_extract [x6f] 0 (rx_arch (rx_link [x6c] [x78])) (hx_os 1000)) ret o' /\ reachable (hx_os 1000) /\
  o_fs o' [[x77]; [x6f]; [x6c]] = Some (ILink [x78]).
Proof. exact ex_c48. Qed.

(** C51: false.  The disk is full after two bytes. *)
Theorem C51_write_failure_refuted : exists ret o', archives_dir rle_zlib hx_tree (hx_arch hx_tree) /\
  did_all (hx_extract [x6f] 0 (hx_arch hx_tree) (hx_os 2)) ret o' /\
  ret = ContentDirectory /\ o_fs o' [[x77]; [x6f]; [x64]; [x61;x62;x63]] = Some (IFile 420 [x31;x32]).
Proof. exact ex_c51_full. Qed.
Print Assumptions C51_write_failure_refuted.
(** What remains of C51: a target directory that cannot be created is reported. *)
Theorem C51_write_failure_partial : forall z (C : zlib_contract z) e alloc hal al stk obuf hjunk pjunk, calm z hal al stk obuf hjunk pjunk ->
  forall T archive fuel dfuel inp rderr o ret x o' r o1,
  archive_of ContentDirectory (zc_dec C (first_bytes archive inp)) ->
  exec (mkdir_recurse true T MODE_BASE_DIR) o = Ok (r, o1) -> r <> 0%Z ->
  exec (extract T hal stk z e alloc archive fuel dfuel al obuf hjunk pjunk inp rderr) o = Ok ((ret, x), o') -> ret = ContentNone.
Proof. exact target_fails. Qed.
Print Assumptions C51_write_failure_partial.
Example C51_case : exists ret o', exec (mkdir_recurse true [x2f;x66;x2f;x6f] MODE_BASE_DIR) (hx_os 1000) = Ok ((-1)%Z, hx_os 1000) /\
  archive_of ContentDirectory (zc_dec rle_contract (first_bytes 0 (hx_arch [([x62], SFile true true 493 1 [x7a] false)]))) /\
  did (hx_extract [x2f;x66;x2f;x6f] 0 (hx_arch [([x62], SFile true true 493 1 [x7a] false)]) (hx_os 1000)) ret o'.
Proof. exact ex_c51. Qed.

(** C52: false for an unprivileged process. *)
Theorem C52_read_only_directories_refuted : exists ret o', archives_dir rle_zlib hx_ro (hx_arch hx_ro) /\
  did_all (hx_extract [x6f] 0 (hx_arch hx_ro) (hx_os 1000)) ret o' /\ o_priv (hx_os 1000) = false /\
  ret = ContentDirectory /\ o_fs o' [[x77]; [x6f]; [x64]; [x61;x62;x63]] = None.
Proof. exact ex_c52_lost. Qed.
Print Assumptions C52_read_only_directories_refuted.
(** What remains of C52: a privileged process restores directories of any mode. *)
Theorem C52_read_only_directories_partial : forall z (C : zlib_contract z) es F e alloc hal al stk obuf hjunk pjunk T archive inp t o fuel,
  archives_dir z es F -> input_of archive F inp -> (length inp < fuel)%nat -> calm z hal al stk obuf hjunk pjunk ->
  (forall k n, alloc k n = true) -> preorder es <> [] -> Forall (fun x => quiet (snd x)) es -> NoDup (map fst es) ->
  o_priv o = true -> Forall (fun x => nameable (lenN T) (fst x) (snd x)) es ->
  free_spot o T t -> (forall r, o_fs o (t ++ r) = None) -> volume (preorder es) <= o_free o ->
  exists dfuel0, forall dfuel, (dfuel0 <= dfuel)%nat -> exists ret s h ds o',
    exec (extract T hal stk z e alloc archive fuel dfuel al obuf hjunk pjunk inp false) o = Ok ((ret, Some (s, h, ds)), o') /\
    (room_left s -> ret = ContentDirectory /\ same_env o o' /\ forall q, o_fs o' q = overlay t (dir_tree (o_umask o) es) (o_fs o) q).
Proof. exact disk_priv. Qed.
Print Assumptions C52_read_only_directories_partial.
Example C52_case : exists ret o', archives_dir rle_zlib hx_ro (hx_arch hx_ro) /\ o_priv hx_root = true /\ free_spot hx_root [x6f] [[x77]; [x6f]] /\
  Forall (fun x => nameable 1 (fst x) (snd x)) hx_ro /\
  did_all (hx_extract [x6f] 0 (hx_arch hx_ro) hx_root) ret o' /\
  o_fs o' [[x77]; [x6f]; [x64]; [x61;x62;x63]] = Some (IFile 420 [x31;x32;x33]).
Proof. exact ex_c52. Qed.

(** C53: false.  A name length of 4294967295 is rounded up to 0. *)
Theorem C53_name_lengths_refuted :
  hx_extract [x6f] 0 (rx_arch (file_item LE 4294967295 420 0 ex_j ++ padded [x78])) (hx_os 1000) = UB.
Proof. exact ex_c53_ub. Qed.
Print Assumptions C53_name_lengths_refuted.
(** What remains of C53: the archives of C41 are extracted without undefined behaviour. *)
Theorem C53_name_lengths_partial : forall z (C : zlib_contract z) e alloc hal al stk obuf hjunk pjunk, calm z hal al stk obuf hjunk pjunk ->
  forall T archive inp t o fuel, (length inp < fuel)%nat ->
  supported z C (first_bytes archive inp) -> lists_tame (z := z) e alloc (lenN T) stk (first_bytes archive inp) ->
  free_spot o T t -> slash_end T = false -> usable_dir (o_priv o) (o_umask o) MODE_BASE_DIR -> (forall r, o_fs o (t ++ r) = None) ->
  exists dfuel0, forall dfuel, (dfuel0 <= dfuel)%nat -> exists r,
    exec (extract T hal stk z e alloc archive fuel dfuel al obuf hjunk pjunk inp false) o = Ok r.
Proof. exact tame_returns. Qed.
Print Assumptions C53_name_lengths_partial.
Example C53_case : archives_dir rle_zlib hx_tree (hx_arch hx_tree) /\
  supported rle_zlib rle_contract (first_bytes 100 (hx_arch hx_tree)) /\
  lists_tame (z := rle_zlib) LE ex_alloc 1 hx_stk (first_bytes 100 (hx_arch hx_tree)) /\ free_spot (hx_os 1000) [x6f] [[x77]; [x6f]].
Proof. exact ex_c45. Qed.

(** C54: false.  The later entry is shorter. *)
Theorem C54_later_entry_refuted : exists ret o', archives_with rle_zlib hx_first (hx_twice [x39]) (hx_xarch false hx_first (hx_twice [x39])) /\
  did_all (hx_extract [x6f] 0 (hx_xarch false hx_first (hx_twice [x39])) (hx_os 1000)) ret o' /\
  o_fs o' [[x77]; [x6f]; [x62]] = Some (IFile 420 [x39;x32;x33]).
Proof. exact ex_c54_rest. Qed.
Print Assumptions C54_later_entry_refuted.
(** What remains of C54: the later entry overwrites the beginning of the earlier one; hence its bytes are the contents if it
    is at least as long.  [archives_with z xs es F]: an archive with the extra buffers [xs] in front of [es]. *)
Theorem C54_later_entry_partial : forall z (C : zlib_contract z) xs es c m1 d1 m2 d2 F e alloc hal al stk obuf hjunk pjunk T archive inp t o fuel,
  archives_with z xs (es ++ [(c, SFile true true m2 (lenN d2) d2 false)]) F -> input_of archive F inp -> (length inp < fuel)%nat ->
  calm z hal al stk obuf hjunk pjunk -> (forall k n, alloc k n = true) ->
  Forall (fun x => quiet (snd x)) es -> Forall (fun x => plain (xb_path x)) xs -> plain c -> lenN T + 1 + lenN c < PATH_MAX ->
  NoDup (map fst (as_files xs ++ es)) ->
  Forall (fun x => extractable (o_priv o) (o_umask o) (lenN T) (fst x) (snd x)) (as_files xs ++ es) ->
  tree_at (o_umask o) [c] (as_files xs ++ es) = Some (IFile m1 d1) -> can_w (o_priv o) m1 = true ->
  free_spot o T t -> usable_dir (o_priv o) (o_umask o) MODE_BASE_DIR -> (forall r, o_fs o (t ++ r) = None) ->
  volume (preorder (as_files xs ++ es)) + lenN d2 <= o_free o ->
  exists dfuel0, forall dfuel, (dfuel0 <= dfuel)%nat -> exists ret s h ds o',
    exec (extract T hal stk z e alloc archive fuel dfuel al obuf hjunk pjunk inp false) o = Ok ((ret, Some (s, h, ds)), o') /\
    (room_left s -> ret = ContentDirectory /\ same_env o o' /\
      forall q, o_fs o' q = upd (overlay t (dir_tree (o_umask o) (as_files xs ++ es)) (o_fs o)) (t ++ [c]) (IFile m1 (d2 ++ dropN (lenN d2) d1)) q).
Proof. exact disk_again. Qed.
Print Assumptions C54_later_entry_partial.
Example C54_case : exists ret o', archives_with rle_zlib hx_first (hx_twice [x39;x38;x37;x36]) (hx_xarch false hx_first (hx_twice [x39;x38;x37;x36])) /\
  Forall (fun x => plain (xb_path x)) hx_first /\
  tree_at 18 [[x62]] (as_files hx_first) = Some (IFile 420 [x31;x32;x33]) /\ can_w false 420 = true /\
  Forall (fun x => extractable false 18 1 (fst x) (snd x)) (as_files hx_first) /\
  did_all (hx_extract [x6f] 0 (hx_xarch false hx_first (hx_twice [x39;x38;x37;x36])) (hx_os 1000)) ret o' /\
  o_fs o' [[x77]; [x6f]; [x62]] = Some (IFile 420 [x39;x38;x37;x36]).
Proof. exact ex_c54. Qed.

(** C55: false.  The directory record written for an extra buffer has the mode 0. *)
Theorem C55_extra_buffers_on_disk_refuted : exists ret o', Forall xb_ok hx_nest /\
  did_all (hx_extract [x6f] 0 (hx_xarch true hx_nest []) (hx_os 1000)) ret o' /\ ret = ContentDirectory /\
  o_fs o' [[x77]; [x6f]; [x64]] = Some (IDir 0) /\
  o_fs o' [[x77]; [x6f]; [x64]; [x61]] = None /\ o_fs o' [[x77]; [x6f]; [x64]; [x62]] = None.
Proof. exact ex_c55_lost. Qed.
Print Assumptions C55_extra_buffers_on_disk_refuted.
(** What remains of C55: extra buffers with plain names, at the top level. *)
Theorem C55_extra_buffers_on_disk_partial : forall z (C : zlib_contract z) xs es F e alloc hal al stk obuf hjunk pjunk T archive inp t o fuel,
  archives_with z xs es F -> input_of archive F inp -> (length inp < fuel)%nat -> calm z hal al stk obuf hjunk pjunk ->
  (forall k n, alloc k n = true) -> preorder (as_files xs ++ es) <> [] -> Forall (fun x => quiet (snd x)) es ->
  Forall (fun x => plain (xb_path x)) xs -> NoDup (map fst (as_files xs ++ es)) ->
  Forall (fun x => extractable (o_priv o) (o_umask o) (lenN T) (fst x) (snd x)) (as_files xs ++ es) ->
  free_spot o T t -> usable_dir (o_priv o) (o_umask o) MODE_BASE_DIR -> (forall r, o_fs o (t ++ r) = None) ->
  volume (preorder (as_files xs ++ es)) <= o_free o ->
  exists dfuel0, forall dfuel, (dfuel0 <= dfuel)%nat -> exists ret s h ds o',
    exec (extract T hal stk z e alloc archive fuel dfuel al obuf hjunk pjunk inp false) o = Ok ((ret, Some (s, h, ds)), o') /\
    (room_left s -> ret = ContentDirectory /\ same_env o o' /\
      forall q, o_fs o' q = overlay t (dir_tree (o_umask o) (as_files xs ++ es)) (o_fs o) q).
Proof. exact disk_with. Qed.
Print Assumptions C55_extra_buffers_on_disk_partial.
Example C55_case : exists ret o', archives_with rle_zlib hx_side hx_tree (hx_xarch false hx_side hx_tree) /\
  Forall (fun x => plain (xb_path x)) hx_side /\ NoDup (map fst (as_files hx_side ++ hx_tree)) /\
  Forall (fun x => extractable false 18 1 (fst x) (snd x)) (as_files hx_side ++ hx_tree) /\
  did_all (hx_extract [x6f] 0 (hx_xarch false hx_side hx_tree) (hx_os 1000)) ret o' /\
  o_fs o' [[x77]; [x6f]; [x63]] = Some (IFile 420 [x32]).
Proof. exact ex_c55. Qed.
