(** Properties_Cut.v: properties C99 to C102 (extraction that ends early, archives as a function of the directory).

    Notions used: [archives_dir], [quiet], [extractable], [free_spot], [usable_dir], [overlay], [input_of], [room_left], [calm]: as for C39.
    [cut_input archive F inp]: the input is a beginning of the archive F; the size given is not known (0) or that of F.
    [layout um cs es]: the files and directories of es with their paths below the target, in the order in which they are archived.
    [begun done l]: done is a beginning of l; of its last entry, if it is a file, perhaps only the first bytes.
    [fill free l]: the same entries on a disk with [free] bytes: what does not fit is missing at the end of the files.
    [places um cs recs]: the entries that a sequence of records describes.  [complete]: the entry is archived (it is not "." or "..",
    and a directory, a file, or a symbolic link whose target can be read). *)
From Verif Require Import Base Format Zlib RleZlib Compress Parser ParserProofs ParserFacts Decompress DecompressProofs MidProofs MidFacts
  DecompressExamples ArchiveSpec ArchiveFacts ArchiveDecode ArchiveEntry ArchiveProps ArchiveExamples FS FSFacts HL HLSpec HLFacts HLDrive HLProps HLExamples
  CutSpec CutFacts CutRun CutProps Unique CutExamples.

(** C99: whatever beginning of its archive is extracted, what is found below the target is a beginning of the directory, and contains
    every entry all of whose bytes were in the input. *)
Theorem C99_interrupted : forall z (C : zlib_contract z) es F e alloc hal al stk obuf hjunk pjunk T archive inp t o fuel,
  archives_dir z es F -> cut_input archive F inp -> (length inp < fuel)%nat ->
  calm z hal al stk obuf hjunk pjunk -> (forall k n, alloc k n = true) ->
  Forall (fun x => quiet (snd x)) es -> NoDup (map fst es) ->
  Forall (fun x => extractable (o_priv o) (o_umask o) (lenN T) (fst x) (snd x)) es ->
  free_spot o T t -> usable_dir (o_priv o) (o_umask o) MODE_BASE_DIR -> (forall r, o_fs o (t ++ r) = None) ->
  (exists dfuel0, forall dfuel, (dfuel0 <= dfuel)%nat -> exists ret s h ds o',
     exec (extract T hal stk z e alloc archive fuel dfuel al obuf hjunk pjunk inp false) o = Ok ((ret, Some (s, h, ds)), o')) /\
  forall dfuel rderr ret x o',
    exec (extract T hal stk z e alloc archive fuel dfuel al obuf hjunk pjunk inp rderr) o = Ok ((ret, x), o') ->
    exists s h ds, x = Some (s, h, ds) /\ o_cwd o' = o_cwd o /\ o_umask o' = o_umask o /\ o_priv o' = o_priv o /\
    ((forall q, o_fs o' q = o_fs o q) /\ ret = ContentNone /\
     (rderr = false -> room_left s -> forall r1 r2 y1, preorder es = r1 ++ r2 -> encodes r1 y1 ->
        prefix y1 (dropN 128 (zc_dec C inp)) -> r1 = []) \/
     exists done, begun done (layout (o_umask o) [] es) /\ (rderr = false -> ret = ContentDirectory) /\
       (forall q, o_fs o' q = overlay t (target_with (IDir (dir_perm (o_umask o) MODE_BASE_DIR)) (fill (o_free o) done)) (o_fs o) q) /\
       (rderr = false -> room_left s -> forall r1 r2 y1, preorder es = r1 ++ r2 -> encodes r1 y1 ->
          prefix y1 (dropN 128 (zc_dec C inp)) -> prefix (places (o_umask o) [] r1) done)).
Proof. exact interrupted. Qed.
Print Assumptions C99_interrupted.
Example C99_case : exists ret o', archives_dir rle_zlib hx_tree (hx_arch hx_tree) /\ cut_input 168 (hx_arch hx_tree) (cx_in 69) /\
  (length (cx_in 69) < 4000)%nat /\ calm rle_zlib hx_hal ax_al hx_stk (zeros DEF_CHUNK_SIZE) ax_hjunk ex_pj /\
  Forall (fun x => quiet (snd x)) hx_tree /\ NoDup (map fst hx_tree) /\
  Forall (fun x => extractable false 18 1 (fst x) (snd x)) hx_tree /\ free_spot (hx_os 1000) [x6f] [[x77]; [x6f]] /\
  usable_dir false 18 MODE_BASE_DIR /\ (forall r, o_fs (hx_os 1000) ([[x77]; [x6f]] ++ r) = None) /\
  layout 18 [] hx_tree =
    [([[x64]], IDir 493); ([[x64]; [x61;x62;x63]], IFile 420 [x31;x32;x33]); ([[x64]; [x65]], IDir 448); ([[x62]], IFile 493 [x7a])] /\
  did_all (hx_extract [x6f] 168 (cx_in 69) (hx_os 1000)) ret o' /\ ret = ContentDirectory /\
  o_fs o' [[x77]; [x6f]; [x64]] = Some (IDir 493) /\ o_fs o' [[x77]; [x6f]; [x64]; [x61;x62;x63]] = Some (IFile 420 [x31;x32]) /\
  o_fs o' [[x77]; [x6f]; [x62]] = None.
Proof. exact ex_c99. Qed.

(** C100: on a disk with too little space the extraction of a directory returns success; every directory and file is created, and the
    files contain what fitted when they were written. *)
Theorem C100_full_disk : forall z (C : zlib_contract z) es F e alloc hal al stk obuf hjunk pjunk T archive inp t o fuel,
  archives_dir z es F -> input_of archive F inp -> (length inp < fuel)%nat ->
  calm z hal al stk obuf hjunk pjunk -> (forall k n, alloc k n = true) ->
  preorder es <> [] -> Forall (fun x => quiet (snd x)) es -> NoDup (map fst es) ->
  Forall (fun x => extractable (o_priv o) (o_umask o) (lenN T) (fst x) (snd x)) es ->
  free_spot o T t -> usable_dir (o_priv o) (o_umask o) MODE_BASE_DIR -> (forall r, o_fs o (t ++ r) = None) ->
  exists dfuel0, forall dfuel, (dfuel0 <= dfuel)%nat -> exists ret s h ds o',
    exec (extract T hal stk z e alloc archive fuel dfuel al obuf hjunk pjunk inp false) o = Ok ((ret, Some (s, h, ds)), o') /\
    (room_left s -> ret = ContentDirectory /\ o_cwd o' = o_cwd o /\ o_umask o' = o_umask o /\ o_priv o' = o_priv o /\
       forall q, o_fs o' q = overlay t (target_with (IDir (dir_perm (o_umask o) MODE_BASE_DIR))
                                                    (fill (o_free o) (layout (o_umask o) [] es))) (o_fs o) q).
Proof. exact full_disk. Qed.
Print Assumptions C100_full_disk.
Example C100_case : exists ret o', archives_dir rle_zlib hx_tree (hx_arch hx_tree) /\ input_of 0 (hx_arch hx_tree) (hx_arch hx_tree) /\
  preorder hx_tree <> [] /\ free_spot (hx_os 2) [x6f] [[x77]; [x6f]] /\ (forall r, o_fs (hx_os 2) ([[x77]; [x6f]] ++ r) = None) /\
  fill 2 (layout 18 [] hx_tree) =
    [([[x64]], IDir 493); ([[x64]; [x61;x62;x63]], IFile 420 [x31;x32]); ([[x64]; [x65]], IDir 448); ([[x62]], IFile 493 [])] /\
  did_all (hx_extract [x6f] 0 (hx_arch hx_tree) (hx_os 2)) ret o' /\ ret = ContentDirectory /\
  o_fs o' [[x77]; [x6f]; [x64]; [x61;x62;x63]] = Some (IFile 420 [x31;x32]) /\ o_fs o' [[x77]; [x6f]; [x62]] = Some (IFile 493 []).
Proof. exact ex_c100. Qed.

(** C101: if the archive file cannot be read to its end, the extraction returns failure, unless it had stopped before because an entry
    could not be created. *)
Theorem C101_read_error : forall T hal stk z e alloc archive fuel dfuel al obuf hjunk pjunk inp o ret s h ds o',
  exec (extract T hal stk z e alloc archive fuel dfuel al obuf hjunk pjunk inp true) o = Ok ((ret, Some (s, h, ds)), o') ->
  (archive = 0 \/ lenN inp < archive) -> ret = ContentNone \/ h_err h = true.
Proof. exact read_error. Qed.
Print Assumptions C101_read_error.
Example C101_case : exists ret o', did (cx_bad 168 (cx_in 69) (hx_os 1000)) ret o' /\ lenN (cx_in 69) < 168 /\ ret = ContentNone /\
  o_fs o' [[x77]; [x6f]] = None.
Proof. exact ex_c101. Qed.

(** C102: an archive determines what was archived. *)
Theorem C102_unique : forall z (C : zlib_contract z) F F', zc_dec C F = zc_dec C F' ->
  (forall es es', archives_dir z es F -> archives_dir z es' F' ->
     Forall (fun x => complete (fst x) (snd x)) es -> Forall (fun x => complete (fst x) (snd x)) es' ->
     Forall (fun x => quiet (snd x)) es -> Forall (fun x => quiet (snd x)) es' -> es = es') /\
  (forall d d', archives_file z d F -> archives_file z d' F' -> d = d') /\
  (forall es d, archives_dir z es F -> Forall (fun x => quiet (snd x)) es -> archives_file z d F' -> False).
Proof. exact archive_unique. Qed.
Print Assumptions C102_unique.
Example C102_case : archives_dir rle_zlib cx_tree (hx_arch cx_tree) /\ Forall (fun x => complete (fst x) (snd x)) cx_tree /\
  Forall (fun x => quiet (snd x)) cx_tree /\ archives_file rle_zlib [x61;x62] (hx_farch [x61;x62]).
Proof. exact ex_c102. Qed.
