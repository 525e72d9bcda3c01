(** Properties_Paths.v: properties C111 to C113 (archiving a directory that is named by a path string).

    Notions used: [compress_path]: ZlibWtCompressDirectoryEx over the file system [o]; [ls]: the names that the directory iterator reports.
    [sane], [lists], [suitable], [copy]: as for C104.  [dir_at o src d]: the string src leads to the directory d.
    [reports fs ls]: the names reported for a directory are those in it, each once, and perhaps "." and "..".
    [modest fs]: sizes and permissions fit into the fields of the records.
    [readable o d]: the files below d can be opened, the directories listed and searched.
    [deep fs n d]: the entries below d are at most n levels deep.
    [uncut o src d]: src, "/" and the path of an entry below d have at most 4094 bytes together.
    [archivable]: all of these.  [tree fs ls n d]: the entries of d in the order of the iterator.
    [accepts_path]: the filter accepts everything.  [created], [last_not_full], [archives_dir], [junk_ok]: as for C36 and C39.
    [calls], [unsplit], [homely]: as for C83. *)
From Verif Require Import Base Format Zlib RleZlib LLCompress Compress Parser ParserProofs ParserFacts Decompress DecompressProofs MidProofs MidFacts
  DecompressExamples ArchiveSpec ArchiveFacts ArchiveDecode ArchiveEntry ArchiveProps ArchiveExamples FS FSFacts HL HLSpec HLFacts HLDrive HLProps HLSafe MkdirFacts
  HLTame HLMore HLExamples LinkFacts LinkExamples LinkMore LinkMoreExamples CutSpec CopySpec CopyFacts CopyExamples PathWalk PathFacts PathExamples.

(** C111: false.  The path of the directory has 4092 bytes, so that the path built for its file "ab" is cut to that of its file "a":
    the archive holds the contents of "a" under the name "ab", and 0 is returned. *)
Theorem C111_archived_by_path_refuted : exists o ls src d cevs ws wx led es,
  sane (o_fs o) /\ reports (o_fs o) ls /\ modest (o_fs o) /\ dir_at o src d /\ readable o d /\ deep (o_fs o) 1 d /\
  px_compress 3 5 o ls src = Ok (CRet 0%Z, cevs, ws, wx, led) /\ archives_dir rle_zlib es (cev_bytes cevs) /\
  In ([x61;x62], SFile true true 33188 1 [x31] false) es /\ o_fs o (d ++ [[x61;x62]]) = Some (IFile 420 [x32;x33]).
Proof. exact ex_c111. Qed.
Print Assumptions C111_archived_by_path_refuted.

(** What remains of C111: if no path is cut, 0 is returned and the archive holds what the directory holds. *)
Theorem C111_archived_by_path_partial : forall z F e (filt : F -> bytes -> bytes -> skind -> Z * F) jk hj xjk hjunk al o ls dsize sj (C : zlib_contract z)
    fuel pfuel level clbk src f0 d n r cevs ws wx led,
  junk_ok jk hj xjk hjunk -> accepts_path filt -> archivable o ls src d n -> (n < pfuel)%nat -> created z al level ->
  compress_path z e filt jk hj xjk hjunk al o ls dsize sj fuel pfuel level clbk false [] src f0 = Ok (r, cevs, ws, wx, led) ->
  r = CRet 0%Z /\ (last_not_full cevs -> exists es, lists (o_fs o) d es /\ archives_dir z es (cev_bytes cevs)).
Proof. exact @path_archived. Qed.
Print Assumptions C111_archived_by_path_partial.
Example C111_case : exists cevs ws wx led, junk_ok (ax_jk x11) ax_hj ax_xjk ax_hjunk /\ accepts_path px_all /\
  archivable (cp_os cp_link) px_ls px_src [[x73]] 2 /\ created rle_zlib ax_al 9 /\
  px_compress 3 5 (cp_os cp_link) px_ls px_src = Ok (CRet 0%Z, cevs, ws, wx, led) /\ last_not_full cevs.
Proof. exact ex_c111_case. Qed.

(** C112: false.  The path of the directory has 4093 bytes and the directory has a subdirectory. *)
Theorem C112_archiving_ends_refuted : exists o ls src d,
  sane (o_fs o) /\ reports (o_fs o) ls /\ modest (o_fs o) /\ dir_at o src d /\ readable o d /\ deep (o_fs o) 1 d /\
  forall fuel pfuel r, px_compress fuel pfuel o ls src <> Ok r.
Proof. exact ex_c112. Qed.
Print Assumptions C112_archiving_ends_refuted.

(** C112: this happens for every directory with a path of 4093 bytes whose first entry is a directory. *)
Theorem C112_archiving_endless : forall z F e (filt : F -> bytes -> bytes -> skind -> Z * F) jk hj xjk hjunk al o ls dsize sj (C : zlib_contract z)
    fuel pfuel level clbk src f0 d m dots c rest mc,
  junk_ok jk hj xjk hjunk -> accepts_path filt -> created z al level -> dir_at o src d -> lenN src = 4093 ->
  o_fs o d = Some (IDir m) -> can_r (o_priv o) m = true ->
  ls d = dots ++ c :: rest -> Forall dotted dots -> plain c -> o_fs o (d ++ [c]) = Some (IDir mc) -> Forall (fun x => o_fs o (d ++ [x]) = None) dots ->
  forall r, compress_path z e filt jk hj xjk hjunk al o ls dsize sj fuel pfuel level clbk false [] src f0 <> Ok r.
Proof. exact @path_endless. Qed.
Print Assumptions C112_archiving_endless.
Example C112_endless_case : exists o ls src d, accepts_path px_all /\ created rle_zlib ax_al 9 /\ junk_ok (ax_jk x11) ax_hj ax_xjk ax_hjunk /\
  dir_at o src d /\ lenN src = 4093 /\ o_fs o d = Some (IDir 493) /\ can_r (o_priv o) 493 = true /\ ls d = [] ++ [x64] :: [] /\ plain [x64] /\
  o_fs o (d ++ [[x64]]) = Some (IDir 493).
Proof. exact ex_c112_case. Qed.

(** What remains of C112: if no path is cut, archiving a directory returns. *)
Theorem C112_archiving_ends_partial : forall z F e (filt : F -> bytes -> bytes -> skind -> Z * F) jk hj xjk hjunk al o ls dsize sj (C : zlib_contract z)
    pfuel level clbk src f0 d n,
  junk_ok jk hj xjk hjunk -> archivable o ls src d n -> (n < pfuel)%nat ->
  exists fuel r, compress_path z e filt jk hj xjk hjunk al o ls dsize sj fuel pfuel level clbk false [] src f0 = Ok r.
Proof. exact @path_returns. Qed.
Print Assumptions C112_archiving_ends_partial.
Example C112_case : junk_ok (ax_jk x11) ax_hj ax_xjk ax_hjunk /\ archivable (cp_os cp_link) px_ls px_src [[x73]] 2 /\ (2 < 5)%nat.
Proof. exact (conj (ax_junk x11) (conj px_archivable (le_S _ _ (le_S _ _ (le_n _))))). Qed.

(** C113: archiving a directory by its path and extracting the archive copies the directory. *)
Theorem C113_copied_by_path : forall z F e (filt : F -> bytes -> bytes -> skind -> Z * F) jk hj xjk hjunk al o ls dsize sj (C : zlib_contract z)
    fuel pfuel level clbk src f0 s n r cevs ws wx led e' alloc hal al' stk obuf hjunk' pjunk T archive inp t fuel',
  junk_ok jk hj xjk hjunk -> accepts_path filt -> archivable o ls src s n -> (n < pfuel)%nat -> created z al level ->
  compress_path z e filt jk hj xjk hjunk al o ls dsize sj fuel pfuel level clbk false [] src f0 = Ok (r, cevs, ws, wx, led) -> last_not_full cevs ->
  homely o -> suitable (o_priv o) (o_umask o) (lenN T) (o_fs o) s -> (exists c, o_fs o (s ++ [c]) <> None) ->
  input_of archive (cev_bytes cevs) inp -> (length inp < fuel')%nat -> calm z hal al' stk obuf hjunk' pjunk -> (forall k n, alloc k n = true) ->
  free_spot o T t -> usable_dir (o_priv o) (o_umask o) MODE_BASE_DIR -> volume (preorder (tree (o_fs o) ls n s)) <= o_free o ->
  r = CRet 0%Z /\
  exists dfuel0, forall dfuel, (dfuel0 <= dfuel)%nat -> exists q evs, calls z e' alloc al' obuf hjunk' pjunk dfuel fuel' archive inp q evs /\
    (room_left q -> unsplit evs -> exists h ds o',
      exec (extract T hal stk z e' alloc archive fuel' dfuel al' obuf hjunk' pjunk inp false) o = Ok ((ContentDirectory, Some (q, h, ds)), o') /\
      same_env o o' /\ copy (o_umask o) (o_fs o) s (o_fs o') t).
Proof. exact @copied_by_path. Qed.
Print Assumptions C113_copied_by_path.
Example C113_case : exists cevs ws wx led q evs ret o', archivable (cp_os cp_link) px_ls px_src [[x73]] 2 /\ created rle_zlib ax_al 9 /\
  px_compress 3 5 (cp_os cp_link) px_ls px_src = Ok (CRet 0%Z, cevs, ws, wx, led) /\ last_not_full cevs /\ homely (cp_os cp_link) /\
  suitable false 18 1 (o_fs (cp_os cp_link)) [[x73]] /\ free_spot (cp_os cp_link) [x6f] [[x77]; [x6f]] /\ usable_dir false 18 MODE_BASE_DIR /\
  volume (preorder (tree (o_fs (cp_os cp_link)) px_ls 2 [[x73]])) <= 1000 /\
  calls rle_zlib LE ex_alloc ax_al (zeros DEF_CHUNK_SIZE) ax_hjunk ex_pj 5000 5000 0 (cev_bytes cevs) q evs /\ room_left q /\ unsplit evs /\
  did_all (hx_extract [x6f] 0 (cev_bytes cevs) (cp_os cp_link)) ret o' /\ ret = ContentDirectory /\
  o_fs o' [[x77]; [x6f]; [x64]; [x61;x62;x63]] = Some (IFile 420 [x31;x32;x33]) /\ o_fs o' [[x77]; [x6f]; [x6c]] = Some (ILink [x64;x2f;x61;x62;x63]).
Proof. exact ex_c113. Qed.
