(** Properties_Read.v: property C150 (archiving a directory of which the process cannot read everything).

    Notions used: [compress_path], [sane], [reports], [modest], [dir_at], [uncut], [deep], [lists], [archives_dir], [accepts_path], [created], [last_not_full]: as
    for C111.  [hidden o d p]: p lies in a directory, d or below d, that the process cannot list.  [shown o d fs']: fs' is the file system without the hidden
    entries.  [searchable]: what the process can list it can search.  [files_readable]: the process can read each file that is not hidden.
    [archivable_part]: as [archivable], with [searchable] instead of [readable]. *)
From Verif Require Import Base Format Zlib RleZlib LLCompress Compress Parser ParserProofs ParserFacts Decompress DecompressProofs MidProofs MidFacts
  DecompressExamples ArchiveSpec ArchiveFacts ArchiveDecode ArchiveEntry ArchiveProps ArchiveExamples FS FSFacts HL HLSpec HLFacts HLDrive HLProps HLSafe MkdirFacts
  HLTame HLMore HLExamples LinkFacts LinkExamples LinkMore LinkMoreExamples CutSpec CopySpec CopyFacts CopyExamples PathWalk PathFacts PathExamples ReadFacts ReadExamples ReadCopy.

(** C150: false.  A directory of mode 0 that holds a file is archived as an empty directory, and 0 is returned. *)
Theorem C150_unread_reported_refuted : exists o ls src d n cevs ws wx led es, archivable_part o ls src d n /\
  px_compress 3 5 o ls src = Ok (CRet 0%Z, cevs, ws, wx, led) /\ archives_dir rle_zlib es (cev_bytes cevs) /\
  In ([x64], SDir 16384 []) es /\ o_fs o (d ++ [[x64]; [x78]]) = Some (IFile 420 [x32;x33]).
Proof. exact ex_c150_refuted. Qed.
Print Assumptions C150_unread_reported_refuted.

(** A link in a directory that can be listed but not searched: the process is terminated. *)
Theorem C150_unsearchable_refuted : exists o ls src d cevs ws wx led, sane (o_fs o) /\ reports (o_fs o) ls /\ modest (o_fs o) /\ dir_at o src d /\ uncut o src d /\ deep (o_fs o) 2 d /\
  px_compress 3 5 o ls src = Ok (CExit, cevs, ws, wx, led).
Proof. exact ex_c150_search. Qed.
Print Assumptions C150_unsearchable_refuted.

(** What remains of C150: 0 or 2 is returned, 0 exactly if every file that is not hidden can be read; then the archive holds what is not hidden. *)
Theorem C150_unread_reported_partial : forall z (C : zlib_contract z) F e (filt : F -> bytes -> bytes -> skind -> Z * F) jk hj xjk hjunk al o ls dsize sj
    fuel pfuel level clbk src f0 d n r cevs ws wx led fs',
  junk_ok jk hj xjk hjunk -> accepts_path filt -> archivable_part o ls src d n -> (n < pfuel)%nat -> created z al level -> shown o d fs' ->
  compress_path z e filt jk hj xjk hjunk al o ls dsize sj fuel pfuel level clbk false [] src f0 = Ok (r, cevs, ws, wx, led) ->
  (r = CRet 0%Z \/ r = CRet 2%Z) /\ (r = CRet 0%Z <-> files_readable o d) /\
  (r = CRet 0%Z -> last_not_full cevs -> exists es, lists fs' d es /\ archives_dir z es (cev_bytes cevs)).
Proof. exact @part_archived. Qed.
Print Assumptions C150_unread_reported_partial.
Example C150_case : exists cevs ws wx led, junk_ok (ax_jk x11) ax_hj ax_xjk ax_hjunk /\ accepts_path px_all /\ created rle_zlib ax_al 9 /\
  archivable_part (rd_os 420 0 (IFile 420 [x32;x33])) (names_in (rd_list 420 0 (IFile 420 [x32;x33]))) rd_src [[x73]] 2 /\
  shown (rd_os 420 0 (IFile 420 [x32;x33])) [[x73]] (rd_fs 420 0) /\
  px_compress 3 5 (rd_os 420 0 (IFile 420 [x32;x33])) (names_in (rd_list 420 0 (IFile 420 [x32;x33]))) rd_src = Ok (CRet 0%Z, cevs, ws, wx, led) /\
  last_not_full cevs.
Proof. exact ex_c150. Qed.
(** A file of mode 0200. *)
Example C150_case_file : exists cevs ws wx led,
  archivable_part (rd_os 128 0 (IFile 420 [x32;x33])) (names_in (rd_list 128 0 (IFile 420 [x32;x33]))) rd_src [[x73]] 2 /\
  px_compress 3 5 (rd_os 128 0 (IFile 420 [x32;x33])) (names_in (rd_list 128 0 (IFile 420 [x32;x33]))) rd_src = Ok (CRet 2%Z, cevs, ws, wx, led).
Proof. exact ex_c150_file. Qed.

(** If 0 was returned, extraction, by this or another process, gives a copy of all that was not hidden, and nothing else.  ([no_links], [suitable], [masked]: as for
    C104.) *)
Theorem C150_copied_partial : forall z (C : zlib_contract z) F e (filt : F -> bytes -> bytes -> skind -> Z * F) jk hj xjk hjunk al o ls dsize sj
    fuel pfuel level clbk src f0 d n cevs ws wx led fs' e2 alloc hal al2 stk obuf hjunk2 pjunk T archive inp t o2 fuel2,
  junk_ok jk hj xjk hjunk -> accepts_path filt -> archivable_part o ls src d n -> (n < pfuel)%nat -> created z al level -> shown o d fs' ->
  compress_path z e filt jk hj xjk hjunk al o ls dsize sj fuel pfuel level clbk false [] src f0 = Ok (CRet 0%Z, cevs, ws, wx, led) -> last_not_full cevs ->
  no_links fs' d -> suitable (o_priv o2) (o_umask o2) (lenN T) fs' d -> (exists c, fs' (d ++ [c]) <> None) ->
  input_of archive (cev_bytes cevs) inp -> (length inp < fuel2)%nat -> calm z hal al2 stk obuf hjunk2 pjunk -> (forall k n, alloc k n = true) ->
  free_spot o2 T t -> (forall r, o_fs o2 (t ++ r) = None) -> usable_dir (o_priv o2) (o_umask o2) MODE_BASE_DIR ->
  (forall es, lists fs' d es -> volume (preorder es) <= o_free o2) ->
  exists dfuel0, forall dfuel, (dfuel0 <= dfuel)%nat -> exists ret q h ds o',
    exec (extract T hal stk z e2 alloc archive fuel2 dfuel al2 obuf hjunk2 pjunk inp false) o2 = Ok ((ret, Some (q, h, ds)), o') /\
    (room_left q -> ret = ContentDirectory /\ forall r, r <> [] ->
      (hidden o d (d ++ r) -> o_fs o' (t ++ r) = None) /\
      (~ hidden o d (d ++ r) -> o_fs o' (t ++ r) = option_map (masked (o_umask o2)) (o_fs o (d ++ r)))).
Proof. exact part_copied. Qed.
Print Assumptions C150_copied_partial.
Example C150_copied_case : exists cevs ws wx led ret o', junk_ok (ax_jk x11) ax_hj ax_xjk ax_hjunk /\ accepts_path px_all /\ created rle_zlib ax_al 9 /\
  archivable_part (rd_os 420 192 (IFile 420 [x32;x33])) (names_in (rd_list 420 192 (IFile 420 [x32;x33]))) rd_src [[x73]] 2 /\
  shown (rd_os 420 192 (IFile 420 [x32;x33])) [[x73]] (rd_fs 420 192) /\
  px_compress 3 5 (rd_os 420 192 (IFile 420 [x32;x33])) (names_in (rd_list 420 192 (IFile 420 [x32;x33]))) rd_src = Ok (CRet 0%Z, cevs, ws, wx, led) /\
  last_not_full cevs /\ no_links (rd_fs 420 192) [[x73]] /\ suitable false 18 1 (rd_fs 420 192) [[x73]] /\ free_spot (cp_os []) [x6f] [[x77]; [x6f]] /\
  did_all (hx_extract [x6f] 0 (cev_bytes cevs) (cp_os [])) ret o' /\ ret = ContentDirectory /\
  o_fs o' [[x77]; [x6f]; [x61]] = Some (IFile 420 [x31]) /\ o_fs o' [[x77]; [x6f]; [x64]] = Some (IDir 192) /\ o_fs o' [[x77]; [x6f]; [x64]; [x78]] = None.
Proof. exact ex_c150_copy. Qed.
