(** Properties_Robust.v: properties C74 to C82 (damaged data, failing calls, termination).

    Notions used: [run_dops]: any sequence of calls on a session ([DFeed]: data, [DSetBuffer]: new output buffer); [dop_ok]: a
    normal flush mode, less than 2^32 bytes, usable buffers; [started s0]: a new session; [dfed ops]: all data fed; [rets]: what
    the calls returned; [evs]: the callbacks.  [zc_dec C c]: the decompressed form of [c]; [zc_bad C c]: [c] is not a beginning
    of valid compressed data; [zc_fin C c]: the stream ended.  [room_left], [calm], [free_spot], [archives_dir]: as for C39;
    [writable_spot]: as for C40; [first_bytes archive inp]: the bytes read from the file; [archive_of]: as for C17. *)
From Verif Require Import Base Format Zlib RleZlib LLCompress Compress Parser ParserProofs ParserFacts Decompress DecompressProofs
  DecompressFacts MidProofs MidFacts DecompressExamples ArchiveSpec ArchiveFacts ArchiveDecode ArchiveEntry ArchiveProps ArchiveExamples
  FS FSFacts HL HLSpec HLFacts HLDrive HLProps HLSafe MkdirFacts HLTame HLMkdir HLMore HLExamples HaltFacts RobustFacts RobustExamples.

(** C74: false.  The invalid bytes come in the call that completes the header: that call returns 0 and reports nothing. *)
Theorem C74_damage_reported_refuted : exists s, started rle_zlib ex_sess /\ Forall dop_ok rb_one /\
  archive_of ContentFile (zc_dec rle_contract (dfed rb_one)) /\ zc_bad rle_contract (dfed rb_one) = true /\
  run_dops LE ex_alloc 400 ex_sess rb_one = Ok ([0%Z], s, []) /\ room_left s.
Proof. exact ex_c74_lost. Qed.
Print Assumptions C74_damage_reported_refuted.

(** What remains of C74: the last call comes after the header, and the last step of zlib did not fill its buffer. *)
Theorem C74_damage_reported_partial : forall z (C : zlib_contract z) e alloc fuel s0 ops f d rets s evs,
  started z s0 -> Forall dop_ok (ops ++ [DFeed f d]) ->
  supported z C (dfed ops) -> 128 <= lenN (zc_dec C (dfed ops)) -> d <> [] ->
  run_dops e alloc fuel s0 (ops ++ [DFeed f d]) = Ok (rets, s, evs) -> Forall (fun r => r = 0%Z) rets -> room_left s ->
  zc_bad C (dfed ops ++ d) = false.
Proof. exact corrupt_found. Qed.
Print Assumptions C74_damage_reported_partial.
Example C74_case : exists s s', started rle_zlib ex_sess /\ Forall dop_ok (rb_two ++ [DFeed Z_NO_FLUSH [x01;x43]]) /\
  supported rle_zlib rle_contract (dfed rb_two) /\ 128 <= lenN (zc_dec rle_contract (dfed rb_two)) /\
  run_dops LE ex_alloc 400 ex_sess (rb_two ++ [DFeed Z_NO_FLUSH [x01;x43]]) = Ok ([0%Z; 0%Z], s, [EvFlBegin; EvFlRead [x41;x42]; EvFlRead [x43]]) /\
  room_left s /\ zc_bad rle_contract (dfed rb_two ++ [x01;x43;x00;x05]) = true /\
  run_dops LE ex_alloc 400 ex_sess (rb_two ++ [DFeed Z_NO_FLUSH [x01;x43;x00;x05]]) = Ok ([0%Z; Z_DATA_ERROR], s', [EvFlBegin; EvFlRead [x41;x42]]).
Proof. exact ex_c74. Qed.

(** C75: after a call returned an error no callback is called any more, whatever is fed. *)
Theorem C75_silent_after_error : forall z (C : zlib_contract z) e alloc fuel s0 ops1 ops2 rets1 s1 ev1 rets2 s2 ev2,
  started z s0 -> Forall dop_ok ops1 ->
  run_dops e alloc fuel s0 ops1 = Ok (rets1, s1, ev1) -> Exists (fun r => r <> 0%Z) rets1 ->
  run_dops e alloc fuel s1 ops2 = Ok (rets2, s2, ev2) -> ev2 = [].
Proof. exact silent_after_error. Qed.
Print Assumptions C75_silent_after_error.
Example C75_case : exists s1 s2, started rle_zlib ex_sess /\ Forall dop_ok (rb_two ++ [DFeed Z_NO_FLUSH [x01;x43;x00;x05;x01;x44]]) /\
  run_dops LE ex_alloc 400 ex_sess (rb_two ++ [DFeed Z_NO_FLUSH [x01;x43;x00;x05;x01;x44]]) =
    Ok ([0%Z; Z_DATA_ERROR], s1, [EvFlBegin; EvFlRead [x41;x42]]) /\
  run_dops LE ex_alloc 400 s1 [DFeed Z_NO_FLUSH [x01;x45]; DSetBuffer (Some (zeros 9)) 9; DFeed Z_NO_FLUSH [x01;x46]] =
    Ok ([Z_DATA_ERROR; Z_DATA_ERROR], s2, []).
Proof. exact ex_c75. Qed.

(** C76: false.  The target cannot be opened: the run reaches undefined behaviour (fwrite to NULL). *)
Theorem C76_unopened_target_refuted : archives_file rle_zlib [x31;x32] (hx_farch [x31;x32]) /\
  calm rle_zlib hx_hal ax_al hx_stk (zeros DEF_CHUNK_SIZE) ax_hjunk ex_pj /\
  sys_open true [x2f;x66;x2f;x6f] MODE_FOPEN (hx_os 1000) = (RErr ENOTDIR, hx_os 1000) /\
  hx_extract [x2f;x66;x2f;x6f] 0 (hx_farch [x31;x32]) (hx_os 1000) = UB.
Proof. exact ex_c76_crash. Qed.
Print Assumptions C76_unopened_target_refuted.

(** C76 is false for every target that cannot be opened and every archive of a file with at least one byte: unless the last step of
    zlib filled its buffer the run does not return. *)
Theorem C76_unopened_target_never : forall z (C : zlib_contract z) e alloc hal al stk obuf hjunk pjunk (Calm : calm z hal al stk obuf hjunk pjunk) T archive fuel dfuel inp o typ er ret s h ds o',
  archive_of typ (zc_dec C (first_bytes archive inp)) -> typ = ContentFile \/ typ = ContentBlob ->
  zc_bad C (first_bytes archive inp) = false -> zc_fin C (first_bytes archive inp) = false ->
  128 < lenN (zc_dec C (first_bytes archive inp)) -> sys_open true T MODE_FOPEN o = (RErr er, o) ->
  exec (extract T hal stk z e alloc archive fuel dfuel al obuf hjunk pjunk inp false) o = Ok ((ret, Some (s, h, ds)), o') -> ~ room_left s.
Proof. exact unopened_crashes. Qed.
Print Assumptions C76_unopened_target_never.
Example C76_never_case : archive_of ContentFile (zc_dec rle_contract (first_bytes 0 (hx_farch [x31;x32]))) /\
  zc_bad rle_contract (first_bytes 0 (hx_farch [x31;x32])) = false /\ zc_fin rle_contract (first_bytes 0 (hx_farch [x31;x32])) = false /\
  128 < lenN (zc_dec rle_contract (first_bytes 0 (hx_farch [x31;x32]))) /\
  sys_open true [x2f;x66;x2f;x6f] MODE_FOPEN (hx_os 1000) = (RErr ENOTDIR, hx_os 1000).
Proof. exact ex_c76_hyps. Qed.

(** What remains of C76: targets that can be opened, with any amount of free space, also for damaged and truncated archives. *)
Theorem C76_unopened_target_partial : forall z (C : zlib_contract z) e alloc hal al stk obuf hjunk pjunk (Calm : calm z hal al stk obuf hjunk pjunk) T archive inp o t m fuel typ,
  (length inp < fuel)%nat ->
  archive_of typ (zc_dec C (first_bytes archive inp)) -> typ = ContentFile \/ typ = ContentBlob -> writable_spot o T t m ->
  exists dfuel0, forall dfuel, (dfuel0 <= dfuel)%nat -> exists ret s h ds o',
    exec (extract T hal stk z e alloc archive fuel dfuel al obuf hjunk pjunk inp false) o = Ok ((ret, Some (s, h, ds)), o') /\
    ((ret = ContentFile /\ exists x, o_fs o' t = Some (IFile m x)) \/ (ret = ContentNone /\ forall q, o_fs o' q = o_fs o q)).
Proof. exact opened_returns. Qed.
Print Assumptions C76_unopened_target_partial.
Example C76_case : exists ret o', archive_of ContentFile (zc_dec rle_contract (first_bytes 0 (hx_farch [x31;x32]))) /\
  writable_spot (hx_os 1000) [x6f] [[x77]; [x6f]] 420 /\
  did (hx_extract [x6f] 0 (hx_farch [x31;x32]) (hx_os 1000)) ret o' /\ ret = ContentFile /\ o_fs o' [[x77]; [x6f]] = Some (IFile 420 [x31;x32]).
Proof. exact ex_c76. Qed.

(** C77: every sequence of calls ends (returns or reaches undefined behaviour; it never runs forever), for all data. *)
Theorem C77_session_ends : forall z (C : zlib_contract z) e alloc s0 ops,
  started z s0 -> Forall dop_ok ops ->
  exists fuel0 x, x <> NoFuel /\ forall fuel, (fuel0 <= fuel)%nat -> run_dops e alloc fuel s0 ops = x.
Proof. exact session_ends. Qed.
Print Assumptions C77_session_ends.
Example C77_case : exists s, Forall dop_ok [DFeed Z_NO_FLUSH [x00;x05;x07]] /\
  run_dops LE ex_alloc 40 ex_sess [DFeed Z_NO_FLUSH [x00;x05;x07]] = Ok ([Z_DATA_ERROR], s, []) /\
  run_dops LE ex_alloc 40 ex_sess [DFeed Z_NO_FLUSH ex_bad; DFeed Z_NO_FLUSH [x04;x00]] = UB.
Proof. exact ex_c77. Qed.

(** C77: so does every extraction to disk, after a number of steps that does not depend on the file system. *)
Theorem C77_extract_ends : forall z (C : zlib_contract z) e alloc target hal stk archive al obuf hjunk pjunk inp rderr,
  DEF_CHUNK_SIZE <= lenN obuf -> lenN hjunk = 128 -> lenN (p_img pjunk) = 40 ->
  exists k, forall o, exists x, x <> NoFuel /\ forall fuel dfuel, (k <= fuel)%nat -> (k <= dfuel)%nat ->
    exec (extract target hal stk z e alloc archive fuel dfuel al obuf hjunk pjunk inp rderr) o = x.
Proof. exact extract_ends. Qed.
Print Assumptions C77_extract_ends.
Example C77_disk_case : exists ret o', DEF_CHUNK_SIZE <= lenN (zeros DEF_CHUNK_SIZE) /\ lenN ax_hjunk = 128 /\ lenN (p_img ex_pj) = 40 /\
  did (hx_extract [x6f] 0 [x00;x05;x07] (hx_os 1000)) ret o' /\ ret = ContentNone.
Proof. exact ex_c77_disk. Qed.

(** C78: false.  The path buffer is still allocated when the extraction of a directory returns. *)
Theorem C78_memory_released_refuted : supported rle_zlib rle_contract (first_bytes 0 (hx_arch hx_tree)) /\
  dp_left (hx_extract [x6f] 0 (hx_arch hx_tree) (hx_os 1000)) = Some (ContentDirectory, Some [x6f;x00;x64;x00;x65;x00]).
Proof. exact ex_c78. Qed.
Print Assumptions C78_memory_released_refuted.

(** C78 is false for every extraction that reports a directory. *)
Theorem C78_memory_released_never : forall z (C : zlib_contract z) e alloc hal al stk obuf hjunk pjunk (Calm : calm z hal al stk obuf hjunk pjunk) T archive fuel dfuel inp rderr o s h ds o',
  supported z C (first_bytes archive inp) ->
  exec (extract T hal stk z e alloc archive fuel dfuel al obuf hjunk pjunk inp rderr) o = Ok ((ContentDirectory, Some (s, h, ds)), o') ->
  h_dp h <> None.
Proof. exact dir_leaks. Qed.
Print Assumptions C78_memory_released_never.

(** What remains of C78: archives of files. *)
Theorem C78_memory_released_partial : forall z (C : zlib_contract z) e alloc hal al stk obuf hjunk pjunk (Calm : calm z hal al stk obuf hjunk pjunk) T archive fuel dfuel inp rderr o typ ret s h ds o',
  archive_of typ (zc_dec C (first_bytes archive inp)) ->
  typ <> ContentDirectory ->
  exec (extract T hal stk z e alloc archive fuel dfuel al obuf hjunk pjunk inp rderr) o = Ok ((ret, Some (s, h, ds)), o') ->
  h_dp h = None.
Proof. exact others_keep_nothing. Qed.
Print Assumptions C78_memory_released_partial.
Example C78_case : archive_of ContentFile (zc_dec rle_contract (first_bytes 0 (hx_farch [x31;x32]))) /\
  dp_left (hx_extract [x6f] 0 (hx_farch [x31;x32]) (hx_os 1000)) = Some (ContentFile, None).
Proof. exact ex_c78_file. Qed.

(** C79: destroying a session that was fed undamaged data, complete or not, leaves the output buffer alone. *)
Theorem C79_destroy_writes_nothing : forall z (C : zlib_contract z) e alloc fuel s0 ops rets s evs s',
  started z s0 -> Forall dop_ok ops ->
  supported z C (dfed ops) -> zc_bad C (dfed ops) = false -> zc_fin C (dfed ops) = false ->
  run_dops e alloc fuel s0 ops = Ok (rets, s, evs) -> destroy s = Ok s' -> d_ubuf s' = d_ubuf s /\ d_tmp s' = d_tmp s.
Proof. exact destroy_keeps_buffer. Qed.
Print Assumptions C79_destroy_writes_nothing.
Example C79_case : exists rets s evs s', started rle_zlib ex_sess /\ Forall dop_ok ex_fops /\ supported rle_zlib rle_contract (dfed ex_fops) /\
  zc_bad rle_contract (dfed ex_fops) = false /\ zc_fin rle_contract (dfed ex_fops) = false /\
  run_dops BE ex_alloc 40 ex_sess ex_fops = Ok (rets, s, evs) /\ destroy s = Ok s' /\ d_ubuf s' = Some [x41;x41;x41;x41;x41;x41;x41;x41;x41].
Proof. exact ex_c79. Qed.

(** C80: false.  The allocation of the path buffer fails: the entries are created in the root directory. *)
Theorem C80_no_memory_refuted : exists ret o', archives_dir rle_zlib rb_es (hx_arch rb_es) /\ free_spot (hx_os 1000) [x6f] [[x77]; [x6f]] /\
  did (rb_extract [x6f] (hx_arch rb_es) (hx_os 1000)) ret o' /\ strip [[x77]; [x6f]] [[x62]] = None /\
  o_fs (hx_os 1000) [[x62]] = None /\ o_fs o' [[x62]] = Some (IFile 493 [x7a]).
Proof. exact ex_c80. Qed.
Print Assumptions C80_no_memory_refuted.

(** C80: false.  The allocation of the path of one directory fails: its end marker still shortens the path, the entries that follow
    are created next to the target instead of below it. *)
Theorem C80_no_memory_dir_refuted : exists ret o', archives_dir rle_zlib rb_es3 (hx_arch rb_es3) /\ free_spot (hx_os 1000) rb_abs [[x77]; [x6f]] /\
  did (rb_extract3 (hx_os 1000)) ret o' /\ o_fs o' [[x77]; [x6f]; [x62]] = None /\ strip [[x77]; [x6f]] [[x77]; [x62]] = None /\
  o_fs (hx_os 1000) [[x77]; [x62]] = None /\ o_fs o' [[x77]; [x62]] = Some (IFile 493 [x7a]).
Proof. exact ex_c80_realloc. Qed.
Print Assumptions C80_no_memory_dir_refuted.
(** What remains of C80: the allocations before the first callback. *)
Theorem C80_no_memory_partial : forall z T hal stk e alloc archive fuel dfuel al obuf hjunk pjunk inp rderr o,
  al 1 = false \/ al 2 = false \/ al 3 = false \/ inflateInit z = None ->
  exec (extract T hal stk z e alloc archive fuel dfuel al obuf hjunk pjunk inp rderr) o = Ok ((ContentNone, None), o).
Proof. exact no_memory. Qed.
Print Assumptions C80_no_memory_partial.
Example C80_case : rb_al 2 = false /\ rb_al 1 = true /\
  exec (extract [x6f] hx_hal hx_stk rle_zlib LE ex_alloc 0 4000 4000 rb_al (zeros DEF_CHUNK_SIZE) ax_hjunk ex_pj (hx_arch rb_es) false) (hx_os 1000) =
    Ok ((ContentNone, None), hx_os 1000).
Proof. exact ex_c80_two. Qed.

(** C81: false.  A directory that cannot be read: 0 is returned, the archive is the one of an empty directory. *)
Theorem C81_missing_source_refuted : exists cevs ws wx led, junk_ok (ax_jk x11) ax_hj ax_xjk ax_hjunk /\ created rle_zlib ax_al 9 /\
  compress_dir rle_zlib LE ax_all (ax_jk x11) ax_hj ax_xjk ax_hjunk ax_al 3 9 7 false [] None tt = Ok (CRet 0, cevs, ws, wx, led) /\
  zc_dec rle_contract (cev_bytes cevs) = header_image LE ContentDirectory ax_hjunk.
Proof. exact ex_c81. Qed.
Print Assumptions C81_missing_source_refuted.

(** C81 is false for every directory that cannot be read. *)
Theorem C81_missing_source_never : forall z (C : zlib_contract z) F e (filt : F -> list bytes -> bytes -> skind -> Z * F) jk hj xjk hjunk al fuel level clbk nested xs f0 r cevs ws wx led,
  junk_ok jk hj xjk hjunk -> Forall xb_ok xs -> created z al level ->
  compress_dir z e filt jk hj xjk hjunk al fuel level clbk nested xs None f0 = Ok (r, cevs, ws, wx, led) -> r = CRet 0.
Proof. exact missing_succeeds. Qed.
Print Assumptions C81_missing_source_never.

(** What remains of C81: what is written is the archive of an empty directory. *)
Theorem C81_missing_source_partial : forall z F e (filt : F -> list bytes -> bytes -> skind -> Z * F) jk hj xjk hjunk al fuel level clbk nested xs f0,
  compress_dir z e filt jk hj xjk hjunk al fuel level clbk nested xs None f0 =
  compress_dir z e filt jk hj xjk hjunk al fuel level clbk nested xs (Some []) f0.
Proof. exact missing_is_empty. Qed.
Print Assumptions C81_missing_source_partial.

(** C82: false.  A link whose length was announced as 0 (as in /proc) ends the process. *)
Theorem C82_archiving_returns_refuted : exists cevs ws wx led, junk_ok (ax_jk x11) ax_hj ax_xjk ax_hjunk /\ tree_fits (Some rb_link) /\ created rle_zlib ax_al 9 /\
  compress_dir rle_zlib LE ax_all (ax_jk x11) ax_hj ax_xjk ax_hjunk ax_al 3 9 7 false [] (Some rb_link) tt = Ok (CExit, cevs, ws, wx, led).
Proof. exact ex_c82_exit. Qed.
Print Assumptions C82_archiving_returns_refuted.

(** What remains of C82: every link has the announced length ([links_hold]). *)
Theorem C82_archiving_returns_partial : forall z (C : zlib_contract z) F e (filt : F -> list bytes -> bytes -> skind -> Z * F) jk hj xjk hjunk al fuel level clbk nested xs root f0 r cevs ws wx led,
  junk_ok jk hj xjk hjunk -> tree_fits root -> Forall xb_ok xs ->
  compress_dir z e filt jk hj xjk hjunk al fuel level clbk nested xs root f0 = Ok (r, cevs, ws, wx, led) ->
  Forall (fun x => links_hold (snd x)) (listing root) -> r <> CExit.
Proof. exact links_no_exit. Qed.
Print Assumptions C82_archiving_returns_partial.
Example C82_case : exists cevs ws wx led, junk_ok (ax_jk x11) ax_hj ax_xjk ax_hjunk /\ tree_fits (Some rb_good) /\
  compress_dir rle_zlib LE ax_all (ax_jk x11) ax_hj ax_xjk ax_hjunk ax_al 3 9 7 false [] (Some rb_good) tt = Ok (CRet 0, cevs, ws, wx, led) /\
  Forall (fun x => links_hold (snd x)) (listing (Some rb_good)).
Proof. exact ex_c82. Qed.
