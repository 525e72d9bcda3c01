(** Properties C12-C17 and C23-C25 (decompression sessions).
    [usable buf size]: the output buffer has [size] bytes, 0 < size < 2^32.
    [llop_ok], [dop_ok]: calls with usable buffers, fewer than 2^32 bytes per call and a flush value other than
    Z_FINISH, Z_BLOCK and Z_TREES.  [fed], [dfed]: the compressed bytes passed in. *)
From Verif Require Import Base Format Zlib RleZlib Parser ParserProofs ParserFacts Decompress DecompressProofs
  DecompressFacts MidProofs MidFacts DecompressExamples.

(** C12 *)
Theorem C12_prefix : forall z (C : zlib_contract z) e alloc fuel ok id buf size hjunk pjunk s0 ops rets s evs,
  usable buf size -> ll_create z ok id buf size hjunk pjunk = Some s0 -> Forall llop_ok ops ->
  run_llops e alloc fuel s0 ops = Ok (rets, s, evs) ->
  prefix (raw_bytes evs) (zc_dec C (fed ops)) /\
  (exists evss, evs = concat evss /\ Forall2 ll_obeys (ll_settings id size ops) evss) /\
  (zc_bad C (fed ops) = false -> zc_fin C (fed ops) = false -> Forall (fun r => r = 0%Z) rets).
Proof. exact ll_prefix. Qed.
Print Assumptions C12_prefix.
Theorem C12_complete : forall z (C : zlib_contract z) e alloc fuel ok id buf size hjunk pjunk s0 ops f d rets s evs,
  usable buf size -> ll_create z ok id buf size hjunk pjunk = Some s0 -> Forall llop_ok (ops ++ [LFeed f d]) -> d <> [] ->
  run_llops e alloc fuel s0 (ops ++ [LFeed f d]) = Ok (rets, s, evs) -> Forall (fun r => r = 0%Z) rets ->
  exists evs1 x, evs = evs1 ++ [EvRaw (cur_id id ops) x] /\
    (lenN x < cur_size size ops ->
     raw_bytes evs = zc_dec C (fed (ops ++ [LFeed f d])) /\ zc_bad C (fed (ops ++ [LFeed f d])) = false).
Proof. exact ll_last. Qed.
Print Assumptions C12_complete.
Example C12_case : exists s0 s, usable (Some (zeros 2)) 2 /\
  ll_create rle_zlib true 7 (Some (zeros 2)) 2 [] ex_pj = Some s0 /\ Forall llop_ok ex_ll /\
  run_llops LE ex_alloc 9 s0 ex_ll = Ok ([0%Z; 0%Z; 0%Z], s, [EvRaw 7 []; EvRaw 7 [x61;x61;x61]; EvRaw 9 [x62;x62]]).
Proof. exact ex_c12. Qed.

(** C13: false.  All calls return 0, the stream is valid, but the output that did not fit into the last
    buffer stays inside inflate. *)
Theorem C13_all_delivered_refuted : exists z (C : zlib_contract z) e alloc fuel id buf size hjunk pjunk s0 ops rets s evs,
  usable buf size /\ ll_create z true id buf size hjunk pjunk = Some s0 /\ Forall llop_ok ops /\
  run_llops e alloc fuel s0 ops = Ok (rets, s, evs) /\ Forall (fun r => r = 0%Z) rets /\
  zc_bad C (fed ops) = false /\ raw_bytes evs <> zc_dec C (fed ops).
Proof. exact ex_c13. Qed.
Print Assumptions C13_all_delivered_refuted.
(** What remains of C13: if the last callback received less than the buffer size, everything was delivered. *)
Theorem C13_all_delivered_partial : forall z (C : zlib_contract z) e alloc fuel ok id buf size hjunk pjunk s0 ops f d rets s evs,
  usable buf size -> ll_create z ok id buf size hjunk pjunk = Some s0 -> Forall llop_ok (ops ++ [LFeed f d]) -> d <> [] ->
  run_llops e alloc fuel s0 (ops ++ [LFeed f d]) = Ok (rets, s, evs) -> Forall (fun r => r = 0%Z) rets ->
  exists evs1 x, evs = evs1 ++ [EvRaw (cur_id id ops) x] /\
    (lenN x < cur_size size ops ->
     raw_bytes evs = zc_dec C (fed (ops ++ [LFeed f d])) /\ zc_bad C (fed (ops ++ [LFeed f d])) = false).
Proof. exact ll_last. Qed.
Print Assumptions C13_all_delivered_partial.

(** C14: false.  A complete valid stream of one byte, a buffer of 100 bytes: Z_STREAM_END is returned
    and the callback is not called at all. *)
Theorem C14_terminated_delivered_refuted : exists z (C : zlib_contract z) e alloc fuel id buf size hjunk pjunk s0 ops s evs,
  usable buf size /\ ll_create z true id buf size hjunk pjunk = Some s0 /\ Forall llop_ok ops /\
  zc_bad C (fed ops) = false /\ zc_fin C (fed ops) = true /\
  run_llops e alloc fuel s0 ops = Ok ([Z_STREAM_END], s, evs) /\
  lenN (zc_dec C (fed ops)) < size /\ zc_dec C (fed ops) <> [] /\ evs = [].
Proof. exact ex_c14. Qed.
Print Assumptions C14_terminated_delivered_refuted.
(** What remains of C14: when Z_STREAM_END is returned at most one buffer's worth at the end is missing. *)
Theorem C14_terminated_delivered_partial : forall z (C : zlib_contract z) e alloc fuel ok id buf size hjunk pjunk s0 ops f d rets s evs,
  usable buf size -> ll_create z ok id buf size hjunk pjunk = Some s0 -> Forall llop_ok (ops ++ [LFeed f d]) ->
  run_llops e alloc fuel s0 (ops ++ [LFeed f d]) = Ok (rets ++ [Z_STREAM_END], s, evs) ->
  Forall (fun r => r = 0%Z) rets ->
  exists lost, lenN lost <= cur_size size ops /\ raw_bytes evs ++ lost = zc_dec C (fed (ops ++ [LFeed f d])).
Proof. exact ll_end. Qed.
Print Assumptions C14_terminated_delivered_partial.

(** C15: if all calls return 0 and the last one left room in its last callback, the input so far is a prefix
    of a valid stream. *)
Theorem C15_corrupt_reported : forall z (C : zlib_contract z) e alloc fuel ok id buf size hjunk pjunk s0 ops f d rets s evs,
  usable buf size -> ll_create z ok id buf size hjunk pjunk = Some s0 -> Forall llop_ok (ops ++ [LFeed f d]) -> d <> [] ->
  run_llops e alloc fuel s0 (ops ++ [LFeed f d]) = Ok (rets, s, evs) -> Forall (fun r => r = 0%Z) rets ->
  exists evs1 x, evs = evs1 ++ [EvRaw (cur_id id ops) x] /\
    (lenN x < cur_size size ops ->
     raw_bytes evs = zc_dec C (fed (ops ++ [LFeed f d])) /\ zc_bad C (fed (ops ++ [LFeed f d])) = false).
Proof. exact ll_last. Qed.
Print Assumptions C15_corrupt_reported.
(** After a non-zero return nothing is delivered any more and every call with data returns non-zero. *)
Theorem C15_stays_failed : forall z (C : zlib_contract z) e alloc fuel ok id buf size hjunk pjunk s0 ops1 ops2 rets1 s1 ev1 rets2 s2 ev2,
  usable buf size -> ll_create z ok id buf size hjunk pjunk = Some s0 -> Forall llop_ok ops1 -> Forall llop_ok ops2 ->
  run_llops e alloc fuel s0 ops1 = Ok (rets1, s1, ev1) -> Exists (fun r => r <> 0%Z) rets1 ->
  run_llops e alloc fuel s1 ops2 = Ok (rets2, s2, ev2) ->
  ev2 = [] /\ Forall2 (fun d r => d <> [] -> r <> 0%Z) (feeds ops2) rets2.
Proof. exact ll_after_error. Qed.
Print Assumptions C15_stays_failed.
Example C15_case : exists s0 s1, usable (Some (zeros 9)) 9 /\
  ll_create rle_zlib true 7 (Some (zeros 9)) 9 [] ex_pj = Some s0 /\
  zc_bad rle_contract [x01;x61;x00;x05] = true /\
  run_llops LE ex_alloc 9 s0 [LFeed Z_NO_FLUSH [x01;x61]; LFeed Z_NO_FLUSH [x00;x05]] =
    Ok ([0%Z; Z_DATA_ERROR], s1, [EvRaw 7 [x61]]).
Proof. exact ex_c15. Qed.

(** C16: any data, any flush value; [fuel]: number of nested calls and loop iterations. *)
Theorem C16_ll_returns : forall z (C : zlib_contract z) e alloc ok id buf size hjunk pjunk s0 ops,
  usable buf size -> ll_create z ok id buf size hjunk pjunk = Some s0 -> Forall llop_buf_ok ops ->
  exists fuel0 r, forall fuel, (fuel0 <= fuel)%nat -> run_llops e alloc fuel s0 ops = Ok r.
Proof. exact ll_returns. Qed.
Print Assumptions C16_ll_returns.
Theorem C16_session_returns : forall z (C : zlib_contract z) e alloc s0 ops, started z s0 -> Forall dop_ok ops -> supported z C (dfed ops) ->
  exists fuel0 r, forall fuel, (fuel0 <= fuel)%nat -> run_dops e alloc fuel s0 ops = Ok r.
Proof. exact session_returns_ok. Qed.
Print Assumptions C16_session_returns.
Example C16_case : exists s0 s, usable (Some (zeros 2)) 2 /\
  ll_create rle_zlib true 7 (Some (zeros 2)) 2 [] ex_pj = Some s0 /\ Forall llop_ok ex_ll /\
  run_llops LE ex_alloc 9 s0 ex_ll = Ok ([0%Z; 0%Z; 0%Z], s, [EvRaw 7 []; EvRaw 7 [x61;x61;x61]; EvRaw 9 [x62;x62]]).
Proof. exact ex_c12. Qed.

(** C17: no callback before 128 bytes of plaintext. *)
Theorem C17_before_header : forall z (C : zlib_contract z) e alloc fuel s0 ops rets s evs, started z s0 -> Forall dop_ok ops ->
  lenN (zc_dec C (dfed ops)) < 128 -> run_dops e alloc fuel s0 ops = Ok (rets, s, evs) -> evs = [].
Proof. exact before_header. Qed.
Print Assumptions C17_before_header.
(** Directory archives: the decoder gets the plaintext from byte 129 on; all of it, in an undamaged archive, if the last
    inflate call left room.  [dir_events s0 chunks evs]: the callbacks the decoder makes for the outputs [chunks]. *)
Theorem C17_directory : forall z (C : zlib_contract z) e alloc fuel s0 ops rets s evs, started z s0 -> Forall dop_ok ops ->
  archive_of ContentDirectory (zc_dec C (dfed ops)) ->
  run_dops e alloc fuel s0 ops = Ok (rets, s, evs) ->
  (evs = [] \/ exists chunks evs', evs = EvDirBegin :: evs' /\ dir_events z e alloc s0 chunks evs' /\
     prefix (ctext chunks) (dropN 128 (zc_dec C (dfed ops)))) /\
  (zc_bad C (dfed ops) = false -> zc_fin C (dfed ops) = false ->
   Forall (fun r => r = 0%Z) rets /\
   (room_left s -> 128 < lenN (zc_dec C (dfed ops)) ->
    exists chunks evs', evs = EvDirBegin :: evs' /\ dir_events z e alloc s0 chunks evs' /\
      ctext chunks = dropN 128 (zc_dec C (dfed ops)))).
Proof. exact dir_session. Qed.
Print Assumptions C17_directory.
Example C17_case : exists s evs, started rle_zlib ex_sess /\ Forall dop_ok (ex_dops 333) /\
  archive_of ContentDirectory (zc_dec rle_contract (dfed (ex_dops 333))) /\
  zc_bad rle_contract (dfed (ex_dops 333)) = false /\ zc_fin rle_contract (dfed (ex_dops 333)) = false /\ room_left s /\
  run_dops BE ex_alloc 400 ex_sess (ex_dops 333) = Ok ([0%Z; 0%Z], s, EvDirBegin :: evs) /\
  map (fun o => match o with OEntry f _ n => (1, f, n) | OByte b => (2, FtNone, [b]) | OFileEnd => (3, FtNone, [])
                | ODirEnd => (4, FtNone, []) | OSym => (5, FtNone, []) | _ => (6, FtNone, []) end) (flat evs) =
  [(1, FtDir, ex_name [x64]); (1, FtFile, ex_name [x61;x62;x63]); (2, FtNone, [x31]); (2, FtNone, [x32]); (2, FtNone, [x33]);
   (3, FtNone, []); (4, FtNone, []); (1, FtSymLink, ex_name [x6c]); (5, FtNone, [])].
Proof. exact ex_c17. Qed.

(** C23: false.  After an unsupported header, the bytes that follow overwrite it; when they look like version 0
    the assertion in zlibwt_decompress_routines.c:59 fails (or, compiled out, the user data pointer is used
    as session). *)
Theorem C23_version_refuted : exists z (C : zlib_contract z) e alloc fuel s0 ops,
  started z s0 /\ Forall dop_ok ops /\ 128 <= lenN (zc_dec C (dfed ops)) /\ version_of (zc_dec C (dfed ops)) <> 0 /\
  zc_bad C (dfed ops) = false /\ run_dops e alloc fuel s0 ops = UB.
Proof. exact ex_c23. Qed.
Print Assumptions C23_version_refuted.
(** What remains of C23: in every execution that does not reach that assertion no callback is called. *)
Theorem C23_version_partial : forall z (C : zlib_contract z) e alloc fuel s0 ops rets s evs, started z s0 -> Forall dop_ok ops ->
  128 <= lenN (zc_dec C (dfed ops)) -> version_of (zc_dec C (dfed ops)) <> 0 ->
  run_dops e alloc fuel s0 ops = Ok (rets, s, evs) -> evs = [].
Proof. exact bad_version. Qed.
Print Assumptions C23_version_partial.
Example C23_case : exists s, started rle_zlib ex_sess /\ Forall dop_ok ex_badops /\
  version_of (zc_dec rle_contract (dfed ex_badops)) = 1 /\
  run_dops LE ex_alloc 40 ex_sess ex_badops = Ok ([0%Z; 0%Z; 0%Z], s, []).
Proof. exact ex_c23p. Qed.

(** C24 *)
Theorem C24_unknown_type : forall z (C : zlib_contract z) e alloc fuel s0 ops rets s evs typ, started z s0 -> Forall dop_ok ops ->
  archive_of typ (zc_dec C (dfed ops)) -> typ <> ContentDirectory -> typ <> ContentFile -> typ <> ContentBlob ->
  run_dops e alloc fuel s0 ops = Ok (rets, s, evs) -> evs = [].
Proof. exact unknown_type. Qed.
Print Assumptions C24_unknown_type.
Example C24_case : exists s, started rle_zlib ex_sess /\ Forall dop_ok [DFeed Z_NO_FLUSH (ex_arch 77 ex_tree)] /\
  archive_of 77 (zc_dec rle_contract (dfed [DFeed Z_NO_FLUSH (ex_arch 77 ex_tree)])) /\
  run_dops LE ex_alloc 400 ex_sess [DFeed Z_NO_FLUSH (ex_arch 77 ex_tree)] = Ok ([0%Z], s, []).
Proof. exact ex_c24. Qed.

(** C25: [reads ds]: the start callback, then read callbacks with the data [ds]. *)
Theorem C25_file_content : forall z (C : zlib_contract z) e alloc fuel s0 ops rets s evs typ, started z s0 -> Forall dop_ok ops ->
  archive_of typ (zc_dec C (dfed ops)) -> typ = ContentFile \/ typ = ContentBlob ->
  run_dops e alloc fuel s0 ops = Ok (rets, s, evs) ->
  (evs = [] \/ exists ds, evs = reads ds /\ prefix (concat ds) (dropN 128 (zc_dec C (dfed ops)))) /\
  (zc_bad C (dfed ops) = false -> zc_fin C (dfed ops) = false ->
   Forall (fun r => r = 0%Z) rets /\
   (room_left s -> 128 < lenN (zc_dec C (dfed ops)) ->
    exists ds, evs = reads ds /\ concat ds = dropN 128 (zc_dec C (dfed ops)))).
Proof. exact file_session. Qed.
Print Assumptions C25_file_content.
Example C25_case : exists s, started rle_zlib ex_sess /\ Forall dop_ok ex_fops /\
  archive_of ContentFile (zc_dec rle_contract (dfed ex_fops)) /\
  zc_bad rle_contract (dfed ex_fops) = false /\ zc_fin rle_contract (dfed ex_fops) = false /\ room_left s /\
  run_dops BE ex_alloc 40 ex_sess ex_fops =
   Ok ([0%Z; 0%Z], s, [EvFlBegin; EvFlRead (repeat x41 9); EvFlRead (repeat x41 9); EvFlRead [x41;x41]]).
Proof. exact ex_c25. Qed.
