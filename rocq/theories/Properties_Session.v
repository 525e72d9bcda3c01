(** Properties_Session.v: properties C90 and C91 (flush values, uninitialised memory of a session).

    Notions used: [usable buf size], [llop_ok], [fed], [zc_dec C], [raw_bytes]: as for C12; [llop_buf_ok]: every buffer set is usable.
    [seen_of]: results of the calls and arguments of the callbacks; [shown_of]: the same without the memory behind the target of a
    symbolic link; [left_of]: return value of an extraction and the file system it leaves; [alike]: buffers of the same size;
    [op_alike]: the same call, with a buffer of the same size.  [hj], [pj]: uninitialised header and decoder fields of a session
    (p_allocs is the model's count of the calls of realloc, not a field of the session). *)
From Verif Require Import Base Format Zlib RleZlib LLCompress Compress Parser ParserProofs ParserFacts Decompress DecompressProofs
  DecompressFacts MidProofs MidFacts DecompressExamples ArchiveSpec ArchiveFacts ArchiveDecode ArchiveEntry ArchiveProps ArchiveExamples
  FS FSFacts HL HLSpec HLFacts HLDrive HLProps HLSafe MkdirFacts HLTame HLMkdir HLMore HLExamples LinkFacts Sessions SessionsFacts
  FlushFacts InitFacts InitExamples.

(** C90: false.  The stream that is delivered with Z_NO_FLUSH is not delivered with Z_FINISH. *)
Theorem C90_flush_refuted : exists s0 s1 s2, usable (Some (zeros 100)) 100 /\
  ll_create rle_zlib true 7 (Some (zeros 100)) 100 [] ex_pj = Some s0 /\
  zc_bad rle_contract [x01;x61] = false /\ zc_dec rle_contract [x01;x61] = [x61] /\
  run_llops LE ex_alloc 9 s0 [LFeed Z_NO_FLUSH [x01;x61]] = Ok ([0%Z], s1, [EvRaw 7 [x61]]) /\
  run_llops LE ex_alloc 9 s0 [LFeed Z_FINISH [x01;x61]] = Ok ([Z_BUF_ERROR], s2, []).
Proof. exact ex_c90. Qed.
Print Assumptions C90_flush_refuted.

(** C90: never true.  A call with Z_FINISH and at least one byte never returns 0 and never invokes the callback. *)
Theorem C90_flush_never_refuted : forall z (C : zlib_contract z) e alloc fuel ok id buf size hjunk pjunk s0 ops d rets s evs,
  usable buf size -> ll_create z ok id buf size hjunk pjunk = Some s0 -> Forall llop_buf_ok ops -> d <> [] -> lenN d < two32 ->
  run_llops e alloc fuel s0 (ops ++ [LFeed Z_FINISH d]) = Ok (rets, s, evs) ->
  exists rets1 r s1, rets = rets1 ++ [r] /\ r <> 0%Z /\ run_llops e alloc fuel s0 ops = Ok (rets1, s1, evs).
Proof. exact finish_never. Qed.
Print Assumptions C90_flush_never_refuted.

(** What remains of C90: with the other flush values what is delivered is determined by the bytes alone. *)
Theorem C90_flush_partial : forall z (C : zlib_contract z) e alloc fuel ok id buf size hjunk pjunk s0 ops f d rets s evs,
  usable buf size -> ll_create z ok id buf size hjunk pjunk = Some s0 -> Forall llop_ok (ops ++ [LFeed f d]) -> d <> [] ->
  run_llops e alloc fuel s0 (ops ++ [LFeed f d]) = Ok (rets, s, evs) -> Forall (fun r => r = 0%Z) rets ->
  exists evs1 x, evs = evs1 ++ [EvRaw (cur_id id ops) x] /\
    (lenN x < cur_size size ops ->
     raw_bytes evs = zc_dec C (fed (ops ++ [LFeed f d])) /\ zc_bad C (fed (ops ++ [LFeed f d])) = false).
Proof. exact ll_last. Qed.
Print Assumptions C90_flush_partial.
(** What remains of C90: archive sessions do not use the flush value once they have read the header. *)
Theorem C90_flush_session_partial : forall z e alloc fuel f f' d (s : dsess z), d_inited s = true ->
  decompress e alloc fuel f d s = decompress e alloc fuel f' d s.
Proof. exact flush_unused. Qed.
Print Assumptions C90_flush_session_partial.
Example C90_case : exists s0 s, usable (Some (zeros 2)) 2 /\
  ll_create rle_zlib true 7 (Some (zeros 2)) 2 [] ex_pj = Some s0 /\ Forall llop_ok ex_ll /\
  run_llops LE ex_alloc 9 s0 ex_ll = Ok ([0%Z; 0%Z; 0%Z], s, [EvRaw 7 []; EvRaw 7 [x61;x61;x61]; EvRaw 9 [x62;x62]]).
Proof. exact ex_c12. Qed.

(** C91: false.  If the input ends behind the target of a symbolic link, the link gets a target that continues with what the output
    buffer contained when malloc returned it. *)
Theorem C91_uninitialised_refuted : exists r1 o1 r2 o2, archives_dir rle_zlib in_tree (hx_arch in_tree) /\ lenN in_buf = DEF_CHUNK_SIZE /\
  did (in_extract (zeros DEF_CHUNK_SIZE)) r1 o1 /\ did (in_extract in_buf) r2 o2 /\
  o_fs o1 [[x77]; [x6f]; [x6d]] = Some (ILink [x2f;x66]) /\ o_fs o2 [[x77]; [x6f]; [x6d]] = Some (ILink ([x2f;x66] ++ List.repeat x41 10)).
Proof. exact ex_c91. Qed.
Print Assumptions C91_uninitialised_refuted.
(** C91: false.  The same input: the target is read past the end of a buffer without zeros. *)
Theorem C91_uninitialised_past_refuted : lenN in_full = DEF_CHUNK_SIZE /\ in_extract in_full = UB.
Proof. exact ex_c91_past. Qed.
Print Assumptions C91_uninitialised_past_refuted.

(** What remains of C91: the uninitialised fields of the session have no influence on an extraction, for any input. *)
Theorem C91_uninitialised_extract_partial : forall z e alloc T hal stk archive fuel dfuel al obuf hj pj hj' pj' inp rderr o,
  lenN hj = MAIN_HEADER_SIZE -> lenN hj' = MAIN_HEADER_SIZE -> lenN (p_img pj) = ITEM_SIZE -> lenN (p_img pj') = ITEM_SIZE ->
  p_allocs pj = p_allocs pj' ->
  left_of z (exec (extract T hal stk z e alloc archive fuel dfuel al obuf hj pj inp rderr) o) =
  left_of z (exec (extract T hal stk z e alloc archive fuel dfuel al obuf hj' pj' inp rderr) o).
Proof. exact uninit_extract. Qed.
Print Assumptions C91_uninitialised_extract_partial.
(** What remains of C91: neither they nor the previous contents of the buffers have an influence on what the callbacks of a session
    get, whatever is passed in. *)
Theorem C91_uninitialised_session_partial : forall z e alloc fuel ok buf buf' size hj pj hj' pj' s s' ops ops',
  alike buf buf' -> Forall2 op_alike ops ops' ->
  lenN hj = MAIN_HEADER_SIZE -> lenN hj' = MAIN_HEADER_SIZE -> lenN (p_img pj) = ITEM_SIZE -> lenN (p_img pj') = ITEM_SIZE ->
  p_allocs pj = p_allocs pj' ->
  create z ok buf size hj pj = Some s -> create z ok buf' size hj' pj' = Some s' ->
  shown_of z (run_dops e alloc fuel s ops) = shown_of z (run_dops e alloc fuel s' ops').
Proof. exact uninit_buffers. Qed.
Print Assumptions C91_uninitialised_session_partial.
Example C91_case : exists s s', List.repeat x77 128 <> ax_hjunk /\ p_stage in_pj <> p_stage ex_pj /\
  lenN ax_hjunk = MAIN_HEADER_SIZE /\ lenN (List.repeat x77 128) = MAIN_HEADER_SIZE /\ lenN (p_img ex_pj) = ITEM_SIZE /\ lenN (p_img in_pj) = ITEM_SIZE /\
  p_allocs ex_pj = p_allocs in_pj /\
  create rle_zlib true (Some (zeros 64)) 64 ax_hjunk ex_pj = Some s /\ create rle_zlib true (Some (zeros 64)) 64 (List.repeat x77 128) in_pj = Some s' /\
  exists it t, seen_of rle_zlib (run_dops LE ex_alloc 100 s [DFeed 0 (takeN 9 (hx_arch in_tree)); DFeed 0 (dropN 9 (hx_arch in_tree))]) =
    Ok ([0; 0]%Z, [EvDirBegin; EvEntry FtSymLink it ([x6d] ++ zeros 7); EvSym [x2f;x66] t]).
Proof. exact ex_c91_case. Qed.
