(** Properties C107-C110 (resources).
    [dir_parse e alloc n t s buf]: the directory decoder is given [buf]; [NoFuel]: more than [n] of its invocations are nested.
    [nests e alloc t s buf d]: exactly [d] are.  [parse_chunks e alloc (dir_fresh p) chunks]: see Properties_Parser.v; [p_name]: the
    block pFileName.  [empty_files mode names]: a directory of empty files.  [extract_led al init]: the blocks that
    ZlibWtDecompressFileOrDirEx allocates and frees when the allocations succeed as [al] says and inflateInit as [init] says.
    [tree_size es]: 40 bytes for each entry, 40 more for a directory, names and contents filled up to the next multiple of eight. *)
From Verif Require Import Base Format Zlib RleZlib LLCompress Compress Parser ParserProofs ParserFacts Decompress MidFacts DecompressExamples ArchiveSpec
  ArchiveDecode ArchiveProps ArchiveExamples FS HL HLProps HLExamples StackFacts BlockFacts ResourceFacts ResourceExamples.

(** C107: false.  For every bound there is a directory of empty files, 56 bytes each, for which the decoder nests deeper. *)
Theorem C107_stack_refuted : forall bound, exists names b, encodes (empty_files 420 names) b /\ lenN b = 56 * lenN names /\
  forall f, (f <= bound)%nat -> dir_parse LE ex_alloc f [] (dir_fresh ex_left) b = NoFuel.
Proof. exact stack_unbounded. Qed.
Print Assumptions C107_stack_refuted.
(** Every directory of empty files that arrives at once: four nested invocations for each of them. *)
Theorem C107_stack_exact : forall e alloc p t mode names b, leftovers p -> (forall k n, alloc k n = true) ->
  Forall (fun n => lenN n + 8 < two32) names -> mode < two32 -> names <> [] -> encodes (empty_files mode names) b ->
  nests e alloc t (dir_fresh p) b (4 * length names).
Proof. exact fresh_nests. Qed.
Print Assumptions C107_stack_exact.
(** What remains of C107: a bound for each buffer size, whatever the input. *)
Theorem C107_stack_partial : forall e alloc p chunks s evs t buf, leftovers p -> parse_chunks e alloc (dir_fresh p) chunks = Ok (s, evs) ->
  exists r, dir_parse e alloc (4 * N.to_nat (lenN buf / 40) + 5) t s buf = Ok r.
Proof. exact fresh_depth. Qed.
Print Assumptions C107_stack_partial.
(** With the buffer of ZlibWtDecompressFileOrDirEx. *)
Theorem C107_stack_extraction : forall e alloc p chunks s evs t buf, leftovers p -> parse_chunks e alloc (dir_fresh p) chunks = Ok (s, evs) ->
  lenN buf <= DEF_CHUNK_SIZE -> exists r, dir_parse e alloc (N.to_nat 52433) t s buf = Ok r.
Proof. exact fresh_depth_chunk. Qed.
Print Assumptions C107_stack_extraction.
Example C107_case : encodes (empty_files 420 [[x61]; [x62]; [x63]]) (rx_bytes [[x61]; [x62]; [x63]]) /\
  dir_parse LE ex_alloc 11 [] (dir_fresh ex_left) (rx_bytes [[x61]; [x62]; [x63]]) = NoFuel /\
  exists s evs, dir_parse LE ex_alloc 12 [] (dir_fresh ex_left) (rx_bytes [[x61]; [x62]; [x63]]) = Ok (s, evs) /\ length evs = 9%nat.
Proof. exact ex_c107. Qed.

(** C108: false.  40 bytes make the decoder allocate almost 4 GiB. *)
Theorem C108_memory_refuted : exists chunks s evs blk, lenN (ctext chunks) = 40 /\
  parse_chunks LE ex_alloc (dir_fresh ex_left) chunks = Ok (s, evs) /\ p_name s = Some blk /\ lenN blk = 4294967288.
Proof. exact block_unbounded. Qed.
Print Assumptions C108_memory_refuted.
(** What remains of C108: archives as the library writes them, at every moment of the decoding ([y]: what has not arrived yet). *)
Theorem C108_memory_partial : forall e alloc p M recs chunks y s evs blk, leftovers p -> p_name p = None -> (forall k n, alloc k n = true) ->
  encodes recs (ctext chunks ++ y) -> Forall rec_ok recs -> Forall (fun r => lenN (rec_name r) + 8 <= M) recs ->
  parse_chunks e alloc (dir_fresh p) chunks = Ok (s, evs) -> p_name s = Some blk -> lenN blk <= M.
Proof. exact fresh_block. Qed.
Print Assumptions C108_memory_partial.
(** Whatever the input: less than 4 GiB. *)
Theorem C108_memory_32 : forall e alloc p chunks s evs blk, leftovers p -> p_name p = None ->
  parse_chunks e alloc (dir_fresh p) chunks = Ok (s, evs) -> p_name s = Some blk -> lenN blk < two32.
Proof. exact fresh_block_32. Qed.
Print Assumptions C108_memory_32.
Example C108_case : exists s evs blk, leftovers ex_left /\ p_name ex_left = None /\
  encodes rx_recs (ctext [(takeN 60 rx_content, [])] ++ dropN 60 rx_content) /\ Forall rec_ok rx_recs /\
  Forall (fun r => lenN (rec_name r) + 8 <= 11) rx_recs /\
  parse_chunks LE ex_alloc (dir_fresh ex_left) [(takeN 60 rx_content, [])] = Ok (s, evs) /\ p_name s = Some blk /\ lenN blk = 8.
Proof. exact ex_c108. Qed.

(** C109: false.  inflateInit fails: the block of the session is not freed. *)
Theorem C109_buffers_refuted : exists o',
  exec (extract [x6f] hx_hal hx_stk (no_inflate rle_zlib) LE ex_alloc 0 9 9 ax_al (zeros DEF_CHUNK_SIZE) ax_hjunk ex_pj [] false) (hx_os 1000) =
    Ok ((ContentNone, None), o') /\ ~ released (extract_led ax_al (inits (no_inflate rle_zlib))).
Proof. exact ex_c109. Qed.
Print Assumptions C109_buffers_refuted.
(** C109 is also false when the block for a name cannot be enlarged: the only pointer to the block held so far is replaced by NULL. *)
Theorem C109_name_block_refuted : exists s evs s' evs' blk,
  parse_chunks LE (fun k _ => k <? 1) (dir_fresh (PS StHeader 0 0 (zeros 40) (Item 0 0 0 0 0 x00) None FtNone false 0)) [(takeN 60 rx_content, [])] = Ok (s, evs) /\
  p_name s = Some blk /\ lenN blk = 8 /\ p_allocs s = 1 /\
  parse_chunks LE (fun k _ => k <? 1) s [(dropN 60 rx_content, [])] = Ok (s', evs') /\ p_allocs s' = 2 /\ p_name s' = None /\ p_err s' = true.
Proof. exact ex_c109_name. Qed.
Print Assumptions C109_name_block_refuted.
(** What remains of C109: all other paths; and which of them the function takes. *)
Theorem C109_buffers_partial : forall al init, (al 1 && al 2 && al 3 = true -> init = true) -> released (extract_led al init).
Proof. exact extract_releases. Qed.
Print Assumptions C109_buffers_partial.
Theorem C109_paths : forall T hal stk z e alloc archive fuel dfuel al obuf hjunk pjunk inp rderr o ret st o',
  exec (extract T hal stk z e alloc archive fuel dfuel al obuf hjunk pjunk inp rderr) o = Ok ((ret, st), o') ->
  (st <> None <-> al 1 && al 2 && al 3 && inits z = true).
Proof. exact extract_led_paths. Qed.
Print Assumptions C109_paths.
(** A compression session that is not created leaves nothing allocated. *)
Theorem C109_compress_session : forall made init written, made && init && written = false -> released (csession_led made init written).
Proof. exact csession_null. Qed.
Print Assumptions C109_compress_session.
Example C109_case : (ax_al 1 && ax_al 2 && ax_al 3 = true -> inits rle_zlib = true) /\
  extract_led ax_al (inits rle_zlib) = [LMalloc 1; LMalloc 2; LMalloc 3; LFree 3; LFree 2; LFree 1] /\
  extract_led (fun i => negb (i =? 3)) (inits (no_inflate rle_zlib)) = [LMalloc 1; LMalloc 2; LFree 2; LFree 1].
Proof. exact ex_c109_paths. Qed.

(** C110 *)
Theorem C110_content_size : forall z (C : zlib_contract z) es F, archives_dir z es F -> Forall (fun x => quiet (snd x)) es ->
  lenN (zc_dec C F) = 128 + tree_size es.
Proof. exact content_size. Qed.
Print Assumptions C110_content_size.
Example C110_case : archives_dir rle_zlib hx_tree (hx_arch hx_tree) /\ Forall (fun x => quiet (snd x)) hx_tree /\ tree_size hx_tree = 288.
Proof. exact ex_c110. Qed.
