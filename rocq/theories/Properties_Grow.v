(** Properties_Grow.v: how much an extraction can write (C155).

    [loads evs] (GrowFacts.v): the bytes of the archive the callbacks [evs] stand for: 40 and the name for each entry, 40 for each end of a directory, the
    bytes passed for contents and for targets of links.  [o_free]: the bytes by which files can still grow. *)
From Verif Require Import Base Format Zlib RleZlib Parser Decompress MidProofs MidFacts DecompressExamples ArchiveExamples FS HL HLSpec HLProps HLMore HLExamples GrowFacts GrowExamples.

(** C155: whatever the archive says about sizes, the callbacks stand for no more bytes than the archive has behind its header. *)
Theorem C155_callbacks : forall z (C : zlib_contract z) e alloc fuel s0 ops rets s evs, started z s0 -> Forall dop_ok ops ->
  run_dops e alloc fuel s0 ops = Ok (rets, s, evs) -> evs = [] \/ loads evs + 128 <= lenN (zc_dec C (dfed ops)).
Proof. exact session_load. Qed.
Print Assumptions C155_callbacks.
Example C155_case_session : exists rets s evs, started rle_zlib ex_sess /\ Forall dop_ok (ex_dops 333) /\
  run_dops BE ex_alloc 400 ex_sess (ex_dops 333) = Ok (rets, s, evs) /\ loads evs = 190 /\ lenN (zc_dec rle_contract (dfed (ex_dops 333))) = 328.
Proof. exact ex_c155_session. Qed.
(** C155: so no extraction takes more space for contents than the decompressed bytes behind the header, whatever was there before. *)
Theorem C155_disk : forall z (C : zlib_contract z) e alloc hal al stk obuf hjunk pjunk, calm z hal al stk obuf hjunk pjunk ->
  forall T archive fuel dfuel inp rderr o ret x o',
  exec (extract T hal stk z e alloc archive fuel dfuel al obuf hjunk pjunk inp rderr) o = Ok ((ret, x), o') ->
  o_free o <= o_free o' + (lenN (zc_dec C (first_bytes archive inp)) - 128).
Proof. exact extract_free. Qed.
Print Assumptions C155_disk.
(** The bound is reached by the archive of a file with two bytes. *)
Example C155_case : exists ret o', calm rle_zlib hx_hal ax_al hx_stk (zeros DEF_CHUNK_SIZE) ax_hjunk ex_pj /\
  did (hx_extract [x6f] 0 (hx_farch [x61;x62]) (hx_os 1000)) ret o' /\ o_free (hx_os 1000) = 1000 /\ o_free o' = 998 /\
  lenN (zc_dec rle_contract (first_bytes 0 (hx_farch [x61;x62]))) - 128 = 2.
Proof. exact ex_c155. Qed.
