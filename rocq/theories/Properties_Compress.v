(** Properties C05-C11 (compression sessions). *)
From Verif Require Import Base Format Zlib RleZlib LLCompress CompressFacts CompressExamples.

(** C05: for every history of calls, what the callbacks received decodes to the header and the bytes
    passed in, once the last callback received less than the output buffer holds (deflate had
    nothing left to flush); without that proviso it decodes to a prefix, never to anything else. *)
Theorem C05_lossless : forall z (C : zlib_contract z) fuel e typ level clbk size junk s0 ev0 ops rets s evs,
  lenN junk = 128 -> 0 < u32 size ->
  create_csession z fuel e true typ level clbk false size junk = Ok (Some s0, ev0) ->
  Forall cop_ok ops -> run_cops fuel s0 ops = Ok (rets, s, evs) ->
  Forall (fun r => r = 0%Z) rets /\
  prefix (zc_dec C (cev_bytes (ev0 ++ evs))) (header_image e typ junk ++ ops_bytes ops) /\
  zc_bad C (cev_bytes (ev0 ++ evs)) = false /\ zc_fin C (cev_bytes (ev0 ++ evs)) = false /\
  (last_not_full (ev0 ++ evs) ->
   zc_dec C (cev_bytes (ev0 ++ evs)) = header_image e typ junk ++ ops_bytes ops).
Proof. exact session_lossless. Qed.
Print Assumptions C05_lossless.
Example C05_case : exists s0 ev0 s evs,
  create_csession rle_zlib 9 BE true 2 6 7 false 300 (zeros 128) = Ok (Some s0, ev0) /\
  Forall cop_ok ex_ops /\ run_cops 9 s0 ex_ops = Ok ([0%Z; 0%Z], s, evs) /\ last_not_full (ev0 ++ evs).
Proof. exact ex_c05. Qed.

(** C06: false.  All calls return 0, the session is destroyed (which delivers nothing), and
    the delivered bytes decode to less than what was passed in. *)
Theorem C06_nothing_lost_refuted : exists z (C : zlib_contract z) fuel e typ level clbk size junk s0 ev0 ops rets s evs,
  lenN junk = 128 /\ 0 < u32 size /\
  create_csession z fuel e true typ level clbk false size junk = Ok (Some s0, ev0) /\
  Forall cop_ok ops /\ run_cops fuel s0 ops = Ok (rets, s, evs) /\
  Forall (fun r => r = 0%Z) rets /\
  zc_dec C (cev_bytes (ev0 ++ evs)) <> header_image e typ junk ++ ops_bytes ops.
Proof. exact ex_c06. Qed.
Print Assumptions C06_nothing_lost_refuted.
(** What remains of C06: nothing is lost when the last callback received less than the buffer size. *)
Theorem C06_nothing_lost_partial : forall z (C : zlib_contract z) fuel e typ level clbk size junk s0 ev0 ops rets s evs,
  lenN junk = 128 -> 0 < u32 size ->
  create_csession z fuel e true typ level clbk false size junk = Ok (Some s0, ev0) ->
  Forall cop_ok ops -> run_cops fuel s0 ops = Ok (rets, s, evs) ->
  last_not_full (ev0 ++ evs) ->
  zc_dec C (cev_bytes (ev0 ++ evs)) = header_image e typ junk ++ ops_bytes ops.
Proof. exact session_lossless_flushed. Qed.
Print Assumptions C06_nothing_lost_partial.

(** C07: [log_zlib z] is z with a log of the bytes deflate produces.  The callbacks carry that log
    exactly; per write they go to the callback set last, in pieces of at most the buffer size set last. *)
Theorem C07_callback_contract : forall z (C : zlib_contract z) fuel e typ level clbk size junk s0 ev0 ops rets s evs,
  lenN junk = 128 -> 0 < u32 size ->
  create_csession (log_zlib z) fuel e true typ level clbk false size junk = Ok (Some s0, ev0) ->
  Forall cop_ok ops -> run_cops fuel s0 ops = Ok (rets, s, evs) ->
  concat (map ce_data (ev0 ++ evs)) = snd (cs_z s) /\
  obeys (clbk, u32 size) ev0 /\
  exists evss, evs = concat evss /\ Forall2 obeys (settings clbk (u32 size) ops) evss.
Proof. exact callback_contract. Qed.
Print Assumptions C07_callback_contract.
Example C07_case : exists s0 ev0 s evs,
  create_csession (log_zlib rle_zlib) 9 BE true 2 6 7 false 300 (zeros 128) = Ok (Some s0, ev0) /\
  Forall cop_ok ex_ops /\ run_cops 9 s0 ex_ops = Ok ([0%Z; 0%Z], s, evs) /\ length evs = 2%nat.
Proof. exact ex_c07. Qed.

(** C08: a compress call returns 0; more fuel changes nothing. *)
Theorem C08_compress_returns : forall z (C : zlib_contract z) s data i o,
  zc_dinv C (cs_z s) i o -> cs_null s = false -> 0 < cs_bufsz s ->
  exists fuel0 s' evs, forall fuel, (fuel0 <= fuel)%nat -> compress_call fuel s data = Ok (0%Z, s', evs).
Proof. exact compress_returns. Qed.
Print Assumptions C08_compress_returns.
Theorem C08_session_returns : forall z (C : zlib_contract z) e alloc typ level clbk size junk ops,
  lenN junk = 128 -> 0 < u32 size -> Forall cop_ok ops ->
  exists fuel os ev, create_csession z fuel e alloc typ level clbk false size junk = Ok (os, ev) /\
    match os with
    | None => True
    | Some s => exists r, run_cops fuel s ops = Ok r
    end.
Proof. exact session_returns. Qed.
Print Assumptions C08_session_returns.
Example C08_case : zc_dinv rle_contract (cs_z (CS ([] : dst rle_zlib) false 1 0)) [] [] /\
  exists s', compress_call 5 (CS ([] : dst rle_zlib) false 1 0) [x61;x61;x62] = Ok (0%Z, s', [CEV 0 1 [x02]]).
Proof. exact ex_c08. Qed.

(** C09: false: with a buffer whose size is a multiple of 2^32 no call on non-empty data returns. *)
Theorem C09_zero_buffer_refuted : exists z (C : zlib_contract z) s i o data size,
  zc_dinv C (cs_z s) i o /\ data <> [] /\ size = 2 ^ 32 /\
  forall fuel, compress_call fuel (set_cbuffer s false size) data = NoFuel.
Proof. exact ex_c09. Qed.
Print Assumptions C09_zero_buffer_refuted.
Theorem C09_zero_buffer_never_returns : forall z (C : zlib_contract z) s data i o,
  zc_dinv C (cs_z s) i o -> cs_null s = false -> data <> [] -> lenN data < 2 ^ 32 ->
  forall size fuel, u32 size = 0 -> compress_call fuel (set_cbuffer s false size) data = NoFuel.
Proof. exact compress_call_zero_buffer. Qed.
Print Assumptions C09_zero_buffer_never_returns.

(** C10: false: 2^32 bytes are accepted with return value 0 and none of them is compressed. *)
Theorem C10_all_consumed_refuted : exists z (C : zlib_contract z) s data fuel s' evs,
  zc_dinv C (cs_z s) [] [] /\ cs_null s = false /\ 0 < cs_bufsz s /\ lenN data = 2 ^ 32 /\
  compress_call fuel s data = Ok (0%Z, s', evs) /\ s' = s /\ evs = [].
Proof. exact ex_c10. Qed.
Print Assumptions C10_all_consumed_refuted.
(** Below 2^32 bytes everything is consumed. *)
Theorem C10_all_consumed_partial : forall z (C : zlib_contract z) fuel s data ret s' evs i o,
  compress_call fuel s data = Ok (ret, s', evs) -> lenN data < 2 ^ 32 ->
  zc_dinv C (cs_z s) i o -> cs_null s = false -> 0 < cs_bufsz s ->
  ret = 0%Z /\ zc_dinv C (cs_z s') (i ++ data) (o ++ cev_bytes evs).
Proof. exact compress_call_consumes. Qed.
Print Assumptions C10_all_consumed_partial.

(** C11: creation. *)
Theorem C11_creation_fails : forall z (C : zlib_contract z) fuel e alloc typ level clbk null size junk,
  (level < -1 \/ 9 < level)%Z ->
  create_csession z fuel e alloc typ level clbk null size junk = Ok (None, []).
Proof. exact creation_fails. Qed.
Print Assumptions C11_creation_fails.
Theorem C11_creation_null : forall z fuel e alloc typ level clbk size junk os evs,
  lenN junk = 128 ->
  create_csession z fuel e alloc typ level clbk true size junk = Ok (os, evs) -> os = None /\ evs = [].
Proof. exact creation_null_buffer. Qed.
Print Assumptions C11_creation_null.
Theorem C11_creation_succeeds : forall z (C : zlib_contract z) e typ level clbk size junk,
  lenN junk = 128 -> typ < 2 ^ 32 -> 0 < u32 size -> deflateInit z level <> None ->
  exists fuel s evs h, create_csession z fuel e true typ level clbk false size junk = Ok (Some s, evs) /\
    zc_dinv C (cs_z s) h (cev_bytes evs) /\ cs_null s = false /\ cs_bufsz s = u32 size /\
    lenN h = 128 /\ (forall e', get e' 0 4 h = 0 /\ get e' 4 4 h = typ).
Proof. exact creation_succeeds_header. Qed.
Print Assumptions C11_creation_succeeds.
Example C11_case : deflateInit rle_zlib 9 <> None /\ deflateInit rle_zlib 10 = None /\ 0 < u32 524288.
Proof. repeat split; discriminate. Qed.
