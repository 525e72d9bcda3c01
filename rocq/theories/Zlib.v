(** Zlib.v: the interface of the external zlib library as used by the code, and the contract
    (zlib manual, zlib.h) that its implementation is assumed to meet.

    The submodule contrib/zlib is not present in /repo, so zlib is not modelled but abstracted:
    [zlib] is the record of the entry points called by the code and [zlib_contract] states what
    zlib.h documents.  Theorems quantify over every [zlib] with a [zlib_contract]; RleZlib.v
    provides one, so the contract is satisfiable. *)
From Verif Require Import Base.

Open Scope Z_scope.
(** zlib.h return codes and flush values. *)
Definition Z_OK : Z := 0.
Definition Z_STREAM_END : Z := 1.
Definition Z_STREAM_ERROR : Z := -2.
Definition Z_DATA_ERROR : Z := -3.
Definition Z_BUF_ERROR : Z := -5.
Definition Z_NO_FLUSH : Z := 0.
Definition Z_PARTIAL_FLUSH : Z := 1.
Definition Z_FULL_FLUSH : Z := 3.
Definition Z_FINISH : Z := 4.
Open Scope N_scope.

(** Result of one deflate/inflate step: return code, number of input bytes consumed, bytes put
    at next_out, new internal state. *)
Record zres (S : Type) : Type := ZR {
  zr_ret : Z;
  zr_used : N;
  zr_out : bytes;
  zr_st : S
}.
Arguments ZR {S}. Arguments zr_ret {S}. Arguments zr_used {S}.
Arguments zr_out {S}. Arguments zr_st {S}.

(** [deflate st flush inp room]: one call deflate(strm, flush) with avail_in = |inp|, the bytes
    [inp] at next_in, avail_out = room and next_out not NULL; likewise [inflate].
    deflateInit/inflateInit return [None] when they do not return Z_OK. *)
Record zlib : Type := {
  dst : Type;
  ist : Type;
  deflateInit : Z -> option dst;
  deflate : dst -> Z -> bytes -> N -> zres dst;
  inflateInit : option ist;
  inflate : ist -> Z -> bytes -> N -> zres ist
}.

(** Flush values with which inflate does not stop at block boundaries and does not demand the end
    of the stream: Z_NO_FLUSH, Z_PARTIAL_FLUSH, Z_SYNC_FLUSH, Z_FULL_FLUSH. *)
Definition normal_flush (f : Z) : Prop := (0 <= f <= 3)%Z.

(** The contract.  [zc_dec c]: the bytes that the compressed prefix [c] determines;
    [zc_bad c]: [c] cannot be extended to a valid stream; [zc_fin c]: [c] contains the end of the stream.
    [zc_dinv d i o]: deflate state [d] is reached after consuming [i] and producing [o];
    [zc_iinv s c p]: inflate state [s] is reached after consuming [c] and producing [p].
    [zc_dpend], [zc_ipend]: measures of what is still buffered inside; [zc_stuck s]: inflate has
    reported the end of the stream or an error. *)
Record zlib_contract (z : zlib) : Type := {
  zc_dec : bytes -> bytes;
  zc_bad : bytes -> bool;
  zc_fin : bytes -> bool;
  zc_dinv : dst z -> bytes -> bytes -> Prop;
  zc_iinv : ist z -> bytes -> bytes -> Prop;
  zc_dpend : dst z -> nat;
  zc_ipend : ist z -> nat;
  zc_stuck : ist z -> Prop;

  (** Decoding is incremental. *)
  zc_dec_nil : zc_dec [] = [];
  zc_dec_mono : forall c d, prefix (zc_dec c) (zc_dec (c ++ d));
  zc_bad_mono : forall c d, zc_bad c = true -> zc_bad (c ++ d) = true;
  zc_fin_mono : forall c d, zc_fin c = true -> zc_fin (c ++ d) = true;
  (** What follows the end of the stream is not part of it. *)
  zc_fin_dec : forall c d, zc_fin c = true -> zc_dec (c ++ d) = zc_dec c;

  (** deflateInit: level must be -1 (default) or 0..9. *)
  zc_level : forall l, (l < -1 \/ 9 < l)%Z -> deflateInit z l = None;
  zc_dinit : forall l d, deflateInit z l = Some d -> zc_dinv d [] [];
  (** deflate, with the only flush value the code uses (zlibwt_ll_compression_routines.c:101), never uses more input or output
      space than available. *)
  zc_dstep : forall d i o inp room r, zc_dinv d i o -> deflate z d Z_PARTIAL_FLUSH inp room = r ->
     zr_used r <= lenN inp /\ lenN (zr_out r) <= room /\
     zc_dinv (zr_st r) (i ++ takeN (zr_used r) inp) (o ++ zr_out r);
  (** avail_out = 0 gives Z_BUF_ERROR without any change. *)
  zc_droom0 : forall d i o inp, zc_dinv d i o -> inp <> [] ->
     deflate z d Z_PARTIAL_FLUSH inp 0 = ZR Z_BUF_ERROR 0 [] d;
  (** With room and input deflate makes progress. *)
  zc_dprogress : forall d i o inp room r, zc_dinv d i o -> inp <> [] -> 0 < room ->
     deflate z d Z_PARTIAL_FLUSH inp room = r ->
     zr_ret r = Z_OK /\ (0 < zr_used r \/ (zc_dpend (zr_st r) < zc_dpend d)%nat);
  (** What has been produced is a valid unfinished stream for a prefix of what was consumed. *)
  zc_dvalid : forall d i o, zc_dinv d i o ->
     zc_bad o = false /\ zc_fin o = false /\ prefix (zc_dec o) i;
  (** Z_PARTIAL_FLUSH: if the output buffer was not filled, everything was consumed and is
      available to the decompressor. *)
  zc_dflush : forall d i o inp room r, zc_dinv d i o -> inp <> [] ->
     deflate z d Z_PARTIAL_FLUSH inp room = r -> lenN (zr_out r) < room ->
     zr_used r = lenN inp /\ zc_dec (o ++ zr_out r) = i ++ inp;

  zc_iinit : forall s, inflateInit z = Some s -> zc_iinv s [] [];
  zc_istep : forall s c p f inp room r, zc_iinv s c p -> inflate z s f inp room = r ->
     zr_used r <= lenN inp /\ lenN (zr_out r) <= room /\
     zc_iinv (zr_st r) (c ++ takeN (zr_used r) inp) (p ++ zr_out r);
  zc_iprefix : forall s c p, zc_iinv s c p -> prefix p (zc_dec c);
  (** Z_OK and output buffer not filled: all input consumed and all determined output delivered. *)
  zc_icomplete : forall s c p f inp room r, zc_iinv s c p -> normal_flush f ->
     inflate z s f inp room = r -> zr_ret r = Z_OK -> lenN (zr_out r) < room ->
     zr_used r = lenN inp /\ p ++ zr_out r = zc_dec (c ++ inp) /\ zc_bad (c ++ inp) = false;
  (** Z_OK means progress. *)
  zc_iprogress : forall s c p f inp room r, zc_iinv s c p -> inflate z s f inp room = r ->
     zr_ret r = Z_OK -> 0 < zr_used r \/ (zc_ipend (zr_st r) < zc_ipend s)%nat;
  (** Valid unfinished input with room gives Z_OK: in particular inflate does not run out of memory (Z_MEM_ERROR), and a
      stream that asks for a preset dictionary (Z_NEED_DICT) counts as [zc_bad]. *)
  zc_ivalid : forall s c p f inp room r, zc_iinv s c p -> normal_flush f -> inp <> [] -> 0 < room ->
     zc_bad (c ++ inp) = false -> zc_fin (c ++ inp) = false ->
     inflate z s f inp room = r -> zr_ret r = Z_OK;
  (** Z_STREAM_END: the consumed bytes contain the end of the stream, all output was produced. *)
  zc_iend : forall s c p f inp room r, zc_iinv s c p -> inflate z s f inp room = r ->
     zr_ret r = Z_STREAM_END ->
     zc_fin (c ++ takeN (zr_used r) inp) = true /\
     p ++ zr_out r = zc_dec (c ++ takeN (zr_used r) inp);
  (** With input and room, anything but Z_OK is final: end of stream and errors are repeated by every
      later call. *)
  zc_istop : forall s c p f inp room r, zc_iinv s c p -> normal_flush f -> inp <> [] -> 0 < room ->
     inflate z s f inp room = r -> zr_ret r <> Z_OK -> zc_stuck (zr_st r);
  zc_istuck : forall s f inp room r, zc_stuck s -> inflate z s f inp room = r ->
     zr_ret r <> Z_OK /\ zc_stuck (zr_st r);
  (** Z_FINISH never returns Z_OK. *)
  zc_ifinish : forall s c p inp room r, zc_iinv s c p ->
     inflate z s Z_FINISH inp room = r -> zr_ret r <> Z_OK
}.
Arguments zc_dec {z}. Arguments zc_bad {z}. Arguments zc_fin {z}.
Arguments zc_dinv {z}. Arguments zc_iinv {z}. Arguments zc_dpend {z}. Arguments zc_ipend {z}. Arguments zc_stuck {z}.
