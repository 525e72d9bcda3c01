(** Decompress.v: model of zlibwt_ll_decompress_routines.c, zlibwt_decompress_routines.c and the
    callbacks of zlibwt_decompress_routines_version_0000.c (all in src/core). *)
From Verif Require Import Base Format Zlib Parser.

(** The callbacks a session can have: a user callback of the low level API, and the three internal ones:
    ZlibWtDecompressCallbackStatHeader, ZlibWtDecompressCallbackStatData_version_0000, …_dir, …_blob_and_file. *)
Inductive cbk := CbUser (id : N) | CbHeader | CbV0 | CbDir | CbBlob.

(** Which memory bufferForDecompressedData / next_out points to: the header inside the session or
    the buffer given by the user. *)
Inductive bsel := BHdr | BUser.

Section Decompress.
Context (z : zlib) (e : endian) (alloc : N -> N -> bool).

(** z_stream members used by the code: next_in/avail_in ([z_inp]), avail_out, next_out (buffer and
    offset), total_out. *)
Record zstrm : Type := ZS {
  z_st : ist z; z_inp : bytes; z_aout : N; z_sel : bsel; z_pos : N; z_tot : N
}.

(** struct ZlibWtLLDecompressSession and struct ZlibWtDecompressSession
    (src/include/private/zlib_with_tools/zlibwt_decompress_data.h:30-59).
    [d_ubuf]: memory of the user's buffer, [None] = NULL; [d_tmp], [d_tmpsz]:
    bufferForDecompressedDataTmp and its size; [d_p]: the fields of the directory decoder
    (hasError is [p_err]). *)
Record dsess : Type := DS {
  d_zs : zstrm;
  d_cb : cbk;
  d_bsel : bsel;
  d_bsz : N;
  d_hdr : bytes;
  d_ubuf : option bytes;
  d_tmp : option bytes;
  d_tmpsz : N;
  d_inited : bool;
  d_p : pst
}.

Definition with_zs v s := DS v (d_cb s) (d_bsel s) (d_bsz s) (d_hdr s) (d_ubuf s) (d_tmp s) (d_tmpsz s) (d_inited s) (d_p s).
Definition with_cb v s := DS (d_zs s) v (d_bsel s) (d_bsz s) (d_hdr s) (d_ubuf s) (d_tmp s) (d_tmpsz s) (d_inited s) (d_p s).
Definition with_p v s := DS (d_zs s) (d_cb s) (d_bsel s) (d_bsz s) (d_hdr s) (d_ubuf s) (d_tmp s) (d_tmpsz s) (d_inited s) v.

(** Memory next_out or bufferForDecompressedData points to. *)
Definition mem (b : bsel) (s : dsess) : option bytes :=
  match b with BHdr => Some (d_hdr s) | BUser => d_ubuf s end.
Definition set_mem (b : bsel) (m : bytes) (s : dsess) : dsess :=
  match b with
  | BHdr => DS (d_zs s) (d_cb s) (d_bsel s) (d_bsz s) m (d_ubuf s) (d_tmp s) (d_tmpsz s) (d_inited s) (d_p s)
  | BUser => DS (d_zs s) (d_cb s) (d_bsel s) (d_bsz s) (d_hdr s) (Some m) (d_tmp s) (d_tmpsz s) (d_inited s) (d_p s)
  end.

(** One call inflate(&z_str, flush): Z_STREAM_ERROR if next_out is NULL, otherwise the output goes to
    next_out and the stream members advance. *)
Definition do_inflate (flush : Z) (s : dsess) : outcome (Z * dsess) :=
  let zs := d_zs s in
  match mem (z_sel zs) s with
  | None => Ok (Z_STREAM_ERROR, s)
  | Some m =>
    let r := inflate z (z_st zs) flush (z_inp zs) (z_aout zs) in
    let n := lenN (zr_out r) in
    do m' <- checked_write (z_pos zs) (zr_out r) m;
    Ok (zr_ret r,
        with_zs (ZS (zr_st r) (dropN (zr_used r) (z_inp zs)) (z_aout zs - n) (z_sel zs) (z_pos zs + n) (z_tot zs + n))
          (set_mem (z_sel zs) m' s))
  end.

(** ZlibWtSetupBufferForLLDecompressSession, zlibwt_ll_decompress_routines.c:83-87 (also 102-103, 143-144). *)
Definition setup (s : dsess) : dsess :=
  let zs := d_zs s in with_zs (ZS (z_st zs) (z_inp zs) (d_bsz s) (d_bsel s) 0 (z_tot zs)) s.

(** The data passed to the callback: the first sizeFor… - avail_out bytes of bufferForDecompressedData
    (zlibwt_ll_decompress_routines.c:106-107); [snd]: what follows in memory. *)
Definition cb_data (s : dsess) : bytes * bytes :=
  let n := sub32 (d_bsz s) (z_aout (d_zs s)) in
  match mem (d_bsel s) s with
  | Some m => (takeN n m, dropN n m)
  | None => ([], [])
  end.

(** pSession->header.used.{version,typeOfCompressedContent} = le32toh(same), in place:
    zlibwt_decompress_routines.c:43-44. *)
Definition hdr_convert (h : bytes) : bytes :=
  write_at 4 (store e 4 (get e 4 4 h)) (write_at 0 (store e 4 (get e 0 4 h)) h).
Definition hdr_version (h : bytes) : N := load e (slice 0 4 h).
Definition hdr_type (h : bytes) : N := load e (slice 4 4 h).

(** ZlibWtDecompressCallbackStatData_version_0000, …_version_0000.c:28-64, up to the call of the new
    callback: new callback ([None]: unknown content type, hasError set), decoder fields, events. *)
Definition v0_begin (typ : N) (p : pst) : option cbk * pst * list event :=
  let p0 := PS (p_stage p) (p_off p) (p_size p)
               (put_ctype CT_SINGLE_BLOB (write_at 0 (zeros 28) (p_img p)))
               (Item 0 0 0 0 0 CT_SINGLE_BLOB) (p_name p) FtNone (p_err p) (p_allocs p) in
  if typ =? ContentDirectory then (Some CbDir, set_sec StHeader 0 ITEM_SIZE p0, [EvDirBegin])
  else if (typ =? ContentFile) || (typ =? ContentBlob) then (Some CbBlob, p0, [EvFlBegin])
  else (None, set_err true p0, []).

(** …_dir and …_blob_and_file (…_version_0000.c:85-218). *)
Definition leaf_cb (c : cbk) (p : pst) (data tail : bytes) : outcome (pst * list event) :=
  match c with
  | CbDir => parse e alloc tail p data
  | CbBlob => Ok (p, [EvFlRead data])
  | CbUser id => Ok (p, [EvRaw id data])
  | CbHeader | CbV0 => UB
  end.

(** Callbacks once the header has been read: new callback, decoder state, events. *)
Definition content_cb (typ : N) (c : cbk) (p : pst) (data tail : bytes) : outcome (cbk * pst * list event) :=
  match c with
  | CbV0 =>
    let '(c', p1, evs) := v0_begin typ p in
    match c' with
    | None => Ok (CbV0, p1, evs)
    | Some c1 => do (p2, evs2) <- leaf_cb c1 p1 data tail; Ok (c1, p2, evs ++ evs2)
    end
  | _ => do (p2, evs2) <- leaf_cb c p data tail; Ok (c, p2, evs2)
  end.

(** ZlibWtDecompressCallbackStatHeader, zlibwt_decompress_routines.c:34-64, up to the call of
    ZlibWtLLDecompressBufferToCallbackReadOldIn (line 62); [true]: that call follows.
    Lines 57-61 (more than 128 bytes of output so far): the assertion fails or the new callback is
    called with a wrong session pointer (pSession->userData); both are [UB]. *)
Definition header_begin (s : dsess) : outcome (bool * dsess) :=
  if z_tot (d_zs s) <? MAIN_HEADER_SIZE then Ok (false, s)
  else
    let h := hdr_convert (d_hdr s) in
    let p := set_err false (d_p s) in
    if hdr_version h =? 0 then
      if MAIN_HEADER_SIZE <? z_tot (d_zs s) then UB
      else Ok (true, DS (d_zs s) CbV0 BUser (d_tmpsz s) h (d_tmp s) (d_tmp s) (d_tmpsz s) true p)
    else Ok (false, DS (d_zs s) (d_cb s) (d_bsel s) (d_bsz s) h (d_ubuf s) (d_tmp s) (d_tmpsz s) true p).

Inductive lmode := Reset | NoTouch.

(** The loops ZlibWtLLDecompressBufferToCallback (101-109) and …ReadOldIn (142-150) ([Reset]),
    …NoTouchOut (126-132) ([NoTouch]) of zlibwt_ll_decompress_routines.c. *)
Fixpoint run (fuel : nat) (m : lmode) (flush : Z) (s : dsess) : outcome (Z * dsess * list event) :=
  match fuel with
  | O => NoFuel
  | S f =>
    if (lenN (z_inp (d_zs s)) =? 0) || match m with NoTouch => z_aout (d_zs s) =? 0 | Reset => false end
    then Ok (0%Z, s, [])
    else
      let s0 := match m with Reset => setup s | NoTouch => s end in
      do (ret, s1) <- do_inflate flush s0;
      if negb (ret =? Z_OK)%Z then Ok (ret, s1, [])
      else
        do (s3, evs) <-
          match d_cb s1 with
          | CbHeader =>
            do (again, s2) <- header_begin s1;
            if again then do (ret2, s3, evs) <- run f Reset Z_NO_FLUSH s2; Ok (s3, evs)
            else Ok (s2, [])
          | c =>
            let '(data, tail) := cb_data s1 in
            do (c', p', evs) <- content_cb (hdr_type (d_hdr s1)) c (d_p s1) data tail;
            Ok (with_cb c' (with_p p' s1), evs)
          end;
        do (ret3, s4, evs2) <- run f m Z_NO_FLUSH s3;
        Ok (ret3, s4, evs ++ evs2)
  end.

Definition feed (data : bytes) (s : dsess) : dsess :=
  let zs := d_zs s in
  with_zs (ZS (z_st zs) (takeN (u32 (lenN data)) data) (z_aout zs) (z_sel zs) (z_pos zs) (z_tot zs)) s.

(** ZlibWtLLDecompressBufferToCallback, zlibwt_ll_decompress_routines.c:90-112. *)
Definition ll_decompress (fuel : nat) (flush : Z) (data : bytes) (s : dsess) : outcome (Z * dsess * list event) :=
  run fuel Reset flush (feed data s).

(** ZlibWtDecompressBufferToCallback, zlibwt_decompress_routines.c:128-141. *)
Definition decompress (fuel : nat) (flush : Z) (data : bytes) (s : dsess) : outcome (Z * dsess * list event) :=
  if d_inited s then run fuel Reset Z_NO_FLUSH (feed data s)
  else run fuel NoTouch flush (feed data s).

(** ZlibWtSetBufferForLLDecompressSession, zlibwt_ll_decompress_routines.c:63-70. *)
Definition ll_set_buffer (buf : option bytes) (size : N) (s : dsess) : dsess :=
  DS (d_zs s) (d_cb s) BUser (u32 size) (d_hdr s) buf (d_tmp s) (d_tmpsz s) (d_inited s) (d_p s).

(** ZlibWtSetBufferForDecompressSession, zlibwt_decompress_routines.c:112-125. *)
Definition set_buffer (buf : option bytes) (size : N) (s : dsess) : dsess :=
  if d_inited s then ll_set_buffer buf size s
  else DS (d_zs s) (d_cb s) (d_bsel s) (d_bsz s) (d_hdr s) (d_ubuf s) buf (u32 size) (d_inited s) (d_p s).

(** ZlibWtSetCallbackForLLDecompressSession, zlibwt_ll_decompress_routines.c:73-80 (user callback). *)
Definition ll_set_callback (id : N) (s : dsess) : dsess := with_cb (CbUser id) s.

(** ZlibWtCreateLLDecompressSession, zlibwt_ll_decompress_routines.c:19-51; [hjunk], [pjunk]: the
    uninitialised remainder of the session; next_out and avail_out are not initialised here
    (a NULL next_out stands for that; every decompress call sets them first). *)
Definition ll_create (ok : bool) (id : N) (buf : option bytes) (size : N) (hjunk : bytes) (pjunk : pst) : option dsess :=
  if ok then
    match inflateInit z with
    | None => None
    | Some i => Some (DS (ZS i [] 0 BUser 0 0) (CbUser id) BUser (u32 size) hjunk buf None 0 false pjunk)
    end
  else None.

(** ZlibWtCreateDecompressSession, zlibwt_decompress_routines.c:74-102. *)
Definition create (ok : bool) (buf : option bytes) (size : N) (hjunk : bytes) (pjunk : pst) : option dsess :=
  if ok then
    match inflateInit z with
    | None => None
    | Some i => Some (DS (ZS i [] MAIN_HEADER_SIZE BHdr 0 0) CbHeader BHdr MAIN_HEADER_SIZE hjunk None buf (u32 size) false
                        (set_name None pjunk))
    end
  else None.

(** Calls on one session. *)
Inductive dop : Type :=
| DFeed (flush : Z) (data : bytes)
| DSetBuffer (buf : option bytes) (size : N).

Fixpoint run_dops (fuel : nat) (s : dsess) (ops : list dop) : outcome (list Z * dsess * list event) :=
  match ops with
  | [] => Ok ([], s, [])
  | DFeed f d :: r =>
    do (ret, s1, ev1) <- decompress fuel f d s;
    do (rets, s2, ev2) <- run_dops fuel s1 r;
    Ok (ret :: rets, s2, ev1 ++ ev2)
  | DSetBuffer b n :: r => run_dops fuel (set_buffer b n s) r
  end.

Inductive llop : Type :=
| LFeed (flush : Z) (data : bytes)
| LSetBuffer (buf : option bytes) (size : N)
| LSetCallback (id : N).

Fixpoint run_llops (fuel : nat) (s : dsess) (ops : list llop) : outcome (list Z * dsess * list event) :=
  match ops with
  | [] => Ok ([], s, [])
  | LFeed f d :: r =>
    do (ret, s1, ev1) <- ll_decompress fuel f d s;
    do (rets, s2, ev2) <- run_llops fuel s1 r;
    Ok (ret :: rets, s2, ev1 ++ ev2)
  | LSetBuffer b n :: r => run_llops fuel (ll_set_buffer b n s) r
  | LSetCallback i :: r => run_llops fuel (ll_set_callback i s) r
  end.

(** ZlibWtDestroyLLDecompressSession, zlibwt_ll_decompress_routines.c:54-60: two more inflate calls
    (with whatever next_in, avail_in, next_out, avail_out are) before the memory is freed.
    Result: the session just before free. *)
Definition destroy (s : dsess) : outcome dsess :=
  do (r1, s1) <- do_inflate Z_FULL_FLUSH s;
  do (r2, s2) <- do_inflate Z_FINISH s1;
  Ok s2.

End Decompress.
Arguments ZS {z}. Arguments z_st {z}. Arguments z_inp {z}. Arguments z_aout {z}. Arguments z_sel {z}.
Arguments z_pos {z}. Arguments z_tot {z}.
Arguments DS {z}. Arguments d_zs {z}. Arguments d_cb {z}. Arguments d_bsel {z}. Arguments d_bsz {z}.
Arguments d_hdr {z}. Arguments d_ubuf {z}. Arguments d_tmp {z}. Arguments d_tmpsz {z}.
Arguments d_inited {z}. Arguments d_p {z}.
Arguments with_zs {z}. Arguments with_cb {z}. Arguments with_p {z}. Arguments mem {z}. Arguments set_mem {z}.
Arguments do_inflate {z}. Arguments setup {z}. Arguments cb_data {z}. Arguments header_begin {z}.
Arguments run {z}. Arguments feed {z}. Arguments ll_decompress {z}. Arguments decompress {z}.
Arguments ll_set_buffer {z}. Arguments set_buffer {z}. Arguments ll_set_callback {z}.
Arguments run_dops {z}. Arguments run_llops {z}. Arguments destroy {z}.
