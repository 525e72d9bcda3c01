(** Sessions.v: any number of sessions used side by side (src/core/zlibwt_ll_compression_routines.c,
    zlibwt_ll_decompress_routines.c, zlibwt_decompress_routines.c).

    These files have no variable outside a function; a session consists of the block obtained by its
    create function, the state of zlib belonging to its z_stream, and the buffers the caller named.
    The buffers belong to the caller, who may use one buffer for several sessions (nothing in
    include/zlib_with_tools forbids it); so their contents may change arbitrarily between two calls
    on one session.

    Simplifications: one call at a time (no call from within a callback, no two calls at the same
    time); buffers keep their place and size while a session names them; malloc and realloc
    answer each session with an oracle of its own. *)
From Verif Require Import Base Format Zlib LLCompress Parser Decompress.

(** What a caller sees of a session: the result of a call, and the callbacks. *)
Inductive seen_ev : Type :=
| SCreated (ok : bool)
| SRet (ret : Z)
| SComp (ev : cev)
| SDec (ev : event).

Section Sessions.
Context (z : zlib) (e : endian).

(** Handles: nothing yet, the three kinds of sessions with the realloc oracle of the session,
    a destroyed session, NULL from a failed creation. *)
Inductive slot : Type :=
| Empty
| Comp (s : csess z)
| Low (alloc : N -> N -> bool) (s : dsess z)
| Mid (alloc : N -> N -> bool) (s : dsess z)
| Gone
| Null.

(** The calls of the interface.  Creation: ZlibWtCreateTypedCompressSession,
    ZlibWtCreateLLDecompressSession, ZlibWtCreateDecompressSession; use: see [cop], [llop], [dop];
    ZlibWtDestroy…Session. *)
Inductive call : Type :=
| NewComp (ok : bool) (typ : N) (level : Z) (clbk : N) (null : bool) (size : N) (junk : bytes)
| NewLow (alloc : N -> N -> bool) (ok : bool) (id : N) (buf : option bytes) (size : N) (hjunk : bytes) (pjunk : pst)
| NewMid (alloc : N -> N -> bool) (ok : bool) (buf : option bytes) (size : N) (hjunk : bytes) (pjunk : pst)
| UseComp (o : cop)
| UseLow (o : llop)
| UseMid (o : dop)
| Destroy.

(** One call.  Anything but a creation on an unused handle, and calls on handles that are not a session
    of the right kind, are [UB] (the code dereferences what it gets). *)
Definition do_call (fuel : nat) (c : call) (s : slot) : outcome (slot * list seen_ev) :=
  match s, c with
  | Empty, NewComp ok typ level clbk null size junk =>
    do (r, evs) <- create_csession z fuel e ok typ level clbk null size junk;
    Ok (match r with Some s => Comp s | None => Null end,
        map SComp evs ++ [SCreated (match r with Some _ => true | None => false end)])
  | Empty, NewLow al ok id buf size hj pj =>
    match ll_create z ok id buf size hj pj with
    | Some s => Ok (Low al s, [SCreated true])
    | None => Ok (Null, [SCreated false])
    end
  | Empty, NewMid al ok buf size hj pj =>
    match create z ok buf size hj pj with
    | Some s => Ok (Mid al s, [SCreated true])
    | None => Ok (Null, [SCreated false])
    end
  | Comp s, UseComp o =>
    do (rets, s', evs) <- run_cops fuel s [o]; Ok (Comp s', map SComp evs ++ map SRet rets)
  | Low al s, UseLow o =>
    do (rets, s', evs) <- run_llops e al fuel s [o]; Ok (Low al s', map SDec evs ++ map SRet rets)
  | Mid al s, UseMid o =>
    do (rets, s', evs) <- run_dops e al fuel s [o]; Ok (Mid al s', map SDec evs ++ map SRet rets)
  | Comp _, Destroy => Ok (Gone, [])
  | Low _ s, Destroy | Mid _ s, Destroy => do s' <- destroy s; Ok (Gone, [])
  | _, _ => UB
  end.

(** The memory of a buffer after somebody else wrote [junk] to it. *)
Definition smeared (junk m : bytes) : bytes := takeN (lenN m) (junk ++ dropN (lenN junk) m).
Definition smear_buf (junk : bytes) (m : option bytes) : option bytes := option_map (smeared junk) m.

(** Somebody else wrote to the buffers the session names (bufferForDecompressedData,
    bufferForDecompressedDataTmp). *)
Definition smear_d (ju jt : bytes) (s : dsess z) : dsess z :=
  DS (d_zs s) (d_cb s) (d_bsel s) (d_bsz s) (d_hdr s) (smear_buf ju (d_ubuf s)) (smear_buf jt (d_tmp s))
     (d_tmpsz s) (d_inited s) (d_p s).
Definition smear (j : bytes * bytes) (s : slot) : slot :=
  match s with
  | Low al s => Low al (smear_d (fst j) (snd j) s)
  | Mid al s => Mid al (smear_d (fst j) (snd j) s)
  | _ => s
  end.

(** A history: calls on the sessions, in any order, and writes to the buffers in between. *)
Inductive move : Type :=
| Call (i : N) (c : call)
| Scribble (j : N -> bytes * bytes).

Definition upd (i : N) (v : slot) (w : N -> slot) : N -> slot := fun k => if k =? i then v else w k.

Fixpoint run_all (fuel : nat) (w : N -> slot) (ms : list move) : outcome ((N -> slot) * list (N * seen_ev)) :=
  match ms with
  | [] => Ok (w, [])
  | Call i c :: r =>
    do (s, evs) <- do_call fuel c (w i);
    do (w2, evs2) <- run_all fuel (upd i s w) r;
    Ok (w2, map (pair i) evs ++ evs2)
  | Scribble j :: r => run_all fuel (fun k => smear (j k) (w k)) r
  end.

(** One session used alone, nobody else writing to its buffers. *)
Fixpoint run_alone (fuel : nat) (s : slot) (cs : list call) : outcome (slot * list seen_ev) :=
  match cs with
  | [] => Ok (s, [])
  | c :: r =>
    do (s1, evs) <- do_call fuel c s;
    do (s2, evs2) <- run_alone fuel s1 r;
    Ok (s2, evs ++ evs2)
  end.

(** ** Specification vocabulary *)

(** The calls of a history on session [i]; what session [i] showed. *)
Definition calls_on (i : N) (ms : list move) : list call :=
  flat_map (fun m => match m with Call k c => if k =? i then [c] else [] | Scribble _ => [] end) ms.
Definition shown_by (i : N) (evs : list (N * seen_ev)) : list seen_ev :=
  flat_map (fun x => if fst x =? i then [snd x] else []) evs.

End Sessions.

(** A callback without the memory that follows the bytes passed (only recorded for symLinkCreate). *)
Definition passed (x : seen_ev) : seen_ev :=
  match x with SDec (EvSym d _) => SDec (EvSym d []) | _ => x end.

Arguments Empty {z}. Arguments Comp {z}. Arguments Low {z}. Arguments Mid {z}. Arguments Gone {z}. Arguments Null {z}.
Arguments do_call {z}. Arguments smear_d {z}. Arguments smear {z}. Arguments upd {z}.
Arguments run_all {z}. Arguments run_alone {z}.
