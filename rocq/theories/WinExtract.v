(** WinExtract.v: model of the extraction (src/core/zlibwt_hl_decompress_routines.c) on Windows.

    The functions are those of HL.v; the system below them is different.  Simplifications: one drive, so that paths with a drive letter are not covered;
    a colon in a name and dots or spaces at the end of a name are ordinary characters; only the case of A to Z is ignored; the disk is large enough;
    stdio is not buffered; numbers of closed descriptors are not used again. *)
From Verif Require Import Base Format Zlib Parser Decompress FS HL WinTools.

(** ** The file system *)

(** [ro]: the file is read-only. *)
Inductive xnode := XDir | XFile (ro : bool) (data : bytes).
(** Entries by their absolute paths in lower case. *)
Notation xtree := (path -> option xnode).
Definition xupd (fs : xtree) (p : path) (n : xnode) : xtree := fun q => if path_eqb q p then Some n else fs q.

Definition lower (c : byte) : byte := let n := byte_val c in if (65 <=? n) && (n <=? 90) then val_byte (n + 32) else c.
(** Windows resolves "." and ".." in the string, before the file system is looked at. *)
Definition xstep (d : path) (c : bytes) : path :=
  if bytes_eqb c [x2e] then d else if bytes_eqb c [x2e; x2e] then removelast d else d ++ [map lower c].
Definition starts_sep (s : bytes) : bool := match s with c :: _ => is_sep c | [] => false end.
(** The entry that the path string [s] names. *)
Definition xkey (cwd : path) (s : bytes) : path := fold_left xstep (wcomps s) (if starts_sep s then [] else cwd).

(** The process and the file system.  [w_dead]: the C runtime has terminated the process. *)
Record wst : Type := WS { w_fs : xtree; w_cwd : path; w_fds : list (N * (path * N)); w_next : N; w_dead : bool }.
Definition w_setfs v w := WS v (w_cwd w) (w_fds w) (w_next w) (w_dead w).
Definition w_kill w := WS (w_fs w) (w_cwd w) (w_fds w) (w_next w) true.

Definition xdir (fs : xtree) (p : path) : bool := match fs p with Some XDir => true | _ => false end.

Section Windows.
(** [maxd], [maxf]: the lengths from which paths are too long for CreateDirectoryA and for opening files; [deny]: where nothing can be created. *)
Context (maxd maxf : N) (deny : path -> bool).

(** CreateDirectoryA (called at zlibwt_hl_decompress_routines.c:154). *)
Definition xcreate (s : bytes) (w : wst) : cdres * wst :=
  let p := xkey (w_cwd w) s in
  if negb (nonempty s) then (CdNoPath, w)
  else if maxd <=? lenN s then (CdOther, w)
  else
    match w_fs w p with
    | Some _ => (CdExists, w)
    | None => if xdir (w_fs w) (removelast p) then if deny p then (CdOther, w) else (CdMade, w_setfs (xupd (w_fs w) p XDir) w)
              else (CdNoPath, w)
    end.

Definition xopened (p : path) (w : wst) : option N * wst :=
  (Some (w_next w), WS (w_fs w) (w_cwd w) ((w_next w, (p, 0)) :: w_fds w) (w_next w + 1) (w_dead w)).
(** _sopen_s with _O_WRONLY and _O_CREAT (sopen_zlibandtls, include/zlib_with_tools/utils/io_zlibandtls.h:30; [wr]: _S_IWRITE is in the mode), and
    _fsopen with "wb" (fopen_zlibandtls, include/zlib_with_tools/utils/stdio_zlibandtls.h:21; [trunc]).  [None]: failed. *)
Definition xopen (trunc wr : bool) (s : bytes) (w : wst) : option N * wst :=
  let p := xkey (w_cwd w) s in
  if negb (nonempty s) || is_sep (last s x00) || (maxf <=? lenN s) then (None, w)
  else
    match w_fs w p with
    | Some XDir => (None, w)
    | Some (XFile true _) => (None, w)
    | Some (XFile false x) => xopened p (if trunc then w_setfs (xupd (w_fs w) p (XFile false [])) w else w)
    | None => if xdir (w_fs w) (removelast p) && negb (deny p) then xopened p (w_setfs (xupd (w_fs w) p (XFile (negb wr) [])) w) else (None, w)
    end.

(** _write (io_zlibandtls.h:33) and fwrite: for an invalid descriptor, and for a NULL FILE, the C runtime calls the invalid parameter handler, which
    terminates the process. *)
Definition xwrite (fd : option N) (d : bytes) (w : wst) : wst :=
  match fd with
  | None => w_kill w
  | Some n =>
    match find_fd n (w_fds w) with
    | None => w_kill w
    | Some (p, off) =>
      match w_fs w p with
      | Some (XFile ro x) => WS (xupd (w_fs w) p (XFile ro (overwrite off d x))) (w_cwd w) (set_fd n (p, off + lenN d) (w_fds w)) (w_next w) (w_dead w)
      | _ => w
      end
    end
  end.
(** _close (io_zlibandtls.h:34) and fclose; as for _write. *)
Definition xclose (fd : option N) (w : wst) : wst :=
  match fd with
  | None => w_kill w
  | Some n =>
    match find_fd n (w_fds w) with
    | None => w_kill w
    | Some _ => WS (w_fs w) (w_cwd w) (del_fd n (w_fds w)) (w_next w) (w_dead w)
    end
  end.

(** ** Creating directories *)

(** OsCreateStatic, zlibwt_hl_decompress_routines.c:151-172. *)
Definition xos_create (b : bytes) (w : wst) : outcome (Z * wst) :=
  match cstr b with
  | None => UB
  | Some s => let '(r, w') := xcreate s w in
              Ok (match r with CdMade => 0 | CdExists => 1 | CdNoPath => 2 | CdOther => -1 end%Z, w')
  end.
(** The while loop of MkdirRecurseInlineRaw, lines 102-117; see [mk_down] in HL.v. *)
Fixpoint xmk_down (k : nat) (b : bytes) (idx : list N) (w : wst) : outcome (bytes * list N * down_end * wst) :=
  match k with
  | O => Ok (b, idx, DownOut, w)
  | S k' =>
    match cstr b with
    | None => UB
    | Some s =>
      match delim s with
      | None => Ok (b, idx, DownOut, w)
      | Some i =>
        let b' := set_byte i x00 b in
        do (r, w') <- xos_create b' w;
        if (r =? -1)%Z then Ok (b', i :: idx, DownErr, w')
        else if (r =? 0)%Z || (r =? 1)%Z then Ok (b', i :: idx, DownFound, w')
        else xmk_down k' b' (i :: idx) w'
      end
    end
  end.
(** The for loop, lines 121-127. *)
Fixpoint xmk_up (b : bytes) (idx : list N) (w : wst) : outcome (Z * wst) :=
  match idx with
  | [] => Ok (0%Z, w)
  | i :: r =>
    let b' := set_byte i x2f b in
    do (c, w') <- xos_create b' w;
    if (c =? 0)%Z then xmk_up b' r w' else Ok ((-1)%Z, w')
  end.
(** MkdirRecurseInline and MkdirRecurseInlineRaw, lines 87-145; [ok]: strdup succeeds. *)
Definition xmkdir (ok : bool) (s : bytes) (w : wst) : outcome (Z * wst) :=
  if negb ok then Ok ((-1)%Z, w)
  else
    let b := s ++ [x00] in
    do (r, w1) <- xos_create b w;
    if (r =? -1)%Z || (r =? 0)%Z || (r =? 1)%Z then Ok (r, w1)
    else
      do (x, w2) <- xmk_down 62 b [] w1;
      let '(b1, idx, en) := x in
      match en with
      | DownFound => if lenN idx <? 62 then xmk_up b1 idx w2 else Ok ((-1)%Z, w2)
      | _ => Ok ((-1)%Z, w2)
      end.

(** ** Callbacks *)
Context (target : bytes) (hal : N -> bool) (stk : N).

(** DecompressFileStartCallback, lines 326-335. *)
Definition xcb_fl_start (h : hst) (w : wst) : outcome (hst * wst) :=
  let '(r, w1) := xopen true true target w in
  Ok (match r with
      | Some fd => HS (Some fd) (h_fd h) (h_dp h) (h_dplen h) (h_err h) ContentFile (h_name h) (h_n h)
      | None => h_fail (HS None (h_fd h) (h_dp h) (h_dplen h) (h_err h) (h_ret h) (h_name h) (h_n h))
      end, w1).
(** DecompressDirStartCallback, lines 348-365. *)
Definition xcb_dr_start (h : hst) (w : wst) : outcome (hst * wst) :=
  do (r, w1) <- xmkdir (hal (h_n h)) target w;
  let h1 := h_alloc h in
  if negb (r =? 0)%Z then Ok (h_fail h1, w1)
  else if negb (hal (h_n h1)) then
    Ok (h_fail (h_alloc (HS (h_fp h1) (h_fd h1) None (h_dplen h1) (h_err h1) (h_ret h1) (h_name h1) (h_n h1))), w1)
  else
    Ok (h_alloc (HS (h_fp h1) (h_fd h1) (Some (target ++ [x00])) (lenN target) (h_err h1) ContentDirectory (h_name h1) (h_n h1)), w1).
(** DecompressDirFileOrDirStartCallback, lines 367-407; mode_fo_zlibandtls (io_zlibandtls.h:36) keeps _S_IREAD and _S_IWRITE (0200). *)
Definition xcb_entry (ft : ftype) (it : item) (name : bytes) (h0 : hst) (w : wst) : outcome (hst * wst) :=
  let h := h_setname name h0 in
  match ft with
  | FtDir =>
    if negb (hal (h_n h)) then Ok (h_fail (h_alloc h), w)
    else
      do b <- entry_path it name h;
      let h1 := h_alloc (h_setdir b (h_dplen h + 1 + it_nlen it) h) in
      match cstr b with
      | None => UB
      | Some s =>
        do (r, w1) <- xmkdir (hal (h_n h1)) s w;
        Ok (if (r =? 0)%Z then h_alloc h1 else h_fail (h_alloc h1), w1)
      end
  | FtFile =>
    if stk <? h_dplen h + 4 + it_nlen it then UB
    else
      do b <- entry_path it name h;
      match cstr b with
      | None => UB
      | Some s =>
        let '(r, w1) := xopen false (N.testbit (it_mode it) 7) s w in
        Ok (match r with Some fd => h_setfd (Some fd) h | None => h_fail (h_setfd None h) end, w1)
      end
  | _ => Ok (h, w)
  end.
(** DecompressDirDirEndCallback, lines 459-468. *)
Definition xcb_dir_end (h : hst) : outcome hst :=
  match h_dp h with
  | None => UB
  | Some b =>
    match cstr b with
    | None => UB
    | Some s => match rindex x2f s with None => UB | Some i => Ok (h_setdir (set_byte i x00 b) i h) end
    end
  end.
(** One invocation of a callback: DecompressFileAndBlobCallback (lines 338-342), DecompressDirFileReadCallback (444-449),
    DecompressDirFileEndCallback (452-456); SymLinkCreateCallback does nothing (413-417). *)
Definition xcb (ev : event) (h : hst) (w : wst) : outcome (hst * wst) :=
  match ev with
  | EvRaw _ _ => Ok (h, w)
  | EvFlBegin => xcb_fl_start h w
  | EvFlRead d => Ok (h, xwrite (h_fp h) d w)
  | EvDirBegin => xcb_dr_start h w
  | EvEntry ft it name => xcb_entry ft it name h w
  | EvRead d => Ok (h, xwrite (h_fd h) d w)
  | EvFileEnd => Ok (h, xclose (h_fd h) w)
  | EvDirEnd => do h1 <- xcb_dir_end h; Ok (h1, w)
  | EvSym _ _ => Ok (h, w)
  end.
(** Several invocations; none after the process has been terminated. *)
Fixpoint xcbs (evs : list event) (h : hst) (w : wst) : outcome (hst * wst) :=
  match evs with
  | [] => Ok (h, w)
  | ev :: r => do (h1, w1) <- xcb ev h w; if w_dead w1 then Ok (h1, w1) else xcbs r h1 w1
  end.

(** ** The extraction loop, lines 278-294; see [extract_loop] in HL.v *)
Context (z : zlib) (e : endian) (alloc : N -> N -> bool) (archive : N).

Fixpoint xextract_loop (fuel dfuel : nat) (inp : bytes) (rderr : bool) (total idx : N) (s : dsess z) (h : hst) (w : wst)
  : outcome (bool * dsess z * hst * bytes * wst) :=
  match fuel with
  | O => NoFuel
  | S f =>
    let n := next_size archive total in
    if n <? 1 then Ok (true, s, h, [], w)
    else
      let d := takeN n inp in
      let short := lenN d <? n in
      if short && rderr then Ok (false, s, h, [], w)
      else
        let flush := Z.of_N (N.shiftr (N.land (idx + 1) 16) 4) in
        do (x, evs) <- decompress e alloc dfuel flush d s;
        let '(ret, s1) := x in
        do (h1, w1) <- xcbs evs h w;
        if w_dead w1 || short || h_err h1 then Ok (true, s1, h1, d, w1)
        else
          do (y, w2) <- xextract_loop f dfuel (dropN n inp) rderr (total + lenN d) (idx + 1) s1 h1 w1;
          let '(ok, s2, h2, ds) := y in Ok (ok, s2, h2, d ++ ds, w2)
  end.

(** ZlibWtDecompressFileOrDirEx, lines 213-304; see [extract] in HL.v.  Result: [None] if the process has been terminated, otherwise what is returned. *)
Definition xextract (fuel dfuel : nat) (al : N -> bool) (obuf hjunk : bytes) (pjunk : pst) (inp : bytes) (rderr : bool) (w : wst)
  : outcome (option N * option (dsess z * hst * bytes) * wst) :=
  if negb (al 1) || negb (al 2) then Ok (Some ContentNone, None, w)
  else
    match create z (al 3) (Some obuf) DEF_CHUNK_SIZE hjunk pjunk with
    | None => Ok (Some ContentNone, None, w)
    | Some s0 =>
      do (x, w1) <- xextract_loop fuel dfuel inp rderr 0 0 s0 HS0 w;
      let '(ok, s, h, ds) := x in
      if w_dead w1 then Ok (None, Some (s, h, ds), w1)
      else
        let w2 := match h_fp h with None => w1 | Some fd => xclose (Some fd) w1 end in
        do s' <- destroy s;
        Ok (Some (if ok then h_ret h else ContentNone), Some (s, h, ds), w2)
    end.
End Windows.
