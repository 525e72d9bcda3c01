(** HL.v: model of src/core/zlibwt_hl_decompress_routines.c (Unix branches). *)
From Verif Require Import Base Format Zlib Parser Decompress FS.

(** NextSizeToReadInline, lines 50-61. *)
Definition next_size (archive total : N) : N :=
  if 0 <? archive then
    if total <? archive then N.min (archive - total) DEF_CHUNK_SIZE else 0
  else DEF_CHUNK_SIZE.

(** ** Memory blocks holding C strings *)

(** The string at the start of a block; [None]: there is no NUL in the block. *)
Fixpoint cstr (b : bytes) : option bytes :=
  match b with
  | [] => None
  | c :: r => if byte_eqb c x00 then Some [] else match cstr r with Some s => Some (c :: s) | None => None end
  end.
(** Position of the last [c] in a string (strrchr). *)
Fixpoint rindex (c : byte) (s : bytes) : option N :=
  match s with
  | [] => None
  | b :: r => match rindex c r with
              | Some i => Some (i + 1)
              | None => if byte_eqb b c then Some 0 else None
              end
  end.
Definition set_byte (i : N) (c : byte) (b : bytes) : bytes := takeN i b ++ c :: dropN (i + 1) b.

(** Evaluates the string at the start of a block. *)
Definition with_cstr {A} (b : bytes) (f : bytes -> prog A) : prog A :=
  match cstr b with Some s => f s | None => PUB end.

(** ** Creating directories *)

(** OsCreateStatic, lines 177-191: 0 created, 1 directory exists, 2 continue search, -1 error.  [b]: the block a_path. *)
Definition os_create (b : bytes) (mode : N) : prog Z :=
  with_cstr b (fun s =>
    pdo r <- psys (ScMkdir s mode);
    match r with
    | ROk => PRet 0%Z
    | RErr EEXIST => pdo r2 <- psys (ScStatDir s); PRet (match r2 with ROk => 1%Z | _ => (-1)%Z end)
    | _ => PRet 2%Z
    end).

(** GetFileDelimeterInline, lines 78-84. *)
Definition delim (s : bytes) : option N :=
  match rindex x2f s with Some i => Some i | None => rindex x5c s end.

(** The while loop of MkdirRecurseInlineRaw (lines 102-117), [k] = 62 - indexInIndexes; [idx]: the cuts, last first.
    Result: block, cuts, what ended the loop: the value -1 (returned at once), makeLoop = 0, other. *)
Inductive down_end := DownErr | DownFound | DownOut.
Fixpoint mk_down (k : nat) (b : bytes) (idx : list N) (mode : N) : prog (bytes * list N * down_end) :=
  match k with
  | O => PRet (b, idx, DownOut)
  | S k' =>
    with_cstr b (fun s =>
      match delim s with
      | None => PRet (b, idx, DownOut)
      | Some i =>
        let b' := set_byte i x00 b in
        pdo r <- os_create b' mode;
        if (r =? -1)%Z then PRet (b', i :: idx, DownErr)
        else if (r =? 0)%Z || (r =? 1)%Z then PRet (b', i :: idx, DownFound)
        else mk_down k' b' (i :: idx) mode
      end)
  end.
(** The for loop, lines 121-127. *)
Fixpoint mk_up (b : bytes) (idx : list N) (mode : N) : prog Z :=
  match idx with
  | [] => PRet 0%Z
  | i :: r =>
    let b' := set_byte i x2f b in
    pdo c <- os_create b' mode;
    if (c =? 0)%Z then mk_up b' r mode else PRet (-1)%Z
  end.
(** MkdirRecurseInlineRaw, lines 87-133. *)
Definition mkdir_raw (b : bytes) (mode : N) : prog Z :=
  pdo r <- os_create b mode;
  if (r =? -1)%Z || (r =? 0)%Z || (r =? 1)%Z then PRet r
  else
    pdo x <- mk_down 62 b [] mode;
    let '(b1, idx, en) := x in
    match en with
    | DownErr => PRet (-1)%Z
    | DownOut => PRet (-1)%Z
    | DownFound => if lenN idx <? 62 then mk_up b1 idx mode else PRet (-1)%Z
    end.
(** MkdirRecurseInline, lines 136-145; [ok]: strdup succeeds. *)
Definition mkdir_recurse (ok : bool) (s : bytes) (mode : N) : prog Z :=
  if ok then mkdir_raw (s ++ [x00]) mode else PRet (-1)%Z.

(** ** Callbacks *)

(** mode_base_dir_zlibandtls (include/zlib_with_tools/utils/io_zlibandtls.h:50): 0775. *)
Definition MODE_BASE_DIR : N := 509.
(** fopen(…, "wb") creates files with mode 0666. *)
Definition MODE_FOPEN : N := 438.

(** struct SDecompressData, lines 198-210.  [h_fd]: fd, None = -1; [h_dp]: the block directoryPath, None = NULL;
    [h_name]: the block pFileData->pFileName (member of the session, set by the decoder before dirOrFileStart);
    [h_n]: number of allocations so far. *)
Record hst : Type := HS {
  h_fp : option N; h_fd : option N; h_dp : option bytes; h_dplen : N; h_err : bool; h_ret : N; h_name : bytes; h_n : N
}.
Definition h_fail h := HS (h_fp h) (h_fd h) (h_dp h) (h_dplen h) true (h_ret h) (h_name h) (h_n h).
Definition h_alloc h := HS (h_fp h) (h_fd h) (h_dp h) (h_dplen h) (h_err h) (h_ret h) (h_name h) (h_n h + 1).
Definition h_setname v h := HS (h_fp h) (h_fd h) (h_dp h) (h_dplen h) (h_err h) (h_ret h) v (h_n h).
Definition h_setfd v h := HS (h_fp h) v (h_dp h) (h_dplen h) (h_err h) (h_ret h) (h_name h) (h_n h).
Definition h_setdir b n h := HS (h_fp h) (h_fd h) (Some b) n (h_err h) (h_ret h) (h_name h) (h_n h).

Section HL.
(** [target]: a_cpcOutDecompressedFileOrDir; [hal k]: the k-th strdup/realloc of the callbacks succeeds;
    [stk]: room on the stack for alloca. *)
Context (target : bytes) (hal : N -> bool) (stk : N).

(** DecompressFileStartCallback, lines 326-335. *)
Definition cb_fl_start (h : hst) : prog hst :=
  pdo r <- psys (ScOpen true target MODE_FOPEN);
  match r with
  | RFd fd => PRet (HS (Some fd) (h_fd h) (h_dp h) (h_dplen h) (h_err h) ContentFile (h_name h) (h_n h))
  | _ => PRet (h_fail (HS None (h_fd h) (h_dp h) (h_dplen h) (h_err h) (h_ret h) (h_name h) (h_n h)))
  end.
(** DecompressFileAndBlobCallback, lines 338-342: fwrite to a NULL FILE* is undefined. *)
Definition cb_fl_read (d : bytes) (h : hst) : prog hst :=
  match h_fp h with
  | None => PUB
  | Some fd => pdo r <- psys (ScWrite (Some fd) d); PRet h
  end.

(** DecompressDirStartCallback, lines 348-365. *)
Definition cb_dr_start (h : hst) : prog hst :=
  pdo r <- mkdir_recurse (hal (h_n h)) target MODE_BASE_DIR;
  let h1 := h_alloc h in
  if negb (r =? 0)%Z then PRet (h_fail h1)
  else if negb (hal (h_n h1)) then
    PRet (h_fail (h_alloc (HS (h_fp h1) (h_fd h1) None (h_dplen h1) (h_err h1) (h_ret h1) (h_name h1) (h_n h1))))
  else
    PRet (h_alloc (HS (h_fp h1) (h_fd h1) (Some (target ++ [x00])) (lenN target) (h_err h1) ContentDirectory (h_name h1) (h_n h1))).

(** The path built at lines 373-383 and 391-396: directoryPath (first directoryPathLen bytes), '/', fileNameLen bytes of the
    name block, NUL.  UB if the name block is shorter; directoryPath may be NULL with length 0 (memcpy of 0 bytes). *)
Definition entry_path (it : item) (name : bytes) (h : hst) : outcome bytes :=
  let dp := match h_dp h with Some b => b | None => [] end in
  if lenN name <? it_nlen it then UB
  else if lenN dp <? h_dplen h then UB
  else Ok (takeN (h_dplen h) dp ++ x2f :: takeN (it_nlen it) name ++ [x00]).

(** DecompressDirFileOrDirStartCallback, lines 367-407. *)
Definition cb_entry (ft : ftype) (it : item) (name : bytes) (h0 : hst) : prog hst :=
  let h := h_setname name h0 in
  match ft with
  | FtDir =>
    if negb (hal (h_n h)) then PRet (h_fail (h_alloc h))
    else
      pdo b <- plift (entry_path it name h);
      let h1 := h_alloc (h_setdir b (h_dplen h + 1 + it_nlen it) h) in
      with_cstr b (fun s =>
        pdo r <- mkdir_recurse (hal (h_n h1)) s (it_mode it);
        PRet (if (r =? 0)%Z then h_alloc h1 else h_fail (h_alloc h1)))
  | FtFile =>
    if stk <? h_dplen h + 4 + it_nlen it then PUB
    else
      pdo b <- plift (entry_path it name h);
      with_cstr b (fun s =>
        pdo r <- psys (ScOpen false s (N.land 511 (it_mode it)));
        match r with
        | RFd fd => PRet (h_setfd (Some fd) h)
        | _ => PRet (h_fail (h_setfd None h))
        end)
  | _ => PRet h
  end.

(** SymLinkCreateCallback, lines 410-441; a_buffer: [data] followed in memory by [tail].  chdir(NULL) fails. *)
Definition cb_sym (data tail : bytes) (h : hst) : prog hst :=
  pdo r <- psys (ScGetcwd 1023);
  match r with
  | RStr cwd =>
    match h_dp h with
    | None => PRet h
    | Some dp =>
      with_cstr dp (fun dir =>
        pdo r1 <- psys (ScChdir dir);
        match r1 with
        | ROk =>
          with_cstr (data ++ tail) (fun old =>
            with_cstr (h_name h) (fun new =>
              pdo r2 <- psys (ScSymlink old new);
              pdo r3 <- psys (ScChdir cwd);
              PRet h))
        | _ => PRet h
        end)
    end
  | _ => PRet h
  end.

(** DecompressDirFileReadCallback, lines 444-449. *)
Definition cb_read (d : bytes) (h : hst) : prog hst := pdo r <- psys (ScWrite (h_fd h) d); PRet h.
(** DecompressDirFileEndCallback, lines 452-456. *)
Definition cb_file_end (h : hst) : prog hst := pdo r <- psys (ScClose (h_fd h)); PRet h.
(** DecompressDirDirEndCallback, lines 459-468: strrchr(NULL) and the failing assertion are undefined. *)
Definition cb_dir_end (h : hst) : prog hst :=
  match h_dp h with
  | None => PUB
  | Some b =>
    with_cstr b (fun s =>
      match rindex x2f s with
      | None => PUB
      | Some i => PRet (h_setdir (set_byte i x00 b) i h)
      end)
  end.

(** One invocation of a callback by the decoder. *)
Definition cb (ev : event) (h : hst) : prog hst :=
  match ev with
  | EvRaw _ _ => PRet h
  | EvFlBegin => cb_fl_start h
  | EvFlRead d => cb_fl_read d h
  | EvDirBegin => cb_dr_start h
  | EvEntry ft it name => cb_entry ft it name h
  | EvRead d => cb_read d h
  | EvFileEnd => cb_file_end h
  | EvDirEnd => cb_dir_end h
  | EvSym d t => cb_sym d t h
  end.
Fixpoint cbs (evs : list event) (h : hst) : prog hst :=
  match evs with
  | [] => PRet h
  | ev :: r => pdo h1 <- cb ev h; cbs r h1
  end.

(** ** The extraction loop *)

Definition HS0 : hst := HS None None None 0 false ContentNone [] 0.

Section Extract.
Context (z : zlib) (e : endian) (alloc : N -> N -> bool) (archive : N).

Definition close_fp (h : hst) : prog unit :=
  match h_fp h with None => PRet tt | Some fd => pdo r <- psys (ScClose (Some fd)); PRet tt end.

(** The do-while loop of ZlibWtDecompressFileOrDirEx, lines 278-294.  [inp]: the rest of the input file; [rderr]: reading fails
    at its end; [total]: fReadRetTotal; [idx]: nIndex.  Result: [None] if ferror (line 284), otherwise the state; the
    session; the bytes passed to the session.
    The callbacks do not influence the decoder, so the events of one ZlibWtDecompressBufferToCallback
    call are computed first and then executed. *)
Fixpoint extract_loop (fuel dfuel : nat) (inp : bytes) (rderr : bool) (total idx : N) (s : dsess z) (h : hst)
  : prog (bool * dsess z * hst * bytes) :=
  match fuel with
  | O => PNoFuel
  | S f =>
    let n := next_size archive total in
    if n <? 1 then PRet (true, s, h, [])
    else
      let d := takeN n inp in
      let short := lenN d <? n in
      if short && rderr then PRet (false, s, h, [])
      else
        let flush := Z.of_N (N.shiftr (N.land (idx + 1) 16) 4) in
        pdo x <- plift (decompress e alloc dfuel flush d s);
        let '(ret, s1, evs) := x in
        pdo h1 <- cbs evs h;
        if short || h_err h1 then PRet (true, s1, h1, d)
        else
          pdo y <- extract_loop f dfuel (dropN n inp) rderr (total + lenN d) (idx + 1) s1 h1;
          let '(ok, s2, h2, ds) := y in PRet (ok, s2, h2, d ++ ds)
  end.

(** ZlibWtDecompressFileOrDirEx, lines 213-304.  [al]: the two malloc calls and the session; [obuf]: contents of pcBufferOut;
    [hjunk], [pjunk]: uninitialised memory of the session.  The session calls inflate twice more when it is destroyed. *)
Definition extract (fuel dfuel : nat) (al : N -> bool) (obuf hjunk : bytes) (pjunk : pst) (inp : bytes) (rderr : bool)
  : prog (N * option (dsess z * hst * bytes)) :=
  if negb (al 1) || negb (al 2) then PRet (ContentNone, None)
  else
    match create z (al 3) (Some obuf) DEF_CHUNK_SIZE hjunk pjunk with
    | None => PRet (ContentNone, None)
    | Some s0 =>
      pdo x <- extract_loop fuel dfuel inp rderr 0 0 s0 HS0;
      let '(ok, s, h, ds) := x in
      pdo u <- close_fp h;
      pdo s' <- plift (destroy s);
      PRet (if ok then h_ret h else ContentNone, Some (s, h, ds))
    end.

(** ZlibWtDecompressFileOrDir, lines 307-322: [None]: the input file cannot be opened. *)
Definition extract_file (fuel dfuel : nat) (al : N -> bool) (obuf hjunk : bytes) (pjunk : pst) (inp : option (bytes * bool))
  : prog (N * option (dsess z * hst * bytes)) :=
  match inp with
  | None => PRet (ContentNone, None)
  | Some (d, rderr) => extract fuel dfuel al obuf hjunk pjunk d rderr
  end.
End Extract.
End HL.
