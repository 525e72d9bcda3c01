(** Compress.v: model of src/core/zlibwt_compression_routines.c. *)
From Verif Require Import Base Format Zlib LLCompress.

(** DIRITER_EXIT_ALL of the directory iterator (comment in zlibwt_compression_routines.c:186: 387). *)
Definition DIRITER_EXIT_ALL : Z := 387.

(** enum ZlibWithToolsFileType as reported by the directory iterator. *)
Inductive skind := KFile | KDir | KLink | KOther.

(** What the code finds in the file system.
    [SFile openok statok mode size data rderr]: fopen succeeds, fstat succeeds, st_mode, st_size, the bytes
    fread delivers, and whether reading fails after them (otherwise end of file).
    [SDir mode entries]: st_mode (whatever fStat holds if stat fails: not checked, line 392) and the entries in the order of
    the iterator.  [SLink mode size target]: lstat's st_mode and st_size (not checked, line 436) and what
    readlink delivers; [None]: malloc or readlink fails.
    Simplification: vcStrFilePath is not truncated (line 388), i.e. paths are shorter than 4095 bytes; PathWalk.v models the strings. *)
Inductive snode : Type :=
| SFile (openok statok : bool) (mode size : N) (data : bytes) (rderr : bool)
| SDir (mode : N) (entries : list (bytes * snode))
| SLink (mode size : N) (target : option bytes)
| SOther.

Definition kind_of (nd : snode) : skind :=
  match nd with SFile _ _ _ _ _ _ => KFile | SDir _ _ => KDir | SLink _ _ _ => KLink | SOther => KOther end.

(** What happens while directories are walked: a call of the user's filter (directory below the
    archived one, entry name, type, answer), a call of ZlibWtCompressBufferToCallback. *)
Inductive wev : Type :=
| WFilter (dir : list bytes) (name : bytes) (k : skind) (answer : Z)
| WData (d : bytes).

(** "." and ".." (lines 366-368). *)
Definition is_dot (name : bytes) : bool := bytes_eqb name [x2e] || bytes_eqb name [x2e; x2e].

(** CompressSingleFileFromFile, lines 318-334: fread fills the buffer [k] times, then delivers the rest and sets
    the end of file or error indicator.  Result: data of the compress calls, return value is not 0. *)
Fixpoint read_loop (k : nat) (data : bytes) (rderr : bool) : list bytes * bool :=
  match k with
  | O => if rderr then ([], true) else ([data], false)
  | S k' => let '(r, b) := read_loop k' (dropN DEF_CHUNK_SIZE data) rderr in (takeN DEF_CHUNK_SIZE data :: r, b)
  end.
Definition read_file (data : bytes) (rderr : bool) : list bytes * bool :=
  read_loop (N.to_nat (lenN data / DEF_CHUNK_SIZE)) data rderr.

(** The name and its padding: lines 77-81, 132-136, 397-401, 467-471 (link targets: 473-477). *)
Definition name_writes (name : bytes) : list bytes :=
  let n := u32 (lenN name) in [takeN n name; zeros (sub32 (norm_len32 n) n)].

(** CompressArbitraryBufferAsFileInline, lines 59-92; [content], [failed]: what a_compressFnc wrote and returned;
    the item holds fileNameLen and fileNameLenNorm already, the rest of it is [junk]. *)
Definition file_writes (e : endian) (name : bytes) (mode size : N) (junk : bytes) (content : list bytes) (failed : bool) : list bytes :=
  file_item e (u32 (lenN name)) mode size junk :: name_writes name ++ content ++
  (if failed then [] else [zeros (sub64 (norm_len64 size) size)]).

Section Walk.
Context {F : Type} (e : endian) (filt : F -> list bytes -> bytes -> skind -> Z * F).
(** Uninitialised memory: [jk n]: the item on the stack for the n-th record; [hj n k]: the k bytes
    of the target buffer that readlink did not write. *)
Context (jk : N -> bytes) (hj : N -> N -> bytes).

(** struct SDirectoryCompressData (lines 31-46): fl.b.hasError, fl.b.shouldExit; [w_dead]: exit() was called;
    [w_f]: state of the user's filter; [w_n]: number of records so far. *)
Record wst : Type := WS { w_err : bool; w_exit : bool; w_dead : bool; w_f : F; w_n : N }.
Definition w_setf f s := WS (w_err s) (w_exit s) (w_dead s) f (w_n s).
Definition w_next s := WS (w_err s) (w_exit s) (w_dead s) (w_f s) (w_n s + 1).
Definition w_fail s := WS true (w_exit s) (w_dead s) (w_f s) (w_n s).
Definition w_stop s := WS (w_err s) true (w_dead s) (w_f s) (w_n s).
Definition w_die s := WS (w_err s) (w_exit s) true (w_f s) (w_n s).

(** IterateOverDirectoryFilesNoRecurse (external): calls the callback for every entry until it returns
    DIRITER_EXIT_ALL. *)
Definition iter_with (w : bytes -> snode -> wst -> Z * wst * list wev) :=
  fix go (es : list (bytes * snode)) (s : wst) : wst * list wev :=
    match es with
    | [] => (s, [])
    | (n, x) :: r =>
      let '(ret, s1, ev1) := w n x s in
      if (ret =? DIRITER_EXIT_ALL)%Z then (s1, ev1)
      else let '(s2, ev2) := go r s1 in (s2, ev1 ++ ev2)
    end.

(** ZlibWtFolderCompressDirIterCallbackStatic, lines 351-489.  After exit() nothing happens any more. *)
Fixpoint walk_node (dir : list bytes) (name : bytes) (nd : snode) (s : wst) : Z * wst * list wev :=
  if w_dead s || w_err s || w_exit s then (DIRITER_EXIT_ALL, s, [])
  else if is_dot name then (0%Z, s, [])
  else
    let '(a, f) := filt (w_f s) dir name (kind_of nd) in
    let fe := WFilter dir name (kind_of nd) a in
    let s0 := w_setf f s in
    if (a =? DIRITER_EXIT_ALL)%Z then (DIRITER_EXIT_ALL, w_stop s0, [fe])
    else if negb (a =? 0)%Z then (0%Z, s0, [fe])
    else
      let j := jk (w_n s0) in
      match nd with
      | SDir mode es =>
        let '(s1, evs) := iter_with (walk_node (dir ++ [name])) es (w_next s0) in
        (0%Z, s1,
         fe :: map WData (dir_item e (u32 (lenN name)) mode j :: name_writes name) ++ evs ++
         (if w_dead s1 then [] else [WData (dir_end_item e (u32 (lenN name)) mode j)]))
      | SFile openok statok mode size data rderr =>
        if negb openok || negb statok then (DIRITER_EXIT_ALL, w_fail s0, [fe])
        else
          let '(content, failed) := read_file data rderr in
          (if failed then DIRITER_EXIT_ALL else 0%Z, if failed then w_fail (w_next s0) else w_next s0,
           fe :: map WData (file_writes e name mode size j content failed))
      | SLink mode size None => (0%Z, w_die s0, [fe])
      | SLink mode size (Some target) =>
        if size <? lenN target then (0%Z, w_die s0, [fe])
        else
          (0%Z, w_next s0,
           fe :: map WData (link_item e (u32 (lenN name)) mode size j :: name_writes name ++
                            [target ++ hj (w_n s0) (size - lenN target); zeros (sub64 (norm_len64 size) size)]))
      | SOther => (0%Z, s0, [fe])
      end.

Definition walk (dir : list bytes) : list (bytes * snode) -> wst -> wst * list wev := iter_with (walk_node dir).

End Walk.
Arguments WS {F}. Arguments w_err {F}. Arguments w_exit {F}. Arguments w_dead {F}. Arguments w_f {F}. Arguments w_n {F}.
Arguments w_setf {F}. Arguments w_next {F}. Arguments w_fail {F}. Arguments w_stop {F}. Arguments w_die {F}.
Arguments iter_with {F}. Arguments walk_node {F}. Arguments walk {F}.

(** struct SZlibWtExtraCompressionBuffer: ffilePath (a C string), buffer, mode. *)
Record xbuf : Type := XB { xb_path : bytes; xb_data : bytes; xb_mode : N }.

(** ZlibWtFolderCompressBufferAsDirRootFileInline, lines 95-110; CompressSingleFileFromBuffer (337-341) writes the
    whole buffer and returns 0. *)
Definition root_writes (e : endian) (x : xbuf) (junk : bytes) : list bytes :=
  file_writes e (xb_path x) (xb_mode x) (lenN (xb_data x)) junk [xb_data x] false.

(** S_IRUSR|S_IWUSR|S_IRGRP|S_IROTH *)
Definition MODE_0644 : N := 420.

(** strchr(path, '/') *)
Fixpoint split_slash (p : bytes) : option (bytes * bytes) :=
  match p with
  | [] => None
  | b :: r => if byte_eqb b x2f then Some ([], r)
              else match split_slash r with Some (a, c) => Some (b :: a, c) | None => None end
  end.

(** ZlibWtFolderCompressBufferAsFileInlineRaw, lines 113-154 ([fuel]: recursion depth, one per '/'). *)
Fixpoint nested_writes (fuel : nat) (e : endian) (path data : bytes) (jk : N -> bytes) (n : N) : list bytes :=
  match fuel with
  | O => []
  | S f =>
    match split_slash path with
    | Some (d, rest) =>
      dir_item e (u32 (lenN d)) 0 (jk n) :: name_writes d ++
      nested_writes f e rest data jk (n + 1) ++ [dir_end_item e (u32 (lenN d)) 0 (jk n)]
    | None => root_writes e (XB path data MODE_0644) (jk n)
    end
  end.

(** The loops over the extra buffers, lines 211-218 and 259-266 (the error branch is unreachable: both functions
    return 0); [nested]: ZlibWtCompressDirectoryWithBufferEx, otherwise …ExRoot. *)
Fixpoint extra_writes (e : endian) (nested : bool) (xs : list xbuf) (jk : N -> N -> bytes) (i : N) : list bytes :=
  match xs with
  | [] => []
  | x :: r =>
    (if nested then nested_writes (S (length (xb_path x))) e (xb_path x) (xb_data x) (jk i) 0
     else root_writes e x (jk i 0)) ++ extra_writes e nested r jk (i + 1)
  end.

(** malloc and free of the work buffers and of the session (1: pcBufferOut, 2: pcBufferIn of
    aUserData, 3: the session with its zlib state). *)
Inductive lev := LMalloc (i : N) | LFree (i : N).

Inductive cres := CRet (r : Z) | CExit.

Section Entry.
Context (z : zlib) {F : Type} (e : endian) (filt : F -> list bytes -> bytes -> skind -> Z * F).
(** Uninitialised memory: walk, link targets, extra buffer records, archive header; [al i]: the i-th malloc succeeds. *)
Context (jk : N -> bytes) (hj : N -> N -> bytes) (xjk : N -> N -> bytes) (hjunk : bytes) (al : N -> bool).

(** ZlibWtCompressDirectoryEx (lines 284-315), …WithBufferExRoot (187-231), …WithBufferEx (235-279).
    [root]: the entries of the directory, [None] if it cannot be opened (the iterator then calls nothing and its
    return value is ignored).
    The return values of the compress calls are ignored by the code. *)
Definition compress_dir (fuel : nat) (level : Z) (clbk : N) (nested : bool) (xs : list xbuf)
    (root : option (list (bytes * snode))) (f0 : F) : outcome (cres * list cev * wst * list wev * list lev) :=
  let s0 := WS false false false f0 0 in
  if negb (al 1) then Ok (CRet 1%Z, [], s0, [], [])
  else if negb (al 2) then Ok (CRet 1%Z, [], s0, [], [LMalloc 1; LFree 1])
  else
    do (so, ev0) <- create_csession z fuel e (al 3) ContentDirectory level clbk false DEF_CHUNK_SIZE hjunk;
    match so with
    | None => Ok (CRet 1%Z, ev0, s0, [], [LMalloc 1; LMalloc 2] ++ (if al 3 then [LMalloc 3; LFree 3] else []))
    | Some cs =>
      let '(s1, wevs) := walk e filt jk hj [] (match root with Some es => es | None => [] end) s0 in
      let wx := map WData (extra_writes e nested xs xjk 0) ++ wevs in
      do (rets, cs', evs) <-
        run_cops fuel cs (concat (map (fun w => match w with WData d => [CWrite d] | _ => [] end) wx));
      if w_dead s1 then Ok (CExit, ev0 ++ evs, s1, wx, [LMalloc 1; LMalloc 2; LMalloc 3])
      else Ok (CRet (if w_err s1 then 2%Z else 0%Z), ev0 ++ evs, s1, wx,
               [LMalloc 1; LMalloc 2; LMalloc 3; LFree 3; LFree 2; LFree 1])
    end.

(** ZlibWtCompressFileEx, lines 164-183: the session is used without checking that it was created. *)
Definition compress_file (fuel : nat) (level : Z) (clbk : N) (data : bytes) (rderr : bool) : outcome (Z * list cev * list lev) :=
  if negb (al 1) then Ok (1%Z, [], [])
  else if negb (al 2) then Ok (1%Z, [], [LMalloc 1; LFree 1])
  else
    do (so, ev0) <- create_csession z fuel e (al 3) ContentFile level clbk false DEF_CHUNK_SIZE hjunk;
    match so with
    | None => UB
    | Some cs =>
      let '(content, failed) := read_file data rderr in
      do (rets, cs', evs) <- run_cops fuel cs (map CWrite content);
      Ok (if failed then 1%Z else 0%Z, ev0 ++ evs, [LMalloc 1; LMalloc 2; LMalloc 3; LFree 3; LFree 2; LFree 1])
    end.
End Entry.
