(** WinArchive.v: model of src/core/zlibwt_compression_routines.c as compiled on Windows ([_WIN32], MSVC). *)
From Verif Require Import Base Format Zlib LLCompress Compress.

Section WinWalk.
Context {F : Type} (e : endian) (filt : F -> list bytes -> bytes -> skind -> Z * F).
(** Uninitialised memory: as in Compress.v, except that there are no link targets.
    [locked p]: the file at [p], below the directory that is archived, is open for writing, or open without sharing, anywhere.  fopen_zlibandtls is
    _fsopen with _SH_DENYRW (include/zlib_with_tools/utils/stdio_zlibandtls.h:21), which fails then. *)
Context (jk : N -> bytes) (locked : list bytes -> bool).

(** ZlibWtFolderCompressDirIterCallbackStatic, lines 351-489, with line 427 true: nothing is done with a symbolic link; nothing calls exit().
    [SFile openok ...]: whether the file can be opened apart from [locked]; [statok] is also false for files of 2 GiB and more
    (st_size has 32 bits; _fstat then fails). *)
Fixpoint wwalk_node (dir : list bytes) (name : bytes) (nd : snode) (s : wst) : Z * wst * list wev :=
  if w_dead s || w_err s || w_exit s then (DIRITER_EXIT_ALL, s, [])
  else if is_dot name then (0%Z, s, [])
  else
    let '(a, f) := filt (w_f s) dir name (kind_of nd) in
    let fe := WFilter dir name (kind_of nd) a in
    let s0 := w_setf f s in
    if (a =? DIRITER_EXIT_ALL)%Z then (DIRITER_EXIT_ALL, w_stop s0, [fe])
    else if negb (a =? 0)%Z then (0%Z, s0, [fe])
    else
      let j := jk (w_n s0) in
      match nd with
      | SDir mode es =>
        let '(s1, evs) := iter_with (wwalk_node (dir ++ [name])) es (w_next s0) in
        (0%Z, s1,
         fe :: map WData (dir_item e (u32 (lenN name)) mode j :: name_writes name) ++ evs ++
         [WData (dir_end_item e (u32 (lenN name)) mode j)])
      | SFile openok statok mode size data rderr =>
        if negb (openok && negb (locked (dir ++ [name]))) || negb statok then (DIRITER_EXIT_ALL, w_fail s0, [fe])
        else
          let '(content, failed) := read_file data rderr in
          (if failed then DIRITER_EXIT_ALL else 0%Z, if failed then w_fail (w_next s0) else w_next s0,
           fe :: map WData (file_writes e name mode size j content failed))
      | SLink _ _ _ => (0%Z, s0, [fe])
      | SOther => (0%Z, s0, [fe])
      end.

Definition wwalk (dir : list bytes) : list (bytes * snode) -> wst -> wst * list wev := iter_with (wwalk_node dir).
End WinWalk.
Arguments wwalk_node {F}. Arguments wwalk {F}.

Section WinEntry.
Context (z : zlib) {F : Type} (e : endian) (filt : F -> list bytes -> bytes -> skind -> Z * F).
Context (jk : N -> bytes) (xjk : N -> N -> bytes) (hjunk : bytes) (al : N -> bool) (locked : list bytes -> bool).

(** ZlibWtCompressDirectoryEx (lines 284-315), ...WithBufferExRoot (187-231), ...WithBufferEx (235-279), as in Compress.v. *)
Definition wcompress_dir (fuel : nat) (level : Z) (clbk : N) (nested : bool) (xs : list xbuf)
    (root : option (list (bytes * snode))) (f0 : F) : outcome (cres * list cev * wst * list wev * list lev) :=
  let s0 := WS false false false f0 0 in
  if negb (al 1) then Ok (CRet 1%Z, [], s0, [], [])
  else if negb (al 2) then Ok (CRet 1%Z, [], s0, [], [LMalloc 1; LFree 1])
  else
    do (so, ev0) <- create_csession z fuel e (al 3) ContentDirectory level clbk false DEF_CHUNK_SIZE hjunk;
    match so with
    | None => Ok (CRet 1%Z, ev0, s0, [], [LMalloc 1; LMalloc 2] ++ (if al 3 then [LMalloc 3; LFree 3] else []))
    | Some cs =>
      let '(s1, wevs) := wwalk e filt jk locked [] (match root with Some es => es | None => [] end) s0 in
      let wx := map WData (extra_writes e nested xs xjk 0) ++ wevs in
      do (rets, cs', evs) <-
        run_cops fuel cs (concat (map (fun w => match w with WData d => [CWrite d] | _ => [] end) wx));
      Ok (CRet (if w_err s1 then 2%Z else 0%Z), ev0 ++ evs, s1, wx,
          [LMalloc 1; LMalloc 2; LMalloc 3; LFree 3; LFree 2; LFree 1])
    end.
End WinEntry.
