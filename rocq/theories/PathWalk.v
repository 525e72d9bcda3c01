(** PathWalk.v: the traversal of src/core/zlibwt_compression_routines.c with its path strings.  Compress.v is given the tree of entries;
    here the tree is found in the file system, with the strings built in lines 357-388.
    Simplifications: the file system does not change during the traversal; malloc for link targets succeeds (line 438);
    IterateOverDirectoryFilesNoRecurse (external) opens the string it is given and reports each entry with the type lstat gives. *)
From Verif Require Import Base Format Zlib LLCompress Compress FS CopySpec.

(** Owner permission bit 0400. *)
Definition can_r (priv : bool) (mode : N) : bool := priv || N.testbit mode 8.

(** ZLIBWT_MAX_PATH_MIN1, include/zlib_with_tools/utils/stdio_zlibandtls.h:16. *)
Definition MAX_PATH_MIN1 : N := 4095.

(** zlibwt_compression_routines.c:388: snprintf stores at most one byte less than the size it is given. *)
Definition entry_string (dir name : bytes) : bytes := takeN (MAX_PATH_MIN1 - 1) (dir ++ x2f :: name).

Section PathWalk.
Context {F : Type} (e : endian) (filt : F -> bytes -> bytes -> skind -> Z * F).
(** As for [walk]; the filter gets the string a_sourceDirectory. *)
Context (jk : N -> bytes) (hj : N -> N -> bytes).
(** [ls d]: names the iterator reports for the directory [d]; [dsize d]: st_size of a directory; [sj n]: st_mode that fStat holds
    when stat fails for the n-th record (line 392, not checked). *)
Context (o : os) (ls : path -> list bytes) (dsize : path -> N) (sj : N -> N).

(** Resolution to a directory; opendir. *)
Definition dir_of (w : wres) : option path :=
  match w with WDir d => Some d | WAt d c (Some (IDir _)) => Some (d ++ [c]) | _ => None end.
Definition open_dir (s : bytes) : option path :=
  match dir_of (namei true o s) with
  | Some d => match o_fs o d with Some (IDir m) => if can_r (o_priv o) m then Some d else None | _ => None end
  | None => None
  end.

(** stat, line 392. *)
Definition stat_mode (s : bytes) : option N :=
  match namei true o s with
  | WErr _ | WAt _ _ None => None
  | WDir d => Some (S_IFDIR + dir_mode (o_fs o) d)
  | WAt _ _ (Some (IDir m)) => Some (S_IFDIR + m)
  | WAt _ _ (Some (IFile m _)) => Some (S_IFREG + m)
  | WAt _ _ (Some (ILink _)) => None
  end.

(** fopen and fstat, lines 409-418, and what fread delivers.  A directory can be opened for reading, reading it fails. *)
Definition file_at (s : bytes) : snode :=
  match namei true o s with
  | WAt _ _ (Some (IFile m x)) =>
    if can_r (o_priv o) m && negb (slash_end s) then SFile true true (S_IFREG + m) (lenN x) x false else SFile false false 0 0 [] false
  | _ =>
    match open_dir s with
    | Some d => SFile true true (S_IFDIR + dir_mode (o_fs o) d) (dsize d) [] true
    | None => SFile false false 0 0 [] false
    end
  end.

(** lstat and readlink, lines 436-453; readlink fails for everything that is not a symbolic link. *)
Definition link_at (s : bytes) : snode :=
  match namei false o s with
  | WAt _ _ (Some (ILink t)) => SLink (S_IFLNK + 511) (lenN t) (Some t)
  | _ => SLink 0 0 None
  end.

(** The type of the entry [c] of the directory [d]. *)
Definition kind_at (d : path) (c : bytes) : skind :=
  match o_fs o (d ++ [c]) with
  | Some (IDir _) => KDir
  | Some (IFile _ _) => KFile
  | Some (ILink _) => KLink
  | None => if is_dot c then KDir else KOther
  end.

(** ZlibWtFolderCompressDirIterCallbackStatic, lines 351-489.  [dir]: the names below the archived directory; [src]: a_sourceDirectory;
    [rec]: the iteration over a directory.  Entries that are not directories are treated by the code of [walk_node]. *)
Definition p_node (rec : list bytes -> bytes -> wst -> outcome (wst * list wev)) (dir : list bytes) (src name : bytes) (k : skind)
    (s : wst) : outcome (Z * wst * list wev) :=
  let p := entry_string src name in
  let fl := fun f (_ : list bytes) n k' => filt f src n k' in
  match k with
  | KFile => Ok (walk_node e fl jk hj dir name (file_at p) s)
  | KLink => Ok (walk_node e fl jk hj dir name (link_at p) s)
  | KOther => Ok (walk_node e fl jk hj dir name SOther s)
  | KDir =>
    if w_dead s || w_err s || w_exit s then Ok (DIRITER_EXIT_ALL, s, [])
    else if is_dot name then Ok (0%Z, s, [])
    else
      let '(a, f) := filt (w_f s) src name KDir in
      let fe := WFilter dir name KDir a in
      let s0 := w_setf f s in
      if (a =? DIRITER_EXIT_ALL)%Z then Ok (DIRITER_EXIT_ALL, w_stop s0, [fe])
      else if negb (a =? 0)%Z then Ok (0%Z, s0, [fe])
      else
        let j := jk (w_n s0) in
        let mode := match stat_mode p with Some m => m | None => sj (w_n s0) end in
        do (s1, evs) <- rec (dir ++ [name]) p (w_next s0);
        Ok (0%Z, s1,
            fe :: map WData (dir_item e (u32 (lenN name)) mode j :: name_writes name) ++ evs ++
            (if w_dead s1 then [] else [WData (dir_end_item e (u32 (lenN name)) mode j)]))
  end.

(** The iterator over the names of the directory [d]. *)
Definition p_entries (rec : list bytes -> bytes -> wst -> outcome (wst * list wev)) (dir : list bytes) (src : bytes) (d : path) :=
  fix go (cs : list bytes) (s : wst) : outcome (wst * list wev) :=
    match cs with
    | [] => Ok (s, [])
    | c :: r =>
      do (ret, s1, ev1) <- p_node rec dir src c (kind_at d c) s;
      if (ret =? DIRITER_EXIT_ALL)%Z then Ok (s1, ev1)
      else do (s2, ev2) <- go r s1; Ok (s2, ev1 ++ ev2)
    end.

(** IterateOverDirectoryFilesNoRecurse; [fuel]: nested iterations.  A directory that cannot be opened has no entries. *)
Fixpoint p_walk (fuel : nat) (dir : list bytes) (src : bytes) (s : wst) : outcome (wst * list wev) :=
  match fuel with
  | O => NoFuel
  | S f =>
    match open_dir src with
    | None => Ok (s, [])
    | Some d => p_entries (p_walk f) dir src d (ls d) s
    end
  end.
End PathWalk.

Section Entry.
Context (z : zlib) {F : Type} (e : endian) (filt : F -> bytes -> bytes -> skind -> Z * F).
Context (jk : N -> bytes) (hj : N -> N -> bytes) (xjk : N -> N -> bytes) (hjunk : bytes) (al : N -> bool).
Context (o : os) (ls : path -> list bytes) (dsize : path -> N) (sj : N -> N).

(** [compress_dir] of Compress.v (zlibwt_compression_routines.c:187-315) for the directory named by the string [src]. *)
Definition compress_path (fuel pfuel : nat) (level : Z) (clbk : N) (nested : bool) (xs : list xbuf) (src : bytes) (f0 : F)
    : outcome (cres * list cev * wst * list wev * list lev) :=
  let s0 := WS false false false f0 0 in
  if negb (al 1) then Ok (CRet 1%Z, [], s0, [], [])
  else if negb (al 2) then Ok (CRet 1%Z, [], s0, [], [LMalloc 1; LFree 1])
  else
    do (so, ev0) <- create_csession z fuel e (al 3) ContentDirectory level clbk false DEF_CHUNK_SIZE hjunk;
    match so with
    | None => Ok (CRet 1%Z, ev0, s0, [], [LMalloc 1; LMalloc 2] ++ (if al 3 then [LMalloc 3; LFree 3] else []))
    | Some cs =>
      do (s1, wevs) <- p_walk e filt jk hj o ls dsize sj pfuel [] src s0;
      let wx := map WData (extra_writes e nested xs xjk 0) ++ wevs in
      do (rets, cs', evs) <-
        run_cops fuel cs (concat (map (fun w => match w with WData d => [CWrite d] | _ => [] end) wx));
      if w_dead s1 then Ok (CExit, ev0 ++ evs, s1, wx, [LMalloc 1; LMalloc 2; LMalloc 3])
      else Ok (CRet (if w_err s1 then 2%Z else 0%Z), ev0 ++ evs, s1, wx,
               [LMalloc 1; LMalloc 2; LMalloc 3; LFree 3; LFree 2; LFree 1])
    end.
End Entry.
