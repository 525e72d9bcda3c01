(** LiveWalk.v: src/core/zlibwt_compression_routines.c and src/tools/main_compressdir.cpp when the output file lies in the folder
    that is archived.  main_compressdir.cpp opens it before the traversal (line 62) and its filter accepts every file (112-115), so the
    traversal reads what its own callback has written.  In Compress.v the contents of the files are given in advance; here the compress
    calls are made where the code makes them.
    Simplifications: the other files do not change; the output file can be opened for reading. *)
From Verif Require Import Base Format Zlib LLCompress Compress.

(** [LNode x]: anything but a directory and the output file; [LOut mode]: the output file, with its st_mode. *)
Inductive lnode : Type :=
| LNode (x : snode)
| LDir (mode : N) (entries : list (bytes * lnode))
| LOut (mode : N).

Definition lkind (nd : lnode) : skind := match nd with LNode x => kind_of x | LDir _ _ => KDir | LOut _ => KFile end.

Section Live.
Context (z : zlib) {F : Type} (e : endian) (filt : F -> list bytes -> bytes -> skind -> Z * F) (jk : N -> bytes) (hj : N -> N -> bytes).
(** stdio: how many bytes of the output are in the file, and not in the buffer of fpOut, after these calls of the callback
    (main_compressdir.cpp:105-109). *)
Context (fl : list cev -> N).

(** State of the traversal: struct SDirectoryCompressData, the session, the calls of the callback so far, and for every time the output
    file was read: the st_size recorded and what was read. *)
Record lst : Type := LS { l_w : @wst F; l_cs : csess z; l_evs : list cev; l_log : list (N * bytes) }.
Definition l_set (w : @wst F) (s : lst) : lst := LS w (l_cs s) (l_evs s) (l_log s).

(** Calls of ZlibWtCompressBufferToCallback. *)
Definition emit (fuel : nat) (ds : list bytes) (s : lst) : outcome lst :=
  do (rets, cs, evs) <- run_cops fuel (l_cs s) (map CWrite ds);
  Ok (LS (l_w s) cs (l_evs s ++ evs) (l_log s)).

(** What is in the output file. *)
Definition on_disk (s : lst) : bytes := takeN (fl (l_evs s)) (cev_bytes (l_evs s)).

(** CompressSingleFileFromFile, zlibwt_compression_routines.c:318-334, on the output file: [pos] bytes were read, they are [got].
    [rf]: iterations of the loop. *)
Fixpoint read_own (rf fuel : nat) (got : bytes) (s : lst) : outcome (bytes * lst) :=
  match rf with
  | O => NoFuel
  | S rf' =>
    let chunk := takeN DEF_CHUNK_SIZE (dropN (lenN got) (on_disk s)) in
    do s1 <- emit fuel [chunk] s;
    if lenN chunk <? DEF_CHUNK_SIZE then Ok (got ++ chunk, s1) else read_own rf' fuel (got ++ chunk) s1
  end.

Definition live_iter (w : bytes -> lnode -> lst -> outcome (Z * lst)) :=
  fix go (es : list (bytes * lnode)) (s : lst) : outcome lst :=
    match es with
    | [] => Ok s
    | (n, x) :: r =>
      do (ret, s1) <- w n x s;
      if (ret =? DIRITER_EXIT_ALL)%Z then Ok s1 else go r s1
    end.

(** ZlibWtFolderCompressDirIterCallbackStatic, zlibwt_compression_routines.c:351-489; for the output file lines 407-424 with
    CompressArbitraryBufferAsFileInline (59-92). *)
Fixpoint live_node (rf fuel : nat) (dir : list bytes) (name : bytes) (nd : lnode) (s : lst) : outcome (Z * lst) :=
  match nd with
  | LNode x =>
    let '(ret, w, evs) := walk_node e filt jk hj dir name x (l_w s) in
    do s1 <- emit fuel (concat (map (fun v => match v with WData d => [d] | _ => [] end) evs)) s;
    Ok (ret, l_set w s1)
  | _ =>
    let w := l_w s in
    if w_dead w || w_err w || w_exit w then Ok (DIRITER_EXIT_ALL, s)
    else if is_dot name then Ok (0%Z, s)
    else
      let '(a, f) := filt (w_f w) dir name (lkind nd) in
      let w0 := w_setf f w in
      if (a =? DIRITER_EXIT_ALL)%Z then Ok (DIRITER_EXIT_ALL, l_set (w_stop w0) s)
      else if negb (a =? 0)%Z then Ok (0%Z, l_set w0 s)
      else
        let j := jk (w_n w0) in
        match nd with
        | LDir mode es =>
          do s1 <- emit fuel (dir_item e (u32 (lenN name)) mode j :: name_writes name) (l_set (w_next w0) s);
          do s2 <- live_iter (live_node rf fuel (dir ++ [name])) es s1;
          do s3 <- emit fuel (if w_dead (l_w s2) then [] else [dir_end_item e (u32 (lenN name)) mode j]) s2;
          Ok (0%Z, s3)
        | LOut mode =>
          let size := lenN (on_disk s) in
          do s1 <- emit fuel (file_item e (u32 (lenN name)) mode size j :: name_writes name) (l_set (w_next w0) s);
          do (got, s2) <- read_own rf fuel [] s1;
          do s3 <- emit fuel [zeros (sub64 (norm_len64 size) size)] s2;
          Ok (0%Z, LS (l_w s3) (l_cs s3) (l_evs s3) (l_log s3 ++ [(size, got)]))
        | LNode _ => UB
        end
  end.
End Live.
Arguments LS {z F}. Arguments l_w {z F}. Arguments l_cs {z F}. Arguments l_evs {z F}. Arguments l_log {z F}. Arguments l_set {z F}.
Arguments emit {z F}. Arguments on_disk {z F}. Arguments read_own {z F}. Arguments live_iter {z F}. Arguments live_node {z F}.

Section Entry.
Context (z : zlib) {F : Type} (e : endian) (filt : F -> list bytes -> bytes -> skind -> Z * F).
Context (jk : N -> bytes) (hj : N -> N -> bytes) (hjunk : bytes) (al : N -> bool) (fl : list cev -> N).

(** ZlibWtCompressDirectoryEx, zlibwt_compression_routines.c:284-315.  Result: what it returns, the calls of the callback, the state and
    the log of the traversal. *)
Definition live_compress (rf fuel : nat) (level : Z) (clbk : N) (root : list (bytes * lnode)) (f0 : F)
    : outcome (cres * list cev * @wst F * list (N * bytes)) :=
  let w0 := WS false false false f0 0 in
  if negb (al 1) || negb (al 2) then Ok (CRet 1%Z, [], w0, [])
  else
    do (so, ev0) <- create_csession z fuel e (al 3) ContentDirectory level clbk false DEF_CHUNK_SIZE hjunk;
    match so with
    | None => Ok (CRet 1%Z, ev0, w0, [])
    | Some cs =>
      do s <- live_iter (live_node e filt jk hj fl rf fuel []) root (LS w0 cs ev0 []);
      Ok (if w_dead (l_w s) then CExit else CRet (if w_err (l_w s) then 2%Z else 0%Z), l_evs s, l_w s, l_log s)
    end.
End Entry.
