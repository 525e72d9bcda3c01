(** WinSelf.v: model of src/tools/main_self_extract.c as compiled on Windows ([_WIN32], MSVC).

    Simplifications, as in Tools.v and SelfRun.v: the executable can be read; argv[0] is shorter than 4191 bytes.  The console (lines 57-70) and waiting for
    a key at the end (line 239) have no effect on the files and the status. *)
From Coq Require Import Strings.String.
From Verif Require Import Base Format Zlib LLCompress Parser Decompress FS HL Tools WinTools WinExtract Compress WinArchive.
Local Notation b := list_byte_of_string.

(** ** Making a self extracting executable *)
Section WinSelfBuild.
(** As in Tools.v; in addition
    [icon x]: the executable [x] after ResourceHandlerSecIconToApp (line 207; src/core/resource_handler_windows.c: resources are replaced by a function
    of the system, which writes the file anew; Icon.v; not with an
    icon of less than 22 bytes, where the behaviour is undefined);
    [locked dir p]: the file [p] of the folder [dir] is open for writing, or without sharing (see WinArchive.v).  The tool itself has its own
    executable open without sharing (line 125) and the output file for writing (line 210). *)
Context (z : zlib) (e : endian) (jk : N -> bytes) (xjk : N -> N -> bytes)
  (hjunk : bytes) (al : N -> bool) (ls : bytes -> option (list (bytes * snode))) (locked : bytes -> list bytes -> bool)
  (rd wr : N -> N -> N) (opn : N -> bool) (ndebug : bool) (icon : bytes -> bytes).

(** main_self_extract.c:82-242; see [se_main] in Tools.v.  With a larger executable the run goes on with [wse_go]. *)
Definition wse_main (cfuel fuel : nat) (argv0 : bytes) (exe : option bytes) : outcome se_result :=
  match exe with
  | None => Ok SeFail
  | Some x =>
    if max_exe ndebug <? lenN x then Ok (SeRun (dropN (max_exe ndebug) x))
    else
      let '(name, dir) := se_name_dir argv0 in
      if negb (opn 0) then Ok SeFail
      else
        do (w, n) <- se_copy rd wr cfuel 0 0 x (WF [] 0);
        let file := icon (wf_data w) in
        if negb (opn 1) then Ok (SeBuild (CRet 1%Z) file)
        else
          do (r, cevs, ws, wx, led) <-
            wcompress_dir z e (se_filter name) jk xjk hjunk al (locked dir) fuel Z_BEST_COMPRESSION 1 false []
              (ls dir) (true, true);
          Ok (SeBuild r (wf_data (se_writes wr n (map ce_data cevs) (WF file (max_exe ndebug)))))
  end.
End WinSelfBuild.

(** ** Running a self extracting executable *)

(** What a run does: return value of main ([None]: the C runtime has terminated the process), programs started with the state at that time, final
    state, the session of the decompressor. *)
Record wse_ran (z : zlib) : Type := WR {
  wr_ret : option Z; wr_started : list (bytes * WinExtract.wst); wr_w : WinExtract.wst; wr_sess : option (dsess z)
}.
Arguments WR {z}. Arguments wr_ret {z}. Arguments wr_started {z}. Arguments wr_w {z}. Arguments wr_sess {z}.

(** The entry [s] and what is below it are deleted, except what cannot be deleted ([stay]; files in use and the directories that hold them).
    Simplification: [s] has no wildcards. *)
Definition xdelete (stay : path -> bool) (s : bytes) (w : WinExtract.wst) : WinExtract.wst :=
  w_setfs (fun q => if below (xkey (w_cwd w) s) q && negb (stay q) then None else w_fs w q) w.
(** RemoveNonEmptyDirectory, main_self_extract.c:326-343, called with OUT_FOLDER_NAME_01; see [wremove] in WinTools.v.  [rest]: what follows the
    literal and its NUL in memory. *)
Definition xremove (stay : path -> bool) (rest : bytes) (w : WinExtract.wst) : outcome WinExtract.wst :=
  let mem := out_folder ++ x00 :: rest in
  do l <- name_list (S (List.length mem)) mem; Ok (fold_left (fun w s => xdelete stay s w) l w).

(** main_self_extract.c:138 and 161-165: the names of the two programs.  ZLIBWT_FILE_DELIM: io_zlibandtls.h:28. *)
Definition wse_arg0 : bytes := b ".out_dir\maind.exe".
Definition wse_arg1 : bytes := b ".out_dir\main.exe".

Section WinSelfRun.
(** [dup]: strdup succeeds; [stay k]: what the k-th removal cannot delete; [start k p w]: the k-th SystemCreateProcessU with program [p] in state [w]:
    [None] if it returns NULL, otherwise what SystemWaitAndClearProcess stores, and the state when the program ended; the others as for [xextract]. *)
Context (maxd maxf : N) (deny : path -> bool) (hal : N -> bool) (stk : N) (z : zlib) (e : endian) (alloc : N -> N -> bool) (fuel dfuel : nat)
  (al : N -> bool) (obuf hjunk : bytes) (pjunk : pst) (dup : bool) (stay : N -> path -> bool) (rest : bytes)
  (start : N -> bytes -> WinExtract.wst -> option Z * WinExtract.wst).

(** main_self_extract.c:138-184 and 229-242; [inp]: the rest of the executable. *)
Definition wse_go (inp : bytes) (w : WinExtract.wst) : outcome (wse_ran z) :=
  if negb dup then Ok (WR (Some 1%Z) [] w None)
  else
    do w1 <- xremove (stay 0) rest w;
    do (x, w2) <- xextract maxd maxf deny out_folder hal stk z e alloc 0 fuel dfuel al obuf hjunk pjunk inp false w1;
    let '(ret, st) := x in
    let sess := match st with Some (s, _, _) => Some s | None => None end in
    match ret with
    | None => Ok (WR None [] w2 sess)
    | Some ret =>
      if negb (ret =? ContentDirectory) then Ok (WR (Some 1%Z) [] w2 sess)
      else
        let '(c1, w3) := start 0 wse_arg0 w2 in
        let nret := match c1 with Some c => c | None => 1%Z end in
        if negb (nret =? 0)%Z then
          let '(c2, w4) := start 1 wse_arg1 w3 in
          Ok (WR (Some 0%Z) [(wse_arg0, w2); (wse_arg1, w3)] w4 sess)
        else
          do w4 <- xremove (stay 1) rest w3;
          Ok (WR (Some 0%Z) [(wse_arg0, w2)] w4 sess)
    end.
End WinSelfRun.
