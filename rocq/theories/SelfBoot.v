(** SelfBoot.v: the beginning of main in src/tools/main_self_extract.c, with its array and its strings. *)
From Coq Require Import Lia Strings.String.
From Verif Require Import Base Format Zlib LLCompress Compress Parser HL ArgParser Tools.

(** main_self_extract.c:113 strncpy(vcExePathThenDir, a_argv[0], VC_BUFFER_SIZE - 1) (string_zlibandtls.h:22); [junk]: the 4192 bytes the
    array held before.  strncpy fills up with zeros, and writes no zero if there is no space for one. *)
Definition se_path (junk argv0 : bytes) : bytes :=
  takeN (VC_BUFFER_SIZE - 1) (argv0 ++ zeros (VC_BUFFER_SIZE - 1 - lenN argv0)) ++ dropN (VC_BUFFER_SIZE - 1) junk.

(** The kind of entry for which DirCompressFilterFunction (lines 258-266) compares names. *)
Definition names_compared (w : wev) : bool :=
  match w with WFilter _ _ KDir _ => false | WFilter _ _ _ _ => true | WData _ => false end.

Section Boot.
Context (z : zlib) (e : endian) (jk : N -> bytes) (hj : N -> N -> bytes) (xjk : N -> N -> bytes)
  (hjunk : bytes) (al : N -> bool) (ls : bytes -> option (list (bytes * snode)))
  (rd wr : N -> N -> N) (opn : N -> bool) (ndebug : bool).

(** The build branch if s_cpcExeName is NULL: the copy of the executable as in [se_main]; DirCompressFilterFunction compares NULL with the
    name of the first entry that is not a directory (line 262), ownFileNotFound stays 1. *)
Definition se_unnamed (cfuel fuel : nat) (argv0 x : bytes) : outcome se_result :=
  if max_exe ndebug <? lenN x then Ok (SeRun (dropN (max_exe ndebug) x))
  else
    let '(name, dir) := se_name_dir argv0 in
    if negb (opn 0) then Ok SeFail
    else
      do (w, n) <- se_copy rd wr cfuel 0 0 x (WF [] 0);
      let file := icon_to_app (wf_data w) in
      if negb (opn 1) then Ok (SeBuild (CRet 1%Z) file)
      else
        do (r, cevs, ws, wx, led) <-
          compress_dir z e (fun (f : unit) d n k => (0%Z, f)) jk hj xjk hjunk al fuel Z_BEST_COMPRESSION 1 false [] (ls dir) tt;
        if existsb names_compared wx then UB
        else Ok (SeBuild r (wf_data (se_writes wr n (map ce_data cevs) (WF file (max_exe ndebug))))).

(** main_self_extract.c:82-242 for the argument vector [argv]; [files p]: contents of the file [p], [None] if it cannot be opened;
    [dup]: the strdup of lines 117, 122 or 125 succeeds. *)
Definition se_boot (cfuel fuel : nat) (junk : bytes) (dup : bool) (files : bytes -> option bytes) (argv : list bytes) : outcome se_result :=
  match argv with
  | [] => UB
  | argv0 :: _ =>
    match cstr (se_path junk argv0) with
    | None => UB
    | Some p =>
      match files p with
      | None => Ok SeFail
      | Some x =>
        if dup then se_main z e jk hj xjk hjunk al ls rd wr opn ndebug cfuel fuel p (Some x)
        else se_unnamed cfuel fuel p x
      end
    end
  end.
End Boot.
