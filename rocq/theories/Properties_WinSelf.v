(** Properties_WinSelf.v: properties C140 to C144 (the self extract tool on Windows).

    Notions used: [wse_main … argv0 (Some exe)]: the tool started as argv0 with the executable exe; [SeBuild r out]: it ended with r and left out in
      __out.exe; [SeRun x]: it goes on with [wse_go], extracting x.  [icon x]: the executable x after its icon was set; [max_exe]: MAX_EXE_SIZE;
      [ls dir]: listing of dir; [locked dir p]: the file p of dir is in use; [wsound]: no file is in use or cannot be read (C136);
      [without_own name es]: the listing without the files name and __out.exe at its top (C63); [below_free name nd]: no file of that name below nd;
      [unlinked_all es]: without links (C135).
      [wse_go … stay rest start inp w]: the run with what follows the tool in its executable, in the state w of Windows: [stay k]: what the k-th removal
      of .out_dir cannot remove, because it is in use; [rest]: the memory after the string .out_dir (C119); [start k p w]: starting a program.
      Result: [wr_ret]: the status ([None]: the process was terminated), [wr_started]: programs with the states in which they were started.
      [win_tree es]: what Windows shows of the listing es (C124); [strip t q]: the path of q below t. *)
From Coq Require Import Strings.String.
From Verif Require Import Base Format Zlib RleZlib LLCompress Compress Parser ParserProofs ParserFacts Decompress DecompressProofs
  DecompressFacts MidProofs MidFacts DecompressExamples ArchiveSpec ArchiveFacts ArchiveDecode ArchiveEntry ArchiveProps ArchiveExamples
  FS FSFacts HL HLSpec HLFacts HLDrive HLProps HLSafe MkdirFacts HLTame HLMkdir HLMore HLExamples WinArchive WinArchiveSpec WinArchiveFacts WinArchiveProps WinCopy
  WinTools WinExtract WinExtractSpec WinExtractFacts WinExtractTame WinExtractExamples WinArchiveExamples
  ArgParser ArgSpec ArgFacts ArgMore ArgExamples Tools ToolsSpec ToolsFacts ToolsMore ToolsExamples SelfRunExamples WinCd WinCdSpec WinCdFacts WinSelf WinSelfFacts
  WinSelfRunFacts WinSelfExamples.
Local Notation b := list_byte_of_string.

(** C140: false.  The size of the executable is checked before its icon is set.  If it becomes larger than MAX_EXE_SIZE, the archive is written over its end. *)
Theorem C140_build_refuted : exists out, lenN (b "TOOL") <= max_exe true /\
  ws_run ws_tree ws_big (b ".\tool.exe") (Some (b "TOOL")) = Ok (SeBuild (CRet 0) out) /\ ~ prefix (ws_big (b "TOOL")) out.
Proof. exact ex_c140_refuted. Qed.
Print Assumptions C140_build_refuted.
(** What is written then. *)
Theorem C140_too_large_partial : forall z e jk xjk hjunk al ls locked rd wr opn ndebug icon cfuel fuel argv0 exe r out,
  lenN exe <= max_exe ndebug -> max_exe ndebug <= lenN (icon exe) -> (forall k n, wr k n = n) ->
  wse_main z e jk xjk hjunk al ls locked rd wr opn ndebug icon cfuel fuel argv0 (Some exe) = Ok (SeBuild r out) -> r <> CRet 1 ->
  exists cevs, out = takeN (max_exe ndebug) (icon exe) ++ cev_bytes cevs ++ dropN (max_exe ndebug + lenN (cev_bytes cevs)) (icon exe).
Proof. exact wse_overwrites. Qed.
Print Assumptions C140_too_large_partial.
(** What remains of C140: the executable is not larger than MAX_EXE_SIZE with its icon.  If status 0 is returned, the output is the executable and, at
    MAX_EXE_SIZE, the archive of the folder without the tool, its output and links; no other file of the folder was in use. *)
Theorem C140_build_partial : forall z (C : zlib_contract z) e jk xjk hjunk al ls locked rd wr opn ndebug icon cfuel fuel argv0 exe out es,
  lenN exe <= max_exe ndebug -> lenN (icon exe) <= max_exe ndebug -> (forall k n, wr k n = n) ->
  wse_main z e jk xjk hjunk al ls locked rd wr opn ndebug icon cfuel fuel argv0 (Some exe) = Ok (SeBuild (CRet 0) out) ->
  let '(name, dir) := se_name_dir argv0 in
  ls dir = Some es -> junk_ok jk (fun _ n => zeros n) xjk hjunk -> tree_fits (Some es) -> Forall (fun x => quiet (snd x)) es ->
  NoDup (map fst es) -> Forall (fun x => below_free name (snd x)) es -> Forall (fun x => below_free se_out (snd x)) es ->
  prefix (icon exe) out /\ (forall p, file_at p (without_own name es) -> locked dir p = false) /\
  exists cevs, dropN (max_exe ndebug) out = cev_bytes cevs /\ (last_not_full cevs ->
    dir_archive C (cev_bytes cevs) (preorder (unlinked_all (without_own name es))) /\
    unpacks z (cev_bytes cevs) (preorder (unlinked_all (without_own name es))) /\
    forall cfuel' fuel' argv0', wse_main z e jk xjk hjunk al ls locked rd wr opn ndebug icon cfuel' fuel' argv0' (Some out) = Ok (SeRun (cev_bytes cevs))).
Proof. exact wse_packs. Qed.
Print Assumptions C140_build_partial.
Example C140_case : exists cevs out, lenN (b "TOOL") <= max_exe true /\ lenN (ws_icon (b "TOOL")) <= max_exe true /\
  ws_run ws_tree ws_icon (b ".\tool.exe") (Some (b "TOOL")) = Ok (SeBuild (CRet 0) out) /\ dropN (max_exe true) out = cev_bytes cevs /\ last_not_full cevs /\
  se_name_dir (b ".\tool.exe") = (b "tool.exe", b ".") /\ se_ls ws_tree (b ".") = Some ws_tree /\
  junk_ok (ax_jk x11) (fun _ n => zeros n) ax_xjk ax_hjunk /\ tree_fits (Some ws_tree) /\ Forall (fun x => quiet (snd x)) ws_tree /\
  NoDup (map fst ws_tree) /\ Forall (fun x => below_free (b "tool.exe") (snd x)) ws_tree /\ Forall (fun x => below_free se_out (snd x)) ws_tree /\
  preorder (unlinked_all (without_own (b "tool.exe") ws_tree)) =
    [AFile (b "maind.exe") 420 1 (b "M"); ADir (b "Sub") 493; AFile (b "a") 420 3 (b "xyz"); AEnd].
Proof. exact ex_c140. Qed.

(** C141: false.  Only the tool and its output are in use.  The tool fails if it is started with its name in another case, or if a folder has a file of the
    output's name: it does not leave out its own executable, or its output, and cannot read it. *)
Theorem C141_finds_itself_refuted : (forall p, ws_locked (b ".") p = true -> p = [b "tool.exe"] \/ p = [b "__out.exe"]) /\
  (exists out, ws_run ws_tree ws_icon (b ".\tool.exe") (Some (b "TOOL")) = Ok (SeBuild (CRet 0) out)) /\
  fold_case (b ".\TOOL.EXE") = fold_case (b ".\tool.exe") /\
  (exists out, ws_run ws_tree ws_icon (b ".\TOOL.EXE") (Some (b "TOOL")) = Ok (SeBuild (CRet 2) out)) /\
  exists out, ws_run ws_tree2 ws_icon (b ".\tool.exe") (Some (b "TOOL")) = Ok (SeBuild (CRet 2) out).
Proof. exact ex_c141_refuted. Qed.
Print Assumptions C141_finds_itself_refuted.
(** What remains of C141: no folder has a file with the name the tool was started with, or the output's name.  Then the status is 0 if no file other than those two
    is in use, and 2 otherwise. *)
Theorem C141_finds_itself_partial : forall z (C : zlib_contract z) e jk xjk hjunk al ls locked rd wr opn ndebug icon cfuel fuel argv0 exe r out es,
  lenN exe <= max_exe ndebug -> (forall k n, wr k n = n) ->
  wse_main z e jk xjk hjunk al ls locked rd wr opn ndebug icon cfuel fuel argv0 (Some exe) = Ok (SeBuild r out) -> opn 1 = true ->
  created z al Z_BEST_COMPRESSION ->
  let '(name, dir) := se_name_dir argv0 in
  ls dir = Some es -> junk_ok jk (fun _ n => zeros n) xjk hjunk -> tree_fits (Some es) ->
  NoDup (map fst es) -> Forall (fun x => below_free name (snd x)) es -> Forall (fun x => below_free se_out (snd x)) es ->
  (r = CRet 0 /\ Forall (fun x => wsound (locked dir) [] (fst x) (snd x)) (without_own name es)) \/
  (r = CRet 2 /\ ~ Forall (fun x => wsound (locked dir) [] (fst x) (snd x)) (without_own name es)).
Proof. exact wse_reported. Qed.
Print Assumptions C141_finds_itself_partial.
Example C141_case : exists out out2, ws_run ws_tree ws_icon (b ".\tool.exe") (Some (b "TOOL")) = Ok (SeBuild (CRet 0) out) /\
  created rle_zlib ax_al Z_BEST_COMPRESSION /\ junk_ok (ax_jk x11) (fun _ n => zeros n) ax_xjk ax_hjunk /\ tree_fits (Some ws_tree) /\
  NoDup (map fst ws_tree) /\ Forall (fun x => below_free (b "tool.exe") (snd x)) ws_tree /\ Forall (fun x => below_free se_out (snd x)) ws_tree /\
  Forall (fun x => below_free (b "TOOL.EXE") (snd x)) ws_tree /\
  ws_run ws_tree ws_icon (b ".\TOOL.EXE") (Some (b "TOOL")) = Ok (SeBuild (CRet 2) out2).
Proof. exact ex_c141. Qed.

(** C142: false.  The string .out_dir is followed by f in memory: the file \w\f is gone when the program is started. *)
Theorem C142_run_refuted : exists cevs out r, ws_run ws_tree ws_icon (b ".\tool.exe") (Some (b "TOOL")) = Ok (SeBuild (CRet 0) out) /\
  dropN (max_exe true) out = cev_bytes cevs /\ last_not_full cevs /\
  ws_go ws_none (b "f" ++ [x00; x00]) (Some 0%Z) (Some 0%Z) (cev_bytes cevs) ws_w = Ok r /\
  w_fs ws_w [[x77]; [x66]] = Some (XFile false (b "old")) /\
  exists n w more, wr_started r = (n, w) :: more /\ w_fs w [[x77]; [x66]] = None.
Proof. exact ex_c142_refuted. Qed.
Print Assumptions C142_run_refuted.
(** What remains of C142: the string happens to be followed by another NUL, nothing in .out_dir is in use, and the paths of the files are legal and short enough
    below .out_dir.  Then the first program is started with .out_dir holding exactly what was packed, everything else as before, and the status is 0. *)
Theorem C142_run_partial : forall z (C : zlib_contract z) e jk xjk hjunk al ls locked rd wr opn ndebug icon cfuel fuel argv0 exe out es
  maxd maxf deny hal stk e' alloc al' obuf hjunk' pjunk stay rest start w efuel,
  lenN exe <= max_exe ndebug -> lenN (icon exe) <= max_exe ndebug -> (forall k n, wr k n = n) ->
  wse_main z e jk xjk hjunk al ls locked rd wr opn ndebug icon cfuel fuel argv0 (Some exe) = Ok (SeBuild (CRet 0) out) ->
  ls (snd (se_name_dir argv0)) = Some es -> junk_ok jk (fun _ n => zeros n) xjk hjunk -> tree_fits (Some es) -> Forall (fun x => quiet (snd x)) es ->
  NoDup (map fst es) -> Forall (fun x => below_free (fst (se_name_dir argv0)) (snd x)) es -> Forall (fun x => below_free se_out (snd x)) es ->
  let packed := without_own (fst (se_name_dir argv0)) es in
  calm z hal al' stk obuf hjunk' pjunk -> (forall k n, alloc k n = true) -> (forall q, deny q = false) -> maxf <= PATH_MAX ->
  (List.length (dropN (max_exe ndebug) out) < efuel)%nat -> preorder (unlinked_all packed) <> [] ->
  NoDup (map (fun x => fold_case (fst x)) packed) -> Forall (fun x => wextractable maxd maxf (lenN (b ".out_dir")) (fst x) (snd x)) packed ->
  w_dead w = false -> xdir (w_fs w) (w_cwd w) = true -> lenN (b ".out_dir") < maxd -> (forall r, stay 0 (w_cwd w ++ (b ".out_dir") :: r) = false) ->
  exists cevs, dropN (max_exe ndebug) out = cev_bytes cevs /\ (last_not_full cevs ->
    (forall cfuel' fuel' argv0', wse_main z e jk xjk hjunk al ls locked rd wr opn ndebug icon cfuel' fuel' argv0' (Some out) = Ok (SeRun (cev_bytes cevs))) /\
    exists dfuel0, forall dfuel, (dfuel0 <= dfuel)%nat -> exists r s,
      wse_go maxd maxf deny hal stk z e' alloc efuel dfuel al' obuf hjunk' pjunk true stay (x00 :: rest) start (cev_bytes cevs) w = Ok r /\ wr_sess r = Some s /\
      (room_left s -> exists w2 more, wr_started r = (b ".out_dir\maind.exe", w2) :: more /\ wr_ret r = Some 0%Z /\ same_w w w2 /\
         forall q, w_fs w2 q = match strip (w_cwd w ++ [(b ".out_dir")]) q with Some p => win_tree packed p | None => w_fs w q end)).
Proof. exact wself_round_trip. Qed.
Print Assumptions C142_run_partial.
Example C142_case : exists cevs out r s, ws_run ws_tree ws_icon (b ".\tool.exe") (Some (b "TOOL")) = Ok (SeBuild (CRet 0) out) /\
  dropN (max_exe true) out = cev_bytes cevs /\ last_not_full cevs /\ (List.length (cev_bytes cevs) < 4000)%nat /\
  preorder (unlinked_all (without_own (b "tool.exe") ws_tree)) <> [] /\ NoDup (map (fun x => fold_case (fst x)) (without_own (b "tool.exe") ws_tree)) /\
  Forall (fun x => wextractable 248 260 8 (fst x) (snd x)) (without_own (b "tool.exe") ws_tree) /\
  calm rle_zlib hx_hal ax_al hx_stk (zeros DEF_CHUNK_SIZE) ax_hjunk ex_pj /\ xdir (w_fs ws_w) (w_cwd ws_w) = true /\
  w_fs ws_w [[x77]; (b ".out_dir"); b "data"] = Some (XFile false (b "D")) /\
  ws_go ws_none [x00] (Some 0%Z) (Some 0%Z) (cev_bytes cevs) ws_w = Ok r /\ wr_sess r = Some s /\ room_left s /\
  wr_ret r = Some 0%Z /\ map fst (wr_started r) = [b ".out_dir\maind.exe"] /\
  (exists n w more, wr_started r = (n, w) :: more /\ w_fs w [[x77]; (b ".out_dir"); b "data"] = None) /\
  exists n w more, wr_started r = (n, w) :: more /\ w_fs w [[x77]; (b ".out_dir"); b "sub"; b "a"] = Some (XFile false (b "xyz")).
Proof. exact ex_c142. Qed.

(** C143: false.  The program of a first run, \w\.out_dir\maind.exe, is running.  A second run deletes the other files of .out_dir, places the contents of the
    archive in the root directory, and returns 1. *)
Theorem C143_second_run_refuted : exists r,
  dir_archive rle_contract (ws_arch (b "tool.exe") ws_tree) (preorder (unlinked_all (without_own (b "tool.exe") ws_tree))) /\
  calm rle_zlib hx_hal ax_al hx_stk (zeros DEF_CHUNK_SIZE) ax_hjunk ex_pj /\
  (forall q, ws_stay 0 q = true -> q = [[x77]; (b ".out_dir")] \/ q = [[x77]; (b ".out_dir"); b "maind.exe"]) /\
  w_fs ws_w [[x77]; (b ".out_dir"); b "data"] = Some (XFile false (b "D")) /\ w_fs ws_w [b "maind.exe"] = None /\
  ws_go ws_stay [x00] (Some 0%Z) (Some 0%Z) (ws_arch (b "tool.exe") ws_tree) ws_w = Ok r /\ wr_ret r = Some 1%Z /\ wr_started r = [] /\
  w_fs (wr_w r) [[x77]; (b ".out_dir"); b "data"] = None /\ w_fs (wr_w r) [b "maind.exe"] = Some (XFile false (b "M")).
Proof. exact ex_c143_refuted. Qed.
Print Assumptions C143_second_run_refuted.
(** What remains of C143: if .out_dir is still there after the removal, no program is started and the status is not 0. *)
Theorem C143_second_run_partial : forall maxd maxf deny hal stk z (C : zlib_contract z) e alloc al obuf hjunk pjunk stay start fuel dfuel dup rest inp recs w w1 r,
  calm z hal al stk obuf hjunk pjunk -> (forall k n, alloc k n = true) -> dir_archive C inp recs -> w_dead w = false ->
  xremove (stay 0) rest w = Ok w1 -> w_fs w1 (w_cwd w1 ++ [(b ".out_dir")]) <> None ->
  wse_go maxd maxf deny hal stk z e alloc fuel dfuel al obuf hjunk pjunk dup stay rest start inp w = Ok r ->
  wr_started r = [] /\ (wr_ret r = Some 1%Z \/ wr_ret r = None).
Proof. exact wself_busy. Qed.
Print Assumptions C143_second_run_partial.
Example C143_case : exists w1 r, dir_archive rle_contract (ws_arch (b "tool.exe") ws_tree) (preorder (unlinked_all (without_own (b "tool.exe") ws_tree))) /\
  calm rle_zlib hx_hal ax_al hx_stk (zeros DEF_CHUNK_SIZE) ax_hjunk ex_pj /\ w_dead ws_w = false /\
  xremove (ws_stay 0) [x00] ws_w = Ok w1 /\ w_fs w1 (w_cwd w1 ++ [(b ".out_dir")]) = Some XDir /\
  ws_go ws_stay [x00] (Some 0%Z) (Some 0%Z) (ws_arch (b "tool.exe") ws_tree) ws_w = Ok r.
Proof. exact ex_c143. Qed.

(** C144 *)
Theorem C144_programs : forall maxd maxf deny hal stk z e alloc al obuf hjunk pjunk stay start fuel dfuel dup rest inp w r,
  wse_go maxd maxf deny hal stk z e alloc fuel dfuel al obuf hjunk pjunk dup stay rest start inp w = Ok r ->
  (wr_started r = [] /\ (wr_ret r = Some 1%Z \/ wr_ret r = None)) \/
  (wr_ret r = Some 0%Z /\ exists w2, let '(c1, w3) := start 0 (b ".out_dir\maind.exe") w2 in
     (c1 = Some 0%Z /\ wr_started r = [(b ".out_dir\maind.exe", w2)]) \/
     (c1 <> Some 0%Z /\ wr_started r = [(b ".out_dir\maind.exe", w2); (b ".out_dir\main.exe", w3)])).
Proof. exact wself_status. Qed.
Print Assumptions C144_programs.
Example C144_case : exists r1 r2 r3,
  ws_go ws_none [x00] (Some 0%Z) (Some 7%Z) (ws_arch (b "tool.exe") ws_tree) ws_w = Ok r1 /\ wr_ret r1 = Some 0%Z /\
  map fst (wr_started r1) = [b ".out_dir\maind.exe"] /\
  ws_go ws_none [x00] None (Some 7%Z) (ws_arch (b "tool.exe") ws_tree) ws_w = Ok r2 /\ wr_ret r2 = Some 0%Z /\
  map fst (wr_started r2) = [b ".out_dir\maind.exe"; b ".out_dir\main.exe"] /\
  ws_go ws_stay [x00] (Some 0%Z) (Some 0%Z) (ws_arch (b "tool.exe") ws_tree) ws_w = Ok r3 /\ wr_ret r3 = Some 1%Z /\ wr_started r3 = [].
Proof. exact ex_c144. Qed.
