(** Properties C130-C132 (what extraction leaves alone).
    [wexists]: the target names a directory or file that exists.  [nothing_lost fs fs']: the directories of [fs] are still there, read-only files have not
    changed, other files are still there and not read-only.  [none_open w]: the process has no read-only files open.  [xextract]: as in
    Properties_WinExtract.v; result [None]: the C runtime has terminated the process.
    [obeys priv fs fs']: directories, links and permissions are what they were in [fs], files that the process may not write have not changed, new entries are
    only in directories in which it may create them.  [may_write]: the process has no files open that it may not write.
    [is_tree], [is_xtree]: there is a root, and every other entry lies in a directory. *)
From Verif Require Import Base Format Zlib RleZlib Compress Parser ParserProofs ParserFacts Decompress DecompressProofs MidProofs MidFacts DecompressExamples
  ArchiveSpec ArchiveFacts ArchiveExamples FS FSFacts HL HLSpec HLFacts HLDrive HLProps HLMore HLExamples WinTools WinExtract WinExtractSpec WinExtractFacts
  WinExtractTame WinExtractExamples WinKeep Keep KeepExamples WellFormed WellFormedExamples.

(** C130: false.  The target \W exists (as \w); the entry x is created in the root directory. *)
Theorem C130_windows_existing_target_refuted : exists ret w', wexists 248 wx_w [x5c;x57] /\
  wdid (wx_extract [x5c;x57] (rx_arch (rx_file [x78] [x31] 420)) wx_w) ret w' /\
  ret = Some ContentNone /\ w_fs wx_w [[x78]] = None /\ w_fs w' [[x78]] = Some (XFile false [x31]).
Proof. exact ex_c130_refuted. Qed.
Print Assumptions C130_windows_existing_target_refuted.
(** What remains of C130: an extraction that returns reports failure.  What is there is not lost (C131). *)
Theorem C130_windows_existing_target_partial : forall maxd maxf deny z (C : zlib_contract z) e alloc hal al stk obuf hjunk pjunk,
  calm z hal al stk obuf hjunk pjunk -> forall T archive fuel dfuel inp rderr w ret x w',
  archive_of ContentDirectory (zc_dec C (first_bytes archive inp)) -> wexists maxd w T ->
  xextract maxd maxf deny T hal stk z e alloc archive fuel dfuel al obuf hjunk pjunk inp rderr w = Ok (ret, x, w') ->
  ret = Some ContentNone \/ ret = None.
Proof. exact wtarget_exists. Qed.
Print Assumptions C130_windows_existing_target_partial.
Example C130_case : exists ret w', wexists 248 wx_w [x5c;x57] /\ archive_of ContentDirectory (zc_dec rle_contract (first_bytes 0 (hx_arch wx_tree))) /\
  wdid (wx_extract [x5c;x57] (hx_arch wx_tree) wx_w) ret w'.
Proof. exact ex_c130. Qed.

(** C131: all archives, targets and zlib implementations, also after failures and if the process is terminated. *)
Theorem C131_windows_nothing_lost : forall maxd maxf deny T hal stk z e alloc archive fuel dfuel al obuf hjunk pjunk inp rderr w ret x w', none_open w ->
  xextract maxd maxf deny T hal stk z e alloc archive fuel dfuel al obuf hjunk pjunk inp rderr w = Ok (ret, x, w') -> nothing_lost (w_fs w) (w_fs w').
Proof. exact wnothing_lost. Qed.
Print Assumptions C131_windows_nothing_lost.
Example C131_case : exists ret w', none_open wk_w /\ w_fs wk_w [[x77];[x66]] = Some (XFile true [x6f;x6c;x64]) /\
  wdid (wx_extract [x46] (hx_farch [x61;x62]) wk_w) ret w'.
Proof. exact ex_c131. Qed.
(** The file system stays a tree: every entry lies in a directory. *)
Theorem C131_windows_tree_kept : forall maxd maxf deny T hal stk z e alloc archive fuel dfuel al obuf hjunk pjunk inp rderr w ret x w', is_xtree (w_fs w) ->
  xextract maxd maxf deny T hal stk z e alloc archive fuel dfuel al obuf hjunk pjunk inp rderr w = Ok (ret, x, w') -> is_xtree (w_fs w').
Proof. exact xextract_tree. Qed.
Print Assumptions C131_windows_tree_kept.
(** The name of the archived file leads below a file. *)
Example C131_case_tree : exists ret w', is_xtree (w_fs wx_w) /\ w_fs wx_w [[x77];[x66]] = Some (XFile false [x6f;x6c;x64]) /\
  wdid (wx_extract [x6f] (rx_arch (rx_file [x2e;x2e;x2f;x66;x2f;x78] [x31] 420)) wx_w) ret w' /\ w_fs w' [[x77];[x66];[x78]] = None.
Proof. exact ex_c131_tree. Qed.

(** C132: all archives, targets and zlib implementations, also after failures. *)
Theorem C132_permissions_obeyed : forall T hal stk z e alloc archive fuel dfuel al obuf hjunk pjunk inp rderr o ret x o', may_write o ->
  exec (extract T hal stk z e alloc archive fuel dfuel al obuf hjunk pjunk inp rderr) o = Ok ((ret, x), o') -> obeys (o_priv o) (o_fs o) (o_fs o').
Proof. exact extract_obeys. Qed.
Print Assumptions C132_permissions_obeyed.
Example C132_case : exists ret o', may_write kx_os /\ o_fs kx_os [[x66]] = Some (IFile 292 [x6f;x6c;x64]) /\ can_w (o_priv kx_os) 292 = false /\
  did (hx_extract [x6f] 0 (rx_arch (rx_file [x2e;x2e;x2f;x2e;x2e;x2f;x66] [x31] 420)) kx_os) ret o'.
Proof. exact ex_c132. Qed.
(** The file system stays a tree. *)
Theorem C132_tree_kept : forall T hal stk z e alloc archive fuel dfuel al obuf hjunk pjunk inp rderr o ret x o', is_tree (o_fs o) ->
  exec (extract T hal stk z e alloc archive fuel dfuel al obuf hjunk pjunk inp rderr) o = Ok ((ret, x), o') -> is_tree (o_fs o').
Proof. exact extract_tree. Qed.
Print Assumptions C132_tree_kept.
Example C132_case_tree : exists ret o', is_tree (o_fs (hx_os 1000)) /\ o_fs (hx_os 1000) [[x66]] = Some (IFile 420 [x6f;x6c;x64]) /\
  did (hx_extract [x6f] 0 (rx_arch (rx_file [x2e;x2e;x2f;x2e;x2e;x2f;x66;x2f;x78] [x31] 420)) (hx_os 1000)) ret o' /\ o_fs o' [[x66];[x78]] = None.
Proof. exact ex_c132_tree. Qed.
