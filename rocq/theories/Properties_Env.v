(** Properties_Env.v: C138.  Notions used in the statements:
    - [disturbed u n p o w a o' w'] (Env.v): the program [p], started in the state [o], ends with the value [a] in the state [o'], while
      other processes change the file system at and below the path [u] as they like, between any two system calls, leaving [n] bytes
      free on the disk; [w']: the state after their last change;
    - [extraction x], [proper C x t o], [own_job x es F t o], [apart t u], [with_free], [with_dfuel]: see Properties_Conc.v (C49);
    - [without u o] (Env.v): the state without anything at or below [u]; a condition on it says that it does not depend on [u];
    - [overlay], [dir_tree]: see Properties_Extract.v; [volume]: number of bytes of the files. *)
From Verif Require Import Base Format Zlib RleZlib LLCompress Compress Parser ParserProofs ParserFacts Decompress DecompressProofs
  DecompressFacts MidProofs MidFacts DecompressExamples ArchiveSpec ArchiveFacts ArchiveDecode ArchiveEntry ArchiveProps ArchiveExamples
  FS FSFacts HL HLSpec HLFacts HLDrive HLProps HLSafe MkdirFacts HLTame HLMkdir HLMore HLExamples Conc ConcFacts ConcTame Sessions SessionsFacts
  ConcExamples Env EnvFacts EnvExamples.

(** C138: false.  A process that can write to the target directory while an archive is extracted to it (an archive of the library
    without any link) creates a symbolic link where a file will be created: the extraction follows it, overwrites the file /f outside of
    the target, and reports success. *)
Theorem C138_other_processes_refuted :
  own_job nx_job hx_tree (hx_arch hx_tree) [[x77]; [x6f]] (hx_os 1000) /\
  o_fs (hx_os 1000) [[x66]] = Some (IFile 420 [x6f;x6c;x64]) /\
  exists ret s h ds o' w, disturbed [[x77]; [x6f]] 1000 (extraction nx_job) (hx_os 1000) (hx_os 1000) (ret, Some (s, h, ds)) o' w /\ room_left s /\
    ret = ContentDirectory /\ o_fs o' [[x66]] = Some (IFile 420 [x31;x32;x33]).
Proof. exact ex_c138_attack. Qed.
Print Assumptions C138_other_processes_refuted.
(** What remains of C138: processes that work anywhere else do not influence the extraction of an archive that stays below its target,
    and the extraction does not touch their files. *)
Theorem C138_other_processes_partial : forall z (C : zlib_contract z) (x : job z) t u o n r o1,
  proper C x t (without u o) -> apart t u ->
  exec (extraction x) (with_free n (without u o)) = Ok (r, o1) -> 0 < o_free o1 -> n <= o_free o ->
  forall r' o' w, disturbed u n (extraction x) o o r' o' w ->
    r' = r /\ o_cwd o' = o_cwd o /\
    forall q, o_fs o' q = match strip t q, strip u q with Some _, _ => o_fs o1 q | None, Some _ => o_fs w q | None, None => o_fs o q end.
Proof. exact undisturbed. Qed.
Print Assumptions C138_other_processes_partial.
(** Archives written by the library: the source tree appears, and the files of the others are as they left them. *)
Theorem C138_own_archives_partial : forall z (C : zlib_contract z) (x : job z) es F t u o n,
  own_job x es F t (without u o) -> apart t u -> volume (preorder es) + 1 <= n -> n <= o_free o ->
  exists d0, forall d, (d0 <= d)%nat -> exists ret s h ds, room_left s -> ret = ContentDirectory /\
    forall r o' w, disturbed u n (extraction (with_dfuel d x)) o o r o' w -> r = (ret, Some (s, h, ds)) /\ o_cwd o' = o_cwd o /\
      forall q, o_fs o' q = match strip u q with Some _ => o_fs w q | None => overlay t (dir_tree (o_umask o) es) (o_fs o) q end.
Proof. exact undisturbed_tree. Qed.
Print Assumptions C138_own_archives_partial.
Example C138_case : own_job nx_job hx_tree (hx_arch hx_tree) [[x77]; [x6f]] (without [[x66]] (hx_os 1000)) /\
  apart [[x77]; [x6f]] [[x66]] /\ volume (preorder hx_tree) + 1 <= 100 /\ 100 <= o_free (hx_os 1000) /\
  exists ret s h ds o' w, disturbed [[x66]] 100 (extraction nx_job) (hx_os 1000) (hx_os 1000) (ret, Some (s, h, ds)) o' w /\ room_left s /\
    ret = ContentDirectory /\ o_fs o' [[x66]] = Some (IFile 420 [x6e;x65;x77]) /\
    o_fs o' [[x77]; [x6f]; [x64]; [x61;x62;x63]] = Some (IFile 420 [x31;x32;x33]).
Proof. exact ex_c138. Qed.
