(** Properties_Conc.v: C49, C50.  Notions used in the statements:
    - [interleave sched a b o] (Conc.v): two threads, the schedule chooses which one makes the next system call;
      [turns w sched]: number of turns of one thread; [cx_run]: both threads call ZlibWtDecompressFileOrDirEx (HL.v);
    - [both_ended x P] (ConcExamples.v): both threads have ended, with results and a file system satisfying [P];
    - [extraction x] (ConcTame.v): the program of one call with the arguments [x]; [exec] runs it alone; [with_free b o]: the same
      state with [b] bytes free on the disk;
    - [proper C x t o]: the call [x] extracts an archive whose callbacks keep to the target (the condition [lists_tame] of C41) to
      the path [t], where nothing exists but whose parent directory exists; [apart t u]: neither path is at or below the other;
    - [own_job x es F t o]: the call [x] extracts an archive [F] written by the library for the source listing [es] (as in C39);
      [overlay], [dir_tree]: see Properties_Extract.v;
    - [run_all e fuel w ms] (Sessions.v): the calls [ms] on any number of sessions, in any order, with other writes to the callers'
      buffers in between; [run_alone]: one session only, and nobody else writes to its buffer;
      [calls_on i ms]: the calls on session [i]; [shown_by i evs]: its callbacks and return values;
      [passed]: forget the memory that follows the bytes passed to a callback. *)
From Verif Require Import Base Format Zlib RleZlib LLCompress Compress Parser ParserProofs ParserFacts Decompress DecompressProofs
  DecompressFacts MidProofs MidFacts DecompressExamples ArchiveSpec ArchiveFacts ArchiveDecode ArchiveEntry ArchiveProps ArchiveExamples
  FS FSFacts HL HLSpec HLFacts HLDrive HLProps HLSafe MkdirFacts HLTame HLMkdir HLMore HLExamples Conc ConcFacts ConcTame Sessions SessionsFacts
  ConcExamples.

(** C49: false.  The current directory, which the creation of a symbolic link changes for a moment, belongs to both threads: the
    first is stopped after its chdir to o/d, the second creates its relative target p there. *)
Theorem C49_two_extractions_refuted :
  both_ended (cx_run (repeat true 20 ++ repeat false 20) (cx_job [x6f] cx_link) (cx_job [x70] cx_file) (hx_os 1000))
    (fun r1 r2 o' => o_fs o' [[x77]; [x70]; [x78]] = Some (IFile 420 [x31])) /\
  both_ended (cx_run (repeat true 4 ++ repeat false 20 ++ repeat true 20) (cx_job [x6f] cx_link) (cx_job [x70] cx_file) (hx_os 1000))
    (fun r1 r2 o' => o_fs o' [[x77]; [x70]] = None /\ o_fs o' [[x77]; [x6f]; [x64]; [x70]; [x78]] = Some (IFile 420 [x31])).
Proof. exact ex_c49_cwd. Qed.
Print Assumptions C49_two_extractions_refuted.
(** Also without links: if both create a common parent directory, one of them takes "already exists" for a failure, and puts its
    file into the root directory. *)
Theorem C49_common_parent_refuted :
  both_ended (cx_run (repeat true 30 ++ repeat false 30) (cx_job cx_c cx_file) (cx_job cx_d cx_file) (hx_os 1000))
    (fun r1 r2 o' => fst r1 = ContentDirectory /\ o_fs o' [[x77]; [x61]; [x62]; [x63]; [x78]] = Some (IFile 420 [x31])) /\
  both_ended (cx_run (repeat true 3 ++ repeat false 30 ++ repeat true 30) (cx_job cx_c cx_file) (cx_job cx_d cx_file) (hx_os 1000))
    (fun r1 r2 o' => fst r1 = ContentNone /\ o_fs o' [[x77]; [x61]; [x62]; [x63]] = None /\ o_fs o' [[x78]] = Some (IFile 420 [x31])).
Proof. exact ex_c49_parents. Qed.
Print Assumptions C49_common_parent_refuted.
(** What remains of C49: for archives that keep to their targets, in particular have no links, targets with existing parent directories, and disk space
    for both: every schedule that lets both end gives the results and files of the calls executed alone. *)
Theorem C49_two_extractions_partial : forall z (C : zlib_contract z) (x1 x2 : job z) t1 t2 o b1 b2 r1 r2 o1 o2,
  proper C x1 t1 o -> proper C x2 t2 o -> apart t1 t2 ->
  exec (extraction x1) (with_free b1 o) = Ok (r1, o1) -> 0 < o_free o1 ->
  exec (extraction x2) (with_free b2 o) = Ok (r2, o2) -> 0 < o_free o2 -> b1 + b2 <= o_free o ->
  exists n, forall sched, (n <= turns true sched)%nat -> (n <= turns false sched)%nat ->
    exists f1 f2 o', interleave sched (extraction x1, fds_of o) (extraction x2, fds_of o) o = ((PRet r1, f1), (PRet r2, f2), o') /\
      o_cwd o' = o_cwd o /\
      forall q, o_fs o' q = match strip t1 q, strip t2 q with Some _, _ => o_fs o1 q | None, Some _ => o_fs o2 q | None, None => o_fs o q end.
Proof. exact both_extract. Qed.
Print Assumptions C49_two_extractions_partial.
(** Archives written by the library: both source trees appear. *)
Theorem C49_two_own_archives_partial : forall z (C : zlib_contract z) (x1 x2 : job z) es1 es2 F1 F2 t1 t2 o,
  own_job x1 es1 F1 t1 o -> own_job x2 es2 F2 t2 o -> apart t1 t2 -> volume (preorder es1) + volume (preorder es2) + 2 <= o_free o ->
  exists d0, forall d, (d0 <= d)%nat -> exists ret1 s1 h1 ds1 ret2 s2 h2 ds2, room_left s1 -> room_left s2 ->
    ret1 = ContentDirectory /\ ret2 = ContentDirectory /\
    exists n, forall sched, (n <= turns true sched)%nat -> (n <= turns false sched)%nat ->
    exists f1 f2 o', interleave sched (extraction (with_dfuel d x1), fds_of o) (extraction (with_dfuel d x2), fds_of o) o =
        ((PRet (ret1, Some (s1, h1, ds1)), f1), (PRet (ret2, Some (s2, h2, ds2)), f2), o') /\
      o_cwd o' = o_cwd o /\
      forall q, o_fs o' q = overlay t1 (dir_tree (o_umask o) es1) (overlay t2 (dir_tree (o_umask o) es2) (o_fs o)) q.
Proof. exact both_trees. Qed.
Print Assumptions C49_two_own_archives_partial.
Example C49_case : own_job (cx_job [x6f] (hx_arch hx_tree)) hx_tree (hx_arch hx_tree) [[x77]; [x6f]] (hx_os 1000) /\
  own_job (cx_job [x70] (hx_arch hx_tree)) hx_tree (hx_arch hx_tree) [[x77]; [x70]] (hx_os 1000) /\
  apart [[x77]; [x6f]] [[x77]; [x70]] /\ volume (preorder hx_tree) + volume (preorder hx_tree) + 2 <= o_free (hx_os 1000) /\
  both_ended (cx_run (flat_map (fun _ => [true; false]) (repeat tt 40)) (cx_job [x6f] (hx_arch hx_tree)) (cx_job [x70] (hx_arch hx_tree)) (hx_os 1000))
    (fun r1 r2 o' => (forall s h ds, snd r1 = Some (s, h, ds) -> room_left s) /\ (forall s h ds, snd r2 = Some (s, h, ds) -> room_left s) /\
       o_fs o' [[x77]; [x6f]; [x64]; [x61;x62;x63]] = Some (IFile 420 [x31;x32;x33]) /\
       o_fs o' [[x77]; [x70]; [x64]; [x61;x62;x63]] = Some (IFile 420 [x31;x32;x33])).
Proof. exact ex_c49. Qed.

(** C50: sessions are independent of each other, for every order of the calls and even if they share output buffers; and calls that
    are fine for each session alone are fine together. *)
Theorem C50_sessions_independent : forall z e fuel ms w evs,
  run_all e fuel (fun _ => @Empty z) ms = Ok (w, evs) ->
  forall i, exists s ev, run_alone e fuel (@Empty z) (calls_on i ms) = Ok (s, ev) /\
    map passed (shown_by i evs) = map passed ev.
Proof. exact sessions_independent. Qed.
Print Assumptions C50_sessions_independent.
Theorem C50_sessions_undisturbed : forall z e fuel ms,
  (forall i, exists r, run_alone e fuel (@Empty z) (calls_on i ms) = Ok r) ->
  exists r, run_all e fuel (fun _ => @Empty z) ms = Ok r.
Proof. exact sessions_undisturbed. Qed.
Print Assumptions C50_sessions_undisturbed.
Example C50_case : exists w evs, run_all LE 4000 (fun _ => @Empty rle_zlib) sx_moves = Ok (w, evs) /\
  shown_by 0 evs = [SCreated true; SDec EvFlBegin; SDec (EvFlRead [x61]); SRet 0; SDec (EvFlRead [x62;x63]); SRet 0] /\
  In (SDec (EvRead [x31;x32;x33])) (shown_by 1 evs) /\ shown_by 2 evs <> [].
Proof. exact ex_c50. Qed.
