(** CrashExamples.v: concrete cases for Crash.v. *)
From Verif Require Import Base Format Zlib RleZlib Compress Parser ParserProofs ParserFacts Decompress DecompressProofs MidProofs MidFacts
  DecompressExamples ArchiveSpec ArchiveFacts ArchiveDecode ArchiveEntry ArchiveProps ArchiveExamples FS FSFacts HL HLSpec HLFacts HLDrive HLProps HLExamples
  CutSpec CutFacts CutRun CutProps Unique CutExamples Crash.

(** The state after n system calls, and the first k bytes of the next one if it is a write. *)
Fixpoint kill {A} (n : nat) (k : N) (p : prog A) (o : os) : os :=
  match p with
  | PSys c f => match n with
                | O => match c with ScWrite fd d => snd (sys_write fd (takeN k d) o) | _ => o end
                | S n => kill n k (f (fst (sys c o))) (snd (sys c o))
                end
  | _ => o
  end.
Lemma kill_reach {A} n k : forall (p : prog A) o, reach p o (kill n k p o).
Proof.
  induction n as [|n IH]; intros p o; destruct p as [a| | |c f]; try apply rc_here; cbn [kill].
  - destruct c; try apply rc_here. rewrite <- (@takeN_dropN _ k d) at 1. apply rc_part.
  - apply rc_step, IH.
Qed.

Definition kx (T inp : bytes) := extract T hx_hal hx_stk rle_zlib LE ex_alloc 0 4000 4000 ax_al (zeros DEF_CHUNK_SIZE) ax_hjunk ex_pj inp false.
(** Killed in the write of the first file, and killed between two writes. *)
Lemma ex_c103 : exists o1 o2, archives_dir rle_zlib hx_tree (hx_arch hx_tree) /\ cut_input 0 (hx_arch hx_tree) (hx_arch hx_tree) /\
  calm rle_zlib hx_hal ax_al hx_stk (zeros DEF_CHUNK_SIZE) ax_hjunk ex_pj /\ Forall (fun x => quiet (snd x)) hx_tree /\ NoDup (map fst hx_tree) /\
  Forall (fun x => extractable false 18 1 (fst x) (snd x)) hx_tree /\ free_spot (hx_os 1000) [x6f] [[x77]; [x6f]] /\
  usable_dir false 18 MODE_BASE_DIR /\ (forall r, o_fs (hx_os 1000) ([[x77]; [x6f]] ++ r) = None) /\
  reach (kx [x6f] (hx_arch hx_tree)) (hx_os 1000) o1 /\ o_fs o1 [[x77]; [x6f]; [x64]; [x61;x62;x63]] = Some (IFile 420 [x31]) /\ o_fs o1 [[x77]; [x6f]; [x62]] = None /\
  reach (kx [x6f] (hx_arch hx_tree)) (hx_os 1000) o2 /\ o_fs o2 [[x77]; [x6f]; [x64]; [x61;x62;x63]] = Some (IFile 420 [x31;x32;x33]) /\
  o_fs o2 [[x77]; [x6f]; [x62]] = None.
Proof.
  pose (o1 := kill 3 1 (kx [x6f] (hx_arch hx_tree)) (hx_os 1000)). pose (o2 := kill 5 0 (kx [x6f] (hx_arch hx_tree)) (hx_os 1000)). exists o1, o2.
  split; [exact hx_archived|]. split; [generalize (hx_arch hx_tree); intro a; split; [exists []; now rewrite app_nil_r|left; reflexivity]|].
  split; [exact hx_calm|]. split; [exact hx_quiet|]. split; [exact hx_nodup|].
  split; [apply hx_extractable|]. split; [apply hx_spot|]. split; [exact hx_base|]. split; [apply hx_empty|].
  split; [apply kill_reach|]. split; [vm_compute; reflexivity|]. split; [vm_compute; reflexivity|]. split; [apply kill_reach|]. split; vm_compute; reflexivity.
Qed.
(** The file that was there is lost before the new one is complete. *)
Lemma ex_c103_file : exists o', archives_file rle_zlib [x61;x62] (hx_farch [x61;x62]) /\ writable_spot (hx_os 1000) [x2f;x66] [[x66]] 420 /\
  o_fs (hx_os 1000) [[x66]] = Some (IFile 420 [x6f;x6c;x64]) /\
  reach (kx [x2f;x66] (hx_farch [x61;x62])) (hx_os 1000) o' /\ o_fs o' [[x66]] = Some (IFile 420 [x61]).
Proof.
  pose (o1 := kill 1 1 (kx [x2f;x66] (hx_farch [x61;x62])) (hx_os 1000)). exists o1.
  split; [apply hx_farch_ok; vm_compute; reflexivity|].
  split; [split; [reflexivity|]; exists [], [x66]; split; [reflexivity|]; right; exists [x6f;x6c;x64]; split; vm_compute; reflexivity|].
  split; [reflexivity|]. split; [apply kill_reach|]. vm_compute. reflexivity.
Qed.
