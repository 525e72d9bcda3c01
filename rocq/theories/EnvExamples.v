(** EnvExamples.v: concrete executions for C138. *)
From Verif Require Import Base Format Zlib RleZlib LLCompress Compress Parser ParserProofs ParserFacts Decompress DecompressProofs
  DecompressFacts MidProofs MidFacts DecompressExamples ArchiveSpec ArchiveFacts ArchiveDecode ArchiveEntry ArchiveProps ArchiveExamples
  FS FSFacts HL HLSpec HLFacts HLDrive HLProps HLSafe MkdirFacts HLTame HLMkdir HLMore HLExamples Conc ConcFacts ConcTame Sessions SessionsFacts
  ConcExamples Env EnvFacts.

Definition nx_job : job rle_zlib := cx_job [x6f] (hx_arch hx_tree).

(** Another process replaces one inode. *)
Definition puts (p : path) (i : inode) (o : os) : os := OS (FS.upd (o_fs o) p i) (o_free o) (o_cwd o) (o_umask o) (o_priv o) (o_fds o) (o_next o).

Lemma puts_elsewhere u n p i o : strip u p <> None -> elsewhere u n o (puts p i o).
Proof.
  intro H. unfold elsewhere, puts. cbn [o_free o_cwd o_umask o_priv o_fds o_next o_fs].
  split; [apply N.le_min_r|]. repeat (split; [reflexivity|]). intros q Hq. apply upd_other. intros ->. contradiction.
Qed.

(** It does so after [k] system calls. *)
Definition nx_run (k : nat) (p : path) (i : inode) : outcome ((N * option (dsess rle_zlib * hst * bytes)) * os) :=
  let '(q, o) := after k (extraction nx_job) (hx_os 1000) in exec q (puts p i o).
Definition ntest (x : outcome ((N * option (dsess rle_zlib * hst * bytes)) * os)) (P : N -> os -> bool) : bool :=
  match x with Ok ((ret, Some (s, _, _)), o') => (0 <? z_aout (d_zs s)) && P ret o' | _ => false end.

Lemma nx_run_of u n k p i P : strip u p <> None -> ntest (nx_run k p i) P = true ->
  exists ret s h ds o' w, disturbed u n (extraction nx_job) (hx_os 1000) (hx_os 1000) (ret, Some (s, h, ds)) o' w /\ room_left s /\ P ret o' = true.
Proof.
  unfold nx_run, ntest. intros Hu H. pose proof (fun w => @after_disturbed _ u n k (extraction nx_job) (hx_os 1000) w (puts p i (snd (after k (extraction nx_job) (hx_os 1000))))) as D.
  destruct (after k (extraction nx_job) (hx_os 1000)) as [q o]. cbn [fst snd] in D.
  destruct (exec q (puts p i o)) as [[[ret [[[s h] ds]|]] o']| |]; try discriminate. apply andb_prop in H. destruct H as [H1 H2].
  exists ret, s, h, ds, o', (puts p i o). split; [apply D; [now apply puts_elsewhere|reflexivity]|]. split; [now apply N.ltb_lt|exact H2].
Qed.

(** While the example tree is extracted to o, another process creates the symbolic link o/d/abc with the target /f. *)
Lemma ex_c138_attack : own_job nx_job hx_tree (hx_arch hx_tree) [[x77]; [x6f]] (hx_os 1000) /\
  o_fs (hx_os 1000) [[x66]] = Some (IFile 420 [x6f;x6c;x64]) /\
  exists ret s h ds o' w, disturbed [[x77]; [x6f]] 1000 (extraction nx_job) (hx_os 1000) (hx_os 1000) (ret, Some (s, h, ds)) o' w /\ room_left s /\
    ret = ContentDirectory /\ o_fs o' [[x66]] = Some (IFile 420 [x31;x32;x33]).
Proof.
  split; [apply cx_own; auto|]. split; [reflexivity|].
  destruct (nx_run_of [[x77]; [x6f]] 1000 2 [[x77]; [x6f]; [x64]; [x61;x62;x63]] (ILink [x2f;x66])
    (fun ret o' => (ret =? ContentDirectory) && at_eqb o' [[x66]] (Some (IFile 420 [x31;x32;x33])))) as (ret & s & h & ds & o' & w & D & R & H).
  { discriminate. }
  { vm_compute. reflexivity. }
  apply andb_prop in H. destruct H as [H1 H2]. exists ret, s, h, ds, o', w. split; [exact D|]. split; [exact R|].
  split; [now apply N.eqb_eq|now apply at_eqb_ok].
Qed.

(** Another process changes /f meanwhile. *)
Lemma ex_c138 : own_job nx_job hx_tree (hx_arch hx_tree) [[x77]; [x6f]] (without [[x66]] (hx_os 1000)) /\
  apart [[x77]; [x6f]] [[x66]] /\ volume (preorder hx_tree) + 1 <= 100 /\ 100 <= o_free (hx_os 1000) /\
  exists ret s h ds o' w, disturbed [[x66]] 100 (extraction nx_job) (hx_os 1000) (hx_os 1000) (ret, Some (s, h, ds)) o' w /\ room_left s /\
    ret = ContentDirectory /\ o_fs o' [[x66]] = Some (IFile 420 [x6e;x65;x77]) /\
    o_fs o' [[x77]; [x6f]; [x64]; [x61;x62;x63]] = Some (IFile 420 [x31;x32;x33]).
Proof.
  split.
  { split; [exact hx_calm|]. split; [exact hx_archived|]. split; [left; auto|].
    split; [apply Nat.ltb_lt; vm_compute; reflexivity|]. split; [reflexivity|]. split; [discriminate|].
    split; [exact hx_quiet|]. split; [exact hx_nodup|]. split; [apply hx_extractable|].
    split. { split; [intros [H|[]]; discriminate|]. exists [[x77]], [x6f]. split; [reflexivity|]. split; vm_compute; reflexivity. }
    split; [reflexivity|]. split; [exact hx_base|]. intro r. reflexivity. }
  split; [split; reflexivity|]. split; [vm_compute; discriminate|]. split; [vm_compute; discriminate|].
  destruct (nx_run_of [[x66]] 100 3 [[x66]] (IFile 420 [x6e;x65;x77])
    (fun ret o' => (ret =? ContentDirectory) && (at_eqb o' [[x66]] (Some (IFile 420 [x6e;x65;x77])) &&
      at_eqb o' [[x77]; [x6f]; [x64]; [x61;x62;x63]] (Some (IFile 420 [x31;x32;x33]))))) as (ret & s & h & ds & o' & w & D & R & H).
  { discriminate. }
  { vm_compute. reflexivity. }
  apply andb_prop in H. destruct H as [H1 H]. apply andb_prop in H. destruct H as [H2 H3]. exists ret, s, h, ds, o', w. split; [exact D|]. split; [exact R|].
  split; [now apply N.eqb_eq|]. split; now apply at_eqb_ok.
Qed.
