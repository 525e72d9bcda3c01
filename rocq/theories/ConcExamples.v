(** ConcExamples.v: concrete executions for C49 and C50. *)
From Verif Require Import Base Format Zlib RleZlib LLCompress Compress Parser ParserProofs ParserFacts Decompress DecompressProofs
  DecompressFacts MidProofs MidFacts DecompressExamples ArchiveSpec ArchiveFacts ArchiveDecode ArchiveEntry ArchiveProps ArchiveExamples
  FS FSFacts HL HLSpec HLFacts HLDrive HLProps HLSafe MkdirFacts HLTame HLMkdir HLMore HLExamples Conc ConcFacts ConcTame Sessions SessionsFacts.

(** ** C49 *)
Definition cx_job (T inp : bytes) : job rle_zlib :=
  Job rle_zlib T inp 0 LE ex_alloc hx_hal ax_al hx_stk (zeros DEF_CHUNK_SIZE) ax_hjunk ex_pj 4000 4000.
Definition cx_run (sched : list bool) (x1 x2 : job rle_zlib) (o : os) :=
  interleave sched (extraction x1, fds_of o) (extraction x2, fds_of o) o.

(** Both threads have ended, with these values and this file system. *)
Definition both_ended {A B} (x : thread A * thread B * os) (P : A -> B -> os -> Prop) : Prop :=
  exists r1 f1 r2 f2 o', x = ((PRet r1, f1), (PRet r2, f2), o') /\ P r1 r2 o'.
Definition btest {A B} (x : thread A * thread B * os) (P : A -> B -> os -> bool) : bool :=
  match x with ((PRet r1, _), (PRet r2, _), o') => P r1 r2 o' | _ => false end.
Lemma both_ended_of {A B} (x : thread A * thread B * os) P : btest x P = true -> both_ended x (fun r1 r2 o' => P r1 r2 o' = true).
Proof.
  destruct x as [[[p1 f1] [p2 f2]] o']. cbn. destruct p1, p2; try discriminate. intro H.
  do 5 eexists. split; [reflexivity|exact H].
Qed.
Lemma both_ended_mono {A B} (x : thread A * thread B * os) (P Q : A -> B -> os -> Prop) :
  (forall r1 r2 o', P r1 r2 o' -> Q r1 r2 o') -> both_ended x P -> both_ended x Q.
Proof. intros H (r1 & f1 & r2 & f2 & o' & E & K). exists r1, f1, r2, f2, o'. auto. Qed.

(** An archive of a directory d with a symbolic link l in it, and an archive of a file x. *)
Definition cx_link : bytes := rx_arch (rx_dir [x64] 493 ++ rx_link [x6c] [x74] ++ rx_end).
Definition cx_file : bytes := rx_arch (rx_file [x78] [x31] 420).

Lemma ex_c49_cwd :
  both_ended (cx_run (repeat true 20 ++ repeat false 20) (cx_job [x6f] cx_link) (cx_job [x70] cx_file) (hx_os 1000))
    (fun r1 r2 o' => o_fs o' [[x77]; [x70]; [x78]] = Some (IFile 420 [x31])) /\
  both_ended (cx_run (repeat true 4 ++ repeat false 20 ++ repeat true 20) (cx_job [x6f] cx_link) (cx_job [x70] cx_file) (hx_os 1000))
    (fun r1 r2 o' => o_fs o' [[x77]; [x70]] = None /\ o_fs o' [[x77]; [x6f]; [x64]; [x70]; [x78]] = Some (IFile 420 [x31])).
Proof.
  split.
  - eapply both_ended_mono; [|apply (both_ended_of _ (fun _ _ o' => at_eqb o' [[x77]; [x70]; [x78]] (Some (IFile 420 [x31])))); vm_compute; reflexivity].
    intros r1 r2 o' H. now apply at_eqb_ok.
  - eapply both_ended_mono; [|apply (both_ended_of _ (fun _ _ o' => at_eqb o' [[x77]; [x70]] None &&
      at_eqb o' [[x77]; [x6f]; [x64]; [x70]; [x78]] (Some (IFile 420 [x31])))); vm_compute; reflexivity].
    intros r1 r2 o' H. apply andb_prop in H. destruct H. split; now apply at_eqb_ok.
Qed.

(** The targets a/b/c and a/b/d; neither a nor a/b exist. *)
Definition cx_c : bytes := [x61;x2f;x62;x2f;x63].
Definition cx_d : bytes := [x61;x2f;x62;x2f;x64].
Lemma ex_c49_parents :
  both_ended (cx_run (repeat true 30 ++ repeat false 30) (cx_job cx_c cx_file) (cx_job cx_d cx_file) (hx_os 1000))
    (fun r1 r2 o' => fst r1 = ContentDirectory /\ o_fs o' [[x77]; [x61]; [x62]; [x63]; [x78]] = Some (IFile 420 [x31])) /\
  both_ended (cx_run (repeat true 3 ++ repeat false 30 ++ repeat true 30) (cx_job cx_c cx_file) (cx_job cx_d cx_file) (hx_os 1000))
    (fun r1 r2 o' => fst r1 = ContentNone /\ o_fs o' [[x77]; [x61]; [x62]; [x63]] = None /\ o_fs o' [[x78]] = Some (IFile 420 [x31])).
Proof.
  split.
  - eapply both_ended_mono; [|apply (both_ended_of _ (fun r1 _ o' => (fst r1 =? ContentDirectory) && at_eqb o' [[x77]; [x61]; [x62]; [x63]; [x78]] (Some (IFile 420 [x31]))));
      vm_compute; reflexivity].
    intros r1 r2 o' H. apply andb_prop in H. destruct H. split; [now apply N.eqb_eq|now apply at_eqb_ok].
  - eapply both_ended_mono; [|apply (both_ended_of _ (fun r1 _ o' => (fst r1 =? ContentNone) && (at_eqb o' [[x77]; [x61]; [x62]; [x63]] None &&
      at_eqb o' [[x78]] (Some (IFile 420 [x31]))))); vm_compute; reflexivity].
    intros r1 r2 o' H. apply andb_prop in H. destruct H as [H1 H]. apply andb_prop in H. destruct H.
    split; [now apply N.eqb_eq|]. split; now apply at_eqb_ok.
Qed.

(** The example tree extracted to o and to p. *)
Lemma cx_own T t : T = [x6f] /\ t = [[x77]; [x6f]] \/ T = [x70] /\ t = [[x77]; [x70]] ->
  own_job (cx_job T (hx_arch hx_tree)) hx_tree (hx_arch hx_tree) t (hx_os 1000).
Proof.
  intro H.
  assert (L : lenN T = 1) by (destruct H as [[-> _]|[-> _]]; reflexivity).
  split; [exact hx_calm|]. split; [exact hx_archived|]. split; [left; auto|].
  split; [apply Nat.ltb_lt; vm_compute; reflexivity|]. split; [reflexivity|]. split; [discriminate|].
  split; [exact hx_quiet|]. split; [exact hx_nodup|].
  split. { cbn [j_target cx_job]. rewrite L. apply hx_extractable. }
  destruct H as [[-> ->]|[-> ->]]; cbn [j_target cx_job].
  - split; [apply hx_spot|]. split; [reflexivity|]. split; [exact hx_base|]. intro r. reflexivity.
  - split. { split; [intros [H|[]]; discriminate|]. exists [[x77]], [x70]. split; [reflexivity|]. split; vm_compute; reflexivity. }
    split; [reflexivity|]. split; [exact hx_base|]. intro r. reflexivity.
Qed.
Lemma ex_c49 : own_job (cx_job [x6f] (hx_arch hx_tree)) hx_tree (hx_arch hx_tree) [[x77]; [x6f]] (hx_os 1000) /\
  own_job (cx_job [x70] (hx_arch hx_tree)) hx_tree (hx_arch hx_tree) [[x77]; [x70]] (hx_os 1000) /\
  apart [[x77]; [x6f]] [[x77]; [x70]] /\ volume (preorder hx_tree) + volume (preorder hx_tree) + 2 <= o_free (hx_os 1000) /\
  both_ended (cx_run (flat_map (fun _ => [true; false]) (repeat tt 40)) (cx_job [x6f] (hx_arch hx_tree)) (cx_job [x70] (hx_arch hx_tree)) (hx_os 1000))
    (fun r1 r2 o' => (forall s h ds, snd r1 = Some (s, h, ds) -> room_left s) /\ (forall s h ds, snd r2 = Some (s, h, ds) -> room_left s) /\
       o_fs o' [[x77]; [x6f]; [x64]; [x61;x62;x63]] = Some (IFile 420 [x31;x32;x33]) /\
       o_fs o' [[x77]; [x70]; [x64]; [x61;x62;x63]] = Some (IFile 420 [x31;x32;x33])).
Proof.
  split; [apply cx_own; auto|]. split; [apply cx_own; auto|]. split; [split; reflexivity|]. split; [vm_compute; discriminate|].
  eapply both_ended_mono; [|apply (both_ended_of _ (fun r1 r2 o' =>
     (match snd r1 with Some (s, _, _) => 0 <? z_aout (d_zs s) | None => true end) &&
     (match snd r2 with Some (s, _, _) => 0 <? z_aout (d_zs s) | None => true end) &&
     (at_eqb o' [[x77]; [x6f]; [x64]; [x61;x62;x63]] (Some (IFile 420 [x31;x32;x33])) &&
      at_eqb o' [[x77]; [x70]; [x64]; [x61;x62;x63]] (Some (IFile 420 [x31;x32;x33]))))); vm_compute; reflexivity].
  intros r1 r2 o' H. apply andb_prop in H. destruct H as [H H2]. apply andb_prop in H. destruct H as [H H1].
  apply andb_prop in H2. destruct H2 as [H2 H3].
  split. { intros s h ds E. rewrite E in H. now apply N.ltb_lt. }
  split. { intros s h ds E. rewrite E in H1. now apply N.ltb_lt. }
  split; now apply at_eqb_ok.
Qed.

(** ** C50 *)

(** Three sessions: two decompression sessions with one buffer, a compression session. *)
Definition sx_blob : bytes := ex_arch ContentBlob [x61;x62;x63].
Definition sx_moves : list move :=
  [Call 0 (NewMid ex_alloc true (Some (zeros 8)) 8 ax_hjunk ex_pj);
   Call 1 (NewMid ex_alloc true (Some (zeros 8)) 8 ax_hjunk ex_pj);
   Call 2 (NewComp true ContentBlob 6 7 false 8 (repeat x55 128));
   Call 0 (UseMid (DFeed Z_NO_FLUSH (takeN 258 sx_blob)));
   Scribble (fun _ => ([x78;x78;x78;x78;x78], [x79;x79;x79;x79;x79;x79;x79;x79]));
   Call 1 (UseMid (DFeed Z_NO_FLUSH (ex_arch ContentDirectory ex_tree)));
   Scribble (fun _ => ([x7a;x7a], []));
   Call 2 (UseComp (CWrite [x61]));
   Call 0 (UseMid (DFeed Z_NO_FLUSH (dropN 258 sx_blob)));
   Call 1 Destroy; Call 0 Destroy; Call 2 Destroy].

Lemma ok_shown (x : outcome ((N -> slot rle_zlib) * list (N * seen_ev))) (evs : list (N * seen_ev)) :
  match x with Ok (_, v) => Some v | _ => None end = Some evs -> exists w, x = Ok (w, evs).
Proof. destruct x as [[w v]| |]; try discriminate. intro H. injection H as ->. eauto. Qed.

Lemma ex_c50 : exists w evs, run_all LE 4000 (fun _ => @Empty rle_zlib) sx_moves = Ok (w, evs) /\
  shown_by 0 evs = [SCreated true; SDec EvFlBegin; SDec (EvFlRead [x61]); SRet 0; SDec (EvFlRead [x62;x63]); SRet 0] /\
  In (SDec (EvRead [x31;x32;x33])) (shown_by 1 evs) /\ shown_by 2 evs <> [].
Proof.
  let v := eval vm_compute in (match run_all LE 4000 (fun _ => @Empty rle_zlib) sx_moves with Ok (_, v) => v | _ => [] end) in
  destruct (ok_shown (run_all LE 4000 (fun _ => @Empty rle_zlib) sx_moves) v) as [w E]; [vm_compute; reflexivity|];
  exists w, v. split; [exact E|].
  split; [reflexivity|]. split; [|discriminate].
  cbn. intuition.
Qed.
