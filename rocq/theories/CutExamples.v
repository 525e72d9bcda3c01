(** CutExamples.v: concrete cases for CutProps.v. *)
From Verif Require Import Base Format Zlib RleZlib Compress Parser ParserProofs ParserFacts Decompress DecompressProofs MidProofs MidFacts
  DecompressExamples ArchiveSpec ArchiveFacts ArchiveDecode ArchiveEntry ArchiveProps ArchiveExamples FS FSFacts HL HLSpec HLFacts HLDrive HLProps HLExamples
  CutSpec CutFacts CutRun CutProps Unique.

Definition cx_in (n : N) : bytes := takeN n (hx_arch hx_tree).
Lemma cx_cut n : cut_input (lenN (hx_arch hx_tree)) (hx_arch hx_tree) (cx_in n).
Proof.
  unfold cx_in. generalize (hx_arch hx_tree). intro a. split; [exists (dropN n a); symmetry; apply takeN_dropN|right; reflexivity].
Qed.
Lemma cx_len : lenN (hx_arch hx_tree) = 168.
Proof. vm_compute. reflexivity. Qed.
Lemma cx_layout : layout 18 [] hx_tree =
  [([[x64]], IDir 493); ([[x64]; [x61;x62;x63]], IFile 420 [x31;x32;x33]); ([[x64]; [x65]], IDir 448); ([[x62]], IFile 493 [x7a])].
Proof. vm_compute. reflexivity. Qed.

Lemma ex_c99 : exists ret o', archives_dir rle_zlib hx_tree (hx_arch hx_tree) /\ cut_input 168 (hx_arch hx_tree) (cx_in 69) /\
  (length (cx_in 69) < 4000)%nat /\ calm rle_zlib hx_hal ax_al hx_stk (zeros DEF_CHUNK_SIZE) ax_hjunk ex_pj /\
  Forall (fun x => quiet (snd x)) hx_tree /\ NoDup (map fst hx_tree) /\
  Forall (fun x => extractable false 18 1 (fst x) (snd x)) hx_tree /\ free_spot (hx_os 1000) [x6f] [[x77]; [x6f]] /\
  usable_dir false 18 MODE_BASE_DIR /\ (forall r, o_fs (hx_os 1000) ([[x77]; [x6f]] ++ r) = None) /\
  layout 18 [] hx_tree =
    [([[x64]], IDir 493); ([[x64]; [x61;x62;x63]], IFile 420 [x31;x32;x33]); ([[x64]; [x65]], IDir 448); ([[x62]], IFile 493 [x7a])] /\
  did_all (hx_extract [x6f] 168 (cx_in 69) (hx_os 1000)) ret o' /\ ret = ContentDirectory /\
  o_fs o' [[x77]; [x6f]; [x64]] = Some (IDir 493) /\ o_fs o' [[x77]; [x6f]; [x64]; [x61;x62;x63]] = Some (IFile 420 [x31;x32]) /\
  o_fs o' [[x77]; [x6f]; [x62]] = None.
Proof.
  destruct (did_all_of (hx_extract [x6f] 168 (cx_in 69) (hx_os 1000)) (fun ret o' => (ret =? ContentDirectory) &&
    (at_eqb o' [[x77]; [x6f]; [x64]] (Some (IDir 493)) && (at_eqb o' [[x77]; [x6f]; [x64]; [x61;x62;x63]] (Some (IFile 420 [x31;x32])) &&
     at_eqb o' [[x77]; [x6f]; [x62]] None)))) as (ret & o' & D & H); [vm_compute; reflexivity|].
  apply andb_prop in H. destruct H as [H1 H]. apply andb_prop in H. destruct H as [H2 H]. apply andb_prop in H. destruct H as [H3 H4].
  exists ret, o'. split; [exact hx_archived|]. split; [rewrite <- cx_len; apply cx_cut|].
  split; [apply Nat.ltb_lt; vm_compute; reflexivity|]. split; [exact hx_calm|]. split; [exact hx_quiet|]. split; [exact hx_nodup|].
  split; [apply hx_extractable|]. split; [apply hx_spot|]. split; [exact hx_base|]. split; [apply hx_empty|]. split; [exact cx_layout|].
  split; [exact D|]. split; [now apply N.eqb_eq|]. split; [now apply at_eqb_ok|]. split; now apply at_eqb_ok.
Qed.

Lemma ex_c100 : exists ret o', archives_dir rle_zlib hx_tree (hx_arch hx_tree) /\ input_of 0 (hx_arch hx_tree) (hx_arch hx_tree) /\
  preorder hx_tree <> [] /\ free_spot (hx_os 2) [x6f] [[x77]; [x6f]] /\ (forall r, o_fs (hx_os 2) ([[x77]; [x6f]] ++ r) = None) /\
  fill 2 (layout 18 [] hx_tree) =
    [([[x64]], IDir 493); ([[x64]; [x61;x62;x63]], IFile 420 [x31;x32]); ([[x64]; [x65]], IDir 448); ([[x62]], IFile 493 [])] /\
  did_all (hx_extract [x6f] 0 (hx_arch hx_tree) (hx_os 2)) ret o' /\ ret = ContentDirectory /\
  o_fs o' [[x77]; [x6f]; [x64]; [x61;x62;x63]] = Some (IFile 420 [x31;x32]) /\ o_fs o' [[x77]; [x6f]; [x62]] = Some (IFile 493 []).
Proof.
  destruct (did_all_of (hx_extract [x6f] 0 (hx_arch hx_tree) (hx_os 2)) (fun ret o' => (ret =? ContentDirectory) &&
    (at_eqb o' [[x77]; [x6f]; [x64]; [x61;x62;x63]] (Some (IFile 420 [x31;x32])) && at_eqb o' [[x77]; [x6f]; [x62]] (Some (IFile 493 [])))))
    as (ret & o' & D & H); [vm_compute; reflexivity|].
  apply andb_prop in H. destruct H as [H1 H]. apply andb_prop in H. destruct H as [H3 H4].
  exists ret, o'. split; [exact hx_archived|]. split; [left; auto|]. split; [discriminate|]. split; [apply hx_spot|]. split; [apply hx_empty|].
  split; [rewrite cx_layout; reflexivity|]. split; [exact D|]. split; [now apply N.eqb_eq|]. split; now apply at_eqb_ok.
Qed.

(** The input file cannot be read further. *)
Definition cx_bad (archive : N) (inp : bytes) (o : os) :=
  exec (extract [x6f] hx_hal hx_stk rle_zlib LE ex_alloc archive 4000 4000 ax_al (zeros DEF_CHUNK_SIZE) ax_hjunk ex_pj inp true) o.
Lemma ex_c101 : exists ret o', did (cx_bad 168 (cx_in 69) (hx_os 1000)) ret o' /\ lenN (cx_in 69) < 168 /\ ret = ContentNone /\
  o_fs o' [[x77]; [x6f]] = None.
Proof.
  destruct (did_of (cx_bad 168 (cx_in 69) (hx_os 1000)) (fun ret o' => (ret =? ContentNone) && at_eqb o' [[x77]; [x6f]] None))
    as (ret & o' & D & H); [vm_compute; reflexivity|].
  apply andb_prop in H. destruct H as [H1 H2]. exists ret, o'. split; [exact D|]. split; [vm_compute; reflexivity|].
  split; [now apply N.eqb_eq|now apply at_eqb_ok].
Qed.

(** Two trees that differ in the order of their entries have different archives. *)
Definition cx_tree : list (bytes * snode) :=
  [([x62], SFile true true 493 1 [x7a] false); ([x64], SDir 493 [([x61;x62;x63], SFile true true 420 3 [x31;x32;x33] false); ([x65], SDir 448 [])]);
   ([x6c], SLink 511 2 (Some [x2f;x66]))].
Lemma cx_complete : Forall (fun x => complete (fst x) (snd x)) cx_tree.
Proof.
  unfold cx_tree. repeat apply Forall_cons; [| | |apply Forall_nil]; cbn [fst snd].
  - apply co_file. intros [H|H]; discriminate.
  - apply co_dir; [intros [H|H]; discriminate|]. repeat apply Forall_cons; [| |apply Forall_nil]; cbn [fst snd].
    + apply co_file. intros [H|H]; discriminate.
    + apply co_dir; [intros [H|H]; discriminate|apply Forall_nil].
  - apply co_link. intros [H|H]; discriminate.
Qed.
Lemma cx_quiet : Forall (fun x => quiet (snd x)) cx_tree.
Proof.
  unfold cx_tree. repeat apply Forall_cons; cbn [snd]; [| | |apply Forall_nil].
  - apply (q_file 493 [x7a]).
  - apply q_dir. repeat apply Forall_cons; [|apply q_dir, Forall_nil|apply Forall_nil]. apply (q_file 420 [x31;x32;x33]).
  - apply (q_link 511 [x2f;x66]).
Qed.
Lemma ex_c102 : archives_dir rle_zlib cx_tree (hx_arch cx_tree) /\ Forall (fun x => complete (fst x) (snd x)) cx_tree /\
  Forall (fun x => quiet (snd x)) cx_tree /\ archives_file rle_zlib [x61;x62] (hx_farch [x61;x62]).
Proof.
  split; [apply hx_arch_ok; [unfold tree_fits, listing, cx_tree; fits_case|vm_compute; reflexivity]|].
  split; [exact cx_complete|]. split; [exact cx_quiet|]. apply hx_farch_ok. vm_compute. reflexivity.
Qed.
