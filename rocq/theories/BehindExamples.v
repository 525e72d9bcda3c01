(** BehindExamples.v: concrete cases for BehindFacts.v. *)
From Verif Require Import Base Format Zlib RleZlib LLCompress Compress Parser ParserProofs ParserFacts Decompress DecompressProofs MidProofs MidFacts
  DecompressExamples ArchiveSpec ArchiveFacts ArchiveDecode ArchiveEntry ArchiveProps ArchiveExamples FS FSFacts HL HLSpec HLFacts HLDrive HLProps HLSafe MkdirFacts
  HLTame HLMore HLExamples.

(** A file a; behind its archive, what the library writes for a second file c. *)
Definition bh_one : list (bytes * snode) := [([x61], SFile true true 33188 1 [x31] false)].
Definition bh_two : list (bytes * snode) := bh_one ++ [([x63], SFile true true 33188 1 [x32] false)].
Definition bh_more : bytes := dropN (lenN (hx_arch bh_one)) (hx_arch bh_two).

Lemma bh_archived : archives_dir rle_zlib bh_one (hx_arch bh_one).
Proof. apply hx_arch_ok; [unfold tree_fits, listing, bh_one; fits_case|vm_compute; reflexivity]. Qed.
Lemma ex_c152_refuted : exists es F G ret1 o1 ret2 o2, archives_dir rle_zlib es F /\ free_spot (hx_os 1000) [x6f] [[x77]; [x6f]] /\
  did_all (hx_extract [x6f] 0 F (hx_os 1000)) ret1 o1 /\ did_all (hx_extract [x6f] 0 (F ++ G) (hx_os 1000)) ret2 o2 /\
  ret1 = ContentDirectory /\ ret2 = ContentDirectory /\
  o_fs o1 [[x77]; [x6f]; [x61]] = Some (IFile 420 [x31]) /\ o_fs o1 [[x77]; [x6f]; [x63]] = None /\ o_fs o2 [[x77]; [x6f]; [x63]] = Some (IFile 420 [x32]).
Proof.
  exists bh_one, (hx_arch bh_one), bh_more.
  destruct (did_all_of (hx_extract [x6f] 0 (hx_arch bh_one) (hx_os 1000)) (fun ret o' => (ret =? ContentDirectory) &&
    (at_eqb o' [[x77]; [x6f]; [x61]] (Some (IFile 420 [x31])) && at_eqb o' [[x77]; [x6f]; [x63]] None))) as (ret1 & o1 & D1 & H1); [vm_compute; reflexivity|].
  destruct (did_all_of (hx_extract [x6f] 0 (hx_arch bh_one ++ bh_more) (hx_os 1000)) (fun ret o' => (ret =? ContentDirectory) &&
    at_eqb o' [[x77]; [x6f]; [x63]] (Some (IFile 420 [x32])))) as (ret2 & o2 & D2 & H2); [vm_compute; reflexivity|].
  apply andb_prop in H1. destruct H1 as [A1 H1]. apply andb_prop in H1. destruct H1 as [B1 C1]. apply andb_prop in H2. destruct H2 as [A2 B2].
  exists ret1, o1, ret2, o2. split; [exact bh_archived|]. split; [apply hx_spot|]. split; [exact D1|]. split; [exact D2|].
  split; [now apply N.eqb_eq|]. split; [now apply N.eqb_eq|]. split; [now apply at_eqb_ok|]. split; now apply at_eqb_ok.
Qed.
(** With the size, the same bytes have no influence. *)
Lemma ex_c152 : hx_arch bh_one <> [] /\ bh_more <> [] /\ exists ret o', did_all (hx_extract [x6f] (lenN (hx_arch bh_one)) (hx_arch bh_one ++ bh_more) (hx_os 1000)) ret o' /\
  ret = ContentDirectory /\ o_fs o' [[x77]; [x6f]; [x61]] = Some (IFile 420 [x31]) /\ o_fs o' [[x77]; [x6f]; [x63]] = None.
Proof.
  split; [intro Q; apply (f_equal (@length _)) in Q; vm_compute in Q; discriminate Q|].
  split; [intro Q; apply (f_equal (@length _)) in Q; vm_compute in Q; discriminate Q|].
  destruct (did_all_of (hx_extract [x6f] (lenN (hx_arch bh_one)) (hx_arch bh_one ++ bh_more) (hx_os 1000)) (fun ret o' => (ret =? ContentDirectory) &&
    (at_eqb o' [[x77]; [x6f]; [x61]] (Some (IFile 420 [x31])) && at_eqb o' [[x77]; [x6f]; [x63]] None))) as (ret1 & o1 & D1 & H1); [vm_compute; reflexivity|].
  apply andb_prop in H1. destruct H1 as [A1 H1]. apply andb_prop in H1. destruct H1 as [B1 C1].
  exists ret1, o1. split; [exact D1|]. split; [now apply N.eqb_eq|]. split; now apply at_eqb_ok.
Qed.
