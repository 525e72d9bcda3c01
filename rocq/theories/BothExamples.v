(** BothExamples.v: concrete extractions of one archive on Unix and on Windows (C147). *)
From Coq Require Import Lia.
From Verif Require Import Base Format Zlib RleZlib LLCompress Compress Parser ParserProofs ParserFacts Decompress DecompressProofs
  DecompressFacts MidProofs MidFacts DecompressExamples ArchiveSpec ArchiveFacts ArchiveDecode ArchiveEntry ArchiveProps ArchiveExamples
  FS FSFacts HL HLSpec HLFacts HLDrive HLProps HLSafe MkdirFacts HLTame HLMkdir HLMore HLExamples WinTools WinExtract WinExtractSpec WinExtractFacts
  WinExtractTame WinExtractExamples BothFacts.

(** Files a ("123") and A ("2"): Windows has one file. *)
Lemma ex_c147_refuted : exists ret o' wret w', archives_dir rle_zlib wx_two (hx_arch wx_two) /\
  calm rle_zlib hx_hal ax_al hx_stk (zeros DEF_CHUNK_SIZE) ax_hjunk ex_pj /\
  free_spot (hx_os 1000) [x6f] [[x77]; [x6f]] /\ wfree 248 wx_w [x6f] [[x77]; [x6f]] /\
  did_all (hx_extract [x6f] 0 (hx_arch wx_two) (hx_os 1000)) ret o' /\ wdid_all (wx_extract [x6f] (hx_arch wx_two) wx_w) wret w' /\
  ret = ContentDirectory /\ wret = Some ContentDirectory /\ ~ same_tree (o_fs o') [[x77]; [x6f]] (w_fs w') [[x77]; [x6f]].
Proof.
  destruct ex_c124_refuted as (wret & w' & A & Ca & _ & _ & Wf & Wd & -> & Wc).
  destruct (did_all_of (hx_extract [x6f] 0 (hx_arch wx_two) (hx_os 1000)) (fun ret o' =>
    (ret =? ContentDirectory) && at_eqb o' [[x77]; [x6f]; [x61]] (Some (IFile 420 [x31;x32;x33]))))
    as (ret & o' & D & H); [vm_compute; reflexivity|].
  apply andb_prop in H. destruct H as [H1 H2]. apply N.eqb_eq in H1. apply at_eqb_ok in H2.
  exists ret, o', (Some ContentDirectory), w'. split; [exact A|]. split; [exact Ca|]. split; [apply hx_spot|]. split; [exact Wf|]. split; [exact D|].
  split; [exact Wd|]. split; [exact H1|]. split; [reflexivity|]. intros [S _].
  destruct (S [[x61]] _ H2) as (x & Hx & Al). change (map fold_case [[x61]]) with [[x61]] in Hx. cbn [app] in Hx. rewrite Wc in Hx. injection Hx as <-.
  destruct Al as [Q _]. discriminate Q.
Qed.

(** A directory D with a read-only file b.TXT. *)
Definition bo_tree : list (bytes * snode) := [([x44], SDir 493 [([x62;x2e;x54;x58;x54], SFile true true 292 1 [x31] false)])].
Lemma ex_c147 : exists ret o' wret w', archives_dir rle_zlib bo_tree (hx_arch bo_tree) /\ (length (hx_arch bo_tree) < 4000)%nat /\
  calm rle_zlib hx_hal ax_al hx_stk (zeros DEF_CHUNK_SIZE) ax_hjunk ex_pj /\ preorder bo_tree <> [] /\ Forall (fun x => quiet (snd x)) bo_tree /\
  Forall (fun x => extractable false 18 1 (fst x) (snd x)) bo_tree /\ free_spot (hx_os 1000) [x6f] [[x77]; [x6f]] /\
  usable_dir false 18 MODE_BASE_DIR /\ (forall r, o_fs (hx_os 1000) ([[x77]; [x6f]] ++ r) = None) /\ volume (preorder bo_tree) = 1 /\ N.testbit 18 7 = false /\
  NoDup (map (fun x => fold_case (fst x)) bo_tree) /\ Forall (fun x => wextractable 248 260 1 (fst x) (snd x)) bo_tree /\ wfree 248 wx_w [x6f] [[x77]; [x6f]] /\
  did_all (hx_extract [x6f] 0 (hx_arch bo_tree) (hx_os 1000)) ret o' /\ wdid_all (wx_extract [x6f] (hx_arch bo_tree) wx_w) wret w' /\
  o_fs o' [[x77]; [x6f]; [x44]; [x62;x2e;x54;x58;x54]] = Some (IFile 292 [x31]) /\
  w_fs w' [[x77]; [x6f]; [x64]; [x62;x2e;x74;x78;x74]] = Some (XFile true [x31]).
Proof.
  destruct (did_all_of (hx_extract [x6f] 0 (hx_arch bo_tree) (hx_os 1000)) (fun ret o' =>
    at_eqb o' [[x77]; [x6f]; [x44]; [x62;x2e;x54;x58;x54]] (Some (IFile 292 [x31])))) as (ret & o' & D & H); [vm_compute; reflexivity|].
  destruct (wdid_all_of (wx_extract [x6f] (hx_arch bo_tree) wx_w) (fun ret w' =>
    xat w' [[x77]; [x6f]; [x64]; [x62;x2e;x74;x78;x74]] (Some (XFile true [x31])))) as (wret & w' & Wd & K); [vm_compute; reflexivity|].
  apply at_eqb_ok in H. apply xat_ok in K. exists ret, o', wret, w'.
  split; [apply hx_arch_ok; [unfold tree_fits, listing, bo_tree; fits_case|vm_compute; reflexivity]|]. split; [apply Nat.ltb_lt; vm_compute; reflexivity|].
  split; [exact hx_calm|]. split; [discriminate|].
  split. { unfold bo_tree. repeat apply Forall_cons; cbn [snd]; [|apply Forall_nil]. apply q_dir. repeat apply Forall_cons; [|apply Forall_nil]. apply (q_file 292 [x31]). }
  split. { unfold bo_tree. repeat apply Forall_cons; cbn [fst snd]; [|apply Forall_nil]. apply xt_dir; [plain_case|reflexivity|split; reflexivity|cbn [map fst]; nodup_case|].
    repeat apply Forall_cons; cbn [fst snd]; [|apply Forall_nil]. apply xt_file; [plain_case|reflexivity]. }
  split; [apply hx_spot|]. split; [exact hx_base|]. split; [apply hx_empty|]. split; [reflexivity|]. split; [reflexivity|].
  split; [cbn [bo_tree map fst]; nodup_case|].
  split. { unfold bo_tree. repeat apply Forall_cons; cbn [fst snd]; [|apply Forall_nil]. apply wx_dir; [reflexivity|reflexivity|cbn [map fst]; nodup_case|].
    repeat apply Forall_cons; cbn [fst snd]; [|apply Forall_nil]. apply wx_file; reflexivity. }
  split; [exact wx_free|]. split; [exact D|]. split; [exact Wd|]. split; [exact H|exact K].
Qed.
