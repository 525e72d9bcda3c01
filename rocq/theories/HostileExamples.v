(** HostileExamples.v: concrete cases of C128 and C129. *)
From Coq Require Import Lia.
From Verif Require Import Base Format Zlib RleZlib Compress Parser ParserProofs Decompress DecompressProofs MidProofs MidFacts ArchiveSpec ArchiveFacts ArchiveDecode FS FSFacts HL HLSpec HLFacts HLDrive
  HLProps HLTame HLMore DecompressExamples ArchiveExamples HLExamples MkdirMore Hostile WinTools WinExtract WinExtractSpec WinExtractFacts WinExtractExamples HostileWin.

(** A directory ..; in it a file x of one byte; the directory is left; a file x/y of no bytes. *)
Definition ho_c : bytes := rx_dir [x2e;x2e] 511 ++ rx_file [x78] [x31] 420 ++ rx_end ++ rx_file [x78;x2f;x79] [] 420.
Definition ho_recs : list arec := [ADir [x2e;x2e] 511; AFile [x78] 420 1 [x31]; AEnd; AFile [x78;x2f;x79] 420 0 []].
(** A directory of the name a NUL b; in it a directory c; both are left. *)
Definition ho_nul : bytes := rx_dir [x61;x00;x62] 511 ++ rx_dir [x63] 511 ++ rx_end ++ rx_end.
Definition ho_nul_recs : list arec := [ADir [x61;x00;x62] 511; ADir [x63] 511; AEnd; AEnd].

Lemma ho_arch : dir_archive rle_contract (rx_arch ho_c) ho_recs.
Proof.
  split; [vm_compute; reflexivity|]. split; [vm_compute; reflexivity|]. split; [split; [vm_compute; discriminate|vm_compute; auto]|]. split.
  - replace (dropN 128 (zc_dec rle_contract (rx_arch ho_c))) with (dir_item LE (lenN [x2e;x2e]) 511 ex_j ++ padded [x2e;x2e] ++
      file_item LE (lenN [x78]) 420 1 ex_j ++ padded [x78] ++ [x31] ++ zeros (norm_len64 1 - 1) ++ dir_end_item LE 0 0 ex_j ++
      file_item LE (lenN [x78;x2f;x79]) 420 0 ex_j ++ padded [x78;x2f;x79] ++ [] ++ zeros (norm_len64 0 - 0) ++ []) by (vm_compute; reflexivity).
    repeat (first [apply en_dir|apply en_file|apply en_end|apply en_nil]; try reflexivity).
  - repeat (apply Forall_cons; [vm_compute; auto|]). apply Forall_nil.
Qed.
Lemma ho_end_arch : dir_archive rle_contract (rx_arch rx_end) [AEnd].
Proof.
  split; [vm_compute; reflexivity|]. split; [vm_compute; reflexivity|]. split; [split; [vm_compute; discriminate|vm_compute; auto]|]. split.
  - replace (dropN 128 (zc_dec rle_contract (rx_arch rx_end))) with (dir_end_item LE 0 0 ex_j ++ []) by (vm_compute; reflexivity).
    repeat (first [apply en_dir|apply en_file|apply en_end|apply en_nil]; try reflexivity).
  - repeat (apply Forall_cons; [vm_compute; auto|]). apply Forall_nil.
Qed.
Lemma ho_nul_arch : dir_archive rle_contract (rx_arch ho_nul) ho_nul_recs.
Proof.
  split; [vm_compute; reflexivity|]. split; [vm_compute; reflexivity|]. split; [split; [vm_compute; discriminate|vm_compute; auto]|]. split.
  - replace (dropN 128 (zc_dec rle_contract (rx_arch ho_nul))) with (dir_item LE (lenN [x61;x00;x62]) 511 ex_j ++ padded [x61;x00;x62] ++
      dir_item LE (lenN [x63]) 511 ex_j ++ padded [x63] ++ dir_end_item LE 0 0 ex_j ++ dir_end_item LE 0 0 ex_j ++ []) by (vm_compute; reflexivity).
    repeat (first [apply en_dir|apply en_file|apply en_end|apply en_nil]; try reflexivity).
  - repeat (apply Forall_cons; [vm_compute; auto|]). apply Forall_nil.
Qed.

Ltac not_in := let H := fresh in intro H; cbn [In] in H; repeat (destruct H as [H|H]; [discriminate H|]); destruct H.
Lemma ho_no_links : no_links ho_recs.
Proof. repeat (apply Forall_cons; [exact I|]). apply Forall_nil. Qed.
Lemma ho_sound T : ~ In x00 T -> lenN T <= 1000 -> sound_recs hx_stk T ho_recs.
Proof.
  intros Nz L. assert (K : hx_stk = 8388608 \/ 2000 < hx_stk) by (vm_compute; auto). assert (2000 < hx_stk) by (destruct K; lia). clear K.
  cbn [sound_recs ho_recs]. split; [rewrite lenN_app, !lenN_cons, lenN_nil; lia|]. exists T. split.
  - exists [x2e;x2e], []. split; [reflexivity|]. split; [exact Nz|]. split; [not_in|]. split; [not_in|now left].
  - split; [rewrite !lenN_cons, lenN_nil; lia|exact I].
Qed.
Lemma ho_end_unsound : ~ sound_recs hx_stk [x6f] [AEnd].
Proof.
  intros (Q & (n & r & E & _ & _ & _ & _) & _). destruct Q as [|a [|b Q]]; discriminate.
Qed.
Lemma ex_c128_end : dir_archive rle_contract (rx_arch rx_end) [AEnd] /\ hx_extract [x6f] 0 (rx_arch rx_end) (hx_os 1000) = UB.
Proof. split; [exact ho_end_arch|vm_compute; reflexivity]. Qed.
Lemma ex_c128_nul : dir_archive rle_contract (rx_arch ho_nul) ho_nul_recs /\ hx_extract [x6f] 0 (rx_arch ho_nul) (hx_os 1000) = UB.
Proof. split; [exact ho_nul_arch|vm_compute; reflexivity]. Qed.
Lemma ho_nul_unsound : ~ sound_recs hx_stk [x6f] ho_nul_recs.
Proof.
  cbn [sound_recs ho_nul_recs app]. intros (Q & (n & r & E & Nq & Nn & Ns & R) & Q' & (n' & r' & E' & _) & _).
  assert (Q = [x6f]).
  { destruct Q as [|a [|b [|c [|d Q]]]]; cbn [app] in E; [discriminate| |discriminate|discriminate|].
    - injection E as <- _. reflexivity.
    - injection E as <- <- <- <- E. destruct Nq. cbn [In]. auto. }
  subst Q. destruct Q' as [|a [|b Q']]; discriminate.
Qed.
Lemma ex_c128 : archive_of ContentDirectory (zc_dec rle_contract (first_bytes 0 (rx_arch ho_c))) /\
  lists_sound (z := rle_zlib) LE ex_alloc [x2f;x77] hx_stk (first_bytes 0 (rx_arch ho_c)) /\
  calm rle_zlib hx_hal ax_al hx_stk (zeros DEF_CHUNK_SIZE) ax_hjunk ex_pj.
Proof.
  split; [apply ho_arch|]. split; [|exact hx_calm].
  change (first_bytes 0 (rx_arch ho_c)) with (rx_arch ho_c).
  eapply recs_sound; [reflexivity|exact ho_arch|exact ho_no_links|apply ho_sound; [not_in|vm_compute; discriminate]|apply ho_sound; [intros []|vm_compute; discriminate]].
Qed.
Lemma ex_c128_unsound : lists_unsound (z := rle_zlib) LE ex_alloc [x6f] hx_stk (first_bytes 0 (rx_arch rx_end)) /\
  lists_unsound (z := rle_zlib) LE ex_alloc [x6f] hx_stk (first_bytes 0 (rx_arch ho_nul)).
Proof.
  change (first_bytes 0 (rx_arch rx_end)) with (rx_arch rx_end). change (first_bytes 0 (rx_arch ho_nul)) with (rx_arch ho_nul).
  split; eapply recs_unsound; [reflexivity|exact ho_end_arch|exact ho_end_unsound|reflexivity|exact ho_nul_arch|exact ho_nul_unsound].
Qed.
Lemma ex_c128_recs : dir_archive rle_contract (first_bytes 0 (rx_arch ho_c)) ho_recs /\ no_links ho_recs /\
  sound_recs hx_stk [x2f;x77] ho_recs /\ sound_recs hx_stk [] ho_recs /\
  dir_archive rle_contract (first_bytes 0 (rx_arch ho_nul)) ho_nul_recs /\ ~ sound_recs hx_stk [x6f] ho_nul_recs.
Proof.
  split; [exact ho_arch|]. split; [exact ho_no_links|]. split; [apply ho_sound; [not_in|vm_compute; discriminate]|].
  split; [apply ho_sound; [intros []|vm_compute; discriminate]|]. split; [exact ho_nul_arch|exact ho_nul_unsound].
Qed.
Lemma ex_c128_own : archives_dir rle_zlib hx_tree (hx_arch hx_tree) /\ prefix (first_bytes 100 (hx_arch hx_tree)) (hx_arch hx_tree) /\
  Forall (fun x => quiet (snd x)) hx_tree /\ Forall (fun x => extractable false 18 (lenN [x2e]) (fst x) (snd x)) hx_tree /\ exists_at (hx_os 1000) [x2e].
Proof.
  split; [exact hx_archived|]. split; [exists (dropN 100 (hx_arch hx_tree)); symmetry; apply takeN_dropN|]. split; [exact hx_quiet|].
  split; [exact (hx_extractable false)|]. split; [not_in|vm_compute; exact I].
Qed.
Lemma ex_c129 : wx_extract [x6f] (rx_arch rx_end) wx_w = UB /\ wx_extract [x6f] (rx_arch ho_nul) wx_w = UB /\ w_dead wx_w = false.
Proof. split; [vm_compute; reflexivity|]. split; vm_compute; reflexivity. Qed.
