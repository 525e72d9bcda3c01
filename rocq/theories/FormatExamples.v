(** FormatExamples.v: concrete archives written out byte by byte. *)
From Verif Require Import Base Format Zlib RleZlib LLCompress Compress Parser ParserProofs ParserFacts Decompress DecompressProofs DecompressFacts MidProofs
  MidFacts DecompressExamples ArchiveSpec ArchiveFacts ArchiveDecode ArchiveEntry ArchiveProps ArchiveExamples FS FSFacts HL HLSpec HLFacts HLDrive HLProps
  HLMore HLExamples FormatSpec FormatFacts.

(** The directory d (mode 0755) with the file abc (mode 0644, contents "123") and the link l to xyz. *)
Definition fm_body : bytes :=
  [x11;x11;x11;x11;x11;x11;x11;x11; x11;x11;x11;x11;x11;x11;x11;x11; x01;x00;x00;x00; x08;x00;x00;x00; xed;x01;x00;x00; x01; x22;x22;x22; x22;x22;x22;x22;x22;x22;x22;x22;
   x64;x00;x00;x00;x00;x00;x00;x00;
   x03;x00;x00;x00;x00;x00;x00;x00; x08;x00;x00;x00;x00;x00;x00;x00; x03;x00;x00;x00; x08;x00;x00;x00; xa4;x01;x00;x00; x00; x33;x33;x33; x33;x33;x33;x33;x33;x33;x33;x33;
   x61;x62;x63;x00;x00;x00;x00;x00;
   x31;x32;x33;x00;x00;x00;x00;x00;
   x03;x00;x00;x00;x00;x00;x00;x00; x08;x00;x00;x00;x00;x00;x00;x00; x01;x00;x00;x00; x08;x00;x00;x00; xff;x01;x00;x00; x04; x33;x33;x33; x33;x33;x33;x33;x33;x33;x33;x33;
   x6c;x00;x00;x00;x00;x00;x00;x00;
   x78;x79;x7a;x00;x00;x00;x00;x00;
   x11;x11;x11;x11;x11;x11;x11;x11; x11;x11;x11;x11;x11;x11;x11;x11; x01;x00;x00;x00; x08;x00;x00;x00; xed;x01;x00;x00; x02; x22;x22;x22; x22;x22;x22;x22;x22;x22;x22;x22].
Definition fm_head (t : byte) : bytes := [x00;x00;x00;x00; t;x00;x00;x00] ++ repeat xee 120.
Definition fm_recs : list arec := [ADir [x64] 493; AFile [x61;x62;x63] 420 3 [x31;x32;x33]; ALink [x6c] 511 [x78;x79;x7a]; AEnd].

Lemma fm_laid : laid fm_recs fm_body.
Proof.
  assert (L4 : laid [AEnd] (dropN 160 fm_body)) by exact (laid_end 1 493 (repeat x11 16) (repeat x22 11) [] [] eq_refl eq_refl laid_nil).
  assert (L3 : laid [ALink [x6c] 511 [x78;x79;x7a]; AEnd] (dropN 104 fm_body)) by exact (laid_link [x6c] 511 [x78;x79;x7a] (repeat x33 11) _ _ eq_refl L4).
  assert (L2 : laid [AFile [x61;x62;x63] 420 3 [x31;x32;x33]; ALink [x6c] 511 [x78;x79;x7a]; AEnd] (dropN 48 fm_body))
    by exact (laid_file [x61;x62;x63] 420 [x31;x32;x33] (repeat x33 11) _ _ eq_refl L3).
  exact (laid_dir [x64] 493 (repeat x11 16) (repeat x22 11) _ _ eq_refl eq_refl L2).
Qed.
Lemma fm_fit : Forall rec_ok fm_recs.
Proof. repeat apply Forall_cons; try apply Forall_nil; repeat split. Qed.

(** The calls: the archive in two parts. *)
Definition fm_ops (p : bytes) : list dop := [DFeed Z_NO_FLUSH (takeN 333 (rle_pack p)); DFeed Z_NO_FLUSH (dropN 333 (rle_pack p))].

Lemma fm_ops_ok p : lenN (rle_pack p) < two32 -> Forall dop_ok (fm_ops p).
Proof.
  intro L. unfold fm_ops. apply Forall_cons; [|apply Forall_cons; [|constructor]]; (split; [unfold normal_flush, Z_NO_FLUSH; lia|]).
  - rewrite lenN_takeN. lia.
  - rewrite lenN_dropN. lia.
Qed.

(** The file b (mode 0755, contents "z"). *)
Definition fm_one : list (bytes * snode) := [([x62], SFile true true 493 1 [x7a] false)].
Definition fm_one_body (u : byte) : bytes :=
  [x01;x00;x00;x00;x00;x00;x00;x00; x08;x00;x00;x00;x00;x00;x00;x00; x01;x00;x00;x00; x08;x00;x00;x00; xed;x01;x00;x00; x00; u;u;u; u;u;u;u;u;u;u;u;
   x62;x00;x00;x00;x00;x00;x00;x00;
   x7a;x00;x00;x00;x00;x00;x00;x00].

Lemma ex_c116_written : archives_with rle_zlib [] fm_one (hx_xarch false [] fm_one) /\ Forall (fun x => quiet (snd x)) fm_one /\
  takeN 8 (zc_dec rle_contract (hx_xarch false [] fm_one)) = [x00;x00;x00;x00;x01;x00;x00;x00] /\
  dropN 128 (zc_dec rle_contract (hx_xarch false [] fm_one)) = fm_one_body x11 /\
  archives_file rle_zlib [x61;x62] (hx_farch [x61;x62]) /\
  takeN 8 (zc_dec rle_contract (hx_farch [x61;x62])) = [x00;x00;x00;x00;x02;x00;x00;x00] /\
  dropN 128 (zc_dec rle_contract (hx_farch [x61;x62])) = [x61;x62].
Proof.
  split; [apply hx_xarch_ok; [unfold tree_fits, listing, fm_one; fits_case|constructor|vm_compute; reflexivity]|].
  split; [apply Forall_cons; [apply (q_file 493 [x7a])|apply Forall_nil]|].
  split; [vm_compute; reflexivity|]. split; [vm_compute; reflexivity|]. split; [apply hx_farch_ok; vm_compute; reflexivity|].
  split; vm_compute; reflexivity.
Qed.

Lemma ex_c116_read : exists s, started rle_zlib ex_sess /\ Forall dop_ok (fm_ops (fm_head x01 ++ fm_body)) /\
  dir_layout fm_recs (zc_dec rle_contract (dfed (fm_ops (fm_head x01 ++ fm_body)))) /\ Forall rec_ok fm_recs /\
  zc_bad rle_contract (dfed (fm_ops (fm_head x01 ++ fm_body))) = false /\ zc_fin rle_contract (dfed (fm_ops (fm_head x01 ++ fm_body))) = false /\
  run_dops BE ex_alloc 90 ex_sess (fm_ops (fm_head x01 ++ fm_body)) = Ok ([0%Z; 0%Z], s,
    [EvDirBegin; EvEntry FtDir (Item 1229782938247303441 1229782938247303441 1 8 493 x01) [x64;x00;x00;x00;x00;x00;x00;x00];
     EvEntry FtFile (Item 3 8 3 8 420 x00) [x61;x62;x63;x00;x00;x00;x00;x00]; EvRead [x31;x32;x33]; EvFileEnd;
     EvEntry FtSymLink (Item 3 8 1 8 511 x04) [x6c;x00;x00;x00;x00;x00;x00;x00];
     EvSym [x78;x79;x7a] [x00;x00;x00;x00;x00;x11;x11;x11;x11;x11;x11]; EvDirEnd]) /\ room_left s.
Proof.
  assert (D : zc_dec rle_contract (dfed (fm_ops (fm_head x01 ++ fm_body))) = fm_head x01 ++ fm_body) by (vm_compute; reflexivity).
  eexists. split; [exact ex_started|]. split; [apply fm_ops_ok; vm_compute; reflexivity|].
  split; [rewrite D; exists (repeat xee 120), fm_body; split; [reflexivity|]; split; [reflexivity|exact fm_laid]|]. split; [exact fm_fit|].
  split; [vm_compute; reflexivity|]. split; [vm_compute; reflexivity|]. split; [vm_compute; reflexivity|vm_compute; reflexivity].
Qed.
(** A block of bytes, type 4. *)
Lemma ex_c116_blob : exists s, blob_layout [x41;x42] (zc_dec rle_contract (dfed (fm_ops (fm_head x04 ++ [x41;x42])))) /\
  run_dops LE ex_alloc 40 ex_sess (fm_ops (fm_head x04 ++ [x41;x42])) = Ok ([0%Z; 0%Z], s, [EvFlBegin; EvFlRead [x41;x42]]) /\ room_left s.
Proof.
  eexists. split; [exists (repeat xee 120); split; [reflexivity|vm_compute; reflexivity]|]. split; vm_compute; reflexivity.
Qed.

Lemma ex_c116_extracted : exists ret o', dir_layout (preorder fm_one) (zc_dec rle_contract (rle_pack (fm_head x01 ++ fm_one_body x99))) /\
  zc_bad rle_contract (rle_pack (fm_head x01 ++ fm_one_body x99)) = false /\ zc_fin rle_contract (rle_pack (fm_head x01 ++ fm_one_body x99)) = false /\
  tree_fits (Some fm_one) /\ preorder fm_one <> [] /\ NoDup (map fst fm_one) /\
  Forall (fun x => extractable false 18 1 (fst x) (snd x)) fm_one /\ free_spot (hx_os 1000) [x6f] [[x77]; [x6f]] /\
  did_all (hx_extract [x6f] 0 (rle_pack (fm_head x01 ++ fm_one_body x99)) (hx_os 1000)) ret o' /\
  o_fs o' [[x77]; [x6f]; [x62]] = Some (IFile 493 [x7a]).
Proof.
  destruct (did_all_of (hx_extract [x6f] 0 (rle_pack (fm_head x01 ++ fm_one_body x99)) (hx_os 1000)) (fun ret o' =>
    at_eqb o' [[x77]; [x6f]; [x62]] (Some (IFile 493 [x7a])))) as (ret & o' & D & H); [vm_compute; reflexivity|].
  exists ret, o'. split.
  { exists (repeat xee 120), (fm_one_body x99). split; [reflexivity|]. split; [vm_compute; reflexivity|].
    exact (laid_file [x62] 493 [x7a] (repeat x99 11) [] [] eq_refl laid_nil). }
  split; [vm_compute; reflexivity|]. split; [vm_compute; reflexivity|].
  split; [unfold tree_fits, listing, fm_one; fits_case|]. split; [discriminate|].
  split; [unfold fm_one; cbn [map fst]; nodup_case|].
  split; [apply Forall_cons; [cbn [fst snd]; apply xt_file; [plain_case|reflexivity]|apply Forall_nil]|].
  split; [apply hx_spot|]. split; [exact D|now apply at_eqb_ok].
Qed.
