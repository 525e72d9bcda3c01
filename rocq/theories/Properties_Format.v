(** Properties_Format.v: property C116 (the archive format is fixed).

    Notions used (FormatSpec.v, written without the constants of the model): [dir_layout rs p]: the bytes p are version 0, type 1, 120 bytes
    without meaning and the records rs, each with its fields as little endian numbers at fixed places and names and contents followed by zero bytes up
    to the next multiple of eight.  [file_layout data p], [blob_layout data p]: version 0, type 2 or 4, 120 bytes and the data.
    [archives_with], [archives_file], [quiet], [preorder]: as for C39 and C35; [presents], [reads]: as for C29 and C25; [rec_ok]: the numbers fit their fields. *)
From Verif Require Import Base Format Zlib RleZlib LLCompress Compress Parser ParserProofs ParserFacts Decompress DecompressProofs DecompressFacts MidProofs
  MidFacts DecompressExamples ArchiveSpec ArchiveFacts ArchiveDecode ArchiveEntry ArchiveProps ArchiveExamples FS FSFacts HL HLSpec HLFacts HLDrive HLProps
  HLMore HLExamples FormatSpec FormatFacts FormatExamples.

(** C116: what is written follows the layout. *)
Theorem C116_written : forall z (C : zlib_contract z),
  (forall xs es F, archives_with z xs es F -> Forall (fun x => quiet (snd x)) es ->
     dir_layout (map (fun x => AFile (xb_path x) (xb_mode x) (lenN (xb_data x)) (xb_data x)) xs ++ preorder es) (zc_dec C F)) /\
  (forall data F, archives_file z data F -> file_layout data (zc_dec C F)).
Proof. exact layout_written. Qed.
Print Assumptions C116_written.
Example C116_written_case : archives_with rle_zlib [] fm_one (hx_xarch false [] fm_one) /\ Forall (fun x => quiet (snd x)) fm_one /\
  takeN 8 (zc_dec rle_contract (hx_xarch false [] fm_one)) = [x00;x00;x00;x00;x01;x00;x00;x00] /\
  dropN 128 (zc_dec rle_contract (hx_xarch false [] fm_one)) = fm_one_body x11 /\
  archives_file rle_zlib [x61;x62] (hx_farch [x61;x62]) /\
  takeN 8 (zc_dec rle_contract (hx_farch [x61;x62])) = [x00;x00;x00;x00;x02;x00;x00;x00] /\
  dropN 128 (zc_dec rle_contract (hx_farch [x61;x62])) = [x61;x62].
Proof. exact ex_c116_written. Qed.

(** C116: everything that follows the layout, whoever wrote it, is read, by calls with any splitting of the input. *)
Theorem C116_read : forall z (C : zlib_contract z) e alloc fuel s0 ops rets s evs, started z s0 -> Forall dop_ok ops ->
  zc_bad C (dfed ops) = false -> zc_fin C (dfed ops) = false -> run_dops e alloc fuel s0 ops = Ok (rets, s, evs) ->
  (forall rs, (forall k n, alloc k n = true) -> dir_layout rs (zc_dec C (dfed ops)) -> Forall rec_ok rs ->
     Forall (fun r => r = 0%Z) rets /\ (room_left s -> presents rs evs)) /\
  (forall data, file_layout data (zc_dec C (dfed ops)) \/ blob_layout data (zc_dec C (dfed ops)) ->
     Forall (fun r => r = 0%Z) rets /\ (room_left s -> data <> [] -> exists ds, evs = reads ds /\ concat ds = data)).
Proof. exact layout_read. Qed.
Print Assumptions C116_read.
Example C116_read_case : exists s, started rle_zlib ex_sess /\ Forall dop_ok (fm_ops (fm_head x01 ++ fm_body)) /\
  dir_layout fm_recs (zc_dec rle_contract (dfed (fm_ops (fm_head x01 ++ fm_body)))) /\ Forall rec_ok fm_recs /\
  zc_bad rle_contract (dfed (fm_ops (fm_head x01 ++ fm_body))) = false /\ zc_fin rle_contract (dfed (fm_ops (fm_head x01 ++ fm_body))) = false /\
  run_dops BE ex_alloc 90 ex_sess (fm_ops (fm_head x01 ++ fm_body)) = Ok ([0%Z; 0%Z], s,
    [EvDirBegin; EvEntry FtDir (Item 1229782938247303441 1229782938247303441 1 8 493 x01) [x64;x00;x00;x00;x00;x00;x00;x00];
     EvEntry FtFile (Item 3 8 3 8 420 x00) [x61;x62;x63;x00;x00;x00;x00;x00]; EvRead [x31;x32;x33]; EvFileEnd;
     EvEntry FtSymLink (Item 3 8 1 8 511 x04) [x6c;x00;x00;x00;x00;x00;x00;x00];
     EvSym [x78;x79;x7a] [x00;x00;x00;x00;x00;x11;x11;x11;x11;x11;x11]; EvDirEnd]) /\ room_left s.
Proof. exact ex_c116_read. Qed.
Example C116_blob_case : exists s, blob_layout [x41;x42] (zc_dec rle_contract (dfed (fm_ops (fm_head x04 ++ [x41;x42])))) /\
  run_dops LE ex_alloc 40 ex_sess (fm_ops (fm_head x04 ++ [x41;x42])) = Ok ([0%Z; 0%Z], s, [EvFlBegin; EvFlRead [x41;x42]]) /\ room_left s.
Proof. exact ex_c116_blob. Qed.

(** C116: and a directory laid out like this is extracted. *)
Theorem C116_extracted : forall z (C : zlib_contract z) es F e alloc hal al stk obuf hjunk pjunk T archive inp t o fuel,
  zc_bad C F = false -> zc_fin C F = false -> dir_layout (preorder es) (zc_dec C F) -> tree_fits (Some es) ->
  input_of archive F inp -> (length inp < fuel)%nat -> calm z hal al stk obuf hjunk pjunk ->
  (forall k n, alloc k n = true) -> preorder es <> [] -> Forall (fun x => quiet (snd x)) es -> NoDup (map fst es) ->
  Forall (fun x => extractable (o_priv o) (o_umask o) (lenN T) (fst x) (snd x)) es ->
  free_spot o T t -> usable_dir (o_priv o) (o_umask o) MODE_BASE_DIR -> (forall r, o_fs o (t ++ r) = None) ->
  volume (preorder es) <= o_free o ->
  exists dfuel0, forall dfuel, (dfuel0 <= dfuel)%nat -> exists ret s h ds o',
    exec (extract T hal stk z e alloc archive fuel dfuel al obuf hjunk pjunk inp false) o = Ok ((ret, Some (s, h, ds)), o') /\
    (room_left s -> ret = ContentDirectory /\ forall q, o_fs o' q = overlay t (dir_tree (o_umask o) es) (o_fs o) q).
Proof. exact layout_extracted. Qed.
Print Assumptions C116_extracted.
Example C116_extracted_case : exists ret o', dir_layout (preorder fm_one) (zc_dec rle_contract (rle_pack (fm_head x01 ++ fm_one_body x99))) /\
  zc_bad rle_contract (rle_pack (fm_head x01 ++ fm_one_body x99)) = false /\ zc_fin rle_contract (rle_pack (fm_head x01 ++ fm_one_body x99)) = false /\
  tree_fits (Some fm_one) /\ preorder fm_one <> [] /\ NoDup (map fst fm_one) /\
  Forall (fun x => extractable false 18 1 (fst x) (snd x)) fm_one /\ free_spot (hx_os 1000) [x6f] [[x77]; [x6f]] /\
  did_all (hx_extract [x6f] 0 (rle_pack (fm_head x01 ++ fm_one_body x99)) (hx_os 1000)) ret o' /\
  o_fs o' [[x77]; [x6f]; [x62]] = Some (IFile 493 [x7a]).
Proof. exact ex_c116_extracted. Qed.
