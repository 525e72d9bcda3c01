(** LevelFacts.v: archiving a directory with an invalid compression level (C153). *)
From Verif Require Import Base Format Zlib RleZlib LLCompress CompressFacts Compress Decompress DecompressExamples ArchiveSpec ArchiveFacts ArchiveDecode ArchiveEntry ArchiveExamples
  FS HL CopySpec PathWalk PathExamples WinArchive.

(** What a call that does nothing gives: 1, nothing passed to the callback, the filter not called, nothing traversed. *)
Definition refused {F} (f0 : F) (x : outcome (cres * list cev * wst * list wev * list lev)) : Prop :=
  exists led, x = Ok (CRet 1%Z, [], WS false false false f0 0, [], led).

Lemma level_dir : forall z (C : zlib_contract z) F e (filt : F -> list bytes -> bytes -> skind -> Z * F) jk hj xjk hjunk al fuel level clbk nested xs root f0,
  (level < -1 \/ 9 < level)%Z -> refused f0 (compress_dir z e filt jk hj xjk hjunk al fuel level clbk nested xs root f0).
Proof.
  intros z C F e filt jk hj xjk hjunk al fuel level clbk nested xs root f0 Hl. unfold refused, compress_dir.
  destruct (al 1); cbn [negb]; [|eauto]. destruct (al 2); cbn [negb]; [|eauto]. rewrite (creation_fails z C) by exact Hl. cbn [obind]. eauto.
Qed.
Lemma level_path : forall z (C : zlib_contract z) F e (filt : F -> bytes -> bytes -> skind -> Z * F) jk hj xjk hjunk al o ls dsize sj fuel pfuel level clbk nested xs src f0,
  (level < -1 \/ 9 < level)%Z -> refused f0 (compress_path z e filt jk hj xjk hjunk al o ls dsize sj fuel pfuel level clbk nested xs src f0).
Proof.
  intros z C F e filt jk hj xjk hjunk al o ls dsize sj fuel pfuel level clbk nested xs src f0 Hl. unfold refused, compress_path.
  destruct (al 1); cbn [negb]; [|eauto]. destruct (al 2); cbn [negb]; [|eauto]. rewrite (creation_fails z C) by exact Hl. cbn [obind]. eauto.
Qed.
Lemma level_win : forall z (C : zlib_contract z) F e (filt : F -> list bytes -> bytes -> skind -> Z * F) jk xjk hjunk al locked fuel level clbk nested xs root f0,
  (level < -1 \/ 9 < level)%Z -> refused f0 (wcompress_dir z e filt jk xjk hjunk al locked fuel level clbk nested xs root f0).
Proof.
  intros z C F e filt jk xjk hjunk al locked fuel level clbk nested xs root f0 Hl. unfold refused, wcompress_dir.
  destruct (al 1); cbn [negb]; [|eauto]. destruct (al 2); cbn [negb]; [|eauto]. rewrite (creation_fails z C) by exact Hl. cbn [obind]. eauto.
Qed.

Lemma ex_c153 : (9 < 10)%Z /\
  refused tt (compress_dir rle_zlib LE ax_all (ax_jk x11) ax_hj ax_xjk ax_hjunk ax_al 3 10 7 false [] (Some ax_tree) tt) /\
  ~ refused tt (compress_dir rle_zlib LE ax_all (ax_jk x11) ax_hj ax_xjk ax_hjunk ax_al 3 9 7 false [] (Some ax_tree) tt).
Proof.
  split; [reflexivity|]. split; [apply (level_dir rle_zlib rle_contract); right; reflexivity|].
  assert (E : match compress_dir rle_zlib LE ax_all (ax_jk x11) ax_hj ax_xjk ax_hjunk ax_al 3 9 7 false [] (Some ax_tree) tt with
    | Ok (CRet r, _, _, _, _) => (r =? 0)%Z | _ => false end = true) by (vm_compute; reflexivity).
  intros [led H]. rewrite H in E. discriminate E.
Qed.
