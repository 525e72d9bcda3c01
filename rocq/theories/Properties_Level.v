(** Properties_Level.v: property C153 (archiving a directory with an invalid level).

    Notions used: [compress_dir]: ZlibWtCompressDirectoryEx over a tree; [compress_path]: the same over a file system; [wcompress_dir]: on Windows.
    [refused f0 x]: x is the result 1 of a run that called neither the callback nor the filter (whose state is still f0) and wrote no record. *)
From Verif Require Import Base Format Zlib RleZlib LLCompress CompressFacts Compress Decompress DecompressExamples ArchiveSpec ArchiveFacts ArchiveDecode ArchiveEntry ArchiveExamples
  FS HL CopySpec PathWalk PathExamples WinArchive LevelFacts.

(** C153 *)
Theorem C153_invalid_level : forall z (C : zlib_contract z) F e (filt : F -> list bytes -> bytes -> skind -> Z * F) jk hj xjk hjunk al fuel level clbk nested xs root f0,
  (level < -1 \/ 9 < level)%Z -> refused f0 (compress_dir z e filt jk hj xjk hjunk al fuel level clbk nested xs root f0).
Proof. exact level_dir. Qed.
Print Assumptions C153_invalid_level.
Example C153_case : (9 < 10)%Z /\
  refused tt (compress_dir rle_zlib LE ax_all (ax_jk x11) ax_hj ax_xjk ax_hjunk ax_al 3 10 7 false [] (Some ax_tree) tt) /\
  ~ refused tt (compress_dir rle_zlib LE ax_all (ax_jk x11) ax_hj ax_xjk ax_hjunk ax_al 3 9 7 false [] (Some ax_tree) tt).
Proof. exact ex_c153. Qed.
Theorem C153_invalid_level_path : forall z (C : zlib_contract z) F e (filt : F -> bytes -> bytes -> skind -> Z * F) jk hj xjk hjunk al o ls dsize sj fuel pfuel level clbk nested xs src f0,
  (level < -1 \/ 9 < level)%Z -> refused f0 (compress_path z e filt jk hj xjk hjunk al o ls dsize sj fuel pfuel level clbk nested xs src f0).
Proof. exact level_path. Qed.
Print Assumptions C153_invalid_level_path.
Theorem C153_invalid_level_windows : forall z (C : zlib_contract z) F e (filt : F -> list bytes -> bytes -> skind -> Z * F) jk xjk hjunk al locked fuel level clbk nested xs root f0,
  (level < -1 \/ 9 < level)%Z -> refused f0 (wcompress_dir z e filt jk xjk hjunk al locked fuel level clbk nested xs root f0).
Proof. exact level_win. Qed.
Print Assumptions C153_invalid_level_windows.
