(** Properties_Junk.v: C04, the records of an archive.

    [jk n]: the uninitialised bytes of the record with number n. *)
From Verif Require Import Base Format Zlib RleZlib LLCompress Compress Parser Decompress MidProofs MidFacts ArchiveSpec ArchiveFacts ArchiveEntry ArchiveProps ArchiveExamples JunkMore.

(** C04 is false for each record: archives of one directory differ although only the uninitialised bytes of one record behind the first one differ. *)
Theorem C04_each_record_refuted : exists jk jk' cevs cevs' ws ws' wx wx' led led',
  junk_ok jk ax_hj ax_xjk ax_hjunk /\ junk_ok jk' ax_hj ax_xjk ax_hjunk /\ (forall n, n <> 1 -> jk n = jk' n) /\
  compress_dir rle_zlib LE ax_all jk ax_hj ax_xjk ax_hjunk ax_al 3 9 7 false [] (Some ax_tree) tt = Ok (CRet 0, cevs, ws, wx, led) /\
  compress_dir rle_zlib LE ax_all jk' ax_hj ax_xjk ax_hjunk ax_al 3 9 7 false [] (Some ax_tree) tt = Ok (CRet 0, cevs', ws', wx', led') /\
  last_not_full cevs /\ last_not_full cevs' /\
  zc_dec rle_contract (cev_bytes cevs) <> zc_dec rle_contract (cev_bytes cevs').
Proof. exact ex_c04_each. Qed.
Print Assumptions C04_each_record_refuted.
