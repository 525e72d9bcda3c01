(** Properties_Damage.v: property C120 (damage of archives).

    Notions used: [archives_with], [archives_file]: as for C35 and C40; [zc_fin C F]: the compressed data F contain the end of their stream, which zlib writes
    together with a check value of the contents; [zc_bad], [first_bytes], [archive_of], [writable_spot], [calm]: as for C74 and C40;
    [extract]: ZlibWtDecompressFileOrDirEx; [did], [did_all]: the run returned, and with [did_all] the last step of zlib left room. *)
From Verif Require Import Base Format Zlib RleZlib LLCompress Compress Parser ParserProofs ParserFacts Decompress DecompressProofs
  DecompressFacts MidProofs MidFacts DecompressExamples ArchiveSpec ArchiveFacts ArchiveDecode ArchiveEntry ArchiveProps ArchiveExamples
  FS FSFacts HL HLSpec HLFacts HLDrive HLProps HLSafe MkdirFacts HLTame HLMkdir HLMore HLExamples HaltFacts RobustFacts DamageFacts DamageExamples.

(** C120: false.  One byte of the archive of a file was changed: another contents is extracted and success is returned. *)
Theorem C120_damage_noticed_refuted : exists ret o' c d, archives_file rle_zlib [x61;x62] (hx_farch [x61;x62]) /\
  hx_farch [x61;x62] = c ++ [x62] ++ d /\ dm_arch = c ++ [x63] ++ d /\ writable_spot (hx_os 1000) [x2f;x66] [[x66]] 420 /\
  did_all (hx_extract [x2f;x66] 0 dm_arch (hx_os 1000)) ret o' /\ ret = ContentFile /\ o_fs o' [[x66]] = Some (IFile 420 [x61;x63]).
Proof. exact ex_c120_changed. Qed.
Print Assumptions C120_damage_noticed_refuted.
(** The reason: no archive contains the end of its stream, so there is no check value that could be compared. *)
Theorem C120_check_value_refuted : forall z (C : zlib_contract z),
  (forall xs es F, archives_with z xs es F -> zc_fin C F = false) /\ (forall data F, archives_file z data F -> zc_fin C F = false).
Proof. exact never_ends. Qed.
Print Assumptions C120_check_value_refuted.
Example C120_check_value_case : archives_with rle_zlib [] hx_tree (hx_xarch false [] hx_tree) /\ archives_file rle_zlib [x61;x62] (hx_farch [x61;x62]).
Proof. exact ex_c120_ends. Qed.
(** What remains of C120: whatever was changed behind the header of the archive of a file, the extraction returns, and what it stored, if anything, is a
    beginning of what the data stand for; nothing but the target is changed. *)
Theorem C120_damage_noticed_partial : forall z (C : zlib_contract z) e alloc hal al stk obuf hjunk pjunk (Calm : calm z hal al stk obuf hjunk pjunk)
  T archive inp o t m fuel typ, (length inp < fuel)%nat ->
  archive_of typ (zc_dec C (first_bytes archive inp)) -> typ = ContentFile \/ typ = ContentBlob -> writable_spot o T t m ->
  lenN (zc_dec C (first_bytes archive inp)) <= 128 + o_free o ->
  exists dfuel0, forall dfuel, (dfuel0 <= dfuel)%nat -> exists ret s h ds o',
    exec (extract T hal stk z e alloc archive fuel dfuel al obuf hjunk pjunk inp false) o = Ok ((ret, Some (s, h, ds)), o') /\
    ((ret = ContentFile /\ exists x, prefix x (dropN 128 (zc_dec C (first_bytes archive inp))) /\ forall q, o_fs o' q = upd (o_fs o) t (IFile m x) q) \/
     (ret = ContentNone /\ forall q, o_fs o' q = o_fs o q)).
Proof. exact damaged_file. Qed.
Print Assumptions C120_damage_noticed_partial.
Example C120_case : exists ret o', calm rle_zlib hx_hal ax_al hx_stk (zeros DEF_CHUNK_SIZE) ax_hjunk ex_pj /\
  archive_of ContentFile (zc_dec rle_contract (first_bytes 0 dm_bad)) /\ zc_bad rle_contract (first_bytes 0 dm_bad) = true /\
  writable_spot (hx_os 1000) [x2f;x66] [[x66]] 420 /\ lenN (zc_dec rle_contract (first_bytes 0 dm_bad)) = 130 /\ o_free (hx_os 1000) = 1000 /\
  did (hx_extract [x2f;x66] 0 dm_bad (hx_os 1000)) ret o' /\ ret = ContentNone.
Proof. exact ex_c120. Qed.
