(** Properties_Behind.v: property C152 (bytes behind an archive).

    Notions used: [extract], [xextract]: ZlibWtDecompressFileOrDirEx on Unix and on Windows; their argument [archive] is a_archiveSize, where 0 means the rest of
    the file.  [archives_dir], [did_all], [free_spot]: as for C39. *)
From Verif Require Import Base Format Zlib RleZlib LLCompress Compress Parser ParserProofs ParserFacts Decompress DecompressProofs MidProofs MidFacts
  DecompressExamples ArchiveSpec ArchiveFacts ArchiveDecode ArchiveEntry ArchiveProps ArchiveExamples FS FSFacts HL HLSpec HLFacts HLDrive HLProps HLSafe MkdirFacts
  HLTame HLMore HLExamples WinExtract BehindFacts BehindExamples.

(** C152: false.  No archive says where it ends: if its size is not passed, bytes behind it are decoded too, and here a file that was not archived is made. *)
Theorem C152_behind_refuted : exists es F G ret1 o1 ret2 o2, archives_dir rle_zlib es F /\ free_spot (hx_os 1000) [x6f] [[x77]; [x6f]] /\
  did_all (hx_extract [x6f] 0 F (hx_os 1000)) ret1 o1 /\ did_all (hx_extract [x6f] 0 (F ++ G) (hx_os 1000)) ret2 o2 /\
  ret1 = ContentDirectory /\ ret2 = ContentDirectory /\
  o_fs o1 [[x77]; [x6f]; [x61]] = Some (IFile 420 [x31]) /\ o_fs o1 [[x77]; [x6f]; [x63]] = None /\ o_fs o2 [[x77]; [x6f]; [x63]] = Some (IFile 420 [x32]).
Proof. exact ex_c152_refuted. Qed.
Print Assumptions C152_behind_refuted.

(** What remains of C152: if the size is passed, the call does the same, whatever is behind, also if that cannot be read ([rd1], [rd2]).  Of F nothing is assumed:
    it may be damaged, an archive of a file, or no archive. *)
Theorem C152_behind_partial : forall z e alloc archive target hal stk fuel dfuel al obuf hjunk pjunk F G rd1 rd2 o, F <> [] -> archive = lenN F ->
  exec (extract target hal stk z e alloc archive fuel dfuel al obuf hjunk pjunk (F ++ G) rd1) o =
  exec (extract target hal stk z e alloc archive fuel dfuel al obuf hjunk pjunk F rd2) o.
Proof. exact behind. Qed.
Print Assumptions C152_behind_partial.
Theorem C152_behind_windows_partial : forall z e alloc archive maxd maxf deny target hal stk fuel dfuel al obuf hjunk pjunk F G rd1 rd2 w, F <> [] -> archive = lenN F ->
  xextract maxd maxf deny target hal stk z e alloc archive fuel dfuel al obuf hjunk pjunk (F ++ G) rd1 w =
  xextract maxd maxf deny target hal stk z e alloc archive fuel dfuel al obuf hjunk pjunk F rd2 w.
Proof. exact behind_win. Qed.
Print Assumptions C152_behind_windows_partial.
Example C152_case : hx_arch bh_one <> [] /\ bh_more <> [] /\ exists ret o', did_all (hx_extract [x6f] (lenN (hx_arch bh_one)) (hx_arch bh_one ++ bh_more) (hx_os 1000)) ret o' /\
  ret = ContentDirectory /\ o_fs o' [[x77]; [x6f]; [x61]] = Some (IFile 420 [x31]) /\ o_fs o' [[x77]; [x6f]; [x63]] = None.
Proof. exact ex_c152. Qed.
