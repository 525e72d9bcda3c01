(** Properties_WinCut.v: C127 for archives of files that are cut off.

    [cut_input archive F inp]: the input is a beginning of the archive F; the size given is not known (0) or that of F.  [wspot]: T names the file t, which exists
    and may be written or can be created.  [same_w]: current directory and open files are as before.  [room_left s]: the last inflate step did not fill its buffer. *)
From Verif Require Import Base Format Zlib RleZlib Parser Decompress MidProofs MidFacts DecompressExamples ArchiveExamples FS HL HLSpec HLProps HLExamples CutSpec
  WinTools WinExtract WinExtractSpec WinExtractFacts WinExtractExamples WinCut.

(** C127: whatever beginning of its archive is extracted and wherever reading fails, the extraction returns, and the target is as before or has a beginning of the
    archived contents: all that was in the input. *)
Theorem C127_windows_file_cut : forall maxd maxf deny z (C : zlib_contract z) data F e alloc hal al stk obuf hjunk pjunk T archive inp rderr t w fuel dfuel ret x w',
  archives_file z data F -> cut_input archive F inp -> calm z hal al stk obuf hjunk pjunk -> wspot maxf deny w T t ->
  xextract maxd maxf deny T hal stk z e alloc archive fuel dfuel al obuf hjunk pjunk inp rderr w = Ok (ret, x, w') ->
  exists v s h ds, ret = Some v /\ x = Some (s, h, ds) /\ same_w w w' /\
  (((forall q, w_fs w' q = w_fs w q) /\ v = ContentNone /\ (rderr = false -> room_left s -> lenN (zc_dec C inp) <= 128)) \/
   exists y, prefix y data /\ (forall q, w_fs w' q = xupd (w_fs w) t (XFile false y) q) /\
     (rderr = false -> v = ContentFile /\ (room_left s -> y = dropN 128 (zc_dec C inp)))).
Proof. exact wcut_file. Qed.
Print Assumptions C127_windows_file_cut.
(** The archive of a file with two bytes, without its last two bytes: success is reported and the file has one byte. *)
Example C127_case_cut : exists ret w', archives_file rle_zlib [x61;x62] (hx_farch [x61;x62]) /\ cut_input 0 (hx_farch [x61;x62]) wx_cut /\
  calm rle_zlib hx_hal ax_al hx_stk (zeros DEF_CHUNK_SIZE) ax_hjunk ex_pj /\ wspot 260 (fun _ => false) wx_w [x46] [[x77]; [x66]] /\
  wdid_all (wx_extract [x46] wx_cut wx_w) ret w' /\ ret = Some ContentFile /\ w_fs w' [[x77]; [x66]] = Some (XFile false [x61]).
Proof. exact ex_c127_cut. Qed.
