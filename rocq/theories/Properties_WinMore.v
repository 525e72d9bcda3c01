(** Properties_WinMore.v: C43, C44 and C101 on Windows.

    [xextract]: ZlibWtDecompressFileOrDirEx on Windows; [Some ret]: it returned ret (the process was not terminated).  [ds]: the bytes passed to the decoder. *)
From Verif Require Import Base Format Zlib RleZlib Parser Decompress MidProofs MidFacts FS HL HLSpec HLProps HLMore HLExamples WinTools WinExtract WinExtractSpec
  DecompressExamples ArchiveExamples WinExtractExamples CutExamples WinMore.

(** C43 on Windows: the content type reported is the one stated by the header of the archive.  (The whole of C43: see C43_success_is_complete_refuted.) *)
Theorem C43_type_windows_partial : forall maxd maxf deny z (C : zlib_contract z) e alloc hal al stk obuf hjunk pjunk, calm z hal al stk obuf hjunk pjunk ->
  forall T archive fuel dfuel inp rderr w ret x w', supported z C (first_bytes archive inp) -> w_dead w = false ->
  xextract maxd maxf deny T hal stk z e alloc archive fuel dfuel al obuf hjunk pjunk inp rderr w = Ok (Some ret, x, w') -> ret <> ContentNone ->
  exists typ, archive_of typ (zc_dec C (first_bytes archive inp)) /\
    ((ret = ContentDirectory /\ typ = ContentDirectory) \/ (ret = ContentFile /\ (typ = ContentFile \/ typ = ContentBlob))).
Proof. exact wextract_type. Qed.
Print Assumptions C43_type_windows_partial.
Example C43_case_windows : calm rle_zlib hx_hal ax_al hx_stk (zeros DEF_CHUNK_SIZE) ax_hjunk ex_pj /\ exists x w',
  wx_more (lenN (hx_arch wx_two)) (hx_arch wx_two ++ [x41;x42]) false = Ok (Some ContentDirectory, x, w') /\ w_dead wx_w = false /\
  supported rle_zlib rle_contract (first_bytes (lenN (hx_arch wx_two)) (hx_arch wx_two ++ [x41;x42])).
Proof. exact ex_c43_win. Qed.
(** C44 on Windows. *)
Theorem C44_archive_size_limit_windows : forall maxd maxf deny z T hal stk e alloc archive fuel dfuel al obuf hjunk pjunk inp rderr w ret (s : dsess z) h ds w',
  w_dead w = false ->
  xextract maxd maxf deny T hal stk z e alloc archive fuel dfuel al obuf hjunk pjunk inp rderr w = Ok (Some ret, Some (s, h, ds), w') ->
  prefix ds (first_bytes archive inp) /\ (ret <> ContentNone \/ rderr = false -> h_err h = false -> ds = first_bytes archive inp).
Proof. exact wextract_fed. Qed.
Print Assumptions C44_archive_size_limit_windows.
(** Two bytes follow the archive. *)
Example C44_case_windows : exists s h ds w', wx_more (lenN (hx_arch wx_two)) (hx_arch wx_two ++ [x41;x42]) false = Ok (Some ContentDirectory, Some (s, h, ds), w') /\
  w_dead wx_w = false /\ h_err h = false /\ lenN ds = lenN (hx_arch wx_two) /\
  supported rle_zlib rle_contract (first_bytes (lenN (hx_arch wx_two)) (hx_arch wx_two ++ [x41;x42])).
Proof. exact ex_c44_win. Qed.
(** C101 on Windows. *)
Theorem C101_read_error_windows : forall maxd maxf deny T hal stk z e alloc archive fuel dfuel al obuf hjunk pjunk inp w ret s h ds w',
  xextract maxd maxf deny T hal stk z e alloc archive fuel dfuel al obuf hjunk pjunk inp true w = Ok (Some ret, Some (s, h, ds), w') ->
  (archive = 0 \/ lenN inp < archive) -> ret = ContentNone \/ h_err h = true.
Proof. exact wread_error. Qed.
Print Assumptions C101_read_error_windows.
(** The archive of 168 bytes cannot be read behind its 69th byte. *)
Example C101_case_windows : exists ret w', wdid (wx_more 168 (cx_in 69) true) (Some ret) w' /\ lenN (cx_in 69) < 168 /\ ret = ContentNone.
Proof. exact ex_c101_win. Qed.
