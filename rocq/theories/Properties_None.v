(** Properties_None.v: files that are not archives (C154).

    [foreign P] (NoneFacts.v): the bytes P do not start with the header of an archive: fewer than 128 bytes, a version other than 0, or a type other
    than directory, file and blob.  What zlib rejects at once decompresses to no bytes.  [supported]: if there is a header, its version is 0.
    [o], [w]: the state of the system, with the files, the open descriptors and the current directory. *)
From Verif Require Import Base Format Zlib RleZlib Parser Decompress MidProofs MidFacts DecompressExamples ArchiveExamples FS HL HLSpec HLExamples HLProps HLMore
  WinTools WinExtract WinExtractSpec WinExtractExamples NoneFacts.

(** C154: an extraction that returns reports that there was nothing to extract and leaves everything as it was. *)
Theorem C154_not_an_archive : forall z (C : zlib_contract z) e alloc hal al stk obuf hjunk pjunk, calm z hal al stk obuf hjunk pjunk ->
  forall T archive fuel dfuel inp rderr o ret x o', foreign (zc_dec C (first_bytes archive inp)) ->
  exec (extract T hal stk z e alloc archive fuel dfuel al obuf hjunk pjunk inp rderr) o = Ok ((ret, x), o') -> ret = ContentNone /\ o' = o.
Proof. exact foreign_kept. Qed.
Print Assumptions C154_not_an_archive.
Theorem C154_not_an_archive_windows : forall z (C : zlib_contract z) e alloc hal al stk obuf hjunk pjunk, calm z hal al stk obuf hjunk pjunk ->
  forall maxd maxf deny T archive fuel dfuel inp rderr w ret x w', w_dead w = false -> foreign (zc_dec C (first_bytes archive inp)) ->
  xextract maxd maxf deny T hal stk z e alloc archive fuel dfuel al obuf hjunk pjunk inp rderr w = Ok (ret, x, w') -> ret = Some ContentNone /\ w' = w.
Proof. exact foreign_kept_win. Qed.
Print Assumptions C154_not_an_archive_windows.
(** It returns unless the version is not 0 (C23). *)
Theorem C154_returns : forall z (C : zlib_contract z) e alloc hal al stk obuf hjunk pjunk, calm z hal al stk obuf hjunk pjunk ->
  forall T archive inp o fuel, (length inp < fuel)%nat -> foreign (zc_dec C (first_bytes archive inp)) -> supported z C (first_bytes archive inp) ->
  exists dfuel0, forall dfuel, (dfuel0 <= dfuel)%nat -> exists x,
    exec (extract T hal stk z e alloc archive fuel dfuel al obuf hjunk pjunk inp false) o = Ok ((ContentNone, x), o).
Proof. exact foreign_returns. Qed.
Print Assumptions C154_returns.
Theorem C154_returns_windows : forall z (C : zlib_contract z) e alloc hal al stk obuf hjunk pjunk, calm z hal al stk obuf hjunk pjunk ->
  forall maxd maxf deny T archive inp w fuel, (length inp < fuel)%nat -> w_dead w = false ->
  foreign (zc_dec C (first_bytes archive inp)) -> supported z C (first_bytes archive inp) ->
  exists dfuel0, forall dfuel, (dfuel0 <= dfuel)%nat -> exists x,
    xextract maxd maxf deny T hal stk z e alloc archive fuel dfuel al obuf hjunk pjunk inp false w = Ok (Some ContentNone, x, w).
Proof. exact foreign_returns_win. Qed.
Print Assumptions C154_returns_windows.
(** A file that zlib rejects, one with the version 1 and one with the type 77. *)
Example C154_case : exists ret o' ret2 o2 ret3 w',
  calm rle_zlib hx_hal ax_al hx_stk (zeros DEF_CHUNK_SIZE) ax_hjunk ex_pj /\
  foreign (zc_dec rle_contract (first_bytes 0 [x00;x05;x07])) /\ foreign (zc_dec rle_contract (first_bytes 0 ex_bad)) /\
  foreign (zc_dec rle_contract (first_bytes 0 (ex_arch 77 ex_tree))) /\ supported rle_zlib rle_contract (first_bytes 0 (ex_arch 77 ex_tree)) /\
  did (hx_extract [x6f] 0 ex_bad (hx_os 1000)) ret o' /\ did (hx_extract [x6f] 0 (ex_arch 77 ex_tree) (hx_os 1000)) ret2 o2 /\
  w_dead wx_w = false /\ wdid (wx_extract [x6f] (ex_arch 77 ex_tree) wx_w) ret3 w'.
Proof. exact ex_c154. Qed.
