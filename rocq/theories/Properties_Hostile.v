(** Properties_Hostile.v: archives of directories with any contents (C128, C129).

    [leaves P Q]: [Q] stands before the last '/' of the string that the path [P] shows, which ends at the first NUL.  [lists_sound T stk F]: whoever lists
    [F], or its beginning, is shown names that are at least as long as announced, files whose paths fit on the stack, links whose names and targets end
    with NUL, and ends of directories only where the path has a '/' to cut it at.  [lists_unsound T stk F]: whoever lists all of [F] is shown something
    else.  [sound_recs]: the same for the records of an archive.  Nothing is asked of the names: they may be "..", contain '/' or NUL, or be those of
    existing files. *)
From Verif Require Import Base Format Zlib RleZlib Compress Parser ParserProofs Decompress DecompressProofs MidProofs MidFacts ArchiveSpec ArchiveFacts ArchiveDecode
  FS FSFacts HL HLSpec HLFacts HLDrive HLProps HLTame HLMore MkdirMore DecompressExamples ArchiveExamples HLExamples Hostile
  WinTools WinExtract WinExtractSpec WinExtractFacts WinExtractExamples HostileWin HostileExamples.

(** C128: false.  The archive has the end of a directory and nothing before it; or every directory is left once, but a name has a NUL in it. *)
Theorem C128_any_directory_refuted : dir_archive rle_contract (rx_arch rx_end) [AEnd] /\ hx_extract [x6f] 0 (rx_arch rx_end) (hx_os 1000) = UB.
Proof. exact ex_c128_end. Qed.
Print Assumptions C128_any_directory_refuted.
Theorem C128_balanced_refuted : dir_archive rle_contract (rx_arch ho_nul) ho_nul_recs /\ hx_extract [x6f] 0 (rx_arch ho_nul) (hx_os 1000) = UB.
Proof. exact ex_c128_nul. Qed.
Print Assumptions C128_balanced_refuted.
(** What remains of C128: [lists_sound] suffices, for every target and every state of the file system. *)
Theorem C128_any_directory_partial : forall z (C : zlib_contract z) e alloc hal al stk obuf hjunk pjunk, calm z hal al stk obuf hjunk pjunk ->
  forall T archive inp o fuel, (length inp < fuel)%nat -> ~ In x00 T ->
  archive_of ContentDirectory (zc_dec C (first_bytes archive inp)) -> lists_sound (z := z) e alloc T stk (first_bytes archive inp) ->
  exists dfuel0, forall dfuel, (dfuel0 <= dfuel)%nat -> exists ret x o',
    exec (extract T hal stk z e alloc archive fuel dfuel al obuf hjunk pjunk inp false) o = Ok ((ret, x), o').
Proof. exact sound_returns. Qed.
Print Assumptions C128_any_directory_partial.
Example C128_case : archive_of ContentDirectory (zc_dec rle_contract (first_bytes 0 (rx_arch ho_c))) /\
  lists_sound (z := rle_zlib) LE ex_alloc [x2f;x77] hx_stk (first_bytes 0 (rx_arch ho_c)) /\
  calm rle_zlib hx_hal ax_al hx_stk (zeros DEF_CHUNK_SIZE) ax_hjunk ex_pj.
Proof. exact ex_c128. Qed.
(** It is necessary: of other archives (but for the ends of links) the extraction does not return, unless it gave up before with its error flag set. *)
Theorem C128_necessary_partial : forall z (C : zlib_contract z) e alloc hal al stk obuf hjunk pjunk, calm z hal al stk obuf hjunk pjunk ->
  forall T archive inp o fuel dfuel ret s h ds o', ~ In x00 T ->
  archive_of ContentDirectory (zc_dec C (first_bytes archive inp)) -> lists_unsound (z := z) e alloc T stk (first_bytes archive inp) ->
  exec (extract T hal stk z e alloc archive fuel dfuel al obuf hjunk pjunk inp false) o = Ok ((ret, Some (s, h, ds)), o') -> room_left s ->
  h_err h = true.
Proof. exact unsound_fails. Qed.
Print Assumptions C128_necessary_partial.
Example C128_necessary_case : lists_unsound (z := rle_zlib) LE ex_alloc [x6f] hx_stk (first_bytes 0 (rx_arch rx_end)) /\
  lists_unsound (z := rle_zlib) LE ex_alloc [x6f] hx_stk (first_bytes 0 (rx_arch ho_nul)).
Proof. exact ex_c128_unsound. Qed.
(** Both for the records of an archive. *)
Theorem C128_records_partial : forall z (C : zlib_contract z) e alloc hal al stk obuf hjunk pjunk, calm z hal al stk obuf hjunk pjunk ->
  (forall k n, alloc k n = true) -> forall recs T archive inp o fuel, dir_archive C (first_bytes archive inp) recs -> no_links recs ->
  (length inp < fuel)%nat -> ~ In x00 T -> sound_recs stk T recs -> sound_recs stk [] recs ->
  exists dfuel0, forall dfuel, (dfuel0 <= dfuel)%nat -> exists ret x o',
    exec (extract T hal stk z e alloc archive fuel dfuel al obuf hjunk pjunk inp false) o = Ok ((ret, x), o').
Proof. exact recs_returns. Qed.
Print Assumptions C128_records_partial.
Theorem C128_records_necessary_partial : forall z (C : zlib_contract z) e alloc hal al stk obuf hjunk pjunk, calm z hal al stk obuf hjunk pjunk ->
  (forall k n, alloc k n = true) -> forall recs T archive inp o fuel dfuel ret s h ds o', dir_archive C (first_bytes archive inp) recs ->
  ~ In x00 T -> ~ sound_recs stk T recs ->
  exec (extract T hal stk z e alloc archive fuel dfuel al obuf hjunk pjunk inp false) o = Ok ((ret, Some (s, h, ds)), o') -> room_left s ->
  h_err h = true.
Proof. exact recs_fails. Qed.
Print Assumptions C128_records_necessary_partial.
Example C128_records_case : dir_archive rle_contract (first_bytes 0 (rx_arch ho_c)) ho_recs /\ no_links ho_recs /\
  sound_recs hx_stk [x2f;x77] ho_recs /\ sound_recs hx_stk [] ho_recs /\
  dir_archive rle_contract (first_bytes 0 (rx_arch ho_nul)) ho_nul_recs /\ ~ sound_recs hx_stk [x6f] ho_nul_recs.
Proof. exact ex_c128_recs. Qed.
(** The archives that the library writes, also if they are cut, extracted to any target, also one that exists. *)
Theorem C128_own_partial : forall z (C : zlib_contract z) e alloc hal al stk obuf hjunk pjunk, calm z hal al stk obuf hjunk pjunk ->
  (forall k n, alloc k n = true) -> forall priv um es F T archive inp o fuel, archives_dir z es F -> prefix (first_bytes archive inp) F ->
  (length inp < fuel)%nat -> ~ In x00 T ->
  Forall (fun x => quiet (snd x)) es -> Forall (fun x => extractable priv um (lenN T) (fst x) (snd x)) es ->
  exists dfuel0, forall dfuel, (dfuel0 <= dfuel)%nat -> exists ret x o',
    exec (extract T hal stk z e alloc archive fuel dfuel al obuf hjunk pjunk inp false) o = Ok ((ret, x), o').
Proof. exact own_returns. Qed.
Print Assumptions C128_own_partial.
Example C128_own_case : archives_dir rle_zlib hx_tree (hx_arch hx_tree) /\ prefix (first_bytes 100 (hx_arch hx_tree)) (hx_arch hx_tree) /\
  Forall (fun x => quiet (snd x)) hx_tree /\ Forall (fun x => extractable false 18 (lenN [x2e]) (fst x) (snd x)) hx_tree /\ exists_at (hx_os 1000) [x2e].
Proof. exact ex_c128_own. Qed.

(** C129: false, with the archives of C128. *)
Theorem C129_windows_any_directory_refuted :
  wx_extract [x6f] (rx_arch rx_end) wx_w = UB /\ wx_extract [x6f] (rx_arch ho_nul) wx_w = UB /\ w_dead wx_w = false.
Proof. exact ex_c129. Qed.
Print Assumptions C129_windows_any_directory_refuted.
(** What remains of C129: [lists_sound] suffices, whatever the limits, the permissions and the state of the file system are; the process may be
    terminated by the run time library (C126), which is not undefined behaviour. *)
Theorem C129_windows_any_directory_partial : forall maxd maxf deny z (C : zlib_contract z) e alloc hal al stk obuf hjunk pjunk,
  calm z hal al stk obuf hjunk pjunk -> forall T archive inp w fuel, (length inp < fuel)%nat -> w_dead w = false ->
  archive_of ContentDirectory (zc_dec C (first_bytes archive inp)) -> lists_sound (z := z) e alloc T stk (first_bytes archive inp) ->
  exists dfuel0, forall dfuel, (dfuel0 <= dfuel)%nat -> exists ret x w',
    xextract maxd maxf deny T hal stk z e alloc archive fuel dfuel al obuf hjunk pjunk inp false w = Ok (ret, x, w').
Proof. exact wsound_returns. Qed.
Print Assumptions C129_windows_any_directory_partial.
Theorem C129_windows_necessary_partial : forall maxd maxf deny z (C : zlib_contract z) e alloc hal al stk obuf hjunk pjunk,
  calm z hal al stk obuf hjunk pjunk -> forall T archive inp w fuel dfuel ret s h ds w', w_dead w = false ->
  archive_of ContentDirectory (zc_dec C (first_bytes archive inp)) -> lists_unsound (z := z) e alloc T stk (first_bytes archive inp) ->
  xextract maxd maxf deny T hal stk z e alloc archive fuel dfuel al obuf hjunk pjunk inp false w = Ok (ret, Some (s, h, ds), w') -> room_left s ->
  h_err h = true \/ ret = None.
Proof. exact wunsound_fails. Qed.
Print Assumptions C129_windows_necessary_partial.
Example C129_case : archive_of ContentDirectory (zc_dec rle_contract (first_bytes 0 (rx_arch ho_c))) /\
  lists_sound (z := rle_zlib) LE ex_alloc [x2f;x77] hx_stk (first_bytes 0 (rx_arch ho_c)) /\
  calm rle_zlib hx_hal ax_al hx_stk (zeros DEF_CHUNK_SIZE) ax_hjunk ex_pj.
Proof. exact ex_c128. Qed.
