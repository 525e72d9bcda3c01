(** Properties_WinReport.v: what the result of an extraction on Windows says (C134).

    [xextract]: ZlibWtDecompressFileOrDirEx on Windows; [Some ret]: it returned ret (the process was not terminated).  [xmkdir]: creating the target directory, with the
    result [r].  [room_left s]: the last inflate step did not fill its buffer. *)
From Verif Require Import Base Format Zlib RleZlib Parser Decompress MidProofs MidFacts DecompressExamples ArchiveSpec ArchiveFacts ArchiveExamples FS HL HLSpec HLProps HLMore HLExamples
  WinTools WinExtract WinExtractSpec WinExtractFacts WinExtractExamples WinReport.

(** C134 on Windows: a directory is reported if and only if the target was created, whatever happened afterwards. *)
Theorem C134_directory_reported_windows : forall maxd maxf deny z (C : zlib_contract z) e alloc hal al stk obuf hjunk pjunk, calm z hal al stk obuf hjunk pjunk ->
  forall T archive fuel dfuel inp w ret s h ds w' r w0, archive_of ContentDirectory (zc_dec C (first_bytes archive inp)) ->
  zc_bad C (first_bytes archive inp) = false -> zc_fin C (first_bytes archive inp) = false -> 128 < lenN (zc_dec C (first_bytes archive inp)) ->
  w_dead w = false -> xmkdir maxd deny true T w = Ok (r, w0) ->
  xextract maxd maxf deny T hal stk z e alloc archive fuel dfuel al obuf hjunk pjunk inp false w = Ok (Some ret, Some (s, h, ds), w') -> room_left s ->
  (r = 0%Z -> ret = ContentDirectory) /\ (r <> 0%Z -> ret = ContentNone).
Proof. exact wdir_reported. Qed.
Print Assumptions C134_directory_reported_windows.
Example C134_case_windows : exists r w0 ret w', archive_of ContentDirectory (zc_dec rle_contract (first_bytes 0 (rx_arch (rx_file [x78] [x31;x32;x33] 420)))) /\
  zc_bad rle_contract (first_bytes 0 (rx_arch (rx_file [x78] [x31;x32;x33] 420))) = false /\
  zc_fin rle_contract (first_bytes 0 (rx_arch (rx_file [x78] [x31;x32;x33] 420))) = false /\
  128 < lenN (zc_dec rle_contract (first_bytes 0 (rx_arch (rx_file [x78] [x31;x32;x33] 420)))) /\
  w_dead wx_w = false /\ xmkdir 248 (fun _ => false) true [x6f] wx_w = Ok (r, w0) /\ r = 0%Z /\
  wdid_all (wx_extract [x6f] (rx_arch (rx_file [x78] [x31;x32;x33] 420)) wx_w) (Some ret) w' /\ ret = ContentDirectory.
Proof. exact ex_c134_win. Qed.
(** An extraction of a file that returns reports a file. *)
Theorem C134_file_reported_windows : forall maxd maxf deny z (C : zlib_contract z) e alloc hal al stk obuf hjunk pjunk, calm z hal al stk obuf hjunk pjunk ->
  forall T archive fuel dfuel inp w typ ret s h ds w', archive_of typ (zc_dec C (first_bytes archive inp)) -> typ = ContentFile \/ typ = ContentBlob ->
  zc_bad C (first_bytes archive inp) = false -> zc_fin C (first_bytes archive inp) = false -> 128 < lenN (zc_dec C (first_bytes archive inp)) ->
  w_dead w = false ->
  xextract maxd maxf deny T hal stk z e alloc archive fuel dfuel al obuf hjunk pjunk inp false w = Ok (Some ret, Some (s, h, ds), w') -> room_left s ->
  ret = ContentFile.
Proof. exact wfile_reported. Qed.
Print Assumptions C134_file_reported_windows.
Example C134_case_windows_file : exists ret w', archive_of ContentFile (zc_dec rle_contract (first_bytes 0 (hx_farch [x61;x62]))) /\
  zc_bad rle_contract (first_bytes 0 (hx_farch [x61;x62])) = false /\ zc_fin rle_contract (first_bytes 0 (hx_farch [x61;x62])) = false /\
  128 < lenN (zc_dec rle_contract (first_bytes 0 (hx_farch [x61;x62]))) /\ w_dead wx_w = false /\
  wdid_all (wx_extract [x6f] (hx_farch [x61;x62]) wx_w) (Some ret) w' /\ ret = ContentFile.
Proof. exact ex_c134_win_file. Qed.
