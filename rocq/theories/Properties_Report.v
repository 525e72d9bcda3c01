(** Properties C133-C134 (what extraction leaves open and what it reports).
    [one_more B l]: the open files [l] are those of [B] and at most one other.  [file_opens], [file_ends]: the numbers of files that the callbacks [evs]
    begin and end.  [supported]: the archive has a version that the decoder knows.  [xextract]: as in Properties_WinExtract.v; result [None]: the C runtime
    has terminated the process. *)
From Verif Require Import Base Format Zlib RleZlib Compress Parser ParserProofs ParserFacts Decompress DecompressProofs MidProofs MidFacts DecompressExamples
  ArchiveSpec ArchiveFacts ArchiveExamples FS FSFacts HL HLSpec HLFacts HLDrive HLProps HLTame HLMore HLExamples WinTools WinExtract WinExtractSpec
  WinExtractFacts WinExtractExamples Fds WinFds Report ReportExamples ReadFacts.

(** C133: all archives, targets, file systems and failures.  [ds]: the bytes that the session was given. *)
Theorem C133_one_file_left_open : forall z (C : zlib_contract z) e alloc hal al stk obuf hjunk pjunk, calm z hal al stk obuf hjunk pjunk ->
  forall T archive fuel dfuel inp rderr o ret s h ds o', supported z C (first_bytes archive inp) ->
  exec (extract T hal stk z e alloc archive fuel dfuel al obuf hjunk pjunk inp rderr) o = Ok ((ret, Some (s, h, ds)), o') ->
  exists s0 ops rets evs, started z s0 /\ Forall dop_ok ops /\ dfed ops = ds /\ prefix ds (first_bytes archive inp) /\
    run_dops e alloc dfuel s0 ops = Ok (rets, s, evs) /\
    ((file_opens evs = file_ends evs /\ o_fds o' = o_fds o) \/ (file_opens evs = file_ends evs + 1 /\ one_more (o_fds o) (o_fds o'))).
Proof. exact one_left. Qed.
Print Assumptions C133_one_file_left_open.
Example C133_case : exists ret o', did (hx_extract [x6f] 0 (takeN 354 (rx_arch (rx_file [x78] [x31;x32;x33] 420))) (hx_os 1000)) ret o' /\
  supported rle_zlib rle_contract (first_bytes 0 (takeN 354 (rx_arch (rx_file [x78] [x31;x32;x33] 420)))) /\
  o_fds (hx_os 1000) = [] /\ map snd (o_fds o') = [([[x77]; [x6f]; [x78]], 1)].
Proof. exact ex_c133. Qed.
(** The same on Windows, if the process is not terminated. *)
Theorem C133_one_file_left_open_windows : forall maxd maxf deny z (C : zlib_contract z) e alloc hal al stk obuf hjunk pjunk,
  calm z hal al stk obuf hjunk pjunk -> forall T archive fuel dfuel inp rderr w v s h ds w', supported z C (first_bytes archive inp) -> w_dead w = false ->
  xextract maxd maxf deny T hal stk z e alloc archive fuel dfuel al obuf hjunk pjunk inp rderr w = Ok (Some v, Some (s, h, ds), w') ->
  exists s0 ops rets evs, started z s0 /\ Forall dop_ok ops /\ dfed ops = ds /\ prefix ds (first_bytes archive inp) /\
    run_dops e alloc dfuel s0 ops = Ok (rets, s, evs) /\
    ((file_opens evs = file_ends evs /\ w_fds w' = w_fds w) \/ (file_opens evs = file_ends evs + 1 /\ one_more (w_fds w) (w_fds w'))).
Proof. exact wone_left. Qed.
Print Assumptions C133_one_file_left_open_windows.
Example C133_case_windows : exists ret w', wdid (wx_extract [x6f] (takeN 354 (rx_arch (rx_file [x78] [x31;x32;x33] 420))) wx_w) ret w' /\
  ret = Some ContentDirectory /\ w_dead wx_w = false /\ w_fds wx_w = [] /\ lenN (w_fds w') = 1.
Proof. exact ex_c133_windows. Qed.

(** C134: archives of which more than the header can be read; [r]: the result of creating the target directory. *)
Theorem C134_directory_reported : forall z (C : zlib_contract z) e alloc hal al stk obuf hjunk pjunk, calm z hal al stk obuf hjunk pjunk ->
  forall T archive fuel dfuel inp o ret s h ds o' r o1, archive_of ContentDirectory (zc_dec C (first_bytes archive inp)) ->
  zc_bad C (first_bytes archive inp) = false -> zc_fin C (first_bytes archive inp) = false -> 128 < lenN (zc_dec C (first_bytes archive inp)) ->
  exec (mkdir_recurse true T MODE_BASE_DIR) o = Ok (r, o1) ->
  exec (extract T hal stk z e alloc archive fuel dfuel al obuf hjunk pjunk inp false) o = Ok ((ret, Some (s, h, ds)), o') -> room_left s ->
  (r = 0%Z -> ret = ContentDirectory) /\ (r <> 0%Z -> ret = ContentNone).
Proof. exact dir_reported. Qed.
Print Assumptions C134_directory_reported.
(** There is room for 2 of the 3 bytes of the file. *)
Example C134_case : exists r o1 ret o', archive_of ContentDirectory (zc_dec rle_contract (first_bytes 0 (rx_arch (rx_file [x78] [x31;x32;x33] 420)))) /\
  zc_bad rle_contract (first_bytes 0 (rx_arch (rx_file [x78] [x31;x32;x33] 420))) = false /\
  zc_fin rle_contract (first_bytes 0 (rx_arch (rx_file [x78] [x31;x32;x33] 420))) = false /\
  128 < lenN (zc_dec rle_contract (first_bytes 0 (rx_arch (rx_file [x78] [x31;x32;x33] 420)))) /\
  exec (mkdir_recurse true [x6f] MODE_BASE_DIR) (hx_os 2) = Ok (r, o1) /\ r = 0%Z /\
  did_all (hx_extract [x6f] 0 (rx_arch (rx_file [x78] [x31;x32;x33] 420)) (hx_os 2)) ret o' /\ ret = ContentDirectory /\
  o_fs o' [[x77]; [x6f]; [x78]] = Some (IFile 420 [x31;x32]).
Proof. exact ex_c134. Qed.
(** An extraction of a file that returns reports a file. *)
Theorem C134_file_reported : forall z (C : zlib_contract z) e alloc hal al stk obuf hjunk pjunk, calm z hal al stk obuf hjunk pjunk ->
  forall T archive fuel dfuel inp o typ ret s h ds o', archive_of typ (zc_dec C (first_bytes archive inp)) -> typ = ContentFile \/ typ = ContentBlob ->
  zc_bad C (first_bytes archive inp) = false -> zc_fin C (first_bytes archive inp) = false -> 128 < lenN (zc_dec C (first_bytes archive inp)) ->
  exec (extract T hal stk z e alloc archive fuel dfuel al obuf hjunk pjunk inp false) o = Ok ((ret, Some (s, h, ds)), o') -> room_left s ->
  ret = ContentFile.
Proof. exact file_reported. Qed.
Print Assumptions C134_file_reported.
Example C134_case_file : exists ret o', archive_of ContentFile (zc_dec rle_contract (first_bytes 0 (hx_farch [x61;x62]))) /\
  zc_bad rle_contract (first_bytes 0 (hx_farch [x61;x62])) = false /\ zc_fin rle_contract (first_bytes 0 (hx_farch [x61;x62])) = false /\
  128 < lenN (zc_dec rle_contract (first_bytes 0 (hx_farch [x61;x62]))) /\
  did_all (hx_extract [x2f;x66] 0 (hx_farch [x61;x62]) (hx_os 1000)) ret o' /\ ret = ContentFile.
Proof. exact ex_c134_file. Qed.
(** An archive that cannot be opened is reported and changes nothing; [None]: fopen fails.  Otherwise its bytes are extracted. *)
Theorem C134_no_archive : forall T hal stk z e alloc archive fuel dfuel al obuf hjunk pjunk o,
  exec (extract_file T hal stk z e alloc archive fuel dfuel al obuf hjunk pjunk None) o = Ok ((ContentNone, None), o) /\
  (forall d rderr, extract_file T hal stk z e alloc archive fuel dfuel al obuf hjunk pjunk (Some (d, rderr)) =
    extract T hal stk z e alloc archive fuel dfuel al obuf hjunk pjunk d rderr).
Proof. exact no_archive. Qed.
Print Assumptions C134_no_archive.
