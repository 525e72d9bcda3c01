(** Properties C135-C137 (archiving on Windows).
    [wcompress_dir ... locked ...]: ZlibWtCompressDirectoryEx and its variants as compiled on Windows; [locked]: the files that are in use elsewhere.
    [warchives_dir z es F]: a run over the listing [es] whose filter takes everything reported success and wrote [F].
    [unlinked_all es]: the listing with its symbolic links replaced by entries of no interest.  [wsound locked dir name nd]: every file at or below
    [nd] can be opened and read, and none is in use.  [wlists fs s es]: [es] is a listing of the directory [s] of [fs].  [wcopy fs s fs' t]: in [fs'] the
    directory [t] has exactly the entries that [s] had in [fs], all else is as in [fs].  [calm], [room_left], [extract]: as in Properties_Extract.v;
    [xextract], [wfree]: as in Properties_WinExtract.v. *)
From Verif Require Import Base Format Zlib RleZlib LLCompress Compress Parser ParserProofs ParserFacts Decompress DecompressProofs
  DecompressFacts MidProofs MidFacts DecompressExamples ArchiveSpec ArchiveFacts ArchiveDecode ArchiveEntry ArchiveProps ArchiveExamples
  FS FSFacts HL HLSpec HLFacts HLDrive HLProps HLSafe MkdirFacts HLTame HLMkdir HLMore HLExamples WinArchive WinArchiveSpec WinArchiveFacts WinArchiveProps WinCopy
  WinTools WinExtract WinExtractSpec WinExtractFacts WinExtractTame WinExtractExamples WinArchiveExamples.

(** C135: false.  The listing has the link l; the run reports success, and so does the extraction, but there is no l. *)
Theorem C135_windows_archive_refuted : exists ret o', warchives_dir rle_zlib wx_tree (wa_arch wa_free wx_tree) /\ Forall (fun x => quiet (snd x)) wx_tree /\
  In (ALink [x6c] 511 [x62]) (preorder wx_tree) /\
  calm rle_zlib hx_hal ax_al hx_stk (zeros DEF_CHUNK_SIZE) ax_hjunk ex_pj /\ free_spot (hx_os 1000) [x6f] [[x77]; [x6f]] /\
  did_all (hx_extract [x6f] 0 (wa_arch wa_free wx_tree) (hx_os 1000)) ret o' /\ ret = ContentDirectory /\ o_fs o' [[x77]; [x6f]; [x6c]] = None.
Proof. exact ex_c135_refuted. Qed.
Print Assumptions C135_windows_archive_refuted.
(** What remains of C135: everything but the links. *)
Theorem C135_windows_archive_partial : forall z (C : zlib_contract z) es F, warchives_dir z es F -> archives_dir z (unlinked_all es) F.
Proof. exact windows_archive. Qed.
Print Assumptions C135_windows_archive_partial.
Theorem C135_windows_to_unix_partial : forall z (C : zlib_contract z) es F e alloc hal al stk obuf hjunk pjunk T archive inp t o fuel,
  warchives_dir z es F -> input_of archive F inp -> (length inp < fuel)%nat ->
  calm z hal al stk obuf hjunk pjunk -> (forall k n, alloc k n = true) ->
  preorder (unlinked_all es) <> [] -> Forall (fun x => quiet (snd x)) es -> NoDup (map fst es) ->
  Forall (fun x => extractable (o_priv o) (o_umask o) (lenN T) (fst x) (snd x)) (unlinked_all es) ->
  free_spot o T t -> usable_dir (o_priv o) (o_umask o) MODE_BASE_DIR -> (forall r, o_fs o (t ++ r) = None) ->
  volume (preorder (unlinked_all es)) <= o_free o ->
  exists dfuel0, forall dfuel, (dfuel0 <= dfuel)%nat -> exists ret s h ds o',
    exec (extract T hal stk z e alloc archive fuel dfuel al obuf hjunk pjunk inp false) o = Ok ((ret, Some (s, h, ds)), o') /\
    (room_left s -> ret = ContentDirectory /\ same_env o o' /\
       forall q, o_fs o' q = overlay t (dir_tree (o_umask o) (unlinked_all es)) (o_fs o) q).
Proof. exact win_to_unix. Qed.
Print Assumptions C135_windows_to_unix_partial.
Example C135_case : exists ret o', warchives_dir rle_zlib wx_tree (wa_arch wa_free wx_tree) /\ preorder (unlinked_all wx_tree) <> [] /\
  Forall (fun x => quiet (snd x)) wx_tree /\ NoDup (map fst wx_tree) /\
  Forall (fun x => extractable false 18 1 (fst x) (snd x)) (unlinked_all wx_tree) /\
  calm rle_zlib hx_hal ax_al hx_stk (zeros DEF_CHUNK_SIZE) ax_hjunk ex_pj /\ free_spot (hx_os 1000) [x6f] [[x77]; [x6f]] /\
  usable_dir false 18 MODE_BASE_DIR /\ (forall r, o_fs (hx_os 1000) ([[x77]; [x6f]] ++ r) = None) /\ volume (preorder (unlinked_all wx_tree)) = 1 /\
  did_all (hx_extract [x6f] 0 (wa_arch wa_free wx_tree) (hx_os 1000)) ret o' /\
  o_fs o' [[x77]; [x6f]; [x44]] = Some (IDir 493) /\ o_fs o' [[x77]; [x6f]; [x44]; [x62;x2e;x54;x58;x54]] = Some (IFile 292 [x31]).
Proof. exact ex_c135. Qed.

(** C136: archiving returns, and the result tells whether every file could be opened and read, none being in use. *)
Theorem C136_file_in_use : forall z (C : zlib_contract z) F e (filt : F -> list bytes -> bytes -> skind -> Z * F) jk xjk hjunk al locked,
  junk_ok jk (fun _ n => zeros n) xjk hjunk ->
  forall fuel level clbk nested xs es f0 r cevs ws wx led, accepts filt -> tree_fits (Some es) -> Forall xb_ok xs -> created z al level ->
  wcompress_dir z e filt jk xjk hjunk al locked fuel level clbk nested xs (Some es) f0 = Ok (r, cevs, ws, wx, led) ->
  (r = CRet 0 /\ Forall (fun x => wsound locked [] (fst x) (snd x)) es) \/ (r = CRet 2 /\ ~ Forall (fun x => wsound locked [] (fst x) (snd x)) es).
Proof. exact win_reported. Qed.
Print Assumptions C136_file_in_use.
Theorem C136_returns : forall z (C : zlib_contract z) F e (filt : F -> list bytes -> bytes -> skind -> Z * F) jk xjk hjunk al locked,
  junk_ok jk (fun _ n => zeros n) xjk hjunk ->
  forall level clbk nested xs es f0, accepts filt -> tree_fits (Some es) -> Forall xb_ok xs ->
  exists fuel r cevs ws wx led, wcompress_dir z e filt jk xjk hjunk al locked fuel level clbk nested xs (Some es) f0 = Ok (r, cevs, ws, wx, led).
Proof. exact win_returns. Qed.
Print Assumptions C136_returns.
(** Every file could be opened if it were not in use. *)
Example C136_case : exists cevs ws wx led, junk_ok (ax_jk x11) (fun _ n => zeros n) ax_xjk ax_hjunk /\ accepts ax_all /\ tree_fits (Some wx_tree) /\ created rle_zlib ax_al 9 /\
  Forall (fun x => sound (fst x) (snd x)) wx_tree /\ wa_run wa_locked wx_tree = Ok (CRet 2, cevs, ws, wx, led).
Proof. exact ex_c136. Qed.

(** C137: archiving a directory on Windows and extracting the archive there copies it. *)
Theorem C137_windows_copy : forall maxd maxf deny z (C : zlib_contract z) s es F e alloc hal al stk obuf hjunk pjunk T archive inp t w fuel,
  wsane (w_fs w) -> wlists (w_fs w) s es -> wsuitable maxd maxf (lenN T) (w_fs w) s -> (exists c, w_fs w (s ++ [c]) <> None) -> warchives_dir z es F ->
  input_of archive F inp -> (length inp < fuel)%nat -> calm z hal al stk obuf hjunk pjunk -> (forall k n, alloc k n = true) -> (forall q, deny q = false) ->
  maxf <= PATH_MAX -> wfree maxd w T t ->
  exists dfuel0, forall dfuel, (dfuel0 <= dfuel)%nat -> exists ret q h ds w',
    xextract maxd maxf deny T hal stk z e alloc archive fuel dfuel al obuf hjunk pjunk inp false w = Ok (Some ret, Some (q, h, ds), w') /\
    (room_left q -> ret = ContentDirectory /\ same_w w w' /\ wcopy (w_fs w) s (w_fs w') t).
Proof. exact wcopied. Qed.
Print Assumptions C137_windows_copy.
Example C137_case : exists ret w', wsane (w_fs wc_w) /\ wlists (w_fs wc_w) [[x73]] wc_tree /\ wsuitable 248 260 1 (w_fs wc_w) [[x73]] /\
  w_fs wc_w [[x73]; [x64]] <> None /\ warchives_dir rle_zlib wc_tree (wa_arch wa_free wc_tree) /\
  calm rle_zlib hx_hal ax_al hx_stk (zeros DEF_CHUNK_SIZE) ax_hjunk ex_pj /\ wfree 248 wc_w [x6f] [[x77]; [x6f]] /\
  wdid_all (wx_extract [x6f] (wa_arch wa_free wc_tree) wc_w) ret w' /\ ret = Some ContentDirectory /\
  w_fs w' [[x77]; [x6f]; [x64]; [x62;x2e;x74;x78;x74]] = Some (XFile true [x31]) /\ w_fs w' [[x77]; [x6f]; [x65]] = Some (XFile false [x32;x33]).
Proof. exact ex_c137. Qed.
