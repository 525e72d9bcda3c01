(** Properties_WinCutDir.v: C99 for extraction on Windows.

    Notions used: [cut_input], [layout], [begun], [places], [encodes], [room_left]: as for C99 (Properties_Cut.v).  [xextract], [wextractable], [wfree], [xoverlay]: as for
    C124 (Properties_WinExtract.v).  [wtarget_with l]: the target directory and in it the entries l, with names in lower case; a file is read-only if its owner
    cannot write. *)
From Verif Require Import Base Format Zlib RleZlib Compress Parser ParserProofs ParserFacts Decompress DecompressProofs MidProofs MidFacts DecompressExamples
  ArchiveSpec ArchiveFacts ArchiveDecode ArchiveExamples FS FSFacts HL HLSpec HLFacts HLDrive HLProps HLExamples CutSpec CutFacts CutRun CutProps CutExamples
  WinTools WinExtract WinExtractSpec WinExtractFacts WinExtractExamples WinCutDir.

(** C99 on Windows: whatever beginning of its archive is extracted and wherever reading fails, the process is not terminated, and what is found below the target is a
    beginning of the directory; without read errors it contains every entry all of whose bytes were in the input. *)
Theorem C99_interrupted_windows : forall maxd maxf deny z (C : zlib_contract z) e alloc hal al stk obuf hjunk pjunk,
  calm z hal al stk obuf hjunk pjunk -> (forall k n, alloc k n = true) -> (forall q, deny q = false) -> maxf <= PATH_MAX ->
  forall es F T archive inp t w fuel,
  archives_dir z es F -> cut_input archive F inp -> (length inp < fuel)%nat -> Forall (fun x => quiet (snd x)) es ->
  NoDup (map (fun x => fold_case (fst x)) es) -> Forall (fun x => wextractable maxd maxf (lenN T) (fst x) (snd x)) es -> wfree maxd w T t ->
  (exists dfuel0, forall dfuel, (dfuel0 <= dfuel)%nat -> exists ret x w',
     xextract maxd maxf deny T hal stk z e alloc archive fuel dfuel al obuf hjunk pjunk inp false w = Ok (ret, x, w')) /\
  forall dfuel rderr ret x w', xextract maxd maxf deny T hal stk z e alloc archive fuel dfuel al obuf hjunk pjunk inp rderr w = Ok (ret, x, w') ->
    exists v s h ds, ret = Some v /\ x = Some (s, h, ds) /\ w_cwd w' = w_cwd w /\ w_dead w' = false /\
    ((forall q, w_fs w' q = w_fs w q) /\ v = ContentNone /\
     (rderr = false -> room_left s -> forall r1 r2 y1, preorder es = r1 ++ r2 -> encodes r1 y1 -> prefix y1 (dropN 128 (zc_dec C inp)) -> r1 = []) \/
     exists done, begun done (layout 0 [] es) /\ (rderr = false -> v = ContentDirectory) /\
       (forall q, w_fs w' q = xoverlay t (wtarget_with done) (w_fs w) q) /\
       (rderr = false -> room_left s -> forall r1 r2 y1, preorder es = r1 ++ r2 -> encodes r1 y1 ->
          prefix y1 (dropN 128 (zc_dec C inp)) -> prefix (places 0 [] r1) done)).
Proof. exact winterrupted. Qed.
Print Assumptions C99_interrupted_windows.
(** The archive of a directory without its end: of the file abc in the directory d two of three bytes are there; b is missing.  Success is reported. *)
Example C99_case_windows : exists ret w', archives_dir rle_zlib hx_tree (hx_arch hx_tree) /\ cut_input 0 (hx_arch hx_tree) (cx_in 69) /\ (length (cx_in 69) < 4000)%nat /\
  calm rle_zlib hx_hal ax_al hx_stk (zeros DEF_CHUNK_SIZE) ax_hjunk ex_pj /\ 260 <= PATH_MAX /\ Forall (fun x => quiet (snd x)) hx_tree /\
  NoDup (map (fun x => fold_case (fst x)) hx_tree) /\ Forall (fun x => wextractable 248 260 1 (fst x) (snd x)) hx_tree /\ wfree 248 wx_w [x6f] [[x77]; [x6f]] /\
  wdid_all (wx_extract [x6f] (cx_in 69) wx_w) ret w' /\ ret = Some ContentDirectory /\ w_fs w' [[x77]; [x6f]; [x64]] = Some XDir /\
  w_fs w' [[x77]; [x6f]; [x64]; [x61;x62;x63]] = Some (XFile false [x31;x32]) /\ w_fs w' [[x77]; [x6f]; [x62]] = None.
Proof. exact ex_c99_windows. Qed.
