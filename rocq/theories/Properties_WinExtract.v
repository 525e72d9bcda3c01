(** Properties C124-C127 (extraction on Windows).
    [xextract maxd maxf deny T ... archive ... inp rderr w]: ZlibWtDecompressFileOrDirEx on Windows in the state [w]; names are compared without case,
    '/' and '\' separate them; nothing can be created where [deny] holds.  Result [None]: the C runtime has terminated the process.
    [wfree]: the target names an entry that does not exist, in a directory that does.  [win_tree es]: the listing [es] as Windows can hold it,
    without links; files without write permission are read-only.  [xoverlay t g fs]: the tree [g] at [t], elsewhere [fs].
    [xconfined t fs fs']: only entries at or below [t] differ.  [calm], [archives_dir], [room_left]: as in Properties_Extract.v.
    [spelled sep B cs]: the path B, then the names cs, each after the separator sep; [uniform sep B]: sep is '/', or it is '\' and B contains no '/';
    [wentry c]: a name without separators and NUL, not empty, neither . nor .. *)
From Coq Require Import String.
From Verif Require Import Base Format Zlib RleZlib LLCompress Compress Parser ParserProofs ParserFacts Decompress DecompressProofs
  DecompressFacts MidProofs MidFacts DecompressExamples ArchiveSpec ArchiveFacts ArchiveDecode ArchiveEntry ArchiveProps ArchiveExamples
  FS FSFacts HL HLSpec HLFacts HLDrive HLProps HLSafe MkdirFacts HLTame HLMkdir HLMore HLExamples WinTools WinFacts WinExtract WinExtractSpec WinExtractFacts
  WinExtractTame WinExtractExamples WinCase WinParents WinParentsExamples.

(** C124: false.  Files a ("123") and A ("2") become one file with the contents "223", and the result is that of success. *)
Theorem C124_windows_directory_refuted : exists ret w', archives_dir rle_zlib wx_two (hx_arch wx_two) /\
  calm rle_zlib hx_hal ax_al hx_stk (zeros DEF_CHUNK_SIZE) ax_hjunk ex_pj /\
  Forall (fun x => quiet (snd x)) wx_two /\ NoDup (map fst wx_two) /\ wfree 248 wx_w [x6f] [[x77]; [x6f]] /\
  wdid_all (wx_extract [x6f] (hx_arch wx_two) wx_w) ret w' /\ ret = Some ContentDirectory /\
  w_fs w' [[x77]; [x6f]; [x61]] = Some (XFile false [x32;x32;x33]).
Proof. exact ex_c124_refuted. Qed.
Print Assumptions C124_windows_directory_refuted.
(** What remains of C124: at least one entry, names that mean the same on Windows, no two in a directory that differ only in case, paths within
    the limits. *)
Theorem C124_windows_directory_partial : forall maxd maxf deny z (C : zlib_contract z) es F e alloc hal al stk obuf hjunk pjunk T archive inp t w fuel,
  archives_dir z es F -> input_of archive F inp -> (length inp < fuel)%nat ->
  calm z hal al stk obuf hjunk pjunk -> (forall k n, alloc k n = true) -> (forall q, deny q = false) -> maxf <= PATH_MAX ->
  preorder es <> [] -> Forall (fun x => quiet (snd x)) es -> NoDup (map (fun x => fold_case (fst x)) es) ->
  Forall (fun x => wextractable maxd maxf (lenN T) (fst x) (snd x)) es -> wfree maxd w T t ->
  exists dfuel0, forall dfuel, (dfuel0 <= dfuel)%nat -> exists ret s h ds w',
    xextract maxd maxf deny T hal stk z e alloc archive fuel dfuel al obuf hjunk pjunk inp false w = Ok (Some ret, Some (s, h, ds), w') /\
    (room_left s -> ret = ContentDirectory /\ same_w w w' /\ forall q, w_fs w' q = xoverlay t (win_tree es) (w_fs w) q).
Proof. exact wdisk_dir. Qed.
Print Assumptions C124_windows_directory_partial.
Example C124_case : exists ret w', archives_dir rle_zlib wx_tree (hx_arch wx_tree) /\
  calm rle_zlib hx_hal ax_al hx_stk (zeros DEF_CHUNK_SIZE) ax_hjunk ex_pj /\ preorder wx_tree <> [] /\
  Forall (fun x => quiet (snd x)) wx_tree /\ NoDup (map (fun x => fold_case (fst x)) wx_tree) /\
  Forall (fun x => wextractable 248 260 1 (fst x) (snd x)) wx_tree /\ wfree 248 wx_w [x6f] [[x77]; [x6f]] /\
  wdid_all (wx_extract [x6f] (hx_arch wx_tree) wx_w) ret w' /\ ret = Some ContentDirectory /\
  w_fs w' [[x77]; [x6f]; [x64]] = Some XDir /\ w_fs w' [[x77]; [x6f]; [x64]; [x62;x2e;x74;x78;x74]] = Some (XFile true [x31]) /\
  w_fs w' [[x77]; [x6f]; [x6c]] = None.
Proof. exact ex_c124. Qed.
(** Two names are one name on Windows if they differ only in the case of letters. *)
Theorem C124_names_in_case : forall n m, fold_case n = fold_case m <-> Forall2 same_letter n m.
Proof. exact fold_letters. Qed.
Print Assumptions C124_names_in_case.
Example C124_names_case : Forall2 same_letter (list_byte_of_string "aZ1.-") (list_byte_of_string "Az1.-") /\ ~ Forall2 same_letter (list_byte_of_string "[") (list_byte_of_string "{").
Proof. exact ex_letters. Qed.

(** The target may be below directories that are missing: B and, below it, cs; no '\' after a '/' among their separators.  The directories on the way
    are made, the tree is in the last one, all else is as before. *)
Theorem C124_windows_parents_partial : forall maxd maxf deny z (C : zlib_contract z) es F e alloc hal al stk obuf hjunk pjunk sep B cs archive inp P w fuel,
  archives_dir z es F -> input_of archive F inp -> (length inp < fuel)%nat ->
  calm z hal al stk obuf hjunk pjunk -> (forall k n, alloc k n = true) -> (forall q, deny q = false) -> maxf <= PATH_MAX ->
  preorder es <> [] -> Forall (fun x => quiet (snd x)) es -> NoDup (map (fun x => fold_case (fst x)) es) ->
  Forall (fun x => wextractable maxd maxf (lenN (spelled sep B cs)) (fst x) (snd x)) es ->
  uniform sep B -> Forall wentry cs -> (length cs <= 61)%nat -> lenN (spelled sep B cs) < maxd -> wfree maxd w B P ->
  exists dfuel0, forall dfuel, (dfuel0 <= dfuel)%nat -> exists ret s h ds w',
    xextract maxd maxf deny (spelled sep B cs) hal stk z e alloc archive fuel dfuel al obuf hjunk pjunk inp false w = Ok (Some ret, Some (s, h, ds), w') /\
    (room_left s -> ret = ContentDirectory /\ same_w w w' /\
      (forall r, w_fs w' (P ++ map fold_case cs ++ r) = win_tree es r) /\
      (forall k, w_fs w' (P ++ firstn k (map fold_case cs)) = Some XDir) /\
      (forall q, (forall r, q <> P ++ map fold_case cs ++ r) -> (forall k, q <> P ++ firstn k (map fold_case cs)) -> w_fs w' q = w_fs w q)).
Proof. exact wdisk_parents. Qed.
Print Assumptions C124_windows_parents_partial.
Example C124_parents_case : exists ret w', spelled x5c [x6f] [[x50]; [x71]] = [x6f;x5c;x50;x5c;x71] /\ uniform x5c [x6f] /\ Forall wentry [[x50]; [x71]] /\
  wfree 248 wx_w [x6f] [[x77]; [x6f]] /\ Forall (fun x => wextractable 248 260 (lenN [x6f;x5c;x50;x5c;x71]) (fst x) (snd x)) wx_tree /\
  wdid_all (wx_extract [x6f;x5c;x50;x5c;x71] (hx_arch wx_tree) wx_w) ret w' /\ ret = Some ContentDirectory /\
  w_fs w' [[x77]; [x6f]; [x70]] = Some XDir /\ w_fs w' [[x77]; [x6f]; [x70]; [x71]; [x64]; [x62;x2e;x74;x78;x74]] = Some (XFile true [x31]).
Proof. exact ex_c124_parents. Qed.

(** C125: false.  An archive made on Unix of a directory with the file [..\x]. *)
Theorem C125_windows_stays_below_refuted : exists ret w', archives_dir rle_zlib wx_bad (hx_arch wx_bad) /\
  calm rle_zlib hx_hal ax_al hx_stk (zeros DEF_CHUNK_SIZE) ax_hjunk ex_pj /\
  Forall (fun x => quiet (snd x)) wx_bad /\ Forall (fun x => extractable false 18 1 (fst x) (snd x)) wx_bad /\ wfree 248 wx_w [x6f] [[x77]; [x6f]] /\
  wdid (wx_extract [x6f] (hx_arch wx_bad) wx_w) ret w' /\
  strip [[x77]; [x6f]] [[x77]; [x78]] = None /\ w_fs wx_w [[x77]; [x78]] = None /\ w_fs w' [[x77]; [x78]] = Some (XFile false [x7a]).
Proof. exact ex_c125_refuted. Qed.
Print Assumptions C125_windows_stays_below_refuted.
(** What remains of C125: archives, also truncated or damaged ones, for which every decoding calls back only with names of the announced length that
    mean the same on Windows and leaves only directories it entered ([lists_wtame]); whatever else fails. *)
Theorem C125_windows_stays_below_partial : forall maxd maxf deny z (C : zlib_contract z) e alloc hal al stk obuf hjunk pjunk,
  calm z hal al stk obuf hjunk pjunk -> forall T archive inp t w fuel, (length inp < fuel)%nat ->
  supported z C (first_bytes archive inp) -> lists_wtame (z := z) e alloc (lenN T) stk (first_bytes archive inp) -> wfree maxd w T t -> deny t = false ->
  exists dfuel0, forall dfuel, (dfuel0 <= dfuel)%nat -> exists ret x w',
    xextract maxd maxf deny T hal stk z e alloc archive fuel dfuel al obuf hjunk pjunk inp false w = Ok (ret, x, w') /\
    w_cwd w' = w_cwd w /\ xconfined t (w_fs w) (w_fs w').
Proof. exact wtame_confined. Qed.
Print Assumptions C125_windows_stays_below_partial.
(** Such archives are those that the library writes of trees with such names, also if names differ only in case, and also if they are cut short. *)
Theorem C125_windows_own_partial : forall maxd maxf deny z (C : zlib_contract z) es F e alloc hal al stk obuf hjunk pjunk T archive inp t w fuel,
  archives_dir z es F -> prefix (first_bytes archive inp) F -> (length inp < fuel)%nat ->
  calm z hal al stk obuf hjunk pjunk -> (forall k n, alloc k n = true) -> deny t = false ->
  Forall (fun x => quiet (snd x)) es -> Forall (fun x => wnamed (lenN T) (fst x) (snd x)) es -> wfree maxd w T t ->
  exists dfuel0, forall dfuel, (dfuel0 <= dfuel)%nat -> exists ret x w',
    xextract maxd maxf deny T hal stk z e alloc archive fuel dfuel al obuf hjunk pjunk inp false w = Ok (ret, x, w') /\
    w_cwd w' = w_cwd w /\ xconfined t (w_fs w) (w_fs w') /\ (ret = None -> exists s h ds, x = Some (s, h, ds) /\ h_err h = true).
Proof. exact wdisk_confined. Qed.
Print Assumptions C125_windows_own_partial.
Example C125_case : Forall (fun x => wnamed 1 (fst x) (snd x)) wx_two /\ Forall (fun x => wnamed 1 (fst x) (snd x)) wx_tree /\
  ~ Forall (fun x => wnamed 1 (fst x) (snd x)) wx_bad /\ prefix (first_bytes 0 (takeN 140 (hx_arch wx_two))) (hx_arch wx_two).
Proof. exact ex_c125. Qed.

(** C126: false.  A directory e and a file E: the file cannot be opened, and the write to the descriptor -1 terminates the process. *)
Theorem C126_windows_returns_refuted : exists w', archives_dir rle_zlib wx_bad (hx_arch wx_bad) /\
  calm rle_zlib hx_hal ax_al hx_stk (zeros DEF_CHUNK_SIZE) ax_hjunk ex_pj /\
  Forall (fun x => quiet (snd x)) wx_bad /\ Forall (fun x => extractable false 18 1 (fst x) (snd x)) wx_bad /\ NoDup (map fst wx_bad) /\
  wfree 248 wx_w [x6f] [[x77]; [x6f]] /\ wdid (wx_extract [x6f] (hx_arch wx_bad) wx_w) None w'.
Proof. exact ex_c126_refuted. Qed.
Print Assumptions C126_windows_returns_refuted.
(** What remains of C126: for the archives of C125 the process is terminated only after a file or directory could not be created, that is, when the
    error flag of the extraction is set. *)
Theorem C126_windows_returns_partial : forall maxd maxf deny z (C : zlib_contract z) e alloc hal al stk obuf hjunk pjunk,
  calm z hal al stk obuf hjunk pjunk -> forall T archive inp t w fuel dfuel ret x w',
  supported z C (first_bytes archive inp) -> lists_wtame (z := z) e alloc (lenN T) stk (first_bytes archive inp) -> wfree maxd w T t -> deny t = false ->
  xextract maxd maxf deny T hal stk z e alloc archive fuel dfuel al obuf hjunk pjunk inp false w = Ok (ret, x, w') ->
  ret = None -> exists s h ds, x = Some (s, h, ds) /\ h_err h = true.
Proof. exact wtame_returns. Qed.
Print Assumptions C126_windows_returns_partial.
Example C126_case : lists_wtame (z := rle_zlib) LE ex_alloc 1 hx_stk (hx_arch wx_two) /\ supported rle_zlib rle_contract (hx_arch wx_two) /\
  wfree 248 wx_w [x6f] [[x77]; [x6f]].
Proof. exact ex_c126. Qed.

(** C127: the archive of a file with at least one byte replaces the contents of the file it is extracted to. *)
Theorem C127_windows_file : forall maxd maxf deny z (C : zlib_contract z) data F e alloc hal al stk obuf hjunk pjunk T archive inp t w fuel,
  archives_file z data F -> input_of archive F inp -> (length inp < fuel)%nat ->
  calm z hal al stk obuf hjunk pjunk -> data <> [] -> wspot maxf deny w T t ->
  exists dfuel0, forall dfuel, (dfuel0 <= dfuel)%nat -> exists ret s h ds w',
    xextract maxd maxf deny T hal stk z e alloc archive fuel dfuel al obuf hjunk pjunk inp false w = Ok (Some ret, Some (s, h, ds), w') /\
    same_w w w' /\ (room_left s -> ret = ContentFile /\ forall q, w_fs w' q = xupd (w_fs w) t (XFile false data) q).
Proof. exact wdisk_file. Qed.
Print Assumptions C127_windows_file.
Example C127_case : exists ret w', archives_file rle_zlib [x61;x62] (hx_farch [x61;x62]) /\ wspot 260 (fun _ => false) wx_w [x46] [[x77]; [x66]] /\
  wdid_all (wx_extract [x46] (hx_farch [x61;x62]) wx_w) ret w' /\ ret = Some ContentFile /\
  w_fs wx_w [[x77]; [x66]] = Some (XFile false [x6f;x6c;x64]) /\ w_fs w' [[x77]; [x66]] = Some (XFile false [x61;x62]).
Proof. exact ex_c127. Qed.
