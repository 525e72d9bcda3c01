(** Properties_WinDirs.v: properties C117 to C119 (directories on Windows).

    Notions used: [wtree]: the entries of a Windows file system by their components; [wcomps s]: the components of the path s, separated by '/' or '\';
    [wmkdir_recurse deny s fs]: MkdirRecurseInline with the path s, where [deny] says what the process may not create; [wdir fs p]: p is a directory.
    [wname c]: c is not empty and contains no separator and no NUL.  [spelled sep B cs]: the path B, then the names cs, each after the separator sep.
    [uniform sep B]: sep is '/', or sep is '\' and B contains no '/'.
    [wremove rest fs]: RemoveNonEmptyDirectory(".out_dir"), where [rest] are the bytes that follow the string in memory; [UB]: memory after them is read. *)
From Verif Require Import Base FS HL WinTools WinFacts WinExtract WinExtractSpec WinExtractExamples WinParents WinParentsExamples WinExamples.

(** C117: false.  d exists; d\a and then d/a\b can be created, d/a\b alone cannot. *)
Theorem C117_spelling_refuted : (exists fs1, wmkdir_recurse wx_any [x64;x5c;x61] wx_fs = Ok (0%Z, fs1) /\
    exists fs2, wmkdir_recurse wx_any [x64;x2f;x61;x5c;x62] fs1 = Ok (0%Z, fs2) /\ fs2 [[x64];[x61];[x62]] = Some WnDir) /\
  exists fs', wmkdir_recurse wx_any [x64;x2f;x61;x5c;x62] wx_fs = Ok ((-1)%Z, fs') /\ fs' [[x64];[x61]] = None.
Proof. exact ex_c117_mixed. Qed.
Print Assumptions C117_spelling_refuted.
(** What remains of C117: the missing directories are B and, below it, cs, at most 62 of them; no '\' after a '/' among their separators. *)
Theorem C117_spelling_partial : forall deny sep B cs fs, uniform sep B -> ~ In x00 B -> wcomps B <> [] -> Forall wname cs -> (length cs <= 61)%nat ->
  wdir fs (removelast (wcomps B)) = true -> (forall r, fs (wcomps B ++ r) = None) -> (forall r, deny (wcomps B ++ r) = false) ->
  exists fs', wmkdir_recurse deny (spelled sep B cs) fs = Ok (0%Z, fs') /\
    (forall k, fs' (wcomps B ++ firstn k cs) = Some WnDir) /\
    (forall q, (forall k, q <> wcomps B ++ firstn k cs) -> fs' q = fs q).
Proof. exact win_parents. Qed.
Print Assumptions C117_spelling_partial.
Example C117_case : uniform x5c [x64;x5c;x61] /\ ~ In x00 [x64;x5c;x61] /\ wcomps [x64;x5c;x61] = [[x64];[x61]] /\ Forall wname [[x62];[x63]] /\
  wdir wx_fs (removelast (wcomps [x64;x5c;x61])) = true /\ (forall r, wx_fs (wcomps [x64;x5c;x61] ++ r) = None) /\
  spelled x5c [x64;x5c;x61] [[x62];[x63]] = [x64;x5c;x61;x5c;x62;x5c;x63] /\
  exists fs', wmkdir_recurse wx_any [x64;x5c;x61;x5c;x62;x5c;x63] wx_fs = Ok (0%Z, fs') /\ fs' [[x64];[x61];[x62];[x63]] = Some WnDir.
Proof. exact ex_c117. Qed.

(** In the current directory, which exists, both separators can be used. *)
Theorem C117_top_partial : forall deny sep c cs fs, is_sep sep = true -> Forall wname (c :: cs) -> (length cs <= 61)%nat ->
  (forall r, fs (c :: r) = None) -> (forall r, deny (c :: r) = false) ->
  exists fs', wmkdir_recurse deny (spelled sep c cs) fs = Ok (0%Z, fs') /\
    (forall k, fs' (c :: firstn k cs) = Some WnDir) /\ (forall q, (forall k, q <> c :: firstn k cs) -> fs' q = fs q).
Proof. exact win_top. Qed.
Print Assumptions C117_top_partial.
Example C117_top_case : is_sep x5c = true /\ Forall wname [[x61]; [x62]] /\
  exists fs', wmkdir_recurse (fun _ => false) [x61;x5c;x62] (fun _ => None) = Ok (0%Z, fs') /\ fs' [[x61]] = Some WnDir /\ fs' [[x61]; [x62]] = Some WnDir.
Proof. exact ex_c117_top. Qed.
(** The same for the extraction, where "." and ".." in paths are followed and names compare without case ([xkey]: the entry a path names). *)
Theorem C117_extraction_partial : forall maxd deny sep B cs w P, uniform sep B -> ~ In x00 B -> B <> [] -> xkey (w_cwd w) B = P -> P <> [] ->
  Forall wentry cs -> (length cs <= 61)%nat -> lenN (spelled sep B cs) < maxd ->
  w_fs w (removelast P) = Some XDir -> (forall r, w_fs w (P ++ r) = None) -> (forall r, deny (P ++ r) = false) ->
  exists fs', xmkdir maxd deny true (spelled sep B cs) w = Ok (0%Z, w_setfs fs' w) /\
    (forall k, fs' (P ++ firstn k (map fold_case cs)) = Some XDir) /\
    (forall q, (forall k, q <> P ++ firstn k (map fold_case cs)) -> fs' q = w_fs w q).
Proof. exact xwin_parents. Qed.
Print Assumptions C117_extraction_partial.
Example C117_extraction_case : uniform x5c [x6f] /\ ~ In x00 [x6f] /\ xkey (w_cwd wx_w) [x6f] = [[x77]; [x6f]] /\ Forall wentry [[x50]; [x71]] /\
  w_fs wx_w [[x77]] = Some XDir /\ (forall r, w_fs wx_w ([[x77]; [x6f]] ++ r) = None) /\
  exists w', xmkdir 248 (fun _ => false) true [x6f;x5c;x50;x5c;x71] wx_w = Ok (0%Z, w') /\ w_fs w' [[x77]; [x6f]; [x70]; [x71]] = Some XDir.
Proof. exact ex_c117_extract. Qed.

(** C118: false.  f is a file. *)
Theorem C118_exists_refuted : wmkdir_recurse wx_any [x66] wx_fs = Ok (1%Z, wx_fs) /\ wx_fs [[x66]] = Some WnFile.
Proof. exact ex_c118_file. Qed.
Print Assumptions C118_exists_refuted.
(** What remains of C118: if 1 is returned then the path names something and nothing was changed. *)
Theorem C118_exists_partial : forall deny s fs fs', ~ In x00 s -> wmkdir_recurse deny s fs = Ok (1%Z, fs') -> fs' = fs /\ fs (wcomps s) <> None.
Proof. exact win_exists. Qed.
Print Assumptions C118_exists_partial.
(** Whatever is returned, what was there stays and what is new is a directory; if 0 is returned the path is a directory. *)
Theorem C118_made_partial : forall deny s fs r fs', ~ In x00 s -> wmkdir_recurse deny s fs = Ok (r, fs') ->
  (forall q, fs' q = fs q \/ (fs q = None /\ fs' q = Some WnDir)) /\ (r = 0%Z -> fs' (wcomps s) = Some WnDir).
Proof. exact win_made. Qed.
Print Assumptions C118_made_partial.
Example C118_case : ~ In x00 [x64;x5c] /\ wmkdir_recurse wx_any [x64;x5c] wx_fs = Ok (1%Z, wx_fs) /\
  ~ In x00 [x64;x2f;x61] /\ exists fs', wmkdir_recurse wx_any [x64;x2f;x61] wx_fs = Ok (0%Z, fs') /\ fs' [[x64];[x61]] = Some WnDir.
Proof. exact ex_c118. Qed.

(** C119: false.  The string has one NUL at its end, the list of names that SHFileOperationA expects has two: the file "main.ico", whose name follows in
    memory, is removed as well; or memory after the string is read. *)
Theorem C119_removes_only_refuted : exists fs', wremove (wx_icon ++ [x00; x00]) wx_fs2 = Ok fs' /\ wx_fs2 [wx_icon] = Some WnFile /\ fs' [wx_icon] = None.
Proof. exact ex_c119_more. Qed.
Print Assumptions C119_removes_only_refuted.
Theorem C119_memory_refuted : wremove [] wx_fs2 = UB.
Proof. exact ex_c119_end. Qed.
Print Assumptions C119_memory_refuted.
(** What remains of C119: the string happens to be followed by another NUL; then exactly .out_dir and what is below it is removed. *)
Theorem C119_removes_only_partial : forall rest fs, exists fs', wremove (x00 :: rest) fs = Ok fs' /\
  (forall r, fs' ([x2e;x6f;x75;x74;x5f;x64;x69;x72] :: r) = None) /\ (forall q, hd [] q <> [x2e;x6f;x75;x74;x5f;x64;x69;x72] -> fs' q = fs q).
Proof. exact win_remove. Qed.
Print Assumptions C119_removes_only_partial.
Example C119_case : exists fs', wremove [x00;x70] wx_fs2 = Ok fs' /\ wx_fs2 [out_folder; wx_maind] = Some WnFile /\
  fs' [out_folder; wx_maind] = None /\ fs' [wx_icon] = Some WnFile.
Proof. exact ex_c119. Qed.
