(** Properties_Win.v: properties C84 to C89 (installer tool, icons).

    Notions used: a [world] gives the results of the functions the installer calls and the bytes behind its two arrays of
    separators; [strict_c]: nothing is known to be there; [padded]: a NUL follows each array; [short_name]: the address of the
    package has less than 1023 bytes; [key_value key s v]: behind the first [key] in the text [s] come blanks and the value [v].
    [AWeb], [AOpen], [ADelete], [AMove], [AStart], [AWait]: what the installer did.  [icon_file]: an icon file with one image;
    [group_entry]: the entry of the group resource describing it; an [iworld] gives the results of the functions called. *)
From Verif Require Import Base AptGet AptGetFacts AptGetExamples Icon IconFacts AptMore.

(** C84: false.  The sets of separators given to strspn and strcspn have no NUL at their end. *)
Theorem C84_installer_safe_refuted : exists W, strict_c W /\ short_name [x70] /\ w_steps W = Some ag_steps /\
  apt_main W (ag_argv [x70]) = UB.
Proof. exact ex_c84_strict. Qed.
Print Assumptions C84_installer_safe_refuted.

(** C84: in strict C no installation with a root in its steps is well defined. *)
Theorem C84_installer_safe_never : forall W package prog more, strict_c W -> short_name package ->
  w_web W (package_url package) TEMPORARY_DIR = 0%Z ->
  (exists file before rest, w_steps W = Some file /\ lenN file <= 1023 /\ ~ In x00 file /\ file = before ++ ROOT_KEY ++ rest) ->
  apt_main W (prog :: INSTALL :: package :: more) = UB.
Proof. exact installer_never_safe. Qed.
Print Assumptions C84_installer_safe_never.

(** C84: false also with a NUL behind the arrays.  An address that does not fit is not terminated. *)
Theorem C84_long_name_refuted : exists W package, padded W /\ ~ In x00 package /\ lenN package = 1000 /\
  apt_main W (ag_argv package) = UB.
Proof. exact ex_c84_long. Qed.
Print Assumptions C84_long_name_refuted.

(** What remains of C84: a NUL behind each array and short names. *)
Theorem C84_installer_safe_partial : forall W argv, padded W -> (forall package, In package argv -> short_name package) ->
  apt_main W argv <> UB.
Proof. exact installer_safe. Qed.
Print Assumptions C84_installer_safe_partial.
Example C84_case : exists r log, padded (ag_world (Some ag_steps) true [Some x00]) /\ short_name [x70] /\
  apt_main (ag_world (Some ag_steps) true [Some x00]) (ag_argv [x70]) = Ok (r, log).
Proof. exact ex_c84. Qed.

(** C85: false.  The package has no steps: nothing is installed, the exit status is 0. *)
Theorem C85_exit_status_refuted : exists url file,
  apt_main (ag_world None true [Some x00]) (ag_argv [x70]) = Ok (0%Z, [AWeb url TEMPORARY_DIR; AOpen file]).
Proof. exact ex_c85_no_steps. Qed.
Print Assumptions C85_exit_status_refuted.
(** C85: false.  The package could not be moved to its place. *)
Theorem C85_not_moved_refuted : exists url file,
  apt_main (ag_world (Some ag_steps) false [Some x00]) (ag_argv [x70]) =
    Ok (0%Z, [AWeb url TEMPORARY_DIR; AOpen file; ADelete file; AMove TEMPORARY_DIR ag_root]) /\
  w_move (ag_world (Some ag_steps) false [Some x00]) TEMPORARY_DIR ag_root = false.
Proof. exact ex_c85_not_moved. Qed.
Print Assumptions C85_not_moved_refuted.

(** What remains of C85: the exit status says whether the download succeeded, nothing else. *)
Theorem C85_exit_status_partial : forall W prog package more r log,
  apt_main W (prog :: INSTALL :: package :: more) = Ok (r, log) ->
  exists url log', log = AWeb url TEMPORARY_DIR :: log' /\ (r = 0%Z <-> w_web W url TEMPORARY_DIR = 0%Z).
Proof. exact exit_status. Qed.
Print Assumptions C85_exit_status_partial.
Example C85_case : exists r log, padded (ag_world (Some ag_steps) true [Some x00]) /\ short_name [x70] /\
  apt_main (ag_world (Some ag_steps) true [Some x00]) (ag_argv [x70]) = Ok (r, log).
Proof. exact ex_c84. Qed.

(** C86: false.  With values of 500 and 513 bytes in a file of 1023 bytes the program gets /Instal instead of /Install. *)
Theorem C86_program_started_refuted : exists url file, key_value ROOT_KEY ag_long (repeat x61 500) /\
  key_value RUN_KEY ag_long (repeat x62 513) /\ lenN ag_long = 1023 /\
  apt_main (ag_world (Some ag_long) true [Some x00]) (ag_argv [x70]) =
    Ok (0%Z, [AWeb url TEMPORARY_DIR; AOpen file; ADelete file; AMove TEMPORARY_DIR (repeat x61 500);
      AStart (repeat x61 500 ++ [backslash] ++ repeat x62 513 ++ [x20;x2f;x49;x6e;x73;x74;x61;x6c]); AWait]).
Proof. exact ex_c86_cut. Qed.
Print Assumptions C86_program_started_refuted.

(** What remains of C86: values of at most 1012 bytes together, in a file of at most 1023 bytes. *)
Theorem C86_program_started_partial : forall W prog package more file root run, padded W -> short_name package ->
  (forall u d, w_web W u d = 0%Z) -> w_steps W = Some file -> lenN file <= 1023 -> ~ In x00 file ->
  key_value ROOT_KEY file root -> key_value RUN_KEY file run -> root <> TEMPORARY_DIR -> w_move W TEMPORARY_DIR root = true ->
  lenN root + lenN run <= 1012 ->
  exists log, apt_main W (prog :: INSTALL :: package :: more) = Ok (0%Z, log) /\
    filter (fun a => match a with AMove _ _ => true | AStart _ => true | _ => false end) log =
      [AMove TEMPORARY_DIR root; AStart (root ++ [backslash] ++ run ++ INSTALL_ARG)].
Proof. exact program_started. Qed.
Print Assumptions C86_program_started_partial.
Example C86_case : exists url file, key_value ROOT_KEY ag_steps ag_root /\ key_value RUN_KEY ag_steps ag_run /\ lenN ag_steps <= 1023 /\
  ~ In x00 ag_steps /\ ag_root <> TEMPORARY_DIR /\ lenN ag_root + lenN ag_run <= 1012 /\
  apt_main (ag_world (Some ag_steps) true [Some x00]) (ag_argv [x70]) =
    Ok (0%Z, [AWeb url TEMPORARY_DIR; AOpen file; ADelete file; AMove TEMPORARY_DIR ag_root;
      AStart (ag_root ++ [backslash] ++ ag_run ++ [x20;x2f;x49;x6e;x73;x74;x61;x6c;x6c]); AWait]).
Proof. exact ex_c86. Qed.

(** C87: false.  An icon file shorter than 22 bytes. *)
Theorem C87_icon_safe_refuted : set_icon (ic_world [x41] 1 true true) ic_prog = UB.
Proof. exact ex_c87_short. Qed.
Print Assumptions C87_icon_safe_refuted.
(** What remains of C87: icon files of at least 22 bytes. *)
Theorem C87_icon_safe_partial : forall W p, (forall size, iw_size W = Some size -> 22 <= size) -> set_icon W p <> UB.
Proof. exact icon_safe. Qed.
Print Assumptions C87_icon_safe_partial.
Example C87_case : exists p', (forall size, iw_size (ic_world ic_file 24 true true) = Some size -> 22 <= size) /\
  set_icon (ic_world ic_file 24 true true) ic_prog = Ok (0%Z, p').
Proof. exact ex_c87. Qed.

(** C88: false.  The group entry could not be set: the icon is written nevertheless. *)
Theorem C88_icon_unchanged_refuted : exists p', set_icon (ic_world ic_file 24 false true) ic_prog = Ok (1%Z, p') /\
  p' RIcon = Some [Some x41; Some x42] /\ p' RGroup = None /\ ic_prog RIcon = None.
Proof. exact ex_c88_half. Qed.
Print Assumptions C88_icon_unchanged_refuted.
(** C88: false.  The program could not be written: success is reported. *)
Theorem C88_icon_not_written_refuted : exists p', set_icon (ic_world ic_file 24 true false) ic_prog = Ok (0%Z, p') /\
  p' RIcon = None /\ p' RGroup = None.
Proof. exact ex_c88_not_written. Qed.
Print Assumptions C88_icon_not_written_refuted.
(** What remains of C88: every other failure that is reported leaves the program unchanged. *)
Theorem C88_icon_unchanged_partial : forall W p r p', set_icon W p = Ok (r, p') -> (r = 0%Z -> False) ->
  (iw_icon W = true -> iw_group W = true) -> p' = p.
Proof. exact icon_unchanged. Qed.
Print Assumptions C88_icon_unchanged_partial.
Example C88_case : exists p', set_icon (IWorld (Some ic_file) (Some 24) true true false true true) ic_prog = Ok (1%Z, p') /\
  p' RIcon = ic_prog RIcon.
Proof. exact ex_c88. Qed.
(** The result is 0 or 1; it is 1 exactly if one of the steps before the writing failed. *)
Theorem C88_icon_result : forall W p r p', set_icon W p = Ok (r, p') ->
  (r = 0%Z /\ iw_file W <> None /\ iw_size W <> None /\ iw_malloc W && iw_begin W && iw_icon W && iw_group W = true) \/
  (r = 1%Z /\ (iw_file W = None \/ iw_size W = None \/ iw_malloc W && iw_begin W && iw_icon W && iw_group W = false)).
Proof. exact icon_result. Qed.
Print Assumptions C88_icon_result.
(** On Unix failure is always reported and the program left unchanged. *)
Theorem C88_icon_unix : forall p r p', set_icon_unix p = (r, p') -> r = 1%Z /\ p' = p.
Proof. exact icon_unix. Qed.
Print Assumptions C88_icon_unix.

(** C89: false.  An icon of 48 by 48 pixels is described as one of 32 by 32. *)
Theorem C89_icon_described_refuted : exists p', set_icon (ic_world (icon_file x30 x30 0 1 32 [x41; x42]) 24 true true) ic_prog = Ok (0%Z, p') /\
  p' RGroup = Some (map Some (group_entry x20 x20 0 2 32 [x41; x42] 1)) /\
  p' RGroup <> Some (map Some (group_entry x30 x30 0 1 32 [x41; x42] 1)).
Proof. exact ex_c89_size. Qed.
Print Assumptions C89_icon_described_refuted.
(** C89: false.  A file shorter than its reported size: a byte of memory that was never written gets into the program. *)
Theorem C89_icon_memory_refuted : exists p', set_icon (ic_world ic_file 25 true true) ic_prog = Ok (0%Z, p') /\
  p' RIcon = Some [Some x41; Some x42; None].
Proof. exact ex_c89_memory. Qed.
Print Assumptions C89_icon_memory_refuted.
(** What remains of C89: a file read completely, a program written; then the image is in the program, and the entry has its size
    and its number, but always 32 by 32 pixels, 2 planes, 32 bits. *)
Theorem C89_icon_described_partial : forall W p p' w h colours planes bits image,
  iw_file W = Some (icon_file w h colours planes bits image) ->
  iw_size W = Some (lenN (icon_file w h colours planes bits image)) -> lenN image < two32 - 22 -> iw_end W = true ->
  set_icon W p = Ok (0%Z, p') ->
  p' RIcon = Some (map Some image) /\ p' RGroup = Some (map Some (group_entry x20 x20 0 2 32 image 1)).
Proof. exact icon_set. Qed.
Print Assumptions C89_icon_described_partial.
Example C89_case : exists p', iw_file (ic_world ic_file 24 true true) = Some ic_file /\
  iw_size (ic_world ic_file 24 true true) = Some (lenN ic_file) /\
  set_icon (ic_world ic_file 24 true true) ic_prog = Ok (0%Z, p') /\ p' RIcon = Some [Some x41; Some x42] /\
  p' RGroup = Some (map Some (group_entry x20 x20 0 2 32 [x41; x42] 1)).
Proof. exact ex_c89. Qed.
