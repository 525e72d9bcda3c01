(** Properties_Mkdir.v: properties C121 to C123 (what the results of creating a directory with its parents mean, Unix).

    Notions used: [mkdir_recurse ok B mode]: MkdirRecurseInline with the path string B; [ok]: strdup succeeds.
    [is_dir o B]: the path resolution of stat leads from B to a directory.
    [only_dirs um mode fs fs']: fs' is fs with further directories, which have the permissions [dir_perm um mode].
    [dir_at o P t]: the string P leads to the directory t, as for C46. *)
From Verif Require Import Base Format Zlib Parser Decompress FS FSFacts HL HLSpec HLFacts HLProps MkdirFacts HLExamples MkdirMore MkdirMoreExamples.

(** C121: false.  The working directory cannot be written and has the directory "a": for the path "a\b" the directory "a/b" is created
    and 0 is returned. *)
Theorem C121_result_zero_refuted : exists o B o', ~ In x00 B /\ exec (mkdir_recurse true B 493) o = Ok (0%Z, o') /\ ~ is_dir o' B.
Proof. exact ex_c121. Qed.
Print Assumptions C121_result_zero_refuted.
(** What remains of C121: paths without a backslash. *)
Theorem C121_result_zero_partial : forall ok B mode o, ~ In x00 B -> ~ In x5c B ->
  exists r o', exec (mkdir_recurse ok B mode) o = Ok (r, o') /\ (r = 0%Z \/ r = 1%Z -> is_dir o' B).
Proof. exact mkdir_result. Qed.
Print Assumptions C121_result_zero_partial.
Example C121_case : exists o', ~ In x5c [x61;x2f;x62] /\ exec (mkdir_recurse true [x61;x2f;x62] 493) mm_os = Ok (0%Z, o') /\ is_dir o' [x61;x2f;x62] /\
  is_dir mm_os [x61].
Proof. exact ex_c121_case. Qed.

(** C122: creating a directory returns 0, 1 or -1; existing entries stay as they are; only directories appear;
    after 0 there is a new one, after 1 nothing has changed and the path leads to a directory. *)
Theorem C122_only_directories : forall ok B mode o, ~ In x00 B ->
  exists r o', exec (mkdir_recurse ok B mode) o = Ok (r, o') /\ (r = 0 \/ r = 1 \/ r = -1)%Z /\
    only_dirs (o_umask o) mode (o_fs o) (o_fs o') /\ o' = with_fs (o_fs o') o /\
    (r = 0%Z -> exists q, o_fs o q = None /\ o_fs o' q <> None) /\ (r = 1%Z -> o' = o /\ is_dir o B).
Proof. exact mkdir_only. Qed.
Print Assumptions C122_only_directories.
Example C122_case : exists o', exec (mkdir_recurse true [x78;x2f;x79] 493) (hx_os 1000) = Ok (0%Z, o') /\
  o_fs (hx_os 1000) [[x77];[x78]] = None /\ o_fs o' [[x77];[x78]] = Some (IDir 493).
Proof. exact ex_c122. Qed.

(** C123: false.  The path is "x/" and a name of 256 bytes, which is too long: -1 is returned and the directory "x" stays. *)
Theorem C123_failed_refuted : exists o B o', ~ In x00 B /\ exec (mkdir_recurse true B 493) o = Ok ((-1)%Z, o') /\
  exists q, o_fs o q = None /\ o_fs o' q <> None.
Proof. exact ex_c123. Qed.
Print Assumptions C123_failed_refuted.
(** What remains of C123: if the parent directory exists, a call that does not return 0 changes nothing. *)
Theorem C123_failed_partial : forall P c t ok mode o r o', ~ In x00 (P ++ x2f :: c) -> ~ In x2f c -> dir_at o P t -> lenN P < PATH_MAX ->
  exec (mkdir_recurse ok (P ++ x2f :: c) mode) o = Ok (r, o') -> r <> 0%Z -> o' = o.
Proof. exact mkdir_failed. Qed.
Print Assumptions C123_failed_partial.
Example C123_case : dir_at (hx_os 1000) [x2f] [] /\ exec (mkdir_recurse true ([x2f] ++ x2f :: mm_long) 493) (hx_os 1000) = Ok ((-1)%Z, hx_os 1000).
Proof. exact ex_c123_case. Qed.
