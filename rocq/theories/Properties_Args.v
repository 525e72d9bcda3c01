(** Properties_Args.v: properties C56 to C61 (the command line parser).

    Notions used (ArgSpec.v): [scan reg kind seen kept args] reads the arguments from left to right
    and gives the arguments that remain and the options seen with the arguments on their left and
    right; [in_vector log]: every argument read had an index below the argument count at that time;
    [followed]: every argument naming no option has one naming an option somewhere behind it;
    [apart]: no registration claims a key of an earlier one; [listed]: names and explanations of the
    registrations; [help_line col]: a line whose explanation starts at column [col]. *)
From Coq Require Import Strings.String.
From Verif Require Import Base ArgParser ArgSpec ArgFacts ArgMore ArgExamples ArgPlain.

(** C56: false.  With the options of compressdir and the one argument "folder" the parser reads the
    NULL behind the vector. *)
Theorem C56_refuted : exists ops args p, run_aops ops prs_new = Ok p /\
  forall fuel, fuel <> O -> parse_args fuel args p = UB.
Proof. exact ex_c56. Qed.
Print Assumptions C56_refuted.

(** C56: false also where nothing undefined happens: an argument that is no longer in the vector is
    read. *)
Theorem C56_stale_refuted : exists ops args p s, run_aops ops prs_new = Ok p /\
  parse_args (S (length args)) args p = Ok s /\ In (1, 1) (ps_log s) /\ ~ in_vector (ps_log s).
Proof. exact ex_c56_stale. Qed.
Print Assumptions C56_stale_refuted.

(** It happens with every parser and every non-empty argument that names no option, if it is the only
    one. *)
Theorem C56_lone_unknown_argument : forall p a fuel, pr_map p a = None -> a <> [] -> fuel <> O ->
  parse_args fuel [a] p = UB.
Proof. exact lone_unknown. Qed.
Print Assumptions C56_lone_unknown_argument.
Example C56_lone_case : pr_map cd_prs (list_byte_of_string "folder") = None /\
  parse_args 2 [list_byte_of_string "folder"] cd_prs = UB.
Proof. split; vm_compute; reflexivity. Qed.

(** What remains of C56: if every argument naming no option has one naming an option somewhere behind
    it, every read is inside the vector. *)
Theorem C56_partial : forall args p, alive p ->
  followed (pr_map p) (kind_in p) (found_in p) args = true ->
  exists s, parse_args (S (length args)) args p = Ok s /\ in_vector (ps_log s).
Proof. exact parse_inside. Qed.
Print Assumptions C56_partial.
Example C56_case : alive cd_prs /\
  followed (pr_map cd_prs) (kind_in cd_prs) (found_in cd_prs)
    (map list_byte_of_string ["f"; "-of"; "x"; "y"; "-if"; "z"]%string) = true /\
  seen_of (parse_args 7 (map list_byte_of_string ["f"; "-of"; "x"; "y"; "-if"; "z"]%string) cd_prs) =
    Some (true, 2, [Some (list_byte_of_string "f"); Some (list_byte_of_string "y")]).
Proof. exact ex_c56_partial. Qed.

(** In particular if the last argument is an option's name starting with '-'. *)
Theorem C56_last_option : forall reg kind seen args o k,
  reg o = Some k -> starts_dash o = true -> followed reg kind seen (args ++ [o]) = true.
Proof. exact followed_last. Qed.
Print Assumptions C56_last_option.
Example C56_last_case : pr_map cd_prs (list_byte_of_string "-h") = Some 3 /\
  starts_dash (list_byte_of_string "-h") = true /\
  seen_of (parse_args 4 (map list_byte_of_string ["some"; "words"; "-h"]%string) cd_prs) =
    Some (true, 2, [Some (list_byte_of_string "some"); Some (list_byte_of_string "words")]).
Proof. exact ex_c56_last. Qed.

(** C57. *)
Theorem C57_parse_extracts_options : forall fuel args p s,
  parse_args fuel args p = Ok s -> in_vector (ps_log s) ->
  let '(lft, got) := scan (pr_map p) (kind_in p) (found_in p) [] args in
  ps_argc s = lenN lft /\ takeN (ps_argc s) (ps_cells s) = map Some lft /\
  (forall n, pr_map (ps_prs s) n = pr_map p n) /\
  (forall n k ob, pr_map p n = Some k -> pr_obj p k = Some ob ->
     match gift_of k got with
     | Some (l, r) =>
       value_right n (ps_prs s) = Ok (Some (match r with Some v => v | None => ob_right ob end)) /\
       value_left n (ps_prs s) = Ok (Some (match l with Some v => v | None => ob_left ob end))
     | None => value_right n (ps_prs s) = value_right n p /\ value_left n (ps_prs s) = value_left n p
     end).
Proof. exact parse_scan. Qed.
Print Assumptions C57_parse_extracts_options.
Example C57_case :
  let b := list_byte_of_string in
  seen_of (parse_args 10 ay_args ay_prs) =
    Some (true, 3, [Some (b "q"%string); Some (b "y"%string); Some (b "-o"%string)]) /\
  value_after value_right (parse_args 10 ay_args ay_prs) (b "-o"%string) = Ok (Some (b "x"%string)) /\
  value_after value_left (parse_args 10 ay_args ay_prs) (b "="%string) = Ok (Some (b "w"%string)) /\
  value_after value_right (parse_args 10 ay_args ay_prs) (b "="%string) = Ok (Some (b "3"%string)) /\
  value_after value_right (parse_args 10 ay_args ay_prs) (b "--verbose"%string) = Ok (Some []) /\
  value_right (b "-v"%string) ay_prs = Ok None /\
  scan (pr_map ay_prs) (kind_in ay_prs) (found_in ay_prs) [] ay_args =
    ([b "q"%string; b "y"%string; b "-o"%string],
     [(0, (None, Some (b "x"%string))); (2, (Some (b "w"%string), Some (b "3"%string))); (1, (None, None))]).
Proof. exact ex_c57. Qed.

(** An option added with operator<< takes no argument and has the value of an empty string. *)
Theorem C57_plain_options : forall name p q n fuel args s, add_plain true name p = Ok q -> In n (own_keys name ANo) ->
  parse_args fuel args q = Ok s -> in_vector (ps_log s) -> exists k, pr_map q n = Some k /\
  forall g, gift_of k (snd (scan (pr_map q) (kind_in q) (found_in q) [] args)) = Some g ->
    g = (None, None) /\ value_right n (ps_prs s) = Ok (Some []) /\ value_left n (ps_prs s) = Ok (Some []).
Proof. exact plain_option. Qed.
Print Assumptions C57_plain_options.
Example C57_plain_case : let b := list_byte_of_string in
  exists q s, add_plain true (b "-x,--ex"%string) ay_prs = Ok q /\ In (b "--ex"%string) (own_keys (b "-x,--ex"%string) ANo) /\
  parse_args 4 [b "a"%string; b "-x"%string; b "c"%string; b "-v"%string] q = Ok s /\ in_vector (ps_log s) /\
  gift_of 3 (snd (scan (pr_map q) (kind_in q) (found_in q) [] [b "a"%string; b "-x"%string; b "c"%string; b "-v"%string])) = Some (None, None) /\
  takeN (ps_argc s) (ps_cells s) = [Some (b "a"%string); Some (b "c"%string)] /\ value_right (b "--ex"%string) (ps_prs s) = Ok (Some []).
Proof. exact ex_plain. Qed.

(** C58. *)
Theorem C58_parse_terminates : forall argc cells p fuel, argc < N.of_nat fuel ->
  parse fuel argc cells p <> NoFuel.
Proof. exact parse_ends. Qed.
Print Assumptions C58_parse_terminates.
Example C58_case : 3 < N.of_nat 4 /\
  parse 4 3 (argv_of (map list_byte_of_string ["a"; "bb"; "ccc"]%string)) cd_prs = UB /\
  seen_of (parse 10 9 (argv_of ay_args) ay_prs) <> None.
Proof. exact ex_c58. Qed.

(** C59. *)
Theorem C59_help_is_aligned : forall ops p, short_names ops -> run_aops ops prs_new = Ok p ->
  exists col, help_string p = Ok (concat (map (help_line col) (listed [] ops))) /\
              Forall (fun e => lenN (fst e) + 1 < col) (listed [] ops).
Proof. exact help_aligned. Qed.
Print Assumptions C59_help_is_aligned.
Example C59_case : short_names ay_ops /\ run_aops ay_ops prs_new = Ok ay_prs /\
  help_string ay_prs = Ok (list_byte_of_string "--out,-o:      output file
-v,--verbose:  
=:             assignment
").
Proof. exact ex_c59. Qed.

(** C60: false.  Registering "-a" twice and destroying the parser deletes an object twice. *)
Theorem C60_refuted : exists ops, run_aops (ops ++ [AClear]) prs_new = UB /\
  ops = [AAdd true (list_byte_of_string "-a") ARight None None;
         AAdd true (list_byte_of_string "-a") ARight None None].
Proof. exact ex_c60. Qed.
Print Assumptions C60_refuted.

(** The same happens to two options of different names that take a left and a right argument: they
    share the key "-". *)
Theorem C60_different_names_refuted : exists n1 n2 p, n1 <> n2 /\
  run_aops [AAdd true n1 ABoth None None; AAdd true n2 ABoth None None] prs_new = Ok p /\
  clear p = UB.
Proof. exact ex_c60_two. Qed.
Print Assumptions C60_different_names_refuted.

(** Asking for the other name of a replaced option reads the deleted object. *)
Theorem C60_use_after_free_refuted : exists ops p n,
  run_aops ops prs_new = Ok p /\ value_right n p = UB.
Proof. exact ex_c60_use. Qed.
Print Assumptions C60_use_after_free_refuted.

(** What remains of C60: if no registration claims a key of an earlier one, registrations succeed,
    destroying the parser deletes every object once and leaves none, and no deleted object is used. *)
Theorem C60_partial : forall ops p, apart [] ops -> run_aops ops prs_new = Ok p ->
  (exists q, clear p = Ok q /\ forall k, pr_obj q k = None) /\
  (forall n, value_right n p <> UB /\ value_left n p <> UB) /\ alive p.
Proof. exact apart_safe. Qed.
Print Assumptions C60_partial.
Example C60_case :
  let b := list_byte_of_string in
  let ops := ay_ops ++ [AParse [b "-o"%string; b "x"%string; b "-v"%string];
                        AAdd true (b "-z,-zz"%string) ANo None None; AClear;
                        AAdd true (b "-o"%string) ANo None None] in
  apart [] ops /\ exists p, run_aops ops prs_new = Ok p /\ pr_obj p 4 <> None.
Proof. exact ex_c60_partial. Qed.

Theorem C60_registers_partial : forall ops, apart [] ops -> forallb no_parse ops = true ->
  exists p, run_aops ops prs_new = Ok p.
Proof. exact apart_registers. Qed.
Print Assumptions C60_registers_partial.
Example C60_registers_case : apart [] cd_ops /\ forallb no_parse cd_ops = true.
Proof. exact (conj cd_apart eq_refl). Qed.

(** C61: false.  The header's fourth parameter defRight is not the right default. *)
Theorem C61_refuted : exists kind defLeft defRight p s,
  run_aops [AAdd true (list_byte_of_string "-x") kind defLeft defRight] prs_new = Ok p /\
  parse_args 2 [list_byte_of_string "-x"] p = Ok s /\
  kind = ARight /\ defRight = Some (list_byte_of_string "d") /\
  value_right (list_byte_of_string "-x") (ps_prs s) = Ok (Some []).
Proof. exact ex_c61. Qed.
Print Assumptions C61_refuted.

(** C61: false for options with a left and a right argument whichever order is meant. *)
Theorem C61_both_refuted : exists p s,
  run_aops [AAdd true (list_byte_of_string "-x") ABoth (Some (list_byte_of_string "d"))
              (Some (list_byte_of_string "d"))] prs_new = Ok p /\
  parse_args 2 [list_byte_of_string "-x"] p = Ok s /\
  value_right (list_byte_of_string "-x") (ps_prs s) = Ok (Some []).
Proof. exact ex_c61_both. Qed.
Print Assumptions C61_both_refuted.

(** What remains of C61: an option with a right argument returns the third argument of AddOption. *)
Theorem C61_right_partial : forall name d3 d4 p q n fuel args s,
  add_option true name ARight d3 d4 p = Ok q -> In n (own_keys name ARight) ->
  parse_args fuel args q = Ok s -> in_vector (ps_log s) ->
  exists k, pr_map q n = Some k /\
  (gift_of k (snd (scan (pr_map q) (kind_in q) (found_in q) [] args)) = Some (None, None) ->
   value_right n (ps_prs s) = Ok (Some (str_or_empty d3))).
Proof. exact defaults_right. Qed.
Print Assumptions C61_right_partial.
Example C61_right_case :
  let b := list_byte_of_string in exists q s,
  add_option true (b "-x,--ex"%string) ARight (Some (b "d"%string)) None ay_prs = Ok q /\
  In (b "--ex"%string) (own_keys (b "-x,--ex"%string) ARight) /\
  parse_args 3 [b "-x"%string; b "-v"%string] q = Ok s /\ in_vector (ps_log s) /\
  gift_of 3 (snd (scan (pr_map q) (kind_in q) (found_in q) [] [b "-x"%string; b "-v"%string])) = Some (None, None) /\
  value_right (b "--ex"%string) (ps_prs s) = Ok (Some (b "d"%string)).
Proof. exact ex_c61_right. Qed.

(** An option with a left and a right argument returns the fourth as its left default and no right
    default. *)
Theorem C61_left_partial : forall name d3 d4 p q n fuel args s,
  add_option true name ABoth d3 d4 p = Ok q -> In n (own_keys name ABoth) ->
  parse_args fuel args q = Ok s -> in_vector (ps_log s) ->
  exists k, pr_map q n = Some k /\
  (gift_of k (snd (scan (pr_map q) (kind_in q) (found_in q) [] args)) = Some (None, None) ->
   value_left n (ps_prs s) = Ok (Some (str_or_empty d4)) /\ value_right n (ps_prs s) = Ok (Some [])).
Proof. exact defaults_left. Qed.
Print Assumptions C61_left_partial.
Example C61_left_case :
  let b := list_byte_of_string in exists q s,
  add_option true (b "+:sum"%string) ABoth None (Some (b "zero"%string)) ay_prs = Ok q /\
  In (b "+"%string) (own_keys (b "+:sum"%string) ABoth) /\
  parse_args 3 [b "+"%string; b "-v"%string] q = Ok s /\ in_vector (ps_log s) /\
  gift_of 3 (snd (scan (pr_map q) (kind_in q) (found_in q) [] [b "+"%string; b "-v"%string])) = Some (None, None) /\
  value_left (b "+"%string) (ps_prs s) = Ok (Some (b "zero"%string)).
Proof. exact ex_c61_left. Qed.
