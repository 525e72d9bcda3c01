(** ArgExamples.v: concrete cases for the command line parser. *)
From Coq Require Import Strings.String.
From Verif Require Import Base ArgParser ArgSpec ArgFacts ArgMore.
Local Notation b := list_byte_of_string.

(** The options of compressdir, src/tools/main_compressdir.cpp:35-39. *)
Definition cd_ops : list aop :=
  [AAdd true (b "--output-file,-of:Prvide output file name") ARight None None;
   AAdd true (b "--config-file,-cf:Provide config file for input file tree") ARight None None;
   AAdd true (b "--input-folder,-if:The name of the input folder") ARight None None;
   AAdd true (b "--help,-h:To display this help") ANo (Some []) None].

(** One option of each kind. *)
Definition ay_ops : list aop :=
  [AAdd true (b "--out,-o:output file") ARight (Some (b "a.out")) None;
   AAdd true (b "-v,--verbose") ANo None None;
   AAdd true (b "=:assignment") ABoth None (Some (b "lhs"))].


Ltac apart_case := cbn [apart]; repeat (split; [first [reflexivity | vm_compute; intuition congruence]|]); exact I.

Lemma cd_apart : apart [] cd_ops.
Proof. apart_case. Qed.
Lemma ay_apart : apart [] ay_ops.
Proof. apart_case. Qed.

Definition cd_prs : prs := match run_aops cd_ops prs_new with Ok p => p | _ => prs_new end.
Definition ay_prs : prs := match run_aops ay_ops prs_new with Ok p => p | _ => prs_new end.

Lemma cd_registered : run_aops cd_ops prs_new = Ok cd_prs.
Proof. destruct (apart_registers cd_ops cd_apart eq_refl) as [p E]. unfold cd_prs. now rewrite E. Qed.
Lemma ay_registered : run_aops ay_ops prs_new = Ok ay_prs.
Proof. destruct (apart_registers ay_ops ay_apart eq_refl) as [p E]. unfold ay_prs. now rewrite E. Qed.

Lemma cd_alive : alive cd_prs.
Proof. exact (proj2 (proj2 (apart_safe cd_ops cd_prs cd_apart cd_registered))). Qed.
Lemma ay_alive : alive ay_prs.
Proof. exact (proj2 (proj2 (apart_safe ay_ops ay_prs ay_apart ay_registered))). Qed.

(** What can be seen of a parse: was everything inside the vector, the arguments left, and some
    values. *)
Definition in_vectorb (log : rlog) : bool := forallb (fun e => fst e <? snd e) log.
Lemma in_vectorb_ok log : in_vectorb log = true <-> in_vector log.
Proof.
  unfold in_vectorb, in_vector. rewrite forallb_forall, Forall_forall.
  split; intros H x Hx; specialize (H x Hx); lia.
Qed.
Definition seen_of (s : outcome pst) : option (bool * N * list (option bytes)) :=
  match s with
  | Ok s => Some (in_vectorb (ps_log s), ps_argc s, takeN (ps_argc s) (ps_cells s))
  | _ => None
  end.
Definition value_after (get : bytes -> prs -> outcome (option bytes)) (s : outcome pst) (n : bytes)
  : outcome (option bytes) := do s <- s; get n (ps_prs s).

(** ** C56 *)
Lemma ex_c56 : exists ops args p, run_aops ops prs_new = Ok p /\
  forall fuel, fuel <> O -> parse_args fuel args p = UB.
Proof.
  exists cd_ops, [b "folder"], cd_prs. split; [exact cd_registered|]. intros fuel Hf.
  apply lone_unknown; [vm_compute; reflexivity|discriminate|assumption].
Qed.

(** compressdir -of x f: the parser reads cell 1 when one argument is left. *)
Lemma ex_c56_stale : exists ops args p s, run_aops ops prs_new = Ok p /\
  parse_args (S (length args)) args p = Ok s /\ In (1, 1) (ps_log s) /\ ~ in_vector (ps_log s).
Proof.
  exists cd_ops, [b "-of"; b "x"; b "f"], cd_prs.
  assert (H : match parse_args 4 [b "-of"; b "x"; b "f"] cd_prs with
              | Ok s => existsb (fun e => (fst e =? 1) && (snd e =? 1)) (ps_log s) && negb (in_vectorb (ps_log s)) = true
              | _ => False end) by (vm_compute; reflexivity).
  change (S (length [b "-of"; b "x"; b "f"])) with 4%nat.
  destruct (parse_args 4 _ cd_prs) as [s| |]; try contradiction.
  exists s. split; [exact cd_registered|]. split; [reflexivity|].
  apply andb_true_iff in H. destruct H as [H1 H2]. split.
  - apply existsb_exists in H1. destruct H1 as ([x y] & Hx & E). cbn [fst snd] in E.
    apply andb_true_iff in E. destruct E as [E1 E2]. apply N.eqb_eq in E1, E2. now subst.
  - rewrite <- in_vectorb_ok. now destruct (in_vectorb (ps_log s)).
Qed.

Lemma ex_c56_partial : alive cd_prs /\
  followed (pr_map cd_prs) (kind_in cd_prs) (found_in cd_prs) [b "f"; b "-of"; b "x"; b "y"; b "-if"; b "z"] = true /\
  seen_of (parse_args 7 [b "f"; b "-of"; b "x"; b "y"; b "-if"; b "z"] cd_prs) =
    Some (true, 2, [Some (b "f"); Some (b "y")]).
Proof. split; [exact cd_alive|]. split; vm_compute; reflexivity. Qed.

Lemma ex_c56_last : pr_map cd_prs (b "-h") = Some 3 /\ starts_dash (b "-h") = true /\
  seen_of (parse_args 4 [b "some"; b "words"; b "-h"] cd_prs) =
    Some (true, 2, [Some (b "some"); Some (b "words")]).
Proof. repeat split; vm_compute; reflexivity. Qed.

(** ** C57 *)
Definition ay_args : list bytes :=
  [b "q"; b "--out"; b "x"; b "y"; b "-o"; b "w"; b "="; b "3"; b "-v"].
Lemma ex_c57 : seen_of (parse_args 10 ay_args ay_prs) =
    Some (true, 3, [Some (b "q"); Some (b "y"); Some (b "-o")]) /\
  value_after value_right (parse_args 10 ay_args ay_prs) (b "-o") = Ok (Some (b "x")) /\
  value_after value_left (parse_args 10 ay_args ay_prs) (b "=") = Ok (Some (b "w")) /\
  value_after value_right (parse_args 10 ay_args ay_prs) (b "=") = Ok (Some (b "3")) /\
  value_after value_right (parse_args 10 ay_args ay_prs) (b "--verbose") = Ok (Some []) /\
  value_right (b "-v") ay_prs = Ok None /\
  scan (pr_map ay_prs) (kind_in ay_prs) (found_in ay_prs) [] ay_args =
    ([b "q"; b "y"; b "-o"],
     [(0, (None, Some (b "x"))); (2, (Some (b "w"), Some (b "3"))); (1, (None, None))]).
Proof. repeat split; vm_compute; reflexivity. Qed.

(** ** C58 *)
Lemma ex_c58 : 3 < N.of_nat 4 /\ parse 4 3 (argv_of [b "a"; b "bb"; b "ccc"]) cd_prs = UB /\
  seen_of (parse 10 9 (argv_of ay_args) ay_prs) <> None.
Proof. split; [lia|]. split; [vm_compute; reflexivity|]. vm_compute. discriminate. Qed.

(** ** C59 *)
Lemma ex_c59 : short_names ay_ops /\ run_aops ay_ops prs_new = Ok ay_prs /\
  help_string ay_prs = Ok (b "--out,-o:      output file
-v,--verbose:  
=:             assignment
").
Proof.
  split; [repeat constructor|]. split; [exact ay_registered|]. vm_compute. reflexivity.
Qed.

(** ** C60 *)
Lemma ex_c60 : exists ops, run_aops (ops ++ [AClear]) prs_new = UB /\
  ops = [AAdd true (b "-a") ARight None None; AAdd true (b "-a") ARight None None].
Proof. eexists. split; [|reflexivity]. vm_compute. reflexivity. Qed.
(** Two options with different names, each with a left and a right argument. *)
Lemma ex_c60_two : exists n1 n2 p, n1 <> n2 /\
  run_aops [AAdd true n1 ABoth None None; AAdd true n2 ABoth None None] prs_new = Ok p /\
  clear p = UB.
Proof.
  exists (b "-a"), (b "-b").
  assert (H : match run_aops [AAdd true (b "-a") ABoth None None; AAdd true (b "-b") ABoth None None] prs_new with
              | Ok p => clear p = UB | _ => False end) by (vm_compute; reflexivity).
  destruct (run_aops _ prs_new) as [p| |]; try contradiction. exists p. split; [discriminate|]. now split.
Qed.
(** Asking for the other name of a replaced option uses the freed object. *)
Lemma ex_c60_use : exists ops p n, run_aops ops prs_new = Ok p /\ value_right n p = UB.
Proof.
  exists [AAdd true (b "-a,--all") ARight None None; AAdd true (b "-a") ANo None None].
  assert (H : match run_aops [AAdd true (b "-a,--all") ARight None None; AAdd true (b "-a") ANo None None] prs_new with
              | Ok p => value_right (b "--all") p = UB | _ => False end) by (vm_compute; reflexivity).
  destruct (run_aops _ prs_new) as [p| |]; try contradiction. exists p, (b "--all"). now split.
Qed.
Lemma ex_c60_partial :
  let ops := ay_ops ++ [AParse [b "-o"; b "x"; b "-v"]; AAdd true (b "-z,-zz") ANo None None; AClear;
                        AAdd true (b "-o") ANo None None] in
  apart [] ops /\ exists p, run_aops ops prs_new = Ok p /\ pr_obj p 4 <> None.
Proof.
  cbv zeta. split; [apart_case|].
  assert (H : match run_aops (ay_ops ++ [AParse [b "-o"; b "x"; b "-v"]; AAdd true (b "-z,-zz") ANo None None; AClear;
                        AAdd true (b "-o") ANo None None]) prs_new with
              | Ok p => match pr_obj p 4 with Some _ => True | None => False end | _ => False end)
    by (vm_compute; exact I).
  destruct (run_aops _ prs_new) as [p| |]; try contradiction. exists p. split; [reflexivity|].
  now destruct (pr_obj p 4).
Qed.

(** ** C61 *)
(** [AddOption("-x", rightArg, defLeft = NULL, defRight = "d")] as the header has it. *)
Lemma ex_c61 : exists kind defLeft defRight p s,
  run_aops [AAdd true (b "-x") kind defLeft defRight] prs_new = Ok p /\
  parse_args 2 [b "-x"] p = Ok s /\
  kind = ARight /\ defRight = Some (b "d") /\ value_right (b "-x") (ps_prs s) = Ok (Some []).
Proof.
  exists ARight, None, (Some (b "d")).
  assert (H : match run_aops [AAdd true (b "-x") ARight None (Some (b "d"))] prs_new with
              | Ok p => match parse_args 2 [b "-x"] p with
                        | Ok s => value_right (b "-x") (ps_prs s) = Ok (Some []) | _ => False end
              | _ => False end) by (vm_compute; reflexivity).
  destruct (run_aops _ prs_new) as [p| |]; try contradiction. exists p.
  destruct (parse_args 2 _ p) as [s| |]; try contradiction. exists s. now repeat split.
Qed.
(** With both defaults: whichever of the two orders is meant, the right default is lost. *)
Lemma ex_c61_both : exists p s,
  run_aops [AAdd true (b "-x") ABoth (Some (b "d")) (Some (b "d"))] prs_new = Ok p /\
  parse_args 2 [b "-x"] p = Ok s /\ value_right (b "-x") (ps_prs s) = Ok (Some []).
Proof.
  assert (H : match run_aops [AAdd true (b "-x") ABoth (Some (b "d")) (Some (b "d"))] prs_new with
              | Ok p => match parse_args 2 [b "-x"] p with
                        | Ok s => value_right (b "-x") (ps_prs s) = Ok (Some []) | _ => False end
              | _ => False end) by (vm_compute; reflexivity).
  destruct (run_aops _ prs_new) as [p| |]; try contradiction. exists p.
  destruct (parse_args 2 _ p) as [s| |]; try contradiction. exists s. now repeat split.
Qed.
Lemma ex_c61_right : exists q s,
  add_option true (b "-x,--ex") ARight (Some (b "d")) None ay_prs = Ok q /\
  In (b "--ex") (own_keys (b "-x,--ex") ARight) /\
  parse_args 3 [b "-x"; b "-v"] q = Ok s /\ in_vector (ps_log s) /\
  gift_of 3 (snd (scan (pr_map q) (kind_in q) (found_in q) [] [b "-x"; b "-v"])) = Some (None, None) /\
  value_right (b "--ex") (ps_prs s) = Ok (Some (b "d")).
Proof.
  assert (H : match add_option true (b "-x,--ex") ARight (Some (b "d")) None ay_prs with
              | Ok q => match parse_args 3 [b "-x"; b "-v"] q with
                        | Ok s => in_vectorb (ps_log s) = true /\
                          gift_of 3 (snd (scan (pr_map q) (kind_in q) (found_in q) [] [b "-x"; b "-v"])) = Some (None, None) /\
                          value_right (b "--ex") (ps_prs s) = Ok (Some (b "d"))
                        | _ => False end
              | _ => False end) by (vm_compute; repeat split).
  destruct (add_option _ _ _ _ _ _) as [q| |]; try contradiction. exists q.
  destruct (parse_args 3 _ q) as [s| |]; try contradiction. exists s.
  destruct H as (H1 & H2 & H3). split; [reflexivity|]. split; [vm_compute; auto|].
  split; [reflexivity|]. split; [now apply in_vectorb_ok|]. now split.
Qed.
Lemma ex_c61_left : exists q s,
  add_option true (b "+:sum") ABoth None (Some (b "zero")) ay_prs = Ok q /\
  In (b "+") (own_keys (b "+:sum") ABoth) /\
  parse_args 3 [b "+"; b "-v"] q = Ok s /\ in_vector (ps_log s) /\
  gift_of 3 (snd (scan (pr_map q) (kind_in q) (found_in q) [] [b "+"; b "-v"])) = Some (None, None) /\
  value_left (b "+") (ps_prs s) = Ok (Some (b "zero")).
Proof.
  assert (H : match add_option true (b "+:sum") ABoth None (Some (b "zero")) ay_prs with
              | Ok q => match parse_args 3 [b "+"; b "-v"] q with
                        | Ok s => in_vectorb (ps_log s) = true /\
                          gift_of 3 (snd (scan (pr_map q) (kind_in q) (found_in q) [] [b "+"; b "-v"])) = Some (None, None) /\
                          value_left (b "+") (ps_prs s) = Ok (Some (b "zero"))
                        | _ => False end
              | _ => False end) by (vm_compute; repeat split).
  destruct (add_option _ _ _ _ _ _) as [q| |]; try contradiction. exists q.
  destruct (parse_args 3 _ q) as [s| |]; try contradiction. exists s.
  destruct H as (H1 & H2 & H3). split; [reflexivity|]. split; [vm_compute; auto|].
  split; [reflexivity|]. split; [now apply in_vectorb_ok|]. now split.
Qed.
