(** Properties_ArgNames.v: C57, what the text of a registration means.

    [reg_text]: the names separated by commas, behind a colon the explanation, behind a NUL anything.  [key_of]: the keys that such an option has.
    [pr_map q k = Some i]: option i is found under k.  [pr_vect]: the entries of the help text. *)
From Coq Require Import String.
From Verif Require Import Base ArgParser ArgSpec ArgNames.

Theorem C57_names_of_an_option : forall kind names info rest d3 d4 p q, names <> [] -> Forall plain_name names -> (forall t, info = Some t -> ~ In nul t) -> kind <> ALeft ->
  add_option true (reg_text names info rest) kind d3 d4 p = Ok q ->
  (forall k, key_of kind names k -> pr_map q k = Some (pr_next p)) /\ (forall k, ~ key_of kind names k -> pr_map q k = pr_map p k) /\
  pr_vect q = pr_vect p ++ [(joined names, str_or_empty info, pr_next p)] /\
  exists o, pr_obj q (pr_next p) = Some o /\ ob_kind o = kind /\ ob_found o = false /\ ob_help o = str_or_empty info.
Proof. exact registered. Qed.
Print Assumptions C57_names_of_an_option.
Example C57_names_case : let b := list_byte_of_string in let names := [b "-x"%string; b "--ex"%string] in names <> [] /\ Forall plain_name names /\
  reg_text names (Some (b "a,b: c"%string)) (Some (b "!"%string)) = b "-x,--ex:a,b: c"%string ++ [nul] ++ b "!"%string /\
  ~ In nul (b "a,b: c"%string) /\ key_of ABoth names (b "--"%string) /\ ~ key_of ANo names (b "--"%string) /\
  exists q, add_option true (reg_text names (Some (b "a,b: c"%string)) (Some (b "!"%string))) ABoth None None prs_new = Ok q.
Proof. exact ex_names. Qed.
(** The keys and the explanation used by C57 to C60 are those of the text. *)
Theorem C57_keys_of_a_text : forall kind names info rest k, names <> [] -> Forall plain_name names -> (forall t, info = Some t -> ~ In nul t) ->
  (In k (own_keys (reg_text names info rest) kind) <-> key_of kind names k) /\ info_of (reg_text names info rest) = str_or_empty info.
Proof. exact names_text. Qed.
Print Assumptions C57_keys_of_a_text.
