(** ArgSpec.v: what the command line parser is meant to do, stated on lists of arguments.  Nothing
    here follows the C code. *)
From Verif Require Import Base ArgParser.

Section Scan.
(** Which option an argument names, and what kind of option that is. *)
Variable reg : bytes -> option N.
Variable kind : N -> akind.

(** What one option was given: the argument on its left and the one on its right. *)
Notation gift := (option bytes * option bytes)%type.

Definition given (k : N) (l r : option bytes) (x : list bytes * list (N * gift))
  : list bytes * list (N * gift) := (fst x, (k, (l, r)) :: snd x).

(** The argument left of an option that takes one: the nearest argument kept so far, unless it
    starts with '-'.  The arguments kept are given latest first. *)
Definition left_of (kept : list bytes) : list bytes * option bytes :=
  match kept with
  | v :: l => if starts_dash v then (kept, None) else (l, Some v)
  | [] => ([], None)
  end.

(** Reading the arguments from left to right: the arguments that remain (in order) and the options
    seen with their values.  [seen]: options found earlier.  The first occurrence of an option is
    removed together with its value, the next argument unless that starts with '-'; later
    occurrences and arguments that name no option remain. *)
Fixpoint scan (seen : N -> bool) (kept args : list bytes) : list bytes * list (N * gift) :=
  match args with
  | [] => (rev kept, [])
  | a :: r =>
    match reg a with
    | None => scan seen (a :: kept) r
    | Some k =>
      if seen k then scan seen (a :: kept) r
      else
        let seen1 := fun x => (x =? k) || seen x in
        match r with
        | [] => given k None None (scan seen1 kept r)
        | v :: r1 =>
          match kind k with
          | ANo | ALeft => given k None None (scan seen1 kept r)
          | ARight => if starts_dash v then given k None None (scan seen1 kept r)
                      else given k None (Some v) (scan seen1 kept r1)
          | ABoth => let '(kept1, l) := left_of kept in
                     if starts_dash v then given k l None (scan seen1 kept1 r)
                     else given k l (Some v) (scan seen1 kept1 r1)
          end
        end
    end
  end.

Definition names_option (a : bytes) : bool := match reg a with Some _ => true | None => false end.

(** Every argument that remains because it names no option has an argument naming an option
    somewhere behind it. *)
Fixpoint followed (seen : N -> bool) (args : list bytes) : bool :=
  match args with
  | [] => true
  | a :: r =>
    match reg a with
    | None => existsb names_option r && followed seen r
    | Some k =>
      if seen k then followed seen r
      else
        let seen1 := fun x => (x =? k) || seen x in
        match r with
        | [] => true
        | v :: r1 =>
          match kind k with
          | ANo | ALeft => followed seen1 r
          | ARight | ABoth => if starts_dash v then followed seen1 r else followed seen1 r1
          end
        end
    end
  end.
End Scan.

(** What option [k] was given, if it was seen. *)
Fixpoint gift_of (k : N) (l : list (N * (option bytes * option bytes))) : option (option bytes * option bytes) :=
  match l with
  | [] => None
  | (x, g) :: r => if x =? k then Some g else gift_of k r
  end.

(** The kind and state of the options of a parser. *)
Definition kind_in (p : prs) (k : N) : akind := match pr_obj p k with Some ob => ob_kind ob | None => ANo end.
Definition found_in (p : prs) (k : N) : bool := match pr_obj p k with Some ob => ob_found ob | None => false end.

(** Every read of an argument is inside the vector as it was at that time. *)
Definition in_vector (log : rlog) : Prop := Forall (fun e => fst e < snd e) log.

(** ** Sequences of uses of one parser object *)
Inductive aop :=
| AAdd (mok : bool) (name : bytes) (kind : akind) (d3 d4 : option bytes)
| AParse (args : list bytes)
| AClear.

Definition run_aop (o : aop) (p : prs) : outcome prs :=
  match o with
  | AAdd mok name kind d3 d4 => add_option mok name kind d3 d4 p
  | AParse args => do s <- parse_args (S (length args)) args p; Ok (ps_prs s)
  | AClear => clear p
  end.
Fixpoint run_aops (l : list aop) (p : prs) : outcome prs :=
  match l with
  | [] => Ok p
  | o :: r => do q <- run_aop o p; run_aops r q
  end.

(** The keys one registration claims: its names, for options with a left and a right argument also
    all the beginnings of the names. *)
Definition own_keys (name : bytes) (kind : akind) : list bytes :=
  match kind with ALeft => [] | _ => keys_of kind (fst (split_names [] (c_str name))) end.

(** No registration claims a key that an earlier one (since the last Clear) has; memory is never
    exhausted. *)
Fixpoint apart (used : list bytes) (l : list aop) : Prop :=
  match l with
  | [] => True
  | AAdd mok name kind _ _ :: r =>
    mok = true /\ (forall k, In k (own_keys name kind) -> ~ In k used) /\
    apart (own_keys name kind ++ used) r
  | AParse _ :: r => apart used r
  | AClear :: r => apart [] r
  end.

(** The help text's entries, in order: the names and the explanation of each registration. *)
Definition info_of (name : bytes) : bytes := str_or_empty (snd (split_names [] (c_str name))).
Definition entry_of (mok : bool) (name : bytes) (kind : akind) : list (bytes * bytes) :=
  match kind with
  | ALeft => []
  | _ => if mok then [(before_colon (c_str name), info_of name)] else []
  end.
Fixpoint listed (acc : list (bytes * bytes)) (l : list aop) : list (bytes * bytes) :=
  match l with
  | [] => acc
  | AAdd mok name kind _ _ :: r => listed (acc ++ entry_of mok name kind) r
  | AParse _ :: r => listed acc r
  | AClear :: r => listed [] r
  end.

(** A line of help whose explanation starts at column [col]. *)
Definition help_line (col : N) (e : bytes * bytes) : bytes :=
  fst e ++ [colon] ++ repeat x20 (N.to_nat (col - (lenN (fst e) + 1))) ++ snd e ++ [x0a].

(** Names of options shorter than 2^62 bytes. *)
Definition short_names (l : list aop) : Prop :=
  Forall (fun o => match o with AAdd _ name _ _ _ => lenN name < 4611686018427387904 | _ => True end) l.
