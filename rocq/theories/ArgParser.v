(** ArgParser.v: model of the command line parser, src/utils/common_argument_parser.cpp (all of it)
    with include/zlib_with_tools/common/util/common_argument_parser.hpp:24-55.

    Simplifications, stated once here:
    - option objects ([CInputBase] and its two subclasses) live in a heap given by a function from
      object numbers to contents, [None] for an object that does not exist (never allocated or
      deleted).  Numbers are never used again, so an address is never given out twice.  [new] and the
      copies of [std::string] do not fail; [malloc] in AddOption may fail ([mok]);
    - [m_htOptionsInAndOut] is a function from keys to object numbers; keys and arguments are C
      strings without their terminating NUL;
    - an argument vector is the array of its cells: [Some] string or [None] for NULL; reading NULL as
      a string or a cell outside the array is [UB];
    - [int] counters are unbounded naturals; they are bounded by the number of arguments, which the
      caller keeps in an [int];
    - every read of an argument as a string is logged with the argument count at that time. *)
From Verif Require Import Base.

(** common_argument_parser.hpp:33 [argType]: noArg, rightArg, leftArg, bougthArg. *)
Inductive akind := ANo | ARight | ALeft | ABoth.

(** common_argument_parser.cpp:34-64 [CInputBase], [CInputArgRight], [CInputArgRightAndLeft].  The
    strings a class does not have are [[]], which is what valueRight/valueLeft of that class return. *)
Record opt := Opt { ob_kind : akind; ob_found : bool; ob_right : bytes; ob_left : bytes;
                    ob_help : bytes }.

(** common_argument_parser.hpp:51-54, common_argument_parser.cpp:66-69 [InfoAndCleanPair], and the
    heap of option objects. *)
Record prs := Prs {
  pr_obj : N -> option opt;
  pr_next : N;
  pr_map : bytes -> option N;
  pr_vect : list (bytes * bytes * N);
  pr_max : N }.

(** common_argument_parser.cpp:71-74: the constructor. *)
Definition prs_new : prs := Prs (fun _ => None) 0 (fun _ => None) [] 0.

(** Function update on object numbers and keys. *)
Definition upd_obj (f : N -> option opt) (k : N) (v : option opt) : N -> option opt :=
  fun x => if x =? k then v else f x.
Definition upd_map (f : bytes -> option N) (k : bytes) (v : option N) : bytes -> option N :=
  fun x => if bytes_eqb x k then v else f x.

(** [delete p]: UB if the object is gone already. *)
Definition del_obj (k : N) (p : prs) : outcome prs :=
  match pr_obj p k with
  | None => UB
  | Some _ => Ok (Prs (upd_obj (pr_obj p) k None) (pr_next p) (pr_map p) (pr_vect p) (pr_max p))
  end.

(** common_argument_parser.cpp:134-140 and 156-162: register one key for object [id]. *)
Definition reg_key (id : N) (key : bytes) (p : prs) : outcome prs :=
  do p1 <- match pr_map p key with
           | Some k => if k =? id then Ok p
                       else do q <- del_obj k p;
                            Ok (Prs (pr_obj q) (pr_next q) (upd_map (pr_map q) key None) (pr_vect q) (pr_max q))
           | None => Ok p
           end;
  Ok (Prs (pr_obj p1) (pr_next p1) (upd_map (pr_map p1) key (Some id)) (pr_vect p1) (pr_max p1)).

Fixpoint reg_keys (id : N) (keys : list bytes) (p : prs) : outcome prs :=
  match keys with
  | [] => Ok p
  | k :: r => do p1 <- reg_key id k p; reg_keys id r p1
  end.

Definition comma : byte := x2c.
Definition colon : byte := x3a.
Definition dash : byte := x2d.

(** The C string in a [std::string]'s buffer: up to its first NUL. *)
Fixpoint c_str (s : bytes) : bytes :=
  match s with
  | [] => []
  | b :: r => if byte_eqb b nul then [] else b :: c_str r
  end.

(** common_argument_parser.cpp:129-130, 143 and 154-155, 163: the names the do/while loops walk over,
    [strpbrk] with the set {',', ':'}; [cur] is the part of the current name seen already.  Second
    component: the text after the first ':' (lines 123-127, 149-153), if there is one.
    An empty text after the ':' is [Some []]. *)
Fixpoint split_names (cur : bytes) (s : bytes) : list bytes * option bytes :=
  match s with
  | [] => ([cur], None)
  | b :: r =>
    if byte_eqb b comma then let '(l, h) := split_names [] r in (cur :: l, h)
    else if byte_eqb b colon then ([cur], Some r)
    else split_names (cur ++ [b]) r
  end.

(** The part before the first ':' : what [pcBuffer] holds at returnPoint
    (common_argument_parser.cpp:128, 153 put every ',' back; the ':' stays NUL). *)
Fixpoint before_colon (s : bytes) : bytes :=
  match s with
  | [] => []
  | b :: r => if byte_eqb b colon then [] else b :: before_colon r
  end.

(** common_argument_parser.cpp:131-133: the prefixes of a name, lengths 1 to strlen. *)
Definition prefixes (n : bytes) : list bytes :=
  map (fun i => firstn i n) (seq 1 (length n)).

(** The keys registered by one AddOption call, in order (common_argument_parser.cpp:121-164). *)
Definition keys_of (kind : akind) (names : list bytes) : list bytes :=
  match kind with ABoth => flat_map prefixes names | _ => names end.

(** common_argument_parser.cpp:101-115: the new object; [d3], [d4] are the third and the fourth
    argument of the call (the header calls them defLeft and defRight, hpp:43; the implementation
    calls them a_defRight and a_defLeft, cpp:90).  For bougthArg [aRight] is never set. *)
Definition str_or_empty (d : option bytes) : bytes := match d with Some s => s | None => [] end.
Definition new_opt (kind : akind) (d3 d4 : option bytes) (help : bytes) : option opt :=
  match kind with
  | ANo => Some (Opt ANo false [] [] help)
  | ARight => Some (Opt ARight false (str_or_empty d3) [] help)
  | ABoth => Some (Opt ABoth false [] (str_or_empty d4) help)
  | ALeft => None
  end.

(** common_argument_parser.cpp:88-176 AddOption.  The help text is stored in the object from the
    start (it is set while the object is not visible to anybody else, lines 125, 151).
    [unHelpStart] (line 93): length of the whole [std::string] unless there is a ':' (124, 150).
    If [malloc] failed the object is leaked (line 117). *)
Definition add_option (mok : bool) (name : bytes) (kind : akind) (d3 d4 : option bytes) (p : prs)
  : outcome prs :=
  let s := c_str name in
  let '(names, h) := split_names [] s in
  match new_opt kind d3 d4 (str_or_empty h) with
  | None => Ok p
  | Some ob =>
    let id := pr_next p in
    let p1 := Prs (upd_obj (pr_obj p) id (Some ob)) (id + 1) (pr_map p) (pr_vect p) (pr_max p) in
    if mok then
      do p2 <- reg_keys id (keys_of kind names) p1;
      let start := match h with
                   | Some _ => lenN (before_colon s) + 1
                   | None => lenN name
                   end in
      Ok (Prs (pr_obj p2) (pr_next p2) (pr_map p2)
              (pr_vect p2 ++ [(before_colon s, str_or_empty h, id)])
              (if pr_max p2 <? start then start else pr_max p2))
    else Ok p1
  end.

(** common_argument_parser.cpp:82-85 operator<<. *)
Definition add_plain (mok : bool) (name : bytes) (p : prs) : outcome prs :=
  add_option mok name ANo (Some []) None p.

(** common_argument_parser.cpp:179-196 valueLeft and operator[]: NULL is [Ok None]; UB if the object
    of a registered name is gone. *)
Definition value_of (get : opt -> bytes) (name : bytes) (p : prs) : outcome (option bytes) :=
  match pr_map p name with
  | None => Ok None
  | Some k => match pr_obj p k with
              | None => UB
              | Some ob => Ok (if ob_found ob then Some (get ob) else None)
              end
  end.
Definition value_left := value_of ob_left.
Definition value_right := value_of ob_right.

(** common_argument_parser.cpp:199-212 HelpString.  [std::string(n,' ')] throws if [n] exceeds
    max_size (2^63 - 1): [UB]. *)
Definition max_size : N := 9223372036854775807.
Fixpoint help_lines (mx : N) (v : list (bytes * bytes * N)) : outcome bytes :=
  match v with
  | [] => Ok []
  | (o, info, _) :: r =>
    let n := u64 (sub64 mx (lenN o) + 2) in
    if max_size <? n then UB
    else do t <- help_lines mx r;
         Ok (o ++ [colon] ++ repeat x20 (N.to_nat n) ++ info ++ [x0a] ++ t)
  end.
Definition help_string (p : prs) : outcome bytes := help_lines (pr_max p) (pr_vect p).

(** common_argument_parser.cpp:215-226 Clear (also the destructor, 76-79). *)
Fixpoint del_all (v : list (bytes * bytes * N)) (p : prs) : outcome prs :=
  match v with
  | [] => Ok p
  | (_, _, k) :: r => do q <- del_obj k p; del_all r q
  end.
Definition clear (p : prs) : outcome prs :=
  do q <- del_all (pr_vect p) p;
  Ok (Prs (pr_obj q) (pr_next q) (fun _ => None) [] 0).

(** ** ParseCommandLine, common_argument_parser.cpp:229-281 *)

(** Reading cell [i] as a string. *)
Definition arg_at (i : N) (cells : list (option bytes)) : outcome bytes :=
  match dropN i cells with Some s :: _ => Ok s | _ => UB end.

(** [memmove(argv+dst, argv+src, n*sizeof(char* ))]. *)
Definition move (dst src n : N) (cells : list (option bytes)) : outcome (list (option bytes)) :=
  if (lenN cells <? src + n) || (lenN cells <? dst + n) then UB
  else Ok (takeN dst cells ++ slice src n cells ++ dropN (dst + n) cells).

(** Log of reads: index and argument count, latest first. *)
Notation rlog := (list (N * N)).

(** common_argument_parser.cpp:239-241: [todo] is what is left of [unStrLen].  The [continue] on
    line 240 continues this inner loop. *)
Fixpoint skip_loop (todo : nat) (mp : bytes -> option N) (argc i : N) (cells : list (option bytes))
    (log : rlog) : outcome (N * rlog) :=
  match todo with
  | O => Ok (i, log)
  | S t => do a <- arg_at i cells;
           skip_loop t mp argc (match mp a with None => i + 1 | Some _ => i end) cells ((i, argc) :: log)
  end.

Definition starts_dash (a : bytes) : bool :=
  match a with b :: _ => byte_eqb b dash | [] => false end.

(** State of the outer loop. *)
Record pst := PSt { ps_prs : prs; ps_argc : N; ps_i : N; ps_cells : list (option bytes);
                    ps_log : rlog }.

Definition set_obj (k : N) (ob : opt) (p : prs) : prs :=
  Prs (upd_obj (pr_obj p) k (Some ob)) (pr_next p) (pr_map p) (pr_vect p) (pr_max p).

(** common_argument_parser.cpp:257-265: the argument on the left. *)
Definition take_left (k : N) (s : pst) : outcome pst :=
  if ps_i s =? 0 then Ok s
  else
    let i1 := ps_i s - 1 in
    do a <- arg_at i1 (ps_cells s);
    let log := (i1, ps_argc s) :: ps_log s in
    if starts_dash a then Ok (PSt (ps_prs s) (ps_argc s) (ps_i s) (ps_cells s) log)
    else
      match pr_obj (ps_prs s) k with
      | None => UB
      | Some ob =>
        do cells <- move i1 (ps_i s) (ps_argc s - ps_i s + 1) (ps_cells s);
        Ok (PSt (set_obj k (Opt (ob_kind ob) (ob_found ob) (ob_right ob) a (ob_help ob)) (ps_prs s))
                (ps_argc s - 1) i1 cells log)
      end.

(** common_argument_parser.cpp:268-272: the argument on the right.  [a_argc--] is evaluated only if
    the argument does not start with '-'. *)
Definition take_right (k : N) (s : pst) : outcome pst :=
  do a <- arg_at (ps_i s) (ps_cells s);
  let log := (ps_i s, ps_argc s) :: ps_log s in
  if starts_dash a then Ok (PSt (ps_prs s) (ps_argc s) (ps_i s) (ps_cells s) log)
  else if ps_i s <? ps_argc s then
    match pr_obj (ps_prs s) k with
    | None => UB
    | Some ob =>
      do cells <- move (ps_i s) (ps_i s + 1) (ps_argc s - 1 - ps_i s) (ps_cells s);
      Ok (PSt (set_obj k (Opt (ob_kind ob) (ob_found ob) a (ob_left ob) (ob_help ob)) (ps_prs s))
              (ps_argc s - 1) (ps_i s) cells log)
    end
  else Ok (PSt (ps_prs s) (ps_argc s - 1) (ps_i s) (ps_cells s) log).

(** common_argument_parser.cpp:238-278: one round of the outer loop. *)
Definition parse_step (s : pst) : outcome pst :=
  let mp := pr_map (ps_prs s) in
  do a0 <- arg_at (ps_i s) (ps_cells s);
  do (i, log1) <- skip_loop (length a0) mp (ps_argc s) (ps_i s) (ps_cells s)
                             ((ps_i s, ps_argc s) :: ps_log s);
  do a <- arg_at i (ps_cells s);
  let log := (i, ps_argc s) :: log1 in
  match mp a with
  | None => Ok (PSt (ps_prs s) (ps_argc s) (i + 1) (ps_cells s) log)
  | Some k =>
    match pr_obj (ps_prs s) k with
    | None => UB
    | Some ob =>
      if ob_found ob then Ok (PSt (ps_prs s) (ps_argc s) (i + 1) (ps_cells s) log)
      else
        let p := set_obj k (Opt (ob_kind ob) true (ob_right ob) (ob_left ob) (ob_help ob)) (ps_prs s) in
        let argc := ps_argc s - 1 in
        if i <? argc then
          do cells <- move i (i + 1) (argc - i) (ps_cells s);
          let s1 := PSt p argc i cells log in
          match ob_kind ob with
          | ABoth => do s2 <- take_left k s1; take_right k s2
          | ARight => take_right k s1
          | _ => Ok s1
          end
        else Ok (PSt p argc i (ps_cells s) log)
    end
  end.

Fixpoint parse_loop (fuel : nat) (s : pst) : outcome pst :=
  match fuel with
  | O => NoFuel
  | S f => if ps_i s <? ps_argc s then do s1 <- parse_step s; parse_loop f s1 else Ok s
  end.

(** ParseCommandLine on an argument vector with [argc] arguments in the array [cells]. *)
Definition parse (fuel : nat) (argc : N) (cells : list (option bytes)) (p : prs) : outcome pst :=
  parse_loop fuel (PSt p argc 0 cells []).

(** A program's argument vector: the strings and the NULL behind them. *)
Definition argv_of (args : list bytes) : list (option bytes) := map Some args ++ [None].
Definition parse_args (fuel : nat) (args : list bytes) (p : prs) : outcome pst :=
  parse fuel (lenN args) (argv_of args) p.
