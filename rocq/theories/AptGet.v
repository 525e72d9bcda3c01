(** AptGet.v: the installer tool, src/tools/main_apt-get.cpp.

    Not modelled: what the functions of missing headers and of Windows do (ZlibDecompressFromWeb, MoveFileExA, DeleteFileA,
    CreateNewProcess4Std: parameters giving their results; their calls are logged), messages. *)
From Verif Require Import Base.

(** ** C strings in buffers *)

(** A buffer: a cell without a value has not been written. *)
Notation cells := (list (option byte)).

(** Writing [data] at [off]; outside of the buffer undefined. *)
Definition store (off : N) (data : bytes) (c : cells) : outcome cells :=
  if off + lenN data <=? lenN c then Ok (takeN off c ++ map Some data ++ dropN (off + lenN data) c) else UB.

(** Reading the string at the beginning of the cells up to its NUL; unwritten cells and the end of the buffer: undefined. *)
Fixpoint cstr (c : cells) : outcome bytes :=
  match c with
  | Some b :: r => if byte_eqb b x00 then Ok [] else do s <- cstr r; Ok (b :: s)
  | _ => UB
  end.
(** The string at [off].  strstr, strspn, strcspn, strcmp, printf("%s") of the model read it completely. *)
Definition str_at (off : N) (c : cells) : outcome bytes := cstr (dropN off c).
(** Reading one byte. *)
Definition load (off : N) (c : cells) : outcome byte :=
  match dropN off c with Some b :: _ => Ok b | _ => UB end.
(** Reading [n] bytes (memcpy). *)
Fixpoint all_written (c : cells) : outcome bytes :=
  match c with
  | [] => Ok []
  | Some b :: r => do s <- all_written r; Ok (b :: s)
  | None :: _ => UB
  end.
Definition block (off n : N) (c : cells) : outcome bytes :=
  if off + n <=? lenN c then all_written (slice off n c) else UB.

Fixpoint starts_with (k s : bytes) : bool :=
  match k, s with
  | [], _ => true
  | x :: k', y :: s' => byte_eqb x y && starts_with k' s'
  | _ :: _, [] => false
  end.
(** strstr(s, k) - s. *)
Fixpoint strstr (s k : bytes) : option N :=
  if starts_with k s then Some 0
  else match s with [] => None | _ :: s' => match strstr s' k with Some i => Some (1 + i) | None => None end end.
Definition mem (set : bytes) (b : byte) : bool := existsb (byte_eqb b) set.
(** strspn, strcspn. *)
Fixpoint strspn (s set : bytes) : N :=
  match s with b :: r => if mem set b then 1 + strspn r set else 0 | [] => 0 end.
Fixpoint strcspn (s set : bytes) : N :=
  match s with b :: r => if mem set b then 0 else 1 + strcspn r set | [] => 0 end.

(** _snprintf of the Windows C library: at most [count] bytes, NUL only if there is room for it. *)
Definition ms_snprintf (off count : N) (s : bytes) (c : cells) : outcome cells :=
  store off (takeN count s ++ if lenN s <? count then [x00] else []) c.
(** snprintf of the C standard: at most [count] bytes including the NUL. *)
Definition c_snprintf (off count : N) (s : bytes) (c : cells) : outcome cells :=
  if count =? 0 then Ok c else store off (takeN (count - 1) s ++ [x00]) c.

(** ** main_apt-get.cpp *)

(** Line 11. *)
Definition REMOTE_URI_MIN1 : N := 1023.
(** Line 12: C:\.dsi-tmp *)
Definition TEMPORARY_DIR : bytes := [x43;x3a;x5c;x2e;x64;x73;x69;x2d;x74;x6d;x70].
(** Lines 15, 16: root: and run: *)
Definition ROOT_KEY : bytes := [x72;x6f;x6f;x74;x3a].
Definition RUN_KEY : bytes := [x72;x75;x6e;x3a].
(** Line 45: the address without the name of the package, and what follows the name. *)
Definition URL_HEAD : bytes :=
  [x68;x74;x74;x70;x73;x3a;x2f;x2f;x64;x65;x73;x79;x63;x6c;x6f;x75;x64;x2e;x64;x65;x73;x79;x2e;x64;
   x65;x2f;x69;x6e;x64;x65;x78;x2e;x70;x68;x70;x2f;x73;x2f;x58;x76;x4e;x68;x7a;x6f;x75;x5a;x6c;x56;
   x35;x73;x31;x32;x57;x2f;x64;x6f;x77;x6e;x6c;x6f;x61;x64;x3f;x70;x61;x74;x68;x3d;x25;x32;x46;x41;
   x52;x4d;x26;x66;x69;x6c;x65;x73;x3d].
Definition URL_TAIL : bytes := [x2e;x64;x73;x69].
(** Line 44: install *)
Definition INSTALL : bytes := [x69;x6e;x73;x74;x61;x6c;x6c].
(** Line 103: " /Install" *)
Definition INSTALL_ARG : bytes := [x20;x2f;x49;x6e;x73;x74;x61;x6c;x6c].
Definition backslash : byte := x5c.
(** Lines 27, 28: arrays of two and four bytes; there is no NUL at their end. *)
Definition svcTermStr : bytes := [x20;x09].
Definition svcTermStr2 : bytes := [x20;x09;x0a;x0d].

(** Results of the functions called, and the memory behind the two arrays: no cells in strict C, where reading beyond an array is
    undefined; the bytes a linker put there otherwise. *)
Record world := World {
  w_web : bytes -> bytes -> Z;        (* ZlibDecompressFromWeb *)
  w_steps : option bytes;             (* fopen of the file with the steps, what fread finds *)
  w_step_name : bytes;                (* INSTALLERS_STEP_FL_NAME *)
  w_move : bytes -> bytes -> bool;    (* MoveFileExA *)
  w_start : bytes -> Z;               (* CreateNewProcess4Std *)
  w_behind : cells;                   (* behind svcTermStr *)
  w_behind2 : cells }.                (* behind svcTermStr2 *)

Inductive action :=
| AWeb (url dir : bytes)
| AOpen (file : bytes)
| ADelete (file : bytes)
| AMove (from to : bytes)
| AStart (command : bytes)
| AWait.

(** Lines 66-69 and 97-100: skips blanks behind the key, finds the end of the value, returns its start and length. *)
Definition value_at (W : world) (p : N) (tmp : cells) : outcome (N * N) :=
  do s1 <- str_at p tmp;
  do set1 <- cstr (map Some svcTermStr ++ w_behind W);
  let p := p + strspn s1 set1 in
  do s2 <- str_at p tmp;
  do set2 <- cstr (map Some svcTermStr2 ++ w_behind2 W);
  Ok (p, strcspn s2 set2).

(** Lines 44-107, the command install. *)
Definition install (W : world) (package : bytes) : outcome (Z * list action) :=
  let none := repeat None (N.to_nat (REMOTE_URI_MIN1 + 1)) in
  let steps_file := TEMPORARY_DIR ++ [backslash] ++ w_step_name W in
  do tmp <- ms_snprintf 0 REMOTE_URI_MIN1 (URL_HEAD ++ package ++ URL_TAIL) none;
  do url <- str_at 0 tmp;
  let nReturn := w_web W url TEMPORARY_DIR in
  let log := [AWeb url TEMPORARY_DIR] in
  if negb (nReturn =? 0)%Z then Ok (nReturn, log)
  else
  let log := log ++ [AOpen steps_file] in
  match w_steps W with
  | None => Ok (nReturn, log)
  | Some file =>
    let data := takeN REMOTE_URI_MIN1 file in
    do tmp <- store 0 data tmp;
    do tmp <- store (lenN data) [x00] tmp;
    let log := log ++ [ADelete steps_file] in
    do s <- str_at 0 tmp;
    match strstr s ROOT_KEY with
    | None => Ok (nReturn, log)
    | Some i =>
      do (p, unRead) <- value_at W (i + lenN ROOT_KEY) tmp;
      do cTemp <- load (p + unRead) tmp;
      do tmp <- store (p + unRead) [x00] tmp;
      if REMOTE_URI_MIN1 <? unRead + 1 then Ok (nReturn, log)
      else
      let unRemaining := REMOTE_URI_MIN1 - unRead - 1 in
      do name <- block p unRead tmp;
      do target <- store 0 name none;
      do target <- store unRead [backslash] target;
      let next := unRead + 1 in
      do out <- str_at p tmp;
      let same := bytes_eqb TEMPORARY_DIR out in
      let log := if same then log else log ++ [AMove TEMPORARY_DIR out] in
      if negb same && negb (w_move W TEMPORARY_DIR out) then Ok (nReturn, log)
      else
      do tmp <- store (p + unRead) [cTemp] tmp;
      do s <- str_at 0 tmp;
      match strstr s RUN_KEY with
      | None => Ok (0%Z, log)
      | Some j =>
        do (p, unRead) <- value_at W (j + lenN RUN_KEY) tmp;
        do tmp <- store (p + unRead) [x00] tmp;
        do out <- str_at p tmp;
        do target <- c_snprintf next unRemaining (out ++ INSTALL_ARG) target;
        do command <- str_at 0 target;
        let log := log ++ [AStart command] in
        Ok (0%Z, if (w_start W command =? 0)%Z then log ++ [AWait] else log)
      end
    end
  end.

(** Lines 25-114, main.  [argv]: the arguments, a_argv[0] first. *)
Definition apt_main (W : world) (argv : list bytes) : outcome (Z * list action) :=
  match argv with
  | _ :: cmd :: package :: _ => if bytes_eqb cmd INSTALL then install W package else Ok (0%Z, [])
  | _ :: _ :: _ => Ok (0%Z, [])
  | _ => Ok ((-1)%Z, [])
  end.
