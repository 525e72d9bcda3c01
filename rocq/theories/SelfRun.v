(** SelfRun.v: model of the branch of src/tools/main_self_extract.c that unpacks the appended archive and starts the
    program found in it.

    Simplifications:
    - the branch starts with the bytes that follow the first MAX_EXE_SIZE bytes of the executable ([SeRun] of Tools.v);
      reading them does not fail;
    - [remove]: what RemoveNonEmptyDirectory(".out_dir") does to the file system (its Unix version, lines 287-325, does not
      compile: a_data is not declared and a brace is missing; on Windows it is a call of the system);
    - [start k p o]: the k-th SystemCreateProcessU with program [p] in state [o]: [None] if it returns NULL, otherwise what
      SystemWaitAndClearProcess stores (the exit status), and the state when the program ended. *)
From Coq Require Import Strings.String.
From Verif Require Import Base Format Zlib Parser Decompress FS HL Tools.
Local Notation b := list_byte_of_string.

(** main_self_extract.c:35-36 OUT_FOLDER_NAME_01, ZLIBWT_SE_OUT_DIR_STR_LEN_PLUS1. *)
Definition se_dir : bytes := b ".out_dir".
Definition SE_OFF : N := 9.

(** main_self_extract.c:143: the block returned by strdup.  ZLIBWT_FILE_DELIM: "/". *)
Definition se_arg0 : bytes := b ".out_dir/maind.exe" ++ [x00].

(** main_self_extract.c:167-171. *)
Definition se_patch (blk : bytes) : bytes :=
  set_byte (SE_OFF + 8) x00 (set_byte (SE_OFF + 7) x65 (set_byte (SE_OFF + 6) x78 (set_byte (SE_OFF + 5) x65
    (set_byte (SE_OFF + 4) x2e blk)))).

(** What a run does: return value of main, programs started with the state at that time, final state, the session of the
    decompressor. *)
Record se_ran (z : zlib) : Type := SR {
  sr_ret : Z; sr_started : list (bytes * os); sr_os : os; sr_sess : option (dsess z)
}.
Arguments SR {z}. Arguments sr_ret {z}. Arguments sr_started {z}. Arguments sr_os {z}. Arguments sr_sess {z}.

Section SelfRun.
(** [dup]: strdup succeeds; the others as for [extract]. *)
Context (hal : N -> bool) (stk : N) (z : zlib) (e : endian) (alloc : N -> N -> bool) (fuel dfuel : nat) (al : N -> bool)
  (obuf hjunk : bytes) (pjunk : pst) (dup : bool) (remove : os -> os) (start : N -> bytes -> os -> option Z * os).

(** Lines 153, 173: SystemCreateProcessU(a_argv), a_argv[0] being the block [blk]. *)
Definition se_start (k : N) (blk : bytes) (o : os) : outcome (bytes * (option Z * os)) :=
  match cstr blk with
  | None => UB
  | Some p => Ok (p, start k p o)
  end.

(** main_self_extract.c:138-184 and 229-242; [inp]: the rest of the executable. *)
Definition se_go (inp : bytes) (o : os) : outcome (se_ran z) :=
  if negb dup then Ok (SR 1 [] o None)
  else
    let o1 := remove o in
    do (x, o2) <- exec (extract se_dir hal stk z e alloc 0 fuel dfuel al obuf hjunk pjunk inp false) o1;
    let '(ret, st) := x in
    let sess := match st with Some (s, _, _) => Some s | None => None end in
    if negb (ret =? ContentDirectory) then Ok (SR 1 [] o2 sess)
    else
      do (p1, r1) <- se_start 0 se_arg0 o2;
      let '(c1, o3) := r1 in
      let nret := match c1 with Some c => c | None => 1%Z end in
      if negb (nret =? 0)%Z then
        do (p2, r2) <- se_start 1 (se_patch se_arg0) o3;
        let '(c2, o4) := r2 in
        Ok (SR 0 [(p1, o2); (p2, o3)] o4 sess)
      else Ok (SR 0 [(p1, o2)] (remove o3) sess).
End SelfRun.
