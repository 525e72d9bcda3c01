(** TestTools.v: model of src/tests/main_zlibwt_hl_test.cpp, src/tests/main_zlibwt_ll_test.cpp and
    src/tests/main_change_or_add_icon_test.cpp.

    Simplifications: messages are not modelled; reading the input file and listing the input folder are
    parameters; the output of the compressing options is a file of its own of which [room] bytes can be written
    (as in Tools.v); extraction runs on the file system of FS.v. *)
From Coq Require Import Strings.String.
From Verif Require Import Base Format Zlib LLCompress Compress Parser Decompress FS HL ArgParser Tools.
Local Notation b := list_byte_of_string.

(** ** Command line *)

(** main_zlibwt_hl_test.cpp:27-41, main_zlibwt_ll_test.cpp:51-65: [None] if there are less than three arguments;
    otherwise the first byte of argv[1] (the NUL if it is empty), the input name and the output name. *)
Definition tt_args (argv : list bytes) : option (byte * bytes * bytes) :=
  match argv with
  | _ :: f :: inp :: r =>
    Some (match f with c :: _ => c | [] => x00 end, inp, match r with out :: _ => out | [] => b "out.zlib" end)
  | _ => None
  end.

(** main_zlibwt_hl_test.cpp:120-123, main_zlibwt_ll_test.cpp:163-166: every entry is archived. *)
Definition tt_filter (f : unit) (d : list bytes) (n : bytes) (k : skind) : Z * unit := (0%Z, tt).

(** main_zlibwt_hl_test.cpp:78-81: the extra buffer of option d; its mode is not initialised: [xm]. *)
Definition tt_root_bufs (xm : N) : list xbuf :=
  [XB (b "__not_updateabe_files") (b "mconfig.bconf" ++ [x00]) xm].
(** main_zlibwt_hl_test.cpp:91-100: the extra buffers of option e. *)
Definition tt_nested_bufs (xm : N) : list xbuf :=
  [XB (b "a/b/__not_updateabe_files") (b "mconfig.bconf" ++ [x00]) xm;
   XB (b "plugins/a/b/__not_updateabe_files2") (b "mconfig.bconf" ++ [x00]) xm;
   XB (b "plugins/a/b/c/__not_updateabe_files3") (b "mconfig.bconf" ++ [x00]) xm].

(** What a run did: return value of main ([CExit]: exit() was called inside); the file written by a compressing
    option; the file system after a decompressing one; the session of the decompressor. *)
Record tt_ran (z : zlib) : Type := TR {
  tr_ret : cres; tr_file : option (bytes * bytes); tr_os : os; tr_sess : option (dsess z)
}.
Arguments TR {z}. Arguments tr_ret {z}. Arguments tr_file {z}. Arguments tr_os {z}. Arguments tr_sess {z}.

Section Compressing.
(** As for [cd_main]; [rdf name]: bytes of the input file and whether reading fails after them, [None] if it cannot
    be opened. *)
Context (z : zlib) (e : endian) (jk : N -> bytes) (hj : N -> N -> bytes) (xjk : N -> N -> bytes)
  (hjunk : bytes) (al : N -> bool) (opn : bytes -> bool) (rdf : bytes -> option (bytes * bool))
  (ls : bytes -> option (list (bytes * snode))) (room : N) (xm : N).

(** Option a: main_zlibwt_hl_test.cpp:42-57, main_zlibwt_ll_test.cpp:66-81; callbacks 113-117 and 156-160. *)
Definition tt_compress_file (fuel : nat) (inp out : bytes) (o : os) : outcome (tt_ran z) :=
  match rdf inp with
  | None => Ok (TR (CRet 1%Z) None o None)
  | Some (data, rderr) =>
    if negb (opn out) then Ok (TR (CRet 1%Z) None o None)
    else
      do (r, cevs, led) <- compress_file z e hjunk al fuel Z_BEST_COMPRESSION 1 data rderr;
      Ok (TR (CRet r) (Some (out, takeN room (cev_bytes cevs))) o None)
  end.

(** Options c, d and e: main_zlibwt_hl_test.cpp:63-71, 72-84, 85-103, main_zlibwt_ll_test.cpp:138-146. *)
Definition tt_compress_dir (fuel : nat) (nested : bool) (xs : list xbuf) (inp out : bytes) (o : os) : outcome (tt_ran z) :=
  if negb (opn out) then Ok (TR (CRet 1%Z) None o None)
  else
    do (r, cevs, ws, wx, led) <-
      compress_dir z e tt_filter jk hj xjk hjunk al fuel Z_BEST_COMPRESSION 1 nested xs (ls inp) tt;
    Ok (TR r (Some (out, takeN room (cev_bytes cevs))) o None).
End Compressing.

(** ** The high level test *)

Section HLTest.
Context (z : zlib) (e : endian) (jk : N -> bytes) (hj : N -> N -> bytes) (xjk : N -> N -> bytes)
  (hjunk : bytes) (al : N -> bool) (opn : bytes -> bool) (rdf : bytes -> option (bytes * bool))
  (ls : bytes -> option (list (bytes * snode))) (room : N) (xm : N).
Context (hal : N -> bool) (stk : N) (alloc : N -> N -> bool) (dfuel : nat) (obuf : bytes) (pjunk : Parser.pst).

(** Option b: main_zlibwt_hl_test.cpp:58-62. *)
Definition hlt_extract (fuel : nat) (inp out : bytes) (o : os) : outcome (tt_ran z) :=
  do (x, o1) <- exec (extract_file out hal stk z e alloc 0 fuel dfuel al obuf hjunk pjunk (rdf inp)) o;
  let '(ret, st) := x in
  Ok (TR (CRet (if ret =? ContentNone then 1%Z else 0%Z)) None o1
         (match st with Some (s, _, _) => Some s | None => None end)).

(** main_zlibwt_hl_test.cpp:25-110. *)
Definition hlt_main (fuel : nat) (argv : list bytes) (o : os) : outcome (tt_ran z) :=
  match tt_args argv with
  | None => Ok (TR (CRet 1%Z) None o None)
  | Some (f, inp, out) =>
    if byte_eqb f x61 then tt_compress_file z e hjunk al opn rdf room fuel inp out o
    else if byte_eqb f x62 then hlt_extract fuel inp out o
    else if byte_eqb f x63 then tt_compress_dir z e jk hj xjk hjunk al opn ls room fuel false [] inp out o
    else if byte_eqb f x64 then tt_compress_dir z e jk hj xjk hjunk al opn ls room fuel false (tt_root_bufs xm) inp out o
    else if byte_eqb f x65 then tt_compress_dir z e jk hj xjk hjunk al opn ls room fuel true (tt_nested_bufs xm) inp out o
    else Ok (TR (CRet 1%Z) None o None)
  end.
End HLTest.

(** ** The low level test *)

(** main_zlibwt_ll_test.cpp:91, 116: both buffers have 4096 bytes. *)
Definition LT_CHUNK : N := 4096.
(** main_zlibwt_ll_test.cpp:192: S_IRWXU | S_IRWXG | S_IROTH | S_IXOTH. *)
Definition MODE_0775 : N := 509.

(** struct SDecompressData, main_zlibwt_ll_test.cpp:34-43; [l_n]: number of allocations so far. *)
Record lst : Type := LS { l_fp : option N; l_fd : option N; l_dp : option bytes; l_dplen : N; l_err : bool; l_n : N }.
Definition l_fail l := LS (l_fp l) (l_fd l) (l_dp l) (l_dplen l) true (l_n l).
Definition LS0 : lst := LS None None None 0 false 0.

Section LLTest.
(** [target]: cpcFileOrFolderNameOut; [hal k]: the k-th strdup/realloc of the callbacks succeeds. *)
Context (target : bytes) (hal : N -> bool).

(** DecompressFileStartCallback, main_zlibwt_ll_test.cpp:170-177. *)
Definition lt_fl_start (l : lst) : prog lst :=
  pdo r <- psys (ScOpen true target MODE_FOPEN);
  match r with
  | RFd fd => PRet (LS (Some fd) (l_fd l) (l_dp l) (l_dplen l) (l_err l) (l_n l))
  | _ => PRet (LS None (l_fd l) (l_dp l) (l_dplen l) true (l_n l))
  end.
(** DecompressFileAndBlobCallback, 180-184: fwrite to a NULL FILE* is undefined. *)
Definition lt_fl_read (d : bytes) (l : lst) : prog lst :=
  match l_fp l with
  | None => PUB
  | Some fd => pdo r <- psys (ScWrite (Some fd) d); PRet l
  end.

(** DecompressDirStartCallback, 189-205: mkdir, not the function of the library that creates parents. *)
Definition lt_dr_start (l : lst) : prog lst :=
  pdo r <- psys (ScMkdir target MODE_0775);
  match r with
  | ROk =>
    if hal (l_n l) then PRet (LS (l_fp l) (l_fd l) (Some (target ++ [x00])) (lenN target) (l_err l) (l_n l + 1))
    else PRet (LS (l_fp l) (l_fd l) None (l_dplen l) true (l_n l + 1))
  | _ => PRet (l_fail l)
  end.

(** Lines 212-222: the path of a directory entry, as [entry_path]. *)
Definition lt_path (it : item) (name : bytes) (l : lst) : outcome bytes :=
  let dp := match l_dp l with Some x => x | None => [] end in
  if lenN name <? it_nlen it then UB
  else if lenN dp <? l_dplen l then UB
  else Ok (takeN (l_dplen l) dp ++ x2f :: takeN (it_nlen it) name ++ [x00]).

(** DecompressDirFileOrDirStartCallback, 207-240.  Everything that is not a directory is opened as a file; its path is
    printed into 4095 bytes from two C strings ("%s" with NULL is undefined). *)
Definition lt_entry (ft : ftype) (it : item) (name : bytes) (l : lst) : prog lst :=
  match ft with
  | FtDir =>
    if negb (hal (l_n l)) then PRet (LS (l_fp l) (l_fd l) (l_dp l) (l_dplen l) true (l_n l + 1))
    else
      pdo p <- plift (lt_path it name l);
      let l1 := LS (l_fp l) (l_fd l) (Some p) (l_dplen l + 1 + it_nlen it) (l_err l) (l_n l + 1) in
      with_cstr p (fun s =>
        pdo r <- psys (ScMkdir s (it_mode it));
        match r with ROk => PRet l1 | _ => PRet (l_fail l1) end)
  | _ =>
    match l_dp l with
    | None => PUB
    | Some dp =>
      with_cstr dp (fun dir =>
        with_cstr name (fun nm =>
          pdo r <- psys (ScOpen false (takeN 4094 (dir ++ x2f :: nm)) (N.land 511 (it_mode it)));
          match r with
          | RFd fd => PRet (LS (l_fp l) (Some fd) (l_dp l) (l_dplen l) (l_err l) (l_n l))
          | _ => PRet (LS (l_fp l) None (l_dp l) (l_dplen l) true (l_n l))
          end))
    end
  end.

(** DecompressDirFileReadCallback, 243-248. *)
Definition lt_read (d : bytes) (l : lst) : prog lst := pdo r <- psys (ScWrite (l_fd l) d); PRet l.
(** DecompressDirFileEndCallback, 251-255. *)
Definition lt_file_end (l : lst) : prog lst := pdo r <- psys (ScClose (l_fd l)); PRet l.
(** DecompressDirDirEndCallback, 258-266: strrchr(NULL) and the failing assertion are undefined. *)
Definition lt_dir_end (l : lst) : prog lst :=
  match l_dp l with
  | None => PUB
  | Some blk =>
    with_cstr blk (fun s =>
      match rindex x2f s with
      | None => PUB
      | Some i => PRet (LS (l_fp l) (l_fd l) (Some (set_byte i x00 blk)) i (l_err l) (l_n l))
      end)
  end.

(** DecompressCallbackForSymLinksStatic, 269-274, does nothing. *)
Definition lt_cb (ev : event) (l : lst) : prog lst :=
  match ev with
  | EvRaw _ _ => PRet l
  | EvFlBegin => lt_fl_start l
  | EvFlRead d => lt_fl_read d l
  | EvDirBegin => lt_dr_start l
  | EvEntry ft it name => lt_entry ft it name l
  | EvRead d => lt_read d l
  | EvFileEnd => lt_file_end l
  | EvDirEnd => lt_dir_end l
  | EvSym _ _ => PRet l
  end.
Fixpoint lt_cbs (evs : list event) (l : lst) : prog lst :=
  match evs with
  | [] => PRet l
  | ev :: r => pdo l1 <- lt_cb ev l; lt_cbs r l1
  end.

Section Loop.
Context (z : zlib) (e : endian) (alloc : N -> N -> bool).

(** The do-while loop, 121-131; as [extract_loop].  Result: [false] if ferror (123). *)
Fixpoint lt_loop (fuel dfuel : nat) (inp : bytes) (rderr : bool) (idx : N) (s : dsess z) (l : lst)
  : prog (bool * dsess z * lst) :=
  match fuel with
  | O => PNoFuel
  | S f =>
    let d := takeN LT_CHUNK inp in
    let short := lenN d <? LT_CHUNK in
    if short && rderr then PRet (false, s, l)
    else
      pdo x <- plift (decompress e alloc dfuel (Z.of_N (N.shiftr (N.land (idx + 1) 16) 4)) d s);
      let '(ret, s1, evs) := x in
      pdo l1 <- lt_cbs evs l;
      if short || l_err l1 then PRet (true, s1, l1)
      else lt_loop f dfuel (dropN LT_CHUNK inp) rderr (idx + 1) s1 l1
  end.

Definition lt_close_fp (l : lst) : prog unit :=
  match l_fp l with None => PRet tt | Some fd => pdo r <- psys (ScClose (Some fd)); PRet tt end.

(** Option b, 82-137: the value returned by main is not assigned, so it is the initial 1.  [ok]: the session's malloc
    succeeds.  The session is destroyed before the file is closed. *)
Definition lt_extract (fuel dfuel : nat) (ok : bool) (obuf hjunk : bytes) (pjunk : Parser.pst) (inp : option (bytes * bool))
  : prog (Z * option (dsess z * lst)) :=
  match inp with
  | None => PRet (1%Z, None)
  | Some (data, rderr) =>
    match create z ok (Some obuf) LT_CHUNK hjunk pjunk with
    | None => PRet (1%Z, None)
    | Some s0 =>
      pdo x <- lt_loop fuel dfuel data rderr 0 s0 LS0;
      let '(rd, s, l) := x in
      pdo s' <- plift (destroy s);
      pdo u <- lt_close_fp l;
      PRet (1%Z, Some (s, l))
    end
  end.
End Loop.
End LLTest.

Section LLMain.
Context (z : zlib) (e : endian) (jk : N -> bytes) (hj : N -> N -> bytes) (xjk : N -> N -> bytes)
  (hjunk : bytes) (al : N -> bool) (opn : bytes -> bool) (rdf : bytes -> option (bytes * bool))
  (ls : bytes -> option (list (bytes * snode))) (room : N).
Context (hal : N -> bool) (alloc : N -> N -> bool) (dfuel : nat) (obuf : bytes) (pjunk : Parser.pst).

(** main_zlibwt_ll_test.cpp:49-153. *)
Definition llt_main (fuel : nat) (argv : list bytes) (o : os) : outcome (tt_ran z) :=
  match tt_args argv with
  | None => Ok (TR (CRet 1%Z) None o None)
  | Some (f, inp, out) =>
    if byte_eqb f x61 then tt_compress_file z e hjunk al opn rdf room fuel inp out o
    else if byte_eqb f x62 then
      do (x, o1) <- exec (lt_extract out hal z e alloc fuel dfuel (al 1) obuf hjunk pjunk (rdf inp)) o;
      let '(ret, st) := x in
      Ok (TR (CRet ret) None o1 (match st with Some (s, _) => Some s | None => None end))
    else if byte_eqb f x63 then tt_compress_dir z e jk hj xjk hjunk al opn ls room fuel false [] inp out o
    else Ok (TR (CRet 1%Z) None o None)
  end.
End LLMain.

(** ** The icon test *)

(** main_change_or_add_icon_test.cpp:21-22. *)
Definition IT_EXE : bytes := b "hello_world_test.exe".

(** main_change_or_add_icon_test.cpp:25-46.  [asserts]: assertions are checked (no NDEBUG): a failing one ends the program,
    otherwise the NULL pointer is used.  Result: the two arguments of ResourceHandlerSecIconToApp, [ItUsage]: main returns 1. *)
Inductive it_result := ItAbort | ItUsage | ItCall (app icon : bytes).
Definition it_main (asserts : bool) (argv : list bytes) : outcome it_result :=
  match argv with
  | [] => UB
  | a0 :: r =>
    match rindex x5c a0 with
    | None => if asserts then Ok ItAbort else match r with [] => Ok ItUsage | _ => UB end
    | Some i => match r with [] => Ok ItUsage | icon :: _ => Ok (ItCall (takeN (i + 1) a0 ++ IT_EXE) icon) end
    end
  end.
