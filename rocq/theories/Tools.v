(** Tools.v: model of src/tools/main_compressdir.cpp and src/tools/main_self_extract.c.

    Simplifications, stated once here:
    - messages, the output of help texts and waiting for a key are not modelled;
    - opening files, reading and writing, and the contents of the archived directory are given by
      parameters;
    - fwrite and write store some prefix of what they are given; a write at an offset behind the end
      of a file fills the gap with zeros;
    - the tool's executable and the output file are different files. *)
From Coq Require Import Strings.String.
From Verif Require Import Base Format Zlib LLCompress Compress FS ArgParser ArgSpec.
Local Notation b := list_byte_of_string.

(** ** compressdir *)

(** main_compressdir.cpp:35-39: the options.  AddOption is called with its default arguments. *)
Definition cd_options : list aop :=
  [AAdd true (b "--output-file,-of:Prvide output file name") ARight None None;
   AAdd true (b "--config-file,-cf:Provide config file for input file tree") ARight None None;
   AAdd true (b "--input-folder,-if:The name of the input folder") ARight None None;
   AAdd true (b "--help,-h:To display this help") ANo (Some []) None].

(** main_compressdir.cpp:112-115: every entry is archived. *)
Definition cd_filter (f : unit) (d : list bytes) (n : bytes) (k : skind) : Z * unit := (0%Z, tt).

(** Z_BEST_COMPRESSION of zlib.h. *)
Definition Z_BEST_COMPRESSION : Z := 9.

Section CompressDir.
(** As for [compress_dir]: zlib, byte order, uninitialised memory, malloc; [opn name]: fopen succeeds;
    [ls dir]: entries of a directory, [None] if it cannot be opened; [room]: bytes that can be
    written to the output file. *)
Context (z : zlib) (e : endian) (jk : N -> bytes) (hj : N -> N -> bytes) (xjk : N -> N -> bytes)
  (hjunk : bytes) (al : N -> bool) (opn : bytes -> bool) (ls : bytes -> option (list (bytes * snode)))
  (room : N).

(** main_compressdir.cpp:70, 74 with the callback 105-109: the file gets what fwrite stores.
    [clbk]: any address of the callback. *)
Definition cd_archive (fuel : nat) (dir : bytes) : outcome (cres * bytes) :=
  do (r, cevs, ws, wx, led) <-
    compress_dir z e cd_filter jk hj xjk hjunk al fuel Z_BEST_COMPRESSION 1 false [] (ls dir) tt;
  Ok (r, takeN room (cev_bytes cevs)).

(** main_compressdir.cpp:43-97: what main does after parsing, with the values [h], [of], [inf], [cf]
    of the four options and the arguments left.  Result: what main returns ([CExit]: exit() was
    called inside), and the name and contents of the file that was opened for writing. *)
Definition cd_decide (fuel : nat) (h of inf cf : option bytes) (argc : N) (cells : list (option bytes))
  : outcome (cres * option (bytes * bytes)) :=
  match h with
  | Some _ => Ok (CRet 0%Z, None)
  | None =>
    match of with
    | None => Ok (CRet 1%Z, None)
    | Some out =>
      if (match inf, cf with None, None => true | _, _ => false end) && (argc =? 0)
      then Ok (CRet 1%Z, None)
      else if negb (opn out) then Ok (CRet 1%Z, None)
      else
        match inf with
        | Some dir => do (r, data) <- cd_archive fuel dir; Ok (r, Some (out, data))
        | None =>
          if negb (argc =? 0) then
            do dir <- arg_at 0 cells;
            do (r, data) <- cd_archive fuel dir; Ok (r, Some (out, data))
          else Ok (CRet 0%Z, Some (out, []))
        end
    end
  end.

(** The same with the parser; its destructor runs after main's return value is known (Clear). *)
Definition cd_after (fuel : nat) (s : pst) : outcome (cres * option (bytes * bytes)) :=
  let q := ps_prs s in
  do h <- value_right (b "-h") q;
  do of <- value_right (b "-of") q;
  do inf <- value_right (b "-if") q;
  do cf <- value_right (b "-cf") q;
  do res <- cd_decide fuel h of inf cf (ps_argc s) (ps_cells s);
  do _ <- match fst res with CRet _ => clear q | CExit => Ok q end;
  Ok res.

(** main_compressdir.cpp:27-97. *)
Definition cd_main (pfuel fuel : nat) (args : list bytes) : outcome (cres * option (bytes * bytes)) :=
  do p <- run_aops cd_options prs_new;
  do s <- parse_args pfuel args p;
  cd_after fuel s.
End CompressDir.

(** ** The self extract tool *)

(** main_self_extract.c:42-46 MAX_EXE_SIZE, with and without NDEBUG; 48 VC_BUFFER_SIZE; 34
    OUT_FILE_NAME_01. *)
Definition max_exe (ndebug : bool) : N := if ndebug then 524288 else 2097152.
Definition VC_BUFFER_SIZE : N := 4192.
Definition se_out : bytes := b "__out.exe".

(** strrchr: the text before and after the last [c]. *)
Fixpoint strrchr (c : byte) (s : bytes) : option (bytes * bytes) :=
  match s with
  | [] => None
  | x :: r => match strrchr c r with
              | Some (d, n) => Some (x :: d, n)
              | None => if byte_eqb x c then Some ([], r) else None
              end
  end.

(** main_self_extract.c:112-127 and 219-221: the name of the executable and the directory to archive.
    Without a delimiter the path is not shortened.  Simplification: argv[0] is shorter than 4191
    bytes, so strncpy copies all of it (longer ones: SelfBoot.v). *)
Definition se_name_dir (argv0 : bytes) : bytes * bytes :=
  match strrchr x5c argv0 with
  | Some (d, n) => (n, d)
  | None => match strrchr x2f argv0 with
            | Some (d, n) => (n, d)
            | None => (argv0, argv0)
            end
  end.

(** main_self_extract.c:253-282 DirCompressFilterFunction; state: ownFileNotFound, outFileNotFound. *)
Definition se_filter (exe : bytes) (f : bool * bool) (d : list bytes) (n : bytes) (k : skind)
  : Z * (bool * bool) :=
  let '(own, out) := f in
  let isdir := match k with KDir => true | _ => false end in
  if own && negb isdir && bytes_eqb exe n then (1%Z, (false, out))
  else if out && negb isdir && bytes_eqb se_out n then (1%Z, (own, false))
  else (0%Z, (own, out)).

(** A file open for writing: contents and position. *)
Record wfile := WF { wf_data : bytes; wf_pos : N }.

(** write(2) storing [d]. *)
Definition wf_write (d : bytes) (w : wfile) : wfile :=
  match d with
  | [] => w
  | _ => WF (overwrite (wf_pos w) d (wf_data w ++ zeros (wf_pos w - lenN (wf_data w))))
            (wf_pos w + lenN d)
  end.

(** resource_handler_unix.c:17-22 ResourceHandlerSecIconToApp: nothing is done to the file (Windows:
    WinSelf.v). *)
Definition icon_to_app (file : bytes) : bytes := file.

(** What a run of the tool does: fails early; decompresses this input; builds an output file. *)
Inductive se_result :=
| SeFail
| SeRun (input : bytes)
| SeBuild (r : cres) (out : bytes).

Section SelfExtract.
(** [rd k n]: bytes delivered by the k-th fread of [n] bytes; [wr k n]: bytes stored by the k-th write
    of [n] bytes (both at most [n]; -1 counts as 0); [opn k]: the k-th open of the output file succeeds. *)
Context (z : zlib) (e : endian) (jk : N -> bytes) (hj : N -> N -> bytes) (xjk : N -> N -> bytes)
  (hjunk : bytes) (al : N -> bool) (ls : bytes -> option (list (bytes * snode)))
  (rd wr : N -> N -> N) (opn : N -> bool) (ndebug : bool).

(** main_self_extract.c:192-201: [rest]: what is left of the executable; [k]: number of freads so far;
    [n]: number of writes so far. *)
Fixpoint se_copy (fuel : nat) (k n : N) (rest : bytes) (w : wfile) : outcome (wfile * N) :=
  match fuel with
  | O => NoFuel
  | S f =>
    match rest with
    | [] => Ok (w, n)
    | _ =>
      let next := N.min (lenN rest) VC_BUFFER_SIZE in
      let got := N.min next (rd k next) in
      if 0 <? got then
        se_copy f (k + 1) (n + 1) (dropN got rest) (wf_write (takeN (wr n got) (takeN got rest)) w)
      else se_copy f (k + 1) n rest w
    end
  end.

(** main_self_extract.c:245-250: one write per callback. *)
Fixpoint se_writes (n : N) (ds : list bytes) (w : wfile) : wfile :=
  match ds with
  | [] => w
  | d :: r => se_writes (n + 1) r (wf_write (takeN (wr n (lenN d)) d) w)
  end.

(** main_self_extract.c:82-242; [exe]: contents of the executable, [None] if it cannot be opened.
    The second branch (138-176) goes on with the extraction of [SeRun]'s input into ".out_dir" and starting the
    program found there: SelfRun.v. *)
Definition se_main (cfuel fuel : nat) (argv0 : bytes) (exe : option bytes) : outcome se_result :=
  match exe with
  | None => Ok SeFail
  | Some x =>
    if max_exe ndebug <? lenN x then Ok (SeRun (dropN (max_exe ndebug) x))
    else
      let '(name, dir) := se_name_dir argv0 in
      if negb (opn 0) then Ok SeFail
      else
        do (w, n) <- se_copy cfuel 0 0 x (WF [] 0);
        let file := icon_to_app (wf_data w) in
        if negb (opn 1) then Ok (SeBuild (CRet 1%Z) file)
        else
          do (r, cevs, ws, wx, led) <-
            compress_dir z e (se_filter name) jk hj xjk hjunk al fuel Z_BEST_COMPRESSION 1 false []
              (ls dir) (true, true);
          Ok (SeBuild r (wf_data (se_writes n (map ce_data cevs) (WF file (max_exe ndebug)))))
  end.
End SelfExtract.
