(** WinCd.v: model of src/tools/main_compressdir.cpp as compiled on Windows ([_WIN32], MSVC). *)
From Coq Require Import Strings.String.
From Verif Require Import Base Format Zlib LLCompress Compress FS ArgParser ArgSpec Tools WinArchive.

Local Notation b := list_byte_of_string.

Section WinCompressDir.
(** As in Tools.v.  [locked out dir p]: the file [p] of the folder [dir] is open elsewhere while the file [out] is open
    for writing (see WinArchive.v). *)
Context (z : zlib) (e : endian) (jk : N -> bytes) (xjk : N -> N -> bytes)
  (hjunk : bytes) (al : N -> bool) (opn : bytes -> bool) (ls : bytes -> option (list (bytes * snode)))
  (locked : bytes -> bytes -> list bytes -> bool) (room : N).

(** main_compressdir.cpp:70, 74; the output file has been opened at line 62 and is closed at line 84. *)
Definition wcd_archive (fuel : nat) (out dir : bytes) : outcome (cres * bytes) :=
  do (r, cevs, ws, wx, led) <-
    wcompress_dir z e cd_filter jk xjk hjunk al (locked out dir) fuel Z_BEST_COMPRESSION 1 false [] (ls dir) tt;
  Ok (r, takeN room (cev_bytes cevs)).

(** main_compressdir.cpp:43-97.  The program also waits for a key at the end (lines 90-94), which has no effect on the files and the
    status. *)
Definition wcd_decide (fuel : nat) (h of inf cf : option bytes) (argc : N) (cells : list (option bytes))
  : outcome (cres * option (bytes * bytes)) :=
  match h with
  | Some _ => Ok (CRet 0%Z, None)
  | None =>
    match of with
    | None => Ok (CRet 1%Z, None)
    | Some out =>
      if (match inf, cf with None, None => true | _, _ => false end) && (argc =? 0)
      then Ok (CRet 1%Z, None)
      else if negb (opn out) then Ok (CRet 1%Z, None)
      else
        match inf with
        | Some dir => do (r, data) <- wcd_archive fuel out dir; Ok (r, Some (out, data))
        | None =>
          if negb (argc =? 0) then
            do dir <- arg_at 0 cells;
            do (r, data) <- wcd_archive fuel out dir; Ok (r, Some (out, data))
          else Ok (CRet 0%Z, Some (out, []))
        end
    end
  end.

(** As [cd_after]. *)
Definition wcd_after (fuel : nat) (s : pst) : outcome (cres * option (bytes * bytes)) :=
  let q := ps_prs s in
  do h <- value_right (b "-h") q;
  do of <- value_right (b "-of") q;
  do inf <- value_right (b "-if") q;
  do cf <- value_right (b "-cf") q;
  do res <- wcd_decide fuel h of inf cf (ps_argc s) (ps_cells s);
  do _ <- match fst res with CRet _ => clear q | CExit => Ok q end;
  Ok res.

(** main_compressdir.cpp:27-97. *)
Definition wcd_main (pfuel fuel : nat) (args : list bytes) : outcome (cres * option (bytes * bytes)) :=
  do p <- run_aops cd_options prs_new;
  do s <- parse_args pfuel args p;
  wcd_after fuel s.
End WinCompressDir.
