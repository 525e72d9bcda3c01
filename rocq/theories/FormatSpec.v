(** FormatSpec.v: the archive format byte by byte, without the constants and structures of the model.

    Sources: include/zlib_with_tools/zlibwt_compress_decompress_common.h:24-47 (types of contents, struct SFileItem),
    src/include/private/zlib_with_tools/zlibwt_compress_decompress_common.h:17-33 (header, padding) and
    src/include/private/zlib_with_tools/zlibwt_compress_decompress_common_version_0000.h:14-18 (types of records).
    The numbers below are written out: a change of any of them makes existing archives unreadable. *)
From Verif Require Import Base ArchiveSpec.

(** Names and contents are followed by 1 to 8 zero bytes, up to the next multiple of eight. *)
Definition fill (n : N) : bytes := repeat x00 (N.to_nat (8 - n mod 8)).
Definition filled (n : N) : N := n + (8 - n mod 8).

(** Number of [k] bytes, the lowest first. *)
Definition num (k : nat) (v : N) : bytes := le_enc k v.

(** The records of a directory.  [u], [r]: bytes without meaning. *)
Inductive laid : list arec -> bytes -> Prop :=
| laid_nil : laid [] []
| laid_file name mode data r rs b : lenN r = 11 -> laid rs b ->
    laid (AFile name mode (lenN data) data :: rs)
      (num 8 (lenN data) ++ num 8 (filled (lenN data)) ++ num 4 (lenN name) ++ num 4 (filled (lenN name)) ++ num 4 mode ++ [x00] ++ r ++
       name ++ fill (lenN name) ++ data ++ fill (lenN data) ++ b)
| laid_link name mode target r rs b : lenN r = 11 -> laid rs b ->
    laid (ALink name mode target :: rs)
      (num 8 (lenN target) ++ num 8 (filled (lenN target)) ++ num 4 (lenN name) ++ num 4 (filled (lenN name)) ++ num 4 mode ++ [x04] ++ r ++
       name ++ fill (lenN name) ++ target ++ fill (lenN target) ++ b)
| laid_dir name mode u r rs b : lenN u = 16 -> lenN r = 11 -> laid rs b ->
    laid (ADir name mode :: rs)
      (u ++ num 4 (lenN name) ++ num 4 (filled (lenN name)) ++ num 4 mode ++ [x01] ++ r ++ name ++ fill (lenN name) ++ b)
| laid_end n mode u r rs b : lenN u = 16 -> lenN r = 11 -> laid rs b ->
    laid (AEnd :: rs) (u ++ num 4 n ++ num 4 (filled n) ++ num 4 mode ++ [x02] ++ r ++ b).

(** The contents of an archive: version 0, the type, 120 bytes without meaning; 1: a directory, 2: a file, 4: a block of bytes. *)
Definition dir_layout (rs : list arec) (p : bytes) : Prop :=
  exists u b, lenN u = 120 /\ p = [x00; x00; x00; x00; x01; x00; x00; x00] ++ u ++ b /\ laid rs b.
Definition file_layout (data p : bytes) : Prop :=
  exists u, lenN u = 120 /\ p = [x00; x00; x00; x00; x02; x00; x00; x00] ++ u ++ data.
Definition blob_layout (data p : bytes) : Prop :=
  exists u, lenN u = 120 /\ p = [x00; x00; x00; x00; x04; x00; x00; x00] ++ u ++ data.
