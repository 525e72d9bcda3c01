(** Properties C01-C03 (archive format). *)
From Verif Require Import Base Format CompressFacts.

(** C01: the padded length is a multiple of 8, larger than the length by 1 to 8, so the padding
    written (padded length minus length) is 1..8 bytes and fits in the 9 byte padding source. *)
Theorem C01_padding : forall l,
  (l + 8 < 2 ^ 32 -> norm_len32 l mod 8 = 0 /\ l + 1 <= norm_len32 l <= l + 8) /\
  (l + 8 < 2 ^ 64 -> norm_len64 l mod 8 = 0 /\ l + 1 <= norm_len64 l <= l + 8).
Proof. exact padding_facts. Qed.
Print Assumptions C01_padding.
Example C01_case : 13 + 8 < 2 ^ 32 /\ norm_len32 13 = 16 /\ norm_len64 16 = 24.
Proof. repeat split; reflexivity. Qed.

(** C02: every field survives, for every writer byte order [e], reader byte order [e'] and
    contents [junk] of the bytes the writer does not set. *)
Theorem C02_header : forall e e' typ junk, lenN junk = 128 -> typ < 2 ^ 32 ->
  get e' 0 4 (header_image e typ junk) = 0 /\ get e' 4 4 (header_image e typ junk) = typ.
Proof. exact header_round_trip. Qed.
Print Assumptions C02_header.

Theorem C02_records : forall e e' nlen mode size junk,
  lenN junk = 40 -> nlen < 2 ^ 32 -> mode < 2 ^ 32 -> size < 2 ^ 64 ->
  (let m := file_item e nlen mode size junk in
   get_size e' m = size /\ get_sizeN e' m = norm_len64 size /\ get_nlen e' m = nlen /\
   get_nlenN e' m = norm_len32 nlen /\ get_mode e' m = mode /\ get_ctype m = CT_FILE) /\
  (let m := link_item e nlen mode size junk in
   get_size e' m = size /\ get_sizeN e' m = norm_len64 size /\ get_nlen e' m = nlen /\
   get_nlenN e' m = norm_len32 nlen /\ get_mode e' m = mode /\ get_ctype m = CT_SYM_LINK) /\
  (let m := dir_item e nlen mode junk in
   get_nlen e' m = nlen /\ get_nlenN e' m = norm_len32 nlen /\ get_mode e' m = mode /\
   get_ctype m = CT_DIR_START) /\
  get_ctype (dir_end_item e nlen mode junk) = CT_DIR_END.
Proof. exact records_round_trip. Qed.
Print Assumptions C02_records.
Example C02_case :
  get LE 0 8 (file_item BE 5 33188 1000000007 (zeros 40)) = 1000000007 /\ lenN (zeros 40) = 40 /\
  get BE 24 4 (dir_item LE 300 16877 (repeat x5a 40)) = 16877.
Proof. repeat split; vm_compute; reflexivity. Qed.

(** C03: the bytes written do not depend on the host. *)
Theorem C03_host_independent : forall e e' typ nlen mode size hjunk ijunk,
  nlen < 2 ^ 32 -> mode < 2 ^ 32 -> size < 2 ^ 64 ->
  header_image e typ hjunk = header_image e' typ hjunk /\
  file_item e nlen mode size ijunk = file_item e' nlen mode size ijunk /\
  link_item e nlen mode size ijunk = link_item e' nlen mode size ijunk /\
  dir_item e nlen mode ijunk = dir_item e' nlen mode ijunk /\
  dir_end_item e nlen mode ijunk = dir_end_item e' nlen mode ijunk.
Proof. exact images_host_independent. Qed.
Print Assumptions C03_host_independent.
Example C03_case :
  takeN 16 (file_item BE 5 33188 513 (zeros 40)) =
  [x01;x02;x00;x00;x00;x00;x00;x00;x08;x02;x00;x00;x00;x00;x00;x00].
Proof. vm_compute. reflexivity. Qed.
