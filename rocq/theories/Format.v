(** Format.v: the archive format: constants, padded lengths, header and record images, byte order. *)
From Verif Require Import Base.

(** ** Constants *)

(** src/include/private/zlib_with_tools/zlibwt_compress_decompress_common.h:17 *)
Definition MAIN_HEADER_SIZE : N := 128.
(** src/include/private/zlib_with_tools/zlibwt_compress_decompress_common.h:18 *)
Definition DEF_CHUNK_SIZE : N := 524288.
(** include/zlib_with_tools/export_symbols.h:13 *)
Definition ZLIBWT_VERSION : N := 0.
(** src/include/private/zlib_with_tools/zlibwt_compress_decompress_common_version_0000.h:14-18 *)
Definition CT_FILE : byte := x00.
Definition CT_DIR_START : byte := x01.
Definition CT_DIR_END : byte := x02.
Definition CT_SINGLE_BLOB : byte := x03.
Definition CT_SYM_LINK : byte := x04.
(** enum TypeOfCompressedContent, include/zlib_with_tools/zlibwt_compress_decompress_common.h *)
Definition ContentNone : N := 0.
Definition ContentDirectory : N := 1.
Definition ContentFile : N := 2.
Definition ContentBlob : N := 4.
(** sizeof(struct SFileItem), include/zlib_with_tools/zlibwt_compress_decompress_common.h:25-47:
    fileSize@0, fileSizeNorm@8 (uint64_t), fileNameLen@16, fileNameLenNorm@20, mode@24 (uint32_t),
    contentType@28 (uint8_t), reserved bytes 29..39. *)
Definition ITEM_SIZE : N := 40.

(** ** Padded lengths: ZLIBWT_NORM_LEN, …zlibwt_compress_decompress_common.h:21, on a uint32_t
    (names, zlibwt_compression_routines.c:101,123,383) and on a uint64_t
    (sizes, zlibwt_compression_routines.c:72,459). *)
Definition norm_len32 (l : N) : N := (((l / 8) + 1) * 8) mod two32.
Definition norm_len64 (l : N) : N := (((l / 8) + 1) * 8) mod two64.

(** ** Host byte order *)
Inductive endian := LE | BE.

(** Object representation of an unsigned integer of [k] bytes on a host. *)
Definition store (e : endian) (k : nat) (v : N) : bytes :=
  match e with LE => le_enc k v | BE => rev (le_enc k v) end.
Definition load (e : endian) (l : bytes) : N :=
  match e with LE => le_dec l | BE => le_dec (rev l) end.
Definition bswap (k : nat) (v : N) : N := le_dec (rev (le_enc k v)).
(** <endian.h>: htole32/htole64 and le32toh/le64toh ([k] = 4 or 8). *)
Definition htole (e : endian) (k : nat) (v : N) : N :=
  match e with LE => v | BE => bswap k v end.
Definition letoh (e : endian) (k : nat) (v : N) : N :=
  match e with LE => v | BE => bswap k v end.

(** ** Memory images of the two structures *)

(** [mem.field = htoleXX(v)] for a field of [k] bytes at offset [off]. *)
Definition put (e : endian) (off : N) (k : nat) (v : N) (mem : bytes) : bytes :=
  write_at off (store e k (htole e k v)) mem.
(** [leXXtoh(mem.field)]. *)
Definition get (e : endian) (off : N) (k : nat) (mem : bytes) : N :=
  letoh e k (load e (slice off (N.of_nat k) mem)).

(** struct SCompressDecompressHeader aHeader on the stack ([junk]: its 128 uninitialised bytes),
    fields set at src/core/zlibwt_ll_compression_routines.c:57-58.  The 30 words [reserved01] are
    never initialised. *)
Definition header_image (e : endian) (typ : N) (junk : bytes) : bytes :=
  put e 4 4 (u32 typ) (put e 0 4 ZLIBWT_VERSION junk).

(** Fields of struct SFileItem. *)
Definition put_size e v := put e 0 8 v.
Definition put_sizeN e v := put e 8 8 v.
Definition put_nlen e v := put e 16 4 v.
Definition put_nlenN e v := put e 20 4 v.
Definition put_mode e v := put e 24 4 v.
Definition put_ctype (c : byte) (mem : bytes) := write_at 28 [c] mem.
Definition get_size e m := get e 0 8 m.
Definition get_sizeN e m := get e 8 8 m.
Definition get_nlen e m := get e 16 4 m.
Definition get_nlenN e m := get e 20 4 m.
Definition get_mode e m := get e 24 4 m.
Definition get_ctype (m : bytes) : byte := nth 28 m x00.

(** ** Lemmas *)

Lemma norm_len32_spec l : l + 8 < two32 ->
  norm_len32 l mod 8 = 0 /\ l < norm_len32 l /\ norm_len32 l <= l + 8.
Proof. unfold norm_len32, two32. lia. Qed.

Lemma norm_len64_spec l : l + 8 < two64 ->
  norm_len64 l mod 8 = 0 /\ l < norm_len64 l /\ norm_len64 l <= l + 8.
Proof. unfold norm_len64, two64. lia. Qed.

Lemma norm_len32_lt l : norm_len32 l < two32.
Proof. unfold norm_len32, two32. lia. Qed.
Lemma norm_len64_lt l : norm_len64 l < two64.
Proof. unfold norm_len64, two64. lia. Qed.

Lemma length_store e k v : length (store e k v) = k.
Proof. destruct e; cbn; rewrite ?rev_length; apply length_le_enc. Qed.
Lemma lenN_store e k v : lenN (store e k v) = N.of_nat k.
Proof. unfold lenN. now rewrite length_store. Qed.

(** What ends up in memory is the little endian encoding, on both kinds of host. *)
Lemma store_htole e k v : v < 256 ^ N.of_nat k -> store e k (htole e k v) = le_enc k v.
Proof.
  intro H. destruct e; cbn; [reflexivity|].
  unfold bswap.
  assert (Hl : length (rev (le_enc k v)) = k) by (rewrite rev_length; apply length_le_enc).
  rewrite <- Hl at 1. rewrite le_enc_dec. apply rev_involutive.
Qed.

Lemma letoh_load e k l : length l = k -> letoh e k (load e l) = le_dec l.
Proof.
  intro H. destruct e; cbn; [reflexivity|].
  unfold bswap.
  assert (Hl : length (rev l) = k) by (now rewrite rev_length).
  rewrite <- Hl. rewrite le_enc_dec. now rewrite rev_involutive.
Qed.

Lemma get_le e off k m : off + N.of_nat k <= lenN m ->
  get e off k m = le_dec (slice off (N.of_nat k) m).
Proof.
  intro H. unfold get. apply letoh_load.
  assert (lenN (slice off (N.of_nat k) m) = N.of_nat k) by (rewrite lenN_slice; lia).
  unfold lenN in *. lia.
Qed.

Lemma slice_write_same off d m : off + lenN d <= lenN m ->
  slice off (lenN d) (write_at off d m) = d.
Proof.
  intro H. unfold slice, write_at.
  rewrite dropN_app_exact by (rewrite lenN_takeN; lia).
  now apply takeN_app_exact.
Qed.

Lemma slice_write_before off len off' d m : off + len <= off' -> off' <= lenN m ->
  slice off len (write_at off' d m) = slice off len m.
Proof.
  intros H H'. unfold slice, write_at.
  rewrite dropN_app, lenN_takeN.
  replace (off - N.min off' (lenN m)) with 0 by lia. rewrite dropN_0.
  rewrite takeN_app, lenN_dropN, lenN_takeN.
  replace (len - _) with 0 by lia. rewrite takeN_0, app_nil_r.
  assert (E : takeN off' m = takeN off m ++ takeN (off' - off) (dropN off m)).
  { rewrite <- takeN_plus. f_equal; lia. }
  rewrite E, dropN_app_exact by (rewrite lenN_takeN; lia).
  rewrite takeN_takeN. f_equal; lia.
Qed.

Lemma slice_write_after off len off' d m : off' + lenN d <= off -> off' + lenN d <= lenN m ->
  slice off len (write_at off' d m) = slice off len m.
Proof.
  intros H H'. unfold slice, write_at. f_equal.
  rewrite app_assoc, dropN_app, lenN_app, lenN_takeN.
  rewrite dropN_all by (rewrite lenN_app, lenN_takeN; lia). cbn [app].
  rewrite dropN_dropN. f_equal. lia.
Qed.

Lemma lenN_put e off k v m : off + N.of_nat k <= lenN m -> lenN (put e off k v m) = lenN m.
Proof. intro H. unfold put. apply lenN_write_at. now rewrite lenN_store. Qed.

Lemma get_put_same e e' off k v m : off + N.of_nat k <= lenN m -> v < 256 ^ N.of_nat k ->
  get e' off k (put e off k v m) = v.
Proof.
  intros H Hv. rewrite get_le by (rewrite lenN_put; assumption).
  unfold put.
  rewrite store_htole by assumption.
  replace (N.of_nat k) with (lenN (le_enc k v)) at 1 by apply lenN_le_enc.
  rewrite slice_write_same by (rewrite lenN_le_enc; assumption).
  rewrite le_dec_enc. now apply N.mod_small.
Qed.

Lemma get_put_other e e' off k off' k' v m :
  off + N.of_nat k <= lenN m -> off' + N.of_nat k' <= lenN m ->
  off + N.of_nat k <= off' \/ off' + N.of_nat k' <= off ->
  get e' off k (put e off' k' v m) = get e' off k m.
Proof.
  intros H H' Hd. unfold get. do 2 f_equal. unfold put.
  destruct Hd as [Hd|Hd].
  - apply slice_write_before; lia.
  - apply slice_write_after; rewrite lenN_store; lia.
Qed.

Lemma slice_put_other e off len off' k' v m :
  off' + N.of_nat k' <= lenN m ->
  off + len <= off' \/ off' + N.of_nat k' <= off ->
  slice off len (put e off' k' v m) = slice off len m.
Proof.
  intros H Hd. unfold put.
  destruct Hd as [Hd|Hd].
  - apply slice_write_before; lia.
  - apply slice_write_after; rewrite lenN_store; lia.
Qed.

Lemma put_endian e e' off k v m : v < 256 ^ N.of_nat k -> put e off k v m = put e' off k v m.
Proof. intro H. unfold put. now rewrite !store_htole. Qed.

Lemma get_endian e e' off k m : off + N.of_nat k <= lenN m -> get e off k m = get e' off k m.
Proof. intro H. now rewrite !get_le. Qed.

Lemma lenN_put_ctype c m : 29 <= lenN m -> lenN (put_ctype c m) = lenN m.
Proof. intro H. unfold put_ctype. apply lenN_write_at. rewrite lenN_cons, lenN_nil; lia. Qed.

Lemma nth_slice A n (l : list A) d : (n < length l)%nat ->
  slice (N.of_nat n) 1 l = [nth n l d].
Proof.
  intro H. unfold slice. rewrite dropN_skipn, Nat2N.id.
  revert l H; induction n as [|n IH]; intros [|x l] H; cbn in *; try lia.
  - now rewrite takeN_0.
  - apply IH. lia.
Qed.

Lemma get_ctype_slice m : 29 <= lenN m -> slice 28 1 m = [get_ctype m].
Proof.
  intro H. unfold get_ctype. change 28 with (N.of_nat 28). apply nth_slice.
  unfold lenN in H. lia.
Qed.

Lemma get_ctype_put_same c m : 29 <= lenN m -> get_ctype (put_ctype c m) = c.
Proof.
  intro H.
  assert (E : slice 28 1 (put_ctype c m) = [c]).
  { unfold put_ctype. change 1 with (lenN [c]). apply slice_write_same.
    rewrite lenN_cons, lenN_nil; lia. }
  rewrite get_ctype_slice in E by (rewrite lenN_put_ctype; assumption). congruence.
Qed.

Lemma get_ctype_put_other e off k v m : 29 <= lenN m -> off + N.of_nat k <= lenN m ->
  28 + 1 <= off \/ off + N.of_nat k <= 28 -> get_ctype (put e off k v m) = get_ctype m.
Proof.
  intros H H' Hd.
  assert (E : slice 28 1 (put e off k v m) = slice 28 1 m) by (apply slice_put_other; lia).
  rewrite !get_ctype_slice in E by (rewrite ?lenN_put; lia). congruence.
Qed.

Lemma get_put_ctype e off k c m : 29 <= lenN m -> off + N.of_nat k <= 28 \/ 29 <= off ->
  get e off k (put_ctype c m) = get e off k m.
Proof.
  intros H Hd. unfold get. do 2 f_equal. unfold put_ctype.
  destruct Hd as [Hd|Hd].
  - apply slice_write_before; lia.
  - apply slice_write_after; rewrite lenN_cons, lenN_nil; lia.
Qed.

Lemma get_lt e off k m : off + N.of_nat k <= lenN m -> get e off k m < 256 ^ N.of_nat k.
Proof.
  intro H. rewrite get_le by assumption.
  pose proof (le_dec_lt (slice off (N.of_nat k) m)) as L.
  rewrite lenN_slice in L. replace (N.min _ _) with (N.of_nat k) in L by lia. exact L.
Qed.

(** ** Records written by zlibwt_compression_routines.c ([junk]: the 40 uninitialised bytes of
    aItem on the stack) *)

(** fileNameLen, fileNameLenNorm: zlibwt_compression_routines.c:100-104, 122-126, 382-386. *)
Definition item_name (e : endian) (nlen : N) (junk : bytes) : bytes :=
  put_nlenN e (norm_len32 nlen) (put_nlen e nlen junk).
(** zlibwt_compression_routines.c:69-74. *)
Definition file_item (e : endian) (nlen mode size : N) (junk : bytes) : bytes :=
  put_sizeN e (norm_len64 size) (put_size e size (put_mode e mode (put_ctype CT_FILE (item_name e nlen junk)))).
(** zlibwt_compression_routines.c:393-394, and 128-129 with mode 0. *)
Definition dir_item (e : endian) (nlen mode : N) (junk : bytes) : bytes :=
  put_mode e mode (put_ctype CT_DIR_START (item_name e nlen junk)).
(** zlibwt_compression_routines.c:141, 404: the same structure with another content type. *)
Definition dir_end_item (e : endian) (nlen mode : N) (junk : bytes) : bytes :=
  put_ctype CT_DIR_END (dir_item e nlen mode junk).
(** zlibwt_compression_routines.c:461-464. *)
Definition link_item (e : endian) (nlen mode size : N) (junk : bytes) : bytes :=
  put_sizeN e (norm_len64 size) (put_size e size (put_mode e mode (put_ctype CT_SYM_LINK (item_name e nlen junk)))).

Lemma lenN_item_name e nlen junk : lenN junk = 40 -> lenN (item_name e nlen junk) = 40.
Proof.
  intro H. unfold item_name, put_nlenN, put_nlen.
  assert (L1 : lenN (put e 16 4 nlen junk) = 40) by (rewrite lenN_put; cbn; lia).
  rewrite lenN_put; [exact L1|]. rewrite L1. cbn; lia.
Qed.
Lemma lenN_put40 e off k v m : lenN m = 40 -> off + N.of_nat k <= 40 -> lenN (put e off k v m) = 40.
Proof. intros H1 H2. rewrite lenN_put; [exact H1|]. now rewrite H1. Qed.
Lemma lenN_put_ctype40 c m : lenN m = 40 -> lenN (put_ctype c m) = 40.
Proof. intros H1. rewrite lenN_put_ctype; [exact H1|]. rewrite H1; lia. Qed.

Lemma lenN_file_item e nlen mode size junk : lenN junk = 40 -> lenN (file_item e nlen mode size junk) = 40.
Proof.
  intro H. unfold file_item, put_sizeN, put_size, put_mode.
  repeat (apply lenN_put40; [|cbn; lia]). apply lenN_put_ctype40. now apply lenN_item_name.
Qed.
Lemma lenN_link_item e nlen mode size junk : lenN junk = 40 -> lenN (link_item e nlen mode size junk) = 40.
Proof.
  intro H. unfold link_item, put_sizeN, put_size, put_mode.
  repeat (apply lenN_put40; [|cbn; lia]). apply lenN_put_ctype40. now apply lenN_item_name.
Qed.
Lemma lenN_dir_item e nlen mode junk : lenN junk = 40 -> lenN (dir_item e nlen mode junk) = 40.
Proof.
  intro H. unfold dir_item, put_mode.
  repeat (apply lenN_put40; [|cbn; lia]). apply lenN_put_ctype40. now apply lenN_item_name.
Qed.
Lemma lenN_dir_end_item e nlen mode junk : lenN junk = 40 -> lenN (dir_end_item e nlen mode junk) = 40.
Proof. intro H. apply lenN_put_ctype40. now apply lenN_dir_item. Qed.

Lemma item_name_fields e e' nlen junk : lenN junk = 40 -> nlen < two32 ->
  get_nlen e' (item_name e nlen junk) = nlen /\ get_nlenN e' (item_name e nlen junk) = norm_len32 nlen.
Proof.
  intros H Hn. unfold item_name, get_nlen, get_nlenN, put_nlenN, put_nlen.
  assert (L : lenN (put e 16 4 nlen junk) = 40) by (apply lenN_put40; [assumption|cbn; lia]).
  split.
  - rewrite get_put_other; try (rewrite L; cbn; lia); [|cbn; lia].
    apply get_put_same; [rewrite H; cbn; lia|exact Hn].
  - apply get_put_same; [rewrite L; cbn; lia|apply norm_len32_lt].
Qed.

(** What a reader (byte order [e']) finds in a record written on another host. *)
Lemma file_item_fields e e' nlen mode size junk :
  lenN junk = 40 -> nlen < two32 -> mode < two32 -> size < two64 ->
  let m := file_item e nlen mode size junk in
  get_size e' m = size /\ get_sizeN e' m = norm_len64 size /\ get_nlen e' m = nlen /\
  get_nlenN e' m = norm_len32 nlen /\ get_mode e' m = mode /\ get_ctype m = CT_FILE.
Proof.
  intros H Hn Hm Hs. cbn zeta. unfold file_item.
  destruct (item_name_fields e e' nlen junk H Hn) as [F1 F2].
  pose proof (lenN_item_name e nlen junk H) as L0.
  set (m0 := item_name e nlen junk) in *.
  pose proof (lenN_put_ctype40 CT_FILE m0 L0) as L1. set (m1 := put_ctype CT_FILE m0) in *.
  assert (G1 : get_nlen e' m1 = nlen) by (subst m1; unfold get_nlen; rewrite get_put_ctype; [exact F1|lia|cbn; lia]).
  assert (G2 : get_nlenN e' m1 = norm_len32 nlen) by (subst m1; unfold get_nlenN; rewrite get_put_ctype; [exact F2|lia|cbn; lia]).
  assert (G3 : get_ctype m1 = CT_FILE) by (subst m1; apply get_ctype_put_same; lia).
  clearbody m1. clear m0 F1 F2 L0.
  unfold put_mode, put_size, put_sizeN.
  assert (L2 : lenN (put e 24 4 mode m1) = 40) by (apply lenN_put40; [assumption|cbn; lia]).
  assert (L3 : lenN (put e 0 8 size (put e 24 4 mode m1)) = 40) by (apply lenN_put40; [assumption|cbn; lia]).
  unfold get_size, get_sizeN, get_nlen, get_nlenN, get_mode in *.
  repeat split.
  - rewrite get_put_other; rewrite ?L3; try (cbn; lia).
    apply get_put_same; [rewrite L2; cbn; lia|exact Hs].
  - apply get_put_same; [rewrite L3; cbn; lia|apply norm_len64_lt].
  - rewrite !get_put_other; rewrite ?L3, ?L2, ?L1; first [exact G1 | cbn; lia].
  - rewrite !get_put_other; rewrite ?L3, ?L2, ?L1; first [exact G2 | cbn; lia].
  - do 2 (rewrite get_put_other; rewrite ?L3, ?L2; try (cbn; lia)).
    apply get_put_same; [rewrite L1; cbn; lia|exact Hm].
  - rewrite !get_ctype_put_other; rewrite ?L3, ?L2, ?L1; first [exact G3 | cbn; lia].
Qed.

Lemma link_item_fields e e' nlen mode size junk :
  lenN junk = 40 -> nlen < two32 -> mode < two32 -> size < two64 ->
  let m := link_item e nlen mode size junk in
  get_size e' m = size /\ get_sizeN e' m = norm_len64 size /\ get_nlen e' m = nlen /\
  get_nlenN e' m = norm_len32 nlen /\ get_mode e' m = mode /\ get_ctype m = CT_SYM_LINK.
Proof.
  intros H Hn Hm Hs. cbn zeta. unfold link_item.
  destruct (item_name_fields e e' nlen junk H Hn) as [F1 F2].
  pose proof (lenN_item_name e nlen junk H) as L0.
  set (m0 := item_name e nlen junk) in *.
  pose proof (lenN_put_ctype40 CT_SYM_LINK m0 L0) as L1. set (m1 := put_ctype CT_SYM_LINK m0) in *.
  assert (G1 : get_nlen e' m1 = nlen) by (subst m1; unfold get_nlen; rewrite get_put_ctype; [exact F1|lia|cbn; lia]).
  assert (G2 : get_nlenN e' m1 = norm_len32 nlen) by (subst m1; unfold get_nlenN; rewrite get_put_ctype; [exact F2|lia|cbn; lia]).
  assert (G3 : get_ctype m1 = CT_SYM_LINK) by (subst m1; apply get_ctype_put_same; lia).
  clearbody m1. clear m0 F1 F2 L0.
  unfold put_mode, put_size, put_sizeN.
  assert (L2 : lenN (put e 24 4 mode m1) = 40) by (apply lenN_put40; [assumption|cbn; lia]).
  assert (L3 : lenN (put e 0 8 size (put e 24 4 mode m1)) = 40) by (apply lenN_put40; [assumption|cbn; lia]).
  unfold get_size, get_sizeN, get_nlen, get_nlenN, get_mode in *.
  repeat split.
  - rewrite get_put_other; rewrite ?L3; try (cbn; lia).
    apply get_put_same; [rewrite L2; cbn; lia|exact Hs].
  - apply get_put_same; [rewrite L3; cbn; lia|apply norm_len64_lt].
  - rewrite !get_put_other; rewrite ?L3, ?L2, ?L1; first [exact G1 | cbn; lia].
  - rewrite !get_put_other; rewrite ?L3, ?L2, ?L1; first [exact G2 | cbn; lia].
  - do 2 (rewrite get_put_other; rewrite ?L3, ?L2; try (cbn; lia)).
    apply get_put_same; [rewrite L1; cbn; lia|exact Hm].
  - rewrite !get_ctype_put_other; rewrite ?L3, ?L2, ?L1; first [exact G3 | cbn; lia].
Qed.

Lemma dir_item_fields e e' nlen mode junk :
  lenN junk = 40 -> nlen < two32 -> mode < two32 ->
  let m := dir_item e nlen mode junk in
  get_nlen e' m = nlen /\ get_nlenN e' m = norm_len32 nlen /\ get_mode e' m = mode /\
  get_ctype m = CT_DIR_START.
Proof.
  intros H Hn Hm. cbn zeta. unfold dir_item.
  destruct (item_name_fields e e' nlen junk H Hn) as [F1 F2].
  pose proof (lenN_item_name e nlen junk H) as L0.
  set (m0 := item_name e nlen junk) in *.
  pose proof (lenN_put_ctype40 CT_DIR_START m0 L0) as L1. set (m1 := put_ctype CT_DIR_START m0) in *.
  assert (G1 : get_nlen e' m1 = nlen) by (subst m1; unfold get_nlen; rewrite get_put_ctype; [exact F1|lia|cbn; lia]).
  assert (G2 : get_nlenN e' m1 = norm_len32 nlen) by (subst m1; unfold get_nlenN; rewrite get_put_ctype; [exact F2|lia|cbn; lia]).
  assert (G3 : get_ctype m1 = CT_DIR_START) by (subst m1; apply get_ctype_put_same; lia).
  clearbody m1. clear m0 F1 F2 L0.
  unfold put_mode, get_nlen, get_nlenN, get_mode in *.
  repeat split.
  - rewrite get_put_other; rewrite ?L1; first [exact G1 | cbn; lia].
  - rewrite get_put_other; rewrite ?L1; first [exact G2 | cbn; lia].
  - apply get_put_same; [rewrite L1; cbn; lia|exact Hm].
  - rewrite get_ctype_put_other; rewrite ?L1; first [exact G3 | cbn; lia].
Qed.

Lemma dir_end_item_ctype e nlen mode junk : lenN junk = 40 ->
  get_ctype (dir_end_item e nlen mode junk) = CT_DIR_END.
Proof.
  intros H. apply get_ctype_put_same. rewrite lenN_dir_item; [lia|assumption].
Qed.

(** Images do not depend on the byte order of the writing host. *)
Lemma header_image_endian e e' typ junk : header_image e typ junk = header_image e' typ junk.
Proof.
  unfold header_image. rewrite (put_endian e e' 0 4) by reflexivity.
  apply put_endian. unfold u32, two32. cbn; lia.
Qed.
Lemma item_name_endian e e' nlen junk : nlen < two32 -> item_name e nlen junk = item_name e' nlen junk.
Proof.
  intro H. unfold item_name, put_nlenN, put_nlen.
  rewrite (put_endian e e' 16 4) by exact H. apply put_endian. apply norm_len32_lt.
Qed.
Lemma file_item_endian e e' nlen mode size junk : nlen < two32 -> mode < two32 -> size < two64 ->
  file_item e nlen mode size junk = file_item e' nlen mode size junk.
Proof.
  intros H1 H2 H3. unfold file_item, put_sizeN, put_size, put_mode.
  rewrite (item_name_endian e e') by assumption.
  rewrite (put_endian e e' 24 4) by exact H2. rewrite (put_endian e e' 0 8) by exact H3.
  apply put_endian. apply norm_len64_lt.
Qed.
Lemma link_item_endian e e' nlen mode size junk : nlen < two32 -> mode < two32 -> size < two64 ->
  link_item e nlen mode size junk = link_item e' nlen mode size junk.
Proof.
  intros H1 H2 H3. unfold link_item, put_sizeN, put_size, put_mode.
  rewrite (item_name_endian e e') by assumption.
  rewrite (put_endian e e' 24 4) by exact H2. rewrite (put_endian e e' 0 8) by exact H3.
  apply put_endian. apply norm_len64_lt.
Qed.
Lemma dir_item_endian e e' nlen mode junk : nlen < two32 -> mode < two32 ->
  dir_item e nlen mode junk = dir_item e' nlen mode junk.
Proof.
  intros H1 H2. unfold dir_item, put_mode.
  rewrite (item_name_endian e e') by assumption. apply put_endian; exact H2.
Qed.
