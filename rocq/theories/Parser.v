(** Parser.v: model of the directory decoder of
    src/core/zlibwt_decompress_routines_version_0000.c. *)
From Verif Require Import Base Format.

(** enum ZlibWithToolsFileType as stored in fileData.fileType (directory iterator's header,
    not in /repo); [FtNone]: the value 0 set at line 41. *)
Inductive ftype := FtNone | FtDir | FtFile | FtSymLink.

(** struct SFileItem in host byte order, as handed to dirOrFileStart. *)
Record item : Type := Item {
  it_size : N; it_sizeN : N; it_nlen : N; it_nlenN : N; it_mode : N; it_ctype : byte
}.

(** Invocations of the user's callbacks.
    [EvRaw]: low level callback [id]; [EvDirBegin], [EvFlBegin]: clbks.dr/fl.decompressStart; [EvFlRead]: clbks.fl.read;
    [EvEntry ft it name]: clbks.dr.dirOrFileStart with fileData.fileType, fileItem and the
    contents of the block fileData.pFileName; [EvRead]: fileRead; [EvFileEnd], [EvDirEnd];
    [EvSym data tail]: symLinkCreate(a_buffer, |data|) where [data] are the |data| bytes at a_buffer
    and [tail] the bytes of memory that follow them in the output buffer. *)
Inductive event : Type :=
| EvRaw (id : N) (data : bytes)
| EvDirBegin
| EvFlBegin
| EvFlRead (data : bytes)
| EvEntry (ft : ftype) (it : item) (name : bytes)
| EvRead (data : bytes)
| EvFileEnd
| EvDirEnd
| EvSym (data tail : bytes).

(** src/include/private/zlib_with_tools/zlibwt_decompress_data.h:19-24 *)
Inductive stage := StHeader | StFilename | StReadFile | StFileGap | StSymLink | StSymLinkGap.

(** Fields of struct ZlibWtDecompressSession used by the directory decoder
    (zlibwt_decompress_data.h:41-59).
    [p_img]: the 40 bytes of fileItem as read from the stream; [p_item]: the values of its fields
    after FileHeaderClosingStat converted them in place.  (The C code has one structure; after the
    conversion the stream image is not looked at again, except for the one byte contentType, before
    the next record has overwritten all 40 bytes.)
    [p_name]: the block fileData.pFileName, [None] = NULL.  [p_allocs]: number of realloc calls. *)
Record pst : Type := PS {
  p_stage : stage;
  p_off : N;
  p_size : N;
  p_img : bytes;
  p_item : item;
  p_name : option bytes;
  p_ft : ftype;
  p_err : bool;
  p_allocs : N
}.

Definition set_img v s := PS (p_stage s) (p_off s) (p_size s) v (p_item s) (p_name s) (p_ft s) (p_err s) (p_allocs s).
Definition set_name v s := PS (p_stage s) (p_off s) (p_size s) (p_img s) (p_item s) v (p_ft s) (p_err s) (p_allocs s).
Definition set_ft v s := PS (p_stage s) (p_off s) (p_size s) (p_img s) (p_item s) (p_name s) v (p_err s) (p_allocs s).
Definition set_err v s := PS (p_stage s) (p_off s) (p_size s) (p_img s) (p_item s) (p_name s) (p_ft s) v (p_allocs s).
Definition set_off v s := PS (p_stage s) v (p_size s) (p_img s) (p_item s) (p_name s) (p_ft s) (p_err s) (p_allocs s).
(** stage, offset and size of section *)
Definition set_sec st off size s := PS st off size (p_img s) (p_item s) (p_name s) (p_ft s) (p_err s) (p_allocs s).

(** memcpy into a block: [UB] if it leaves the block. *)
Definition checked_write (off : N) (data mem : bytes) : outcome bytes :=
  if off + lenN data <=? lenN mem then Ok (write_at off data mem) else UB.

(** memcpy to pFileName + offset: [UB] if pFileName is NULL. *)
Definition write_name (off : N) (data : bytes) (name : option bytes) : outcome (option bytes) :=
  match name with
  | None => UB
  | Some blk => do b <- checked_write off data blk; Ok (Some b)
  end.

Section Parser.
(** Host byte order; [alloc k n]: the [k]-th realloc, for [n] bytes, succeeds. *)
Context (e : endian) (alloc : N -> N -> bool).

(** FileHeaderClosingStat, lines 67-82.  A successful realloc keeps the old bytes; the rest of the
    block is indeterminate (here: zeros) and is overwritten before it is read. *)
Definition close_header (s : pst) : pst :=
  let it := Item (get_size e (p_img s)) (get_sizeN e (p_img s)) (get_nlen e (p_img s))
                 (get_nlenN e (p_img s)) (get_mode e (p_img s)) (get_ctype (p_img s)) in
  let n := it_nlenN it in
  let old := match p_name s with Some b => b | None => [] end in
  let ok := alloc (p_allocs s) n in
  PS StFilename (p_off s) n (p_img s) it
     (if ok then Some (takeN n old ++ zeros (n - lenN old)) else None)
     (p_ft s) (if ok then p_err s else true) (p_allocs s + 1).

(** Body of ZlibWtDecompressCallbackStatData_dir, lines 85-210.  [buf]: the a_bufLen bytes at
    a_buffer; [tail]: the bytes that follow in memory; [rec]: the recursive call. *)
Definition dir_body (rec : pst -> bytes -> outcome (pst * list event)) (tail : bytes)
    (s : pst) (buf : bytes) : outcome (pst * list event) :=
  let bl := lenN buf in
  let rem := sub64 (p_size s) (p_off s) in
  let continue s' evs :=
    if rem <? bl then do (s2, evs2) <- rec s' (dropN rem buf); Ok (s2, evs ++ evs2)
    else Ok (s', evs) in
  if p_err s then Ok (s, [])
  else
    match p_stage s with
    | StHeader =>
      if rem <=? bl then
        do img <- checked_write (p_off s) (takeN rem buf) (p_img s);
        let s1 := set_img img s in
        let c := get_ctype img in
        if byte_eqb c CT_DIR_START then continue (set_off 0 (set_ft FtDir (close_header s1))) []
        else if byte_eqb c CT_FILE then continue (set_off 0 (set_ft FtFile (close_header s1))) []
        else if byte_eqb c CT_SYM_LINK then continue (set_off 0 (set_ft FtSymLink (close_header s1))) []
        else if byte_eqb c CT_DIR_END then continue (set_off 0 (set_ft FtDir s1)) [EvDirEnd]
        else continue (set_off 0 s1) []
      else
        do img <- checked_write (p_off s) buf (p_img s);
        Ok (set_off (p_off s + bl) (set_img img s), [])
    | StFilename =>
      if rem <=? bl then
        do name <- write_name (p_off s) (takeN rem buf) (p_name s);
        let s1 := set_name name s in
        let c := get_ctype (p_img s) in
        let ev := EvEntry (p_ft s) (p_item s) (match name with Some b => b | None => [] end) in
        if byte_eqb c CT_FILE then continue (set_sec StReadFile 0 (it_size (p_item s)) s1) [ev]
        else if byte_eqb c CT_DIR_START then continue (set_sec StHeader 0 ITEM_SIZE s1) [ev]
        else if byte_eqb c CT_SYM_LINK then continue (set_sec StSymLink 0 (it_size (p_item s)) s1) [ev]
        else Ok (set_err true s1, [])
      else
        do name <- write_name (p_off s) buf (p_name s);
        Ok (set_off (p_off s + bl) (set_name name s), [])
    | StReadFile =>
      if rem <=? bl then
        if byte_eqb (get_ctype (p_img s)) CT_FILE then
          continue (set_sec StFileGap 0 (sub64 (it_sizeN (p_item s)) (it_size (p_item s))) s)
            [EvRead (takeN rem buf); EvFileEnd]
        else UB
      else Ok (set_off (p_off s + bl) s, [EvRead buf])
    | StFileGap | StSymLinkGap =>
      if rem <=? bl then
        if byte_eqb (get_ctype (p_img s)) CT_FILE || byte_eqb (get_ctype (p_img s)) CT_SYM_LINK then
          continue (set_sec StHeader 0 ITEM_SIZE s) []
        else UB
      else Ok (set_off (p_off s + bl) s, [])
    | StSymLink =>
      if rem <=? bl then
        if byte_eqb (get_ctype (p_img s)) CT_SYM_LINK then
          continue (set_sec StSymLinkGap 0 (sub64 (it_sizeN (p_item s)) (it_size (p_item s))) s)
            [EvSym (takeN rem buf) (dropN rem buf ++ tail)]
        else UB
      else Ok (set_off (p_off s + bl) s, [])
    end.

Fixpoint dir_parse (fuel : nat) (tail : bytes) (s : pst) (buf : bytes) : outcome (pst * list event) :=
  match fuel with
  | O => NoFuel
  | S f => dir_body (dir_parse f tail) tail s buf
  end.

(** One invocation of the callback by the inflate loop, with fuel that always suffices (C26). *)
Definition parse_fuel (buf : bytes) : nat := (4 * length buf + 4)%nat.
Definition parse (tail : bytes) (s : pst) (buf : bytes) : outcome (pst * list event) :=
  dir_parse (parse_fuel buf) tail s buf.

(** ** Invariant *)

Definition item_of (img : bytes) : item :=
  Item (get_size e img) (get_sizeN e img) (get_nlen e img) (get_nlenN e img) (get_mode e img) (get_ctype img).

Definition pwf (s : pst) : Prop :=
  lenN (p_img s) = ITEM_SIZE /\
  (p_err s = true \/
   p_off s <= p_size s /\ p_size s < two64 /\
   match p_stage s with
   | StHeader => p_size s = ITEM_SIZE /\ p_off s < ITEM_SIZE
   | StFilename => p_item s = item_of (p_img s) /\ p_size s = it_nlenN (p_item s) /\
       (exists blk, p_name s = Some blk /\ lenN blk = p_size s) /\
       (get_ctype (p_img s) = CT_DIR_START /\ p_ft s = FtDir \/
        get_ctype (p_img s) = CT_FILE /\ p_ft s = FtFile \/
        get_ctype (p_img s) = CT_SYM_LINK /\ p_ft s = FtSymLink)
   | StReadFile => p_item s = item_of (p_img s) /\ p_size s = it_size (p_item s) /\ get_ctype (p_img s) = CT_FILE
   | StSymLink => p_item s = item_of (p_img s) /\ p_size s = it_size (p_item s) /\ get_ctype (p_img s) = CT_SYM_LINK
   | StFileGap | StSymLinkGap =>
       p_item s = item_of (p_img s) /\
       p_size s = sub64 (it_sizeN (p_item s)) (it_size (p_item s)) /\
       (get_ctype (p_img s) = CT_FILE \/ get_ctype (p_img s) = CT_SYM_LINK)
   end).

Definition rank (s : pst) : nat :=
  match p_stage s with
  | StHeader => 0 | StFileGap | StSymLinkGap => 1 | StReadFile | StSymLink => 2 | StFilename => 3
  end.

End Parser.
