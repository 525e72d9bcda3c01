(** Icon.v: setting the icon of a program, src/core/resource_handler_windows.c.

    Not modelled: the format of programs (a program is a map from resources to their contents), file sizes of 2^31 and more
    (off_t of Windows has 32 bits). *)
From Verif Require Import Base AptGet.

(** The resources the function touches: RT_ICON number 1, RT_GROUP_ICON "MAINICON" (lines 83-84, 112-113). *)
Inductive resource := RIcon | RGroup.
Definition program := resource -> option cells.
Definition put (k : resource) (c : cells) (p : program) : program :=
  fun r => match r, k with RIcon, RIcon | RGroup, RGroup => Some c | _, _ => p r end.

(** Results of the functions called. *)
Record iworld := IWorld {
  iw_file : option bytes;     (* fopen of the icon, what fread finds there *)
  iw_size : option N;         (* fstat: st_size *)
  iw_malloc : bool;
  iw_begin : bool;            (* BeginUpdateResourceA *)
  iw_icon : bool;             (* the first UpdateResource *)
  iw_group : bool;            (* the second UpdateResource *)
  iw_end : bool }.            (* EndUpdateResourceA writes the program *)

(** Lines 27-41, 98-108: ICON_ENTRY, packed to two bytes, little endian. *)
Definition icon_entry (size : N) : bytes :=
  le_enc 2 0 ++ le_enc 2 1 ++ le_enc 2 1 ++ le_enc 1 32 ++ le_enc 1 32 ++ le_enc 1 0 ++ le_enc 1 0 ++
  le_enc 2 2 ++ le_enc 2 32 ++ le_enc 4 (u32 (sub64 size 22)) ++ le_enc 4 1.

(** Lines 90, 118, EndUpdateResourceA with FALSE: the updates made so far are written. *)
Definition end_update (W : iworld) (old new : program) : program := if iw_end W then new else old.

(** Lines 44-125, ResourceHandlerSecIconToApp: returns the result and the program. *)
Definition set_icon (W : iworld) (p : program) : outcome (Z * program) :=
  match iw_file W with
  | None => Ok (1%Z, p)
  | Some data =>
    match iw_size W with
    | None => Ok (1%Z, p)
    | Some size =>
      if negb (iw_malloc W) then Ok (1%Z, p)
      else
      let got := takeN size data in
      let buffer := map Some got ++ repeat None (N.to_nat (size - lenN got)) in
      if negb (iw_begin W) then Ok (1%Z, p)
      else if size <? 22 then UB
      else if negb (iw_icon W) then Ok (1%Z, end_update W p p)
      else
      let p1 := put RIcon (dropN 22 buffer) p in
      if negb (iw_group W) then Ok (1%Z, end_update W p p1)
      else Ok (0%Z, end_update W p (put RGroup (map Some (icon_entry size)) p1))
    end
  end.

(** src/core/resource_handler_unix.c, lines 17-22. *)
Definition set_icon_unix (p : program) : Z * program := (1%Z, p).
