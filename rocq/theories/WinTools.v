(** WinTools.v: model of Windows branches: creating directories (src/core/zlibwt_hl_decompress_routines.c) and removing the temporary directory
    (src/tools/main_self_extract.c). *)
From Verif Require Import Base HL.

(** ** A Windows file system

    Entries by their components.  Simplifications: names are compared byte by byte (Windows ignores the case of letters), a drive is an ordinary first
    component, relative paths start at the empty list of components, which is a directory, and "." and ".." are ordinary names. *)
Inductive wnode := WnDir | WnFile.
Definition wtree := list bytes -> option wnode.

Definition is_sep (c : byte) : bool := byte_eqb c x2f || byte_eqb c x5c.
(** Components of a path: Windows accepts both separators; empty components are ignored.  [cur]: the component that is being read, reversed. *)
Fixpoint wcomps_from (cur s : bytes) : list bytes :=
  match s with
  | [] => match cur with [] => [] | _ => [rev cur] end
  | c :: r => if is_sep c then match cur with [] => wcomps_from [] r | _ => rev cur :: wcomps_from [] r end
              else wcomps_from (c :: cur) r
  end.
Definition wcomps (s : bytes) : list bytes := wcomps_from [] s.

Fixpoint wpath_eqb (p q : list bytes) : bool :=
  match p, q with
  | [], [] => true
  | a :: p, b :: q => bytes_eqb a b && wpath_eqb p q
  | _, _ => false
  end.
Definition wset (fs : wtree) (p : list bytes) (n : option wnode) : wtree := fun q => if wpath_eqb q p then n else fs q.

(** CreateDirectoryA (called at zlibwt_hl_decompress_routines.c:154): made, or the value of GetLastError.  [deny]: where the process may not create. *)
Inductive cdres := CdMade | CdExists | CdNoPath | CdOther.
Definition wdir (fs : wtree) (p : list bytes) : bool := match p with [] => true | _ => match fs p with Some WnDir => true | _ => false end end.
Definition create_directory (deny : list bytes -> bool) (s : bytes) (fs : wtree) : cdres * wtree :=
  let p := wcomps s in
  match p with
  | [] => (CdNoPath, fs)
  | _ => match fs p with
         | Some _ => (CdExists, fs)
         | None => if wdir fs (removelast p) then if deny p then (CdOther, fs) else (CdMade, wset fs p (Some WnDir))
                   else (CdNoPath, fs)
         end
  end.

(** ** Creating directories *)
Section Mkdir.
Context (deny : list bytes -> bool).

(** OsCreateStatic, zlibwt_hl_decompress_routines.c:151-172: 0 created, 1 already exists, 2 path not found, -1 error. *)
Definition wos_create (b : bytes) (fs : wtree) : outcome (Z * wtree) :=
  match cstr b with
  | None => UB
  | Some s => let '(r, fs') := create_directory deny s fs in
              Ok (match r with CdMade => 0 | CdExists => 1 | CdNoPath => 2 | CdOther => -1 end%Z, fs')
  end.

(** The while loop of MkdirRecurseInlineRaw, lines 102-117; see [mk_down] in HL.v. *)
Fixpoint wmk_down (k : nat) (b : bytes) (idx : list N) (fs : wtree) : outcome (bytes * list N * down_end * wtree) :=
  match k with
  | O => Ok (b, idx, DownOut, fs)
  | S k' =>
    match cstr b with
    | None => UB
    | Some s =>
      match delim s with
      | None => Ok (b, idx, DownOut, fs)
      | Some i =>
        let b' := set_byte i x00 b in
        do (r, fs') <- wos_create b' fs;
        if (r =? -1)%Z then Ok (b', i :: idx, DownErr, fs')
        else if (r =? 0)%Z || (r =? 1)%Z then Ok (b', i :: idx, DownFound, fs')
        else wmk_down k' b' (i :: idx) fs'
      end
    end
  end.
(** The for loop, lines 121-127: every separator that was cut is restored as '/'. *)
Fixpoint wmk_up (b : bytes) (idx : list N) (fs : wtree) : outcome (Z * wtree) :=
  match idx with
  | [] => Ok (0%Z, fs)
  | i :: r =>
    let b' := set_byte i x2f b in
    do (c, fs') <- wos_create b' fs;
    if (c =? 0)%Z then wmk_up b' r fs' else Ok ((-1)%Z, fs')
  end.
(** MkdirRecurseInlineRaw, lines 87-133, called by MkdirRecurseInline (lines 136-145; strdup succeeds) with the string [s]. *)
Definition wmkdir_recurse (s : bytes) (fs : wtree) : outcome (Z * wtree) :=
  let b := s ++ [x00] in
  do (r, fs1) <- wos_create b fs;
  if (r =? -1)%Z || (r =? 0)%Z || (r =? 1)%Z then Ok (r, fs1)
  else
    do (x, fs2) <- wmk_down 62 b [] fs1;
    let '(b1, idx, en) := x in
    match en with
    | DownFound => if lenN idx <? 62 then wmk_up b1 idx fs2 else Ok ((-1)%Z, fs2)
    | _ => Ok ((-1)%Z, fs2)
    end.
End Mkdir.

(** ** Removing the temporary directory *)

(** SHFileOperationA with FO_DELETE (called at main_self_extract.c:341): pFrom is a list of names, each ended by a NUL, the list by one more NUL.
    [mem]: the memory from pFrom to the end of the block that may be read. *)
Fixpoint name_list (n : nat) (mem : bytes) : outcome (list bytes) :=
  match n with
  | O => NoFuel
  | S n' =>
    match cstr mem with
    | None => UB
    | Some [] => Ok []
    | Some s => do l <- name_list n' (dropN (lenN s + 1) mem); Ok (s :: l)
    end
  end.
(** The entry [s] and everything below it. *)
Fixpoint below (p q : list bytes) : bool :=
  match p, q with
  | [], _ => true
  | a :: p, b :: q => bytes_eqb a b && below p q
  | _, _ => false
  end.
Definition delete_tree (s : bytes) (fs : wtree) : wtree := fun q => if below (wcomps s) q then None else fs q.
(** RemoveNonEmptyDirectory, main_self_extract.c:326-343, called with OUT_FOLDER_NAME_01 (lines 142, 231): the bytes of the literal, its NUL, and
    [rest]: what follows the literal in memory.  Every name can be deleted. *)
Definition out_folder : bytes := [x2e;x6f;x75;x74;x5f;x64;x69;x72].
Definition wremove (rest : bytes) (fs : wtree) : outcome wtree :=
  let mem := out_folder ++ x00 :: rest in
  do l <- name_list (S (length mem)) mem; Ok (fold_left (fun f s => delete_tree s f) l fs).
