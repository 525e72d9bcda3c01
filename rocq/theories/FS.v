(** FS.v: model of the POSIX file system calls used by src/core/zlibwt_hl_decompress_routines.c
    (mkdir, stat, open, fopen, write, fwrite, close, fclose, getcwd, chdir, symlink) on Linux.
    Simplifications: every inode belongs to the owner of the process, so only the owner permission bits matter;
    no hard links, no mount points, no limit on the number of descriptors and numbers of closed descriptors are not used
    again; directories take no space; stdio is not
    buffered; the set-group-ID bit is not inherited. *)
From Verif Require Import Base.

(** An absolute path: the names from the root directory. *)
Notation path := (list bytes).

Inductive inode : Type :=
| IDir (mode : N)
| IFile (mode : N) (data : bytes)
| ILink (target : bytes).

Fixpoint path_eqb (a b : path) : bool :=
  match a, b with
  | [], [] => true
  | x :: r, y :: s => bytes_eqb x y && path_eqb r s
  | _, _ => false
  end.

Notation fstree := (path -> option inode).
Definition upd (fs : fstree) (p : path) (i : inode) : fstree := fun q => if path_eqb q p then Some i else fs q.

(** [o_free]: bytes by which files can still grow; [o_fds]: open descriptors: number, file, offset. *)
Record os : Type := OS {
  o_fs : fstree; o_free : N; o_cwd : path; o_umask : N; o_priv : bool; o_fds : list (N * (path * N)); o_next : N
}.
Definition with_fs v o := OS v (o_free o) (o_cwd o) (o_umask o) (o_priv o) (o_fds o) (o_next o).
Definition with_cwd v o := OS (o_fs o) (o_free o) v (o_umask o) (o_priv o) (o_fds o) (o_next o).

Inductive err := EEXIST | ENOENT | EACCES | ENOTDIR | EISDIR | ENAMETOOLONG | ELOOP | EBADF | ENOSPC | ERANGE.

(** ** Path strings *)
Fixpoint split_on (s : bytes) : list bytes :=
  match s with
  | [] => [[]]
  | b :: r => if byte_eqb b x2f then [] :: split_on r
              else match split_on r with h :: t => (b :: h) :: t | [] => [[b]] end
  end.
Definition nonempty (c : bytes) : bool := match c with [] => false | _ => true end.
Definition comps (s : bytes) : list bytes := filter nonempty (split_on s).
Definition absolute (s : bytes) : bool := match s with b :: _ => byte_eqb b x2f | [] => false end.
Definition slash_end (s : bytes) : bool := byte_eqb (last s x00) x2f.
Definition start (s : bytes) (d : path) : path := if absolute s then [] else d.

Definition PATH_MAX : N := 4096.
Definition NAME_MAX : N := 255.
Definition MAX_LINKS : nat := 40.

(** Owner permission bits 0100 and 0200. *)
Definition can_x (priv : bool) (mode : N) : bool := priv || N.testbit mode 6.
Definition can_w (priv : bool) (mode : N) : bool := priv || N.testbit mode 7.

(** Path resolution.  [WDir d]: the path ends in ".", ".." or is a root directory; [WAt d c i]: entry [c] of the
    directory [d], holding [i] (None: no such entry). *)
Inductive wres : Type := WErr (e : err) | WDir (d : path) | WAt (d : path) (c : bytes) (i : option inode).

Section Walk.
Context (fs : fstree) (priv follow : bool).
Fixpoint walk_path (links : nat) : path -> list bytes -> wres :=
  fix go (d : path) (cs : list bytes) {struct cs} : wres :=
    match cs with
    | [] => WDir d
    | c :: r =>
      match fs d with
      | Some (IDir m) =>
        if negb (can_x priv m) then WErr EACCES
        else if bytes_eqb c [x2e] then go d r
        else if bytes_eqb c [x2e; x2e] then go (removelast d) r
        else if NAME_MAX <? lenN c then WErr ENAMETOOLONG
        else
          match fs (d ++ [c]) with
          | Some (IDir m') => match r with [] => WAt d c (Some (IDir m')) | _ => go (d ++ [c]) r end
          | Some (ILink t) =>
            match r, follow with
            | [], false => WAt d c (Some (ILink t))
            | _, _ =>
              match links with
              | O => WErr ELOOP
              | S l => if nonempty t then walk_path l (start t d) (comps t ++ r) else WErr ENOENT
              end
            end
          | Some (IFile m' x) => match r with [] => WAt d c (Some (IFile m' x)) | _ => WErr ENOTDIR end
          | None => match r with [] => WAt d c None | _ => WErr ENOENT end
          end
      | Some _ => WErr ENOTDIR
      | None => WErr ENOENT
      end
    end.
End Walk.

Definition namei (follow : bool) (o : os) (s : bytes) : wres :=
  if negb (nonempty s) then WErr ENOENT
  else if PATH_MAX <=? lenN s then WErr ENAMETOOLONG
  else walk_path (o_fs o) (o_priv o) follow MAX_LINKS (start s (o_cwd o)) (comps s).

Definition dir_mode (fs : fstree) (d : path) : N := match fs d with Some (IDir m) => m | _ => 0 end.

(** ** Calls *)

Inductive resp : Type :=
| RErr (e : err) | ROk | RFd (fd : N) | RStr (s : bytes) | RLen (n : N).

(** mkdir(2): the mode is restricted to 01777 and by the umask. *)
Definition new_dir_mode (o : os) (mode : N) : N := N.ldiff (N.land mode 1023) (o_umask o).
Definition sys_mkdir (s : bytes) (mode : N) (o : os) : resp * os :=
  match namei false o s with
  | WErr e => (RErr e, o)
  | WDir _ => (RErr EEXIST, o)
  | WAt d c (Some _) => (RErr EEXIST, o)
  | WAt d c None =>
    if can_w (o_priv o) (dir_mode (o_fs o) d) then
      (ROk, with_fs (upd (o_fs o) (d ++ [c]) (IDir (new_dir_mode o mode))) o)
    else (RErr EACCES, o)
  end.

(** stat(2) and S_ISDIR: [ROk] for a directory, [RErr ENOTDIR] if it is something else. *)
Definition sys_stat_dir (s : bytes) (o : os) : resp * os :=
  match namei true o s with
  | WErr e => (RErr e, o)
  | WDir _ | WAt _ _ (Some (IDir _)) => (ROk, o)
  | WAt _ _ (Some _) => (RErr ENOTDIR, o)
  | WAt _ _ None => (RErr ENOENT, o)
  end.

Definition open_at (p : path) (o : os) : resp * os :=
  (RFd (o_next o), OS (o_fs o) (o_free o) (o_cwd o) (o_umask o) (o_priv o) ((o_next o, (p, 0)) :: o_fds o) (o_next o + 1)).

(** open(s, O_WRONLY|O_CREAT, mode), with O_TRUNC if [trunc].  Only the bits 0777 of [mode] are used (the caller masks them). *)
Definition new_file_mode (o : os) (mode : N) : N := N.ldiff (N.land mode 511) (o_umask o).
Definition sys_open (trunc : bool) (s : bytes) (mode : N) (o : os) : resp * os :=
  match namei true o s with
  | WErr e => (RErr e, o)
  | WDir _ | WAt _ _ (Some (IDir _)) => (RErr EISDIR, o)
  | WAt _ _ (Some (ILink _)) => (RErr ELOOP, o)
  | WAt d c (Some (IFile m x)) =>
    if slash_end s then (RErr ENOTDIR, o)
    else if negb (can_w (o_priv o) m) then (RErr EACCES, o)
    else if trunc then
      open_at (d ++ [c]) (OS (upd (o_fs o) (d ++ [c]) (IFile m [])) (o_free o + lenN x) (o_cwd o) (o_umask o) (o_priv o) (o_fds o) (o_next o))
    else open_at (d ++ [c]) o
  | WAt d c None =>
    if slash_end s then (RErr EISDIR, o)
    else if can_w (o_priv o) (dir_mode (o_fs o) d) then
      open_at (d ++ [c]) (with_fs (upd (o_fs o) (d ++ [c]) (IFile (new_file_mode o mode) [])) o)
    else (RErr EACCES, o)
  end.

Fixpoint find_fd (fd : N) (l : list (N * (path * N))) : option (path * N) :=
  match l with
  | [] => None
  | (n, x) :: r => if n =? fd then Some x else find_fd fd r
  end.
Fixpoint set_fd (fd : N) (v : path * N) (l : list (N * (path * N))) : list (N * (path * N)) :=
  match l with
  | [] => []
  | (n, x) :: r => if n =? fd then (n, v) :: r else (n, x) :: set_fd fd v r
  end.
Fixpoint del_fd (fd : N) (l : list (N * (path * N))) : list (N * (path * N)) :=
  match l with
  | [] => []
  | (n, x) :: r => if n =? fd then r else (n, x) :: del_fd fd r
  end.

(** The contents of a file after writing [d] at [off] (without a gap). *)
Definition overwrite (off : N) (d x : bytes) : bytes := takeN off x ++ d ++ dropN (off + lenN d) x.

(** write(2); [None] is the descriptor -1.  A file that cannot grow enough is written as far as possible. *)
Definition sys_write (fd : option N) (d : bytes) (o : os) : resp * os :=
  match fd with
  | None => (RErr EBADF, o)
  | Some n =>
    match find_fd n (o_fds o) with
    | None => (RErr EBADF, o)
    | Some (p, off) =>
      match o_fs o p with
      | Some (IFile m x) =>
        let k := N.min (lenN d) ((lenN x - off) + o_free o) in
        if (k =? 0) && negb (lenN d =? 0) then (RErr ENOSPC, o)
        else
          let x' := overwrite off (takeN k d) x in
          (RLen k, OS (upd (o_fs o) p (IFile m x')) (o_free o - (lenN x' - lenN x)) (o_cwd o) (o_umask o) (o_priv o)
                      (set_fd n (p, off + k) (o_fds o)) (o_next o))
      | _ => (RErr EBADF, o)
      end
    end
  end.

Definition sys_close (fd : option N) (o : os) : resp * os :=
  match fd with
  | None => (RErr EBADF, o)
  | Some n =>
    match find_fd n (o_fds o) with
    | None => (RErr EBADF, o)
    | Some _ => (ROk, OS (o_fs o) (o_free o) (o_cwd o) (o_umask o) (o_priv o) (del_fd n (o_fds o)) (o_next o))
    end
  end.

(** The absolute path string of a directory. *)
Definition path_string (p : path) : bytes := match p with [] => [x2f] | _ => concat (map (fun c => x2f :: c) p) end.

(** getcwd(buf, size). *)
Definition sys_getcwd (size : N) (o : os) : resp * os :=
  match o_fs o (o_cwd o) with
  | Some (IDir _) => if size <=? lenN (path_string (o_cwd o)) then (RErr ERANGE, o) else (RStr (path_string (o_cwd o)), o)
  | _ => (RErr ENOENT, o)
  end.

Definition enter (d : path) (o : os) : resp * os :=
  match o_fs o d with
  | Some (IDir m) => if can_x (o_priv o) m then (ROk, with_cwd d o) else (RErr EACCES, o)
  | Some _ => (RErr ENOTDIR, o)
  | None => (RErr ENOENT, o)
  end.
Definition sys_chdir (s : bytes) (o : os) : resp * os :=
  match namei true o s with
  | WErr e => (RErr e, o)
  | WDir d => enter d o
  | WAt d c _ => enter (d ++ [c]) o
  end.

Definition sys_symlink (target s : bytes) (o : os) : resp * os :=
  if negb (nonempty target) then (RErr ENOENT, o)
  else if PATH_MAX <=? lenN target then (RErr ENAMETOOLONG, o)
  else
    match namei false o s with
    | WErr e => (RErr e, o)
    | WDir _ => (RErr EEXIST, o)
    | WAt d c (Some _) => (RErr EEXIST, o)
    | WAt d c None =>
      if slash_end s then (RErr ENOENT, o)
      else if can_w (o_priv o) (dir_mode (o_fs o) d) then (ROk, with_fs (upd (o_fs o) (d ++ [c]) (ILink target)) o)
      else (RErr EACCES, o)
    end.

(** ** Programs: what the code does between and with system calls *)

Inductive sysc : Type :=
| ScMkdir (s : bytes) (mode : N)
| ScStatDir (s : bytes)
| ScOpen (trunc : bool) (s : bytes) (mode : N)
| ScWrite (fd : option N) (d : bytes)
| ScClose (fd : option N)
| ScGetcwd (size : N)
| ScChdir (s : bytes)
| ScSymlink (target s : bytes).

Definition sys (c : sysc) (o : os) : resp * os :=
  match c with
  | ScMkdir s m => sys_mkdir s m o
  | ScStatDir s => sys_stat_dir s o
  | ScOpen t s m => sys_open t s m o
  | ScWrite fd d => sys_write fd d o
  | ScClose fd => sys_close fd o
  | ScGetcwd n => sys_getcwd n o
  | ScChdir s => sys_chdir s o
  | ScSymlink t s => sys_symlink t s o
  end.

Inductive prog (A : Type) : Type :=
| PRet (a : A)
| PUB
| PNoFuel
| PSys (c : sysc) (k : resp -> prog A).
Arguments PRet {A}. Arguments PUB {A}. Arguments PNoFuel {A}. Arguments PSys {A}.

Fixpoint pbind {A B} (p : prog A) (f : A -> prog B) : prog B :=
  match p with
  | PRet a => f a
  | PUB => PUB
  | PNoFuel => PNoFuel
  | PSys c k => PSys c (fun r => pbind (k r) f)
  end.
Notation "'pdo' x <- p ; k" := (pbind p (fun x => k)) (at level 200, x pattern, p at level 100, k at level 200, right associativity).

Definition psys (c : sysc) : prog resp := PSys c PRet.
Definition plift {A} (o : outcome A) : prog A := match o with Ok a => PRet a | UB => PUB | NoFuel => PNoFuel end.

(** Execution by a single thread. *)
Fixpoint exec {A} (p : prog A) (o : os) : outcome (A * os) :=
  match p with
  | PRet a => Ok (a, o)
  | PUB => UB
  | PNoFuel => NoFuel
  | PSys c k => let '(r, o1) := sys c o in exec (k r) o1
  end.
