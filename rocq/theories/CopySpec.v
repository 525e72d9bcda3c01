(** CopySpec.v: what archiving a directory of the file system and extracting the archive must give. *)
From Verif Require Import Base Format Compress ArchiveSpec FS FSFacts HL HLSpec.

(** The type bits that stat and lstat add to the permissions. *)
Definition S_IFREG : N := 32768.
Definition S_IFDIR : N := 16384.
Definition S_IFLNK : N := 40960.

(** A file system: every entry has a plain name and lies in a directory; link targets are strings. *)
Definition sane (fs : fstree) : Prop :=
  (forall p c i, fs (p ++ [c]) = Some i -> plain c /\ exists m, fs p = Some (IDir m)) /\
  (forall p x, fs p = Some (ILink x) -> x <> [] /\ ~ In x00 x /\ lenN x < PATH_MAX).

(** What the directory iterator, stat, readlink and fread tell about the entry [p].  A directory is listed in any order, with or without
    "." and "..", whose nodes are not looked at (any that is [quiet]). *)
Inductive sees (fs : fstree) : path -> snode -> Prop :=
| se_file p m d : fs p = Some (IFile m d) -> sees fs p (SFile true true (S_IFREG + m) (lenN d) d false)
| se_link p x : fs p = Some (ILink x) -> sees fs p (SLink (S_IFLNK + 511) (lenN x) (Some x))
| se_dir p m es : fs p = Some (IDir m) -> NoDup (map fst es) ->
    (forall c nd, In (c, nd) es -> dotted c -> quiet nd) ->
    (forall c nd, In (c, nd) es -> ~ dotted c -> sees fs (p ++ [c]) nd) ->
    (forall c, fs (p ++ [c]) <> None -> In c (map fst es)) ->
    sees fs p (SDir (S_IFDIR + m) es).
(** [es]: the entries of the directory [p]. *)
Definition lists (fs : fstree) (p : path) (es : list (bytes * snode)) : Prop := exists m, sees fs p (SDir m es).

Definition no_links (fs : fstree) (s : path) : Prop := forall r x, fs (s ++ r) <> Some (ILink x).
(** Paths below the target are not too long ([L]: length of the path of the target), and the process can use its copies of the directories. *)
Definition suitable (priv : bool) (um L : N) (fs : fstree) (s : path) : Prop :=
  (forall r, r <> [] -> fs (s ++ r) <> None -> L + lenN (path_string r) < PATH_MAX) /\
  (forall r m, r <> [] -> fs (s ++ r) = Some (IDir m) -> usable_dir priv um m).

(** A copy loses the permissions in the umask and the bits set-user-ID and set-group-ID; a file also loses the sticky bit. *)
Definition masked (um : N) (i : inode) : inode :=
  match i with
  | IFile m d => IFile (N.ldiff (N.land m 511) um) d
  | IDir m => IDir (N.ldiff (N.land m 1023) um)
  | ILink x => ILink x
  end.
(** In [fs'] the directory [t] is a copy of what [s] was in [fs], and nothing else has changed. *)
Definition copy (um : N) (fs : fstree) (s : path) (fs' : fstree) (t : path) : Prop :=
  (exists m, fs' t = Some (IDir m)) /\
  (forall r, r <> [] -> fs' (t ++ r) = option_map (masked um) (fs (s ++ r))) /\
  (forall q, (forall r, q <> t ++ r) -> fs' q = fs q).
