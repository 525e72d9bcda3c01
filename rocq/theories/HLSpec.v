(** HLSpec.v: what extracting an archive must leave in the file system. *)
From Verif Require Import Base Format Compress ArchiveSpec FS FSFacts.

(** ** The tree that must appear *)

(** Permissions: the archived ones without those of the process' umask; directories keep the sticky bit. *)
Definition file_perm (um mode : N) : N := N.ldiff (N.land mode 511) um.
Definition dir_perm (um mode : N) : N := N.ldiff (N.land mode 1023) um.

Fixpoint entry_of (c : bytes) (es : list (bytes * snode)) : option snode :=
  match es with
  | [] => None
  | (n, nd) :: r => if bytes_eqb n c then Some nd else entry_of c r
  end.

(** What a directory with the entries [es] has at the relative path [q] ("." and ".." are not entries). *)
Fixpoint tree_at (um : N) (q : path) (es : list (bytes * snode)) : option inode :=
  match q with
  | [] => None
  | c :: r =>
    if dotb c then None
    else
      match entry_of c es, r with
      | Some (SFile _ _ mode _ data _), [] => Some (IFile (file_perm um mode) data)
      | Some (SDir mode _), [] => Some (IDir (dir_perm um mode))
      | Some (SDir _ es'), _ => tree_at um r es'
      | _, _ => None
      end
  end.

Fixpoint strip (t q : path) : option path :=
  match t, q with
  | [], _ => Some q
  | c :: t', c' :: q' => if bytes_eqb c c' then strip t' q' else None
  | _ :: _, [] => None
  end.
(** The file system [fs] with the inodes [g] below [t] added. *)
Definition overlay (t : path) (g : path -> option inode) (fs : fstree) : fstree :=
  fun q => match strip t q with
           | Some r => match g r with Some i => Some i | None => fs q end
           | None => fs q
           end.

(** ** Trees that can be extracted *)

(** The process can add entries to a directory created with mode [mode]. *)
Definition usable_dir (priv : bool) (um mode : N) : Prop :=
  can_x priv (dir_perm um mode) = true /\ can_w priv (dir_perm um mode) = true.

(** [L]: length of the path of the directory. *)
Inductive extractable (priv : bool) (um : N) : N -> bytes -> snode -> Prop :=
| xt_dot L name nd : dotted name -> extractable priv um L name nd
| xt_other L name : extractable priv um L name SOther
| xt_file L name o s mode size data r : plain name -> L + 1 + lenN name < PATH_MAX ->
    extractable priv um L name (SFile o s mode size data r)
| xt_dir L name mode es : plain name -> L + 1 + lenN name < PATH_MAX -> usable_dir priv um mode ->
    NoDup (map fst es) -> Forall (fun x => extractable priv um (L + 1 + lenN name) (fst x) (snd x)) es ->
    extractable priv um L name (SDir mode es).

(** Bytes of all files. *)
Fixpoint volume (rs : list arec) : N :=
  match rs with
  | [] => 0
  | AFile _ _ _ data :: r => lenN data + volume r
  | _ :: r => volume r
  end.
