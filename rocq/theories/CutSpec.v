(** CutSpec.v: what extracting the beginning of an archive, or extracting to a disk with little space, must leave. *)
From Verif Require Import Base Format Compress ArchiveSpec FS FSFacts HLSpec.

(** The files and directories of a tree in the order of the archive, with their paths; [cs]: the directory. *)
Section Layout.
Context (um : N).
Fixpoint layout1 (cs : path) (name : bytes) (nd : snode) : list (path * inode) :=
  if dotb name then []
  else match nd with
  | SFile _ _ mode _ data _ => [(cs ++ [name], IFile (file_perm um mode) data)]
  | SDir mode es => (cs ++ [name], IDir (dir_perm um mode)) :: concat (map (fun x => layout1 (cs ++ [name]) (fst x) (snd x)) es)
  | _ => []
  end.
Definition layout (cs : path) (es : list (bytes * snode)) : list (path * inode) :=
  concat (map (fun x => layout1 cs (fst x) (snd x)) es).
End Layout.

(** The first entries of a list; of the last one, if it is a file, perhaps only the beginning. *)
Inductive begun : list (path * inode) -> list (path * inode) -> Prop :=
| bg_nil l : begun [] l
| bg_part p m x d l : prefix x d -> begun [(p, IFile m x)] ((p, IFile m d) :: l)
| bg_cons x l l' : begun l l' -> begun (x :: l) (x :: l').

(** The entries written one after the other to a disk with [free] bytes. *)
Fixpoint fill (free : N) (l : list (path * inode)) : list (path * inode) :=
  match l with
  | [] => []
  | (p, IFile m d) :: r => (p, IFile m (takeN free d)) :: fill (free - lenN d) r
  | x :: r => x :: fill free r
  end.

Fixpoint look (p : path) (l : list (path * inode)) : option inode :=
  match l with
  | [] => None
  | (q, i) :: r => if path_eqb p q then Some i else look p r
  end.

(** The target directory itself and the entries below it. *)
Definition target_with (base : inode) (l : list (path * inode)) (r : path) : option inode :=
  match r with [] => Some base | _ => look r l end.

(** The records as entries. *)
Section Places.
Context (um : N).
Fixpoint places (cs : path) (rs : list arec) : list (path * inode) :=
  match rs with
  | [] => []
  | ADir n m :: r => (cs ++ [n], IDir (dir_perm um m)) :: places (cs ++ [n]) r
  | AFile n m _ d :: r => (cs ++ [n], IFile (file_perm um m) d) :: places cs r
  | AEnd :: r => places (removelast cs) r
  | _ :: r => places cs r
  end.
End Places.

(** The input file: a beginning of the archive, perhaps with the size of the whole archive. *)
Definition cut_input (archive : N) (F inp : bytes) : Prop := prefix inp F /\ (archive = 0 \/ archive = lenN F).
