(** WinArchiveSpec.v: what archiving a directory on Windows must give. *)
From Verif Require Import Base Format Zlib LLCompress Compress ArchiveSpec ArchiveEntry ArchiveProps HLProps FS WinTools WinExtract WinExtractSpec WinArchive.

(** The same directory without its symbolic links. *)
Fixpoint unlinked (nd : snode) : snode :=
  match nd with
  | SDir mode es => SDir mode (map (fun x => (fst x, unlinked (snd x))) es)
  | SLink _ _ _ => SOther
  | _ => nd
  end.
Definition unlinked_all (es : list (bytes * snode)) : list (bytes * snode) := map (fun x => (fst x, unlinked (snd x))) es.

(** Every file can be opened and read, and none is in use. *)
Inductive wsound (locked : list bytes -> bool) : list bytes -> bytes -> snode -> Prop :=
| wso_dot dir name nd : dotted name -> wsound locked dir name nd
| wso_file dir name mode size data : locked (dir ++ [name]) = false -> wsound locked dir name (SFile true true mode size data false)
| wso_dir dir name mode es : Forall (fun x => wsound locked (dir ++ [name]) (fst x) (snd x)) es -> wsound locked dir name (SDir mode es)
| wso_link dir name mode size target : wsound locked dir name (SLink mode size target)
| wso_other dir name : wsound locked dir name SOther.

(** [F]: what an archiving run on Windows that reports success has written, the filter taking everything (compare [archives_dir]). *)
Definition warchives_dir (z : zlib) (es : list (bytes * snode)) (F : bytes) : Prop :=
  exists e A (filt : A -> list bytes -> bytes -> skind -> Z * A) jk xjk hjunk al locked fuel level clbk f0 cevs ws wx led,
    wcompress_dir z e filt jk xjk hjunk al locked fuel level clbk false [] (Some es) f0 = Ok (CRet 0, cevs, ws, wx, led) /\
    junk_ok jk (fun _ n => zeros n) xjk hjunk /\ tree_fits (Some es) /\ accepts filt /\ created z al level /\ last_not_full cevs /\ F = cev_bytes cevs.

(** ** Directories of the file system of Windows *)

(** Every entry has its name in lower case, which is not "." or "..", and lies in a directory. *)
Definition wsane (fs : xtree) : Prop :=
  forall p c i, fs (p ++ [c]) = Some i -> fold_case c = c /\ ~ dotted c /\ (p = [] \/ fs p = Some XDir).

(** The permissions that stat reports for a file: its owner can write it (0200) unless it is read-only. *)
Definition wmode (ro : bool) (m : N) : Prop := m < two32 /\ N.testbit m 7 = negb ro.

(** What the directory iterator, stat and fread tell about the entry [p] (in lower case).  A directory is listed in any order, with the names as they
    were given, with or without "." and "..", whose nodes are not looked at (any that is [quiet]).  Files have less than 2 GiB. *)
Inductive wsees (fs : xtree) : path -> snode -> Prop :=
| ws_file p ro m d : fs p = Some (XFile ro d) -> wmode ro m -> lenN d < 2147483648 -> wsees fs p (SFile true true m (lenN d) d false)
| ws_dir p m es : fs p = Some XDir -> m < two32 -> NoDup (map (fun x => fold_case (fst x)) es) ->
    (forall c nd, In (c, nd) es -> dotted c -> quiet nd) ->
    (forall c nd, In (c, nd) es -> ~ dotted c -> wplain c = true) ->
    (forall c nd, In (c, nd) es -> ~ dotted c -> wsees fs (p ++ [fold_case c]) nd) ->
    (forall c, fs (p ++ [c]) <> None -> exists c', In c' (map fst es) /\ fold_case c' = c) ->
    wsees fs p (SDir m es).
(** [es]: the entries of the directory [p]. *)
Definition wlists (fs : xtree) (p : path) (es : list (bytes * snode)) : Prop := exists m, wsees fs p (SDir m es).

(** Paths below the target are not too long ([L]: length of the path of the target). *)
Definition wsuitable (maxd maxf L : N) (fs : xtree) (s : path) : Prop :=
  forall r i, r <> [] -> fs (s ++ r) = Some i -> L + lenN (path_string r) < match i with XDir => maxd | XFile _ _ => maxf end.

(** In [fs'] the directory [t] is a copy of what [s] was in [fs], and nothing else has changed. *)
Definition wcopy (fs : xtree) (s : path) (fs' : xtree) (t : path) : Prop :=
  fs' t = Some XDir /\ (forall r, r <> [] -> fs' (t ++ r) = fs (s ++ r)) /\ (forall q, (forall r, q <> t ++ r) -> fs' q = fs q).
