(** WinExtractSpec.v: what extracting an archive must leave in the file system of Windows. *)
From Verif Require Import Base Format Zlib Compress ArchiveSpec Parser Decompress DecompressProofs MidProofs MidFacts FS FSFacts HLSpec HLTame WinTools WinExtract.

Definition fold_case (n : bytes) : bytes := map lower n.

(** The entry whose name differs from [c] at most in case ("." and ".." are not entries). *)
Fixpoint win_entry (c : bytes) (es : list (bytes * snode)) : option snode :=
  match es with
  | [] => None
  | (n, nd) :: r => if negb (dotb n) && bytes_eqb (fold_case n) c then Some nd else win_entry c r
  end.
(** What a directory with the entries [es] has at the relative path [q] (in lower case) on Windows.  There are no links; a file that its owner cannot
    write (0200) is read-only. *)
Fixpoint win_at (q : path) (es : list (bytes * snode)) : option xnode :=
  match q with
  | [] => None
  | c :: r =>
    match win_entry c es, r with
    | Some (SFile _ _ mode _ data _), [] => Some (XFile (negb (N.testbit mode 7)) data)
    | Some (SDir _ _), [] => Some XDir
    | Some (SDir _ es'), _ => win_at r es'
    | _, _ => None
    end
  end.
(** With the directory itself. *)
Definition win_tree (es : list (bytes * snode)) (r : path) : option xnode := match r with [] => Some XDir | _ => win_at r es end.

(** The file system [fs] with the entries [g] below [t] added. *)
Definition xoverlay (t : path) (g : path -> option xnode) (fs : xtree) : xtree :=
  fun q => match strip t q with
           | Some r => match g r with Some i => Some i | None => fs q end
           | None => fs q
           end.

(** ** Names *)

(** Characters without a meaning of their own: no control characters, no characters beyond ASCII, none of double quote, * / : < > ? \ and |. *)
Definition wchar (c : byte) : bool :=
  let n := byte_val c in
  (32 <=? n) && (n <=? 126) && negb (existsb (N.eqb n) [34; 42; 47; 58; 60; 62; 63; 92; 124]).
(** The part before the first dot. *)
Fixpoint stem (n : bytes) : bytes := match n with [] => [] | c :: r => if byte_eqb c x2e then [] else c :: stem r end.
(** Devices: con, prn, aux, nul, com and lpt followed by a digit. *)
Definition device (n : bytes) : bool :=
  let s := fold_case (stem n) in
  existsb (bytes_eqb s) [[x63; x6f; x6e]; [x70; x72; x6e]; [x61; x75; x78]; [x6e; x75; x6c]] ||
  match s with
  | [a; b; c; d] => (bytes_eqb [a; b; c] [x63; x6f; x6d] || bytes_eqb [a; b; c] [x6c; x70; x74]) && (48 <=? byte_val d) && (byte_val d <=? 57)
  | _ => false
  end.
(** Names that mean the same on Windows. *)
Definition wplain (n : bytes) : bool :=
  nonempty n && (lenN n <=? NAME_MAX) && forallb wchar n && negb (byte_eqb (last n x00) x2e) && negb (byte_eqb (last n x00) x20) && negb (device n).

(** ** Trees that can be extracted on Windows *)

(** Names that mean the same, no two of a directory that differ only in case, paths within the limits.  [L]: length of the path of the directory.
    Nothing is asked of links. *)
Inductive wextractable (maxd maxf : N) : N -> bytes -> snode -> Prop :=
| wx_dot L name nd : dotted name -> wextractable maxd maxf L name nd
| wx_other L name : wextractable maxd maxf L name SOther
| wx_link L name mode size target : wextractable maxd maxf L name (SLink mode size target)
| wx_file L name o s mode size data r : wplain name = true -> L + 1 + lenN name < maxf -> wextractable maxd maxf L name (SFile o s mode size data r)
| wx_dir L name mode es : wplain name = true -> L + 1 + lenN name < maxd ->
    NoDup (map (fun x => fold_case (fst x)) es) -> Forall (fun x => wextractable maxd maxf (L + 1 + lenN name) (fst x) (snd x)) es ->
    wextractable maxd maxf L name (SDir mode es).

(** [T] names the entry [t], which does not exist, like everything below; its directory exists. *)
Definition wfree (maxd : N) (w : wst) (T : bytes) (t : path) : Prop :=
  ~ In x00 T /\ T <> [] /\ lenN T < maxd /\ xkey (w_cwd w) T = t /\ xdir (w_fs w) (removelast t) = true /\ (forall r, w_fs w (t ++ r) = None) /\
  w_dead w = false.

(** ** Staying inside the target *)

(** Only entries at or below [t] differ. *)
Definition xconfined (t : path) (fs fs' : xtree) : Prop := forall q, strip t q = None -> fs' q = fs q.

(** The callbacks of an archive whose directories and files have names that mean the same on Windows, and in which only directories that have been entered are left.
    [cs]: the directories entered so far; [L]: length of the target's path; [stk]: room for a path on the stack. *)
Fixpoint wtame (L stk : N) (cs : list bytes) (evs : list event) : Prop :=
  match evs with
  | [] => True
  | ev :: r =>
    match ev with
    | EvEntry FtDir it name => it_nlen it <= lenN name /\ wplain (takeN (it_nlen it) name) = true /\ wtame L stk (cs ++ [takeN (it_nlen it) name]) r
    | EvEntry FtFile it name => it_nlen it <= lenN name /\ wplain (takeN (it_nlen it) name) = true /\
        L + depth_len cs + 4 + it_nlen it <= stk /\ wtame L stk cs r
    | EvEntry _ _ _ | EvRead _ | EvFileEnd | EvSym _ _ => wtame L stk cs r
    | EvDirEnd => cs <> [] /\ wtame L stk (removelast cs) r
    | _ => False
    end
  end.

(** Whoever lists the archive [F], or its beginning, with the callback interface, is shown such callbacks, if it is a directory. *)
Definition lists_wtame {z} (e : endian) (alloc : N -> N -> bool) (L stk : N) (F : bytes) : Prop :=
  forall s0 fuel ops rets s evs, started z s0 -> Forall dop_ok ops -> prefix (dfed ops) F ->
    run_dops e alloc fuel s0 ops = Ok (rets, s, evs) -> forall r, evs = EvDirBegin :: r -> wtame L stk [] r.

(** Trees whose directories and files have such names, paths below PATH_MAX.  [L]: length of the path of the directory. *)
Inductive wnamed : N -> bytes -> snode -> Prop :=
| wn_dot L name nd : dotted name -> wnamed L name nd
| wn_other L name : wnamed L name SOther
| wn_link L name mode size target : wnamed L name (SLink mode size target)
| wn_file L name o s mode size data r : wplain name = true -> L + 1 + lenN name < PATH_MAX -> wnamed L name (SFile o s mode size data r)
| wn_dir L name mode es : wplain name = true -> L + 1 + lenN name < PATH_MAX ->
    Forall (fun x => wnamed (L + 1 + lenN name) (fst x) (snd x)) es -> wnamed L name (SDir mode es).

(** ** Archives of single files *)

(** [T] names a file that is not read-only, or nothing, in a directory where files can be created. *)
Definition wspot (maxf : N) (deny : path -> bool) (w : wst) (T : bytes) (t : path) : Prop :=
  T <> [] /\ is_sep (last T x00) = false /\ lenN T < maxf /\ xkey (w_cwd w) T = t /\ w_dead w = false /\
  ((exists x, w_fs w t = Some (XFile false x)) \/ (w_fs w t = None /\ xdir (w_fs w) (removelast t) = true /\ deny t = false)).
