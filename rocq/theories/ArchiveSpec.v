(** ArchiveSpec.v: what a directory archive must contain, and what decoding it must call back. *)
From Verif Require Import Base Format Zlib LLCompress Compress Parser ParserProofs.

(** Contents of an archive: start of a directory, a file with the announced size and the stored bytes, a symbolic link,
    the end of a directory; [ABroken]: a file record that was begun but not completed. *)
Inductive arec : Type :=
| ADir (name : bytes) (mode : N)
| AFile (name : bytes) (mode size : N) (data : bytes)
| ALink (name : bytes) (mode : N) (target : bytes)
| AEnd
| ABroken (name : bytes) (mode size : N) (data : bytes).

(** ** Traversal *)

(** Work that is left: an entry of the directory [dir], or the end of a directory. *)
Inductive job : Type := JEntry (dir : list bytes) (name : bytes) (nd : snode) | JEnd.

Definition jobs (dir : list bytes) (es : list (bytes * snode)) : list job := map (fun x => JEntry dir (fst x) (snd x)) es.

(** The directories that are open are closed. *)
Fixpoint ends (js : list job) : list arec :=
  match js with [] => [] | JEnd :: r => AEnd :: ends r | JEntry _ _ _ :: r => ends r end.

(** One call of the filter. *)
Record visit : Type := Visit { v_dir : list bytes; v_name : bytes; v_kind : skind; v_answer : Z }.

Inductive tend := Done | Stopped | Failed | Died.

Definition dotted (name : bytes) : Prop := name = [x2e] \/ name = [x2e; x2e].
Definition dotb (name : bytes) : bool := existsb (bytes_eqb name) [[x2e]; [x2e; x2e]].

(** [trav f js f' vs rs t]: from filter state [f] the work [js] is done with the filter calls [vs], gives the
    records [rs] and ends as [t] says: everything done, stopped by the filter, failed, process terminated. *)
Section Trav.
Context {F : Type} (filt : F -> list bytes -> bytes -> skind -> Z * F).

Inductive trav : F -> list job -> F -> list visit -> list arec -> tend -> Prop :=
| tr_nil f : trav f [] f [] [] Done
| tr_end f js f' vs rs t : trav f js f' vs rs t -> trav f (JEnd :: js) f' vs (AEnd :: rs) t
| tr_dot f dir name nd js f' vs rs t : dotted name ->
    trav f js f' vs rs t -> trav f (JEntry dir name nd :: js) f' vs rs t
| tr_stop f dir name nd js f' : ~ dotted name -> filt f dir name (kind_of nd) = (387%Z, f') ->
    trav f (JEntry dir name nd :: js) f' [Visit dir name (kind_of nd) 387] (ends js) Stopped
| tr_skip f dir name nd js a f1 f' vs rs t : ~ dotted name -> filt f dir name (kind_of nd) = (a, f1) ->
    a <> 387%Z -> a <> 0%Z -> trav f1 js f' vs rs t ->
    trav f (JEntry dir name nd :: js) f' (Visit dir name (kind_of nd) a :: vs) rs t
| tr_dir f dir name mode es js f1 f' vs rs t : ~ dotted name -> filt f dir name KDir = (0%Z, f1) ->
    trav f1 (jobs (dir ++ [name]) es ++ JEnd :: js) f' vs rs t ->
    trav f (JEntry dir name (SDir mode es) :: js) f' (Visit dir name KDir 0 :: vs) (ADir name mode :: rs) t
| tr_file f dir name mode size data js f1 f' vs rs t : ~ dotted name -> filt f dir name KFile = (0%Z, f1) ->
    trav f1 js f' vs rs t ->
    trav f (JEntry dir name (SFile true true mode size data false) :: js) f'
      (Visit dir name KFile 0 :: vs) (AFile name mode size data :: rs) t
| tr_fail f dir name openok statok mode size data rderr js f1 : ~ dotted name -> filt f dir name KFile = (0%Z, f1) ->
    openok = false \/ statok = false ->
    trav f (JEntry dir name (SFile openok statok mode size data rderr) :: js) f1 [Visit dir name KFile 0] (ends js) Failed
| tr_read f dir name mode size data stored js f1 : ~ dotted name -> filt f dir name KFile = (0%Z, f1) ->
    prefix stored data ->
    trav f (JEntry dir name (SFile true true mode size data true) :: js) f1
      [Visit dir name KFile 0] (ABroken name mode size stored :: ends js) Failed
| tr_link f dir name mode target js f1 f' vs rs t : ~ dotted name -> filt f dir name KLink = (0%Z, f1) ->
    trav f1 js f' vs rs t ->
    trav f (JEntry dir name (SLink mode (lenN target) (Some target)) :: js) f'
      (Visit dir name KLink 0 :: vs) (ALink name mode target :: rs) t
| tr_shorter f dir name mode size target junk js f1 f' vs rs t : ~ dotted name -> filt f dir name KLink = (0%Z, f1) ->
    lenN target + lenN junk = size -> junk <> [] -> trav f1 js f' vs rs t ->
    trav f (JEntry dir name (SLink mode size (Some target)) :: js) f'
      (Visit dir name KLink 0 :: vs) (ALink name mode (target ++ junk) :: rs) t
| tr_die f dir name mode size target js f1 : ~ dotted name -> filt f dir name KLink = (0%Z, f1) ->
    match target with None => True | Some d => size < lenN d end ->
    trav f (JEntry dir name (SLink mode size target) :: js) f1 [Visit dir name KLink 0] [] Died
| tr_other f dir name js f1 f' vs rs t : ~ dotted name -> filt f dir name KOther = (0%Z, f1) ->
    trav f1 js f' vs rs t ->
    trav f (JEntry dir name SOther :: js) f' (Visit dir name KOther 0 :: vs) rs t.
End Trav.

(** Everything below a directory, in the order of the iterator: all entries that are files, directories or links. *)
Fixpoint preorder1 (name : bytes) (nd : snode) : list arec :=
  if dotb name then []
  else match nd with
  | SFile _ _ mode size data _ => [AFile name mode size data]
  | SDir mode es => ADir name mode :: concat (map (fun x => preorder1 (fst x) (snd x)) es) ++ [AEnd]
  | SLink mode _ (Some target) => [ALink name mode target]
  | SLink _ _ None => []
  | SOther => []
  end.
Definition preorder (es : list (bytes * snode)) : list arec := concat (map (fun x => preorder1 (fst x) (snd x)) es).

(** A quiet tree: everything can be opened and read and no file or link changes meanwhile. *)
Inductive quiet : snode -> Prop :=
| q_file mode data : quiet (SFile true true mode (lenN data) data false)
| q_dir mode es : Forall (fun x => quiet (snd x)) es -> quiet (SDir mode es)
| q_link mode target : quiet (SLink mode (lenN target) (Some target))
| q_other : quiet SOther.

(** Field widths: names and modes fit 32 bits (a name also below the wrap of its padding), sizes 64. *)
Inductive fits : bytes -> snode -> Prop :=
| ft_file name o s mode size data r : lenN name + 8 < two32 -> mode < two32 -> size + 8 < two64 -> fits name (SFile o s mode size data r)
| ft_dir name mode es : lenN name + 8 < two32 -> mode < two32 -> Forall (fun x => fits (fst x) (snd x)) es -> fits name (SDir mode es)
| ft_link name mode size target : lenN name + 8 < two32 -> mode < two32 -> size < two32 -> fits name (SLink mode size target)
| ft_other name : fits name SOther.

(** ** Records as bytes *)
Definition padded (name : bytes) : bytes := name ++ zeros (norm_len32 (lenN name) - lenN name).

Inductive encodes : list arec -> bytes -> Prop :=
| en_nil : encodes [] []
| en_dir name mode rs b e junk : lenN junk = 40 -> encodes rs b ->
    encodes (ADir name mode :: rs) (dir_item e (lenN name) mode junk ++ padded name ++ b)
| en_file name mode size data rs b e junk : lenN junk = 40 -> encodes rs b ->
    encodes (AFile name mode size data :: rs)
      (file_item e (lenN name) mode size junk ++ padded name ++ data ++ zeros (norm_len64 size - size) ++ b)
| en_link name mode target rs b e junk : lenN junk = 40 -> encodes rs b ->
    encodes (ALink name mode target :: rs)
      (link_item e (lenN name) mode (lenN target) junk ++ padded name ++ target ++ zeros (norm_len64 (lenN target) - lenN target) ++ b)
| en_end rs b e nlen mode junk : lenN junk = 40 -> encodes rs b ->
    encodes (AEnd :: rs) (dir_end_item e nlen mode junk ++ b)
| en_broken name mode size data rs b e junk : lenN junk = 40 -> encodes rs b ->
    encodes (ABroken name mode size data :: rs) (file_item e (lenN name) mode size junk ++ padded name ++ data ++ b).

(** ** Observations *)

(** The callbacks that present the records.  The name block is the name and at least one NUL.  The size fields of
    a directory item are not specified. *)
Inductive shows : list arec -> list obs -> Prop :=
| sh_nil : shows [] []
| sh_dir name mode rs o it :
    it_nlen it = lenN name -> it_nlenN it = norm_len32 (lenN name) -> it_mode it = mode -> it_ctype it = CT_DIR_START ->
    shows rs o -> shows (ADir name mode :: rs) (OEntry FtDir it (padded name) :: o)
| sh_file name mode data rs o : shows rs o ->
    shows (AFile name mode (lenN data) data :: rs)
      (OEntry FtFile (Item (lenN data) (norm_len64 (lenN data)) (lenN name) (norm_len32 (lenN name)) mode CT_FILE) (padded name)
       :: map OByte data ++ OFileEnd :: o)
| sh_link name mode target rs o : shows rs o ->
    shows (ALink name mode target :: rs)
      (OEntry FtSymLink (Item (lenN target) (norm_len64 (lenN target)) (lenN name) (norm_len32 (lenN name)) mode CT_SYM_LINK) (padded name)
       :: OSym :: o)
| sh_end rs o : shows rs o -> shows (AEnd :: rs) (ODirEnd :: o).

(** What decoding an archive with the contents [rs] delivers; an archive without contents may end before
    decompressStart is called. *)
Definition presents (rs : list arec) (evs : list event) : Prop :=
  (rs = [] /\ evs = []) \/ exists evs', evs = EvDirBegin :: evs' /\ shows rs (flat evs').

(** ** Balance *)
Fixpoint balanced (depth : nat) (rs : list arec) : Prop :=
  match rs with
  | [] => depth = O
  | ADir _ _ :: r => balanced (S depth) r
  | AEnd :: r => match depth with O => False | S d => balanced d r end
  | _ :: r => balanced depth r
  end.
