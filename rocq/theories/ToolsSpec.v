(** ToolsSpec.v: notions for the statements about the tools. *)
From Verif Require Import Base Format Zlib LLCompress Compress Parser Decompress MidProofs MidFacts ArchiveSpec ArchiveDecode Tools.

(** Decoding [content], in whatever pieces it is given, presents the records [rs]; as in C29 the last
    inflate step must not have filled its buffer (C13). *)
Definition unpacks (z : zlib) (content : bytes) (rs : list arec) : Prop :=
  forall e alloc fuel (s0 : dsess z) ops rets s evs,
    (forall k n, alloc k n = true) -> started z s0 -> Forall dop_ok ops -> dfed ops = content ->
    run_dops e alloc fuel s0 ops = Ok (rets, s, evs) -> room_left s -> presents rs evs.

(** [nd] is not a directory. *)
Definition not_dir (nd : snode) : bool := match nd with SDir _ _ => false | _ => true end.

(** The entries the self extract tool has to leave out: those of the directory itself that are the
    executable [exe] or the output file. *)
Definition its_own (exe : bytes) (x : bytes * snode) : bool :=
  not_dir (snd x) && (bytes_eqb (fst x) exe || bytes_eqb (fst x) se_out).
Definition without_own (exe : bytes) (es : list (bytes * snode)) : list (bytes * snode) :=
  filter (fun x => negb (its_own exe x)) es.

(** No entry below the directory [nd] that is not itself a directory has the name [nm]. *)
Inductive below_free (nm : bytes) : snode -> Prop :=
| bf_leaf nd : not_dir nd = true -> below_free nm nd
| bf_dir mode es : Forall (fun x => (not_dir (snd x) = true -> fst x <> nm) /\ below_free nm (snd x)) es ->
    below_free nm (SDir mode es).
