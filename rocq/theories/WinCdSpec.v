(** WinCdSpec.v: files of a listing, for C139. *)
From Verif Require Import Base Format Zlib LLCompress Compress ArchiveSpec.

(** The file [p] is in the listing [es]. *)
Inductive file_at : list bytes -> list (bytes * snode) -> Prop :=
| fa_here n o st m sz d r es : ~ dotted n -> In (n, SFile o st m sz d r) es -> file_at [n] es
| fa_in n m sub p es : ~ dotted n -> In (n, SDir m sub) es -> file_at p sub -> file_at (n :: p) es.
