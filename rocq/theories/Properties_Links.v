(** Properties_Links.v: property C83 (symbolic links on disk).

    Notions used: [archives_dir], [calm], [quiet], [free_spot], [usable_dir], [volume], [room_left], [overlay], [same_env]: as for
    C39.  [ldir_tree um es]: what a directory with the entries [es] looks like on disk, links included; [lextractable]: names,
    lengths, modes and link targets the system accepts; [homely o]: all parents of the working directory can be searched and its
    path has less than 1023 bytes.  [hx_os]: a file system with the working directory /w; [lk_far]: one with a working directory
    whose path has 1280 bytes; [calls s evs]: the session of the extraction ends in the state s
    after the callbacks evs; [unsplit evs]: every target in evs was handed over in one piece with its padding behind it; [did_all r ret o']: the extraction ended with [ret], all content was delivered. *)
From Verif Require Import Base Format Zlib RleZlib LLCompress Compress Parser ParserProofs ParserFacts Decompress DecompressProofs
  DecompressFacts MidProofs MidFacts DecompressExamples ArchiveSpec ArchiveFacts ArchiveDecode ArchiveEntry ArchiveProps ArchiveExamples
  FS FSFacts HL HLSpec HLFacts HLDrive HLProps HLSafe MkdirFacts HLTame HLMkdir HLMore HLExamples LinkFacts LinkExamples LinkMore LinkMoreExamples.

(** C83: false.  In a working directory whose path is longer than 1023 bytes the links are silently missing. *)
Theorem C83_links_on_disk_refuted : exists ret o', archives_dir rle_zlib lk_tree (hx_arch lk_tree) /\
  did_all (hx_extract [x6f] 0 (hx_arch lk_tree) lk_far) ret o' /\ ret = ContentDirectory /\
  o_fs o' (lk_cwd ++ [[x6f]; [x62]]) = Some (IFile 420 [x7a]) /\ o_fs o' (lk_cwd ++ [[x6f]; [x6d]]) = None.
Proof. exact ex_c83_far. Qed.
Print Assumptions C83_links_on_disk_refuted.

(** C83: false.  A target that lies across the end of the output buffer of 512 KB is cut: the link leads to /h/h instead of
    /f/g/h/h/h/h, and the extraction reports success. *)
Theorem C83_links_split_refuted : exists ret o', archives_dir rle_zlib lk_big lk_barch /\ homely (hx_os 1000000) /\
  did_all (hx_extract [x6f] 0 lk_barch (hx_os 1000000)) ret o' /\ ret = ContentDirectory /\
  o_fs o' [[x77]; [x6f]; [x6d]] = Some (ILink [x2f;x68;x2f;x68]).
Proof. exact ex_c83_split. Qed.
Print Assumptions C83_links_split_refuted.

(** What remains of C83: the archive and its content fit into one buffer of 512 KB, and the working directory has a short path. *)
Theorem C83_links_on_disk_partial : forall z (C : zlib_contract z) es F e alloc hal al stk obuf hjunk pjunk T archive inp t o fuel,
  archives_dir z es F -> input_of archive F inp -> (length inp < fuel)%nat -> calm z hal al stk obuf hjunk pjunk ->
  (forall k n, alloc k n = true) -> preorder es <> [] -> Forall (fun x => quiet (snd x)) es -> NoDup (map fst es) ->
  Forall (fun x => lextractable (o_priv o) (o_umask o) (lenN T) (fst x) (snd x)) es -> homely o ->
  lenN F < DEF_CHUNK_SIZE -> lenN (zc_dec C F) < 128 + DEF_CHUNK_SIZE -> free_spot o T t ->
  usable_dir (o_priv o) (o_umask o) MODE_BASE_DIR -> (forall r, o_fs o (t ++ r) = None) -> volume (preorder es) <= o_free o ->
  exists dfuel0, forall dfuel, (dfuel0 <= dfuel)%nat -> exists ret s h ds o',
    exec (extract T hal stk z e alloc archive fuel dfuel al obuf hjunk pjunk inp false) o = Ok ((ret, Some (s, h, ds)), o') /\
    (room_left s -> ret = ContentDirectory /\ same_env o o' /\ forall q, o_fs o' q = overlay t (ldir_tree (o_umask o) es) (o_fs o) q).
Proof. exact disk_links. Qed.
Print Assumptions C83_links_on_disk_partial.
Example C83_case : exists ret o', archives_dir rle_zlib lk_tree (hx_arch lk_tree) /\
  calm rle_zlib hx_hal ax_al hx_stk (zeros DEF_CHUNK_SIZE) ax_hjunk ex_pj /\ (length (hx_arch lk_tree) < 4000)%nat /\
  preorder lk_tree <> [] /\ Forall (fun x => quiet (snd x)) lk_tree /\ NoDup (map fst lk_tree) /\
  Forall (fun x => lextractable false 18 1 (fst x) (snd x)) lk_tree /\ homely (hx_os 1000) /\
  lenN (hx_arch lk_tree) < DEF_CHUNK_SIZE /\ lenN (zc_dec rle_contract (hx_arch lk_tree)) < 128 + DEF_CHUNK_SIZE /\
  free_spot (hx_os 1000) [x6f] [[x77]; [x6f]] /\ did_all (hx_extract [x6f] 0 (hx_arch lk_tree) (hx_os 1000)) ret o' /\
  o_fs o' [[x77]; [x6f]; [x64]; [x6c]] = Some (ILink [x2e;x2e;x2f;x62]) /\ o_fs o' [[x77]; [x6f]; [x6d]] = Some (ILink [x2f;x66]).
Proof. exact ex_c83. Qed.

(** What remains of C83 for archives of any size: if no target was split, the links are there. *)
Theorem C83_links_whole_partial : forall z (C : zlib_contract z) es F e alloc hal al stk obuf hjunk pjunk T archive inp t o fuel,
  archives_dir z es F -> input_of archive F inp -> (length inp < fuel)%nat -> calm z hal al stk obuf hjunk pjunk ->
  (forall k n, alloc k n = true) -> preorder es <> [] -> Forall (fun x => quiet (snd x)) es -> NoDup (map fst es) ->
  Forall (fun x => lextractable (o_priv o) (o_umask o) (lenN T) (fst x) (snd x)) es -> homely o -> free_spot o T t ->
  usable_dir (o_priv o) (o_umask o) MODE_BASE_DIR -> (forall r, o_fs o (t ++ r) = None) -> volume (preorder es) <= o_free o ->
  exists dfuel0, forall dfuel, (dfuel0 <= dfuel)%nat -> exists s evs, calls z e alloc al obuf hjunk pjunk dfuel fuel archive inp s evs /\
    (room_left s -> unsplit evs -> exists h ds o',
      exec (extract T hal stk z e alloc archive fuel dfuel al obuf hjunk pjunk inp false) o = Ok ((ContentDirectory, Some (s, h, ds)), o') /\
      same_env o o' /\ forall q, o_fs o' q = overlay t (ldir_tree (o_umask o) es) (o_fs o) q).
Proof. exact disk_links_whole. Qed.
Print Assumptions C83_links_whole_partial.
(** A file of 512 KB between two links. *)
Example C83_whole_case : exists s evs, archives_dir rle_zlib lm_tree lm_arch /\
  calm rle_zlib hx_hal ax_al hx_stk (zeros DEF_CHUNK_SIZE) ax_hjunk ex_pj /\
  (length lm_arch < 5000)%nat /\ preorder lm_tree <> [] /\ Forall (fun x => quiet (snd x)) lm_tree /\ NoDup (map fst lm_tree) /\
  Forall (fun x => lextractable false 18 1 (fst x) (snd x)) lm_tree /\ homely (hx_os 1000000) /\
  free_spot (hx_os 1000000) [x6f] [[x77]; [x6f]] /\ volume (preorder lm_tree) <= o_free (hx_os 1000000) /\
  calls rle_zlib LE ex_alloc ax_al (zeros DEF_CHUNK_SIZE) ax_hjunk ex_pj 5000 5000 0 lm_arch s evs /\ room_left s /\
  unsplit evs /\ link_sizes evs = [12; 2] /\ (1 < length (filter (fun ev => match ev with EvRead (_ :: _) => true | _ => false end) evs))%nat.
Proof. exact ex_c83_whole. Qed.
