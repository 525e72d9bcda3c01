(** Properties_Again.v: property C145 (archiving the directory that was extracted).

    Notions used: those of Properties_Paths.v.  [settled um fs s]: every entry below s has the permissions that a copy of it gets with
    the umask um.  [copy um fs s fs' t]: in fs' the directory t is a copy of s, and nothing else has changed.
    The filter does not look at the directory of an entry, and the directory iterator lists the copy in the order of the original. *)
From Verif Require Import Base Format Zlib RleZlib LLCompress Compress Parser ParserProofs ParserFacts Decompress DecompressProofs MidProofs MidFacts
  DecompressExamples ArchiveSpec ArchiveFacts ArchiveDecode ArchiveEntry ArchiveProps ArchiveExamples FS FSFacts HL HLSpec HLFacts HLDrive HLProps HLSafe MkdirFacts
  HLTame HLMore HLExamples LinkFacts LinkExamples LinkMore LinkMoreExamples CutSpec CopySpec CopyFacts CopyExamples PathWalk PathFacts PathExamples AgainFacts AgainExamples.

(** C145: false.  With the umask 022 a file with the mode 0666 gets the mode 0644, so the archive of the copy differs. *)
Theorem C145_archived_again_refuted : exists cevs ws wx led q h ds o' cevs' ws' wx' led', let o := cp_os cp_link in
  archivable o px_ls px_src [[x73]] 2 /\ px_compress 3 5 o px_ls px_src = Ok (CRet 0%Z, cevs, ws, wx, led) /\ last_not_full cevs /\
  hx_extract [x6f] 0 (cev_bytes cevs) o = Ok ((ContentDirectory, Some (q, h, ds)), o') /\ room_left q /\ copy 18 (o_fs o) [[x73]] (o_fs o') ag_t /\
  archivable o' ag_ls [x6f] ag_t 2 /\ (forall p, ag_ls (ag_t ++ p) = px_ls ([[x73]] ++ p)) /\
  px_compress 3 5 o' ag_ls [x6f] = Ok (CRet 0%Z, cevs', ws', wx', led') /\ last_not_full cevs' /\ cev_bytes cevs' <> cev_bytes cevs.
Proof. exact ag_copied. Qed.
Print Assumptions C145_archived_again_refuted.

(** What remains of C145: if the permissions of the directory are those of a copy, the run over the extracted directory
    is the same as the first run: the same result, the same bytes in the same blocks, the same filter calls. *)
Theorem C145_archived_again_partial : forall z (C : zlib_contract z) F e (g : F -> bytes -> skind -> Z * F) jk hj xjk hjunk al
    o ls dsize sj fuel pfuel level clbk src f0 s n r cevs ws wx led e' alloc hal al' stk obuf hjunk' pjunk T archive inp t fuel',
  let filt := fun f (_ : bytes) c k => g f c k in
  junk_ok jk hj xjk hjunk -> accepts_path filt -> archivable o ls src s n -> (n < pfuel)%nat -> created z al level ->
  compress_path z e filt jk hj xjk hjunk al o ls dsize sj fuel pfuel level clbk false [] src f0 = Ok (r, cevs, ws, wx, led) -> last_not_full cevs ->
  homely o -> suitable (o_priv o) (o_umask o) (lenN T) (o_fs o) s -> (exists c, o_fs o (s ++ [c]) <> None) ->
  input_of archive (cev_bytes cevs) inp -> (length inp < fuel')%nat -> calm z hal al' stk obuf hjunk' pjunk -> (forall k n, alloc k n = true) ->
  free_spot o T t -> usable_dir (o_priv o) (o_umask o) MODE_BASE_DIR -> volume (preorder (tree (o_fs o) ls n s)) <= o_free o ->
  settled (o_umask o) (o_fs o) s -> can_r (o_priv o) (dir_perm (o_umask o) MODE_BASE_DIR) = true ->
  (forall p c, o_fs o (s ++ p ++ [c]) <> None -> lenN (below T (p ++ [c])) <= 4094) ->
  exists dfuel0, forall dfuel, (dfuel0 <= dfuel)%nat -> exists q evs, calls z e' alloc al' obuf hjunk' pjunk dfuel fuel' archive inp q evs /\
    (room_left q -> unsplit evs -> exists h ds o',
      exec (extract T hal stk z e' alloc archive fuel' dfuel al' obuf hjunk' pjunk inp false) o = Ok ((ContentDirectory, Some (q, h, ds)), o') /\
      forall ls' dsize' sj', reports (o_fs o') ls' -> (forall p, ls' (t ++ p) = ls (s ++ p)) ->
        compress_path z e filt jk hj xjk hjunk al o' ls' dsize' sj' fuel pfuel level clbk false [] T f0 = Ok (r, cevs, ws, wx, led)).
Proof. exact @archived_again. Qed.
Print Assumptions C145_archived_again_partial.
Example C145_case : exists cevs ws wx led q evs ret o' cevs' ws' wx' led', archivable as_os (names_in as_list) px_src [[x73]] 2 /\ created rle_zlib ax_al 9 /\
  px_compress 3 5 as_os (names_in as_list) px_src = Ok (CRet 0%Z, cevs, ws, wx, led) /\ last_not_full cevs /\ homely as_os /\
  suitable false 18 1 (o_fs as_os) [[x73]] /\ settled 18 (o_fs as_os) [[x73]] /\ free_spot as_os [x6f] ag_t /\ usable_dir false 18 MODE_BASE_DIR /\
  can_r false (dir_perm 18 MODE_BASE_DIR) = true /\ volume (preorder (tree (o_fs as_os) (names_in as_list) 2 [[x73]])) <= 1000 /\
  calls rle_zlib LE ex_alloc ax_al (zeros DEF_CHUNK_SIZE) ax_hjunk ex_pj 5000 5000 0 (cev_bytes cevs) q evs /\ room_left q /\ unsplit evs /\
  did_all (hx_extract [x6f] 0 (cev_bytes cevs) as_os) ret o' /\ ret = ContentDirectory /\
  px_compress 3 5 o' as_ls [x6f] = Ok (CRet 0%Z, cevs', ws', wx', led') /\ cev_bytes cevs' = cev_bytes cevs.
Proof. exact ex_c145_case. Qed.

(** A copy is settled, so from the first copy on all archives are the same. *)
Theorem C145_copy_is_settled : forall um fs s fs' t, copy um fs s fs' t -> settled um fs' t.
Proof. exact copy_settled. Qed.
Print Assumptions C145_copy_is_settled.
Example C145_copy_case : exists o', copy 18 (o_fs (cp_os cp_link)) [[x73]] (o_fs o') ag_t /\ ~ settled 18 (o_fs (cp_os cp_link)) [[x73]].
Proof. exact ex_c145_copy. Qed.
