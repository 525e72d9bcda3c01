(** InitExamples.v: an extraction that depends on uninitialised memory, and sessions that do not. *)
From Coq Require Import Lia.
From Verif Require Import Base Format Zlib RleZlib LLCompress Compress Parser ParserProofs ParserFacts Decompress DecompressProofs
  DecompressFacts MidProofs MidFacts DecompressExamples ArchiveSpec ArchiveFacts ArchiveDecode ArchiveEntry ArchiveProps ArchiveExamples
  FS FSFacts HL HLSpec HLFacts HLDrive HLProps HLSafe MkdirFacts HLTame HLMkdir HLMore HLExamples LinkFacts InitFacts.

(** A link m to /f. *)
Definition in_tree : list (bytes * snode) := [([x6d], SLink 511 2 (Some [x2f;x66]))].
(** Contents of the block malloc returned for pcBufferOut: 60 times the letter A, zeros. *)
Definition in_buf : bytes := List.repeat x41 60 ++ zeros (DEF_CHUNK_SIZE - 60).
(** The archive without its last two bytes. *)
Definition in_cut : bytes := takeN 42 (hx_arch in_tree).
Definition in_extract (obuf : bytes) :=
  exec (extract [x6f] hx_hal hx_stk rle_zlib LE ex_alloc 0 4000 4000 ax_al obuf ax_hjunk ex_pj in_cut false) (hx_os 1000).

Lemma ex_c91 : exists r1 o1 r2 o2, archives_dir rle_zlib in_tree (hx_arch in_tree) /\ lenN in_buf = DEF_CHUNK_SIZE /\
  did (in_extract (zeros DEF_CHUNK_SIZE)) r1 o1 /\ did (in_extract in_buf) r2 o2 /\
  o_fs o1 [[x77]; [x6f]; [x6d]] = Some (ILink [x2f;x66]) /\ o_fs o2 [[x77]; [x6f]; [x6d]] = Some (ILink ([x2f;x66] ++ List.repeat x41 10)).
Proof.
  destruct (did_of (in_extract (zeros DEF_CHUNK_SIZE)) (fun ret o' => at_eqb o' [[x77]; [x6f]; [x6d]] (Some (ILink [x2f;x66]))))
    as (r1 & o1 & D1 & H1); [vm_compute; reflexivity|].
  destruct (did_of (in_extract in_buf) (fun ret o' => at_eqb o' [[x77]; [x6f]; [x6d]] (Some (ILink ([x2f;x66] ++ List.repeat x41 10)))))
    as (r2 & o2 & D2 & H2); [vm_compute; reflexivity|].
  exists r1, o1, r2, o2. split.
  { apply hx_arch_ok; [|vm_compute; reflexivity]. unfold tree_fits, listing, in_tree. fits_case. }
  split; [unfold in_buf; rewrite lenN_app, lenN_zeros; reflexivity|].
  split; [exact D1|]. split; [exact D2|]. split; now apply at_eqb_ok.
Qed.

Definition in_full : bytes := List.repeat x41 (N.to_nat DEF_CHUNK_SIZE).
(** Nothing but As: the target is read past the end of the buffer. *)
Lemma ex_c91_past : lenN in_full = DEF_CHUNK_SIZE /\ in_extract in_full = UB.
Proof. split; [vm_compute; reflexivity|vm_compute; reflexivity]. Qed.

(** Two sessions with different garbage. *)
Definition in_pj : pst := PS StReadFile 3 9 (List.repeat x55 40) (Item 1 2 3 4 5 x00) (Some [x01]) FtFile true (p_allocs ex_pj).
Lemma ex_c91_case : exists s s', List.repeat x77 128 <> ax_hjunk /\ p_stage in_pj <> p_stage ex_pj /\
  lenN ax_hjunk = MAIN_HEADER_SIZE /\ lenN (List.repeat x77 128) = MAIN_HEADER_SIZE /\ lenN (p_img ex_pj) = ITEM_SIZE /\ lenN (p_img in_pj) = ITEM_SIZE /\
  p_allocs ex_pj = p_allocs in_pj /\
  create rle_zlib true (Some (zeros 64)) 64 ax_hjunk ex_pj = Some s /\ create rle_zlib true (Some (zeros 64)) 64 (List.repeat x77 128) in_pj = Some s' /\
  exists it t, seen_of rle_zlib (run_dops LE ex_alloc 100 s [DFeed 0 (takeN 9 (hx_arch in_tree)); DFeed 0 (dropN 9 (hx_arch in_tree))]) =
    Ok ([0; 0]%Z, [EvDirBegin; EvEntry FtSymLink it ([x6d] ++ zeros 7); EvSym [x2f;x66] t]).
Proof.
  eexists. eexists. split; [vm_compute; discriminate|]. split; [vm_compute; discriminate|].
  split; [reflexivity|]. split; [reflexivity|]. split; [reflexivity|]. split; [reflexivity|]. split; [reflexivity|].
  split; [reflexivity|]. split; [reflexivity|]. eexists. eexists. vm_compute. reflexivity.
Qed.
