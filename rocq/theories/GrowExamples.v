(** GrowExamples.v: examples for C155. *)
From Coq Require Import Lia.
From Verif Require Import Base Format Zlib RleZlib Parser Decompress MidProofs MidFacts DecompressExamples ArchiveExamples FS HL HLSpec HLProps HLMore HLExamples RobustExamples GrowFacts.

(** The bound is reached by the archive of a file with two bytes. *)
Lemma ex_c155 : exists ret o', calm rle_zlib hx_hal ax_al hx_stk (zeros DEF_CHUNK_SIZE) ax_hjunk ex_pj /\
  did (hx_extract [x6f] 0 (hx_farch [x61;x62]) (hx_os 1000)) ret o' /\ o_free (hx_os 1000) = 1000 /\ o_free o' = 998 /\
  lenN (zc_dec rle_contract (first_bytes 0 (hx_farch [x61;x62]))) - 128 = 2.
Proof.
  assert (T : test false (hx_extract [x6f] 0 (hx_farch [x61;x62]) (hx_os 1000)) (fun r o' => o_free o' =? 998) = true) by (vm_compute; reflexivity).
  destruct (did_of _ _ T) as (ret & o' & D & Q). exists ret, o'. split; [exact hx_calm|]. split; [exact D|]. split; [reflexivity|].
  split; [now apply N.eqb_eq|]. vm_compute. reflexivity.
Qed.
(** A directory d with a file abc of 3 bytes, and a link: three records with names of 8 bytes, the contents, the end of the directory and the target. *)
Lemma ex_c155_session : exists rets s evs, started rle_zlib ex_sess /\ Forall dop_ok (ex_dops 333) /\
  run_dops BE ex_alloc 400 ex_sess (ex_dops 333) = Ok (rets, s, evs) /\ loads evs = 190 /\ lenN (zc_dec rle_contract (dfed (ex_dops 333))) = 328.
Proof.
  assert (T : match run_dops BE ex_alloc 400 ex_sess (ex_dops 333) with Ok (_, _, evs) => loads evs =? 190 | _ => false end = true) by (vm_compute; reflexivity).
  destruct (run_dops BE ex_alloc 400 ex_sess (ex_dops 333)) as [[[rets s] evs]| |]; try discriminate T.
  exists rets, s, evs. split; [exact ex_started|]. split; [apply ex_dops_ok|]. split; [reflexivity|]. split; [now apply N.eqb_eq|]. vm_compute. reflexivity.
Qed.
