(** DamageExamples.v: an archive with one changed byte. *)
From Verif Require Import Base Format Zlib RleZlib LLCompress Compress Parser ParserProofs ParserFacts Decompress DecompressProofs
  DecompressFacts MidProofs MidFacts DecompressExamples ArchiveSpec ArchiveFacts ArchiveDecode ArchiveEntry ArchiveProps ArchiveExamples
  FS FSFacts HL HLSpec HLFacts HLDrive HLProps HLSafe MkdirFacts HLTame HLMkdir HLMore HLExamples HaltFacts RobustFacts DamageFacts.

(** The archive of the file "ab", its last byte replaced by 'c'. *)
Definition dm_arch : bytes := removelast (hx_farch [x61;x62]) ++ [x63].

Lemma dm_orig : archives_file rle_zlib [x61;x62] (hx_farch [x61;x62]).
Proof. apply hx_farch_ok. vm_compute. reflexivity. Qed.
Lemma dm_spot : writable_spot (hx_os 1000) [x2f;x66] [[x66]] 420.
Proof. split; [reflexivity|]; exists [], [x66]; split; [reflexivity|]; right; exists [x6f;x6c;x64]; split; vm_compute; reflexivity. Qed.

Lemma ex_c120_changed : exists ret o' c d, archives_file rle_zlib [x61;x62] (hx_farch [x61;x62]) /\ hx_farch [x61;x62] = c ++ [x62] ++ d /\ dm_arch = c ++ [x63] ++ d /\
  writable_spot (hx_os 1000) [x2f;x66] [[x66]] 420 /\
  did_all (hx_extract [x2f;x66] 0 dm_arch (hx_os 1000)) ret o' /\ ret = ContentFile /\ o_fs o' [[x66]] = Some (IFile 420 [x61;x63]).
Proof.
  destruct (did_all_of (hx_extract [x2f;x66] 0 dm_arch (hx_os 1000)) (fun ret o' => (ret =? ContentFile) && at_eqb o' [[x66]] (Some (IFile 420 [x61;x63]))))
    as (ret & o' & D & H); [vm_compute; reflexivity|].
  apply andb_prop in H. destruct H as [H1 H2]. pose proof dm_orig as A. pose proof dm_spot as W.
  exists ret, o', (removelast (hx_farch [x61;x62])), []. split; [exact A|].
  split; [vm_compute; reflexivity|]. split; [vm_compute; reflexivity|]. split; [exact W|]. split; [exact D|].
  split; [now apply N.eqb_eq|now apply at_eqb_ok].
Qed.

Lemma ex_c120_ends : archives_with rle_zlib [] hx_tree (hx_xarch false [] hx_tree) /\ archives_file rle_zlib [x61;x62] (hx_farch [x61;x62]).
Proof. split; [apply hx_xarch_ok; [exact hx_fits|apply Forall_nil|vm_compute; reflexivity]|]. exact dm_orig. Qed.

(** The archive of the file "ab", followed by two bytes that are not valid. *)
Definition dm_bad : bytes := hx_farch [x61;x62] ++ [x00;x05].
Lemma ex_c120 : exists ret o', calm rle_zlib hx_hal ax_al hx_stk (zeros DEF_CHUNK_SIZE) ax_hjunk ex_pj /\
  archive_of ContentFile (zc_dec rle_contract (first_bytes 0 dm_bad)) /\ zc_bad rle_contract (first_bytes 0 dm_bad) = true /\
  writable_spot (hx_os 1000) [x2f;x66] [[x66]] 420 /\ lenN (zc_dec rle_contract (first_bytes 0 dm_bad)) = 130 /\ o_free (hx_os 1000) = 1000 /\
  did (hx_extract [x2f;x66] 0 dm_bad (hx_os 1000)) ret o' /\ ret = ContentNone.
Proof.
  destruct (did_of (hx_extract [x2f;x66] 0 dm_bad (hx_os 1000)) (fun ret o' => ret =? ContentNone)) as (ret & o' & D & H); [vm_compute; reflexivity|].
  pose proof dm_orig as A. pose proof dm_spot as W.
  exists ret, o'. split; [exact hx_calm|]. split; [|split; [vm_compute; reflexivity|split; [exact W|split; [vm_compute; reflexivity|split; [reflexivity|split; [exact D|now apply N.eqb_eq]]]]]].
  split; [vm_compute; discriminate|]. split; vm_compute; reflexivity.
Qed.
