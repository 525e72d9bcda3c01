(** LinkExamples.v: concrete extractions of symbolic links. *)
From Coq Require Import Lia.
From Verif Require Import Base Format Zlib RleZlib LLCompress Compress Parser ParserProofs ParserFacts Decompress DecompressProofs
  DecompressFacts MidProofs MidFacts DecompressExamples ArchiveSpec ArchiveFacts ArchiveDecode ArchiveEntry ArchiveProps ArchiveExamples
  FS FSFacts HL HLSpec HLFacts HLDrive HLProps HLSafe MkdirFacts HLTame HLMkdir HLMore HLExamples LinkFacts.

(** A directory d with a link l to ../b; a file b; a link m to /f. *)
Definition lk_tree : list (bytes * snode) :=
  [([x64], SDir 493 [([x6c], SLink 511 4 (Some [x2e;x2e;x2f;x62]))]); ([x62], SFile true true 420 1 [x7a] false);
   ([x6d], SLink 511 2 (Some [x2f;x66]))].
Definition lk_comp : bytes := List.repeat x63 255.
(** Five nested directories with names of 255 bytes. *)
Definition lk_cwd : path := [lk_comp; lk_comp; lk_comp; lk_comp; lk_comp].
Definition lk_far_fs : fstree := fun p => if path_eqb p (firstn (length p) lk_cwd) then Some (IDir 493) else None.
Definition lk_far : os := OS lk_far_fs 1000 lk_cwd 18 false [] 3.

Definition lk_target : bytes := [x2f;x66;x2f;x67;x2f;x68;x2f;x68;x2f;x68;x2f;x68].
(** A file of 524183 bytes and two links: 8 of the 12 bytes of the target of the first link are in the first 524288 bytes of the content.  The modes are those
    that lstat(2) gives for a file and a link. *)
Definition lk_file : bytes * snode := ([x62], SFile true true 33188 (lenN (zeros 524183)) (zeros 524183) false).
Definition lk_m : bytes * snode := ([x6d], SLink 41471 (lenN lk_target) (Some lk_target)).
Definition lk_n : bytes * snode := ([x6e], SLink 41471 2 (Some [x2f;x66])).
Definition lk_big : list (bytes * snode) := [lk_file; lk_m; lk_n].

(** What the library makes of it. *)
Definition lk_barch : bytes :=
  [x04;x00;x01;x01;x03;x00;x78;x44;x01;x97;x01;xff;x01;x07;x05;x00;x01;x98;x01;xff;x01;x07;x05;x00;x01;x01;x03;
  x00;x01;x08;x03;x00;x01;xa4;x01;x81;x03;x00;x0b;x11;x01;x62;x07;x00;x9e;x00] ++
  concat (List.repeat [xff;x00] (N.to_nat 2055)) ++
  [x01;x00;x01;x0c;x07;x00;x01;x10;x07;x00;x01;x01;x03;x00;x01;x08;x03;x00;x01;xff;x01;xa1;x02;x00;x01;x04;x0b;
  x11;x01;x6d;x07;x00;x01;x2f;x01;x66;x01;x2f;x01;x67;x01;x2f;x01;x68;x01;x2f;x01;x68;x01;x2f;x01;x68;x01;x2f;
  x01;x68;x04;x00;x01;x02;x07;x00;x01;x08;x07;x00;x01;x01;x03;x00;x01;x08;x03;x00;x01;xff;x01;xa1;x02;x00;x01;
  x04;x0b;x11;x01;x6e;x07;x00;x01;x2f;x01;x66;x06;x00].

(** An archive given by its bytes. *)
Lemma hx_arch_is es F : tree_fits (Some es) ->
  match compress_dir rle_zlib LE ax_all (ax_jk x11) ax_hj ax_xjk ax_hjunk ax_al 3 9 7 false [] (Some es) tt with
  | Ok (CRet r, cevs, _, _, _) => (r =? 0)%Z && forallb (fun c => lenN (ce_data c) <? ce_room c) cevs && bytes_eqb (cev_bytes cevs) F
  | _ => false
  end = true -> archives_dir rle_zlib es F.
Proof.
  intros Ft H. destruct (compress_dir rle_zlib LE ax_all (ax_jk x11) ax_hj ax_xjk ax_hjunk ax_al 3 9 7 false [] (Some es) tt)
    as [[[[[[r|] cevs] ws] wx] led]| |] eqn:E; try discriminate H.
  apply andb_prop in H. destruct H as [H H3]. apply bytes_eqb_spec in H3. subst F.
  replace (cev_bytes cevs) with (hx_arch es) by (unfold hx_arch; now rewrite E). apply hx_arch_ok; [exact Ft|]. rewrite E. exact H.
Qed.

Lemma lk_fits : tree_fits (Some lk_tree).
Proof. unfold tree_fits, listing, lk_tree. fits_case. Qed.
Lemma lk_archived : archives_dir rle_zlib lk_tree (hx_arch lk_tree).
Proof. apply hx_arch_ok; [exact lk_fits|vm_compute; reflexivity]. Qed.
Lemma lk_big_archived : archives_dir rle_zlib lk_big lk_barch.
Proof.
  apply hx_arch_is; [|vm_compute; reflexivity]. unfold tree_fits, listing, lk_big, lk_file, lk_m, lk_n. repeat apply Forall_cons; [| | |apply Forall_nil]; cbn [fst snd].
  - apply ft_file; [vm_compute; reflexivity|vm_compute; reflexivity|rewrite lenN_zeros; vm_compute; reflexivity].
  - apply ft_link; vm_compute; reflexivity.
  - apply ft_link; vm_compute; reflexivity.
Qed.
Lemma lk_quiet : Forall (fun x => quiet (snd x)) lk_tree.
Proof.
  unfold lk_tree. repeat apply Forall_cons; cbn [snd]; [|exact (q_file 420 [x7a])|exact (q_link 511 [x2f;x66])|apply Forall_nil].
  apply q_dir, Forall_cons; [exact (q_link 511 [x2e;x2e;x2f;x62])|apply Forall_nil].
Qed.
Lemma lk_nodup : NoDup (map fst lk_tree).
Proof. unfold lk_tree. cbn [map fst]. nodup_case. Qed.
Lemma lk_extractable : Forall (fun x => lextractable false 18 1 (fst x) (snd x)) lk_tree.
Proof.
  unfold lk_tree. repeat apply Forall_cons; cbn [fst snd]; [| | |apply Forall_nil].
  - apply lx_dir; [plain_case|vm_compute; reflexivity|split; vm_compute; reflexivity|cbn [map fst]; nodup_case|].
    apply Forall_cons; [|apply Forall_nil]. cbn [fst snd].
    apply lx_link; [plain_case|vm_compute; reflexivity|discriminate|cbn; intuition discriminate|vm_compute; reflexivity].
  - apply lx_file; [plain_case|vm_compute; reflexivity].
  - apply lx_link; [plain_case|vm_compute; reflexivity|discriminate|cbn; intuition discriminate|vm_compute; reflexivity].
Qed.
Lemma lk_homely : homely (hx_os 1000).
Proof. split; [apply hx_reachable|vm_compute; reflexivity]. Qed.

Lemma ex_c83 : exists ret o', archives_dir rle_zlib lk_tree (hx_arch lk_tree) /\
  calm rle_zlib hx_hal ax_al hx_stk (zeros DEF_CHUNK_SIZE) ax_hjunk ex_pj /\
  (length (hx_arch lk_tree) < 4000)%nat /\ preorder lk_tree <> [] /\ Forall (fun x => quiet (snd x)) lk_tree /\ NoDup (map fst lk_tree) /\
  Forall (fun x => lextractable false 18 1 (fst x) (snd x)) lk_tree /\ homely (hx_os 1000) /\ lenN (hx_arch lk_tree) < DEF_CHUNK_SIZE /\
  lenN (zc_dec rle_contract (hx_arch lk_tree)) < 128 + DEF_CHUNK_SIZE /\ free_spot (hx_os 1000) [x6f] [[x77]; [x6f]] /\
  did_all (hx_extract [x6f] 0 (hx_arch lk_tree) (hx_os 1000)) ret o' /\
  o_fs o' [[x77]; [x6f]; [x64]; [x6c]] = Some (ILink [x2e;x2e;x2f;x62]) /\ o_fs o' [[x77]; [x6f]; [x6d]] = Some (ILink [x2f;x66]).
Proof.
  destruct (did_all_of (hx_extract [x6f] 0 (hx_arch lk_tree) (hx_os 1000)) (fun ret o' =>
    at_eqb o' [[x77]; [x6f]; [x64]; [x6c]] (Some (ILink [x2e;x2e;x2f;x62])) && at_eqb o' [[x77]; [x6f]; [x6d]] (Some (ILink [x2f;x66]))))
    as (ret & o' & D & H); [vm_compute; reflexivity|].
  apply andb_prop in H. destruct H as [H1 H2]. exists ret, o'.
  split; [exact lk_archived|]. split; [exact hx_calm|]. split; [apply Nat.ltb_lt; vm_compute; reflexivity|]. split; [discriminate|].
  split; [exact lk_quiet|]. split; [exact lk_nodup|]. split; [exact lk_extractable|]. split; [exact lk_homely|].
  split; [vm_compute; reflexivity|]. split; [vm_compute; reflexivity|]. split; [apply hx_spot|]. split; [exact D|].
  split; now apply at_eqb_ok.
Qed.

Lemma ex_c83_far : exists ret o', archives_dir rle_zlib lk_tree (hx_arch lk_tree) /\
  did_all (hx_extract [x6f] 0 (hx_arch lk_tree) lk_far) ret o' /\ ret = ContentDirectory /\
  o_fs o' (lk_cwd ++ [[x6f]; [x62]]) = Some (IFile 420 [x7a]) /\ o_fs o' (lk_cwd ++ [[x6f]; [x6d]]) = None.
Proof.
  destruct (did_all_of (hx_extract [x6f] 0 (hx_arch lk_tree) lk_far) (fun ret o' =>
    (ret =? ContentDirectory) && (at_eqb o' (lk_cwd ++ [[x6f]; [x62]]) (Some (IFile 420 [x7a])) && at_eqb o' (lk_cwd ++ [[x6f]; [x6d]]) None)))
    as (ret & o' & D & H); [vm_compute; reflexivity|].
  apply andb_prop in H. destruct H as [H0 H]. apply andb_prop in H. destruct H as [H1 H2]. exists ret, o'.
  split; [exact lk_archived|]. split; [exact D|]. split; [now apply N.eqb_eq|]. split; now apply at_eqb_ok.
Qed.

Lemma ex_c83_split : exists ret o', archives_dir rle_zlib lk_big lk_barch /\ homely (hx_os 1000000) /\
  did_all (hx_extract [x6f] 0 lk_barch (hx_os 1000000)) ret o' /\ ret = ContentDirectory /\
  o_fs o' [[x77]; [x6f]; [x6d]] = Some (ILink [x2f;x68;x2f;x68]).
Proof.
  destruct (did_all_of (hx_extract [x6f] 0 lk_barch (hx_os 1000000)) (fun ret o' =>
    (ret =? ContentDirectory) && at_eqb o' [[x77]; [x6f]; [x6d]] (Some (ILink [x2f;x68;x2f;x68]))))
    as (ret & o' & D & H); [vm_compute; reflexivity|].
  apply andb_prop in H. destruct H as [H1 H2]. exists ret, o'.
  split; [exact lk_big_archived|]. split; [split; [apply hx_reachable|vm_compute; reflexivity]|]. split; [exact D|].
  split; [now apply N.eqb_eq|now apply at_eqb_ok].
Qed.
