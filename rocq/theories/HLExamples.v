(** HLExamples.v: concrete extractions with the run length codec. *)
From Coq Require Import Lia.
From Verif Require Import Base Format Zlib RleZlib LLCompress Compress Parser ParserProofs ParserFacts Decompress DecompressProofs
  DecompressFacts MidProofs MidFacts DecompressExamples ArchiveSpec ArchiveFacts ArchiveDecode ArchiveEntry ArchiveProps ArchiveExamples
  FS FSFacts HL HLSpec HLFacts HLDrive HLProps HLSafe MkdirFacts HLTame HLMkdir HLMore.

(** / and /w exist and belong to the process; /f is a file. *)
Definition hx_fs : fstree := fun p =>
  if path_eqb p [] then Some (IDir 493) else if path_eqb p [[x77]] then Some (IDir 493)
  else if path_eqb p [[x66]] then Some (IFile 420 [x6f;x6c;x64]) else None.
(** An unprivileged process in /w with umask 022, 1000 bytes free on the disk. *)
Definition hx_os (free : N) : os := OS hx_fs free [[x77]] 18 false [] 3.
Definition hx_hal (n : N) : bool := true.
Definition hx_stk : N := 8000000.

Lemma hx_calm : calm rle_zlib hx_hal ax_al hx_stk (zeros DEF_CHUNK_SIZE) ax_hjunk ex_pj.
Proof. 
  split; [reflexivity|reflexivity|vm_compute; discriminate|apply lenN_zeros|reflexivity|reflexivity|discriminate].
Qed.

Definition hx_extract (T : bytes) (archive : N) (inp : bytes) (o : os) :=
  exec (extract T hx_hal hx_stk rle_zlib LE ex_alloc archive 4000 4000 ax_al (zeros DEF_CHUNK_SIZE) ax_hjunk ex_pj inp false) o.
Definition inode_eqb (a b : inode) : bool :=
  match a, b with
  | IDir m, IDir n => m =? n
  | IFile m x, IFile n y => (m =? n) && bytes_eqb x y
  | ILink x, ILink y => bytes_eqb x y
  | _, _ => false
  end.
Definition at_eqb (o : os) (p : path) (i : option inode) : bool :=
  match o_fs o p, i with Some a, Some b => inode_eqb a b | None, None => true | _, _ => false end.

Lemma inode_eqb_ok a b : inode_eqb a b = true -> a = b.
Proof.
  destruct a, b; cbn; try discriminate.
  - intro H. apply N.eqb_eq in H. congruence.
  - intro H. apply andb_prop in H. destruct H as [H1 H2]. apply N.eqb_eq in H1. apply bytes_eqb_spec in H2. congruence.
  - intro H. apply bytes_eqb_spec in H. congruence.
Qed.
Lemma at_eqb_ok o p i : at_eqb o p i = true -> o_fs o p = i.
Proof. unfold at_eqb. destruct (o_fs o p), i; try discriminate; [intro H; f_equal; now apply inode_eqb_ok|reflexivity]. Qed.

(** [did x ret o']: the extraction [x] returned [ret] and left the state [o']. *)
Definition did (x : outcome (N * option (dsess rle_zlib * hst * bytes) * os)) (ret : N) (o' : os) : Prop :=
  exists s h ds, x = Ok ((ret, Some (s, h, ds)), o').
(** The same; the last inflate step did not fill its buffer. *)
Definition did_all (x : outcome (N * option (dsess rle_zlib * hst * bytes) * os)) (ret : N) (o' : os) : Prop :=
  exists s h ds, x = Ok ((ret, Some (s, h, ds)), o') /\ room_left s.
Definition test (room : bool) (x : outcome (N * option (dsess rle_zlib * hst * bytes) * os)) (P : N -> os -> bool) : bool :=
  match x with Ok ((ret, Some (s, h, ds)), o') => (negb room || (0 <? z_aout (d_zs s))) && P ret o' | _ => false end.
Lemma did_of x P : test false x P = true -> exists ret o', did x ret o' /\ P ret o' = true.
Proof.
  destruct x as [[[ret [[[s h] ds]|]] o']| |]; try discriminate. unfold test. intro H. apply andb_prop in H. destruct H as [H1 H2].
  exists ret, o'. split; [|exact H2]. exists s, h, ds. reflexivity.
Qed.
Lemma did_all_of x P : test true x P = true -> exists ret o', did_all x ret o' /\ P ret o' = true.
Proof.
  destruct x as [[[ret [[[s h] ds]|]] o']| |]; try discriminate. unfold test. intro H. apply andb_prop in H. destruct H as [H1 H2].
  cbn [negb orb] in H1. apply N.ltb_lt in H1. exists ret, o'. split; [|exact H2]. exists s, h, ds. split; [reflexivity|exact H1].
Qed.

(** d with a file abc, an empty directory e, the entry ".", a file b. *)
Definition hx_tree : list (bytes * snode) :=
  [([x2e], SDir 493 []); ([x64], SDir 493 [([x61;x62;x63], SFile true true 420 3 [x31;x32;x33] false); ([x65], SDir 448 [])]);
   ([x62], SFile true true 493 1 [x7a] false)].
Definition hx_arch (es : list (bytes * snode)) : bytes :=
  match compress_dir rle_zlib LE ax_all (ax_jk x11) ax_hj ax_xjk ax_hjunk ax_al 3 9 7 false [] (Some es) tt with
  | Ok (_, cevs, _, _, _) => cev_bytes cevs
  | _ => []
  end.

(** ** Archives that are not what the library writes *)
Definition rx_file (name data : bytes) (mode : N) : bytes :=
  file_item LE (lenN name) mode (lenN data) ex_j ++ padded name ++ data ++ zeros (norm_len64 (lenN data) - lenN data).
Definition rx_dir (name : bytes) (mode : N) : bytes := dir_item LE (lenN name) mode ex_j ++ padded name.
Definition rx_end : bytes := dir_end_item LE 0 0 ex_j.
Definition rx_link (name to : bytes) : bytes :=
  link_item LE (lenN name) 511 (lenN to) ex_j ++ padded name ++ to ++ zeros (norm_len32 (lenN to) - lenN to).
Definition rx_arch (c : bytes) : bytes := ex_arch ContentDirectory c.

Definition hx_farch (d : bytes) : bytes :=
  match compress_file rle_zlib LE ax_hjunk ax_al 3 9 7 d false with Ok (_, cevs, _) => cev_bytes cevs | _ => [] end.
Definition hx_xarch (nested : bool) (xs : list xbuf) (es : list (bytes * snode)) : bytes :=
  match compress_dir rle_zlib LE ax_all (ax_jk x11) ax_hj ax_xjk ax_hjunk ax_al 3 9 7 nested xs (Some es) tt with
  | Ok (_, cevs, _, _, _) => cev_bytes cevs
  | _ => []
  end.

Lemma hx_arch_ok es : tree_fits (Some es) ->
  match compress_dir rle_zlib LE ax_all (ax_jk x11) ax_hj ax_xjk ax_hjunk ax_al 3 9 7 false [] (Some es) tt with
  | Ok (CRet r, cevs, _, _, _) => (r =? 0)%Z && forallb (fun c => lenN (ce_data c) <? ce_room c) cevs
  | _ => false
  end = true -> archives_dir rle_zlib es (hx_arch es).
Proof.
  intros Ft H. unfold hx_arch.
  destruct (compress_dir rle_zlib LE ax_all (ax_jk x11) ax_hj ax_xjk ax_hjunk ax_al 3 9 7 false [] (Some es) tt)
    as [[[[[[r|] cevs] ws] wx] led]| |] eqn:E; try discriminate H.
  apply andb_prop in H. destruct H as [H1 H2]. apply Z.eqb_eq in H1. subst r.
  exists unit, ax_all, LE, (ax_jk x11), ax_hj, ax_xjk, ax_hjunk, ax_al, 3%nat, 9%Z, 7, tt, cevs, ws, wx, led.
  split; [apply ax_junk|]. split; [exact Ft|]. split; [exact ax_accepts|]. split; [exact E|].
  split; [repeat split; discriminate|]. split; [now apply ax_not_full|reflexivity].
Qed.

Lemma hx_farch_ok d :
  match compress_file rle_zlib LE ax_hjunk ax_al 3 9 7 d false with
  | Ok (r, cevs, _) => (r =? 0)%Z && forallb (fun c => lenN (ce_data c) <? ce_room c) cevs
  | _ => false
  end = true -> archives_file rle_zlib d (hx_farch d).
Proof.
  intro H. unfold hx_farch. destruct (compress_file rle_zlib LE ax_hjunk ax_al 3 9 7 d false) as [[[r cevs] led]| |] eqn:E; try discriminate H.
  apply andb_prop in H. destruct H as [H1 H2]. apply Z.eqb_eq in H1. subst r.
  exists LE, ax_hjunk, ax_al, 3%nat, 9%Z, 7, cevs, led. split; [reflexivity|]. split; [exact E|]. split; [now apply ax_not_full|reflexivity].
Qed.
Lemma hx_xarch_ok xs es : tree_fits (Some es) -> Forall xb_ok xs ->
  match compress_dir rle_zlib LE ax_all (ax_jk x11) ax_hj ax_xjk ax_hjunk ax_al 3 9 7 false xs (Some es) tt with
  | Ok (CRet r, cevs, _, _, _) => (r =? 0)%Z && forallb (fun c => lenN (ce_data c) <? ce_room c) cevs
  | _ => false
  end = true -> archives_with rle_zlib xs es (hx_xarch false xs es).
Proof.
  intros Ft Hx H. unfold hx_xarch.
  destruct (compress_dir rle_zlib LE ax_all (ax_jk x11) ax_hj ax_xjk ax_hjunk ax_al 3 9 7 false xs (Some es) tt)
    as [[[[[[r|] cevs] ws] wx] led]| |] eqn:E; try discriminate H.
  apply andb_prop in H. destruct H as [H1 H2]. apply Z.eqb_eq in H1. subst r.
  exists unit, ax_all, LE, (ax_jk x11), ax_hj, ax_xjk, ax_hjunk, ax_al, 3%nat, 9%Z, 7, tt, cevs, ws, wx, led.
  split; [apply ax_junk|]. split; [exact Ft|]. split; [exact ax_accepts|]. split; [exact Hx|]. split; [exact E|].
  split; [repeat split; discriminate|]. split; [now apply ax_not_full|reflexivity].
Qed.

(** ** Hypotheses met by the examples *)
Lemma hx_spot n : free_spot (hx_os n) [x6f] [[x77]; [x6f]].
Proof.
  split; [intros [H|[]]; discriminate|]. exists [[x77]], [x6f]. split; [reflexivity|]. split; vm_compute; reflexivity.
Qed.
Lemma hx_empty n r : o_fs (hx_os n) ([[x77]; [x6f]] ++ r) = None.
Proof. reflexivity. Qed.
Lemma hx_base : usable_dir false 18 MODE_BASE_DIR.
Proof. split; vm_compute; reflexivity. Qed.

Ltac plain_case := split; [discriminate|]; split; [cbn; intuition discriminate|]; split; [cbn; intuition discriminate|];
  split; [discriminate|]; split; [discriminate|vm_compute; discriminate].
Ltac nodup_case := repeat (apply NoDup_cons; [cbn; intuition discriminate|]); apply NoDup_nil.
Lemma hx_fits : tree_fits (Some hx_tree).
Proof. unfold tree_fits, listing, hx_tree. fits_case. Qed.
Lemma hx_quiet : Forall (fun x => quiet (snd x)) hx_tree.
Proof.
  unfold hx_tree. repeat apply Forall_cons; cbn [snd]; [apply q_dir, Forall_nil| | |apply Forall_nil].
  - apply q_dir. repeat apply Forall_cons; [|apply q_dir, Forall_nil|apply Forall_nil]. apply (q_file 420 [x31;x32;x33]).
  - apply (q_file 493 [x7a]).
Qed.
Lemma hx_nodup : NoDup (map fst hx_tree).
Proof. unfold hx_tree. cbn [map fst]. nodup_case. Qed.
Lemma hx_extractable priv : Forall (fun x => extractable priv 18 1 (fst x) (snd x)) hx_tree.
Proof.
  unfold hx_tree. repeat apply Forall_cons; cbn [fst snd]; [apply xt_dot; left; reflexivity| | |apply Forall_nil].
  - apply xt_dir; [plain_case|reflexivity|destruct priv; split; reflexivity|cbn [map fst]; nodup_case|].
    repeat apply Forall_cons; cbn [fst snd]; [| |apply Forall_nil].
    + apply xt_file; [plain_case|reflexivity].
    + apply xt_dir; [plain_case|reflexivity|destruct priv; split; reflexivity|apply NoDup_nil|apply Forall_nil].
  - apply xt_file; [plain_case|reflexivity].
Qed.
Lemma hx_archived : archives_dir rle_zlib hx_tree (hx_arch hx_tree).
Proof. apply hx_arch_ok; [exact hx_fits|vm_compute; reflexivity]. Qed.

(** ** C39, C40 *)
Lemma ex_c39_empty : exists ret o', archives_dir rle_zlib [] (hx_arch []) /\ free_spot (hx_os 1000) [x6f] [[x77]; [x6f]] /\
  did (hx_extract [x6f] 0 (hx_arch []) (hx_os 1000)) ret o' /\ ret = ContentNone /\ o_fs o' [[x77]; [x6f]] = None.
Proof.
  destruct (did_of (hx_extract [x6f] 0 (hx_arch []) (hx_os 1000)) (fun ret o' => (ret =? ContentNone) && at_eqb o' [[x77]; [x6f]] None))
    as (ret & o' & D & H); [vm_compute; reflexivity|].
  apply andb_prop in H. destruct H as [H1 H2]. exists ret, o'.
  split; [apply hx_arch_ok; [unfold tree_fits, listing; fits_case|vm_compute; reflexivity]|].
  split; [apply hx_spot|]. split; [exact D|]. split; [now apply N.eqb_eq|now apply at_eqb_ok].
Qed.
Lemma ex_c39 : exists ret o', archives_dir rle_zlib hx_tree (hx_arch hx_tree) /\
  calm rle_zlib hx_hal ax_al hx_stk (zeros DEF_CHUNK_SIZE) ax_hjunk ex_pj /\
  (length (hx_arch hx_tree) < 4000)%nat /\ preorder hx_tree <> [] /\ Forall (fun x => quiet (snd x)) hx_tree /\ NoDup (map fst hx_tree) /\
  Forall (fun x => extractable false 18 1 (fst x) (snd x)) hx_tree /\ free_spot (hx_os 1000) [x6f] [[x77]; [x6f]] /\
  usable_dir false 18 MODE_BASE_DIR /\ (forall r, o_fs (hx_os 1000) ([[x77]; [x6f]] ++ r) = None) /\ volume (preorder hx_tree) = 4 /\
  did_all (hx_extract [x6f] 0 (hx_arch hx_tree) (hx_os 1000)) ret o' /\
  o_fs o' [[x77]; [x6f]; [x64]; [x61;x62;x63]] = Some (IFile 420 [x31;x32;x33]) /\ o_fs o' [[x77]; [x6f]; [x64]; [x65]] = Some (IDir 448).
Proof.
  destruct (did_all_of (hx_extract [x6f] 0 (hx_arch hx_tree) (hx_os 1000)) (fun ret o' =>
    at_eqb o' [[x77]; [x6f]; [x64]; [x61;x62;x63]] (Some (IFile 420 [x31;x32;x33])) && at_eqb o' [[x77]; [x6f]; [x64]; [x65]] (Some (IDir 448))))
    as (ret & o' & D & H); [vm_compute; reflexivity|].
  apply andb_prop in H. destruct H as [H1 H2]. exists ret, o'.
  split; [exact hx_archived|]. split; [exact hx_calm|]. split; [apply Nat.ltb_lt; vm_compute; reflexivity|]. split; [discriminate|].
  split; [exact hx_quiet|]. split; [exact hx_nodup|]. split; [apply hx_extractable|]. split; [apply hx_spot|]. split; [exact hx_base|].
  split; [apply hx_empty|]. split; [reflexivity|]. split; [exact D|]. split; now apply at_eqb_ok.
Qed.
Lemma ex_c40_empty : exists ret o', archives_file rle_zlib [] (hx_farch []) /\ writable_spot (hx_os 1000) [x6f] [[x77]; [x6f]] 420 /\
  did (hx_extract [x6f] 0 (hx_farch []) (hx_os 1000)) ret o' /\ ret = ContentNone /\ o_fs o' [[x77]; [x6f]] = None.
Proof.
  destruct (did_of (hx_extract [x6f] 0 (hx_farch []) (hx_os 1000)) (fun ret o' => (ret =? ContentNone) && at_eqb o' [[x77]; [x6f]] None))
    as (ret & o' & D & H); [vm_compute; reflexivity|].
  apply andb_prop in H. destruct H as [H1 H2]. exists ret, o'. split; [apply hx_farch_ok; vm_compute; reflexivity|].
  split; [split; [reflexivity|]; exists [[x77]], [x6f]; split; [reflexivity|]; left; split; [vm_compute; reflexivity|split; vm_compute; reflexivity]|].
  split; [exact D|]. split; [now apply N.eqb_eq|now apply at_eqb_ok].
Qed.
(** The existing file /f with contents "old" becomes "ab". *)
Lemma ex_c40 : exists ret o', archives_file rle_zlib [x61;x62] (hx_farch [x61;x62]) /\ writable_spot (hx_os 1000) [x2f;x66] [[x66]] 420 /\
  did_all (hx_extract [x2f;x66] 0 (hx_farch [x61;x62]) (hx_os 1000)) ret o' /\ ret = ContentFile /\ o_fs (hx_os 1000) [[x66]] = Some (IFile 420 [x6f;x6c;x64]) /\
  o_fs o' [[x66]] = Some (IFile 420 [x61;x62]).
Proof.
  destruct (did_all_of (hx_extract [x2f;x66] 0 (hx_farch [x61;x62]) (hx_os 1000)) (fun ret o' => (ret =? ContentFile) && at_eqb o' [[x66]] (Some (IFile 420 [x61;x62]))))
    as (ret & o' & D & H); [vm_compute; reflexivity|].
  apply andb_prop in H. destruct H as [H1 H2]. exists ret, o'. split; [apply hx_farch_ok; vm_compute; reflexivity|].
  split; [split; [reflexivity|]; exists [], [x66]; split; [reflexivity|]; right; exists [x6f;x6c;x64]; split; vm_compute; reflexivity|].
  split; [exact D|]. split; [now apply N.eqb_eq|]. split; [reflexivity|now apply at_eqb_ok].
Qed.

(** ** C41, C45, C53 *)
(** A file entry named "../x". *)
Lemma ex_c41_up : exists ret o', did (hx_extract [x6f] 0 (rx_arch (rx_file [x2e;x2e;x2f;x78] [x31] 420)) (hx_os 1000)) ret o' /\
  free_spot (hx_os 1000) [x6f] [[x77]; [x6f]] /\ o_fs (hx_os 1000) [[x77]; [x78]] = None /\ o_fs o' [[x77]; [x78]] = Some (IFile 420 [x31]).
Proof.
  destruct (did_of (hx_extract [x6f] 0 (rx_arch (rx_file [x2e;x2e;x2f;x78] [x31] 420)) (hx_os 1000))
    (fun ret o' => at_eqb o' [[x77]; [x78]] (Some (IFile 420 [x31])))) as (ret & o' & D & H); [vm_compute; reflexivity|].
  exists ret, o'. split; [exact D|]. split; [apply hx_spot|]. split; [reflexivity|now apply at_eqb_ok].
Qed.
(** The first 100 bytes of an archive. *)
Lemma ex_c41 : archives_dir rle_zlib hx_tree (hx_arch hx_tree) /\
  prefix (first_bytes 100 (hx_arch hx_tree)) (hx_arch hx_tree) /\ lenN (hx_arch hx_tree) = 168 /\
  supported rle_zlib rle_contract (first_bytes 100 (hx_arch hx_tree)) /\
  lists_tame (z := rle_zlib) LE ex_alloc 1 hx_stk (first_bytes 100 (hx_arch hx_tree)) /\
  slash_end [x6f] = false /\ free_spot (hx_os 1000) [x6f] [[x77]; [x6f]].
Proof.
  assert (P : prefix (first_bytes 100 (hx_arch hx_tree)) (hx_arch hx_tree)).
  { exists (dropN 100 (hx_arch hx_tree)). symmetry. apply takeN_dropN. }
  destruct (own_tame rle_zlib rle_contract LE ex_alloc _ _ _ _ _ _ hx_calm 1 hx_tree (hx_arch hx_tree) 100 (hx_arch hx_tree) ltac:(reflexivity)
    hx_archived P false 18 hx_quiet (hx_extractable false)) as [S L].
  split; [exact hx_archived|]. split; [exact P|]. split; [vm_compute; reflexivity|]. split; [exact S|]. split; [exact L|].
  split; [reflexivity|apply hx_spot].
Qed.
Lemma ex_c45 : archives_dir rle_zlib hx_tree (hx_arch hx_tree) /\
  supported rle_zlib rle_contract (first_bytes 100 (hx_arch hx_tree)) /\
  lists_tame (z := rle_zlib) LE ex_alloc 1 hx_stk (first_bytes 100 (hx_arch hx_tree)) /\ free_spot (hx_os 1000) [x6f] [[x77]; [x6f]].
Proof. destruct ex_c41 as (A & _ & _ & B & D & _ & E). auto. Qed.
(** The end of the archive is missing: the file stays open. *)
Lemma ex_c45_open : exists ret o', did (hx_extract [x6f] 0 (takeN 354 (rx_arch (rx_file [x78] [x31;x32;x33] 420))) (hx_os 1000)) ret o' /\
  o_fds (hx_os 1000) = [] /\ o_fds o' <> [].
Proof.
  destruct (did_of (hx_extract [x6f] 0 (takeN 354 (rx_arch (rx_file [x78] [x31;x32;x33] 420))) (hx_os 1000))
    (fun ret o' => match o_fds o' with [] => false | _ => true end)) as (ret & o' & D & H); [vm_compute; reflexivity|].
  exists ret, o'. split; [exact D|]. split; [reflexivity|]. intro Q. rewrite Q in H. discriminate.
Qed.
(** The name length 4294967295 is rounded up to 0. *)
Lemma ex_c53_ub : hx_extract [x6f] 0 (rx_arch (file_item LE 4294967295 420 0 ex_j ++ padded [x78])) (hx_os 1000) = UB.
Proof. vm_compute. reflexivity. Qed.

(** ** C42 *)
Lemma ex_c42_root : exists ret o', did (hx_extract [x2f;x77] 0 (rx_arch (rx_file [x78] [x31] 420)) (hx_os 1000)) ret o' /\
  exists_at (hx_os 1000) [x2f;x77] /\ o_fs (hx_os 1000) [[x78]] = None /\ o_fs o' [[x78]] = Some (IFile 420 [x31]).
Proof.
  destruct (did_of (hx_extract [x2f;x77] 0 (rx_arch (rx_file [x78] [x31] 420)) (hx_os 1000))
    (fun ret o' => at_eqb o' [[x78]] (Some (IFile 420 [x31])))) as (ret & o' & D & H); [vm_compute; reflexivity|].
  exists ret, o'. split; [exact D|]. split; [split; [intros [Q|[Q|[]]]; discriminate|discriminate]|]. split; [reflexivity|now apply at_eqb_ok].
Qed.
Lemma ex_c42 : exists ret o', did (hx_extract [x2f;x77] 0 (hx_arch [([x62], SFile true true 493 1 [x7a] false)]) (hx_os 1000)) ret o' /\ exists_at (hx_os 1000) [x2f;x77] /\
  archive_of ContentDirectory (zc_dec rle_contract (first_bytes 0 (hx_arch [([x62], SFile true true 493 1 [x7a] false)]))).
Proof.
  destruct (did_of (hx_extract [x2f;x77] 0 (hx_arch [([x62], SFile true true 493 1 [x7a] false)]) (hx_os 1000)) (fun ret o' => true)) as (ret & o' & D & H); [vm_compute; reflexivity|].
  exists ret, o'. split; [exact D|]. split; [split; [intros [Q|[Q|[]]]; discriminate|discriminate]|].
  vm_compute. repeat split. discriminate.
Qed.

(** ** C43, C44 *)
(** The last 28 bytes are missing. *)
Lemma ex_c43_cut : exists ret o', lenN (rx_arch (rx_file [x78] [x31;x32;x33] 420)) = 368 /\
  did (hx_extract [x6f] 0 (takeN 340 (rx_arch (rx_file [x78] [x31;x32;x33] 420))) (hx_os 1000)) ret o' /\
  ret = ContentDirectory /\ o_fs o' [[x77]; [x6f]; [x78]] = None.
Proof.
  destruct (did_of (hx_extract [x6f] 0 (takeN 340 (rx_arch (rx_file [x78] [x31;x32;x33] 420))) (hx_os 1000))
    (fun ret o' => (ret =? ContentDirectory) && at_eqb o' [[x77]; [x6f]; [x78]] None)) as (ret & o' & D & H); [vm_compute; reflexivity|].
  apply andb_prop in H. destruct H as [H1 H2]. exists ret, o'. split; [vm_compute; reflexivity|]. split; [exact D|].
  split; [now apply N.eqb_eq|now apply at_eqb_ok].
Qed.
Lemma ex_c43 : exists ret o', did (hx_extract [x6f] 0 (hx_arch hx_tree) (hx_os 1000)) ret o' /\ ret = ContentDirectory /\
  supported rle_zlib rle_contract (first_bytes 0 (hx_arch hx_tree)).
Proof.
  destruct (did_of (hx_extract [x6f] 0 (hx_arch hx_tree) (hx_os 1000)) (fun ret o' => ret =? ContentDirectory)) as (ret & o' & D & H); [vm_compute; reflexivity|].
  exists ret, o'. split; [exact D|]. split; [now apply N.eqb_eq|]. right. vm_compute. reflexivity.
Qed.
(** The archive is followed by other bytes. *)
Lemma ex_c44 : exists s h ds o',
  hx_extract [x6f] 168 (hx_arch hx_tree ++ [x41;x42]) (hx_os 1000) = Ok ((ContentDirectory, Some (s, h, ds)), o') /\
  h_err h = false /\ first_bytes 168 (hx_arch hx_tree ++ [x41;x42]) = hx_arch hx_tree.
Proof.
  assert (G : forall x : outcome (N * option (dsess rle_zlib * hst * bytes) * os),
    match x with Ok ((ret, Some (s, h, ds)), o') => (ret =? ContentDirectory) && negb (h_err h) | _ => false end = true ->
    exists s h ds o', x = Ok ((ContentDirectory, Some (s, h, ds)), o') /\ h_err h = false).
  { intros [[[ret [[[s h] ds]|]] o']| |]; try discriminate. intro H. apply andb_prop in H. destruct H as [H1 H2]. apply N.eqb_eq in H1. subst ret.
    exists s, h, ds, o'. split; [reflexivity|]. now destruct (h_err h). }
  destruct (G (hx_extract [x6f] 168 (hx_arch hx_tree ++ [x41;x42]) (hx_os 1000))) as (s & h & ds & o' & E & H); [vm_compute; reflexivity|].
  exists s, h, ds, o'. split; [exact E|]. split; [exact H|]. vm_compute. reflexivity.
Qed.

(** ** C46, C47 *)
(** o, o/a and o/a/b are created; /w is a directory, /f a file. *)
Lemma ex_c46 : free_spot (hx_os 1000) [x6f] [[x77]; [x6f]] /\ (forall r, o_fs (hx_os 1000) ([[x77]; [x6f]] ++ r) = None) /\
  usable_dir false 18 493 /\ Forall plain [[x61]; [x62]] /\ joined [x6f] [[x61]; [x62]] = [x6f;x2f;x61;x2f;x62] /\
  dir_at (hx_os 1000) [x2f;x77] [[x77]] /\ namei false (hx_os 1000) [x2f;x66] = WAt [] [x66] (Some (IFile 420 [x6f;x6c;x64])).
Proof.
  split; [apply hx_spot|]. split; [apply hx_empty|]. split; [split; reflexivity|].
  split; [repeat apply Forall_cons; try apply Forall_nil; plain_case|]. split; [reflexivity|].
  split; [|vm_compute; reflexivity].
  split; [discriminate|]. split; [exists 493; split; reflexivity|]. right. exists [], [x77], 493. split; [reflexivity|]. vm_compute. reflexivity.
Qed.
Definition deep (n : nat) : list bytes := repeat [x61] n.
Lemma some_of {A} (x : option A) : match x with Some _ => true | None => false end = true -> exists y, x = Some y.
Proof. destruct x; [eauto|discriminate]. Qed.
Lemma minus_of (x : outcome (Z * os)) : match x with Ok (r, _) => (r =? -1)%Z | _ => false end = true -> exists o', x = Ok ((-1)%Z, o').
Proof. destruct x as [[r o']| |]; try discriminate. intro H. apply Z.eqb_eq in H. subst. eauto. Qed.
(** 62 directories below "o". *)
Lemma ex_c47_deep : Forall plain (deep 62) /\ (exists o', mkdir_all (stairs [x6f] (deep 62)) 493 (hx_os 1000) = Some o') /\
  exists o', exec (mkdir_recurse true (joined [x6f] (deep 62)) 493) (hx_os 1000) = Ok ((-1)%Z, o').
Proof.
  split; [apply Forall_forall; intros x Hx; apply repeat_spec in Hx; subst x; plain_case|].
  split; [apply some_of; vm_compute; reflexivity|apply minus_of; vm_compute; reflexivity].
Qed.
(** "n/m/" *)
Lemma ex_c47_slash : (exists o', mkdir_all [[x6e]; [x6e;x2f;x6d;x2f]] 493 (hx_os 1000) = Some o') /\
  exists o', exec (mkdir_recurse true [x6e;x2f;x6d;x2f] 493) (hx_os 1000) = Ok ((-1)%Z, o').
Proof. split; [apply some_of; vm_compute; reflexivity|apply minus_of; vm_compute; reflexivity]. Qed.
Lemma ex_c47 : Forall plain (deep 20) /\ exists o', mkdir_all (stairs [x6f] (deep 20)) 493 (hx_os 1000) = Some o'.
Proof.
  split; [apply Forall_forall; intros x Hx; apply repeat_spec in Hx; subst x; plain_case|].
  apply some_of; vm_compute; reflexivity.
Qed.

(** ** C48 *)
(** The process is in /p/c and must not enter /p. *)
Definition hx_locked : os := OS (fun p => if path_eqb p [[x70]] then Some (IDir 384) else if path_eqb p [[x70];[x63]] then Some (IDir 493) else hx_fs p)
  1000 [[x70];[x63]] 18 false [] 3.
Lemma ex_c48_moved : exists ret o', did (hx_extract [x2f;x77;x2f;x6f] 0 (rx_arch (rx_link [x6c] [x78])) hx_locked) ret o' /\
  o_cwd hx_locked = [[x70];[x63]] /\ o_cwd o' = [[x77];[x6f]].
Proof.
  destruct (did_of (hx_extract [x2f;x77;x2f;x6f] 0 (rx_arch (rx_link [x6c] [x78])) hx_locked)
    (fun ret o' => path_eqb (o_cwd o') [[x77];[x6f]])) as (ret & o' & D & H); [vm_compute; reflexivity|].
  exists ret, o'. split; [exact D|]. split; [reflexivity|]. now apply path_eqb_spec.
Qed.
Lemma hx_reachable n : reachable (hx_os n).
Proof.
  split; [apply Forall_cons; [plain_case|apply Forall_nil]|]. cbn [o_cwd hx_os].
  intros p q E. destruct p as [|a [|b p]]; [exists 493; split; reflexivity| |].
  - injection E as <- _. exists 493. split; reflexivity.
  - destruct p; discriminate E.
Qed.
Lemma ex_c48 : exists ret o', did (hx_extract [x6f] 0 (rx_arch (rx_link [x6c] [x78])) (hx_os 1000)) ret o' /\ reachable (hx_os 1000) /\
  o_fs o' [[x77]; [x6f]; [x6c]] = Some (ILink [x78]).
Proof.
  destruct (did_of (hx_extract [x6f] 0 (rx_arch (rx_link [x6c] [x78])) (hx_os 1000))
    (fun ret o' => at_eqb o' [[x77]; [x6f]; [x6c]] (Some (ILink [x78])))) as (ret & o' & D & H); [vm_compute; reflexivity|].
  exists ret, o'. split; [exact D|]. split; [apply hx_reachable|now apply at_eqb_ok].
Qed.

(** ** C51, C52 *)
(** Two bytes are free: abc is cut short, the call succeeds. *)
Lemma ex_c51_full : exists ret o', archives_dir rle_zlib hx_tree (hx_arch hx_tree) /\
  did_all (hx_extract [x6f] 0 (hx_arch hx_tree) (hx_os 2)) ret o' /\
  ret = ContentDirectory /\ o_fs o' [[x77]; [x6f]; [x64]; [x61;x62;x63]] = Some (IFile 420 [x31;x32]).
Proof.
  destruct (did_all_of (hx_extract [x6f] 0 (hx_arch hx_tree) (hx_os 2))
    (fun ret o' => (ret =? ContentDirectory) && at_eqb o' [[x77]; [x6f]; [x64]; [x61;x62;x63]] (Some (IFile 420 [x31;x32]))))
    as (ret & o' & D & H); [vm_compute; reflexivity|].
  apply andb_prop in H. destruct H as [H1 H2]. exists ret, o'. split; [exact hx_archived|]. split; [exact D|].
  split; [now apply N.eqb_eq|now apply at_eqb_ok].
Qed.
(** The target is below the file /f. *)
Lemma ex_c51 : exists ret o', exec (mkdir_recurse true [x2f;x66;x2f;x6f] MODE_BASE_DIR) (hx_os 1000) = Ok ((-1)%Z, hx_os 1000) /\
  archive_of ContentDirectory (zc_dec rle_contract (first_bytes 0 (hx_arch [([x62], SFile true true 493 1 [x7a] false)]))) /\
  did (hx_extract [x2f;x66;x2f;x6f] 0 (hx_arch [([x62], SFile true true 493 1 [x7a] false)]) (hx_os 1000)) ret o'.
Proof.
  destruct (did_of (hx_extract [x2f;x66;x2f;x6f] 0 (hx_arch [([x62], SFile true true 493 1 [x7a] false)]) (hx_os 1000)) (fun ret o' => true))
    as (ret & o' & D & H); [vm_compute; reflexivity|].
  exists ret, o'. split; [vm_compute; reflexivity|]. split; [vm_compute; repeat split; discriminate|exact D].
Qed.
(** A directory d with mode 0555 holding a file abc. *)
Definition hx_ro : list (bytes * snode) := [([x64], SDir 365 [([x61;x62;x63], SFile true true 420 3 [x31;x32;x33] false)])].
Lemma hx_ro_archived : archives_dir rle_zlib hx_ro (hx_arch hx_ro).
Proof. apply hx_arch_ok; [unfold tree_fits, listing, hx_ro; fits_case|vm_compute; reflexivity]. Qed.
Lemma ex_c52_lost : exists ret o', archives_dir rle_zlib hx_ro (hx_arch hx_ro) /\
  did_all (hx_extract [x6f] 0 (hx_arch hx_ro) (hx_os 1000)) ret o' /\ o_priv (hx_os 1000) = false /\
  ret = ContentDirectory /\ o_fs o' [[x77]; [x6f]; [x64]; [x61;x62;x63]] = None.
Proof.
  destruct (did_all_of (hx_extract [x6f] 0 (hx_arch hx_ro) (hx_os 1000))
    (fun ret o' => (ret =? ContentDirectory) && at_eqb o' [[x77]; [x6f]; [x64]; [x61;x62;x63]] None))
    as (ret & o' & D & H); [vm_compute; reflexivity|].
  apply andb_prop in H. destruct H as [H1 H2]. exists ret, o'. split; [exact hx_ro_archived|]. split; [exact D|]. split; [reflexivity|].
  split; [now apply N.eqb_eq|now apply at_eqb_ok].
Qed.
Definition hx_root : os := OS hx_fs 1000 [[x77]] 18 true [] 3.
Lemma ex_c52 : exists ret o', archives_dir rle_zlib hx_ro (hx_arch hx_ro) /\ o_priv hx_root = true /\ free_spot hx_root [x6f] [[x77]; [x6f]] /\
  Forall (fun x => nameable 1 (fst x) (snd x)) hx_ro /\
  did_all (hx_extract [x6f] 0 (hx_arch hx_ro) hx_root) ret o' /\
  o_fs o' [[x77]; [x6f]; [x64]; [x61;x62;x63]] = Some (IFile 420 [x31;x32;x33]).
Proof.
  destruct (did_all_of (hx_extract [x6f] 0 (hx_arch hx_ro) hx_root)
    (fun ret o' => at_eqb o' [[x77]; [x6f]; [x64]; [x61;x62;x63]] (Some (IFile 420 [x31;x32;x33]))))
    as (ret & o' & D & H); [vm_compute; reflexivity|].
  exists ret, o'. split; [exact hx_ro_archived|]. split; [reflexivity|].
  split; [split; [intros [Q|[]]; discriminate|]; exists [[x77]], [x6f]; split; [reflexivity|]; split; vm_compute; reflexivity|].
  split; [|split; [exact D|now apply at_eqb_ok]].
  apply Forall_cons; [|apply Forall_nil]. cbn [fst snd].
  apply nm_dir; [plain_case|reflexivity|cbn [map fst]; nodup_case|].
  apply Forall_cons; [|apply Forall_nil]. cbn [fst snd]. apply nm_file; [plain_case|reflexivity].
Qed.

(** ** C54, C55 *)
(** An extra buffer "b" with the contents "123", then a file "b" with the contents [data]. *)
Definition hx_twice (data : bytes) : list (bytes * snode) := [([x62], SFile true true 420 (lenN data) data false)].
Definition hx_first : list xbuf := [XB [x62] [x31;x32;x33] 420].
Lemma hx_first_ok : Forall xb_ok hx_first.
Proof. apply Forall_cons; [repeat split; reflexivity|apply Forall_nil]. Qed.
Lemma ex_c54_rest : exists ret o', archives_with rle_zlib hx_first (hx_twice [x39]) (hx_xarch false hx_first (hx_twice [x39])) /\
  did_all (hx_extract [x6f] 0 (hx_xarch false hx_first (hx_twice [x39])) (hx_os 1000)) ret o' /\
  o_fs o' [[x77]; [x6f]; [x62]] = Some (IFile 420 [x39;x32;x33]).
Proof.
  destruct (did_all_of (hx_extract [x6f] 0 (hx_xarch false hx_first (hx_twice [x39])) (hx_os 1000))
    (fun ret o' => at_eqb o' [[x77]; [x6f]; [x62]] (Some (IFile 420 [x39;x32;x33])))) as (ret & o' & D & H); [vm_compute; reflexivity|].
  exists ret, o'. split; [|split; [exact D|now apply at_eqb_ok]].
  apply hx_xarch_ok; [unfold tree_fits, listing, hx_twice; fits_case|exact hx_first_ok|vm_compute; reflexivity].
Qed.
Lemma ex_c54 : exists ret o', archives_with rle_zlib hx_first (hx_twice [x39;x38;x37;x36]) (hx_xarch false hx_first (hx_twice [x39;x38;x37;x36])) /\
  Forall (fun x => plain (xb_path x)) hx_first /\
  tree_at 18 [[x62]] (as_files hx_first) = Some (IFile 420 [x31;x32;x33]) /\ can_w false 420 = true /\
  Forall (fun x => extractable false 18 1 (fst x) (snd x)) (as_files hx_first) /\
  did_all (hx_extract [x6f] 0 (hx_xarch false hx_first (hx_twice [x39;x38;x37;x36])) (hx_os 1000)) ret o' /\
  o_fs o' [[x77]; [x6f]; [x62]] = Some (IFile 420 [x39;x38;x37;x36]).
Proof.
  destruct (did_all_of (hx_extract [x6f] 0 (hx_xarch false hx_first (hx_twice [x39;x38;x37;x36])) (hx_os 1000))
    (fun ret o' => at_eqb o' [[x77]; [x6f]; [x62]] (Some (IFile 420 [x39;x38;x37;x36])))) as (ret & o' & D & H); [vm_compute; reflexivity|].
  exists ret, o'. split; [apply hx_xarch_ok; [unfold tree_fits, listing, hx_twice; fits_case|exact hx_first_ok|vm_compute; reflexivity]|].
  split; [apply Forall_cons; [cbn [xb_path]; plain_case|apply Forall_nil]|]. split; [reflexivity|]. split; [reflexivity|].
  split; [apply Forall_cons; [cbn [fst snd xb_path]; apply xt_file; [plain_case|reflexivity]|apply Forall_nil]|].
  split; [exact D|now apply at_eqb_ok].
Qed.
(** Extra buffers d/a and d/b: the directory gets the mode 0. *)
Definition hx_nest : list xbuf := [XB [x64;x2f;x61] [x31] 420; XB [x64;x2f;x62] [x32] 420].
Lemma ex_c55_lost : exists ret o', Forall xb_ok hx_nest /\
  did_all (hx_extract [x6f] 0 (hx_xarch true hx_nest []) (hx_os 1000)) ret o' /\ ret = ContentDirectory /\
  o_fs o' [[x77]; [x6f]; [x64]] = Some (IDir 0) /\
  o_fs o' [[x77]; [x6f]; [x64]; [x61]] = None /\ o_fs o' [[x77]; [x6f]; [x64]; [x62]] = None.
Proof.
  destruct (did_all_of (hx_extract [x6f] 0 (hx_xarch true hx_nest []) (hx_os 1000))
    (fun ret o' => (ret =? ContentDirectory) && (at_eqb o' [[x77]; [x6f]; [x64]] (Some (IDir 0)) &&
      (at_eqb o' [[x77]; [x6f]; [x64]; [x61]] None && at_eqb o' [[x77]; [x6f]; [x64]; [x62]] None)))) as (ret & o' & D & H); [vm_compute; reflexivity|].
  apply andb_prop in H. destruct H as [H1 H]. apply andb_prop in H. destruct H as [H2 H]. apply andb_prop in H. destruct H as [H3 H4].
  exists ret, o'. split; [repeat apply Forall_cons; [repeat split; reflexivity|repeat split; reflexivity|apply Forall_nil]|].
  split; [exact D|]. split; [now apply N.eqb_eq|]. split; [now apply at_eqb_ok|]. split; now apply at_eqb_ok.
Qed.
Definition hx_side : list xbuf := [XB [x61] [x31] 420; XB [x63] [x32] 420].
Lemma ex_c55 : exists ret o', archives_with rle_zlib hx_side hx_tree (hx_xarch false hx_side hx_tree) /\
  Forall (fun x => plain (xb_path x)) hx_side /\ NoDup (map fst (as_files hx_side ++ hx_tree)) /\
  Forall (fun x => extractable false 18 1 (fst x) (snd x)) (as_files hx_side ++ hx_tree) /\
  did_all (hx_extract [x6f] 0 (hx_xarch false hx_side hx_tree) (hx_os 1000)) ret o' /\
  o_fs o' [[x77]; [x6f]; [x63]] = Some (IFile 420 [x32]).
Proof.
  destruct (did_all_of (hx_extract [x6f] 0 (hx_xarch false hx_side hx_tree) (hx_os 1000))
    (fun ret o' => at_eqb o' [[x77]; [x6f]; [x63]] (Some (IFile 420 [x32])))) as (ret & o' & D & H); [vm_compute; reflexivity|].
  exists ret, o'. split; [apply hx_xarch_ok; [exact hx_fits|repeat apply Forall_cons; [repeat split; reflexivity|repeat split; reflexivity|apply Forall_nil]|vm_compute; reflexivity]|].
  split; [repeat apply Forall_cons; [cbn [xb_path]; plain_case|cbn [xb_path]; plain_case|apply Forall_nil]|].
  split; [cbn [map fst app as_files hx_side hx_tree xb_path]; nodup_case|].
  split; [apply Forall_app; split; [|apply hx_extractable]; repeat apply Forall_cons; try apply Forall_nil; cbn [fst snd xb_path]; (apply xt_file; [plain_case|reflexivity])|].
  split; [exact D|now apply at_eqb_ok].
Qed.
