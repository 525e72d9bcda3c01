(** RobustExamples.v: concrete failing runs. *)
From Coq Require Import Lia.
From Verif Require Import Base Format Zlib RleZlib LLCompress Compress Parser ParserProofs ParserFacts Decompress DecompressProofs
  DecompressFacts MidProofs MidFacts DecompressExamples ArchiveSpec ArchiveFacts ArchiveDecode ArchiveEntry ArchiveProps ArchiveExamples
  FS FSFacts HL HLSpec HLFacts HLDrive HLProps HLSafe MkdirFacts HLTame HLMkdir HLMore HLExamples HaltFacts RobustFacts.

(** A file archive with the contents AB; [x00;x05] is not valid. *)
Definition rb_ab : bytes := ex_arch ContentFile [x41;x42].
Definition rb_one : list dop := [DFeed Z_NO_FLUSH (rb_ab ++ [x00;x05])].
Definition rb_two : list dop := [DFeed Z_NO_FLUSH rb_ab].
Lemma rb_feed_ok d : lenN d < two32 -> dop_ok (DFeed Z_NO_FLUSH d).
Proof. intro H. split; [unfold normal_flush, Z_NO_FLUSH; lia|exact H]. Qed.
Lemma rb_one_ok : Forall dop_ok rb_one.
Proof. unfold rb_one. apply Forall_cons; [|apply Forall_nil]. apply rb_feed_ok. vm_compute. reflexivity. Qed.
Lemma rb_two_ok d : lenN d < two32 -> Forall dop_ok (rb_two ++ [DFeed Z_NO_FLUSH d]).
Proof.
  intro H. change (rb_two ++ [DFeed Z_NO_FLUSH d]) with [DFeed Z_NO_FLUSH rb_ab; DFeed Z_NO_FLUSH d].
  apply Forall_cons; [apply rb_feed_ok; vm_compute; reflexivity|]. apply Forall_cons; [now apply rb_feed_ok|apply Forall_nil].
Qed.
Lemma rb_supported c : version_of (takeN 128 (zc_dec rle_contract c)) = 0 -> supported rle_zlib rle_contract c.
Proof. intro H. right. exact H. Qed.

Lemma ex_c74_lost : exists s, started rle_zlib ex_sess /\ Forall dop_ok rb_one /\
  archive_of ContentFile (zc_dec rle_contract (dfed rb_one)) /\ zc_bad rle_contract (dfed rb_one) = true /\
  run_dops LE ex_alloc 400 ex_sess rb_one = Ok ([0%Z], s, []) /\ room_left s.
Proof.
  eexists. split; [exact ex_started|]. split; [exact rb_one_ok|]. split; [repeat split; vm_compute; congruence|]. split; [vm_compute; reflexivity|].
  split; [vm_compute; reflexivity|]. vm_compute. reflexivity.
Qed.
Lemma ex_c74 : exists s s', started rle_zlib ex_sess /\ Forall dop_ok (rb_two ++ [DFeed Z_NO_FLUSH [x01;x43]]) /\
  supported rle_zlib rle_contract (dfed rb_two) /\ 128 <= lenN (zc_dec rle_contract (dfed rb_two)) /\
  run_dops LE ex_alloc 400 ex_sess (rb_two ++ [DFeed Z_NO_FLUSH [x01;x43]]) = Ok ([0%Z; 0%Z], s, [EvFlBegin; EvFlRead [x41;x42]; EvFlRead [x43]]) /\
  room_left s /\ zc_bad rle_contract (dfed rb_two ++ [x01;x43;x00;x05]) = true /\
  run_dops LE ex_alloc 400 ex_sess (rb_two ++ [DFeed Z_NO_FLUSH [x01;x43;x00;x05]]) = Ok ([0%Z; Z_DATA_ERROR], s', [EvFlBegin; EvFlRead [x41;x42]]).
Proof.
  eexists _, _. split; [exact ex_started|]. split; [apply rb_two_ok; vm_compute; reflexivity|]. split; [apply rb_supported; vm_compute; reflexivity|].
  split; [vm_compute; congruence|]. split; [vm_compute; reflexivity|]. split; [vm_compute; reflexivity|]. split; vm_compute; reflexivity.
Qed.

Lemma ex_c75 : exists s1 s2, started rle_zlib ex_sess /\ Forall dop_ok (rb_two ++ [DFeed Z_NO_FLUSH [x01;x43;x00;x05;x01;x44]]) /\
  run_dops LE ex_alloc 400 ex_sess (rb_two ++ [DFeed Z_NO_FLUSH [x01;x43;x00;x05;x01;x44]]) =
    Ok ([0%Z; Z_DATA_ERROR], s1, [EvFlBegin; EvFlRead [x41;x42]]) /\
  run_dops LE ex_alloc 400 s1 [DFeed Z_NO_FLUSH [x01;x45]; DSetBuffer (Some (zeros 9)) 9; DFeed Z_NO_FLUSH [x01;x46]] =
    Ok ([Z_DATA_ERROR; Z_DATA_ERROR], s2, []).
Proof.
  eexists _, _. split; [exact ex_started|]. split; [apply rb_two_ok; vm_compute; reflexivity|]. split; [vm_compute; reflexivity|]. vm_compute. reflexivity.
Qed.

(** The target /f/o: /f is a file. *)
Lemma ex_c76_crash : archives_file rle_zlib [x31;x32] (hx_farch [x31;x32]) /\
  calm rle_zlib hx_hal ax_al hx_stk (zeros DEF_CHUNK_SIZE) ax_hjunk ex_pj /\
  sys_open true [x2f;x66;x2f;x6f] MODE_FOPEN (hx_os 1000) = (RErr ENOTDIR, hx_os 1000) /\
  hx_extract [x2f;x66;x2f;x6f] 0 (hx_farch [x31;x32]) (hx_os 1000) = UB.
Proof.
  split; [apply hx_farch_ok; vm_compute; reflexivity|]. split; [exact hx_calm|]. split; [vm_compute; reflexivity|]. vm_compute. reflexivity.
Qed.
Lemma ex_c76_hyps : archive_of ContentFile (zc_dec rle_contract (first_bytes 0 (hx_farch [x31;x32]))) /\
  zc_bad rle_contract (first_bytes 0 (hx_farch [x31;x32])) = false /\ zc_fin rle_contract (first_bytes 0 (hx_farch [x31;x32])) = false /\
  128 < lenN (zc_dec rle_contract (first_bytes 0 (hx_farch [x31;x32]))) /\
  sys_open true [x2f;x66;x2f;x6f] MODE_FOPEN (hx_os 1000) = (RErr ENOTDIR, hx_os 1000).
Proof.
  split; [repeat split; vm_compute; congruence|]. split; [vm_compute; reflexivity|]. split; [vm_compute; reflexivity|].
  split; vm_compute; reflexivity.
Qed.
Lemma ex_c76 : exists ret o', archive_of ContentFile (zc_dec rle_contract (first_bytes 0 (hx_farch [x31;x32]))) /\
  writable_spot (hx_os 1000) [x6f] [[x77]; [x6f]] 420 /\
  did (hx_extract [x6f] 0 (hx_farch [x31;x32]) (hx_os 1000)) ret o' /\ ret = ContentFile /\ o_fs o' [[x77]; [x6f]] = Some (IFile 420 [x31;x32]).
Proof.
  assert (T : test false (hx_extract [x6f] 0 (hx_farch [x31;x32]) (hx_os 1000))
    (fun r o' => (r =? ContentFile) && at_eqb o' [[x77]; [x6f]] (Some (IFile 420 [x31;x32]))) = true) by (vm_compute; reflexivity).
  destruct (did_of _ _ T) as (ret & o' & D & Q). apply andb_prop in Q. destruct Q as [Q1 Q2]. exists ret, o'.
  split; [repeat split; vm_compute; congruence|].
  split. { split; [reflexivity|]. exists [[x77]], [x6f]. split; [reflexivity|]. left. split; [vm_compute; reflexivity|]. split; vm_compute; reflexivity. }
  split; [exact D|]. split; [now apply N.eqb_eq|now apply at_eqb_ok].
Qed.

(** Garbage, and an archive of version 1 followed by more data. *)
Lemma ex_c77 : exists s, Forall dop_ok [DFeed Z_NO_FLUSH [x00;x05;x07]] /\
  run_dops LE ex_alloc 40 ex_sess [DFeed Z_NO_FLUSH [x00;x05;x07]] = Ok ([Z_DATA_ERROR], s, []) /\
  run_dops LE ex_alloc 40 ex_sess [DFeed Z_NO_FLUSH ex_bad; DFeed Z_NO_FLUSH [x04;x00]] = UB.
Proof.
  eexists. split; [apply Forall_cons; [apply rb_feed_ok; vm_compute; reflexivity|apply Forall_nil]|]. split; vm_compute; reflexivity.
Qed.
Lemma ex_c77_disk : exists ret o', DEF_CHUNK_SIZE <= lenN (zeros DEF_CHUNK_SIZE) /\ lenN ax_hjunk = 128 /\ lenN (p_img ex_pj) = 40 /\
  did (hx_extract [x6f] 0 [x00;x05;x07] (hx_os 1000)) ret o' /\ ret = ContentNone.
Proof.
  assert (T : test false (hx_extract [x6f] 0 [x00;x05;x07] (hx_os 1000)) (fun r o' => r =? ContentNone) = true) by (vm_compute; reflexivity).
  destruct (did_of _ _ T) as (ret & o' & D & Q). exists ret, o'. split; [rewrite lenN_zeros; lia|]. split; [reflexivity|]. split; [reflexivity|].
  split; [exact D|now apply N.eqb_eq].
Qed.

Definition dp_left (x : outcome (N * option (dsess rle_zlib * hst * bytes) * os)) : option (N * option bytes) :=
  match x with Ok ((ret, Some (s, h, ds)), o') => Some (ret, h_dp h) | _ => None end.
Lemma ex_c78 : supported rle_zlib rle_contract (first_bytes 0 (hx_arch hx_tree)) /\
  dp_left (hx_extract [x6f] 0 (hx_arch hx_tree) (hx_os 1000)) = Some (ContentDirectory, Some [x6f;x00;x64;x00;x65;x00]).
Proof.
  split; [apply rb_supported; vm_compute; reflexivity|]. vm_compute. reflexivity.
Qed.
Lemma ex_c78_file : archive_of ContentFile (zc_dec rle_contract (first_bytes 0 (hx_farch [x31;x32]))) /\
  dp_left (hx_extract [x6f] 0 (hx_farch [x31;x32]) (hx_os 1000)) = Some (ContentFile, None).
Proof. split; [repeat split; vm_compute; congruence|]. vm_compute. reflexivity. Qed.

Lemma ex_c79 : exists rets s evs s', started rle_zlib ex_sess /\ Forall dop_ok ex_fops /\ supported rle_zlib rle_contract (dfed ex_fops) /\
  zc_bad rle_contract (dfed ex_fops) = false /\ zc_fin rle_contract (dfed ex_fops) = false /\
  run_dops BE ex_alloc 40 ex_sess ex_fops = Ok (rets, s, evs) /\ destroy s = Ok s' /\ d_ubuf s' = Some [x41;x41;x41;x41;x41;x41;x41;x41;x41].
Proof.
  eexists _, _, _, _. split; [exact ex_started|]. split; [exact ex_fops_ok|]. split; [apply rb_supported; vm_compute; reflexivity|].
  split; [vm_compute; reflexivity|]. split; [vm_compute; reflexivity|]. split; [vm_compute; reflexivity|]. split; vm_compute; reflexivity.
Qed.

(** The first allocation of the callbacks fails. *)
Definition rb_hal (k : N) : bool := negb (k =? 0).
Definition rb_es : list (bytes * snode) := [([x62], SFile true true 493 1 [x7a] false)].
Definition rb_extract (T inp : bytes) (o : os) :=
  exec (extract T rb_hal hx_stk rle_zlib LE ex_alloc 0 4000 4000 ax_al (zeros DEF_CHUNK_SIZE) ax_hjunk ex_pj inp false) o.
Lemma ex_c80 : exists ret o', archives_dir rle_zlib rb_es (hx_arch rb_es) /\ free_spot (hx_os 1000) [x6f] [[x77]; [x6f]] /\
  did (rb_extract [x6f] (hx_arch rb_es) (hx_os 1000)) ret o' /\ strip [[x77]; [x6f]] [[x62]] = None /\
  o_fs (hx_os 1000) [[x62]] = None /\ o_fs o' [[x62]] = Some (IFile 493 [x7a]).
Proof.
  assert (T : test false (rb_extract [x6f] (hx_arch rb_es) (hx_os 1000)) (fun r o' => at_eqb o' [[x62]] (Some (IFile 493 [x7a]))) = true) by (vm_compute; reflexivity).
  destruct (did_of _ _ T) as (ret & o' & D & Q). exists ret, o'.
  split. { apply hx_arch_ok; [|vm_compute; reflexivity]. repeat constructor; vm_compute; congruence. }
  split; [apply hx_spot|]. split; [exact D|]. split; [reflexivity|]. split; [reflexivity|]. now apply at_eqb_ok.
Qed.
(** The second one of the session fails. *)
Definition rb_al (k : N) : bool := negb (k =? 2).
Lemma ex_c80_two : rb_al 2 = false /\ rb_al 1 = true /\
  exec (extract [x6f] hx_hal hx_stk rle_zlib LE ex_alloc 0 4000 4000 rb_al (zeros DEF_CHUNK_SIZE) ax_hjunk ex_pj (hx_arch rb_es) false) (hx_os 1000) =
    Ok ((ContentNone, None), hx_os 1000).
Proof. split; [reflexivity|]. split; [reflexivity|]. apply no_memory. right. left. reflexivity. Qed.

Lemma ex_c81 : exists cevs ws wx led, junk_ok (ax_jk x11) ax_hj ax_xjk ax_hjunk /\ created rle_zlib ax_al 9 /\
  compress_dir rle_zlib LE ax_all (ax_jk x11) ax_hj ax_xjk ax_hjunk ax_al 3 9 7 false [] None tt = Ok (CRet 0, cevs, ws, wx, led) /\
  zc_dec rle_contract (cev_bytes cevs) = header_image LE ContentDirectory ax_hjunk.
Proof.
  eexists _, _, _, _. split; [apply ax_junk|]. split; [repeat split; discriminate|]. split; [vm_compute; reflexivity|]. vm_compute. reflexivity.
Qed.

(** A file a, then a link l to x whose announced length is 0. *)
Definition rb_link : list (bytes * snode) := [([x61], SFile true true 420 1 [x31] false); ([x6c], SLink 511 0 (Some [x78]))].
Definition rb_good : list (bytes * snode) := [([x61], SFile true true 420 1 [x31] false); ([x6c], SLink 511 1 (Some [x78]))].
Lemma ex_c82_exit : exists cevs ws wx led, junk_ok (ax_jk x11) ax_hj ax_xjk ax_hjunk /\ tree_fits (Some rb_link) /\ created rle_zlib ax_al 9 /\
  compress_dir rle_zlib LE ax_all (ax_jk x11) ax_hj ax_xjk ax_hjunk ax_al 3 9 7 false [] (Some rb_link) tt = Ok (CExit, cevs, ws, wx, led).
Proof.
  eexists _, _, _, _. split; [apply ax_junk|]. split; [repeat constructor; vm_compute; congruence|]. split; [repeat split; discriminate|].
  vm_compute. reflexivity.
Qed.
Lemma ex_c82 : exists cevs ws wx led, junk_ok (ax_jk x11) ax_hj ax_xjk ax_hjunk /\ tree_fits (Some rb_good) /\
  compress_dir rle_zlib LE ax_all (ax_jk x11) ax_hj ax_xjk ax_hjunk ax_al 3 9 7 false [] (Some rb_good) tt = Ok (CRet 0, cevs, ws, wx, led) /\
  Forall (fun x => links_hold (snd x)) (listing (Some rb_good)).
Proof.
  eexists _, _, _, _. split; [apply ax_junk|]. split; [repeat constructor; vm_compute; congruence|]. split; [vm_compute; reflexivity|].
  repeat constructor. vm_compute. congruence.
Qed.

(** The allocation of the path of the first directory fails. *)
Definition rb_hal3 (k : N) : bool := negb (k =? 2).
Definition rb_es3 : list (bytes * snode) := [([x64], SDir 493 []); ([x62], SFile true true 493 1 [x7a] false)].
Definition rb_abs : bytes := [x2f;x77;x2f;x6f].
Definition rb_extract3 (o : os) :=
  exec (extract rb_abs rb_hal3 hx_stk rle_zlib LE ex_alloc 0 4000 4000 ax_al (zeros DEF_CHUNK_SIZE) ax_hjunk ex_pj (hx_arch rb_es3) false) o.
Lemma ex_c80_realloc : exists ret o', archives_dir rle_zlib rb_es3 (hx_arch rb_es3) /\ free_spot (hx_os 1000) rb_abs [[x77]; [x6f]] /\
  did (rb_extract3 (hx_os 1000)) ret o' /\ o_fs o' [[x77]; [x6f]; [x62]] = None /\ strip [[x77]; [x6f]] [[x77]; [x62]] = None /\
  o_fs (hx_os 1000) [[x77]; [x62]] = None /\ o_fs o' [[x77]; [x62]] = Some (IFile 493 [x7a]).
Proof.
  assert (T : test false (rb_extract3 (hx_os 1000)) (fun r o' => at_eqb o' [[x77]; [x6f]; [x62]] None && at_eqb o' [[x77]; [x62]] (Some (IFile 493 [x7a]))) = true) by (vm_compute; reflexivity).
  destruct (did_of _ _ T) as (ret & o' & D & Q). apply andb_true_iff in Q as (Q1 & Q2). exists ret, o'.
  split. { apply hx_arch_ok; [|vm_compute; reflexivity]. unfold tree_fits, listing, rb_es3. fits_case. }
  split. { split; [intros [H|[H|[H|[H|[]]]]]; discriminate|]. exists [[x77]], [x6f]. split; [reflexivity|]. split; vm_compute; reflexivity. }
  split; [exact D|]. split; [now apply at_eqb_ok|]. split; [reflexivity|]. split; [reflexivity|]. now apply at_eqb_ok.
Qed.
