(** DecompressExamples.v: concrete decompression runs with the run length codec. *)
From Verif Require Import Base Format Zlib RleZlib Parser ParserProofs ParserFacts Decompress DecompressProofs DecompressFacts MidProofs MidFacts.

Definition ex_alloc : N -> N -> bool := fun _ _ => true.
(** Uninitialised decoder fields with some junk. *)
Definition ex_pj : pst := PS StFileGap 5 17 (repeat x2a 40) (Item 1 2 3 4 5 x02) None FtDir true 0.
Definition ex_left : pst := set_err false (set_name None ex_pj).
Definition rle_pack (p : bytes) : bytes := flat_map (fun b => [x01; b]) p.
(** Archive of content type [typ] with the bytes [c] after the header. *)
Definition ex_arch (typ : N) (c : bytes) : bytes := rle_pack (header_image LE typ (repeat x55 128) ++ c).

(** Directory with an entry d (mode 0755), in it a file abc (mode 0644, 3 bytes), then a link l to xyz. *)
Definition ex_j : bytes := repeat x77 40.
Definition ex_name (l : bytes) : bytes := l ++ zeros (norm_len32 (lenN l) - lenN l).
Definition ex_file : bytes := file_item LE 3 420 3 ex_j ++ ex_name [x61;x62;x63] ++ [x31;x32;x33] ++ zeros 5.
Definition ex_dirs : bytes := dir_item LE 1 493 ex_j ++ ex_name [x64].
Definition ex_dire : bytes := dir_end_item LE 1 493 ex_j.
Definition ex_linkh : bytes := link_item LE 1 511 3 ex_j ++ ex_name [x6c].
Definition ex_link : bytes := ex_linkh ++ [x78;x79;x7a] ++ zeros 5.
Definition ex_tree : bytes := ex_dirs ++ ex_file ++ ex_dire ++ ex_link.

Lemma ex_leftovers : leftovers ex_left.
Proof. split; reflexivity. Qed.

Definition ex_sess : dsess rle_zlib :=
  DS (@ZS rle_zlib (RIST r0 []) [] 128 BHdr 0 0) CbHeader BHdr 128 (repeat x99 128) None (Some (zeros 16)) 16 false
     (set_name None ex_pj).
Lemma ex_started : started rle_zlib ex_sess.
Proof.
  exists (Some (zeros 16)), 16, (repeat x99 128), ex_pj. split; [reflexivity|].
  split; [exists (zeros 16); repeat split; vm_compute; congruence|]. split; reflexivity.
Qed.

Lemma usable_zeros n : 0 < n < two32 -> usable (Some (zeros n)) n.
Proof. intros [H1 H2]. exists (zeros n). rewrite lenN_zeros. repeat split; lia. Qed.

Definition ex_ll : list llop :=
  [LFeed Z_NO_FLUSH [x03]; LSetBuffer (Some (zeros 5)) 5; LFeed Z_NO_FLUSH [x61;x02]; LSetCallback 9;
   LFeed Z_NO_FLUSH [x62]].
Lemma ex_ll_ok : Forall llop_ok ex_ll.
Proof.
  unfold ex_ll. repeat constructor; try (vm_compute; congruence). apply usable_zeros. split; reflexivity.
Qed.

(** C12 *)
Lemma ex_c12 : exists s0 s, usable (Some (zeros 2)) 2 /\
  ll_create rle_zlib true 7 (Some (zeros 2)) 2 [] ex_pj = Some s0 /\ Forall llop_ok ex_ll /\
  run_llops LE ex_alloc 9 s0 ex_ll = Ok ([0%Z; 0%Z; 0%Z], s, [EvRaw 7 []; EvRaw 7 [x61;x61;x61]; EvRaw 9 [x62;x62]]).
Proof.
  eexists _, _. split; [apply usable_zeros; split; reflexivity|]. split; [reflexivity|].
  split; [exact ex_ll_ok|]. vm_compute. reflexivity.
Qed.

(** C13 *)
Lemma ex_c13 : exists z (C : zlib_contract z) e alloc fuel id buf size hjunk pjunk s0 ops rets s evs,
  usable buf size /\ ll_create z true id buf size hjunk pjunk = Some s0 /\ Forall llop_ok ops /\
  run_llops e alloc fuel s0 ops = Ok (rets, s, evs) /\ Forall (fun r => r = 0%Z) rets /\
  zc_bad C (fed ops) = false /\ raw_bytes evs <> zc_dec C (fed ops).
Proof.
  exists rle_zlib, rle_contract, LE, ex_alloc, 9%nat, 7, (Some (zeros 2)), 2, [], ex_pj.
  eexists _, [LFeed Z_NO_FLUSH [x05;x61]], _, _, _.
  split; [apply usable_zeros; split; reflexivity|]. split; [reflexivity|].
  split; [repeat constructor; vm_compute; congruence|]. split; [vm_compute; reflexivity|].
  split; [repeat constructor|]. split; [vm_compute; reflexivity|]. vm_compute. discriminate.
Qed.

(** C14 *)
Lemma ex_c14 : exists z (C : zlib_contract z) e alloc fuel id buf size hjunk pjunk s0 ops s evs,
  usable buf size /\ ll_create z true id buf size hjunk pjunk = Some s0 /\ Forall llop_ok ops /\
  zc_bad C (fed ops) = false /\ zc_fin C (fed ops) = true /\
  run_llops e alloc fuel s0 ops = Ok ([Z_STREAM_END], s, evs) /\
  lenN (zc_dec C (fed ops)) < size /\ zc_dec C (fed ops) <> [] /\ evs = [].
Proof.
  exists rle_zlib, rle_contract, LE, ex_alloc, 9%nat, 7, (Some (zeros 100)), 100, [], ex_pj.
  eexists _, [LFeed Z_NO_FLUSH [x01;x61;x00;x00]], _, _.
  split; [apply usable_zeros; split; reflexivity|]. split; [reflexivity|].
  split; [repeat constructor; vm_compute; congruence|]. split; [reflexivity|]. split; [reflexivity|].
  split; [vm_compute; reflexivity|]. split; [reflexivity|]. split; [discriminate|reflexivity].
Qed.

(** C15: a corrupt stream; [x00;x05] is not valid. *)
Lemma ex_c15 : exists s0 s1, usable (Some (zeros 9)) 9 /\
  ll_create rle_zlib true 7 (Some (zeros 9)) 9 [] ex_pj = Some s0 /\
  zc_bad rle_contract [x01;x61;x00;x05] = true /\
  run_llops LE ex_alloc 9 s0 [LFeed Z_NO_FLUSH [x01;x61]; LFeed Z_NO_FLUSH [x00;x05]] =
    Ok ([0%Z; Z_DATA_ERROR], s1, [EvRaw 7 [x61]]).
Proof.
  eexists _, _. split; [apply usable_zeros; split; reflexivity|]. split; [reflexivity|]. split; [reflexivity|].
  vm_compute. reflexivity.
Qed.

(** Sessions: the file archive fed in two pieces, cut inside the header. *)
Definition ex_fops : list dop :=
  let a := ex_arch ContentFile (repeat x41 20) in
  [DFeed Z_NO_FLUSH (takeN 101 a); DSetBuffer (Some (zeros 9)) 9; DFeed Z_NO_FLUSH (dropN 101 a)].
Definition ex_dops (n : N) : list dop :=
  let a := ex_arch ContentDirectory ex_tree in
  [DFeed Z_NO_FLUSH (takeN n a); DFeed Z_NO_FLUSH (dropN n a)].

Lemma ex_fops_ok : Forall dop_ok ex_fops.
Proof.
  unfold ex_fops. repeat constructor; try (vm_compute; congruence). apply usable_zeros. split; reflexivity.
Qed.
Lemma ex_dops_ok n : Forall dop_ok (ex_dops n).
Proof.
  unfold ex_dops. assert (L : lenN (ex_arch ContentDirectory ex_tree) < two32) by reflexivity.
  apply Forall_cons; [|apply Forall_cons; [|constructor]]; (split; [unfold normal_flush, Z_NO_FLUSH; lia|]).
  - rewrite lenN_takeN. lia.
  - rewrite lenN_dropN. lia.
Qed.

Lemma ex_c25 : exists s, started rle_zlib ex_sess /\ Forall dop_ok ex_fops /\
  archive_of ContentFile (zc_dec rle_contract (dfed ex_fops)) /\
  zc_bad rle_contract (dfed ex_fops) = false /\ zc_fin rle_contract (dfed ex_fops) = false /\ room_left s /\
  run_dops BE ex_alloc 40 ex_sess ex_fops =
   Ok ([0%Z; 0%Z], s, [EvFlBegin; EvFlRead (repeat x41 9); EvFlRead (repeat x41 9); EvFlRead [x41;x41]]).
Proof.
  eexists. split; [exact ex_started|]. split; [exact ex_fops_ok|].
  split; [split; [vm_compute; congruence|split; reflexivity]|]. split; [reflexivity|]. split; [reflexivity|].
  split; [|vm_compute; reflexivity]. reflexivity.
Qed.

Definition ex_item (sz nl mode : N) (c : byte) : item := Item sz (norm_len64 sz) nl (norm_len32 nl) mode c.

Lemma ex_c17 : exists s evs, started rle_zlib ex_sess /\ Forall dop_ok (ex_dops 333) /\
  archive_of ContentDirectory (zc_dec rle_contract (dfed (ex_dops 333))) /\
  zc_bad rle_contract (dfed (ex_dops 333)) = false /\ zc_fin rle_contract (dfed (ex_dops 333)) = false /\ room_left s /\
  run_dops BE ex_alloc 400 ex_sess (ex_dops 333) = Ok ([0%Z; 0%Z], s, EvDirBegin :: evs) /\
  map (fun o => match o with OEntry f _ n => (1, f, n) | OByte b => (2, FtNone, [b]) | OFileEnd => (3, FtNone, [])
                | ODirEnd => (4, FtNone, []) | OSym => (5, FtNone, []) | _ => (6, FtNone, []) end) (flat evs) =
  [(1, FtDir, ex_name [x64]); (1, FtFile, ex_name [x61;x62;x63]); (2, FtNone, [x31]); (2, FtNone, [x32]); (2, FtNone, [x33]);
   (3, FtNone, []); (4, FtNone, []); (1, FtSymLink, ex_name [x6c]); (5, FtNone, [])].
Proof.
  eexists _, _. split; [exact ex_started|]. split; [apply ex_dops_ok|].
  split; [split; [vm_compute; congruence|split; reflexivity]|]. split; [vm_compute; reflexivity|]. split; [vm_compute; reflexivity|].
  split; [|split; [vm_compute; reflexivity|vm_compute; reflexivity]]. vm_compute. reflexivity.
Qed.

(** C23 *)
Definition ex_bad : bytes := rle_pack (x01 :: zeros 127).
Lemma ex_c23 : exists z (C : zlib_contract z) e alloc fuel s0 ops,
  started z s0 /\ Forall dop_ok ops /\ 128 <= lenN (zc_dec C (dfed ops)) /\ version_of (zc_dec C (dfed ops)) <> 0 /\
  zc_bad C (dfed ops) = false /\ run_dops e alloc fuel s0 ops = UB.
Proof.
  exists rle_zlib, rle_contract, LE, ex_alloc, 40%nat, ex_sess, [DFeed Z_NO_FLUSH ex_bad; DFeed Z_NO_FLUSH [x04;x00]].
  split; [exact ex_started|]. split; [repeat constructor; vm_compute; congruence|].
  split; [vm_compute; congruence|]. split; [vm_compute; discriminate|]. split; [vm_compute; reflexivity|].
  vm_compute. reflexivity.
Qed.
Definition ex_badops : list dop :=
  [DFeed Z_NO_FLUSH [x01]; DFeed Z_NO_FLUSH (x01 :: rle_pack (zeros 130)); DFeed Z_NO_FLUSH [x03;x22]].
Lemma ex_c23p : exists s, started rle_zlib ex_sess /\ Forall dop_ok ex_badops /\
  version_of (zc_dec rle_contract (dfed ex_badops)) = 1 /\
  run_dops LE ex_alloc 40 ex_sess ex_badops = Ok ([0%Z; 0%Z; 0%Z], s, []).
Proof.
  eexists. split; [exact ex_started|]. split; [repeat constructor; vm_compute; congruence|].
  split; [vm_compute; reflexivity|]. vm_compute. reflexivity.
Qed.

(** C24 *)
Lemma ex_c24 : exists s, started rle_zlib ex_sess /\ Forall dop_ok [DFeed Z_NO_FLUSH (ex_arch 77 ex_tree)] /\
  archive_of 77 (zc_dec rle_contract (dfed [DFeed Z_NO_FLUSH (ex_arch 77 ex_tree)])) /\
  run_dops LE ex_alloc 400 ex_sess [DFeed Z_NO_FLUSH (ex_arch 77 ex_tree)] = Ok ([0%Z], s, []).
Proof.
  eexists. split; [exact ex_started|]. split; [repeat constructor; vm_compute; congruence|].
  split; [split; [vm_compute; congruence|split; reflexivity]|]. vm_compute. reflexivity.
Qed.

(** C18, C22: the decoder on the example tree in two splittings. *)
Lemma ex_c18 : exists s ev1 ev2,
  parse_chunks LE ex_alloc (dir_fresh ex_left) ([(takeN 90 ex_tree, [])] ++ [(dropN 90 ex_tree, [x61])]) = Ok (s, ev1) /\
  parse_chunks LE ex_alloc (dir_fresh ex_left) (map (fun b => ([b], [])) (takeN 99 ex_tree) ++ [(dropN 99 ex_tree, [])]) = Ok (s, ev2) /\
  ev1 <> ev2 /\ length (flat ev1) = 9%nat.
Proof.
  eexists _, _, _. split; [vm_compute; reflexivity|]. split; [vm_compute; reflexivity|]. split; [vm_compute; discriminate|reflexivity].
Qed.

(** C19: the target of the link is split over two outputs. *)
Lemma ex_c19 : exists e alloc p e' name mode target junk pn pt chunks s evs it nm data tail,
  leftovers p /\ lenN junk = 40 /\ lenN name + 8 < two32 /\ mode < two32 /\ lenN target + 8 < two64 /\
  lenN pn = norm_len32 (lenN name) - lenN name /\ lenN pt = norm_len64 (lenN target) - lenN target /\
  ctext chunks = link_item e' (lenN name) mode (lenN target) junk ++ (name ++ pn) ++ target ++ pt /\
  parse_chunks e alloc (dir_fresh p) chunks = Ok (s, evs) /\
  evs = [EvEntry FtSymLink it nm; EvSym data tail] /\ data <> target.
Proof.
  exists LE, ex_alloc, ex_left, LE, [x6c], 511, [x78;x79;x7a], ex_j, (zeros 7), (zeros 5),
    [(ex_linkh ++ [x78], []); ([x79;x7a] ++ zeros 5, [])].
  eexists _, _, _, _, _, _. split; [exact ex_leftovers|]. split; [reflexivity|]. split; [reflexivity|]. split; [reflexivity|].
  split; [reflexivity|]. split; [reflexivity|]. split; [reflexivity|]. split; [reflexivity|].
  split; [vm_compute; reflexivity|]. split; [reflexivity|]. discriminate.
Qed.
Lemma ex_c19p : exists s it, ctext [(takeN 50 ex_linkh, [])] ++ dropN 50 ex_linkh = link_item LE (lenN [x6c]) 511 3 ex_j ++ [x6c] ++ zeros 7 /\
  parse_chunks LE ex_alloc (dir_fresh ex_left) ([(takeN 50 ex_linkh, [])] ++ [(dropN 50 ex_linkh ++ [x78;x79;x7a] ++ zeros 5, [x61])]) =
  Ok (s, [EvEntry FtSymLink it (ex_name [x6c]); EvSym [x78;x79;x7a] (zeros 5 ++ [x61])]).
Proof. eexists _, _. split; [reflexivity|]. vm_compute. reflexivity. Qed.

(** C20, C21: garbage, with failing allocations. *)
Definition ex_garbage : list (bytes * bytes) :=
  [(dir_item BE 3000 0 ex_j ++ repeat x61 33, [x01]); ([], []); (repeat xff 60 ++ ex_file, [])].
Lemma ex_c20 : exists s, p_err s = true /\
  parse_chunks LE (fun _ n => n <? 16) (dir_fresh ex_left) ex_garbage = Ok (s, []).
Proof. eexists. split; [|vm_compute; reflexivity]. reflexivity. Qed.
Lemma ex_c21 : exists s evs, parse_chunks LE ex_alloc (dir_fresh ex_left) [(takeN 98 ex_tree, []); (dropN 98 ex_tree ++ takeN 49 ex_file, [])] = Ok (s, evs) /\
  proto_run Idle evs = Some (InFile 2) /\ length evs = 10%nat.
Proof. eexists _, _. split; [vm_compute; reflexivity|]. split; reflexivity. Qed.

(** C26 *)
Lemma ex_c26 : exists s evs r, parse_chunks LE ex_alloc (dir_fresh ex_left) [(takeN 98 ex_tree, [])] = Ok (s, evs) /\
  dir_parse LE ex_alloc (4 * length (dropN 98 ex_tree) + 4) [] s (dropN 98 ex_tree) = Ok r.
Proof. eexists _, _, _. split; [vm_compute; reflexivity|]. vm_compute. reflexivity. Qed.
