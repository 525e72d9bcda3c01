(** ArchiveExamples.v: concrete archives with the run length codec. *)
From Verif Require Import Base Format Zlib RleZlib LLCompress Compress Parser ParserProofs ParserFacts Decompress DecompressProofs
  DecompressFacts MidProofs MidFacts DecompressExamples ArchiveSpec ArchiveFacts ArchiveDecode ArchiveEntry ArchiveProps.

(** The entry ".", a directory d with a file abc, a link l to xyz, a device p. *)
Definition ax_tree : list (bytes * snode) :=
  [([x2e], SDir 493 []); ([x64], SDir 493 [([x61;x62;x63], SFile true true 420 3 [x31;x32;x33] false)]);
   ([x6c], SLink 511 3 (Some [x78;x79;x7a])); ([x70], SOther)].
(** Filters: accepts everything; skips directories; stops at abc. *)
Definition ax_all (f : unit) (d : list bytes) (n : bytes) (k : skind) : Z * unit := (0%Z, tt).
Definition ax_nodir (d : list bytes) (n : bytes) (k : skind) : Z := match k with KDir => 1%Z | _ => 0%Z end.
Definition ax_stop (f : N) (d : list bytes) (n : bytes) (k : skind) : Z * N := (if f =? 1 then 387%Z else 0%Z, f + 1).
Definition ax_jk (b : byte) (n : N) : bytes := repeat b 40.
Definition ax_hj (n k : N) : bytes := zeros k.
Definition ax_xjk (i n : N) : bytes := repeat x33 40.
Definition ax_hjunk : bytes := repeat x44 128.
Definition ax_al (i : N) : bool := true.

Lemma ax_junk b : junk_ok (ax_jk b) ax_hj ax_xjk ax_hjunk.
Proof. split; [reflexivity|]. split; [intros; apply lenN_zeros|]. split; reflexivity. Qed.

Lemma ax_not_full cevs : forallb (fun c => lenN (ce_data c) <? ce_room c) cevs = true -> last_not_full cevs.
Proof.
  intros H a b ->. rewrite forallb_forall in H. apply N.ltb_lt, H. apply in_or_app. right. now left.
Qed.

Definition ax_ops (k : N) (c : bytes) : list dop := [DFeed Z_NO_FLUSH (takeN k c); DFeed Z_NO_FLUSH (dropN k c)].

Lemma ax_intro {F} (filt : F -> list bytes -> bytes -> skind -> Z * F) root nested xs f0 r wx evs b k cevs ws led rets s :
  tree_fits root -> Forall xb_ok xs ->
  compress_dir rle_zlib LE filt (ax_jk b) ax_hj ax_xjk ax_hjunk ax_al 3 9 7 nested xs root f0 = Ok (r, cevs, ws, wx, led) ->
  forallb (fun c => lenN (ce_data c) <? ce_room c) cevs = true -> lenN (cev_bytes cevs) < two32 ->
  run_dops BE ex_alloc 4000 ex_sess (ax_ops k (cev_bytes cevs)) = Ok (rets, s, evs) -> 0 < z_aout (d_zs s) ->
  run_of rle_zlib filt root nested xs f0 r wx evs.
Proof.
  intros H1 H2 H3 H4 H5 H6 H7.
  exists LE, (ax_jk b), ax_hj, ax_xjk, ax_hjunk, ax_al, 3%nat, 9%Z, 7, cevs, ws, led, BE, ex_alloc, 4000%nat, ex_sess,
    (ax_ops k (cev_bytes cevs)), rets, s.
  split; [apply ax_junk|]. split; [exact H1|]. split; [exact H2|]. split; [exact H3|].
  split; [repeat split; discriminate|]. split; [now apply ax_not_full|]. split; [reflexivity|]. split; [exact ex_started|].
  split.
  { apply Forall_cons; [|apply Forall_cons; [|apply Forall_nil]]; cbn [dop_ok].
    - split; [unfold normal_flush, Z_NO_FLUSH; lia|rewrite lenN_takeN; lia].
    - split; [unfold normal_flush, Z_NO_FLUSH; lia|rewrite lenN_dropN; lia]. }
  split; [|split; [exact H6|exact H7]]. unfold dfed, ax_ops. cbn [map concat]. rewrite app_nil_r. apply takeN_dropN.
Qed.

Ltac run_case k :=
  eapply (ax_intro _ _ _ _ _ _ _ _ x11 k);
    [ | | vm_compute; reflexivity | vm_compute; reflexivity | vm_compute; reflexivity | vm_compute; reflexivity | vm_compute; reflexivity ].
Ltac fits_case :=
  repeat first [apply Forall_nil | apply Forall_cons | apply ft_other | apply ft_file; reflexivity
    | apply ft_link; reflexivity | apply ft_dir; [reflexivity|reflexivity|]].

Lemma ax_fits : tree_fits (Some ax_tree).
Proof. unfold tree_fits, listing, ax_tree. fits_case. Qed.
Lemma ax_quiet : Forall (fun x => quiet (snd x)) ax_tree.
Proof.
  unfold ax_tree. repeat apply Forall_cons; cbn [snd]; [apply q_dir, Forall_nil| | | |apply Forall_nil].
  - apply q_dir. repeat apply Forall_cons; [|apply Forall_nil]. apply (q_file 420 [x31;x32;x33]).
  - apply (q_link 511 [x78;x79;x7a]).
  - apply q_other.
Qed.
Lemma ax_steady : tree_steady (Some ax_tree).
Proof. unfold tree_steady. eapply Forall_impl; [|exact ax_quiet]. intros. now apply quiet_steady. Qed.
Lemma ax_accepts : accepts ax_all.
Proof. intros f d n k. reflexivity. Qed.

(** C29: directory d, abc and its 3 bytes, its end, end of d, link l. *)
Lemma ex_c29 : exists wx evs, run_of rle_zlib ax_all (Some ax_tree) false [] tt (CRet 0) wx evs /\ accepts ax_all /\
  Forall (fun x => quiet (snd x)) ax_tree /\
  preorder ax_tree = [ADir [x64] 493; AFile [x61;x62;x63] 420 3 [x31;x32;x33]; AEnd; ALink [x6c] 511 [x78;x79;x7a]] /\
  length (flat evs) = 10%nat.
Proof.
  eexists _, _. split; [run_case 77; [exact ax_fits|constructor]|]. split; [exact ax_accepts|]. split; [exact ax_quiet|].
  split; vm_compute; reflexivity.
Qed.

(** C30: directories are skipped. *)
Lemma ex_c30 : exists wx evs, run_of rle_zlib (fun (_ : unit) d n k => (ax_nodir d n k, tt)) (Some ax_tree) false [] tt (CRet 0) wx evs /\
  (forall d n k, ax_nodir d n k <> 387%Z) /\ Forall (fun x => quiet (snd x)) ax_tree /\
  asked ax_nodir [] ax_tree = [Visit [] [x64] KDir 1; Visit [] [x6c] KLink 0; Visit [] [x70] KOther 0] /\
  kept ax_nodir [] ax_tree = [ALink [x6c] 511 [x78;x79;x7a]].
Proof.
  eexists _, _. split; [run_case 77; [exact ax_fits|constructor]|]. split; [intros d n []; discriminate|]. split; [exact ax_quiet|].
  split; vm_compute; reflexivity.
Qed.

(** C31: the filter stops at abc inside d. *)
Lemma ex_c31 : exists wx evs, run_of rle_zlib ax_stop (Some ax_tree) false [] 0 (CRet 0) wx evs /\ tree_steady (Some ax_tree) /\
  visits wx = [Visit [] [x64] KDir 0; Visit [[x64]] [x61;x62;x63] KFile 387] /\ In ODirEnd (flat evs).
Proof.
  eexists _, _. split; [run_case 26; [exact ax_fits|constructor]|]. split; [exact ax_steady|].
  split; vm_compute; auto.
Qed.

(** C32: the second of three files cannot be opened. *)
Definition ax_bad : list (bytes * snode) :=
  [([x61], SFile true true 420 1 [x31] false); ([x62], SFile false true 420 1 [x31] false); ([x63], SFile true true 420 1 [x31] false)].
Lemma ex_c32 : exists cevs ws wx led, junk_ok (ax_jk x11) ax_hj ax_xjk ax_hjunk /\ tree_fits (Some ax_bad) /\
  created rle_zlib ax_al 9 /\
  compress_dir rle_zlib LE ax_all (ax_jk x11) ax_hj ax_xjk ax_hjunk ax_al 3 9 7 false [] (Some ax_bad) tt = Ok (CRet 2, cevs, ws, wx, led) /\
  visits wx = [Visit [] [x61] KFile 0; Visit [] [x62] KFile 0].
Proof.
  eexists _, _, _, _. split; [apply ax_junk|]. split; [unfold tree_fits, listing, ax_bad; fits_case|].
  split; [repeat split; discriminate|]. split; vm_compute; reflexivity.
Qed.

(** C33: a run stopped inside a directory. *)
Lemma ex_c33 : exists cevs ws wx led, junk_ok (ax_jk x11) ax_hj ax_xjk ax_hjunk /\ tree_fits (Some ax_tree) /\
  created rle_zlib ax_al 9 /\
  compress_dir rle_zlib LE ax_stop (ax_jk x11) ax_hj ax_xjk ax_hjunk ax_al 3 9 7 false [] (Some ax_tree) 0 = Ok (CRet 0, cevs, ws, wx, led) /\
  last_not_full cevs /\ visits wx = [Visit [] [x64] KDir 0; Visit [[x64]] [x61;x62;x63] KFile 387].
Proof.
  eexists _, _, _, _. split; [apply ax_junk|]. split; [exact ax_fits|].
  split; [repeat split; discriminate|]. split; [vm_compute; reflexivity|]. split; [apply ax_not_full|]; vm_compute; reflexivity.
Qed.

(** C34: file a was 5 bytes long when it was opened and 3 when it was read; b does not change and is lost. *)
Definition ax_changed : list (bytes * snode) :=
  [([x30], SFile true true 420 1 [x39] false);
   ([x61], SFile true true 420 5 [x31;x32;x33] false); ([x62], SFile true true 420 1 [x34] false)].
Lemma ex_c34 : exists wx evs, run_of rle_zlib ax_all (Some ax_changed) false [] tt (CRet 0) wx evs /\
  map v_name (visits wx) = [[x30]; [x61]; [x62]] /\
  (exists it, In (OEntry FtFile it (padded [x61])) (flat evs)) /\
  ~ exists ft it, In (OEntry ft it (padded [x62])) (flat evs).
Proof.
  eexists _, _. split; [run_case 50; [unfold tree_fits, listing, ax_changed; fits_case|constructor]|].
  split; [vm_compute; reflexivity|]. split.
  - eexists. vm_compute. right. right. right. right. left. reflexivity.
  - intros (ft & it & H). vm_compute in H. intuition discriminate.
Qed.

(** C35, C36, C37: extra buffers a and b/c. *)
Definition ax_xs : list xbuf := [XB [x61] [x31;x32] 493; XB [x62;x2f;x63] [x33] 420].
Lemma ax_xs_ok : Forall xb_ok ax_xs.
Proof. repeat apply Forall_cons; [| |apply Forall_nil]; repeat split; reflexivity. Qed.

Lemma ex_c35 : exists wx evs, run_of rle_zlib ax_all (Some ax_tree) false ax_xs tt (CRet 0) wx evs /\ tree_steady (Some ax_tree) /\
  map v_name (visits wx) = [[x64]; [x61;x62;x63]; [x6c]; [x70]].
Proof.
  eexists _, _. split; [run_case 77; [exact ax_fits|exact ax_xs_ok]|]. split; [exact ax_steady|]. vm_compute. reflexivity.
Qed.

Lemma ex_c36 : exists wx evs, run_of rle_zlib ax_all (Some ax_tree) true ax_xs tt (CRet 0) wx evs /\ tree_steady (Some ax_tree) /\
  slashed [[x62]] [x63] = [x62;x2f;x63].
Proof.
  eexists _, _. split; [run_case 26; [exact ax_fits|exact ax_xs_ok]|]. split; [exact ax_steady|]. reflexivity.
Qed.

(** C37: mode 0755 was given, no entry has it. *)
Lemma ex_c37 : exists wx evs, run_of rle_zlib ax_all (Some []) true [XB [x61] [x31;x32] 493] tt (CRet 0) wx evs /\
  (exists it, In (OEntry FtFile it (padded [x61])) (flat evs)) /\
  ~ exists ft it n, In (OEntry ft it n) (flat evs) /\ it_mode it = 493.
Proof.
  eexists _, _. split; [run_case 26; [constructor|apply Forall_cons; [repeat split; reflexivity|constructor]]|].
  split.
  - eexists. vm_compute. right. left. reflexivity.
  - intros (ft & it & n & H & M). vm_compute in H. repeat (destruct H as [H|H]; [try discriminate; injection H as <- <- <-; discriminate M|]). exact H.
Qed.

(** C38: level 10; the session is not created, both buffers stay allocated. *)
Lemma ex_c38 : exists cevs ws wx led, 
  compress_dir rle_zlib LE ax_all (ax_jk x11) ax_hj ax_xjk ax_hjunk ax_al 3 10 7 false [] (Some ax_tree) tt = Ok (CRet 1, cevs, ws, wx, led) /\
  ~ released led.
Proof.
  eexists _, _, _, _. split; [vm_compute; reflexivity|]. intro H. specialize (H 1). vm_compute in H. discriminate.
Qed.
Lemma ex_c38_ok : exists cevs ws wx led, created rle_zlib ax_al 9 /\ lenN ax_hjunk = 128 /\
  compress_dir rle_zlib LE ax_all (ax_jk x11) ax_hj ax_xjk ax_hjunk ax_al 3 9 7 false [] (Some ax_tree) tt = Ok (CRet 0, cevs, ws, wx, led) /\
  led = [LMalloc 1; LMalloc 2; LMalloc 3; LFree 3; LFree 2; LFree 1].
Proof.
  eexists _, _, _, _. split; [repeat split; discriminate|]. split; [reflexivity|]. split; vm_compute; reflexivity.
Qed.

(** C04: the bytes of the stack that are not initialised reach the archive. *)
Lemma ex_c04 : exists jk jk' cevs cevs' ws ws' wx wx' led led',
  junk_ok jk ax_hj ax_xjk ax_hjunk /\ junk_ok jk' ax_hj ax_xjk ax_hjunk /\
  compress_dir rle_zlib LE ax_all jk ax_hj ax_xjk ax_hjunk ax_al 3 9 7 false [] (Some ax_tree) tt = Ok (CRet 0, cevs, ws, wx, led) /\
  compress_dir rle_zlib LE ax_all jk' ax_hj ax_xjk ax_hjunk ax_al 3 9 7 false [] (Some ax_tree) tt = Ok (CRet 0, cevs', ws', wx', led') /\
  last_not_full cevs /\ last_not_full cevs' /\
  zc_dec rle_contract (cev_bytes cevs) <> zc_dec rle_contract (cev_bytes cevs').
Proof.
  exists (ax_jk x11), (ax_jk x12). eexists _, _, _, _, _, _, _, _.
  split; [apply ax_junk|]. split; [apply ax_junk|]. split; [vm_compute; reflexivity|]. split; [vm_compute; reflexivity|].
  split; [apply ax_not_full; vm_compute; reflexivity|]. split; [apply ax_not_full; vm_compute; reflexivity|].
  intro H. vm_compute in H. discriminate.
Qed.

(** C27: a file of 12 bytes. *)
Definition ax_data : bytes := [x41;x41;x41;x42;x42;x43;x44;x45;x46;x46;x46;x46].
Lemma ex_c27 : exists cevs led rets s evs,
  compress_file rle_zlib LE ax_hjunk ax_al 3 9 7 ax_data false = Ok (0%Z, cevs, led) /\ last_not_full cevs /\
  started rle_zlib ex_sess /\ Forall dop_ok (ax_ops 7 (cev_bytes cevs)) /\ dfed (ax_ops 7 (cev_bytes cevs)) = cev_bytes cevs /\
  run_dops BE ex_alloc 4000 ex_sess (ax_ops 7 (cev_bytes cevs)) = Ok (rets, s, evs) /\ room_left s /\ evs <> [].
Proof.
  eexists _, _, _, _, _. split; [vm_compute; reflexivity|]. split; [apply ax_not_full; vm_compute; reflexivity|].
  split; [exact ex_started|]. split.
  { apply Forall_cons; [|apply Forall_cons; [|apply Forall_nil]]; (split; [unfold normal_flush, Z_NO_FLUSH; lia|reflexivity]). }
  split; [vm_compute; reflexivity|]. split; [vm_compute; reflexivity|]. split; [vm_compute; reflexivity|discriminate].
Qed.

(** C28 *)
Lemma ex_c28 : exists level data, (9 < level)%Z /\ forall fuel,
  compress_file rle_zlib LE ax_hjunk ax_al fuel level 7 data false = UB.
Proof. exists 10%Z, ax_data. split; [reflexivity|]. intro fuel. apply (compress_file_fails rle_zlib rle_contract); [reflexivity|reflexivity|right; reflexivity]. Qed.
