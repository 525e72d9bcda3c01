(** TestToolsExamples.v: concrete runs of the test programs with the run length codec. *)
From Coq Require Import Lia Strings.String.
From Verif Require Import Base Format Zlib RleZlib LLCompress Compress Parser ParserProofs ParserFacts Decompress DecompressProofs
  DecompressFacts MidProofs MidFacts DecompressExamples ArchiveSpec ArchiveFacts ArchiveDecode ArchiveEntry ArchiveProps ArchiveExamples
  FS FSFacts HL HLSpec HLFacts HLDrive HLProps HLSafe MkdirFacts HLTame HLMkdir HLMore HLExamples ArgParser Tools ToolsSpec ToolsExamples
  TestTools TestToolsFacts TestToolsProps TestToolsSafe.
Local Notation b := list_byte_of_string.

(** The folder "dir" has the entries [es]; every input file has the contents [inp]. *)
Definition tx_ls (es : list (bytes * snode)) (d : bytes) := if bytes_eqb d (b "dir") then Some es else None.
Definition tx_rd (inp : bytes) (f : bytes) : option (bytes * bool) := Some (inp, false).
Definition tx_hl (es : list (bytes * snode)) (inp : bytes) (room xm : N) (argv : list string) (o : os) :=
  hlt_main rle_zlib LE (ax_jk x11) ax_hj ax_xjk ax_hjunk ax_al (fun _ => true) (tx_rd inp) (tx_ls es) room xm hx_hal hx_stk ex_alloc 4000
    (zeros DEF_CHUNK_SIZE) ex_pj 4000 (map b argv) o.
Definition tx_ll (es : list (bytes * snode)) (inp : bytes) (room : N) (argv : list string) (o : os) :=
  llt_main rle_zlib LE (ax_jk x11) ax_hj ax_xjk ax_hjunk ax_al (fun _ => true) (tx_rd inp) (tx_ls es) room hx_hal ex_alloc 4000
    (zeros LT_CHUNK) ex_pj 4000 (map b argv) o.

Definition tx_file (x : outcome (tt_ran rle_zlib)) : bytes :=
  match x with Ok r => match tr_file r with Some (_, d) => d | None => [] end | _ => [] end.
Definition tx_test (x : outcome (tt_ran rle_zlib)) (P : tt_ran rle_zlib -> bool) : bool := match x with Ok r => P r | _ => false end.
Lemma tx_of x P : tx_test x P = true -> exists r, x = Ok r /\ P r = true.
Proof. destruct x as [r| |]; try discriminate. intro H. exists r. auto. Qed.
Definition ret_is (r : tt_ran rle_zlib) (n : Z) : bool := match tr_ret r with CRet m => (m =? n)%Z | CExit => false end.
Lemma ret_ok r n : ret_is r n = true -> tr_ret r = CRet n.
Proof. unfold ret_is. destruct (tr_ret r); [|discriminate]. intro H. apply Z.eqb_eq in H. congruence. Qed.
Definition roomy (r : tt_ran rle_zlib) : bool := match tr_sess r with Some s => 0 <? z_aout (d_zs s) | None => false end.
Lemma roomy_ok r : roomy r = true -> exists s, tr_sess r = Some s /\ room_left s.
Proof. unfold roomy. destruct (tr_sess r) as [s|]; [|discriminate]. intro H. apply N.ltb_lt in H. exists s. auto. Qed.
Definition file_is (r : tt_ran rle_zlib) (n d : bytes) : bool :=
  match tr_file r with Some (n', d') => bytes_eqb n n' && bytes_eqb d d' | None => false end.
Lemma file_ok r n d : file_is r n d = true -> tr_file r = Some (n, d).
Proof.
  unfold file_is. destruct (tr_file r) as [[n' d']|]; [|discriminate]. intro H. apply andb_prop in H. destruct H as [H1 H2].
  apply bytes_eqb_spec in H1, H2. congruence.
Qed.
Ltac split_and := repeat match goal with H : _ && _ = true |- _ => apply andb_prop in H; destruct H end.

Lemma tx_calm : lt_calm rle_zlib hx_hal ax_al (zeros LT_CHUNK) ax_hjunk ex_pj.
Proof. split; [reflexivity|reflexivity|apply lenN_zeros|reflexivity|reflexivity|discriminate]. Qed.
Lemma tx_extractable priv : Forall (fun x => extractable priv 18 2 (fst x) (snd x)) hx_tree.
Proof.
  unfold hx_tree. repeat apply Forall_cons; cbn [fst snd]; [apply xt_dot; left; reflexivity| | |apply Forall_nil].
  - apply xt_dir; [plain_case|reflexivity|destruct priv; split; reflexivity|cbn [map fst]; nodup_case|].
    repeat apply Forall_cons; cbn [fst snd]; [| |apply Forall_nil].
    + apply xt_file; [plain_case|reflexivity].
    + apply xt_dir; [plain_case|reflexivity|destruct priv; split; reflexivity|apply NoDup_nil|apply Forall_nil].
  - apply xt_file; [plain_case|reflexivity].
Qed.
Lemma tx_same es : hx_arch es = hx_xarch false [] es.
Proof. reflexivity. Qed.
Lemma tx_with : archives_with rle_zlib [] hx_tree (hx_arch hx_tree).
Proof. rewrite tx_same. apply hx_xarch_ok; [exact hx_fits|apply Forall_nil|vm_compute; reflexivity]. Qed.

Definition argv_b := ["t"; "b"; "in"; "o"]%string.

(** ** C92 *)
Lemma ex_c92_low : exists r, archives_with rle_zlib [] hx_tree (hx_arch hx_tree) /\
  tt_args (map b argv_b) = Some (x62, b "in", [x6f]) /\
  tx_ll [] (hx_arch hx_tree) 0 argv_b (hx_os 1000) = Ok r /\
  (exists s, tr_sess r = Some s /\ room_left s) /\
  o_fs (tr_os r) [[x77]; [x6f]; [x64]; [x61;x62;x63]] = Some (IFile 420 [x31;x32;x33]) /\
  o_fs (tr_os r) [[x77]; [x6f]; [x62]] = Some (IFile 493 [x7a]) /\ tr_ret r = CRet 1.
Proof.
  destruct (tx_of (tx_ll [] (hx_arch hx_tree) 0 argv_b (hx_os 1000)) (fun r => roomy r && at_eqb (tr_os r) [[x77]; [x6f]; [x64]; [x61;x62;x63]] (Some (IFile 420 [x31;x32;x33]))
    && at_eqb (tr_os r) [[x77]; [x6f]; [x62]] (Some (IFile 493 [x7a])) && ret_is r 1)) as (r & G & H); [vm_compute; reflexivity|].
  split_and. exists r. split; [exact tx_with|]. split; [reflexivity|]. split; [exact G|]. split; [now apply roomy_ok|].
  split; [now apply at_eqb_ok|]. split; [now apply at_eqb_ok|now apply ret_ok].
Qed.
Lemma ex_c92_high : exists r, archives_with rle_zlib [] hx_tree (hx_arch hx_tree) /\ 
  tx_hl [] (takeN 100 (hx_arch hx_tree)) 0 0 argv_b (hx_os 1000) = Ok r /\ tr_ret r = CRet 0 /\
  o_fs (tr_os r) [[x77]; [x6f]; [x62]] = None.
Proof.
  destruct (tx_of (tx_hl [] (takeN 100 (hx_arch hx_tree)) 0 0 argv_b (hx_os 1000)) (fun r => ret_is r 0
    && at_eqb (tr_os r) [[x77]; [x6f]; [x62]] None)) as (r & G & H); [vm_compute; reflexivity|].
  split_and. exists r. split; [exact tx_with|]. split; [exact G|]. split; [now apply ret_ok|now apply at_eqb_ok].
Qed.
Lemma ex_c92_dir : exists r, archives_with rle_zlib [] hx_tree (hx_arch hx_tree) /\
  tt_args (map b argv_b) = Some (x62, b "in", [x6f]) /\ tx_rd (hx_arch hx_tree) (b "in") = Some (hx_arch hx_tree, false) /\
  calm rle_zlib hx_hal ax_al hx_stk (zeros DEF_CHUNK_SIZE) ax_hjunk ex_pj /\
  (length (hx_arch hx_tree) < 4000)%nat /\ preorder (as_files [] ++ hx_tree) <> [] /\ Forall (fun x => quiet (snd x)) hx_tree /\
  NoDup (map fst (as_files [] ++ hx_tree)) /\
  Forall (fun x => extractable false 18 1 (fst x) (snd x)) (as_files [] ++ hx_tree) /\ free_spot (hx_os 1000) [x6f] [[x77]; [x6f]] /\
  usable_dir false 18 MODE_BASE_DIR /\ (forall r, o_fs (hx_os 1000) ([[x77]; [x6f]] ++ r) = None) /\
  volume (preorder (as_files [] ++ hx_tree)) = 4 /\
  tx_hl [] (hx_arch hx_tree) 0 0 argv_b (hx_os 1000) = Ok r /\ (exists s, tr_sess r = Some s /\ room_left s) /\
  tr_ret r = CRet 0 /\ o_fs (tr_os r) [[x77]; [x6f]; [x62]] = Some (IFile 493 [x7a]).
Proof.
  destruct (tx_of (tx_hl [] (hx_arch hx_tree) 0 0 argv_b (hx_os 1000)) (fun r => roomy r && ret_is r 0
    && at_eqb (tr_os r) [[x77]; [x6f]; [x62]] (Some (IFile 493 [x7a])))) as (r & G & H); [vm_compute; reflexivity|].
  split_and. exists r. split; [exact tx_with|]. split; [reflexivity|]. split; [reflexivity|]. split; [exact hx_calm|].
  split; [apply Nat.ltb_lt; vm_compute; reflexivity|]. split; [discriminate|].
  split; [exact hx_quiet|]. split; [exact hx_nodup|]. split; [apply hx_extractable|]. split; [apply hx_spot|]. split; [exact hx_base|].
  split; [apply hx_empty|]. split; [reflexivity|]. split; [exact G|]. split; [now apply roomy_ok|]. split; [now apply ret_ok|now apply at_eqb_ok].
Qed.
Lemma ex_c92_file : exists r, archives_file rle_zlib [x61;x62] (hx_farch [x61;x62]) /\
  writable_spot (hx_os 1000) [x6f] [[x77]; [x6f]] 420 /\
  tx_hl [] (hx_farch [x61;x62]) 0 0 argv_b (hx_os 1000) = Ok r /\ (exists s, tr_sess r = Some s /\ room_left s) /\
  tr_ret r = CRet 0 /\ o_fs (tr_os r) [[x77]; [x6f]] = Some (IFile 420 [x61;x62]).
Proof.
  destruct (tx_of (tx_hl [] (hx_farch [x61;x62]) 0 0 argv_b (hx_os 1000)) (fun r => roomy r && ret_is r 0
    && at_eqb (tr_os r) [[x77]; [x6f]] (Some (IFile 420 [x61;x62])))) as (r & G & H); [vm_compute; reflexivity|].
  split_and. exists r. split; [apply hx_farch_ok; vm_compute; reflexivity|]. 
  split; [split; [reflexivity|]; exists [[x77]], [x6f]; split; [reflexivity|]; left; repeat split; reflexivity|].
  split; [exact G|]. split; [now apply roomy_ok|]. split; [now apply ret_ok|now apply at_eqb_ok].
Qed.

(** ** C93 *)
Lemma ex_c93_full : exists r, tx_hl hx_tree [] 6 0 ["t"; "c"; "dir"]%string (hx_os 1000) = Ok r /\ tr_ret r = CRet 0 /\
  lenN (tx_file (Ok r)) = 6 /\ hx_arch hx_tree <> tx_file (Ok r) /\
  forall r', tx_hl hx_tree [] 6000 0 ["t"; "c"; "dir"]%string (hx_os 1000) = Ok r' -> tr_file r' <> tr_file r.
Proof.
  destruct (tx_of (tx_hl hx_tree [] 6 0 ["t"; "c"; "dir"]%string (hx_os 1000)) (fun r => ret_is r 0
    && (lenN (tx_file (Ok r)) =? 6))) as (r & G & H); [vm_compute; reflexivity|].
  split_and. exists r. split; [exact G|]. split; [now apply ret_ok|]. apply N.eqb_eq in H0. split; [exact H0|]. split.
  - intro Q. rewrite <- Q in H0. vm_compute in H0. discriminate H0.
  - intros r' G' Q. assert (K : tx_file (Ok r') = tx_file (Ok r)) by (unfold tx_file; now rewrite Q). rewrite <- K, <- G' in H0.
    vm_compute in H0. discriminate H0.
Qed.
Lemma ex_c93_none : exists r, tx_ls hx_tree (b "none") = None /\
  tx_hl hx_tree [] 6000 0 ["t"; "c"; "none"]%string (hx_os 1000) = Ok r /\ tr_ret r = CRet 0.
Proof.
  destruct (tx_of (tx_hl hx_tree [] 6000 0 ["t"; "c"; "none"]%string (hx_os 1000)) (fun r => ret_is r 0)) as (r & G & H); [vm_compute; reflexivity|].
  exists r. split; [reflexivity|]. split; [exact G|now apply ret_ok].
Qed.
Lemma ex_c93 : exists r, junk_ok (ax_jk x11) ax_hj ax_xjk ax_hjunk /\ tt_args (map b ["t"; "c"; "dir"]%string) = Some (x63, b "dir", b "out.zlib") /\
  tree_fits (Some hx_tree) /\ tx_ls hx_tree (b "dir") = Some hx_tree /\
  tx_hl hx_tree [] 6000 0 ["t"; "c"; "dir"]%string (hx_os 1000) = Ok r /\ tr_ret r = CRet 0 /\
  exists cevs, tr_file r = Some (b "out.zlib", cev_bytes cevs) /\ last_not_full cevs /\ lenN (cev_bytes cevs) <= 6000.
Proof.
  destruct (compress_dir rle_zlib LE tt_filter (ax_jk x11) ax_hj ax_xjk ax_hjunk ax_al 4000 Z_BEST_COMPRESSION 1 false [] (Some hx_tree) tt)
    as [[[[[[rr|] cevs] ws] wx] led]| |] eqn:E; try (exfalso; vm_compute in E; discriminate E).
  assert (K : rr = 0%Z /\ forallb (fun c => lenN (ce_data c) <? ce_room c) cevs = true /\ lenN (cev_bytes cevs) = 168).
  { vm_compute in E. assert (Ex : forall A (x y : A), Ok x = Ok y -> x = y) by congruence.
    apply Ex in E. apply pair_equal_spec in E. destruct E as [E _]. apply pair_equal_spec in E. destruct E as [E _].
    apply pair_equal_spec in E. destruct E as [E _]. apply pair_equal_spec in E. destruct E as [E1 E2]. subst cevs.
    split; [congruence|]. split; vm_compute; reflexivity. }
  destruct K as (-> & K2 & K3).
  assert (G : tx_hl hx_tree [] 6000 0 ["t"; "c"; "dir"]%string (hx_os 1000) = Ok (TR (CRet 0) (Some (b "out.zlib", takeN 6000 (cev_bytes cevs))) (hx_os 1000) None)).
  { unfold tx_hl, hlt_main. change (tt_args (map b ["t"; "c"; "dir"]%string)) with (Some (x63, b "dir", b "out.zlib")). 
    cbn iota beta. change (byte_eqb x63 x61) with false. change (byte_eqb x63 x62) with false. change (byte_eqb x63 x63) with true. cbn iota.
    unfold tt_compress_dir. cbn [negb]. change (tx_ls hx_tree (b "dir")) with (Some hx_tree). rewrite E. reflexivity. }
  eexists. split; [apply ax_junk|]. split; [reflexivity|]. split; [exact hx_fits|]. split; [reflexivity|]. split; [exact G|].
  split; [reflexivity|]. exists cevs. rewrite takeN_all by (rewrite K3; discriminate). split; [reflexivity|]. split; [now apply ax_not_full|rewrite K3; discriminate].
Qed.

(** ** C94 *)
Lemma ex_c94 : exists r r', tx_hl hx_tree [] 6000 420 ["t"; "d"; "dir"]%string (hx_os 1000) = Ok r /\ tr_ret r = CRet 0 /\
  tx_hl hx_tree [] 6000 0 ["t"; "d"; "dir"]%string (hx_os 1000) = Ok r' /\ tr_ret r' = CRet 0 /\ tr_file r <> tr_file r'.
Proof.
  destruct (tx_of (tx_hl hx_tree [] 6000 420 ["t"; "d"; "dir"]%string (hx_os 1000)) (fun r => ret_is r 0 &&
    file_is r (b "out.zlib") (tx_file (tx_hl hx_tree [] 6000 420 ["t"; "d"; "dir"]%string (hx_os 1000))))) as (r & G & H); [vm_compute; reflexivity|].
  destruct (tx_of (tx_hl hx_tree [] 6000 0 ["t"; "d"; "dir"]%string (hx_os 1000)) (fun r => ret_is r 0 &&
    negb (file_is r (b "out.zlib") (tx_file (tx_hl hx_tree [] 6000 420 ["t"; "d"; "dir"]%string (hx_os 1000)))))) as (r' & G' & H'); [vm_compute; reflexivity|].
  apply andb_prop in H, H'. destruct H as [H1 H2], H' as [H3 H4].
  exists r, r'. split; [exact G|]. split; [now apply ret_ok|]. split; [exact G'|]. split; [now apply ret_ok|].
  intro Q. unfold file_is in H2, H4. rewrite Q in H2. rewrite H2 in H4. discriminate H4.
Qed.
Lemma ex_c94_partial : exists r, archives_with rle_zlib (tt_root_bufs 420) hx_tree (hx_xarch false (tt_root_bufs 420) hx_tree) /\
  Forall (fun x => plain (xb_path x)) (tt_root_bufs 420) /\ NoDup (map fst (as_files (tt_root_bufs 420) ++ hx_tree)) /\
  tx_hl [] (hx_xarch false (tt_root_bufs 420) hx_tree) 0 0 argv_b (hx_os 1000) = Ok r /\ (exists s, tr_sess r = Some s /\ room_left s) /\
  tr_ret r = CRet 0 /\ o_fs (tr_os r) [[x77]; [x6f]; b "__not_updateabe_files"] = Some (IFile 420 (b "mconfig.bconf" ++ [x00])).
Proof.
  destruct (tx_of (tx_hl [] (hx_xarch false (tt_root_bufs 420) hx_tree) 0 0 argv_b (hx_os 1000)) (fun r => roomy r && ret_is r 0
    && at_eqb (tr_os r) [[x77]; [x6f]; b "__not_updateabe_files"] (Some (IFile 420 (b "mconfig.bconf" ++ [x00]))))) as (r & G & H); [vm_compute; reflexivity|].
  split_and. exists r. split; [apply hx_xarch_ok; [exact hx_fits|now apply tt_root_ok|vm_compute; reflexivity]|].
  split; [constructor; [cbn [xb_path]; plain_case|constructor]|]. split; [unfold hx_tree; cbn [map fst as_files app xb_path]; nodup_case|].
  split; [exact G|]. split; [now apply roomy_ok|]. split; [now apply ret_ok|now apply at_eqb_ok].
Qed.

(** ** C95 *)
Definition tx_e := tx_file (tx_hl hx_tree [] 6000 420 ["t"; "e"; "dir"]%string (hx_os 1000)).
Lemma ex_c95 : exists r r', tx_hl hx_tree [] 6000 420 ["t"; "e"; "dir"]%string (hx_os 1000) = Ok r /\ tr_ret r = CRet 0 /\
  tr_file r = Some (b "out.zlib", tx_e) /\ 
  tx_hl [] tx_e 0 0 argv_b (hx_os 1000) = Ok r' /\ tr_ret r' = CRet 0 /\
  o_fs (tr_os r') [[x77]; [x6f]; [x61]] = Some (IDir 0) /\ o_fs (tr_os r') [[x77]; [x6f]; [x61]; [x62]] = None.
Proof.
  destruct (tx_of (tx_hl hx_tree [] 6000 420 ["t"; "e"; "dir"]%string (hx_os 1000)) (fun r => ret_is r 0 && file_is r (b "out.zlib") tx_e))
    as (r & G & H); [vm_compute; reflexivity|].
  destruct (tx_of (tx_hl [] tx_e 0 0 argv_b (hx_os 1000)) (fun r => ret_is r 0 && at_eqb (tr_os r) [[x77]; [x6f]; [x61]] (Some (IDir 0))
    && at_eqb (tr_os r) [[x77]; [x6f]; [x61]; [x62]] None)) as (r' & G' & H'); [vm_compute; reflexivity|].
  split_and. exists r, r'. split; [exact G|]. split; [now apply ret_ok|]. split; [now apply file_ok|]. split; [exact G'|].
  split; [now apply ret_ok|]. split; now apply at_eqb_ok.
Qed.
Lemma ex_c95_partial : exists r, tt_args (map b ["t"; "e"; "dir"]%string) = Some (x65, b "dir", b "out.zlib") /\ 420 < two32 /\
  tree_fits (Some hx_tree) /\ Forall (fun x => quiet (snd x)) hx_tree /\
  tx_hl hx_tree [] 6000 420 ["t"; "e"; "dir"]%string (hx_os 1000) = Ok r /\ tr_ret r = CRet 0.
Proof.
  destruct ex_c95 as (r & _ & G & R & _). exists r. split; [reflexivity|]. split; [reflexivity|]. split; [exact hx_fits|].
  split; [exact hx_quiet|]. auto.
Qed.

(** ** C96 *)
Definition tx_links : list (bytes * snode) := [([x6c], SLink 511 1 (Some [x62]))].
Lemma ex_c96_link : exists r, archives_with rle_zlib [] tx_links (hx_arch tx_links) /\
  tx_ll [] (hx_arch tx_links) 0 argv_b (hx_os 1000) = Ok r /\ (exists s, tr_sess r = Some s /\ room_left s) /\
  o_fs (tr_os r) [[x77]; [x6f]; [x6c]] = Some (IFile 493 []) /\ o_fds (tr_os r) <> [].
Proof.
  destruct (tx_of (tx_ll [] (hx_arch tx_links) 0 argv_b (hx_os 1000)) (fun r => roomy r && at_eqb (tr_os r) [[x77]; [x6f]; [x6c]] (Some (IFile 493 []))
    && match o_fds (tr_os r) with [] => false | _ => true end)) as (r & G & H); [vm_compute; reflexivity|].
  split_and. exists r. split; [rewrite tx_same; apply hx_xarch_ok; [unfold tree_fits, listing, tx_links; fits_case|apply Forall_nil|vm_compute; reflexivity]|].
  split; [exact G|]. split; [now apply roomy_ok|]. split; [now apply at_eqb_ok|]. intro Q. rewrite Q in H0. discriminate H0.
Qed.
Lemma ex_c96_dir : exists r,  lt_calm rle_zlib hx_hal ax_al (zeros LT_CHUNK) ax_hjunk ex_pj /\
  archives_with rle_zlib [] hx_tree (hx_arch hx_tree) /\
  Forall (fun x => extractable false 18 2 (fst x) (snd x)) (as_files [] ++ hx_tree) /\
  tx_ll [] (hx_arch hx_tree) 0 argv_b (hx_os 1000) = Ok r /\ (exists s, tr_sess r = Some s /\ room_left s) /\
  o_fs (tr_os r) [[x77]; [x6f]; [x64]; [x61;x62;x63]] = Some (IFile 420 [x31;x32;x33]).
Proof.
  destruct ex_c92_low as (r & _ & _ & G & Rl & F & _). exists r. split; [exact tx_calm|]. split; [exact tx_with|]. split; [apply tx_extractable|]. auto.
Qed.
Lemma ex_c96_file : exists r, archives_file rle_zlib [x61;x62] (hx_farch [x61;x62]) /\
  tx_ll [] (hx_farch [x61;x62]) 0 argv_b (hx_os 1000) = Ok r /\ (exists s, tr_sess r = Some s /\ room_left s) /\
  o_fs (tr_os r) [[x77]; [x6f]] = Some (IFile 420 [x61;x62]).
Proof.
  destruct (tx_of (tx_ll [] (hx_farch [x61;x62]) 0 argv_b (hx_os 1000)) (fun r => roomy r
    && at_eqb (tr_os r) [[x77]; [x6f]] (Some (IFile 420 [x61;x62])))) as (r & G & H); [vm_compute; reflexivity|].
  split_and. exists r. split; [apply hx_farch_ok; vm_compute; reflexivity|]. split; [exact G|]. split; [now apply roomy_ok|now apply at_eqb_ok].
Qed.

(** ** C97 *)
Lemma ex_c97_open : archives_file rle_zlib [x61;x62] (hx_farch [x61;x62]) /\
  tx_ll [] (hx_farch [x61;x62]) 0 ["t"; "b"; "in"; "none/o"]%string (hx_os 1000) = UB.
Proof. split; [apply hx_farch_ok; vm_compute; reflexivity|vm_compute; reflexivity]. Qed.
Definition tx_one : list (bytes * snode) := [([x62], SFile true true 420 1 [x7a] false)].
Lemma ex_c97_exists : archives_with rle_zlib [] tx_one (hx_arch tx_one) /\ o_fs (hx_os 1000) [[x77]] = Some (IDir 493) /\
  tx_ll [] (hx_arch tx_one) 0 ["t"; "b"; "in"; "/w"]%string (hx_os 1000) = UB.
Proof.
  split; [rewrite tx_same; apply hx_xarch_ok; [unfold tree_fits, listing, tx_one; fits_case|apply Forall_nil|vm_compute; reflexivity]|].
  split; [reflexivity|vm_compute; reflexivity].
Qed.
Lemma ex_c97_name : tx_ll [] (rx_arch (file_item LE 8 420 0 ex_j ++ List.repeat x61 16)) 0 argv_b (hx_os 1000) = UB.
Proof. vm_compute. reflexivity. Qed.

(** An archive whose compressed data are cut. *)
Lemma ex_c97_file : exists r, lt_calm rle_zlib hx_hal ax_al (zeros LT_CHUNK) ax_hjunk ex_pj /\
  archive_of ContentFile (zc_dec rle_contract (takeN 10 (hx_farch [x61;x62]))) /\ lenN (hx_farch [x61;x62]) = 12 /\
  (exists fd o1, sys_open true [x6f] MODE_FOPEN (hx_os 1000) = (RFd fd, o1)) /\
  tx_ll [] (takeN 10 (hx_farch [x61;x62])) 0 argv_b (hx_os 1000) = Ok r.
Proof.
  destruct (tx_of (tx_ll [] (takeN 10 (hx_farch [x61;x62])) 0 argv_b (hx_os 1000)) (fun r => true)) as (r & G & _); [vm_compute; reflexivity|].
  exists r. split; [exact tx_calm|]. split; [vm_compute; repeat split; try reflexivity; try discriminate|]. split; [vm_compute; reflexivity|].
  split; [eexists _, _; vm_compute; reflexivity|exact G].
Qed.
(** No space on the disk. *)
Lemma ex_c97_dir : exists r, archives_with rle_zlib [] hx_tree (hx_arch hx_tree) /\ names_end (preorder hx_tree) /\
  (exists o1, sys_mkdir [x6f] MODE_0775 (hx_os 0) = (ROk, o1)) /\
  tx_ll [] (hx_arch hx_tree) 0 argv_b (hx_os 0) = Ok r /\ o_fs (tr_os r) [[x77]; [x6f]; [x62]] = Some (IFile 493 []).
Proof.
  destruct (tx_of (tx_ll [] (hx_arch hx_tree) 0 argv_b (hx_os 0)) (fun r => at_eqb (tr_os r) [[x77]; [x6f]; [x62]] (Some (IFile 493 [])))) as (r & G & H);
    [vm_compute; reflexivity|].
  exists r. split; [exact tx_with|]. split.
  - unfold names_end. vm_compute. repeat constructor; cbn; intuition discriminate.
  - split; [eexists; vm_compute; reflexivity|]. split; [exact G|now apply at_eqb_ok].
Qed.

(** ** C98 *)
Lemma ex_c98 : ~ In x5c (b "test.exe") /\ it_main true [b "test.exe"; b "i.ico"] = Ok ItAbort /\ it_main false [b "test.exe"; b "i.ico"] = UB.
Proof. split; [cbn; intuition discriminate|]. split; reflexivity. Qed.
Lemma ex_c98_partial : it_main true [b "C:\d\test.exe"; b "i.ico"] = Ok (ItCall (b "C:\d\hello_world_test.exe") (b "i.ico")).
Proof. reflexivity. Qed.
