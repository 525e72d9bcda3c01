(** SelfRunExamples.v: concrete runs of a self extracting executable with the run length codec. *)
From Coq Require Import Lia Strings.String.
From Verif Require Import Base Format Zlib RleZlib LLCompress Compress Parser ParserProofs ParserFacts Decompress DecompressProofs
  DecompressFacts MidProofs MidFacts DecompressExamples ArchiveSpec ArchiveFacts ArchiveDecode ArchiveEntry ArchiveProps ArchiveExamples
  FS FSFacts HL HLSpec HLFacts HLDrive HLProps HLSafe MkdirFacts HLTame HLMkdir HLMore HLExamples
  ArgParser ArgSpec ArgFacts ArgMore ArgExamples Tools ToolsSpec ToolsFacts ToolsMore ToolsExamples SelfRun SelfRunFacts.
Local Notation b := list_byte_of_string.

(** Nothing to remove. *)
Definition gx_keep (o : os) : os := o.
(** Removing the directory .out_dir of /w. *)
Definition gx_remove (o : os) : os :=
  with_fs (fun p => match strip [[x77]; se_dir] p with Some _ => None | None => o_fs o p end) o.
(** Programs that change nothing and end with [c1] and [c2]; [None]: not started. *)
Definition gx_start (c1 c2 : option Z) (k : N) (p : bytes) (o : os) : option Z * os := (if k =? 0 then c1 else c2, o).
Definition gx_go (c1 c2 : option Z) (inp : bytes) (o : os) : outcome (se_ran rle_zlib) :=
  se_go hx_hal hx_stk rle_zlib LE ex_alloc 4000 4000 ax_al (zeros DEF_CHUNK_SIZE) ax_hjunk ex_pj true gx_remove (gx_start c1 c2) inp o.

Definition gx_test (x : outcome (se_ran rle_zlib)) (P : se_ran rle_zlib -> bool) : bool :=
  match x with Ok r => P r | _ => false end.
Lemma gx_of x P : gx_test x P = true -> exists r, x = Ok r /\ P r = true.
Proof. destruct x; try discriminate. cbn. eauto. Qed.

Definition names_eqb (a b : list bytes) : bool := path_eqb a b.
Definition gx_names (r : se_ran rle_zlib) : list bytes := map fst (sr_started r).
Definition first_at (r : se_ran rle_zlib) (p : path) (i : option inode) : bool :=
  match sr_started r with (_, o) :: _ => at_eqb o p i | [] => false end.
Lemma first_at_ok r p i : first_at r p i = true -> exists n o more, sr_started r = (n, o) :: more /\ o_fs o p = i.
Proof.
  unfold first_at. destruct (sr_started r) as [|[n o] more]; [discriminate|]. intro H. exists n, o, more. split; [reflexivity|now apply at_eqb_ok].
Qed.
Lemma names_ok r l : path_eqb (gx_names r) l = true -> map fst (sr_started r) = l.
Proof. apply path_eqb_spec. Qed.

(** ** C68 *)
Lemma gx_spot : free_spot (gx_remove (hx_os 1000)) se_dir [[x77]; se_dir].
Proof.
  split; [cbn; intuition discriminate|]. exists [[x77]], se_dir. split; [reflexivity|]. split; vm_compute; reflexivity.
Qed.
Lemma gx_empty r : o_fs (gx_remove (hx_os 1000)) ([[x77]; se_dir] ++ r) = None.
Proof. reflexivity. Qed.
Lemma gx_extractable : Forall (fun x => extractable false 18 (lenN se_dir) (fst x) (snd x)) (without_own (b "tool") se_tree).
Proof.
  change (without_own (b "tool") se_tree) with [(b "sub", SDir 493 [(b "a", se_file (b "xyz"))])].
  apply Forall_cons; [|apply Forall_nil]. cbn [fst snd].
  apply xt_dir; [plain_case|reflexivity|split; reflexivity|cbn [map fst]; nodup_case|].
  apply Forall_cons; [|apply Forall_nil]. cbn [fst snd]. apply xt_file; [plain_case|reflexivity].
Qed.
Lemma ex_c68 : exists out cevs r s,
  se_run se_tree se_wr 9 (b "./tool") (Some (b "TOOL")) = Ok (SeBuild (CRet 0) out) /\
  dropN (max_exe true) out = cev_bytes cevs /\ last_not_full cevs /\
  calm rle_zlib hx_hal ax_al hx_stk (zeros DEF_CHUNK_SIZE) ax_hjunk ex_pj /\ (length (dropN (max_exe true) out) < 4000)%nat /\
  preorder (without_own (b "tool") se_tree) <> [] /\
  Forall (fun x => extractable false 18 (lenN se_dir) (fst x) (snd x)) (without_own (b "tool") se_tree) /\
  free_spot (gx_remove (hx_os 1000)) se_dir [[x77]; se_dir] /\ (forall r, o_fs (gx_remove (hx_os 1000)) ([[x77]; se_dir] ++ r) = None) /\
  volume (preorder (without_own (b "tool") se_tree)) = 3 /\
  gx_go (Some 0%Z) None (cev_bytes cevs) (hx_os 1000) = Ok r /\ sr_sess r = Some s /\ room_left s /\
  exists o2, sr_started r = [(b ".out_dir/maind.exe", o2)] /\
    o_fs o2 [[x77]; se_dir; b "sub"; b "a"] = Some (IFile 420 (b "xyz")) /\ o_fs o2 [[x77]; se_dir; b "tool"] = None.
Proof.
  assert (A : exists cevs ws wx led,
    compress_dir rle_zlib LE (se_filter (b "tool")) (ax_jk x11) ax_hj ax_xjk ax_hjunk ax_al 3 Z_BEST_COMPRESSION 1 false [] (Some se_tree) (true, true)
      = Ok (CRet 0, cevs, ws, wx, led) /\ cev_bytes cevs = se_arch se_tree /\ last_not_full cevs).
  { eexists _, _, _, _. split; [vm_compute; reflexivity|]. split; [vm_compute; reflexivity|]. apply ax_not_full. vm_compute. reflexivity. }
  destruct A as (cevs & ws & wx & led & A & Ea & L).
  exists (b "TOOL" ++ zeros (max_exe true - lenN (b "TOOL")) ++ cev_bytes cevs), cevs.
  destruct (gx_of (gx_go (Some 0%Z) None (se_arch se_tree) (hx_os 1000))
    (fun r => match sr_sess r, sr_started r with
              | Some s, [(n, o)] => (0 <? z_aout (d_zs s)) && bytes_eqb n (b ".out_dir/maind.exe") &&
                   (at_eqb o [[x77]; se_dir; b "sub"; b "a"] (Some (IFile 420 (b "xyz"))) && at_eqb o [[x77]; se_dir; b "tool"] None)
              | _, _ => false
              end)) as (r & G & H); [vm_compute; reflexivity|].
  destruct (sr_sess r) as [s|] eqn:Es; [|discriminate H].
  destruct (sr_started r) as [|[n o] [|? ?]] eqn:Et; try discriminate H.
  apply andb_prop in H. destruct H as [H1 H2]. apply andb_prop in H1, H2. destruct H1 as [H1 H0], H2 as [H2 H3].
  apply bytes_eqb_spec in H0. subst n.
  exists r, s.
  assert (Ne : cev_bytes cevs <> []). { rewrite Ea. vm_compute. discriminate. }
  split; [now apply (se_builds se_tree cevs ws wx led)|].
  assert (D : dropN (max_exe true) (b "TOOL" ++ zeros (max_exe true - lenN (b "TOOL")) ++ cev_bytes cevs) = cev_bytes cevs).
  { rewrite app_assoc. apply dropN_app_exact. rewrite lenN_app, lenN_zeros. reflexivity. }
  split; [exact D|]. split; [exact L|]. split; [exact hx_calm|].
  split; [rewrite D, Ea; apply Nat.ltb_lt; vm_compute; reflexivity|]. split; [vm_compute; discriminate|]. split; [exact gx_extractable|].
  split; [exact gx_spot|]. split; [exact gx_empty|]. split; [vm_compute; reflexivity|].
  split; [rewrite Ea; exact G|]. split; [exact Es|]. split; [now apply N.ltb_lt|].
  exists o. split; [exact Et|]. split; now apply at_eqb_ok.
Qed.

(** ** C69, C70, C71 *)
(** Both programs end with 3. *)
Lemma ex_c69 : exists r, gx_go (Some 3%Z) (Some 3%Z) (se_arch se_tree) (hx_os 1000) = Ok r /\
  map fst (sr_started r) = [b ".out_dir/maind.exe"; b ".out_dir/main.exe"] /\ sr_ret r = 0%Z.
Proof.
  destruct (gx_of (gx_go (Some 3%Z) (Some 3%Z) (se_arch se_tree) (hx_os 1000))
    (fun r => path_eqb (gx_names r) [b ".out_dir/maind.exe"; b ".out_dir/main.exe"] && (sr_ret r =? 0)%Z)) as (r & G & H); [vm_compute; reflexivity|].
  apply andb_prop in H. destruct H as [H1 H2]. exists r. split; [exact G|]. split; [now apply names_ok|now apply Z.eqb_eq].
Qed.
(** Neither can be started. *)
Lemma ex_c69_none : exists r, gx_go None None (se_arch se_tree) (hx_os 1000) = Ok r /\ sr_ret r = 0%Z.
Proof.
  destruct (gx_of (gx_go None None (se_arch se_tree) (hx_os 1000)) (fun r => (sr_ret r =? 0)%Z)) as (r & G & H); [vm_compute; reflexivity|].
  exists r. split; [exact G|now apply Z.eqb_eq].
Qed.
(** A failing extraction: nothing is started. *)
Lemma ex_c69_fails : exists r, gx_go (Some 0%Z) None [] (hx_os 1000) = Ok r /\ sr_ret r = 1%Z /\ sr_started r = [].
Proof.
  destruct (gx_of (gx_go (Some 0%Z) None [] (hx_os 1000)) (fun r => (sr_ret r =? 1)%Z && path_eqb (gx_names r) [])) as (r & G & H); [vm_compute; reflexivity|].
  apply andb_prop in H. destruct H as [H1 H2]. exists r. split; [exact G|]. split; [now apply Z.eqb_eq|].
  apply names_ok in H2. destruct (sr_started r); [reflexivity|discriminate].
Qed.
(** main.exe ends with 0: .out_dir is left. *)
Lemma ex_c71 : exists r, gx_go None (Some 0%Z) (se_arch se_tree) (hx_os 1000) = Ok r /\
  map fst (sr_started r) = [b ".out_dir/maind.exe"; b ".out_dir/main.exe"] /\
  o_fs (sr_os r) [[x77]; se_dir; b "sub"; b "a"] = Some (IFile 420 (b "xyz")).
Proof.
  destruct (gx_of (gx_go None (Some 0%Z) (se_arch se_tree) (hx_os 1000))
    (fun r => path_eqb (gx_names r) [b ".out_dir/maind.exe"; b ".out_dir/main.exe"] &&
              at_eqb (sr_os r) [[x77]; se_dir; b "sub"; b "a"] (Some (IFile 420 (b "xyz"))))) as (r & G & H); [vm_compute; reflexivity|].
  apply andb_prop in H. destruct H as [H1 H2]. exists r. split; [exact G|]. split; [now apply names_ok|now apply at_eqb_ok].
Qed.
Lemma ex_c71_partial : exists r, gx_go (Some 0%Z) None (se_arch se_tree) (hx_os 1000) = Ok r /\
  map fst (sr_started r) = [b ".out_dir/maind.exe"] /\ o_fs (sr_os r) [[x77]; se_dir; b "sub"; b "a"] = None.
Proof.
  destruct (gx_of (gx_go (Some 0%Z) None (se_arch se_tree) (hx_os 1000))
    (fun r => path_eqb (gx_names r) [b ".out_dir/maind.exe"] &&
              at_eqb (sr_os r) [[x77]; se_dir; b "sub"; b "a"] None)) as (r & G & H); [vm_compute; reflexivity|].
  apply andb_prop in H. destruct H as [H1 H2]. exists r. split; [exact G|]. split; [now apply names_ok|now apply at_eqb_ok].
Qed.

(** ** C72 *)
(** The last 28 bytes are missing. *)
Lemma ex_c72 : exists r n o more, lenN (rx_arch (rx_file [x78] [x31;x32;x33] 420)) = 368 /\
  gx_go (Some 0%Z) None (takeN 340 (rx_arch (rx_file [x78] [x31;x32;x33] 420))) (hx_os 1000) = Ok r /\
  sr_started r = (n, o) :: more /\ o_fs o [[x77]; se_dir; [x78]] = None /\ sr_ret r = 0%Z.
Proof.
  destruct (gx_of (gx_go (Some 0%Z) None (takeN 340 (rx_arch (rx_file [x78] [x31;x32;x33] 420))) (hx_os 1000))
    (fun r => first_at r [[x77]; se_dir; [x78]] None && (sr_ret r =? 0)%Z)) as (r & G & H); [vm_compute; reflexivity|].
  apply andb_prop in H. destruct H as [H1 H2]. destruct (first_at_ok _ _ _ H1) as (n & o & more & E & F).
  exists r, n, o, more. split; [vm_compute; reflexivity|]. split; [exact G|]. split; [exact E|]. split; [exact F|now apply Z.eqb_eq].
Qed.
Lemma ex_c72_partial : exists r, calm rle_zlib hx_hal ax_al hx_stk (zeros DEF_CHUNK_SIZE) ax_hjunk ex_pj /\
  supported rle_zlib rle_contract (se_arch se_tree) /\ gx_go (Some 0%Z) None (se_arch se_tree) (hx_os 1000) = Ok r /\ sr_started r <> [].
Proof.
  destruct (gx_of (gx_go (Some 0%Z) None (se_arch se_tree) (hx_os 1000)) (fun r => negb (path_eqb (gx_names r) []))) as (r & G & H); [vm_compute; reflexivity|].
  exists r. split; [exact hx_calm|]. split; [|split; [exact G|intro Q; unfold gx_names in H; rewrite Q in H; discriminate]].
  right. vm_compute. reflexivity.
Qed.

(** ** C70: maind.exe ran and ended with 3 *)
Lemma ex_c70 : exists r, gx_go (Some 3%Z) (Some 0%Z) (se_arch se_tree) (hx_os 1000) = Ok r /\
  map fst (sr_started r) = [b ".out_dir/maind.exe"; b ".out_dir/main.exe"].
Proof.
  destruct (gx_of (gx_go (Some 3%Z) (Some 0%Z) (se_arch se_tree) (hx_os 1000))
    (fun r => path_eqb (gx_names r) [b ".out_dir/maind.exe"; b ".out_dir/main.exe"])) as (r & G & H); [vm_compute; reflexivity|].
  exists r. split; [exact G|now apply names_ok].
Qed.
Lemma ex_c70_partial : exists r, gx_go (Some 0%Z) (Some 0%Z) (se_arch se_tree) (hx_os 1000) = Ok r /\
  map fst (sr_started r) = [b ".out_dir/maind.exe"].
Proof.
  destruct (gx_of (gx_go (Some 0%Z) (Some 0%Z) (se_arch se_tree) (hx_os 1000))
    (fun r => path_eqb (gx_names r) [b ".out_dir/maind.exe"])) as (r & G & H); [vm_compute; reflexivity|].
  exists r. split; [exact G|now apply names_ok].
Qed.

(** ** C73 *)
Definition gx_ls (d : bytes) : option (list (bytes * snode)) := if bytes_eqb d (b "dir") then Some hx_tree else None.
Definition gx_cd room args :=
  cd_main rle_zlib LE (ax_jk x11) ax_hj ax_xjk ax_hjunk ax_al (fun _ => true) gx_ls room 9 3 args.
Lemma ex_c73 : exists data cevs ws wx led ret o',
  junk_ok (ax_jk x11) ax_hj ax_xjk ax_hjunk /\
  gx_cd 10000 (map b ["-of"; "out"; "-if"; "dir"]%string) = Ok (CRet 0, Some (b "out", data)) /\ data <> [] /\
  compress_dir rle_zlib LE cd_filter (ax_jk x11) ax_hj ax_xjk ax_hjunk ax_al 3 Z_BEST_COMPRESSION 1 false [] (gx_ls (b "dir")) tt
    = Ok (CRet 0, cevs, ws, wx, led) /\ data = cev_bytes cevs /\ last_not_full cevs /\ lenN data < 10000 /\ (length data < 4000)%nat /\
  gx_ls (b "dir") = Some hx_tree /\ tree_fits (Some hx_tree) /\
  calm rle_zlib hx_hal ax_al hx_stk (zeros DEF_CHUNK_SIZE) ax_hjunk ex_pj /\
  preorder hx_tree <> [] /\ Forall (fun x => quiet (snd x)) hx_tree /\ NoDup (map fst hx_tree) /\
  Forall (fun x => extractable false 18 1 (fst x) (snd x)) hx_tree /\ free_spot (hx_os 1000) [x6f] [[x77]; [x6f]] /\
  usable_dir false 18 MODE_BASE_DIR /\ (forall r, o_fs (hx_os 1000) ([[x77]; [x6f]] ++ r) = None) /\ volume (preorder hx_tree) = 4 /\
  did_all (hx_extract [x6f] 0 data (hx_os 1000)) ret o' /\
  o_fs o' [[x77]; [x6f]; [x64]; [x61;x62;x63]] = Some (IFile 420 [x31;x32;x33]).
Proof.
  pose (data := match gx_cd 10000 (map b ["-of"; "out"; "-if"; "dir"]%string) with Ok (_, Some (_, d)) => d | _ => [] end).
  destruct (did_all_of (hx_extract [x6f] 0 data (hx_os 1000)) (fun ret o' =>
    at_eqb o' [[x77]; [x6f]; [x64]; [x61;x62;x63]] (Some (IFile 420 [x31;x32;x33])))) as (ret & o' & D & H); [vm_compute; reflexivity|].
  vm_compute in data. subst data.
  eexists _, _, _, _, _, ret, o'. split; [apply ax_junk|].
  split; [vm_compute; reflexivity|]. split; [discriminate|]. split; [vm_compute; reflexivity|]. split; [vm_compute; reflexivity|].
  split; [apply ax_not_full; vm_compute; reflexivity|]. split; [vm_compute; reflexivity|].
  split; [apply Nat.ltb_lt; vm_compute; reflexivity|]. split; [reflexivity|].
  split; [exact hx_fits|]. split; [exact hx_calm|]. split; [discriminate|].
  split; [exact hx_quiet|]. split; [exact hx_nodup|]. split; [apply hx_extractable|]. split; [apply hx_spot|]. split; [exact hx_base|].
  split; [apply hx_empty|]. split; [reflexivity|]. split; [exact D|]. now apply at_eqb_ok.
Qed.

(** ** C68: a directory in which there is nothing but the tool *)
Definition gx_alone : list (bytes * snode) := [(b "tool", se_file (b "TOOL"))].
Lemma ex_c68_empty : exists out r,
  se_run gx_alone se_wr 9 (b "./tool") (Some (b "TOOL")) = Ok (SeBuild (CRet 0) out) /\
  without_own (b "tool") gx_alone = [] /\ free_spot (gx_remove (hx_os 1000)) se_dir [[x77]; se_dir] /\
  gx_go (Some 0%Z) (Some 0%Z) (dropN (max_exe true) out) (hx_os 1000) = Ok r /\ sr_started r = [] /\
  o_fs (sr_os r) [[x77]; se_dir] = None.
Proof.
  assert (A : exists cevs ws wx led,
    compress_dir rle_zlib LE (se_filter (b "tool")) (ax_jk x11) ax_hj ax_xjk ax_hjunk ax_al 3 Z_BEST_COMPRESSION 1 false [] (Some gx_alone) (true, true)
      = Ok (CRet 0, cevs, ws, wx, led) /\ cev_bytes cevs = se_arch gx_alone /\ cev_bytes cevs <> []).
  { eexists _, _, _, _. split; [vm_compute; reflexivity|]. split; [vm_compute; reflexivity|]. vm_compute. discriminate. }
  destruct A as (cevs & ws & wx & led & A & Ea & Ne).
  exists (b "TOOL" ++ zeros (max_exe true - lenN (b "TOOL")) ++ cev_bytes cevs).
  destruct (gx_of (gx_go (Some 0%Z) (Some 0%Z) (se_arch gx_alone) (hx_os 1000))
    (fun r => path_eqb (gx_names r) [] && at_eqb (sr_os r) [[x77]; se_dir] None)) as (r & G & H); [vm_compute; reflexivity|].
  apply andb_prop in H. destruct H as [H1 H2]. exists r.
  split; [eapply se_builds; [exact A|exact Ne]|]. split; [reflexivity|].
  split; [split; [cbn; intuition discriminate|]; exists [[x77]], se_dir; split; [reflexivity|]; split; vm_compute; reflexivity|].
  rewrite app_assoc, dropN_app_exact by (rewrite lenN_app, lenN_zeros; vm_compute; reflexivity). rewrite Ea.
  split; [exact G|]. apply names_ok in H1. split; [|now apply at_eqb_ok].
  destruct (sr_started r) as [|x y]; [reflexivity|discriminate H1].
Qed.

(** ** C73: an empty folder *)
Lemma ex_c73_empty : exists data ret o',
  cd_main rle_zlib LE (ax_jk x11) ax_hj ax_xjk ax_hjunk ax_al (fun _ => true) (fun _ => Some []) 10000 9 3 (map b ["-of"; "out"; "-if"; "dir"]%string)
    = Ok (CRet 0, Some (b "out", data)) /\ data <> [] /\
  free_spot (hx_os 1000) [x6f] [[x77]; [x6f]] /\
  did (hx_extract [x6f] 0 data (hx_os 1000)) ret o' /\ ret = ContentNone /\ o_fs o' [[x77]; [x6f]] = None.
Proof.
  pose (data := match cd_main rle_zlib LE (ax_jk x11) ax_hj ax_xjk ax_hjunk ax_al (fun _ => true) (fun _ => Some []) 10000 9 3 (map b ["-of"; "out"; "-if"; "dir"]%string)
    with Ok (_, Some (_, d)) => d | _ => [] end).
  destruct (did_of (hx_extract [x6f] 0 data (hx_os 1000)) (fun ret o' => (ret =? ContentNone) && at_eqb o' [[x77]; [x6f]] None))
    as (ret & o' & D & H); [vm_compute; reflexivity|].
  apply andb_prop in H. destruct H as [H1 H2]. exists data, ret, o'.
  split; [vm_compute; reflexivity|]. split; [vm_compute; discriminate|]. split; [apply hx_spot|]. split; [exact D|].
  split; [now apply N.eqb_eq|now apply at_eqb_ok].
Qed.
