(** WinSelfExamples.v: concrete runs of the self extract tool on Windows with the run length codec. *)
From Coq Require Import Lia Strings.String.
From Verif Require Import Base Format Zlib RleZlib LLCompress Compress Parser ParserProofs ParserFacts Decompress DecompressProofs
  DecompressFacts MidProofs MidFacts DecompressExamples ArchiveSpec ArchiveFacts ArchiveDecode ArchiveEntry ArchiveProps ArchiveExamples
  FS FSFacts HL HLSpec HLFacts HLDrive HLProps HLSafe MkdirFacts HLTame HLMkdir HLMore HLExamples WinArchive WinArchiveSpec WinArchiveFacts WinArchiveProps WinCopy
  WinTools WinExtract WinExtractSpec WinExtractFacts WinExtractTame WinExtractExamples WinArchiveExamples
  ArgParser ArgSpec ArgFacts ArgMore ArgExamples Tools ToolsSpec ToolsFacts ToolsMore ToolsExamples SelfRunExamples WinCd WinCdSpec WinCdFacts WinSelf WinSelfFacts WinSelfRunFacts.
Local Notation b := list_byte_of_string.

Definition ws_tree : list (bytes * snode) :=
  [(b "maind.exe", se_file (b "M")); (b "Sub", SDir 493 [(b "a", se_file (b "xyz"))]); (b "l", SLink 511 1 (Some (b "a")));
   (b "tool.exe", se_file (b "TOOL")); (b "__out.exe", se_file (b "TO"))].
Definition ws_locked (dir : bytes) (p : list bytes) : bool := path_eqb p [b "tool.exe"] || path_eqb p [b "__out.exe"].
Definition ws_icon (x : bytes) : bytes := x ++ b "ICO".
Definition ws_pack name t := wcompress_dir rle_zlib LE (se_filter name) (ax_jk x11) ax_xjk ax_hjunk ax_al (ws_locked (b ".")) 3 Z_BEST_COMPRESSION 1 false []
  (Some t) (true, true).
Definition ws_arch name t : bytes := match ws_pack name t with Ok (_, cevs, _, _, _) => cev_bytes cevs | _ => [] end.
Definition ws_ret name t := match ws_pack name t with Ok (r, _, _, _, _) => Some r | _ => None end.
Definition ws_run t icon argv0 exe :=
  wse_main rle_zlib LE (ax_jk x11) ax_xjk ax_hjunk ax_al (se_ls t) ws_locked se_rd se_wr se_opn true icon 9 3 argv0 exe.

Definition ws_out : bytes := Eval vm_compute in out_folder.
(** \w\.out_dir\maind.exe is running; \w\.out_dir\data is not in use. *)
Definition ws_w : WinExtract.wst := WinExtract.WS (xupd (xupd (xupd wx_fs [[x77]; ws_out] XDir) [[x77]; ws_out; b "maind.exe"] (XFile false (b "M")))
  [[x77]; ws_out; b "data"] (XFile false (b "D"))) [[x77]] [] 3 false.
Definition ws_stay (k : N) (q : path) : bool := path_eqb q [[x77]; ws_out] || path_eqb q [[x77]; ws_out; b "maind.exe"].
Definition ws_none (k : N) (q : path) : bool := false.
Definition ws_start (c1 c2 : option Z) (k : N) (p : bytes) (w : WinExtract.wst) : option Z * WinExtract.wst := (if k =? 0 then c1 else c2, w).
Definition ws_go stay rest c1 c2 inp w :=
  wse_go 248 260 (fun _ => false) hx_hal hx_stk rle_zlib LE ex_alloc 4000 4000 ax_al (zeros DEF_CHUNK_SIZE) ax_hjunk ex_pj true stay rest (ws_start c1 c2) inp w.

Lemma ws_quiet : Forall (fun x => quiet (snd x)) ws_tree.
Proof.
  repeat apply Forall_cons; try apply Forall_nil; cbn [snd]; try apply se_quiet_file; [|apply (q_link 511 (b "a"))].
  apply q_dir. repeat apply Forall_cons; try apply Forall_nil. apply se_quiet_file.
Qed.
Lemma ws_fits : tree_fits (Some ws_tree).
Proof. unfold tree_fits, listing, ws_tree, se_file. fits_case. Qed.
Lemma ws_names : NoDup (map fst ws_tree).
Proof. vm_compute. names_case. Qed.
Lemma ws_below nm : bytes_eqb nm (b "a") = false -> Forall (fun x => below_free nm (snd x)) ws_tree.
Proof.
  intro Hn. repeat apply Forall_cons; try apply Forall_nil; cbn [snd]; try (apply bf_leaf; reflexivity).
  apply bf_dir; repeat apply Forall_cons; try apply Forall_nil; cbn [fst snd]. split; [|apply bf_leaf; reflexivity].
  intros _ H. rewrite H, (proj2 (bytes_eqb_spec _ _) eq_refl) in Hn. discriminate.
Qed.
Lemma ws_created : created rle_zlib ax_al Z_BEST_COMPRESSION.
Proof. repeat split; discriminate. Qed.
Lemma ws_two p : ws_locked (b ".") p = true -> p = [b "tool.exe"] \/ p = [b "__out.exe"].
Proof. unfold ws_locked. intro H. apply orb_prop in H. destruct H as [H|H]; apply path_eqb_spec in H; auto. Qed.

Lemma ws_packed name t r cevs ws wx led icon : ws_pack name t = Ok (r, cevs, ws, wx, led) ->
  forall argv0, se_name_dir argv0 = (name, b ".") ->
  exists n, ws_run t icon argv0 (Some (b "TOOL")) = Ok (SeBuild r (wf_data (se_writes se_wr n (map ce_data cevs) (WF (icon (b "TOOL")) (max_exe true))))).
Proof.
  intros H argv0 Ha. eexists. unfold ws_run. eapply wse_main_builds; [vm_compute; discriminate|reflexivity|reflexivity|reflexivity|vm_compute; reflexivity|].
  rewrite Ha. exact H.
Qed.

(** ** C140: the executable has become longer than MAX_EXE_SIZE when its icon was set *)
Definition ws_big (x : bytes) : bytes := x ++ zeros (max_exe true).
Lemma zeros_tail m (x : bytes) : 0 < lenN x -> lenN x <= m -> exists r, dropN m (x ++ zeros m) = x00 :: r.
Proof.
  intros Hx Hm. rewrite dropN_app, dropN_all by exact Hm. cbn [app].
  destruct (dropN (m - lenN x) (zeros m)) as [|c r] eqn:E.
  - apply (f_equal lenN) in E. rewrite lenN_dropN, lenN_zeros in E. change (lenN []) with 0 in E. lia.
  - exists r. f_equal. assert (Hi : In c (zeros m)). { rewrite <- (takeN_dropN _ (m - lenN x) (zeros m)). apply in_or_app. right. rewrite E. now left. }
    unfold zeros in Hi. now apply repeat_spec in Hi.
Qed.
Lemma big_tail : exists r, dropN (max_exe true) (ws_big (b "TOOL")) = x00 :: r.
Proof. apply zeros_tail; [reflexivity|vm_compute; discriminate]. Qed.
Lemma ex_c140_refuted : exists out, lenN (b "TOOL") <= max_exe true /\
  ws_run ws_tree ws_big (b ".\tool.exe") (Some (b "TOOL")) = Ok (SeBuild (CRet 0) out) /\ ~ prefix (ws_big (b "TOOL")) out.
Proof.
  assert (A : exists c cevs ws wx led, ws_pack (b "tool.exe") ws_tree = Ok (CRet 0, cevs, ws, wx, led) /\ cev_bytes cevs = x04 :: c).
  { eexists _, _, _, _, _. split; vm_compute; reflexivity. }
  destruct A as (c & cevs & ws & wx & led & H & Hc).
  destruct (ws_packed _ _ _ _ _ _ _ ws_big H (b ".\tool.exe") eq_refl) as (n & R).
  eexists. split; [vm_compute; discriminate|]. split; [exact R|]. rewrite (se_writes_over se_wr (fun _ _ => eq_refl)); [|unfold ws_big; rewrite lenN_app, lenN_zeros; lia].
  fold (cev_bytes cevs). rewrite Hc. unfold overwrite. intros P. apply (prefix_dropN (max_exe true)) in P.
  rewrite dropN_app_exact in P by (rewrite lenN_takeN; unfold ws_big; rewrite lenN_app, lenN_zeros; lia).
  destruct big_tail as (r & E). rewrite E in P. destruct P as (y & P). discriminate P.
Qed.
Lemma ws_short : lenN (ws_icon (b "TOOL")) <= max_exe true.
Proof. vm_compute. discriminate. Qed.
Lemma ws_builds : exists cevs out, ws_run ws_tree ws_icon (b ".\tool.exe") (Some (b "TOOL")) = Ok (SeBuild (CRet 0) out) /\
  dropN (max_exe true) out = cev_bytes cevs /\ last_not_full cevs /\ cev_bytes cevs = ws_arch (b "tool.exe") ws_tree.
Proof.
  assert (A : exists cevs ws wx led, ws_pack (b "tool.exe") ws_tree = Ok (CRet 0, cevs, ws, wx, led) /\ last_not_full cevs /\ cev_bytes cevs <> [] /\
    cev_bytes cevs = ws_arch (b "tool.exe") ws_tree).
  { eexists _, _, _, _. split; [vm_compute; reflexivity|]. split; [apply ax_not_full; vm_compute; reflexivity|]. split; [discriminate|vm_compute; reflexivity]. }
  destruct A as (cevs & ws & wx & led & H & Ln & Ne & Ea).
  destruct (ws_packed _ _ _ _ _ _ _ ws_icon H (b ".\tool.exe") eq_refl) as (n & R).
  exists cevs. eexists. split; [exact R|]. split; [|split; [exact Ln|exact Ea]].
  rewrite se_writes_hole; cbn [wf_data wf_pos]; [|reflexivity|exact ws_short|exact Ne].
  rewrite app_assoc. apply dropN_app_exact. rewrite lenN_app, lenN_zeros. pose proof ws_short. lia.
Qed.
Lemma ex_c140 : exists cevs out, lenN (b "TOOL") <= max_exe true /\ lenN (ws_icon (b "TOOL")) <= max_exe true /\
  ws_run ws_tree ws_icon (b ".\tool.exe") (Some (b "TOOL")) = Ok (SeBuild (CRet 0) out) /\ dropN (max_exe true) out = cev_bytes cevs /\ last_not_full cevs /\
  se_name_dir (b ".\tool.exe") = (b "tool.exe", b ".") /\ se_ls ws_tree (b ".") = Some ws_tree /\
  junk_ok (ax_jk x11) (fun _ n => zeros n) ax_xjk ax_hjunk /\ tree_fits (Some ws_tree) /\ Forall (fun x => quiet (snd x)) ws_tree /\
  NoDup (map fst ws_tree) /\ Forall (fun x => below_free (b "tool.exe") (snd x)) ws_tree /\ Forall (fun x => below_free se_out (snd x)) ws_tree /\
  preorder (unlinked_all (without_own (b "tool.exe") ws_tree)) =
    [AFile (b "maind.exe") 420 1 (b "M"); ADir (b "Sub") 493; AFile (b "a") 420 3 (b "xyz"); AEnd].
Proof.
  destruct ws_builds as (cevs & out & R & D & Ln & _). exists cevs, out. split; [vm_compute; discriminate|]. split; [exact ws_short|]. split; [exact R|].
  split; [exact D|]. split; [exact Ln|]. split; [reflexivity|]. split; [reflexivity|]. split; [exact wa_junk|]. split; [exact ws_fits|]. split; [exact ws_quiet|].
  split; [exact ws_names|]. split; [now apply ws_below|]. split; [now apply ws_below|]. vm_compute. reflexivity.
Qed.

(** ** C141: started with a name in other case; the folder Sub has a file of the output's name *)
Definition ws_tree2 : list (bytes * snode) :=
  [(b "Sub", SDir 493 [(b "__out.exe", se_file (b "xyz"))]); (b "tool.exe", se_file (b "TOOL")); (b "__out.exe", se_file (b "TO"))].
Definition ws_returns name t v : bool := match ws_pack name t with Ok (CRet r, _, _, _, _) => (r =? v)%Z | _ => false end.
Lemma ws_returned name t v icon argv0 : ws_returns name t v = true -> se_name_dir argv0 = (name, b ".") ->
  exists out, ws_run t icon argv0 (Some (b "TOOL")) = Ok (SeBuild (CRet v) out).
Proof.
  unfold ws_returns. intros H Ha.
  destruct (ws_pack name t) as [[[[[[r|] cevs] ws] wx] led]| |] eqn:E; [|discriminate H|discriminate H|discriminate H]. apply Z.eqb_eq in H. subst r.
  destruct (ws_packed _ _ _ _ _ _ _ icon E argv0 Ha) as (n & R). eauto.
Qed.
Lemma ex_c141_refuted : (forall p, ws_locked (b ".") p = true -> p = [b "tool.exe"] \/ p = [b "__out.exe"]) /\
  (exists out, ws_run ws_tree ws_icon (b ".\tool.exe") (Some (b "TOOL")) = Ok (SeBuild (CRet 0) out)) /\
  fold_case (b ".\TOOL.EXE") = fold_case (b ".\tool.exe") /\
  (exists out, ws_run ws_tree ws_icon (b ".\TOOL.EXE") (Some (b "TOOL")) = Ok (SeBuild (CRet 2) out)) /\
  exists out, ws_run ws_tree2 ws_icon (b ".\tool.exe") (Some (b "TOOL")) = Ok (SeBuild (CRet 2) out).
Proof.
  split; [exact ws_two|]. split; [apply (ws_returned (b "tool.exe")); [vm_compute; reflexivity|reflexivity]|]. split; [reflexivity|].
  split; [apply (ws_returned (b "TOOL.EXE")); [vm_compute; reflexivity|reflexivity]|]. apply (ws_returned (b "tool.exe")); [vm_compute; reflexivity|reflexivity].
Qed.
Lemma ex_c141 : exists out out2, ws_run ws_tree ws_icon (b ".\tool.exe") (Some (b "TOOL")) = Ok (SeBuild (CRet 0) out) /\
  created rle_zlib ax_al Z_BEST_COMPRESSION /\ junk_ok (ax_jk x11) (fun _ n => zeros n) ax_xjk ax_hjunk /\ tree_fits (Some ws_tree) /\
  NoDup (map fst ws_tree) /\ Forall (fun x => below_free (b "tool.exe") (snd x)) ws_tree /\ Forall (fun x => below_free se_out (snd x)) ws_tree /\
  Forall (fun x => below_free (b "TOOL.EXE") (snd x)) ws_tree /\
  ws_run ws_tree ws_icon (b ".\TOOL.EXE") (Some (b "TOOL")) = Ok (SeBuild (CRet 2) out2).
Proof.
  destruct (ws_returned (b "tool.exe") ws_tree 0 ws_icon (b ".\tool.exe")) as (out & R); [vm_compute; reflexivity|reflexivity|].
  destruct (ws_returned (b "TOOL.EXE") ws_tree 2 ws_icon (b ".\TOOL.EXE")) as (out2 & R2); [vm_compute; reflexivity|reflexivity|].
  exists out, out2. split; [exact R|]. split; [exact ws_created|]. split; [exact wa_junk|]. split; [exact ws_fits|]. split; [exact ws_names|].
  split; [now apply ws_below|]. split; [now apply ws_below|]. split; [now apply ws_below|]. exact R2.
Qed.

(** ** Runs *)
Definition ws_test (x : outcome (wse_ran rle_zlib)) (P : wse_ran rle_zlib -> bool) : bool := match x with Ok r => P r | _ => false end.
Lemma ws_of x P : ws_test x P = true -> exists r, x = Ok r /\ P r = true.
Proof. destruct x; try discriminate. cbn. eauto. Qed.
Definition ws_first (r : wse_ran rle_zlib) (p : path) (i : option xnode) : bool :=
  match wr_started r with (_, w) :: _ => xat w p i | [] => false end.
Lemma ws_first_ok r p i : ws_first r p i = true -> exists n w more, wr_started r = (n, w) :: more /\ w_fs w p = i.
Proof.
  unfold ws_first. destruct (wr_started r) as [|[n w] more]; [discriminate|]. intro H. exists n, w, more. split; [reflexivity|now apply xat_ok].
Qed.
Definition ws_names_are (r : wse_ran rle_zlib) (l : list bytes) : bool := path_eqb (map fst (wr_started r)) l.
Definition ws_ends (r : wse_ran rle_zlib) (v : option Z) : bool :=
  match wr_ret r, v with Some a, Some c => (a =? c)%Z | None, None => true | _, _ => false end.
Lemma ws_ends_ok r v : ws_ends r v = true -> wr_ret r = v.
Proof. unfold ws_ends. destruct (wr_ret r), v; try discriminate; [|reflexivity]. intro H. apply Z.eqb_eq in H. now subst. Qed.
Definition ws_room (r : wse_ran rle_zlib) : bool := match wr_sess r with Some s => 0 <? z_aout (d_zs s) | None => false end.
Lemma ws_room_ok r : ws_room r = true -> exists s, wr_sess r = Some s /\ room_left s.
Proof. unfold ws_room. destruct (wr_sess r) as [s|]; [|discriminate]. intro H. exists s. split; [reflexivity|]. now apply N.ltb_lt. Qed.
Ltac bools H := repeat match type of H with _ && _ = true => let H' := fresh H in apply andb_prop in H; destruct H as [H' H] end.

(** C142: .out_dir is followed by other bytes in memory; \w\f is removed before the program is started. *)
Lemma ex_c142_refuted : exists cevs out r, ws_run ws_tree ws_icon (b ".\tool.exe") (Some (b "TOOL")) = Ok (SeBuild (CRet 0) out) /\
  dropN (max_exe true) out = cev_bytes cevs /\ last_not_full cevs /\
  ws_go ws_none (b "f" ++ [x00; x00]) (Some 0%Z) (Some 0%Z) (cev_bytes cevs) ws_w = Ok r /\
  w_fs ws_w [[x77]; [x66]] = Some (XFile false (b "old")) /\
  exists n w more, wr_started r = (n, w) :: more /\ w_fs w [[x77]; [x66]] = None.
Proof.
  destruct ws_builds as (cevs & out & R & D & Ln & Ea). rewrite Ea in *.
  destruct (ws_of (ws_go ws_none (b "f" ++ [x00; x00]) (Some 0%Z) (Some 0%Z) (ws_arch (b "tool.exe") ws_tree) ws_w) (fun r => ws_first r [[x77]; [x66]] None))
    as (r & E & H); [vm_compute; reflexivity|].
  exists cevs, out, r. rewrite Ea. split; [exact R|]. split; [exact D|]. split; [exact Ln|]. split; [exact E|]. split; [reflexivity|]. now apply ws_first_ok.
Qed.
Lemma ws_able : Forall (fun x => wextractable 248 260 8 (fst x) (snd x)) (without_own (b "tool.exe") ws_tree).
Proof.
  change (without_own (b "tool.exe") ws_tree) with
    [(b "maind.exe", se_file (b "M")); (b "Sub", SDir 493 [(b "a", se_file (b "xyz"))]); (b "l", SLink 511 1 (Some (b "a")))].
  repeat apply Forall_cons; cbn [fst snd]; try apply Forall_nil; [apply wx_file; reflexivity| |apply wx_link].
  apply wx_dir; [reflexivity|reflexivity|cbn [map fst]; nodup_case|]. repeat apply Forall_cons; cbn [fst snd]; [|apply Forall_nil]. apply wx_file; reflexivity.
Qed.
Lemma ex_c142 : exists cevs out r s, ws_run ws_tree ws_icon (b ".\tool.exe") (Some (b "TOOL")) = Ok (SeBuild (CRet 0) out) /\
  dropN (max_exe true) out = cev_bytes cevs /\ last_not_full cevs /\ (List.length (cev_bytes cevs) < 4000)%nat /\
  preorder (unlinked_all (without_own (b "tool.exe") ws_tree)) <> [] /\ NoDup (map (fun x => fold_case (fst x)) (without_own (b "tool.exe") ws_tree)) /\
  Forall (fun x => wextractable 248 260 8 (fst x) (snd x)) (without_own (b "tool.exe") ws_tree) /\
  calm rle_zlib hx_hal ax_al hx_stk (zeros DEF_CHUNK_SIZE) ax_hjunk ex_pj /\ xdir (w_fs ws_w) (w_cwd ws_w) = true /\
  w_fs ws_w [[x77]; out_folder; b "data"] = Some (XFile false (b "D")) /\
  ws_go ws_none [x00] (Some 0%Z) (Some 0%Z) (cev_bytes cevs) ws_w = Ok r /\ wr_sess r = Some s /\ room_left s /\
  wr_ret r = Some 0%Z /\ map fst (wr_started r) = [b ".out_dir\maind.exe"] /\
  (exists n w more, wr_started r = (n, w) :: more /\ w_fs w [[x77]; out_folder; b "data"] = None) /\
  exists n w more, wr_started r = (n, w) :: more /\ w_fs w [[x77]; out_folder; b "sub"; b "a"] = Some (XFile false (b "xyz")).
Proof.
  destruct ws_builds as (cevs & out & R & D & Ln & Ea). rewrite Ea in *.
  destruct (ws_of (ws_go ws_none [x00] (Some 0%Z) (Some 0%Z) (ws_arch (b "tool.exe") ws_tree) ws_w) (fun r => ws_room r && (ws_ends r (Some 0%Z) &&
    (ws_names_are r [b ".out_dir\maind.exe"] && (ws_first r [[x77]; out_folder; b "data"] None &&
     ws_first r [[x77]; out_folder; b "sub"; b "a"] (Some (XFile false (b "xyz"))))))))
    as (r & E & H); [vm_compute; reflexivity|].
  apply andb_prop in H. destruct H as [H1 H]. apply andb_prop in H. destruct H as [H2 H]. apply andb_prop in H. destruct H as [H3 H]. apply andb_prop in H. destruct H as [H4 H5].
  destruct (ws_room_ok r H1) as (s & Hs & Rl). exists cevs, out, r, s. rewrite Ea.
  split; [exact R|]. split; [exact D|]. split; [exact Ln|]. split; [apply Nat.ltb_lt; vm_compute; reflexivity|]. split; [vm_compute; discriminate|].
  split; [vm_compute; names_case|]. split; [exact ws_able|]. split; [exact hx_calm|]. split; [reflexivity|]. split; [reflexivity|]. split; [exact E|]. split; [exact Hs|].
  split; [exact Rl|]. split; [now apply ws_ends_ok|]. split; [now apply path_eqb_spec|]. split; now apply ws_first_ok.
Qed.

(** C143 *)
Lemma ws_packed_dir : dir_archive rle_contract (ws_arch (b "tool.exe") ws_tree) (preorder (unlinked_all (without_own (b "tool.exe") ws_tree))).
Proof.
  assert (A : exists cevs ws wx led, wcompress_dir rle_zlib LE (se_filter (b "tool.exe")) (ax_jk x11) ax_xjk ax_hjunk ax_al (ws_locked (b ".")) 3 Z_BEST_COMPRESSION 1 false []
    (Some ws_tree) (true, true) = Ok (CRet 0, cevs, ws, wx, led) /\ last_not_full cevs /\
    cev_bytes cevs = ws_arch (b "tool.exe") ws_tree).
  { eexists _, _, _, _. split; [vm_compute; reflexivity|]. split; [apply ax_not_full; vm_compute; reflexivity|vm_compute; reflexivity]. }
  destruct A as (cevs & ws & wx & led & H & Ln & Ea). rewrite <- Ea.
  pose proof (fun B1 B2 => own_archived rle_zlib rle_contract LE (ax_jk x11) ax_xjk ax_hjunk ax_al (b "tool.exe") (ws_locked (b ".")) 3 ws_tree (CRet 0) cevs ws wx led
    wa_junk ws_fits ws_names B1 B2 H) as P.
  specialize (P (ws_below (b "tool.exe") eq_refl) (ws_below se_out eq_refl) ws_created).
  destruct P as [(_ & _ & _ & K)|(Q & _)]; [|discriminate Q].
  exact (K ws_quiet Ln).
Qed.
Lemma ex_c143_refuted : exists r, dir_archive rle_contract (ws_arch (b "tool.exe") ws_tree) (preorder (unlinked_all (without_own (b "tool.exe") ws_tree))) /\
  calm rle_zlib hx_hal ax_al hx_stk (zeros DEF_CHUNK_SIZE) ax_hjunk ex_pj /\
  (forall q, ws_stay 0 q = true -> q = [[x77]; out_folder] \/ q = [[x77]; out_folder; b "maind.exe"]) /\
  w_fs ws_w [[x77]; out_folder; b "data"] = Some (XFile false (b "D")) /\ w_fs ws_w [b "maind.exe"] = None /\
  ws_go ws_stay [x00] (Some 0%Z) (Some 0%Z) (ws_arch (b "tool.exe") ws_tree) ws_w = Ok r /\ wr_ret r = Some 1%Z /\ wr_started r = [] /\
  w_fs (wr_w r) [[x77]; out_folder; b "data"] = None /\ w_fs (wr_w r) [b "maind.exe"] = Some (XFile false (b "M")).
Proof.
  destruct (ws_of (ws_go ws_stay [x00] (Some 0%Z) (Some 0%Z) (ws_arch (b "tool.exe") ws_tree) ws_w) (fun r => ws_ends r (Some 1%Z) &&
    (ws_names_are r [] && (xat (wr_w r) [[x77]; out_folder; b "data"] None && xat (wr_w r) [b "maind.exe"] (Some (XFile false (b "M")))))))
    as (r & E & H); [vm_compute; reflexivity|].
  apply andb_prop in H. destruct H as [H1 H]. apply andb_prop in H. destruct H as [H2 H]. apply andb_prop in H. destruct H as [H3 H4].
  exists r. split; [exact ws_packed_dir|]. split; [exact hx_calm|].
  split. { intros q Hq. unfold ws_stay in Hq. apply orb_prop in Hq. destruct Hq as [Hq|Hq]; apply path_eqb_spec in Hq; auto. }
  split; [reflexivity|]. split; [reflexivity|]. split; [exact E|]. split; [now apply ws_ends_ok|].
  split; [|split; now apply xat_ok]. apply path_eqb_spec in H2. destruct (wr_started r); [reflexivity|discriminate H2].
Qed.
Lemma ex_c143 : exists w1 r, dir_archive rle_contract (ws_arch (b "tool.exe") ws_tree) (preorder (unlinked_all (without_own (b "tool.exe") ws_tree))) /\
  calm rle_zlib hx_hal ax_al hx_stk (zeros DEF_CHUNK_SIZE) ax_hjunk ex_pj /\ w_dead ws_w = false /\
  xremove (ws_stay 0) [x00] ws_w = Ok w1 /\ w_fs w1 (w_cwd w1 ++ [out_folder]) = Some XDir /\
  ws_go ws_stay [x00] (Some 0%Z) (Some 0%Z) (ws_arch (b "tool.exe") ws_tree) ws_w = Ok r.
Proof.
  destruct ex_c143_refuted as (r & D & Ca & _ & _ & _ & E & _). eexists _, r. split; [exact D|]. split; [exact Ca|]. split; [reflexivity|].
  split; [reflexivity|]. split; [reflexivity|]. exact E.
Qed.

(** C144 *)
Lemma ex_c144 : exists r1 r2 r3,
  ws_go ws_none [x00] (Some 0%Z) (Some 7%Z) (ws_arch (b "tool.exe") ws_tree) ws_w = Ok r1 /\ wr_ret r1 = Some 0%Z /\
  map fst (wr_started r1) = [b ".out_dir\maind.exe"] /\
  ws_go ws_none [x00] None (Some 7%Z) (ws_arch (b "tool.exe") ws_tree) ws_w = Ok r2 /\ wr_ret r2 = Some 0%Z /\
  map fst (wr_started r2) = [b ".out_dir\maind.exe"; b ".out_dir\main.exe"] /\
  ws_go ws_stay [x00] (Some 0%Z) (Some 0%Z) (ws_arch (b "tool.exe") ws_tree) ws_w = Ok r3 /\ wr_ret r3 = Some 1%Z /\ wr_started r3 = [].
Proof.
  destruct (ws_of (ws_go ws_none [x00] (Some 0%Z) (Some 7%Z) (ws_arch (b "tool.exe") ws_tree) ws_w) (fun r => ws_ends r (Some 0%Z) && ws_names_are r [b ".out_dir\maind.exe"]))
    as (r1 & E1 & H1); [vm_compute; reflexivity|].
  destruct (ws_of (ws_go ws_none [x00] None (Some 7%Z) (ws_arch (b "tool.exe") ws_tree) ws_w)
    (fun r => ws_ends r (Some 0%Z) && ws_names_are r [b ".out_dir\maind.exe"; b ".out_dir\main.exe"])) as (r2 & E2 & H2); [vm_compute; reflexivity|].
  destruct ex_c143_refuted as (r3 & _ & _ & _ & _ & _ & E3 & A & B & _).
  apply andb_prop in H1. destruct H1 as [A1 B1]. apply andb_prop in H2. destruct H2 as [A2 B2].
  exists r1, r2, r3. split; [exact E1|]. split; [now apply ws_ends_ok|]. split; [now apply path_eqb_spec|].
  split; [exact E2|]. split; [now apply ws_ends_ok|]. split; [now apply path_eqb_spec|]. auto.
Qed.
