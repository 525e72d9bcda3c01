(** SelfBootFacts.v: main of the self extract tool and its arguments (C106). *)
From Coq Require Import Lia Strings.String.
From Verif Require Import Base Format Zlib RleZlib LLCompress CompressFacts Compress Parser ArchiveSpec ArchiveFacts ArchiveExamples HL HLFacts ArgParser Tools ToolsSpec
  ToolsFacts ToolsExamples SelfBoot.
Local Notation b := list_byte_of_string.

Lemma run_cops_no_ub z fuel : forall ops (s : csess z), run_cops fuel s ops <> UB.
Proof.
  induction ops as [|op ops IH]; intro s; cbn [run_cops]; [discriminate|]. destruct op as [d|n sz|i]; [|apply IH|apply IH].
  destruct (compress_call fuel s d) as [[[ret s1] ev1]| |] eqn:E; cbn [obind]; [|exfalso; exact (compress_loop_no_ub _ _ _ _ E)|discriminate].
  destruct (run_cops fuel s1 ops) as [[[rets s2] ev2]| |] eqn:E2; cbn [obind]; try discriminate. exfalso; exact (IH _ E2).
Qed.
Lemma compress_dir_no_ub z e {F} (filt : F -> list bytes -> bytes -> skind -> Z * F) jk hj xjk hjunk al fuel level clbk nested xs root f0 :
  compress_dir z e filt jk hj xjk hjunk al fuel level clbk nested xs root f0 <> UB.
Proof.
  unfold compress_dir. destruct (al 1); [|discriminate]. destruct (al 2); [|discriminate]. cbn [negb].
  destruct (create_csession z fuel e (al 3) ContentDirectory level clbk false DEF_CHUNK_SIZE hjunk) as [[so ev0]| |] eqn:Ec; cbn [obind]; [| |discriminate].
  2: { unfold create_csession in Ec. destruct (al 3); [|discriminate Ec]. cbn [negb] in Ec. destruct (deflateInit z level); [|discriminate Ec].
       destruct (compress_call fuel _ _) as [[[ret s1] ev1]| |] eqn:E; cbn [obind] in Ec; [destruct (ret =? 0)%Z; discriminate Ec| |discriminate Ec].
       exfalso; exact (compress_loop_no_ub _ _ _ _ E). }
  destruct so as [cs|]; [|discriminate]. destruct (walk e filt jk hj [] _ _) as [s1 wevs].
  destruct (run_cops fuel cs _) as [[[rets cs'] evs]| |] eqn:E; cbn [obind]; [|exfalso; exact (run_cops_no_ub _ _ _ _ E)|discriminate].
  destruct (w_dead s1); discriminate.
Qed.
Lemma se_copy_no_ub rd wr fuel : forall k n rest w, se_copy rd wr fuel k n rest w <> UB.
Proof.
  induction fuel as [|fuel IH]; intros k n rest w; cbn [se_copy]; [discriminate|]. destruct rest; [discriminate|]. destruct (0 <? _); apply IH.
Qed.
Lemma se_main_no_ub z e jk hj xjk hjunk al ls rd wr opn ndebug cfuel fuel argv0 exe :
  se_main z e jk hj xjk hjunk al ls rd wr opn ndebug cfuel fuel argv0 exe <> UB.
Proof.
  destruct exe as [x|]; [|discriminate]. cbn [se_main]. destruct (_ <? _); [discriminate|]. destruct (se_name_dir argv0) as [name dir].
  destruct (opn 0); [|discriminate]. cbn [negb]. destruct (se_copy rd wr cfuel 0 0 x (WF [] 0)) as [[w n]| |] eqn:E; cbn [obind]; [|exfalso; exact (se_copy_no_ub _ _ _ _ _ _ _ E)|discriminate].
  destruct (opn 1); [|discriminate]. cbn [negb].
  destruct (compress_dir z e (se_filter name) jk hj xjk hjunk al fuel Z_BEST_COMPRESSION 1 false [] (ls dir) (true, true)) as [[[[[r0 cevs] ws] wx] led]| |] eqn:E2;
    cbn [obind]; [discriminate| |discriminate]. exfalso; eapply compress_dir_no_ub; exact E2.
Qed.

Lemma zeros_first n : 0 < n -> exists r, zeros n = x00 :: r.
Proof.
  intro H. destruct (zeros n) as [|a r] eqn:E.
  - pose proof (lenN_zeros n) as L. rewrite E in L. cbn in L. lia.
  - assert (Q : In a (zeros n)) by (rewrite E; now left). unfold zeros in Q. apply repeat_spec in Q. subst. now exists r.
Qed.
Lemma in_part {A} (x : A) n l : In x (takeN n l) \/ In x (dropN n l) -> In x l.
Proof. intro H. rewrite <- (@takeN_dropN _ n l). apply in_or_app. exact H. Qed.
Lemma cstr_none s : ~ In x00 s -> cstr s = None.
Proof.
  induction s as [|a s IH]; intro H; [reflexivity|]. cbn [cstr]. destruct (byte_eqb a x00) eqn:E.
  - apply byte_eqb_spec in E. destruct H. now left.
  - rewrite IH; [reflexivity|]. intro Q. apply H. now right.
Qed.
Lemma se_path_short junk argv0 : lenN argv0 < VC_BUFFER_SIZE - 1 -> ~ In x00 argv0 -> cstr (se_path junk argv0) = Some argv0.
Proof.
  intros L N0. unfold se_path. rewrite takeN_all by (rewrite lenN_app, lenN_zeros; lia).
  destruct (zeros_first (VC_BUFFER_SIZE - 1 - lenN argv0)) as [r ->]; [lia|]. rewrite <- app_assoc. cbn [app]. now apply cstr_app.
Qed.
Lemma se_path_long junk argv0 : VC_BUFFER_SIZE - 1 <= lenN argv0 -> ~ In x00 argv0 -> ~ In x00 (dropN (VC_BUFFER_SIZE - 1) junk) -> cstr (se_path junk argv0) = None.
Proof.
  intros L N0 N1. unfold se_path. replace (VC_BUFFER_SIZE - 1 - lenN argv0) with 0 by lia. change (zeros 0) with (@nil byte). rewrite app_nil_r.
  apply cstr_none. intro H. apply in_app_or in H. destruct H as [H|H]; [|contradiction]. apply N0. apply (in_part _ (VC_BUFFER_SIZE - 1)). now left.
Qed.

Section Boot.
Context (z : zlib) (e : endian) (jk : N -> bytes) (hj : N -> N -> bytes) (xjk : N -> N -> bytes)
  (hjunk : bytes) (al : N -> bool) (ls : bytes -> option (list (bytes * snode)))
  (rd wr : N -> N -> N) (opn : N -> bool) (ndebug : bool).
(** C106 *)
Lemma boot_safe cfuel fuel junk files argv0 args : lenN argv0 < VC_BUFFER_SIZE - 1 -> ~ In x00 argv0 ->
  se_boot z e jk hj xjk hjunk al ls rd wr opn ndebug cfuel fuel junk true files (argv0 :: args) =
    se_main z e jk hj xjk hjunk al ls rd wr opn ndebug cfuel fuel argv0 (files argv0) /\
  se_boot z e jk hj xjk hjunk al ls rd wr opn ndebug cfuel fuel junk true files (argv0 :: args) <> UB.
Proof.
  intros L N0. assert (E : se_boot z e jk hj xjk hjunk al ls rd wr opn ndebug cfuel fuel junk true files (argv0 :: args) =
    se_main z e jk hj xjk hjunk al ls rd wr opn ndebug cfuel fuel argv0 (files argv0)).
  { unfold se_boot. rewrite se_path_short by assumption. destruct (files argv0); reflexivity. }
  split; [exact E|]. rewrite E. apply se_main_no_ub.
Qed.
Lemma boot_no_args cfuel fuel junk dup files : se_boot z e jk hj xjk hjunk al ls rd wr opn ndebug cfuel fuel junk dup files [] = UB.
Proof. reflexivity. Qed.
Lemma boot_long cfuel fuel junk dup files argv0 args : VC_BUFFER_SIZE - 1 <= lenN argv0 -> ~ In x00 argv0 -> ~ In x00 (dropN (VC_BUFFER_SIZE - 1) junk) ->
  se_boot z e jk hj xjk hjunk al ls rd wr opn ndebug cfuel fuel junk dup files (argv0 :: args) = UB.
Proof. intros. unfold se_boot. now rewrite se_path_long. Qed.
End Boot.

Definition sb_boot dup argv := se_boot rle_zlib LE (ax_jk x11) ax_hj ax_xjk ax_hjunk ax_al (se_ls se_tree) se_rd se_wr se_opn true 9 3
  (repeat x41 4192) dup (fun p => if bytes_eqb p (b "./tool") then Some (b "TOOL") else None) argv.
(** Without memory for the name, in a folder with the entries [es]. *)
Definition sb_unnamed (es : list (bytes * snode)) := se_boot rle_zlib LE (ax_jk x11) ax_hj ax_xjk ax_hjunk ax_al (se_ls es) se_rd se_wr se_opn true 9 3
  (repeat x41 4192) false (fun p => if bytes_eqb p (b "./tool") then Some (b "TOOL") else None) [b "./tool"].
Lemma ex_c106_no_memory : sb_boot false [b "./tool"] = UB /\ sb_unnamed [(b "f", SFile true true 420 1 (b "F") false)] = UB /\
  exists out, sb_unnamed [(b "d", SDir 493 [])] = Ok (SeBuild (CRet 0) out).
Proof.
  split; [vm_compute; reflexivity|]. split; [vm_compute; reflexivity|].
  assert (E : match sb_unnamed [(b "d", SDir 493 [])] with Ok (SeBuild (CRet 0) out) => true | _ => false end = true) by (vm_compute; reflexivity).
  destruct (sb_unnamed _) as [[| |[[| |]|] out]| |]; try discriminate E. exists out. reflexivity.
Qed.
Lemma ex_c106_long : VC_BUFFER_SIZE - 1 <= lenN (repeat x61 4191) /\ ~ In x00 (repeat x61 4191) /\ ~ In x00 (dropN (VC_BUFFER_SIZE - 1) (repeat x41 4192)).
Proof.
  split; [vm_compute; discriminate|]. split; [intro H; apply repeat_spec in H; discriminate|].
  intro H. pose proof (in_part _ _ _ (or_intror H)) as Q. apply repeat_spec in Q. discriminate.
Qed.
Lemma ex_c106 : lenN (b "./tool") < VC_BUFFER_SIZE - 1 /\ ~ In x00 (b "./tool") /\ exists out, sb_boot true [b "./tool"] = Ok (SeBuild (CRet 0) out) /\ 524288 < lenN out.
Proof.
  split; [vm_compute; reflexivity|]. split; [cbn; intuition discriminate|].
  assert (E : match sb_boot true [b "./tool"] with Ok (SeBuild (CRet 0) out) => 524288 <? lenN out | _ => false end = true) by (vm_compute; reflexivity).
  destruct (sb_boot true [b "./tool"]) as [[| |[[| |]|] out]| |]; try discriminate E. exists out. split; [reflexivity|]. now apply N.ltb_lt.
Qed.
