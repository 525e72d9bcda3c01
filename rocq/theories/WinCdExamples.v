(** WinCdExamples.v: concrete runs of compressdir on Windows with the run length codec. *)
From Coq Require Import Lia Strings.String.
From Verif Require Import Base Format Zlib RleZlib LLCompress Compress Parser ParserProofs ParserFacts Decompress DecompressProofs
  DecompressFacts MidProofs MidFacts DecompressExamples ArchiveSpec ArchiveFacts ArchiveDecode ArchiveEntry ArchiveProps ArchiveExamples
  FS FSFacts HL HLSpec HLFacts HLDrive HLProps HLSafe MkdirFacts HLTame HLMkdir HLMore HLExamples WinArchive WinArchiveSpec WinArchiveFacts WinArchiveProps WinCopy
  WinTools WinExtract WinExtractSpec WinExtractFacts WinExtractTame WinExtractExamples WinArchiveExamples
  ArgParser ArgSpec ArgFacts ArgMore ArgExamples Tools ToolsSpec ToolsFacts ToolsMore ToolsExamples WinCd WinCdSpec WinCdFacts.
Local Notation b := list_byte_of_string.

(** The folder dir has the directory D with the file b.TXT, and a link (C135).  Only the output file is in use. *)
Definition wcd_ls (d : bytes) : option (list (bytes * snode)) := if bytes_eqb d (b "dir") then Some wx_tree else None.
Definition wcd_locked (out dir : bytes) (p : list bytes) : bool := bytes_eqb out (dir ++ flat_map (fun n => x2f :: n) p).
Definition wcd_run args :=
  wcd_main rle_zlib LE (ax_jk x11) ax_xjk ax_hjunk ax_al (fun _ => true) wcd_ls wcd_locked 10000 9 3 args.

Lemma unpacks_run87 c rs rets s evs : unpacks rle_zlib c rs -> lenN c < two32 ->
  run_dops LE ex_alloc 4000 ex_sess (ax_ops 87 c) = Ok (rets, s, evs) -> 0 < z_aout (d_zs s) -> presents rs evs.
Proof.
  intros U L H R. refine (U LE ex_alloc 4000%nat ex_sess (ax_ops 87 c) rets s evs (fun _ _ => eq_refl) ex_started _ _ H R).
  - apply Forall_cons; [|apply Forall_cons; [|apply Forall_nil]]; cbn [dop_ok].
    + split; [unfold normal_flush, Z_NO_FLUSH; lia|rewrite lenN_takeN; lia].
    + split; [unfold normal_flush, Z_NO_FLUSH; lia|rewrite lenN_dropN; lia].
  - unfold dfed, ax_ops. cbn [map concat]. rewrite app_nil_r. apply takeN_dropN.
Qed.

(** The link is left out. *)
Lemma ex_c139_link : exists data, wcd_run (map b ["-of"; "out"; "-if"; "dir"]%string) = Ok (CRet 0, Some (b "out", data)) /\
  wcd_ls (b "dir") = Some wx_tree /\ Forall (fun x => quiet (snd x)) wx_tree /\ ~ unpacks rle_zlib data (preorder wx_tree).
Proof.
  eexists. split; [vm_compute; reflexivity|]. split; [reflexivity|]. split; [exact wx_quiet|].
  intro U. eapply unpacks_run87 in U; [|vm_compute; reflexivity|vm_compute; reflexivity|vm_compute; reflexivity].
  destruct U as [[E _]|(evs' & E & S)]; vm_compute in E; [discriminate|]. injection E as <-. vm_compute in S.
  repeat match goal with H : shows _ _ |- _ => inversion H; clear H; subst end.
Qed.

Lemma ex_c139 : exists data cevs ws wx led,
  wcd_run (map b ["-of"; "out"; "-if"; "dir"]%string) = Ok (CRet 0, Some (b "out", data)) /\
  wcompress_dir rle_zlib LE cd_filter (ax_jk x11) ax_xjk ax_hjunk ax_al (wcd_locked (b "out") (b "dir")) 3 Z_BEST_COMPRESSION 1 false [] (wcd_ls (b "dir")) tt
    = Ok (CRet 0, cevs, ws, wx, led) /\
  wcd_ls (b "dir") = Some wx_tree /\ tree_fits (Some wx_tree) /\ Forall (fun x => quiet (snd x)) wx_tree /\
  last_not_full cevs /\ lenN (cev_bytes cevs) <= 10000 /\
  file_at [b "D"; b "b.TXT"] wx_tree /\ wcd_locked (b "dir/D/b.TXT") (b "dir") [b "D"; b "b.TXT"] = true /\
  exists rest, wcd_run (map b ["-of"; "dir/D/b.TXT"; "-if"; "dir"]%string) = Ok (CRet 2, Some (b "dir/D/b.TXT", rest)).
Proof.
  eexists _, _, _, _, _. split; [vm_compute; reflexivity|]. split; [vm_compute; reflexivity|].
  split; [reflexivity|]. split; [exact wx_fits|]. split; [exact wx_quiet|].
  split; [apply ax_not_full; vm_compute; reflexivity|]. split; [vm_compute; discriminate|].
  split.
  { assert (D1 : ~ dotted (b "D")) by (intros [E|E]; discriminate E). assert (D2 : ~ dotted (b "b.TXT")) by (intros [E|E]; discriminate E).
    unfold wx_tree. eapply fa_in; [exact D1|left; reflexivity|]. eapply fa_here; [exact D2|left; reflexivity]. }
  split; [vm_compute; reflexivity|]. eexists. vm_compute. reflexivity.
Qed.
