(** WinParentsExamples.v: extraction on Windows into a directory whose parents are missing. *)
From Coq Require Import Lia.
From Verif Require Import Base Format Zlib RleZlib LLCompress Compress Parser ParserProofs ParserFacts Decompress DecompressProofs
  DecompressFacts MidProofs MidFacts DecompressExamples ArchiveSpec ArchiveFacts ArchiveDecode ArchiveEntry ArchiveProps ArchiveExamples
  FS FSFacts HL HLSpec HLFacts HLDrive HLProps HLSafe MkdirFacts HLTame HLMkdir HLMore HLExamples WinTools WinFacts WinExtract WinExtractSpec WinExtractFacts
  WinExtractTame WinExtractExamples WinParents.

Lemma wp_names : Forall wentry [[x50]; [x71]].
Proof. repeat constructor; cbn; intuition discriminate. Qed.
Lemma wp_able : Forall (fun x => wextractable 248 260 5 (fst x) (snd x)) wx_tree.
Proof.
  unfold wx_tree. repeat apply Forall_cons; cbn [fst snd]; [|apply wx_link|apply Forall_nil].
  apply wx_dir; [reflexivity|reflexivity|cbn [map fst]; nodup_case|]. repeat apply Forall_cons; cbn [fst snd]; [|apply Forall_nil].
  apply wx_file; reflexivity.
Qed.

Lemma ex_c124_parents : exists ret w', spelled x5c [x6f] [[x50]; [x71]] = [x6f;x5c;x50;x5c;x71] /\ uniform x5c [x6f] /\ Forall wentry [[x50]; [x71]] /\
  wfree 248 wx_w [x6f] [[x77]; [x6f]] /\ Forall (fun x => wextractable 248 260 (lenN [x6f;x5c;x50;x5c;x71]) (fst x) (snd x)) wx_tree /\
  wdid_all (wx_extract [x6f;x5c;x50;x5c;x71] (hx_arch wx_tree) wx_w) ret w' /\ ret = Some ContentDirectory /\
  w_fs w' [[x77]; [x6f]; [x70]] = Some XDir /\ w_fs w' [[x77]; [x6f]; [x70]; [x71]; [x64]; [x62;x2e;x74;x78;x74]] = Some (XFile true [x31]).
Proof.
  destruct (wdid_all_of (wx_extract [x6f;x5c;x50;x5c;x71] (hx_arch wx_tree) wx_w) (fun ret w' =>
    is_ret ret ContentDirectory && (xat w' [[x77]; [x6f]; [x70]] (Some XDir) &&
    xat w' [[x77]; [x6f]; [x70]; [x71]; [x64]; [x62;x2e;x74;x78;x74]] (Some (XFile true [x31])))))
    as (ret & w' & D & H); [vm_compute; reflexivity|].
  apply andb_prop in H. destruct H as [H1 H]. apply andb_prop in H. destruct H as [H2 H3].
  exists ret, w'. split; [reflexivity|]. split; [right; split; [reflexivity|intros [E|[]]; discriminate E]|]. split; [exact wp_names|].
  split; [exact wx_free|]. split; [exact wp_able|]. split; [exact D|]. split; [now apply is_ret_ok|]. split; now apply xat_ok.
Qed.

Lemma ex_c117_extract : uniform x5c [x6f] /\ ~ In x00 [x6f] /\ xkey (w_cwd wx_w) [x6f] = [[x77]; [x6f]] /\ Forall wentry [[x50]; [x71]] /\
  w_fs wx_w [[x77]] = Some XDir /\ (forall r, w_fs wx_w ([[x77]; [x6f]] ++ r) = None) /\
  exists w', xmkdir 248 (fun _ => false) true [x6f;x5c;x50;x5c;x71] wx_w = Ok (0%Z, w') /\ w_fs w' [[x77]; [x6f]; [x70]; [x71]] = Some XDir.
Proof.
  split; [right; split; [reflexivity|intros [E|[]]; discriminate E]|]. split; [intros [E|[]]; discriminate E|]. split; [reflexivity|].
  split; [exact wp_names|]. split; [reflexivity|]. split; [intro r; reflexivity|].
  destruct (xmkdir 248 (fun _ => false) true [x6f;x5c;x50;x5c;x71] wx_w) as [[r w']| |] eqn:E; [|vm_compute in E; discriminate E|vm_compute in E; discriminate E].
  exists w'. assert (H : match xmkdir 248 (fun _ => false) true [x6f;x5c;x50;x5c;x71] wx_w with
    Ok (r, w') => (r =? 0)%Z && xat w' [[x77]; [x6f]; [x70]; [x71]] (Some XDir) | _ => false end = true) by (vm_compute; reflexivity).
  rewrite E in H. apply andb_prop in H. destruct H as [H1 H2]. apply Z.eqb_eq in H1. subst r. split; [reflexivity|]. now apply xat_ok.
Qed.

Lemma ex_c117_top : is_sep x5c = true /\ Forall wname [[x61]; [x62]] /\
  exists fs', wmkdir_recurse (fun _ => false) [x61;x5c;x62] (fun _ => None) = Ok (0%Z, fs') /\ fs' [[x61]] = Some WnDir /\ fs' [[x61]; [x62]] = Some WnDir.
Proof.
  split; [reflexivity|]. split; [repeat constructor; cbn; intuition discriminate|]. eexists. split; [vm_compute; reflexivity|]. split; reflexivity.
Qed.
