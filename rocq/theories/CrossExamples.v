(** CrossExamples.v: concrete cases for CrossFacts.v. *)
From Coq Require Import Lia.
From Verif Require Import Base Format Zlib RleZlib LLCompress Compress Parser ParserProofs ParserFacts Decompress DecompressProofs
  DecompressFacts MidProofs MidFacts DecompressExamples ArchiveSpec ArchiveFacts ArchiveDecode ArchiveEntry ArchiveProps ArchiveExamples
  FS FSFacts HL HLSpec HLFacts HLDrive HLProps HLSafe MkdirFacts HLTame HLMkdir HLMore HLExamples CutSpec CopySpec CopyFacts CopyExamples
  WinArchive WinArchiveSpec WinArchiveFacts WinArchiveProps WinCopy
  WinTools WinExtract WinExtractSpec WinExtractFacts WinExtractTame WinExtractExamples WinArchiveExamples BothFacts CrossFacts.

(** \s has the directory D with the read-only file b.TXT and the file e; Windows reports 040777 for D. *)
Lemma ex_c148 : exists ret o', wsane (w_fs wc_w) /\ wlists (w_fs wc_w) [[x73]] wc_tree /\ wsuitable PATH_MAX PATH_MAX 1 (w_fs wc_w) [[x73]] /\
  w_fs wc_w [[x73]; [x64]] <> None /\ (forall c nd, In (c, nd) wc_tree -> ~ dotted c -> dir_modes (usable_dir false 18) nd) /\
  warchives_dir rle_zlib wc_tree (wa_arch wa_free wc_tree) /\
  calm rle_zlib hx_hal ax_al hx_stk (zeros DEF_CHUNK_SIZE) ax_hjunk ex_pj /\ free_spot (hx_os 1000) [x6f] [[x77]; [x6f]] /\ usable_dir false 18 MODE_BASE_DIR /\
  (forall r, o_fs (hx_os 1000) ([[x77]; [x6f]] ++ r) = None) /\ volume (preorder (unlinked_all wc_tree)) <= 1000 /\ N.testbit 18 7 = false /\
  did_all (hx_extract [x6f] 0 (wa_arch wa_free wc_tree) (hx_os 1000)) ret o' /\ ret = ContentDirectory /\
  o_fs o' [[x77]; [x6f]; [x44]; [x62;x2e;x54;x58;x54]] = Some (IFile 292 [x31]) /\ o_fs o' [[x77]; [x6f]; [x65]] = Some (IFile 420 [x32;x33]).
Proof.
  destruct (did_all_of (hx_extract [x6f] 0 (wa_arch wa_free wc_tree) (hx_os 1000)) (fun ret o' => (ret =? ContentDirectory) &&
    (at_eqb o' [[x77]; [x6f]; [x44]; [x62;x2e;x54;x58;x54]] (Some (IFile 292 [x31])) && at_eqb o' [[x77]; [x6f]; [x65]] (Some (IFile 420 [x32;x33])))))
    as (ret & o' & D & H); [vm_compute; reflexivity|].
  apply andb_prop in H. destruct H as [H1 H]. apply andb_prop in H. destruct H as [H2 H3].
  exists ret, o'. split; [exact wc_sane|]. split; [exact wc_lists|].
  split. { intros r i Hr H. cbn [w_fs wc_w] in H. apply xlook_in in H. cbn in H.
    repeat (destruct H as [E|H]; [first [discriminate E|injection E; intros; subst; first [congruence|vm_compute; reflexivity]]|]). destruct H. }
  split; [discriminate|].
  split. { intros c nd [H|[H|[H|[]]]] Dt; injection H as <- <-; [apply dm_link|apply dm_file|]. apply dm_dir; [split; vm_compute; reflexivity|].
    intros c nd [H|[]] _. injection H as <- <-. apply dm_file. }
  split; [exact wc_arch|]. split; [exact hx_calm|]. split; [apply hx_spot|]. split; [exact hx_base|]. split; [apply hx_empty|]. split; [vm_compute; discriminate|].
  split; [reflexivity|]. split; [exact D|]. split; [now apply N.eqb_eq|]. split; now apply at_eqb_ok.
Qed.

(** /s has the directory d with the file abc and the empty directory e. *)
Lemma cp_ready : win_ready 248 260 1 (o_fs (cp_os [])) [[x73]].
Proof.
  split.
  - intros r c i H. cbn [o_fs cp_os] in H. apply look_in in H. rewrite app_assoc in H.
    assert (K : forallb (fun x => match strip [[x73]] (fst x) with
        | Some [] => true
        | Some q => wplain (last q []) && (1 + lenN (path_string q) <? match snd x with IDir _ => 248 | _ => 260 end)
        | None => true end) (cp_list []) = true) by (vm_compute; reflexivity).
    rewrite forallb_forall in K. specialize (K _ H). cbn [fst snd] in K. rewrite <- app_assoc, strip_app in K.
    destruct (r ++ [c]) as [|a q] eqn:E; [now destruct r|]. rewrite <- E, last_last in K. rewrite <- E. apply andb_prop in K. destruct K as [K1 K2].
    split; [exact K1|now apply N.ltb_lt].
  - intros r c c' H H' E. cbn [o_fs cp_os] in H, H'. destruct (look ([[x73]] ++ r ++ [c]) (cp_list [])) as [i|] eqn:E1; [|congruence].
    destruct (look ([[x73]] ++ r ++ [c']) (cp_list [])) as [i'|] eqn:E2; [|congruence]. apply look_in in E1. apply look_in in E2.
    assert (K : forallb (fun x => match fst x with [] => true | q => bytes_eqb (fold_case (last q [])) (last q []) end) (cp_list []) = true) by (vm_compute; reflexivity).
    rewrite forallb_forall in K. pose proof (K _ E1) as K1. pose proof (K _ E2) as K2. cbn [fst] in K1, K2. cbn [app] in K1, K2.
    change ([x73] :: r ++ [c]) with (([x73] :: r) ++ [c]) in K1. change ([x73] :: r ++ [c']) with (([x73] :: r) ++ [c']) in K2.
    rewrite last_last in K1, K2. apply bytes_eqb_spec in K1. apply bytes_eqb_spec in K2. congruence.
Qed.
Lemma ex_c149 : exists ret w', sane (o_fs (cp_os [])) /\ lists (o_fs (cp_os [])) [[x73]] cp_tree /\ no_links (o_fs (cp_os [])) [[x73]] /\
  win_ready 248 260 1 (o_fs (cp_os [])) [[x73]] /\ o_fs (cp_os []) [[x73]; [x64]] <> None /\ archives_dir rle_zlib cp_tree (hx_arch cp_tree) /\
  calm rle_zlib hx_hal ax_al hx_stk (zeros DEF_CHUNK_SIZE) ax_hjunk ex_pj /\ wfree 248 wx_w [x6f] [[x77]; [x6f]] /\
  wdid_all (wx_extract [x6f] (hx_arch cp_tree) wx_w) ret w' /\ ret = Some ContentDirectory /\
  w_fs w' [[x77]; [x6f]; [x64]; [x61;x62;x63]] = Some (XFile false [x31;x32;x33]) /\ w_fs w' [[x77]; [x6f]; [x65]] = Some XDir.
Proof.
  destruct (wdid_all_of (wx_extract [x6f] (hx_arch cp_tree) wx_w) (fun ret w' => is_ret ret ContentDirectory &&
    (xat w' [[x77]; [x6f]; [x64]; [x61;x62;x63]] (Some (XFile false [x31;x32;x33])) && xat w' [[x77]; [x6f]; [x65]] (Some XDir))))
    as (ret & w' & D & H); [vm_compute; reflexivity|].
  apply andb_prop in H. destruct H as [H1 H]. apply andb_prop in H. destruct H as [H2 H3].
  exists ret, w'. split; [apply cp_sane; auto|]. split; [exact cp_lists|]. split; [exact cp_nolinks|]. split; [exact cp_ready|]. split; [discriminate|].
  split; [exact cp_arch|]. split; [exact hx_calm|]. split; [exact wx_free|]. split; [exact D|]. split; [now apply is_ret_ok|]. split; now apply xat_ok.
Qed.
