(** WellFormedExamples.v: concrete cases for WellFormed.v. *)
From Verif Require Import Base Format Zlib RleZlib Compress Parser ParserProofs ParserFacts Decompress DecompressProofs MidProofs MidFacts DecompressExamples
  ArchiveSpec ArchiveFacts ArchiveDecode ArchiveEntry ArchiveProps ArchiveExamples FS FSFacts HL HLSpec HLFacts HLDrive HLProps HLSafe MkdirFacts HLTame HLMkdir HLMore
  HLExamples WinTools WinFacts WinExtract WinExtractSpec WinExtractFacts WinExtractTame WinExtractExamples WellFormed.

Lemma hx_is_tree free : is_tree (o_fs (hx_os free)).
Proof.
  split; [exists 493; reflexivity|]. intros p c i. cbn [hx_os o_fs]. unfold hx_fs.
  destruct (path_eqb (p ++ [c]) []) eqn:E0; [apply path_eqb_spec in E0; now destruct p|].
  destruct (path_eqb (p ++ [c]) [[x77]]) eqn:E1; [apply path_eqb_spec in E1; change [[x77]] with ([] ++ [[x77]]) in E1; apply app_inj_tail in E1; destruct E1 as [-> _]; now exists 493|].
  destruct (path_eqb (p ++ [c]) [[x66]]) eqn:E2; [apply path_eqb_spec in E2; change [[x66]] with ([] ++ [[x66]]) in E2; apply app_inj_tail in E2; destruct E2 as [-> _]; now exists 493|].
  discriminate.
Qed.
Lemma wx_is_tree : is_xtree (w_fs wx_w).
Proof.
  split; [reflexivity|]. intros p c i. cbn [wx_w w_fs]. unfold wx_fs.
  destruct (path_eqb (p ++ [c]) []) eqn:E0; [apply path_eqb_spec in E0; now destruct p|].
  destruct (path_eqb (p ++ [c]) [[x77]]) eqn:E1; [apply path_eqb_spec in E1; change [[x77]] with ([] ++ [[x77]]) in E1; apply app_inj_tail in E1; now destruct E1 as [-> _]|].
  destruct (path_eqb (p ++ [c]) [[x77];[x66]]) eqn:E2; [apply path_eqb_spec in E2; change [[x77];[x66]] with ([[x77]] ++ [[x66]]) in E2; apply app_inj_tail in E2; now destruct E2 as [-> _]|].
  discriminate.
Qed.
(** The name of the archived file leads below the file /f. *)
Lemma ex_c132_tree : exists ret o', is_tree (o_fs (hx_os 1000)) /\ o_fs (hx_os 1000) [[x66]] = Some (IFile 420 [x6f;x6c;x64]) /\
  did (hx_extract [x6f] 0 (rx_arch (rx_file [x2e;x2e;x2f;x2e;x2e;x2f;x66;x2f;x78] [x31] 420)) (hx_os 1000)) ret o' /\ o_fs o' [[x66];[x78]] = None.
Proof.
  destruct (did_of (hx_extract [x6f] 0 (rx_arch (rx_file [x2e;x2e;x2f;x2e;x2e;x2f;x66;x2f;x78] [x31] 420)) (hx_os 1000)) (fun ret o' => at_eqb o' [[x66];[x78]] None))
    as (ret & o' & D & H); [vm_compute; reflexivity|].
  exists ret, o'. split; [apply hx_is_tree|]. split; [reflexivity|]. split; [exact D|]. now apply at_eqb_ok.
Qed.
Lemma ex_c131_tree : exists ret w', is_xtree (w_fs wx_w) /\ w_fs wx_w [[x77];[x66]] = Some (XFile false [x6f;x6c;x64]) /\
  wdid (wx_extract [x6f] (rx_arch (rx_file [x2e;x2e;x2f;x66;x2f;x78] [x31] 420)) wx_w) ret w' /\ w_fs w' [[x77];[x66];[x78]] = None.
Proof.
  destruct (wdid_of (wx_extract [x6f] (rx_arch (rx_file [x2e;x2e;x2f;x66;x2f;x78] [x31] 420)) wx_w) (fun ret w' => match w_fs w' [[x77];[x66];[x78]] with None => true | _ => false end))
    as (ret & w' & D & H); [vm_compute; reflexivity|].
  exists ret, w'. split; [exact wx_is_tree|]. split; [reflexivity|]. split; [exact D|]. destruct (w_fs w' [[x77];[x66];[x78]]); [discriminate H|reflexivity].
Qed.
