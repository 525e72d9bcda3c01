(** KeepExamples.v: concrete cases of C130, C131 and C132. *)
From Verif Require Import Base Format Zlib RleZlib Compress Parser ParserProofs ParserFacts Decompress DecompressProofs MidProofs MidFacts DecompressExamples
  ArchiveSpec ArchiveFacts ArchiveExamples FS FSFacts HL HLSpec HLFacts HLDrive HLProps HLMore HLExamples WinTools WinExtract WinExtractSpec WinExtractFacts
  WinExtractTame WinExtractExamples WinKeep Keep.

(** The file \w\f is read-only. *)
Definition wk_fs : xtree := fun p =>
  if path_eqb p [] then Some XDir else if path_eqb p [[x77]] then Some XDir
  else if path_eqb p [[x77];[x66]] then Some (XFile true [x6f;x6c;x64]) else None.
Definition wk_w : wst := WS wk_fs [[x77]] [] 3 false.

Lemma wk_exists : wexists 248 wx_w [x5c;x57].
Proof. split; [intros [Q|[Q|[]]]; discriminate|]. split; [discriminate|]. split; [reflexivity|]. split; [vm_compute; discriminate|reflexivity]. Qed.
Lemma ex_c130_refuted : exists ret w', wexists 248 wx_w [x5c;x57] /\ wdid (wx_extract [x5c;x57] (rx_arch (rx_file [x78] [x31] 420)) wx_w) ret w' /\
  ret = Some ContentNone /\ w_fs wx_w [[x78]] = None /\ w_fs w' [[x78]] = Some (XFile false [x31]).
Proof.
  destruct (wdid_of (wx_extract [x5c;x57] (rx_arch (rx_file [x78] [x31] 420)) wx_w)
    (fun ret w' => match ret with Some v => v =? ContentNone | None => false end && xat w' [[x78]] (Some (XFile false [x31])))) as (ret & w' & D & H); [vm_compute; reflexivity|].
  apply andb_prop in H. destruct H as [H1 H2]. destruct ret as [v|]; [|discriminate]. apply N.eqb_eq in H1. subst v.
  exists (Some ContentNone), w'. split; [exact wk_exists|]. split; [exact D|]. split; [reflexivity|]. split; [reflexivity|now apply xat_ok].
Qed.
Lemma ex_c130 : exists ret w', wexists 248 wx_w [x5c;x57] /\ archive_of ContentDirectory (zc_dec rle_contract (first_bytes 0 (hx_arch wx_tree))) /\
  wdid (wx_extract [x5c;x57] (hx_arch wx_tree) wx_w) ret w'.
Proof.
  destruct (wdid_of (wx_extract [x5c;x57] (hx_arch wx_tree) wx_w) (fun ret w' => true)) as (ret & w' & D & H); [vm_compute; reflexivity|].
  exists ret, w'. split; [exact wk_exists|]. split; [|exact D]. split; [vm_compute; discriminate|]. vm_compute. auto.
Qed.
Lemma ex_c131 : exists ret w', none_open wk_w /\ w_fs wk_w [[x77];[x66]] = Some (XFile true [x6f;x6c;x64]) /\
  wdid (wx_extract [x46] (hx_farch [x61;x62]) wk_w) ret w'.
Proof.
  destruct (wdid_of (wx_extract [x46] (hx_farch [x61;x62]) wk_w) (fun ret w' => true)) as (ret & w' & D & H); [vm_compute; reflexivity|].
  exists ret, w'. split; [intros n p off x []|]. split; [reflexivity|exact D].
Qed.

(** The file /f has the mode 0444. *)
Definition kx_fs : fstree := fun p => if path_eqb p [[x66]] then Some (IFile 292 [x6f;x6c;x64]) else hx_fs p.
Definition kx_os : os := OS kx_fs 1000 [[x77]] 18 false [] 3.
Lemma ex_c132 : exists ret o', may_write kx_os /\ o_fs kx_os [[x66]] = Some (IFile 292 [x6f;x6c;x64]) /\ can_w (o_priv kx_os) 292 = false /\
  did (hx_extract [x6f] 0 (rx_arch (rx_file [x2e;x2e;x2f;x2e;x2e;x2f;x66] [x31] 420)) kx_os) ret o'.
Proof.
  destruct (did_of (hx_extract [x6f] 0 (rx_arch (rx_file [x2e;x2e;x2f;x2e;x2e;x2f;x66] [x31] 420)) kx_os) (fun ret o' => true)) as (ret & o' & D & H); [vm_compute; reflexivity|].
  exists ret, o'. split; [intros n p off m x []|]. split; [reflexivity|]. split; [reflexivity|]. exact D.
Qed.
