(** WinExtractExamples.v: concrete extractions on Windows with the run length codec. *)
From Coq Require Import Lia.
From Verif Require Import Base Format Zlib RleZlib LLCompress Compress Parser ParserProofs ParserFacts Decompress DecompressProofs
  DecompressFacts MidProofs MidFacts DecompressExamples ArchiveSpec ArchiveFacts ArchiveDecode ArchiveEntry ArchiveProps ArchiveExamples
  FS FSFacts HL HLSpec HLFacts HLDrive HLProps HLSafe MkdirFacts HLTame HLMkdir HLMore HLExamples WinTools WinExtract WinExtractSpec WinExtractFacts WinExtractTame.

(** \ and \w exist, and a file \w\f with contents "old"; the process is in \w. *)
Definition wx_fs : xtree := fun p =>
  if path_eqb p [] then Some XDir else if path_eqb p [[x77]] then Some XDir
  else if path_eqb p [[x77];[x66]] then Some (XFile false [x6f;x6c;x64]) else None.
Definition wx_w : wst := WS wx_fs [[x77]] [] 3 false.
Definition wx_extract (T : bytes) (inp : bytes) (w : wst) :=
  xextract 248 260 (fun _ => false) T hx_hal hx_stk rle_zlib LE ex_alloc 0 4000 4000 ax_al (zeros DEF_CHUNK_SIZE) ax_hjunk ex_pj inp false w.

Definition xnode_eqb (a b : xnode) : bool :=
  match a, b with
  | XDir, XDir => true
  | XFile r x, XFile s y => Bool.eqb r s && bytes_eqb x y
  | _, _ => false
  end.
Definition xat (w : wst) (p : path) (i : option xnode) : bool :=
  match w_fs w p, i with Some a, Some b => xnode_eqb a b | None, None => true | _, _ => false end.
Lemma xat_ok w p i : xat w p i = true -> w_fs w p = i.
Proof.
  unfold xat. destruct (w_fs w p) as [[|r x]|], i as [[|s y]|]; cbn; try discriminate; auto.
  intro H. apply andb_prop in H. destruct H as [H1 H2]. apply Bool.eqb_prop in H1. apply bytes_eqb_spec in H2. congruence.
Qed.
(** [wdid x ret w']: the extraction [x] returned [ret] (terminated the process, for [None]) and left the state [w']. *)
Definition wdid (x : outcome (option N * option (dsess rle_zlib * hst * bytes) * wst)) (ret : option N) (w' : wst) : Prop :=
  exists s h ds, x = Ok (ret, Some (s, h, ds), w').
(** The same; the last inflate step did not fill its buffer. *)
Definition wdid_all (x : outcome (option N * option (dsess rle_zlib * hst * bytes) * wst)) (ret : option N) (w' : wst) : Prop :=
  exists s h ds, x = Ok (ret, Some (s, h, ds), w') /\ room_left s.
Definition wtest (room : bool) (x : outcome (option N * option (dsess rle_zlib * hst * bytes) * wst)) (P : option N -> wst -> bool) : bool :=
  match x with Ok (ret, Some (s, h, ds), w') => (negb room || (0 <? z_aout (d_zs s))) && P ret w' | _ => false end.
Lemma wdid_of x P : wtest false x P = true -> exists ret w', wdid x ret w' /\ P ret w' = true.
Proof.
  destruct x as [[[ret [[[s h] ds]|]] w']| |]; try discriminate. unfold wtest. intro H. apply andb_prop in H. destruct H as [H1 H2].
  exists ret, w'. split; [|exact H2]. exists s, h, ds. reflexivity.
Qed.
Lemma wdid_all_of x P : wtest true x P = true -> exists ret w', wdid_all x ret w' /\ P ret w' = true.
Proof.
  destruct x as [[[ret [[[s h] ds]|]] w']| |]; try discriminate. unfold wtest. intro H. apply andb_prop in H. destruct H as [H1 H2].
  cbn [negb orb] in H1. apply N.ltb_lt in H1. exists ret, w'. split; [|exact H2]. exists s, h, ds. split; [reflexivity|exact H1].
Qed.
Definition is_ret (r : option N) (v : N) : bool := match r with Some x => x =? v | None => false end.
Lemma is_ret_ok r v : is_ret r v = true -> r = Some v.
Proof. destruct r; [|discriminate]. intro H. apply N.eqb_eq in H. congruence. Qed.

Lemma wx_free : wfree 248 wx_w [x6f] [[x77]; [x6f]].
Proof.
  split; [intros [H|[]]; discriminate|]. split; [discriminate|]. split; [reflexivity|]. split; [reflexivity|]. split; [reflexivity|].
  split; [|reflexivity]. intro r. reflexivity.
Qed.

(** A directory D with a read-only file b.TXT, and a link. *)
Definition wx_tree : list (bytes * snode) :=
  [([x44], SDir 493 [([x62;x2e;x54;x58;x54], SFile true true 292 1 [x31] false)]); ([x6c], SLink 511 1 (Some [x62]))].
Lemma wx_fits : tree_fits (Some wx_tree).
Proof. unfold tree_fits, listing, wx_tree. fits_case. Qed.
Lemma wx_quiet : Forall (fun x => quiet (snd x)) wx_tree.
Proof.
  unfold wx_tree. repeat apply Forall_cons; cbn [snd]; [|apply (q_link 511 [x62])|apply Forall_nil].
  apply q_dir. repeat apply Forall_cons; [|apply Forall_nil]. apply (q_file 292 [x31]).
Qed.
Lemma wx_able : Forall (fun x => wextractable 248 260 1 (fst x) (snd x)) wx_tree.
Proof.
  unfold wx_tree. repeat apply Forall_cons; cbn [fst snd]; [|apply wx_link|apply Forall_nil].
  apply wx_dir; [reflexivity|reflexivity|cbn [map fst]; nodup_case|]. repeat apply Forall_cons; cbn [fst snd]; [|apply Forall_nil].
  apply wx_file; reflexivity.
Qed.

Lemma ex_c124 : exists ret w', archives_dir rle_zlib wx_tree (hx_arch wx_tree) /\
  calm rle_zlib hx_hal ax_al hx_stk (zeros DEF_CHUNK_SIZE) ax_hjunk ex_pj /\ preorder wx_tree <> [] /\
  Forall (fun x => quiet (snd x)) wx_tree /\ NoDup (map (fun x => fold_case (fst x)) wx_tree) /\
  Forall (fun x => wextractable 248 260 1 (fst x) (snd x)) wx_tree /\ wfree 248 wx_w [x6f] [[x77]; [x6f]] /\
  wdid_all (wx_extract [x6f] (hx_arch wx_tree) wx_w) ret w' /\ ret = Some ContentDirectory /\
  w_fs w' [[x77]; [x6f]; [x64]] = Some XDir /\ w_fs w' [[x77]; [x6f]; [x64]; [x62;x2e;x74;x78;x74]] = Some (XFile true [x31]) /\
  w_fs w' [[x77]; [x6f]; [x6c]] = None.
Proof.
  destruct (wdid_all_of (wx_extract [x6f] (hx_arch wx_tree) wx_w) (fun ret w' =>
    is_ret ret ContentDirectory && (xat w' [[x77]; [x6f]; [x64]] (Some XDir) &&
    (xat w' [[x77]; [x6f]; [x64]; [x62;x2e;x74;x78;x74]] (Some (XFile true [x31])) && xat w' [[x77]; [x6f]; [x6c]] None))))
    as (ret & w' & D & H); [vm_compute; reflexivity|].
  apply andb_prop in H. destruct H as [H1 H]. apply andb_prop in H. destruct H as [H2 H]. apply andb_prop in H. destruct H as [H3 H4].
  exists ret, w'. split; [apply hx_arch_ok; [exact wx_fits|vm_compute; reflexivity]|]. split; [exact hx_calm|]. split; [discriminate|].
  split; [exact wx_quiet|]. split; [cbn [wx_tree map fst]; nodup_case|]. split; [exact wx_able|]. split; [exact wx_free|]. split; [exact D|].
  split; [now apply is_ret_ok|]. split; [now apply xat_ok|]. split; now apply xat_ok.
Qed.

(** Files a ("123") and A ("2"). *)
Definition wx_two : list (bytes * snode) :=
  [([x61], SFile true true 420 3 [x31;x32;x33] false); ([x41], SFile true true 420 1 [x32] false)].
Lemma ex_c124_refuted : exists ret w', archives_dir rle_zlib wx_two (hx_arch wx_two) /\
  calm rle_zlib hx_hal ax_al hx_stk (zeros DEF_CHUNK_SIZE) ax_hjunk ex_pj /\
  Forall (fun x => quiet (snd x)) wx_two /\ NoDup (map fst wx_two) /\ wfree 248 wx_w [x6f] [[x77]; [x6f]] /\
  wdid_all (wx_extract [x6f] (hx_arch wx_two) wx_w) ret w' /\ ret = Some ContentDirectory /\
  w_fs w' [[x77]; [x6f]; [x61]] = Some (XFile false [x32;x32;x33]).
Proof.
  destruct (wdid_all_of (wx_extract [x6f] (hx_arch wx_two) wx_w) (fun ret w' =>
    is_ret ret ContentDirectory && xat w' [[x77]; [x6f]; [x61]] (Some (XFile false [x32;x32;x33]))))
    as (ret & w' & D & H); [vm_compute; reflexivity|].
  apply andb_prop in H. destruct H as [H1 H2].
  exists ret, w'. split; [apply hx_arch_ok; [unfold tree_fits, listing, wx_two; fits_case|vm_compute; reflexivity]|]. split; [exact hx_calm|].
  split; [repeat apply Forall_cons; [apply (q_file 420 [x31;x32;x33])|apply (q_file 420 [x32])|apply Forall_nil]|].
  split; [cbn [wx_two map fst]; nodup_case|]. split; [exact wx_free|]. split; [exact D|]. split; [now apply is_ret_ok|now apply xat_ok].
Qed.

(** A file ..\x, a directory e and a file E. *)
Definition wx_bad : list (bytes * snode) :=
  [([x2e;x2e;x5c;x78], SFile true true 420 1 [x7a] false); ([x65], SDir 493 []); ([x45], SFile true true 420 1 [x31] false)].
Lemma wx_bad_run : exists ret w', archives_dir rle_zlib wx_bad (hx_arch wx_bad) /\
  calm rle_zlib hx_hal ax_al hx_stk (zeros DEF_CHUNK_SIZE) ax_hjunk ex_pj /\
  Forall (fun x => quiet (snd x)) wx_bad /\ Forall (fun x => extractable false 18 1 (fst x) (snd x)) wx_bad /\ wfree 248 wx_w [x6f] [[x77]; [x6f]] /\
  wdid (wx_extract [x6f] (hx_arch wx_bad) wx_w) ret w' /\ ret = None /\ w_fs w' [[x77]; [x78]] = Some (XFile false [x7a]).
Proof.
  destruct (wdid_of (wx_extract [x6f] (hx_arch wx_bad) wx_w) (fun ret w' =>
    match ret with None => true | Some _ => false end && xat w' [[x77]; [x78]] (Some (XFile false [x7a]))))
    as (ret & w' & D & H); [vm_compute; reflexivity|].
  apply andb_prop in H. destruct H as [H1 H2].
  exists ret, w'. split; [apply hx_arch_ok; [unfold tree_fits, listing, wx_bad; fits_case|vm_compute; reflexivity]|]. split; [exact hx_calm|].
  split; [repeat apply Forall_cons; [apply (q_file 420 [x7a])|apply q_dir, Forall_nil|apply (q_file 420 [x31])|apply Forall_nil]|].
  split. { unfold wx_bad. repeat apply Forall_cons; cbn [fst snd]; [apply xt_file; [plain_case|reflexivity]| |apply xt_file; [plain_case|reflexivity]|apply Forall_nil].
    apply xt_dir; [plain_case|reflexivity|split; reflexivity|apply NoDup_nil|apply Forall_nil]. }
  split; [exact wx_free|]. split; [exact D|]. split; [now destruct ret|now apply xat_ok].
Qed.
Lemma ex_c125_refuted : exists ret w', archives_dir rle_zlib wx_bad (hx_arch wx_bad) /\
  calm rle_zlib hx_hal ax_al hx_stk (zeros DEF_CHUNK_SIZE) ax_hjunk ex_pj /\
  Forall (fun x => quiet (snd x)) wx_bad /\ Forall (fun x => extractable false 18 1 (fst x) (snd x)) wx_bad /\ wfree 248 wx_w [x6f] [[x77]; [x6f]] /\
  wdid (wx_extract [x6f] (hx_arch wx_bad) wx_w) ret w' /\
  strip [[x77]; [x6f]] [[x77]; [x78]] = None /\ w_fs wx_w [[x77]; [x78]] = None /\ w_fs w' [[x77]; [x78]] = Some (XFile false [x7a]).
Proof. destruct wx_bad_run as (ret & w' & A & B & D & E & F & G & _ & H). exists ret, w'. repeat (split; [assumption|]). repeat split; assumption. Qed.
Lemma ex_c126_refuted : exists w', archives_dir rle_zlib wx_bad (hx_arch wx_bad) /\
  calm rle_zlib hx_hal ax_al hx_stk (zeros DEF_CHUNK_SIZE) ax_hjunk ex_pj /\
  Forall (fun x => quiet (snd x)) wx_bad /\ Forall (fun x => extractable false 18 1 (fst x) (snd x)) wx_bad /\ NoDup (map fst wx_bad) /\
  wfree 248 wx_w [x6f] [[x77]; [x6f]] /\ wdid (wx_extract [x6f] (hx_arch wx_bad) wx_w) None w'.
Proof.
  destruct wx_bad_run as (ret & w' & A & B & D & E & F & G & -> & H). exists w'. repeat (split; [assumption|]).
  split; [cbn [wx_bad map fst]; nodup_case|]. split; assumption.
Qed.
Lemma ex_c125 : Forall (fun x => wnamed 1 (fst x) (snd x)) wx_two /\ Forall (fun x => wnamed 1 (fst x) (snd x)) wx_tree /\
  ~ Forall (fun x => wnamed 1 (fst x) (snd x)) wx_bad /\ prefix (first_bytes 0 (takeN 140 (hx_arch wx_two))) (hx_arch wx_two).
Proof.
  split; [repeat apply Forall_cons; cbn [fst snd]; [apply wn_file; reflexivity|apply wn_file; reflexivity|apply Forall_nil]|].
  split. { repeat apply Forall_cons; cbn [fst snd]; [|apply wn_link|apply Forall_nil]. apply wn_dir; [reflexivity|reflexivity|].
    repeat apply Forall_cons; cbn [fst snd]; [apply wn_file; reflexivity|apply Forall_nil]. }
  split.
  { intro H. inversion H as [|? ? H1 _]; subst. cbn [fst snd] in H1. inversion H1 as [? ? ? Dd| | |? ? ? ? ? ? ? ? P _|]; subst; [|discriminate P].
    apply dotb_spec in Dd. discriminate. }
  exists (dropN 140 (hx_arch wx_two)). unfold first_bytes. cbn [N.eqb]. symmetry. apply takeN_dropN.
Qed.

Lemma ex_c126 : lists_wtame (z := rle_zlib) LE ex_alloc 1 hx_stk (hx_arch wx_two) /\ supported rle_zlib rle_contract (hx_arch wx_two) /\
  wfree 248 wx_w [x6f] [[x77]; [x6f]].
Proof.
  destruct ex_c124_refuted as (_ & _ & A & Ca & Q & _).
  destruct (own_wtame rle_zlib rle_contract LE ex_alloc 1 hx_stk wx_two (hx_arch wx_two) (hx_arch wx_two)) as [S L];
    [reflexivity|exact (ca_stk _ _ _ _ _ _ _ Ca)|exact A|apply prefix_refl|exact Q|apply ex_c125|].
  split; [exact L|]. split; [exact S|exact wx_free].
Qed.

(** The existing file \w\f becomes "ab". *)
Lemma ex_c127 : exists ret w', archives_file rle_zlib [x61;x62] (hx_farch [x61;x62]) /\ wspot 260 (fun _ => false) wx_w [x46] [[x77]; [x66]] /\
  wdid_all (wx_extract [x46] (hx_farch [x61;x62]) wx_w) ret w' /\ ret = Some ContentFile /\
  w_fs wx_w [[x77]; [x66]] = Some (XFile false [x6f;x6c;x64]) /\ w_fs w' [[x77]; [x66]] = Some (XFile false [x61;x62]).
Proof.
  destruct (wdid_all_of (wx_extract [x46] (hx_farch [x61;x62]) wx_w) (fun ret w' =>
    is_ret ret ContentFile && xat w' [[x77]; [x66]] (Some (XFile false [x61;x62])))) as (ret & w' & D & H); [vm_compute; reflexivity|].
  apply andb_prop in H. destruct H as [H1 H2]. exists ret, w'. split; [apply hx_farch_ok; vm_compute; reflexivity|].
  split. { split; [discriminate|]. split; [reflexivity|]. split; [reflexivity|]. split; [reflexivity|]. split; [reflexivity|]. left. eexists. reflexivity. }
  split; [exact D|]. split; [now apply is_ret_ok|]. split; [reflexivity|now apply xat_ok].
Qed.
