(** SameExamples.v: concrete cases for SameFacts.v. *)
From Coq Require Import Lia.
From Verif Require Import Base Format Zlib RleZlib LLCompress Compress Parser ParserProofs ParserFacts Decompress DecompressProofs MidProofs MidFacts
  DecompressExamples ArchiveSpec ArchiveFacts ArchiveDecode ArchiveEntry ArchiveProps ArchiveExamples FS FSFacts HL HLSpec HLFacts HLDrive HLProps HLSafe MkdirFacts
  HLTame HLMore HLExamples LinkFacts LinkExamples LinkMore LinkMoreExamples CutSpec CopySpec CopyFacts CopyExamples SameFacts.

(** /s with the entries of [lk_big]: a file b, the links m and n. *)
Definition sm_fs (d : bytes) : fstree := fun p =>
  look p [([], IDir 493); ([[x73]], IDir 493); ([[x73]; [x62]], IFile 420 d); ([[x73]; [x6d]], ILink lk_target); ([[x73]; [x6e]], ILink [x2f;x66])].
Definition sm_file (d : bytes) : bytes * snode := ([x62], SFile true true (S_IFREG + 420) (lenN d) d false).

Lemma sm_sane d : sane (sm_fs d).
Proof. apply sane_list. reflexivity. Qed.
(** The two orders in which it is listed here. *)
Lemma sm_lists d es : es = [sm_file d; lk_m; lk_n] \/ es = [lk_m; sm_file d; lk_n] -> lists (sm_fs d) [[x73]] es.
Proof.
  intro H. exists (S_IFDIR + 493). apply se_dir; [reflexivity| | | |].
  - destruct H as [->| ->]; cbn [sm_file lk_m lk_n map fst]; nodup_case.
  - intros c nd Hi D. destruct H as [->| ->]; destruct Hi as [E|[E|[E|[]]]]; injection E as <- <-; nodot.
  - intros c nd Hi D. destruct H as [->| ->]; destruct Hi as [E|[E|[E|[]]]]; injection E as <- <-;
      first [apply (se_file _ _ 420 d); reflexivity|apply (se_link _ _ lk_target); reflexivity|apply (se_link _ _ [x2f;x66]); reflexivity].
  - intros c Hc. assert (Hb : In c [[x62]; [x6d]; [x6e]]).
    { destruct (sm_fs d ([[x73]] ++ [c])) as [i|] eqn:E; [|congruence]. apply look_in in E. cbn in E.
      destruct E as [E|[E|[E|[E|[E|[]]]]]]; try discriminate E; injection E as <- <-; cbn; tauto. }
    destruct H as [->| ->]; cbn in *; tauto.
Qed.

(** The archive of the second listing extracts well, of that of the first the link m is wrong; both runs report success. *)
Lemma ex_c151_refuted : exists d es1 es2 F1 F2 ret1 o1 ret2 o2, sane (sm_fs d) /\ lists (sm_fs d) [[x73]] es1 /\ lists (sm_fs d) [[x73]] es2 /\
  archives_dir rle_zlib es1 F1 /\ archives_dir rle_zlib es2 F2 /\ homely (hx_os 1000000) /\
  did_all (hx_extract [x6f] 0 F1 (hx_os 1000000)) ret1 o1 /\ did_all (hx_extract [x6f] 0 F2 (hx_os 1000000)) ret2 o2 /\
  ret1 = ContentDirectory /\ ret2 = ContentDirectory /\
  o_fs o1 [[x77]; [x6f]; [x6d]] = Some (ILink [x2f;x68;x2f;x68]) /\ o_fs o2 [[x77]; [x6f]; [x6d]] = Some (ILink lk_target).
Proof.
  destruct ex_c83_split as (ret1 & o1 & A1 & Ho & D1 & R1 & L1).
  destruct (did_all_of (hx_extract [x6f] 0 lm_arch (hx_os 1000000)) (fun ret o' =>
    (ret =? ContentDirectory) && at_eqb o' [[x77]; [x6f]; [x6d]] (Some (ILink lk_target)))) as (ret2 & o2 & D2 & H2); [vm_compute; reflexivity|].
  apply andb_prop in H2. destruct H2 as [R2 L2].
  assert (E : sm_file (zeros 524183) = lk_file) by (unfold sm_file, lk_file; now change (S_IFREG + 420) with 33188).
  exists (zeros 524183), lk_big, lm_tree, lk_barch, lm_arch, ret1, o1, ret2, o2.
  split; [apply sm_sane|]. split; [apply sm_lists; left; now rewrite E|]. split; [apply sm_lists; right; now rewrite E|].
  split; [exact A1|]. split; [exact lm_archived|]. split; [exact Ho|]. split; [exact D1|]. split; [exact D2|].
  split; [exact R1|]. split; [now apply N.eqb_eq|]. split; [exact L1|now apply at_eqb_ok].
Qed.

(** The directory of CopyExamples.v, listed in another order. *)
Definition sm_tree2 : list (bytes * snode) :=
  [([x64], SDir 18413 [([x2e;x2e], SOther); ([x61;x62;x63], SFile true true 33206 3 [x31;x32;x33] false)]); ([x65], SDir 16877 [])].
Lemma sm_lists2 : lists (o_fs (cp_os [])) [[x73]] sm_tree2.
Proof.
  exists 16877. apply (se_dir _ _ 493); [reflexivity|nodup_case| | |apply cp_complete; reflexivity].
  - intros c nd [H|[H|[]]] D; injection H as <- <-; nodot.
  - intros c nd [H|[H|[]]] D; injection H as <- <-.
    + apply (se_dir _ _ 2029); [reflexivity|nodup_case|intros c nd [H|[H|[]]] D2; injection H as <- <-; nodot; apply q_other| |apply cp_complete; reflexivity].
      intros c nd [H|[H|[]]] D2; injection H as <- <-; [destruct D2; now right|]. apply (se_file _ _ 438 [x31;x32;x33]). reflexivity.
    + apply (se_dir _ _ 493); [reflexivity|constructor|intros ? ? []|intros ? ? []|]. apply cp_complete. reflexivity.
Qed.
Lemma sm_arch2 : archives_dir rle_zlib sm_tree2 (hx_arch sm_tree2).
Proof. apply hx_arch_ok; [unfold tree_fits, listing, sm_tree2; fits_case|vm_compute; reflexivity]. Qed.

Lemma ex_c151 : exists ret1 o1 ret2 o2, sane (o_fs (cp_os [])) /\ lists (o_fs (cp_os [])) [[x73]] cp_tree /\ lists (o_fs (cp_os [])) [[x73]] sm_tree2 /\
  archives_dir rle_zlib cp_tree (hx_arch cp_tree) /\ archives_dir rle_zlib sm_tree2 (hx_arch sm_tree2) /\ hx_arch cp_tree <> hx_arch sm_tree2 /\
  no_links (o_fs (cp_os [])) [[x73]] /\ suitable false 18 1 (o_fs (cp_os [])) [[x73]] /\ free_spot (cp_os []) [x6f] [[x77]; [x6f]] /\
  (forall r, o_fs (cp_os []) ([[x77]; [x6f]] ++ r) = None) /\ usable_dir false 18 MODE_BASE_DIR /\ volume (preorder cp_tree) <= 1000 /\ volume (preorder sm_tree2) <= 1000 /\
  did_all (hx_extract [x6f] 0 (hx_arch cp_tree) (cp_os [])) ret1 o1 /\ did_all (hx_extract [x6f] 0 (hx_arch sm_tree2) (cp_os [])) ret2 o2 /\
  o_fs o1 [[x77]; [x6f]; [x64]; [x61;x62;x63]] = Some (IFile 420 [x31;x32;x33]) /\ o_fs o2 [[x77]; [x6f]; [x64]; [x61;x62;x63]] = Some (IFile 420 [x31;x32;x33]).
Proof.
  destruct (did_all_of (hx_extract [x6f] 0 (hx_arch cp_tree) (cp_os [])) (fun ret o' =>
    at_eqb o' [[x77]; [x6f]; [x64]; [x61;x62;x63]] (Some (IFile 420 [x31;x32;x33])))) as (ret1 & o1 & D1 & H1); [vm_compute; reflexivity|].
  destruct (did_all_of (hx_extract [x6f] 0 (hx_arch sm_tree2) (cp_os [])) (fun ret o' =>
    at_eqb o' [[x77]; [x6f]; [x64]; [x61;x62;x63]] (Some (IFile 420 [x31;x32;x33])))) as (ret2 & o2 & D2 & H2); [vm_compute; reflexivity|].
  exists ret1, o1, ret2, o2. split; [apply cp_sane; auto|]. split; [exact cp_lists|]. split; [exact sm_lists2|]. split; [exact cp_arch|]. split; [exact sm_arch2|].
  split. { intro E. assert (Q : bytes_eqb (hx_arch cp_tree) (hx_arch sm_tree2) = true) by (rewrite E; now apply bytes_eqb_spec). vm_compute in Q. discriminate Q. }
  split; [exact cp_nolinks|]. split; [apply cp_suitable; auto|]. split; [apply cp_spot; auto|].
  split. { apply (free_none (cp_os []) [x6f]); [apply cp_sane; auto|apply cp_spot; auto]. }
  split; [exact cp_base|]. split; [vm_compute; discriminate|]. split; [vm_compute; discriminate|]. split; [exact D1|]. split; [exact D2|].
  split; now apply at_eqb_ok.
Qed.

(** With the link at the end. *)
Definition sm_ltree2 : list (bytes * snode) := cp_tree ++ [([x6c], SLink 41471 5 (Some [x64;x2f;x61;x62;x63]))].
Lemma sm_llists2 : lists (o_fs (cp_os cp_link)) [[x73]] sm_ltree2.
Proof.
  exists 16877. destruct (cp_sees cp_link (or_intror eq_refl)) as [A B].
  apply (se_dir _ _ 493); [reflexivity|cbn [sm_ltree2 cp_tree app map fst]; nodup_case| | |apply cp_complete; reflexivity].
  - intros c nd H D. apply in_app_iff in H. destruct H as [H|[H|[]]]; [now apply (A c)|injection H as <- <-; nodot].
  - intros c nd H D. apply in_app_iff in H. destruct H as [H|[H|[]]]; [now apply B|injection H as <- <-]. apply (se_link _ _ [x64;x2f;x61;x62;x63]). reflexivity.
Qed.
Lemma sm_larch2 : archives_dir rle_zlib sm_ltree2 (hx_arch sm_ltree2).
Proof. apply hx_arch_ok; [unfold tree_fits, listing, sm_ltree2, cp_tree; cbn [app]; fits_case|vm_compute; reflexivity]. Qed.
Lemma ex_c151_links : exists q1 evs1 q2 evs2, sane (o_fs (cp_os cp_link)) /\ lists (o_fs (cp_os cp_link)) [[x73]] cp_ltree /\ lists (o_fs (cp_os cp_link)) [[x73]] sm_ltree2 /\
  archives_dir rle_zlib cp_ltree (hx_arch cp_ltree) /\ archives_dir rle_zlib sm_ltree2 (hx_arch sm_ltree2) /\ homely (cp_os cp_link) /\
  suitable false 18 1 (o_fs (cp_os cp_link)) [[x73]] /\ free_spot (cp_os cp_link) [x6f] [[x77]; [x6f]] /\
  calls rle_zlib LE ex_alloc ax_al (zeros DEF_CHUNK_SIZE) ax_hjunk ex_pj 5000 5000 0 (hx_arch cp_ltree) q1 evs1 /\ room_left q1 /\ unsplit evs1 /\ link_sizes evs1 <> [] /\
  calls rle_zlib LE ex_alloc ax_al (zeros DEF_CHUNK_SIZE) ax_hjunk ex_pj 5000 5000 0 (hx_arch sm_ltree2) q2 evs2 /\ room_left q2 /\ unsplit evs2 /\ link_sizes evs2 <> [].
Proof.
  destruct (lm_calls_of (hx_arch cp_ltree) (fun evs => wholeb (payloads evs) (link_sizes evs) && negb (lenN (link_sizes evs) =? 0)))
    as (q & evs & K & R & H); [vm_compute; reflexivity|].
  destruct (lm_calls_of (hx_arch sm_ltree2) (fun evs => wholeb (payloads evs) (link_sizes evs) && negb (lenN (link_sizes evs) =? 0)))
    as (q2 & evs2 & K2 & R2 & H2); [vm_compute; reflexivity|].
  apply andb_prop in H. destruct H as [A1 A2]. apply andb_prop in H2. destruct H2 as [B1 B2].
  exists q, evs, q2, evs2. split; [apply cp_sane; auto|]. split; [exact cp_llists|]. split; [exact sm_llists2|]. split; [exact cp_larch|]. split; [exact sm_larch2|].
  split; [exact cp_homely|]. split; [apply cp_suitable; auto|]. split; [apply cp_spot; auto|]. split; [exact K|]. split; [exact R|].
  split; [now apply wholeb_ok|]. split; [destruct (link_sizes evs); [discriminate A2|discriminate]|]. split; [exact K2|]. split; [exact R2|].
  split; [now apply wholeb_ok|]. destruct (link_sizes evs2); [discriminate B2|discriminate].
Qed.
