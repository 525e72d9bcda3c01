(** LinkMoreExamples.v: links in an archive with more content than one buffer holds. *)
From Coq Require Import Lia.
From Verif Require Import Base Format Zlib RleZlib LLCompress Compress Parser ParserProofs ParserFacts Decompress DecompressProofs
  DecompressFacts MidProofs MidFacts DecompressExamples ArchiveSpec ArchiveFacts ArchiveDecode ArchiveEntry ArchiveProps ArchiveExamples
  FS FSFacts HL HLSpec HLFacts HLDrive HLProps HLSafe MkdirFacts HLTame HLMkdir HLMore HLExamples LinkFacts LinkExamples LinkMore.

(** The tree [lk_big] in another order: a link m, a file of 524183 bytes, a link n. *)
Definition lm_tree : list (bytes * snode) := [lk_m; lk_file; lk_n].

(** What the library makes of it. *)
Definition lm_arch : bytes :=
  [x04;x00;x01;x01;x03;x00;x78;x44;x01;x0c;x07;x00;x01;x10;x07;x00;x01;x01;x03;x00;x01;x08;x03;x00;x01;xff;x01;
  xa1;x02;x00;x01;x04;x0b;x11;x01;x6d;x07;x00;x01;x2f;x01;x66;x01;x2f;x01;x67;x01;x2f;x01;x68;x01;x2f;x01;x68;
  x01;x2f;x01;x68;x01;x2f;x01;x68;x04;x00;x01;x97;x01;xff;x01;x07;x05;x00;x01;x98;x01;xff;x01;x07;x05;x00;x01;
  x01;x03;x00;x01;x08;x03;x00;x01;xa4;x01;x81;x03;x00;x0b;x11;x01;x62;x07;x00;x9e;x00] ++
  concat (List.repeat [xff;x00] (N.to_nat 2055)) ++
  [x01;x00;x01;x02;x07;x00;x01;x08;x07;x00;x01;x01;x03;x00;x01;x08;x03;x00;x01;xff;x01;xa1;x02;x00;x01;x04;x0b;
  x11;x01;x6e;x07;x00;x01;x2f;x01;x66;x06;x00].

Lemma lm_archived : archives_dir rle_zlib lm_tree lm_arch.
Proof.
  apply hx_arch_is; [|vm_compute; reflexivity]. unfold tree_fits, listing, lm_tree, lk_file, lk_m, lk_n. repeat apply Forall_cons; [| | |apply Forall_nil]; cbn [fst snd].
  - apply ft_link; vm_compute; reflexivity.
  - apply ft_file; [vm_compute; reflexivity|vm_compute; reflexivity|rewrite lenN_zeros; vm_compute; reflexivity].
  - apply ft_link; vm_compute; reflexivity.
Qed.
Lemma lm_quiet : Forall (fun x => quiet (snd x)) lm_tree.
Proof.
  unfold lm_tree, lk_file, lk_m, lk_n. repeat apply Forall_cons; cbn [snd]; [exact (q_link 41471 lk_target)|exact (q_file 33188 (zeros 524183))|exact (q_link 41471 [x2f;x66])|apply Forall_nil].
Qed.
Lemma lm_volume : volume (preorder lm_tree) <= o_free (hx_os 1000000).
Proof. vm_compute. discriminate. Qed.
Lemma lm_nodup : NoDup (map fst lm_tree).
Proof. unfold lm_tree, lk_file, lk_m, lk_n. cbn [map fst]. nodup_case. Qed.
Lemma lm_extractable : Forall (fun x => lextractable false 18 1 (fst x) (snd x)) lm_tree.
Proof.
  unfold lm_tree, lk_file, lk_m, lk_n. repeat apply Forall_cons; cbn [fst snd]; [| | |apply Forall_nil].
  - apply lx_link; [plain_case|vm_compute; reflexivity|discriminate|unfold lk_target; cbn; intuition discriminate|vm_compute; reflexivity].
  - apply lx_file; [plain_case|vm_compute; reflexivity].
  - apply lx_link; [plain_case|vm_compute; reflexivity|discriminate|cbn; intuition discriminate|vm_compute; reflexivity].
Qed.

(** [unsplit] is decidable. *)
Fixpoint wholeb (ps : list (bytes * bytes)) (ns : list N) : bool :=
  match ps, ns with
  | [], [] => true
  | (d, t) :: ps, n :: ns => (lenN d =? n) && match t with b :: _ => byte_eqb b x00 | [] => false end && wholeb ps ns
  | _, _ => false
  end.
Lemma wholeb_ok evs : wholeb (payloads evs) (link_sizes evs) = true -> unsplit evs.
Proof.
  unfold unsplit. generalize (payloads evs), (link_sizes evs). induction l as [|[d t] l IH]; intros [|n ns] H; try discriminate H; [constructor|].
  cbn [wholeb] in H. apply andb_prop in H. destruct H as [H H3]. apply andb_prop in H. destruct H as [H1 H2]. constructor; [|now apply IH].
  cbn [fst snd]. split; [now apply N.eqb_eq|]. destruct t as [|b t]; [discriminate|]. apply byte_eqb_spec in H2. subst. eauto.
Qed.
Definition lm_calls (inp : bytes) (P : list event -> bool) : bool :=
  match create rle_zlib (ax_al 3) (Some (zeros DEF_CHUNK_SIZE)) DEF_CHUNK_SIZE ax_hjunk ex_pj with
  | Some s0 => match run_dops LE ex_alloc 5000 s0 (chunk_ops 0 5000 inp 0 0) with
      | Ok (_, s, evs) => (0 <? z_aout (d_zs s)) && P evs | _ => false end
  | None => false
  end.
Lemma lm_calls_of inp P : lm_calls inp P = true -> exists s evs, calls rle_zlib LE ex_alloc ax_al (zeros DEF_CHUNK_SIZE) ax_hjunk ex_pj 5000 5000 0 inp s evs /\
  room_left s /\ P evs = true.
Proof.
  unfold lm_calls, calls. destruct (create _ _ _ _ _ _) as [s0|]; [|discriminate].
  destruct (run_dops _ _ _ _ _) as [[[rets s] evs]| |] eqn:E; try discriminate. intro H. apply andb_prop in H. destruct H as [H1 H2].
  apply N.ltb_lt in H1. exists s, evs. split; [exists s0, rets; split; [reflexivity|exact E]|]. split; [exact H1|exact H2].
Qed.

Lemma ex_c83_whole : exists s evs, archives_dir rle_zlib lm_tree lm_arch /\
  calm rle_zlib hx_hal ax_al hx_stk (zeros DEF_CHUNK_SIZE) ax_hjunk ex_pj /\
  (length lm_arch < 5000)%nat /\ preorder lm_tree <> [] /\ Forall (fun x => quiet (snd x)) lm_tree /\ NoDup (map fst lm_tree) /\
  Forall (fun x => lextractable false 18 1 (fst x) (snd x)) lm_tree /\ homely (hx_os 1000000) /\
  free_spot (hx_os 1000000) [x6f] [[x77]; [x6f]] /\ volume (preorder lm_tree) <= o_free (hx_os 1000000) /\
  calls rle_zlib LE ex_alloc ax_al (zeros DEF_CHUNK_SIZE) ax_hjunk ex_pj 5000 5000 0 lm_arch s evs /\ room_left s /\
  unsplit evs /\ link_sizes evs = [12; 2] /\ (1 < length (filter (fun ev => match ev with EvRead (_ :: _) => true | _ => false end) evs))%nat.
Proof.
  destruct (lm_calls_of lm_arch (fun evs => wholeb (payloads evs) (link_sizes evs) &&
     match link_sizes evs with [a; c] => (a =? 12) && (c =? 2) | _ => false end &&
     (1 <? length (filter (fun ev => match ev with EvRead (_ :: _) => true | _ => false end) evs))%nat)) as (s & evs & K & R & H);
    [vm_compute; reflexivity|].
  apply andb_prop in H. destruct H as [H H3]. apply andb_prop in H. destruct H as [H1 H2]. exists s, evs.
  split; [exact lm_archived|]. split; [exact hx_calm|]. split; [apply Nat.ltb_lt; vm_compute; reflexivity|].
  split; [intro Q; apply (f_equal (@length _)) in Q; vm_compute in Q; discriminate Q|].
  split; [exact lm_quiet|]. split; [exact lm_nodup|]. split; [exact lm_extractable|].
  split; [split; [apply hx_reachable|vm_compute; reflexivity]|].
  split; [apply hx_spot|]. split; [exact lm_volume|]. split; [exact K|]. split; [exact R|].
  split; [now apply wholeb_ok|]. split; [|now apply Nat.ltb_lt].
  destruct (link_sizes evs) as [|a [|b [|? ?]]]; try discriminate H2.
  apply andb_prop in H2. destruct H2 as [Ha Hb]. apply N.eqb_eq in Ha, Hb. now subst.
Qed.
