(** ReadExamples.v: concrete cases for ReadFacts.v. *)
From Coq Require Import Lia.
From Verif Require Import Base Format Zlib RleZlib LLCompress Compress Parser ParserProofs ParserFacts Decompress DecompressProofs MidProofs MidFacts
  DecompressExamples ArchiveSpec ArchiveFacts ArchiveDecode ArchiveEntry ArchiveProps ArchiveExamples FS FSFacts HL HLSpec HLFacts HLDrive HLProps HLSafe MkdirFacts
  HLTame HLMore HLExamples LinkFacts LinkExamples LinkMore LinkMoreExamples CutSpec CopySpec CopyFacts CopyExamples PathWalk PathFacts PathExamples ReadFacts.

(** The directory /s with a file a of mode [ma] and a directory d of mode [md] that holds [i] under the name x. *)
Definition rd_list (ma md : N) (i : inode) : list (path * inode) :=
  [([], IDir 493); ([[x73]], IDir 493); ([[x73]; [x61]], IFile ma [x31]); ([[x73]; [x64]], IDir md); ([[x73]; [x64]; [x78]], i)].
Definition rd_os (ma md : N) (i : inode) : os := OS (fun p => look p (rd_list ma md i)) 1000 [] 18 false [] 3.
Definition rd_src : bytes := [x2f;x73].
(** Without the entry x. *)
Definition rd_fs (ma md : N) : fstree :=
  fun p => look p [([], IDir 493); ([[x73]], IDir 493); ([[x73]; [x61]], IFile ma [x31]); ([[x73]; [x64]], IDir md)].

Lemma searchable_list l d free cwd um fds nx : forallb (fun x => match snd x with IDir m => negb (can_r false m) || can_x false m | _ => true end) l = true ->
  searchable (OS (fun p => look p l) free cwd um false fds nx) d.
Proof.
  intros H r m E R. cbn [o_fs o_priv] in *. rewrite forallb_forall in H. apply look_in in E. apply H in E. cbn [snd] in E. now rewrite R in E.
Qed.

Lemma rd_part ma md i : (exists m d, i = IFile m d /\ m < 4096 /\ lenN d < 1000000) -> ma < 4096 -> md < 4096 -> (can_r false md = true -> can_x false md = true) ->
  archivable_part (rd_os ma md i) (names_in (rd_list ma md i)) rd_src [[x73]] 2.
Proof.
  intros (mi & di & -> & Li & Ld) La Lm Rx.
  split; [apply sane_list; vm_compute; reflexivity|]. split; [apply reports_list; vm_compute; reflexivity|].
  split. { apply modest_list. cbn [rd_list forallb snd]. rewrite !andb_true_iff. apply N.ltb_lt in Li, Ld, La, Lm. rewrite Li, Ld, La, Lm. repeat split. }
  split. { split; [discriminate|]. split; [exists 493; split; reflexivity|]. right. exists [], [x73], 493. split; vm_compute; reflexivity. }
  split. { apply searchable_list. cbn [rd_list forallb snd]. rewrite !andb_true_iff. repeat split. destruct (can_r false md); [|reflexivity]. cbn [negb orb]. now apply Rx. }
  split; [apply uncut_list; vm_compute; reflexivity|]. apply deep_list; vm_compute; reflexivity.
Qed.

Lemma rd_shown ma md i : can_r false md = false -> shown (rd_os ma md i) [[x73]] (rd_fs ma md).
Proof.
  intro R. assert (H : forall p, hidden (rd_os ma md i) [[x73]] p <-> exists c r, p = [[x73]; [x64]] ++ c :: r).
  { intro p. split.
    - intros (r1 & c & r2 & m & -> & E & Rm). cbn [rd_os o_fs o_priv] in E, Rm. apply look_in in E. cbn [rd_list In] in E.
      destruct E as [E|[E|[E|[E|[E|[]]]]]]; try discriminate E.
      + injection E as Er Em. subst m. discriminate Rm.
      + injection E as Er Em. exists c, r2. rewrite app_assoc. cbn [app]. rewrite <- Er. reflexivity.
      + injection E as Er Em. subst i. exists [x78], (c :: r2). cbn [app]. rewrite <- Er. reflexivity.
    - intros (c & r & ->). exists [[x64]], c, r, md. split; [reflexivity|]. split; [vm_compute; reflexivity|exact R]. }
  split; intros p Hp.
  - apply H in Hp. destruct Hp as (c & r & ->). reflexivity.
  - cbn [rd_os o_fs]. unfold rd_fs, rd_list. cbn [look].
    destruct (path_eqb p [[x73]; [x64]; [x78]]) eqn:Q; [|reflexivity]. exfalso. apply Hp. apply H. exists [x78], []. now apply path_eqb_spec in Q.
Qed.

(** A directory of mode 0 is archived as an empty directory, and 0 is returned. *)
Definition rd_wrong : list (bytes * snode) := [([x61], SFile true true 33188 1 [x31] false); ([x64], SDir 16384 [])].
Lemma ex_c150_refuted : exists o ls src d n cevs ws wx led es, archivable_part o ls src d n /\
  px_compress 3 5 o ls src = Ok (CRet 0%Z, cevs, ws, wx, led) /\ archives_dir rle_zlib es (cev_bytes cevs) /\
  In ([x64], SDir 16384 []) es /\ o_fs o (d ++ [[x64]; [x78]]) = Some (IFile 420 [x32;x33]).
Proof.
  exists (rd_os 420 0 (IFile 420 [x32;x33])), (names_in (rd_list 420 0 (IFile 420 [x32;x33]))), rd_src, [[x73]], 2%nat.
  assert (E : match px_compress 3 5 (rd_os 420 0 (IFile 420 [x32;x33])) (names_in (rd_list 420 0 (IFile 420 [x32;x33]))) rd_src with
    | Ok (CRet r, cevs, _, _, _) => (r =? 0)%Z && bytes_eqb (cev_bytes cevs) (hx_arch rd_wrong) | _ => false end = true) by (vm_compute; reflexivity).
  destruct (px_compress 3 5 (rd_os 420 0 (IFile 420 [x32;x33])) _ rd_src) as [[[[[[r|] cevs] ws] wx] led]| |] eqn:Ec; try discriminate E.
  apply andb_prop in E. destruct E as [E1 E2]. apply Z.eqb_eq in E1. apply bytes_eqb_spec in E2. subst r.
  exists cevs, ws, wx, led, rd_wrong. split; [apply rd_part; [exists 420, [x32;x33]; repeat split|reflexivity|reflexivity|discriminate]|].
  split; [reflexivity|]. split; [rewrite E2; apply hx_arch_ok; [unfold tree_fits, listing, rd_wrong; fits_case|vm_compute; reflexivity]|].
  split; [right; now left|]. vm_compute. reflexivity.
Qed.

(** A link in a directory that can be listed but not searched: the process is terminated. *)
Lemma ex_c150_search : exists o ls src d cevs ws wx led, sane (o_fs o) /\ reports (o_fs o) ls /\ modest (o_fs o) /\ dir_at o src d /\ uncut o src d /\ deep (o_fs o) 2 d /\
  px_compress 3 5 o ls src = Ok (CExit, cevs, ws, wx, led).
Proof.
  exists (rd_os 420 292 (ILink [x61])), (names_in (rd_list 420 292 (ILink [x61]))), rd_src, [[x73]].
  assert (E : match px_compress 3 5 (rd_os 420 292 (ILink [x61])) (names_in (rd_list 420 292 (ILink [x61]))) rd_src with
    | Ok (CExit, _, _, _, _) => true | _ => false end = true) by (vm_compute; reflexivity).
  destruct (px_compress 3 5 (rd_os 420 292 (ILink [x61])) _ rd_src) as [[[[[[r|] cevs] ws] wx] led]| |] eqn:Ec; try discriminate E.
  exists cevs, ws, wx, led. split; [apply sane_list; vm_compute; reflexivity|]. split; [apply reports_list; vm_compute; reflexivity|].
  split; [apply modest_list; vm_compute; reflexivity|].
  split. { split; [discriminate|]. split; [exists 493; split; reflexivity|]. right. exists [], [x73], 493. split; vm_compute; reflexivity. }
  split; [apply uncut_list; vm_compute; reflexivity|]. split; [apply deep_list; vm_compute; reflexivity|]. reflexivity.
Qed.

Lemma ex_c150 : exists cevs ws wx led, junk_ok (ax_jk x11) ax_hj ax_xjk ax_hjunk /\ accepts_path px_all /\ created rle_zlib ax_al 9 /\
  archivable_part (rd_os 420 0 (IFile 420 [x32;x33])) (names_in (rd_list 420 0 (IFile 420 [x32;x33]))) rd_src [[x73]] 2 /\
  shown (rd_os 420 0 (IFile 420 [x32;x33])) [[x73]] (rd_fs 420 0) /\
  px_compress 3 5 (rd_os 420 0 (IFile 420 [x32;x33])) (names_in (rd_list 420 0 (IFile 420 [x32;x33]))) rd_src = Ok (CRet 0%Z, cevs, ws, wx, led) /\
  last_not_full cevs.
Proof.
  assert (E : match px_compress 3 5 (rd_os 420 0 (IFile 420 [x32;x33])) (names_in (rd_list 420 0 (IFile 420 [x32;x33]))) rd_src with
    | Ok (CRet r, cevs, _, _, _) => (r =? 0)%Z && forallb (fun c => lenN (ce_data c) <? ce_room c) cevs | _ => false end = true) by (vm_compute; reflexivity).
  destruct (px_compress 3 5 (rd_os 420 0 (IFile 420 [x32;x33])) _ rd_src) as [[[[[[r|] cevs] ws] wx] led]| |] eqn:Ec; try discriminate E.
  apply andb_prop in E. destruct E as [E1 E2]. apply Z.eqb_eq in E1. subst r. exists cevs, ws, wx, led.
  split; [apply ax_junk|]. split; [exact px_accepts|]. split; [exact px_created|].
  split; [apply rd_part; [exists 420, [x32;x33]; repeat split|reflexivity|reflexivity|discriminate]|].
  split; [now apply rd_shown|]. split; [reflexivity|]. apply (ax_not_full _ E2).
Qed.
(** A file of mode 0200. *)
Lemma ex_c150_file : exists cevs ws wx led,
  archivable_part (rd_os 128 0 (IFile 420 [x32;x33])) (names_in (rd_list 128 0 (IFile 420 [x32;x33]))) rd_src [[x73]] 2 /\
  px_compress 3 5 (rd_os 128 0 (IFile 420 [x32;x33])) (names_in (rd_list 128 0 (IFile 420 [x32;x33]))) rd_src = Ok (CRet 2%Z, cevs, ws, wx, led).
Proof.
  assert (E : match px_compress 3 5 (rd_os 128 0 (IFile 420 [x32;x33])) (names_in (rd_list 128 0 (IFile 420 [x32;x33]))) rd_src with
    | Ok (CRet r, cevs, _, _, _) => (r =? 2)%Z | _ => false end = true) by (vm_compute; reflexivity).
  destruct (px_compress 3 5 (rd_os 128 0 (IFile 420 [x32;x33])) _ rd_src) as [[[[[[r|] cevs] ws] wx] led]| |] eqn:Ec; try discriminate E.
  apply Z.eqb_eq in E. subst r. exists cevs, ws, wx, led.
  split; [apply rd_part; [exists 420, [x32;x33]; repeat split|reflexivity|reflexivity|discriminate]|]. reflexivity.
Qed.
