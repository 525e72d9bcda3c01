(** ReadCopy.v: what becomes of a directory of which the process could not read everything (C150). *)
From Verif Require Import Base Format Zlib RleZlib LLCompress Compress Parser ParserProofs ParserFacts Decompress DecompressProofs MidProofs MidFacts
  DecompressExamples ArchiveSpec ArchiveFacts ArchiveDecode ArchiveEntry ArchiveProps ArchiveExamples FS FSFacts HL HLSpec HLFacts HLDrive HLProps HLSafe MkdirFacts
  HLTame HLMore HLExamples LinkFacts LinkExamples LinkMore LinkMoreExamples CutSpec CopySpec CopyFacts CopyExamples PathWalk PathFacts PathExamples ReadFacts ReadExamples
  SameFacts.

(** Archived on one machine ([o]), extracted on another ([o2]). *)
Lemma part_copied : forall z (C : zlib_contract z) F e (filt : F -> bytes -> bytes -> skind -> Z * F) jk hj xjk hjunk al o ls dsize sj
    fuel pfuel level clbk src f0 d n cevs ws wx led fs' e2 alloc hal al2 stk obuf hjunk2 pjunk T archive inp t o2 fuel2,
  junk_ok jk hj xjk hjunk -> accepts_path filt -> archivable_part o ls src d n -> (n < pfuel)%nat -> created z al level -> shown o d fs' ->
  compress_path z e filt jk hj xjk hjunk al o ls dsize sj fuel pfuel level clbk false [] src f0 = Ok (CRet 0%Z, cevs, ws, wx, led) -> last_not_full cevs ->
  no_links fs' d -> suitable (o_priv o2) (o_umask o2) (lenN T) fs' d -> (exists c, fs' (d ++ [c]) <> None) ->
  input_of archive (cev_bytes cevs) inp -> (length inp < fuel2)%nat -> calm z hal al2 stk obuf hjunk2 pjunk -> (forall k n, alloc k n = true) ->
  free_spot o2 T t -> (forall r, o_fs o2 (t ++ r) = None) -> usable_dir (o_priv o2) (o_umask o2) MODE_BASE_DIR ->
  (forall es, lists fs' d es -> volume (preorder es) <= o_free o2) ->
  exists dfuel0, forall dfuel, (dfuel0 <= dfuel)%nat -> exists ret q h ds o',
    exec (extract T hal stk z e2 alloc archive fuel2 dfuel al2 obuf hjunk2 pjunk inp false) o2 = Ok ((ret, Some (q, h, ds)), o') /\
    (room_left q -> ret = ContentDirectory /\ forall r, r <> [] ->
      (hidden o d (d ++ r) -> o_fs o' (t ++ r) = None) /\
      (~ hidden o d (d ++ r) -> o_fs o' (t ++ r) = option_map (masked (o_umask o2)) (o_fs o (d ++ r)))).
Proof.
  intros z C F e filt jk hj xjk hjunk al o ls dsize sj fuel pfuel level clbk src f0 d n cevs ws wx led fs' e2 alloc hal al2 stk obuf hjunk2 pjunk T archive inp t o2 fuel2
    J Ha Ar Hf Cr Sh Cp L Nl Su Ne In Fu Ca Al Fs Nw U V.
  destruct (part_archived z C e filt jk hj xjk hjunk al o ls dsize sj _ _ _ _ _ _ _ _ _ _ _ _ _ _ J Ha Ar Hf Cr Sh Cp) as (_ & _ & K).
  destruct (K eq_refl L) as (es & Ls & A).
  assert (San : sane fs') by (apply (shown_sane o d fs' (proj1 Ar) Sh)).
  destruct (brought z C fs' d es (cev_bytes cevs) e2 alloc hal al2 stk obuf hjunk2 pjunk T archive inp t o2 fuel2 San Ls Nl Su Ne A In Fu Ca Al Fs Nw U (V es Ls)) as (d0 & B).
  exists d0. intros dfuel Hd. destruct (B dfuel Hd) as (ret & q & h & ds & o' & E & R). exists ret, q, h, ds, o'. split; [exact E|].
  intro Rl. destruct (R Rl) as (R1 & _ & R3). split; [exact R1|]. intros r Hr. rewrite R3. unfold overlay. rewrite ReadFacts.strip_self.
  destruct r as [|c r]; [congruence|]. destruct Sh as [S1 S2]. split; intro H; [rewrite (S1 _ H); apply Nw|rewrite (S2 _ H), Nw; now destruct (option_map _ _)].
Qed.

(** The directory d has mode 0300.  The extraction is done with the same rights. *)
Lemma ex_c150_copy : exists cevs ws wx led ret o', junk_ok (ax_jk x11) ax_hj ax_xjk ax_hjunk /\ accepts_path px_all /\ created rle_zlib ax_al 9 /\
  archivable_part (rd_os 420 192 (IFile 420 [x32;x33])) (names_in (rd_list 420 192 (IFile 420 [x32;x33]))) rd_src [[x73]] 2 /\
  shown (rd_os 420 192 (IFile 420 [x32;x33])) [[x73]] (rd_fs 420 192) /\
  px_compress 3 5 (rd_os 420 192 (IFile 420 [x32;x33])) (names_in (rd_list 420 192 (IFile 420 [x32;x33]))) rd_src = Ok (CRet 0%Z, cevs, ws, wx, led) /\
  last_not_full cevs /\ no_links (rd_fs 420 192) [[x73]] /\ suitable false 18 1 (rd_fs 420 192) [[x73]] /\ free_spot (cp_os []) [x6f] [[x77]; [x6f]] /\
  did_all (hx_extract [x6f] 0 (cev_bytes cevs) (cp_os [])) ret o' /\ ret = ContentDirectory /\
  o_fs o' [[x77]; [x6f]; [x61]] = Some (IFile 420 [x31]) /\ o_fs o' [[x77]; [x6f]; [x64]] = Some (IDir 192) /\ o_fs o' [[x77]; [x6f]; [x64]; [x78]] = None.
Proof.
  assert (E : match px_compress 3 5 (rd_os 420 192 (IFile 420 [x32;x33])) (names_in (rd_list 420 192 (IFile 420 [x32;x33]))) rd_src with
    | Ok (CRet r, cevs, _, _, _) => (r =? 0)%Z && forallb (fun c => lenN (ce_data c) <? ce_room c) cevs &&
        test true (hx_extract [x6f] 0 (cev_bytes cevs) (cp_os [])) (fun ret o' => (ret =? ContentDirectory) &&
          (at_eqb o' [[x77]; [x6f]; [x61]] (Some (IFile 420 [x31])) && (at_eqb o' [[x77]; [x6f]; [x64]] (Some (IDir 192)) &&
           at_eqb o' [[x77]; [x6f]; [x64]; [x78]] None)))
    | _ => false end = true) by (vm_compute; reflexivity).
  destruct (px_compress 3 5 (rd_os 420 192 (IFile 420 [x32;x33])) _ rd_src) as [[[[[[r|] cevs] ws] wx] led]| |] eqn:Ec; try discriminate E.
  apply andb_prop in E. destruct E as [E E3]. apply andb_prop in E. destruct E as [E1 E2]. apply Z.eqb_eq in E1. subst r.
  apply did_all_of in E3. destruct E3 as (ret & o' & D & H). apply andb_prop in H. destruct H as [H0 H]. apply andb_prop in H. destruct H as [H1 H].
  apply andb_prop in H. destruct H as [H2 H3].
  exists cevs, ws, wx, led, ret, o'. split; [apply ax_junk|]. split; [exact px_accepts|]. split; [exact px_created|].
  split; [apply rd_part; [exists 420, [x32;x33]; repeat split|reflexivity|reflexivity|discriminate]|].
  split; [now apply rd_shown|]. split; [reflexivity|]. split; [apply (ax_not_full _ E2)|].
  split. { intros r t Q. unfold rd_fs in Q. apply look_in in Q. cbn [In] in Q. destruct Q as [Q|[Q|[Q|[Q|[]]]]]; discriminate Q. }
  split. { split.
    - intros r Nr Q. destruct (rd_fs 420 192 ([[x73]] ++ r)) as [i|] eqn:Q2; [|congruence]. unfold rd_fs in Q2. apply look_in in Q2. cbn [In] in Q2.
      destruct Q2 as [Q2|[Q2|[Q2|[Q2|[]]]]]; injection Q2 as Qr Qi; try discriminate Qr; subst r; try congruence; vm_compute; reflexivity.
    - intros r m Nr Q2. unfold rd_fs in Q2. apply look_in in Q2. cbn [In] in Q2.
      destruct Q2 as [Q2|[Q2|[Q2|[Q2|[]]]]]; try discriminate Q2; injection Q2 as Qr Qi; subst; try congruence; split; vm_compute; reflexivity. }
  split; [apply cp_spot; auto|]. split; [exact D|]. split; [now apply N.eqb_eq|]. split; [now apply at_eqb_ok|]. split; now apply at_eqb_ok.
Qed.
