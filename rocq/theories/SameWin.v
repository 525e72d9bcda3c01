(** SameWin.v: archives of one directory are interchangeable also on Windows (C151). *)
From Coq Require Import Lia.
From Verif Require Import Base Format Zlib RleZlib LLCompress Compress Parser ParserProofs ParserFacts Decompress DecompressProofs MidProofs MidFacts
  DecompressExamples ArchiveSpec ArchiveFacts ArchiveDecode ArchiveEntry ArchiveProps ArchiveExamples FS FSFacts HL HLSpec HLFacts HLDrive HLProps HLSafe MkdirFacts HLTame
  HLMore HLExamples LinkFacts LinkExamples LinkMore LinkMoreExamples CutSpec CopySpec CopyFacts CopyExamples SameFacts SameExamples
  WinArchive WinArchiveSpec WinArchiveFacts WinArchiveProps WinTools WinExtract WinExtractSpec WinExtractFacts WinExtractTame WinExtractExamples WinCopy BothFacts BothExamples
  CrossFacts CrossExamples.

Lemma brought_win maxd maxf deny z (C : zlib_contract z) fs s es F e alloc hal al stk obuf hjunk pjunk T archive inp t w fuel :
  sane fs -> lists fs s es -> no_links fs s -> win_ready maxd maxf (lenN T) fs s -> (exists c, fs (s ++ [c]) <> None) -> archives_dir z es F ->
  input_of archive F inp -> (length inp < fuel)%nat -> calm z hal al stk obuf hjunk pjunk -> (forall k n, alloc k n = true) -> (forall q, deny q = false) ->
  maxf <= PATH_MAX -> wfree maxd w T t ->
  exists dfuel0, forall dfuel, (dfuel0 <= dfuel)%nat -> exists ret q h ds w',
    xextract maxd maxf deny T hal stk z e alloc archive fuel dfuel al obuf hjunk pjunk inp false w = Ok (Some ret, Some (q, h, ds), w') /\
    (room_left q -> ret = ContentDirectory /\ same_tree fs s (w_fs w') t /\ forall p, strip t p = None -> w_fs w' p = w_fs w p).
Proof.
  intros San Ls Nl Rd Ne A I Hf Ca Ha De Ln Fs.
  destruct (to_windows maxd maxf deny z C fs s es F e alloc hal al stk obuf hjunk pjunk T archive inp t w fuel San Ls Nl Rd Ne A I Hf Ca Ha De Ln Fs) as (d1 & K1).
  destruct (wdisk_dir maxd maxf deny z C es F e alloc hal al stk obuf hjunk pjunk T archive inp t w fuel A I Hf Ca Ha De Ln (lists_nonempty _ San _ _ Ls Ne)
    (lists_quiet _ _ _ Ls) (lists_fold _ _ _ _ _ Rd _ Ls) (lists_wext _ _ _ _ _ Rd _ Ls) Fs) as (d2 & K2).
  exists (Nat.max d1 d2). intros d Hd. destruct (K1 d ltac:(lia)) as (ret & q & h & ds & w' & E & R). destruct (K2 d ltac:(lia)) as (ret2 & q2 & h2 & ds2 & w2 & E2 & R2).
  rewrite E in E2. injection E2 as <- <- <- <- <-. exists ret, q, h, ds, w'. split; [exact E|].
  intro Rl. destruct (R Rl) as (-> & _ & X). destruct (R2 Rl) as (_ & _ & Y). split; [reflexivity|]. split; [exact X|].
  intros p Hp. rewrite Y. unfold xoverlay. now rewrite Hp.
Qed.

Lemma same_archives_win : forall z1 (C1 : zlib_contract z1) z2 (C2 : zlib_contract z2) maxd maxf deny fs s es1 es2 F1 F2 T t w
    e1 alloc1 hal1 al1 stk1 obuf1 hjunk1 pjunk1 archive1 inp1 fuel1 e2 alloc2 hal2 al2 stk2 obuf2 hjunk2 pjunk2 archive2 inp2 fuel2,
  sane fs -> lists fs s es1 -> lists fs s es2 -> archives_dir z1 es1 F1 -> archives_dir z2 es2 F2 ->
  no_links fs s -> win_ready maxd maxf (lenN T) fs s -> (exists c, fs (s ++ [c]) <> None) ->
  input_of archive1 F1 inp1 -> (length inp1 < fuel1)%nat -> calm z1 hal1 al1 stk1 obuf1 hjunk1 pjunk1 -> (forall k n, alloc1 k n = true) ->
  input_of archive2 F2 inp2 -> (length inp2 < fuel2)%nat -> calm z2 hal2 al2 stk2 obuf2 hjunk2 pjunk2 -> (forall k n, alloc2 k n = true) ->
  (forall q, deny q = false) -> maxf <= PATH_MAX -> wfree maxd w T t ->
  exists dfuel0, forall dfuel, (dfuel0 <= dfuel)%nat -> exists ret1 q1 h1 ds1 w1 ret2 q2 h2 ds2 w2,
    xextract maxd maxf deny T hal1 stk1 z1 e1 alloc1 archive1 fuel1 dfuel al1 obuf1 hjunk1 pjunk1 inp1 false w = Ok (Some ret1, Some (q1, h1, ds1), w1) /\
    xextract maxd maxf deny T hal2 stk2 z2 e2 alloc2 archive2 fuel2 dfuel al2 obuf2 hjunk2 pjunk2 inp2 false w = Ok (Some ret2, Some (q2, h2, ds2), w2) /\
    (room_left q1 -> room_left q2 -> ret1 = ret2 /\ forall p, w_fs w1 p = w_fs w2 p).
Proof.
  intros z1 C1 z2 C2 maxd maxf deny fs s es1 es2 F1 F2 T t w e1 alloc1 hal1 al1 stk1 obuf1 hjunk1 pjunk1 archive1 inp1 fuel1 e2 alloc2 hal2 al2 stk2 obuf2 hjunk2 pjunk2 archive2 inp2 fuel2
    San L1 L2 A1 A2 Nl Rd Ne I1 Fu1 Ca1 Al1 I2 Fu2 Ca2 Al2 De Ln Fs.
  destruct (brought_win maxd maxf deny z1 C1 fs s es1 F1 e1 alloc1 hal1 al1 stk1 obuf1 hjunk1 pjunk1 T archive1 inp1 t w fuel1 San L1 Nl Rd Ne A1 I1 Fu1 Ca1 Al1 De Ln Fs) as (d1 & K1).
  destruct (brought_win maxd maxf deny z2 C2 fs s es2 F2 e2 alloc2 hal2 al2 stk2 obuf2 hjunk2 pjunk2 T archive2 inp2 t w fuel2 San L2 Nl Rd Ne A2 I2 Fu2 Ca2 Al2 De Ln Fs) as (d2 & K2).
  exists (Nat.max d1 d2). intros d Hd.
  destruct (K1 d ltac:(lia)) as (ret1 & q1 & h1 & ds1 & w1 & E1 & R1). destruct (K2 d ltac:(lia)) as (ret2 & q2 & h2 & ds2 & w2 & E2 & R2).
  exists ret1, q1, h1, ds1, w1, ret2, q2, h2, ds2, w2. split; [exact E1|]. split; [exact E2|].
  intros Q1 Q2. destruct (R1 Q1) as (-> & X1 & Y1). destruct (R2 Q2) as (-> & X2 & Y2). split; [reflexivity|]. intro p.
  destruct (strip t p) as [r|] eqn:Sp; [|now rewrite (Y1 _ Sp), (Y2 _ Sp)].
  apply strip_spec in Sp. subst p. exact (there_and_back fs s (w_fs w1) t (w_fs w2) t X1 X2 r).
Qed.

Lemma ex_c151_win : sane (o_fs (cp_os [])) /\ lists (o_fs (cp_os [])) [[x73]] cp_tree /\ lists (o_fs (cp_os [])) [[x73]] sm_tree2 /\
  archives_dir rle_zlib cp_tree (hx_arch cp_tree) /\ archives_dir rle_zlib sm_tree2 (hx_arch sm_tree2) /\ no_links (o_fs (cp_os [])) [[x73]] /\
  win_ready 248 260 1 (o_fs (cp_os [])) [[x73]] /\ o_fs (cp_os []) [[x73]; [x64]] <> None /\
  calm rle_zlib hx_hal ax_al hx_stk (zeros DEF_CHUNK_SIZE) ax_hjunk ex_pj /\ wfree 248 wx_w [x6f] [[x77]; [x6f]].
Proof.
  split; [apply cp_sane; auto|]. split; [exact cp_lists|]. split; [exact sm_lists2|]. split; [exact cp_arch|]. split; [exact sm_arch2|].
  split; [exact cp_nolinks|]. split; [exact cp_ready|]. split; [discriminate|]. split; [exact hx_calm|exact wx_free].
Qed.
