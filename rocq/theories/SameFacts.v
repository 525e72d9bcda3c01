(** SameFacts.v: archives of one directory are interchangeable (C151). *)
From Coq Require Import Lia.
From Verif Require Import Base Format Zlib Compress Parser ParserProofs ParserFacts Decompress DecompressProofs MidProofs MidFacts
  ArchiveSpec ArchiveFacts ArchiveDecode ArchiveEntry ArchiveProps FS FSFacts HL HLSpec HLFacts HLDrive HLProps HLSafe MkdirFacts HLTame HLMore LinkFacts LinkMore CopySpec CopyFacts.

(** Extraction of an archive of the directory [s] of another file system [fs]. *)
Lemma brought z (C : zlib_contract z) fs s es F e alloc hal al stk obuf hjunk pjunk T archive inp t o fuel :
  sane fs -> lists fs s es -> no_links fs s -> suitable (o_priv o) (o_umask o) (lenN T) fs s ->
  (exists c, fs (s ++ [c]) <> None) -> archives_dir z es F ->
  input_of archive F inp -> (length inp < fuel)%nat -> calm z hal al stk obuf hjunk pjunk -> (forall k n, alloc k n = true) ->
  free_spot o T t -> (forall r, o_fs o (t ++ r) = None) -> usable_dir (o_priv o) (o_umask o) MODE_BASE_DIR -> volume (preorder es) <= o_free o ->
  exists dfuel0, forall dfuel, (dfuel0 <= dfuel)%nat -> exists ret q h ds o',
    exec (extract T hal stk z e alloc archive fuel dfuel al obuf hjunk pjunk inp false) o = Ok ((ret, Some (q, h, ds)), o') /\
    (room_left q -> ret = ContentDirectory /\ same_env o o' /\
      forall p, o_fs o' p = overlay t (fun r => match r with [] => Some (IDir (dir_perm (o_umask o) MODE_BASE_DIR)) | _ => option_map (masked (o_umask o)) (fs (s ++ r)) end) (o_fs o) p).
Proof.
  intros San Ls Nl Su Ne A In Fu Ca Al Fs Nw U V.
  destruct (disk_dir z C es F e alloc hal al stk obuf hjunk pjunk T archive inp t o fuel A In Fu Ca Al (lists_nonempty _ San _ _ Ls Ne)
    (lists_quiet _ _ _ Ls) (lists_nodup _ _ _ Ls) (lists_ext _ San _ _ _ _ _ Ls Nl Su) Fs U Nw V) as (d0 & K).
  exists d0. intros dfuel Hd. destruct (K dfuel Hd) as (ret & q & h & ds & o' & E & R). exists ret, q, h, ds, o'. split; [exact E|].
  intro Rl. destruct (R Rl) as (R1 & R2 & R3). split; [exact R1|]. split; [exact R2|].
  intro p. rewrite R3. unfold overlay. destruct (strip t p) as [r|]; [|reflexivity]. destruct r as [|c r]; [reflexivity|].
  unfold dir_tree. rewrite (lists_nolink _ _ _ _ Ls Nl), (lists_tree _ San _ _ _ Ls) by discriminate. reflexivity.
Qed.

(** C151 *)
Lemma same_archives : forall z1 (C1 : zlib_contract z1) z2 (C2 : zlib_contract z2) fs s es1 es2 F1 F2 T t o
    e1 alloc1 hal1 al1 stk1 obuf1 hjunk1 pjunk1 archive1 inp1 fuel1 e2 alloc2 hal2 al2 stk2 obuf2 hjunk2 pjunk2 archive2 inp2 fuel2,
  sane fs -> lists fs s es1 -> lists fs s es2 -> archives_dir z1 es1 F1 -> archives_dir z2 es2 F2 ->
  no_links fs s -> suitable (o_priv o) (o_umask o) (lenN T) fs s -> (exists c, fs (s ++ [c]) <> None) ->
  input_of archive1 F1 inp1 -> (length inp1 < fuel1)%nat -> calm z1 hal1 al1 stk1 obuf1 hjunk1 pjunk1 -> (forall k n, alloc1 k n = true) ->
  input_of archive2 F2 inp2 -> (length inp2 < fuel2)%nat -> calm z2 hal2 al2 stk2 obuf2 hjunk2 pjunk2 -> (forall k n, alloc2 k n = true) ->
  free_spot o T t -> (forall r, o_fs o (t ++ r) = None) -> usable_dir (o_priv o) (o_umask o) MODE_BASE_DIR ->
  volume (preorder es1) <= o_free o -> volume (preorder es2) <= o_free o ->
  exists dfuel0, forall dfuel, (dfuel0 <= dfuel)%nat -> exists ret1 q1 h1 ds1 o1 ret2 q2 h2 ds2 o2,
    exec (extract T hal1 stk1 z1 e1 alloc1 archive1 fuel1 dfuel al1 obuf1 hjunk1 pjunk1 inp1 false) o = Ok ((ret1, Some (q1, h1, ds1)), o1) /\
    exec (extract T hal2 stk2 z2 e2 alloc2 archive2 fuel2 dfuel al2 obuf2 hjunk2 pjunk2 inp2 false) o = Ok ((ret2, Some (q2, h2, ds2)), o2) /\
    (room_left q1 -> room_left q2 -> ret1 = ret2 /\ forall p, o_fs o1 p = o_fs o2 p).
Proof.
  intros z1 C1 z2 C2 fs s es1 es2 F1 F2 T t o e1 alloc1 hal1 al1 stk1 obuf1 hjunk1 pjunk1 archive1 inp1 fuel1 e2 alloc2 hal2 al2 stk2 obuf2 hjunk2 pjunk2 archive2 inp2 fuel2
    San L1 L2 A1 A2 Nl Su Ne I1 Fu1 Ca1 Al1 I2 Fu2 Ca2 Al2 Fs Nw U V1 V2.
  destruct (brought z1 C1 fs s es1 F1 e1 alloc1 hal1 al1 stk1 obuf1 hjunk1 pjunk1 T archive1 inp1 t o fuel1 San L1 Nl Su Ne A1 I1 Fu1 Ca1 Al1 Fs Nw U V1) as (d1 & K1).
  destruct (brought z2 C2 fs s es2 F2 e2 alloc2 hal2 al2 stk2 obuf2 hjunk2 pjunk2 T archive2 inp2 t o fuel2 San L2 Nl Su Ne A2 I2 Fu2 Ca2 Al2 Fs Nw U V2) as (d2 & K2).
  exists (Nat.max d1 d2). intros d Hd.
  destruct (K1 d ltac:(lia)) as (ret1 & q1 & h1 & ds1 & o1 & E1 & R1). destruct (K2 d ltac:(lia)) as (ret2 & q2 & h2 & ds2 & o2 & E2 & R2).
  exists ret1, q1, h1, ds1, o1, ret2, q2, h2, ds2, o2. split; [exact E1|]. split; [exact E2|].
  intros Q1 Q2. destruct (R1 Q1) as (-> & _ & X1). destruct (R2 Q2) as (-> & _ & X2). split; [reflexivity|]. intro p. now rewrite X1, X2.
Qed.

(** With links, whose targets were not split. *)
Lemma brought_links z (C : zlib_contract z) fs s es F e alloc hal al stk obuf hjunk pjunk T archive inp t o fuel :
  sane fs -> lists fs s es -> suitable (o_priv o) (o_umask o) (lenN T) fs s ->
  (exists c, fs (s ++ [c]) <> None) -> archives_dir z es F -> homely o ->
  input_of archive F inp -> (length inp < fuel)%nat -> calm z hal al stk obuf hjunk pjunk -> (forall k n, alloc k n = true) ->
  free_spot o T t -> (forall r, o_fs o (t ++ r) = None) -> usable_dir (o_priv o) (o_umask o) MODE_BASE_DIR -> volume (preorder es) <= o_free o ->
  exists dfuel0, forall dfuel, (dfuel0 <= dfuel)%nat -> exists q evs, calls z e alloc al obuf hjunk pjunk dfuel fuel archive inp q evs /\
    (room_left q -> unsplit evs -> exists h ds o',
      exec (extract T hal stk z e alloc archive fuel dfuel al obuf hjunk pjunk inp false) o = Ok ((ContentDirectory, Some (q, h, ds)), o') /\
      forall p, o_fs o' p = overlay t (fun r => match r with [] => Some (IDir (dir_perm (o_umask o) MODE_BASE_DIR)) | _ => option_map (masked (o_umask o)) (fs (s ++ r)) end) (o_fs o) p).
Proof.
  intros San Ls Su Ne A Ho In Fu Ca Al Fs Nw U V.
  destruct (disk_links_whole z C es F e alloc hal al stk obuf hjunk pjunk T archive inp t o fuel A In Fu Ca Al (lists_nonempty _ San _ _ Ls Ne)
    (lists_quiet _ _ _ Ls) (lists_nodup _ _ _ Ls) (lists_lext _ San _ _ _ _ _ Ls Su) Ho Fs U Nw V) as (d0 & K).
  exists d0. intros dfuel Hd. destruct (K dfuel Hd) as (q & evs & Cs & R). exists q, evs. split; [exact Cs|].
  intros Rl Un. destruct (R Rl Un) as (h & ds & o' & E & R2 & R3). exists h, ds, o'. split; [exact E|].
  intro p. rewrite R3. unfold overlay. destruct (strip t p) as [r|]; [|reflexivity]. destruct r as [|c r]; [reflexivity|].
  unfold ldir_tree. rewrite (lists_tree _ San _ _ _ Ls) by discriminate. reflexivity.
Qed.
Lemma same_archives_links : forall z1 (C1 : zlib_contract z1) z2 (C2 : zlib_contract z2) fs s es1 es2 F1 F2 T t o
    e1 alloc1 hal1 al1 stk1 obuf1 hjunk1 pjunk1 archive1 inp1 fuel1 e2 alloc2 hal2 al2 stk2 obuf2 hjunk2 pjunk2 archive2 inp2 fuel2,
  sane fs -> lists fs s es1 -> lists fs s es2 -> archives_dir z1 es1 F1 -> archives_dir z2 es2 F2 ->
  homely o -> suitable (o_priv o) (o_umask o) (lenN T) fs s -> (exists c, fs (s ++ [c]) <> None) ->
  input_of archive1 F1 inp1 -> (length inp1 < fuel1)%nat -> calm z1 hal1 al1 stk1 obuf1 hjunk1 pjunk1 -> (forall k n, alloc1 k n = true) ->
  input_of archive2 F2 inp2 -> (length inp2 < fuel2)%nat -> calm z2 hal2 al2 stk2 obuf2 hjunk2 pjunk2 -> (forall k n, alloc2 k n = true) ->
  free_spot o T t -> (forall r, o_fs o (t ++ r) = None) -> usable_dir (o_priv o) (o_umask o) MODE_BASE_DIR ->
  volume (preorder es1) <= o_free o -> volume (preorder es2) <= o_free o ->
  exists dfuel0, forall dfuel, (dfuel0 <= dfuel)%nat -> exists q1 evs1 q2 evs2,
    calls z1 e1 alloc1 al1 obuf1 hjunk1 pjunk1 dfuel fuel1 archive1 inp1 q1 evs1 /\ calls z2 e2 alloc2 al2 obuf2 hjunk2 pjunk2 dfuel fuel2 archive2 inp2 q2 evs2 /\
    (room_left q1 -> unsplit evs1 -> room_left q2 -> unsplit evs2 -> exists ret h1 ds1 o1 h2 ds2 o2,
      exec (extract T hal1 stk1 z1 e1 alloc1 archive1 fuel1 dfuel al1 obuf1 hjunk1 pjunk1 inp1 false) o = Ok ((ret, Some (q1, h1, ds1)), o1) /\
      exec (extract T hal2 stk2 z2 e2 alloc2 archive2 fuel2 dfuel al2 obuf2 hjunk2 pjunk2 inp2 false) o = Ok ((ret, Some (q2, h2, ds2)), o2) /\
      forall p, o_fs o1 p = o_fs o2 p).
Proof.
  intros z1 C1 z2 C2 fs s es1 es2 F1 F2 T t o e1 alloc1 hal1 al1 stk1 obuf1 hjunk1 pjunk1 archive1 inp1 fuel1 e2 alloc2 hal2 al2 stk2 obuf2 hjunk2 pjunk2 archive2 inp2 fuel2
    San L1 L2 A1 A2 Ho Su Ne I1 Fu1 Ca1 Al1 I2 Fu2 Ca2 Al2 Fs Nw U V1 V2.
  destruct (brought_links z1 C1 fs s es1 F1 e1 alloc1 hal1 al1 stk1 obuf1 hjunk1 pjunk1 T archive1 inp1 t o fuel1 San L1 Su Ne A1 Ho I1 Fu1 Ca1 Al1 Fs Nw U V1) as (d1 & K1).
  destruct (brought_links z2 C2 fs s es2 F2 e2 alloc2 hal2 al2 stk2 obuf2 hjunk2 pjunk2 T archive2 inp2 t o fuel2 San L2 Su Ne A2 Ho I2 Fu2 Ca2 Al2 Fs Nw U V2) as (d2 & K2).
  exists (Nat.max d1 d2). intros d Hd.
  destruct (K1 d ltac:(lia)) as (q1 & evs1 & E1 & R1). destruct (K2 d ltac:(lia)) as (q2 & evs2 & E2 & R2).
  exists q1, evs1, q2, evs2. split; [exact E1|]. split; [exact E2|].
  intros Q1 U1 Q2 U2. destruct (R1 Q1 U1) as (h1 & ds1 & o1 & X1 & Y1). destruct (R2 Q2 U2) as (h2 & ds2 & o2 & X2 & Y2).
  exists ContentDirectory, h1, ds1, o1, h2, ds2, o2. split; [exact X1|]. split; [exact X2|]. intro p. now rewrite Y1, Y2.
Qed.
