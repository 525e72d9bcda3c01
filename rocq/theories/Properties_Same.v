(** Properties_Same.v: property C151 (archives of one directory).

    Notions used: [sane], [lists], [no_links], [suitable], [archives_dir], [input_of], [calm], [free_spot], [usable_dir], [room_left], [homely]: as for C104
    and C83.  [did_all x ret o']: the run x returned ret and left the state o'. *)
From Verif Require Import Base Format Zlib RleZlib LLCompress Compress Parser ParserProofs ParserFacts Decompress DecompressProofs MidProofs MidFacts
  DecompressExamples ArchiveSpec ArchiveFacts ArchiveDecode ArchiveEntry ArchiveProps ArchiveExamples FS FSFacts HL HLSpec HLFacts HLDrive HLProps HLSafe MkdirFacts
  HLTame HLMore HLExamples LinkFacts LinkExamples LinkMore LinkMoreExamples CutSpec CopySpec CopyFacts CopyExamples SameFacts SameExamples
  WinArchive WinArchiveSpec WinTools WinExtract WinExtractSpec WinExtractExamples BothFacts CrossFacts CrossExamples SameWin.

(** C151: false.  A directory with a file of 524183 bytes and two links: if the file is listed first one link leads elsewhere after the extraction. *)
Theorem C151_same_refuted : exists d es1 es2 F1 F2 ret1 o1 ret2 o2, sane (sm_fs d) /\ lists (sm_fs d) [[x73]] es1 /\ lists (sm_fs d) [[x73]] es2 /\
  archives_dir rle_zlib es1 F1 /\ archives_dir rle_zlib es2 F2 /\ homely (hx_os 1000000) /\
  did_all (hx_extract [x6f] 0 F1 (hx_os 1000000)) ret1 o1 /\ did_all (hx_extract [x6f] 0 F2 (hx_os 1000000)) ret2 o2 /\
  ret1 = ContentDirectory /\ ret2 = ContentDirectory /\
  o_fs o1 [[x77]; [x6f]; [x6d]] = Some (ILink [x2f;x68;x2f;x68]) /\ o_fs o2 [[x77]; [x6f]; [x6d]] = Some (ILink lk_target).
Proof. exact ex_c151_refuted. Qed.
Print Assumptions C151_same_refuted.

(** What remains of C151: directories without links.  The archives may have been made with different orders of the entries, levels, zlib implementations
    and hosts, and they may be extracted with different zlib implementations, hosts and buffers. *)
Theorem C151_same_partial : forall z1 (C1 : zlib_contract z1) z2 (C2 : zlib_contract z2) fs s es1 es2 F1 F2 T t o
    e1 alloc1 hal1 al1 stk1 obuf1 hjunk1 pjunk1 archive1 inp1 fuel1 e2 alloc2 hal2 al2 stk2 obuf2 hjunk2 pjunk2 archive2 inp2 fuel2,
  sane fs -> lists fs s es1 -> lists fs s es2 -> archives_dir z1 es1 F1 -> archives_dir z2 es2 F2 ->
  no_links fs s -> suitable (o_priv o) (o_umask o) (lenN T) fs s -> (exists c, fs (s ++ [c]) <> None) ->
  input_of archive1 F1 inp1 -> (length inp1 < fuel1)%nat -> calm z1 hal1 al1 stk1 obuf1 hjunk1 pjunk1 -> (forall k n, alloc1 k n = true) ->
  input_of archive2 F2 inp2 -> (length inp2 < fuel2)%nat -> calm z2 hal2 al2 stk2 obuf2 hjunk2 pjunk2 -> (forall k n, alloc2 k n = true) ->
  free_spot o T t -> (forall r, o_fs o (t ++ r) = None) -> usable_dir (o_priv o) (o_umask o) MODE_BASE_DIR ->
  volume (preorder es1) <= o_free o -> volume (preorder es2) <= o_free o ->
  exists dfuel0, forall dfuel, (dfuel0 <= dfuel)%nat -> exists ret1 q1 h1 ds1 o1 ret2 q2 h2 ds2 o2,
    exec (extract T hal1 stk1 z1 e1 alloc1 archive1 fuel1 dfuel al1 obuf1 hjunk1 pjunk1 inp1 false) o = Ok ((ret1, Some (q1, h1, ds1)), o1) /\
    exec (extract T hal2 stk2 z2 e2 alloc2 archive2 fuel2 dfuel al2 obuf2 hjunk2 pjunk2 inp2 false) o = Ok ((ret2, Some (q2, h2, ds2)), o2) /\
    (room_left q1 -> room_left q2 -> ret1 = ret2 /\ forall p, o_fs o1 p = o_fs o2 p).
Proof. exact same_archives. Qed.
Print Assumptions C151_same_partial.
Example C151_case : exists ret1 o1 ret2 o2, sane (o_fs (cp_os [])) /\ lists (o_fs (cp_os [])) [[x73]] cp_tree /\ lists (o_fs (cp_os [])) [[x73]] sm_tree2 /\
  archives_dir rle_zlib cp_tree (hx_arch cp_tree) /\ archives_dir rle_zlib sm_tree2 (hx_arch sm_tree2) /\ hx_arch cp_tree <> hx_arch sm_tree2 /\
  no_links (o_fs (cp_os [])) [[x73]] /\ suitable false 18 1 (o_fs (cp_os [])) [[x73]] /\ free_spot (cp_os []) [x6f] [[x77]; [x6f]] /\
  (forall r, o_fs (cp_os []) ([[x77]; [x6f]] ++ r) = None) /\ usable_dir false 18 MODE_BASE_DIR /\ volume (preorder cp_tree) <= 1000 /\ volume (preorder sm_tree2) <= 1000 /\
  did_all (hx_extract [x6f] 0 (hx_arch cp_tree) (cp_os [])) ret1 o1 /\ did_all (hx_extract [x6f] 0 (hx_arch sm_tree2) (cp_os [])) ret2 o2 /\
  o_fs o1 [[x77]; [x6f]; [x64]; [x61;x62;x63]] = Some (IFile 420 [x31;x32;x33]) /\ o_fs o2 [[x77]; [x6f]; [x64]; [x61;x62;x63]] = Some (IFile 420 [x31;x32;x33]).
Proof. exact ex_c151. Qed.

(** With links, if no target was split ([calls], [unsplit]: as for C83). *)
Theorem C151_same_links_partial : forall z1 (C1 : zlib_contract z1) z2 (C2 : zlib_contract z2) fs s es1 es2 F1 F2 T t o
    e1 alloc1 hal1 al1 stk1 obuf1 hjunk1 pjunk1 archive1 inp1 fuel1 e2 alloc2 hal2 al2 stk2 obuf2 hjunk2 pjunk2 archive2 inp2 fuel2,
  sane fs -> lists fs s es1 -> lists fs s es2 -> archives_dir z1 es1 F1 -> archives_dir z2 es2 F2 ->
  homely o -> suitable (o_priv o) (o_umask o) (lenN T) fs s -> (exists c, fs (s ++ [c]) <> None) ->
  input_of archive1 F1 inp1 -> (length inp1 < fuel1)%nat -> calm z1 hal1 al1 stk1 obuf1 hjunk1 pjunk1 -> (forall k n, alloc1 k n = true) ->
  input_of archive2 F2 inp2 -> (length inp2 < fuel2)%nat -> calm z2 hal2 al2 stk2 obuf2 hjunk2 pjunk2 -> (forall k n, alloc2 k n = true) ->
  free_spot o T t -> (forall r, o_fs o (t ++ r) = None) -> usable_dir (o_priv o) (o_umask o) MODE_BASE_DIR ->
  volume (preorder es1) <= o_free o -> volume (preorder es2) <= o_free o ->
  exists dfuel0, forall dfuel, (dfuel0 <= dfuel)%nat -> exists q1 evs1 q2 evs2,
    calls z1 e1 alloc1 al1 obuf1 hjunk1 pjunk1 dfuel fuel1 archive1 inp1 q1 evs1 /\ calls z2 e2 alloc2 al2 obuf2 hjunk2 pjunk2 dfuel fuel2 archive2 inp2 q2 evs2 /\
    (room_left q1 -> unsplit evs1 -> room_left q2 -> unsplit evs2 -> exists ret h1 ds1 o1 h2 ds2 o2,
      exec (extract T hal1 stk1 z1 e1 alloc1 archive1 fuel1 dfuel al1 obuf1 hjunk1 pjunk1 inp1 false) o = Ok ((ret, Some (q1, h1, ds1)), o1) /\
      exec (extract T hal2 stk2 z2 e2 alloc2 archive2 fuel2 dfuel al2 obuf2 hjunk2 pjunk2 inp2 false) o = Ok ((ret, Some (q2, h2, ds2)), o2) /\
      forall p, o_fs o1 p = o_fs o2 p).
Proof. exact same_archives_links. Qed.
Print Assumptions C151_same_links_partial.
Example C151_links_case : exists q1 evs1 q2 evs2, sane (o_fs (cp_os cp_link)) /\ lists (o_fs (cp_os cp_link)) [[x73]] cp_ltree /\ lists (o_fs (cp_os cp_link)) [[x73]] sm_ltree2 /\
  archives_dir rle_zlib cp_ltree (hx_arch cp_ltree) /\ archives_dir rle_zlib sm_ltree2 (hx_arch sm_ltree2) /\ homely (cp_os cp_link) /\
  suitable false 18 1 (o_fs (cp_os cp_link)) [[x73]] /\ free_spot (cp_os cp_link) [x6f] [[x77]; [x6f]] /\
  calls rle_zlib LE ex_alloc ax_al (zeros DEF_CHUNK_SIZE) ax_hjunk ex_pj 5000 5000 0 (hx_arch cp_ltree) q1 evs1 /\ room_left q1 /\ unsplit evs1 /\ link_sizes evs1 <> [] /\
  calls rle_zlib LE ex_alloc ax_al (zeros DEF_CHUNK_SIZE) ax_hjunk ex_pj 5000 5000 0 (hx_arch sm_ltree2) q2 evs2 /\ room_left q2 /\ unsplit evs2 /\ link_sizes evs2 <> [].
Proof. exact ex_c151_links. Qed.

(** Extraction on Windows ([win_ready]: as for C149). *)
Theorem C151_same_windows_partial : forall z1 (C1 : zlib_contract z1) z2 (C2 : zlib_contract z2) maxd maxf deny fs s es1 es2 F1 F2 T t w
    e1 alloc1 hal1 al1 stk1 obuf1 hjunk1 pjunk1 archive1 inp1 fuel1 e2 alloc2 hal2 al2 stk2 obuf2 hjunk2 pjunk2 archive2 inp2 fuel2,
  sane fs -> lists fs s es1 -> lists fs s es2 -> archives_dir z1 es1 F1 -> archives_dir z2 es2 F2 ->
  no_links fs s -> win_ready maxd maxf (lenN T) fs s -> (exists c, fs (s ++ [c]) <> None) ->
  input_of archive1 F1 inp1 -> (length inp1 < fuel1)%nat -> calm z1 hal1 al1 stk1 obuf1 hjunk1 pjunk1 -> (forall k n, alloc1 k n = true) ->
  input_of archive2 F2 inp2 -> (length inp2 < fuel2)%nat -> calm z2 hal2 al2 stk2 obuf2 hjunk2 pjunk2 -> (forall k n, alloc2 k n = true) ->
  (forall q, deny q = false) -> maxf <= PATH_MAX -> wfree maxd w T t ->
  exists dfuel0, forall dfuel, (dfuel0 <= dfuel)%nat -> exists ret1 q1 h1 ds1 w1 ret2 q2 h2 ds2 w2,
    xextract maxd maxf deny T hal1 stk1 z1 e1 alloc1 archive1 fuel1 dfuel al1 obuf1 hjunk1 pjunk1 inp1 false w = Ok (Some ret1, Some (q1, h1, ds1), w1) /\
    xextract maxd maxf deny T hal2 stk2 z2 e2 alloc2 archive2 fuel2 dfuel al2 obuf2 hjunk2 pjunk2 inp2 false w = Ok (Some ret2, Some (q2, h2, ds2), w2) /\
    (room_left q1 -> room_left q2 -> ret1 = ret2 /\ forall p, w_fs w1 p = w_fs w2 p).
Proof. exact same_archives_win. Qed.
Print Assumptions C151_same_windows_partial.
Example C151_windows_case : sane (o_fs (cp_os [])) /\ lists (o_fs (cp_os [])) [[x73]] cp_tree /\ lists (o_fs (cp_os [])) [[x73]] sm_tree2 /\
  archives_dir rle_zlib cp_tree (hx_arch cp_tree) /\ archives_dir rle_zlib sm_tree2 (hx_arch sm_tree2) /\ no_links (o_fs (cp_os [])) [[x73]] /\
  win_ready 248 260 1 (o_fs (cp_os [])) [[x73]] /\ o_fs (cp_os []) [[x73]; [x64]] <> None /\
  calm rle_zlib hx_hal ax_al hx_stk (zeros DEF_CHUNK_SIZE) ax_hjunk ex_pj /\ wfree 248 wx_w [x6f] [[x77]; [x6f]].
Proof. exact ex_c151_win. Qed.
