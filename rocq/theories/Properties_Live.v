(** Properties_Live.v: compressdir when the file it writes lies in the folder it archives (C114, C115).
    Specification notions: LiveWalk.v: [lnode] (a folder with the output file in it), [live_compress] (the run; its log holds for every
    time the output file was read the size recorded and the bytes read), [fl] (how much of the output is in the file and not in the
    buffer of stdio); LiveProps.v: [lfits] (lengths fit into their fields); LiveFacts.v: [snaps P es es'] ([es'] is [es] with a file
    with contents satisfying [P] in place of the output file), [fair log] (as many bytes were read as recorded); LiveEndless.v: [grows]
    (a chunk of the output of deflate is not compressed), [lags]; HLProps.v: [archives_dir] (the bytes are an archive of the folder). *)
From Verif Require Import Base Format Zlib LLCompress Compress RleZlib Parser ParserProofs ParserFacts Decompress DecompressProofs DecompressFacts MidProofs
  MidFacts ArchiveSpec ArchiveFacts ArchiveDecode ArchiveEntry ArchiveProps HLProps LiveWalk LiveFacts LiveProps LiveEndless
  DecompressExamples ArchiveExamples LiveExamples.

(** C114: false.  The archive is written to the file z of a folder with a file a of 1 MiB; a codec that meets the contract and does not
    compress; stdio with a buffer of 4096 bytes.  Whatever time it is given the run does not return. *)
Theorem C114_ends_refuted : exists z (_ : zlib_contract z) level, forall rf fuel r,
  live_compress z LE ax_all (ax_jk x11) ax_hj ax_hjunk ax_al lv_fl rf fuel level 7 lv_home tt <> Ok r.
Proof. exact (ex_intro _ sto_zlib (ex_intro _ sto_contract (ex_intro _ 9%Z (fun rf fuel => lv_endless rf fuel 9 lv_level)))). Qed.
Print Assumptions C114_ends_refuted.

(** The same for every codec, every buffering and every folder: if chunks of the archive do not get shorter by compressing and a chunk of
    the archive is in the file when its turn comes. *)
Theorem C114_endless_refuted : forall z (F : Type) e (filt : F -> list bytes -> bytes -> skind -> Z * F) jk hj hjunk al fl (C : zlib_contract z) B rf fuel level clbk es n m rest f0,
  grows C -> lags fl B -> (forall k, lenN (jk k) = 40) -> (forall k l, lenN (hj k l) = l) -> lenN hjunk = 128 -> accepts filt ->
  Forall (fun x => fits (fst x) (snd x)) es -> lenN n + 8 < two32 -> is_dot n = false -> al 1 = true -> al 2 = true ->
  (forall r cevs ws log, live_compress z e filt jk hj hjunk al fl rf fuel level clbk (plainly es) f0 = Ok (r, cevs, ws, log) ->
    tend_of ws = Done /\ DEF_CHUNK_SIZE + B <= lenN (cev_bytes cevs)) ->
  forall r, live_compress z e filt jk hj hjunk al fl rf fuel level clbk (plainly es ++ (n, LOut m) :: rest) f0 <> Ok r.
Proof.
  exact (fun z F e filt jk hj hjunk al fl C B rf fuel level clbk es n m rest f0 G L J1 J2 => live_endless z e filt jk hj hjunk al fl C G B L J1 J2 rf fuel level clbk es n m rest f0).
Qed.
Print Assumptions C114_endless_refuted.
Example C114_endless_case : grows sto_contract /\ lags lv_fl 4096 /\ Forall (fun x => fits (fst x) (snd x)) lv_big /\
  (forall rf fuel r cevs ws log, live_compress sto_zlib LE ax_all (ax_jk x11) ax_hj ax_hjunk ax_al lv_fl rf fuel 9 7 (plainly lv_big) tt = Ok (r, cevs, ws, log) ->
    tend_of ws = Done /\ DEF_CHUNK_SIZE + 4096 <= lenN (cev_bytes cevs)) /\
  exists rf fuel r, live_compress sto_zlib LE ax_all (ax_jk x11) ax_hj ax_hjunk ax_al lv_fl rf fuel 9 7 (plainly lv_big) tt = Ok r.
Proof. exact ex_c114_endless. Qed.

(** What remains of C114: if the file cannot get longer than [R] bytes (the disk is full at some time), the run returns. *)
Theorem C114_ends_partial : forall z (F : Type) e (filt : F -> list bytes -> bytes -> skind -> Z * F) jk hj hjunk al fl (C : zlib_contract z) R rf level clbk es f0,
  (forall evs, fl evs <= R) -> R + 8 < two64 -> R < N.of_nat rf * DEF_CHUNK_SIZE ->
  (forall k, lenN (jk k) = 40) -> (forall k l, lenN (hj k l) = l) -> lenN hjunk = 128 -> Forall (fun x => lfits (fst x) (snd x)) es ->
  exists fuel r, live_compress z e filt jk hj hjunk al fl rf fuel level clbk es f0 = Ok r.
Proof.
  exact (fun z F e filt jk hj hjunk al fl C R rf level clbk es f0 Hfl HR Hrf J1 J2 => live_returns z e filt jk hj hjunk al fl C R HR Hfl rf Hrf J1 J2 level clbk es f0).
Qed.
Print Assumptions C114_ends_partial.
Example C114_case : lenN ax_hjunk = 128 /\ Forall (fun x => lfits (fst x) (snd x)) lv_home /\ (forall evs, lv_disk 3000000 evs <= 3000000) /\
  3000000 < N.of_nat 6 * DEF_CHUNK_SIZE /\ 3000000 + 8 < two64.
Proof. exact ex_c114. Qed.

(** C115: false.  A callback that writes at once: the output file z is 44 bytes long when it is opened, its record makes it longer, and
    72 bytes are read.  The run returns 0; the reader reports z and does not report the file b, which did not change. *)
Theorem C115_archive_refuted : exists cevs ws log rets s evs,
  live_compress rle_zlib LE ax_all (ax_jk x11) ax_hj ax_hjunk ax_al lv_now 3 3 9 7 (lv_desk [x41;x42;x43]) tt = Ok (CRet 0, cevs, ws, log) /\
  last_not_full cevs /\ map (fun x => (fst x, lenN (snd x))) log = [(44, 72)] /\
  run_dops BE ex_alloc 4000 ex_sess (ax_ops 50 (cev_bytes cevs)) = Ok (rets, s, evs) /\ room_left s /\
  (exists ft it, In (OEntry ft it (padded [x7a])) (flat evs)) /\ ~ exists ft it, In (OEntry ft it (padded [x62])) (flat evs).
Proof. exact ex_c115_lost. Qed.
Print Assumptions C115_archive_refuted.

(** What remains of C115: if as many bytes of the output file were read as recorded, the output is an archive of the folder; the output
    file is in it with the first bytes of the archive as its contents. *)
Theorem C115_archive_partial : forall z (F : Type) e (filt : F -> list bytes -> bytes -> skind -> Z * F) jk hj xjk hjunk al fl rf fuel level clbk es f0 cevs ws log,
  junk_ok jk hj xjk hjunk -> accepts filt -> created z al level -> Forall (fun x => lfits (fst x) (snd x)) es ->
  live_compress z e filt jk hj hjunk al fl rf fuel level clbk es f0 = Ok (CRet 0, cevs, ws, log) -> fair log ->
  last_not_full cevs -> lenN (cev_bytes cevs) + 8 < two64 ->
  exists es', snaps (fun x => prefix x (cev_bytes cevs)) es es' /\ archives_dir z es' (cev_bytes cevs).
Proof.
  exact (fun z F e filt jk hj xjk hjunk al fl rf fuel level clbk es f0 cevs ws log => live_archived z e filt jk hj hjunk al fl xjk rf fuel level clbk es f0 cevs ws log).
Qed.
Print Assumptions C115_archive_partial.
Example C115_case : exists cevs ws log,
  live_compress rle_zlib LE ax_all (ax_jk x11) ax_hj ax_hjunk ax_al lv_fl 3 3 9 7 (lv_desk (lv_alt 1100)) tt = Ok (CRet 0, cevs, ws, log) /\
  junk_ok (ax_jk x11) ax_hj ax_xjk ax_hjunk /\ accepts ax_all /\ created rle_zlib ax_al 9 /\
  Forall (fun x => lfits (fst x) (snd x)) (lv_desk (lv_alt 1100)) /\ fair log /\ map fst log = [4096] /\
  last_not_full cevs /\ lenN (cev_bytes cevs) + 8 < two64.
Proof. exact ex_c115. Qed.
