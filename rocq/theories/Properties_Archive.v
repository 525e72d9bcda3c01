(** Properties C04 and C27-C38 (archives).
    [run_of z filt root nested xs f0 r wx evs]: a directory [root] was archived with filter [filt] (state [f0]) and extra
    buffers [xs], for some level, byte order, contents of uninitialised memory and callback; the call ended as [r] says
    and made the filter calls [visits wx]; the delivered bytes, cut into pieces in any way, were decoded with the
    callbacks [evs]; the last deflate step did not fill its buffer (see C06) and neither did the last inflate step (see C13).
    [presents recs evs]: the callbacks [evs] present exactly the records [recs]. *)
From Verif Require Import Base Format Zlib RleZlib LLCompress Compress Parser ParserProofs ParserFacts Decompress DecompressProofs
  DecompressFacts MidProofs MidFacts DecompressExamples ArchiveSpec ArchiveFacts ArchiveDecode ArchiveEntry ArchiveProps ArchiveExamples.

(** C04: false.  Uninitialised bytes of record headers are archived. *)
Theorem C04_deterministic_refuted : exists jk jk' cevs cevs' ws ws' wx wx' led led',
  junk_ok jk ax_hj ax_xjk ax_hjunk /\ junk_ok jk' ax_hj ax_xjk ax_hjunk /\
  compress_dir rle_zlib LE ax_all jk ax_hj ax_xjk ax_hjunk ax_al 3 9 7 false [] (Some ax_tree) tt = Ok (CRet 0, cevs, ws, wx, led) /\
  compress_dir rle_zlib LE ax_all jk' ax_hj ax_xjk ax_hjunk ax_al 3 9 7 false [] (Some ax_tree) tt = Ok (CRet 0, cevs', ws', wx', led') /\
  last_not_full cevs /\ last_not_full cevs' /\
  zc_dec rle_contract (cev_bytes cevs) <> zc_dec rle_contract (cev_bytes cevs').
Proof. exact ex_c04. Qed.
Print Assumptions C04_deterministic_refuted.
(** What remains of C04: two archives of the same tree decode to the same records. *)
Theorem C04_deterministic_partial : forall z (C : zlib_contract z) (F : Type) (filt : F -> list bytes -> bytes -> skind -> Z * F)
  root f0 r1 r2 wx1 wx2 evs1 evs2,
  run_of z filt root false [] f0 r1 wx1 evs1 -> run_of z filt root false [] f0 r2 wx2 evs2 ->
  Forall (fun x => quiet (snd x)) (listing root) ->
  r1 = r2 /\ visits wx1 = visits wx2 /\ exists recs, presents recs evs1 /\ presents recs evs2.
Proof. exact @same_contents. Qed.
Print Assumptions C04_deterministic_partial.

(** C27 *)
Theorem C27_file_round_trip : forall z (C : zlib_contract z) e hjunk al fuel level clbk data cevs led e' alloc fuel' (s0 : dsess z) ops rets s evs,
  lenN hjunk = 128 -> compress_file z e hjunk al fuel level clbk data false = Ok (0%Z, cevs, led) -> last_not_full cevs ->
  started z s0 -> Forall dop_ok ops -> dfed ops = cev_bytes cevs ->
  run_dops e' alloc fuel' s0 ops = Ok (rets, s, evs) -> room_left s ->
  Forall (fun q => q = 0%Z) rets /\
  ((data = [] /\ evs = []) \/ exists ds, evs = EvFlBegin :: map EvFlRead ds /\ concat ds = data).
Proof. exact file_round_trip. Qed.
Print Assumptions C27_file_round_trip.
Theorem C27_returns : forall z (C : zlib_contract z) e hjunk al level clbk data rderr,
  lenN hjunk = 128 -> (al 3 = true -> al 2 = true -> al 1 = true -> deflateInit z level <> None) -> al 3 = true ->
  exists fuel r, compress_file z e hjunk al fuel level clbk data rderr = Ok r.
Proof. exact compress_file_total. Qed.
Print Assumptions C27_returns.
Example C27_case : exists cevs led rets s evs,
  compress_file rle_zlib LE ax_hjunk ax_al 3 9 7 ax_data false = Ok (0%Z, cevs, led) /\ last_not_full cevs /\
  started rle_zlib ex_sess /\ Forall dop_ok (ax_ops 7 (cev_bytes cevs)) /\ dfed (ax_ops 7 (cev_bytes cevs)) = cev_bytes cevs /\
  run_dops BE ex_alloc 4000 ex_sess (ax_ops 7 (cev_bytes cevs)) = Ok (rets, s, evs) /\ room_left s /\ evs <> [].
Proof. exact ex_c27. Qed.

(** C28: false.  The NULL session is used. *)
Theorem C28_invalid_level_refuted : exists level data, (9 < level)%Z /\ forall fuel,
  compress_file rle_zlib LE ax_hjunk ax_al fuel level 7 data false = UB.
Proof. exact ex_c28. Qed.
Print Assumptions C28_invalid_level_refuted.
(** What remains of C28: a call that returns has failed and delivered nothing. *)
Theorem C28_invalid_level_partial : forall z (C : zlib_contract z) e hjunk al fuel level clbk data rderr r cevs led,
  (level < -1 \/ 9 < level)%Z ->
  compress_file z e hjunk al fuel level clbk data rderr = Ok (r, cevs, led) -> r <> 0%Z /\ cevs = [].
Proof. exact compress_file_no_session. Qed.
Print Assumptions C28_invalid_level_partial.

(** C29 *)
Theorem C29_directory_round_trip : forall z (C : zlib_contract z) (F : Type) (filt : F -> list bytes -> bytes -> skind -> Z * F)
  es f0 r wx evs,
  run_of z filt (Some es) false [] f0 r wx evs -> accepts filt ->
  Forall (fun x => quiet (snd x)) es -> r = CRet 0 /\ presents (preorder es) evs.
Proof. exact @round_trip_all. Qed.
Print Assumptions C29_directory_round_trip.
(** Archiving returns, for every tree, filter and failure. *)
Theorem C29_archiving_returns : forall z (C : zlib_contract z) (F : Type) e (filt : F -> list bytes -> bytes -> skind -> Z * F)
  jk hj xjk hjunk al level clbk nested xs root f0,
  junk_ok jk hj xjk hjunk -> tree_fits root -> Forall xb_ok xs ->
  exists fuel r, compress_dir z e filt jk hj xjk hjunk al fuel level clbk nested xs root f0 = Ok r.
Proof. exact @compress_dir_total. Qed.
Print Assumptions C29_archiving_returns.
Example C29_case : exists wx evs, run_of rle_zlib ax_all (Some ax_tree) false [] tt (CRet 0) wx evs /\ accepts ax_all /\
  Forall (fun x => quiet (snd x)) ax_tree /\
  preorder ax_tree = [ADir [x64] 493; AFile [x61;x62;x63] 420 3 [x31;x32;x33]; AEnd; ALink [x6c] 511 [x78;x79;x7a]] /\
  length (flat evs) = 10%nat.
Proof. exact ex_c29. Qed.

(** C30 *)
Theorem C30_filter : forall z (C : zlib_contract z) (F : Type) (filt : F -> list bytes -> bytes -> skind -> Z * F)
  ans es f0 r wx evs,
  run_of z filt (Some es) false [] f0 r wx evs ->
  (forall f d n k, fst (filt f d n k) = ans d n k) -> (forall d n k, ans d n k <> 387%Z) ->
  Forall (fun x => quiet (snd x)) es ->
  r = CRet 0 /\ visits wx = asked ans [] es /\ presents (kept ans [] es) evs.
Proof. exact @filter_semantics. Qed.
Print Assumptions C30_filter.
(** Filters with memory, and filters that stop. *)
Theorem C30_any_filter : forall z (C : zlib_contract z) (F : Type) (filt : F -> list bytes -> bytes -> skind -> Z * F)
  root f0 r wx evs,
  run_of z filt root false [] f0 r wx evs -> tree_steady root ->
  exists recs f1 t, trav filt f0 (jobs [] (listing root)) f1 (visits wx) recs t /\
    (r = CRet 0 -> presents recs evs /\ archived recs = accepted (visits wx)).
Proof. exact @filter_general. Qed.
Print Assumptions C30_any_filter.
Example C30_case : exists wx evs, run_of rle_zlib (fun (_ : unit) d n k => (ax_nodir d n k, tt)) (Some ax_tree) false [] tt (CRet 0) wx evs /\
  (forall d n k, ax_nodir d n k <> 387%Z) /\ Forall (fun x => quiet (snd x)) ax_tree /\
  asked ax_nodir [] ax_tree = [Visit [] [x64] KDir 1; Visit [] [x6c] KLink 0; Visit [] [x70] KOther 0] /\
  kept ax_nodir [] ax_tree = [ALink [x6c] 511 [x78;x79;x7a]].
Proof. exact ex_c30. Qed.

(** C31 *)
Theorem C31_stop : forall z (C : zlib_contract z) (F : Type) (filt : F -> list bytes -> bytes -> skind -> Z * F)
  root f0 r wx evs,
  run_of z filt root false [] f0 r wx evs -> tree_steady root ->
  (exists v, In v (visits wx) /\ v_answer v = 387%Z) ->
  r = CRet 0 /\
  (exists vs' v, visits wx = vs' ++ [v] /\ v_answer v = 387%Z /\ Forall (fun v => v_answer v <> 387%Z) vs') /\
  exists recs, presents recs evs /\ balanced 0 recs /\ archived recs = accepted (visits wx).
Proof. exact @filter_stops. Qed.
Print Assumptions C31_stop.
Example C31_case : exists wx evs, run_of rle_zlib ax_stop (Some ax_tree) false [] 0 (CRet 0) wx evs /\ tree_steady (Some ax_tree) /\
  visits wx = [Visit [] [x64] KDir 0; Visit [[x64]] [x61;x62;x63] KFile 387] /\ In ODirEnd (flat evs).
Proof. exact ex_c31. Qed.

(** C32: [sound]: every file can be opened and read; [links_hold]: no link makes the process terminate. *)
Theorem C32_failures_reported : forall z (C : zlib_contract z) (F : Type) e (filt : F -> list bytes -> bytes -> skind -> Z * F)
  jk hj xjk hjunk al fuel level clbk nested xs root f0 r cevs ws wx led,
  junk_ok jk hj xjk hjunk -> tree_fits root -> Forall xb_ok xs -> created z al level ->
  compress_dir z e filt jk hj xjk hjunk al fuel level clbk nested xs root f0 = Ok (r, cevs, ws, wx, led) ->
  (Forall (fun x => sound (fst x) (snd x)) (listing root) -> r <> CRet 2) /\
  (r = CRet 2 -> exists vs' d n, visits wx = vs' ++ [Visit d n KFile 0] /\
     exists xr recs last k content, xrecs nested xs xr /\ encodes (xr ++ recs ++ last ++ repeat AEnd k) content /\
       archived recs = accepted vs' /\ (last = [] \/ exists mode size data, last = [ABroken n mode size data]) /\
       prefix (zc_dec C (cev_bytes cevs)) (header_image e ContentDirectory hjunk ++ content)) /\
  (accepts filt -> Forall (fun x => links_hold (snd x)) (listing root) ->
     (r = CRet 0 /\ Forall (fun x => sound (fst x) (snd x)) (listing root)) \/ r = CRet 2).
Proof. exact @failures_reported. Qed.
Print Assumptions C32_failures_reported.
Example C32_case : exists cevs ws wx led, junk_ok (ax_jk x11) ax_hj ax_xjk ax_hjunk /\ tree_fits (Some ax_bad) /\
  created rle_zlib ax_al 9 /\
  compress_dir rle_zlib LE ax_all (ax_jk x11) ax_hj ax_xjk ax_hjunk ax_al 3 9 7 false [] (Some ax_bad) tt = Ok (CRet 2, cevs, ws, wx, led) /\
  visits wx = [Visit [] [x61] KFile 0; Visit [] [x62] KFile 0].
Proof. exact ex_c32. Qed.

(** C33 *)
Theorem C33_balanced : forall z (C : zlib_contract z) (F : Type) e (filt : F -> list bytes -> bytes -> skind -> Z * F)
  jk hj xjk hjunk al fuel level clbk nested xs root f0 r cevs ws wx led,
  junk_ok jk hj xjk hjunk -> tree_fits root -> Forall xb_ok xs -> created z al level ->
  compress_dir z e filt jk hj xjk hjunk al fuel level clbk nested xs root f0 = Ok (r, cevs, ws, wx, led) -> r <> CExit ->
  exists recs content, encodes recs content /\ balanced 0 recs /\
    prefix (zc_dec C (cev_bytes cevs)) (header_image e ContentDirectory hjunk ++ content) /\
    (last_not_full cevs -> zc_dec C (cev_bytes cevs) = header_image e ContentDirectory hjunk ++ content).
Proof. exact @markers_balanced. Qed.
Print Assumptions C33_balanced.
Example C33_case : exists cevs ws wx led, junk_ok (ax_jk x11) ax_hj ax_xjk ax_hjunk /\ tree_fits (Some ax_tree) /\
  created rle_zlib ax_al 9 /\
  compress_dir rle_zlib LE ax_stop (ax_jk x11) ax_hj ax_xjk ax_hjunk ax_al 3 9 7 false [] (Some ax_tree) 0 = Ok (CRet 0, cevs, ws, wx, led) /\
  last_not_full cevs /\ visits wx = [Visit [] [x64] KDir 0; Visit [[x64]] [x61;x62;x63] KFile 387].
Proof. exact ex_c33. Qed.

(** C34: false.  The file a became 2 bytes shorter; b, which follows, is lost although the calls succeed. *)
Theorem C34_changed_file_refuted : exists wx evs, run_of rle_zlib ax_all (Some ax_changed) false [] tt (CRet 0) wx evs /\
  map v_name (visits wx) = [[x30]; [x61]; [x62]] /\
  (exists it, In (OEntry FtFile it (padded [x61])) (flat evs)) /\
  ~ exists ft it, In (OEntry ft it (padded [x62])) (flat evs).
Proof. exact ex_c34. Qed.
Print Assumptions C34_changed_file_refuted.
(** What remains of C34: the records before the first changed file ([rec_ok]: stored bytes = announced size) are decoded. *)
Theorem C34_changed_file_partial : forall z (C : zlib_contract z) (F : Type) (filt : F -> list bytes -> bytes -> skind -> Z * F)
  root nested xs f0 r wx evs,
  run_of z filt root nested xs f0 r wx evs ->
  exists xr f1 rs t, xrecs nested xs xr /\ trav filt f0 (jobs [] (listing root)) f1 (visits wx) rs t /\
    forall good more, xr ++ rs = good ++ more -> Forall rec_ok good -> good <> [] ->
    exists evs' o, evs = EvDirBegin :: evs' /\ shows good o /\ prefix o (flat evs').
Proof. exact @before_change. Qed.
Print Assumptions C34_changed_file_partial.

(** C35 *)
Theorem C35_extra_root : forall z (C : zlib_contract z) (F : Type) (filt : F -> list bytes -> bytes -> skind -> Z * F)
  es xs f0 r wx evs,
  run_of z filt (Some es) false xs f0 r wx evs -> tree_steady (Some es) ->
  r = CRet 0 -> exists recs, archived recs = accepted (visits wx) /\
    presents (map (fun x => AFile (xb_path x) (xb_mode x) (lenN (xb_data x)) (xb_data x)) xs ++ recs) evs.
Proof. exact @extra_root. Qed.
Print Assumptions C35_extra_root.
Example C35_case : exists wx evs, run_of rle_zlib ax_all (Some ax_tree) false ax_xs tt (CRet 0) wx evs /\ tree_steady (Some ax_tree) /\
  map v_name (visits wx) = [[x64]; [x61;x62;x63]; [x6c]; [x70]].
Proof. exact ex_c35. Qed.

(** C36 *)
Theorem C36_extra_nested : forall z (C : zlib_contract z) (F : Type) (filt : F -> list bytes -> bytes -> skind -> Z * F)
  es xs f0 r wx evs,
  run_of z filt (Some es) true xs f0 r wx evs -> tree_steady (Some es) ->
  r = CRet 0 -> exists rss recs, archived recs = accepted (visits wx) /\
    Forall2 (fun x rs => exists ds f, xb_path x = slashed ds f /\ Forall no_slash ds /\ no_slash f /\
      exists dm fm, rs = map (fun d => ADir d dm) ds ++ [AFile f fm (lenN (xb_data x)) (xb_data x)] ++ repeat AEnd (length ds)) xs rss /\
    presents (concat rss ++ recs) evs.
Proof. exact @extra_nested. Qed.
Print Assumptions C36_extra_nested.
Example C36_case : exists wx evs, run_of rle_zlib ax_all (Some ax_tree) true ax_xs tt (CRet 0) wx evs /\ tree_steady (Some ax_tree) /\
  slashed [[x62]] [x63] = [x62;x2f;x63].
Proof. exact ex_c36. Qed.

(** C37: false.  Mode 0755 was given; no entry of the archive has it. *)
Theorem C37_extra_mode_refuted : exists wx evs, run_of rle_zlib ax_all (Some []) true [XB [x61] [x31;x32] 493] tt (CRet 0) wx evs /\
  (exists it, In (OEntry FtFile it (padded [x61])) (flat evs)) /\
  ~ exists ft it n, In (OEntry ft it n) (flat evs) /\ it_mode it = 493.
Proof. exact ex_c37. Qed.
Print Assumptions C37_extra_mode_refuted.
(** What remains of C37: the file always has mode 0644 (420), its directories mode 0. *)
Theorem C37_extra_mode_partial : forall z (C : zlib_contract z) (F : Type) (filt : F -> list bytes -> bytes -> skind -> Z * F)
  es xs f0 r wx evs,
  run_of z filt (Some es) true xs f0 r wx evs -> tree_steady (Some es) ->
  r = CRet 0 -> exists rss recs, archived recs = accepted (visits wx) /\
    Forall2 (fun x rs => exists ds f, xb_path x = slashed ds f /\ Forall no_slash ds /\ no_slash f /\
      rs = map (fun d => ADir d 0) ds ++ [AFile f 420 (lenN (xb_data x)) (xb_data x)] ++ repeat AEnd (length ds)) xs rss /\
    presents (concat rss ++ recs) evs.
Proof. exact @nested_mode. Qed.
Print Assumptions C37_extra_mode_partial.

(** C38: false.  The session cannot be created (level 10); the two buffers are not freed. *)
Theorem C38_released_refuted : exists cevs ws wx led,
  compress_dir rle_zlib LE ax_all (ax_jk x11) ax_hj ax_xjk ax_hjunk ax_al 3 10 7 false [] (Some ax_tree) tt = Ok (CRet 1, cevs, ws, wx, led) /\
  ~ released led.
Proof. exact ex_c38. Qed.
Print Assumptions C38_released_refuted.
(** What remains of C38: all other return paths. *)
Theorem C38_released_partial : forall z (C : zlib_contract z) (F : Type) e (filt : F -> list bytes -> bytes -> skind -> Z * F)
  jk hj xjk hjunk al fuel level clbk nested xs root f0 r cevs ws wx led,
  compress_dir z e filt jk hj xjk hjunk al fuel level clbk nested xs root f0 = Ok (r, cevs, ws, wx, led) ->
  (al 1 = false \/ al 2 = false \/ created z al level) -> lenN hjunk = 128 -> r <> CExit -> released led.
Proof. exact @ledger. Qed.
Print Assumptions C38_released_partial.
Theorem C38_file_released : forall z e hjunk al fuel level clbk data rderr r cevs led,
  compress_file z e hjunk al fuel level clbk data rderr = Ok (r, cevs, led) -> released led.
Proof. exact file_ledger. Qed.
Print Assumptions C38_file_released.
Example C38_case : exists cevs ws wx led, created rle_zlib ax_al 9 /\ lenN ax_hjunk = 128 /\
  compress_dir rle_zlib LE ax_all (ax_jk x11) ax_hj ax_xjk ax_hjunk ax_al 3 9 7 false [] (Some ax_tree) tt = Ok (CRet 0, cevs, ws, wx, led) /\
  led = [LMalloc 1; LMalloc 2; LMalloc 3; LFree 3; LFree 2; LFree 1].
Proof. exact ex_c38_ok. Qed.
