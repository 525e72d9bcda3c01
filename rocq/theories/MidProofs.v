(** MidProofs.v: lemmas on sessions of ZlibWtDecompressBufferToCallback (header recognition, then
    content delivery). *)
From Verif Require Import Base Format Zlib Parser ParserProofs Decompress DecompressProofs.

(** The archive header: version and content type are little endian at bytes 0 and 4. *)
Definition version_of (h : bytes) : N := le_dec (slice 0 4 h).
Definition type_of (h : bytes) : N := le_dec (slice 4 4 h).

Lemma le_dec_zero l : le_dec l = 0 <-> Forall (fun b => byte_val b = 0) l.
Proof.
  induction l as [|b l IH]; cbn [le_dec]; [split; [constructor|reflexivity]|]. split.
  - intro H. constructor; [lia|]. apply IH. lia.
  - intro H. inversion H; subst. apply IH in H3. lia.
Qed.

Section Mid.
Context (z : zlib) (C : zlib_contract z) (e : endian) (alloc : N -> N -> bool).

Notation run := (@Decompress.run z e alloc).
Notation content_cb := (content_cb e alloc).
Notation content_run := (content_run e alloc).
Notation header_begin := (header_begin e).

Lemma hdr_convert_fields h : 8 <= lenN h ->
  hdr_version e (hdr_convert e h) = version_of h /\ hdr_type e (hdr_convert e h) = type_of h.
Proof.
  intro H. unfold hdr_version, hdr_type, hdr_convert, version_of, type_of.
  set (h1 := write_at 0 (store e 4 (get e 0 4 h)) h).
  assert (L1 : lenN h1 = lenN h) by (unfold h1; rewrite lenN_write_at; rewrite ?lenN_store; lia).
  assert (Ld : forall v, v < 256 ^ 4 -> load e (store e 4 v) = v).
  { intros v Hv. unfold load, store. destruct e; rewrite ?rev_involutive, le_dec_enc; apply N.mod_small; exact Hv. }
  assert (Sw : forall off k d m, lenN d = k -> off + k <= lenN m -> slice off k (write_at off d m) = d).
  { intros off k d m <- Hm. now apply slice_write_same. }
  split.
  - rewrite slice_write_before by lia. unfold h1.
    rewrite Sw by (rewrite ?lenN_store; lia).
    rewrite Ld by (apply (get_lt e 0 4); lia). now rewrite get_le by lia.
  - rewrite Sw by (rewrite ?lenN_store; lia).
    rewrite Ld by (apply (get_lt e 4 4); lia). now rewrite get_le by lia.
Qed.

(** [pd]: the decoder's fields when the session was created. *)
Context (pd : pst).

(** Waiting for the header, of which [P] has arrived. *)
Definition hphase (s : dsess z) (P : bytes) : Prop :=
  d_cb s = CbHeader /\ d_inited s = false /\ d_bsel s = BHdr /\ z_sel (d_zs s) = BHdr /\
  z_pos (d_zs s) = lenN P /\ z_tot (d_zs s) = lenN P /\ z_aout (d_zs s) = 128 - lenN P /\
  lenN P <= 128 /\ lenN (d_hdr s) = 128 /\ takeN (lenN P) (d_hdr s) = P /\
  usable (d_tmp s) (d_tmpsz s) /\ d_p s = pd /\ lenN (p_img pd) = ITEM_SIZE.

Lemma do_inflate_hdr s P fl c p : hphase s P -> zc_iinv C (z_st (d_zs s)) c p ->
  let r := inflate z (z_st (d_zs s)) fl (z_inp (d_zs s)) (128 - lenN P) in
  exists s1, do_inflate fl s = Ok (zr_ret r, s1) /\ hphase s1 (P ++ zr_out r) /\
    z_st (d_zs s1) = zr_st r /\ z_inp (d_zs s1) = dropN (zr_used r) (z_inp (d_zs s)) /\
    d_p s1 = d_p s /\ d_tmp s1 = d_tmp s /\ d_tmpsz s1 = d_tmpsz s.
Proof.
  intros (H1 & H2 & H3 & H4 & H5 & H6 & H7 & H8 & H9 & H10 & H11 & H12) I r.
  destruct (zc_istep _ C _ _ _ _ _ _ r I eq_refl) as (B1 & B2 & B3).
  unfold do_inflate. rewrite H4. cbn [mem]. rewrite H7, H5. fold r.
  destruct (checked_write_ok alloc (lenN P) (zr_out r) (d_hdr s)) as [E L]; [lia|]. rewrite E. cbn [obind].
  eexists. split; [reflexivity|]. cbn [d_zs with_zs z_st z_inp set_mem d_p d_tmp d_tmpsz].
  split; [|auto].
  unfold hphase. cbn [d_cb d_inited d_bsel d_zs with_zs z_sel z_pos z_tot z_aout d_hdr set_mem d_tmp d_tmpsz d_p].
  rewrite lenN_app, H6.
  repeat split; auto; try lia; try apply H12.
  unfold write_at. rewrite app_assoc, H10. apply takeN_app_exact. now rewrite lenN_app.
Qed.

Lemma run_hdr_step s P fl c p : hphase s P -> zc_iinv C (z_st (d_zs s)) c p ->
  z_inp (d_zs s) <> [] -> lenN P < 128 ->
  let r := inflate z (z_st (d_zs s)) fl (z_inp (d_zs s)) (128 - lenN P) in
  exists s1, hphase s1 (P ++ zr_out r) /\
    z_st (d_zs s1) = zr_st r /\ z_inp (d_zs s1) = dropN (zr_used r) (z_inp (d_zs s)) /\
    d_p s1 = d_p s /\ d_tmp s1 = d_tmp s /\ d_tmpsz s1 = d_tmpsz s /\
    forall f, run (S f) NoTouch fl s =
      if negb (zr_ret r =? Z_OK)%Z then Ok (zr_ret r, s1, [])
      else
        do (again, s2) <- header_begin s1;
        do (s3, evs) <- (if again then do (ret2, s3, evs) <- run f Reset Z_NO_FLUSH s2; Ok (s3, evs) else Ok (s2, []));
        do (ret3, s4, evs2) <- run f NoTouch Z_NO_FLUSH s3;
        Ok (ret3, s4, evs ++ evs2).
Proof.
  intros Hp I Hi HP r.
  destruct (do_inflate_hdr s P fl c p Hp I) as (s1 & E & Hp1 & A1 & A2 & A3 & A4 & A5). fold r in E, Hp1, A1, A2.
  exists s1. repeat (split; [assumption|]). intro f.
  cbn [Decompress.run].
  assert (Hn : (lenN (z_inp (d_zs s)) =? 0) || (z_aout (d_zs s) =? 0) = false).
  { destruct Hp as (_ & _ & _ & _ & _ & _ & -> & _). destruct (z_inp (d_zs s)); [congruence|]. rewrite lenN_cons. lia. }
  rewrite Hn, E. cbn [obind]. destruct (negb _); [reflexivity|].
  destruct Hp1 as (-> & _). destruct (header_begin s1) as [[again s2]| |]; reflexivity.
Qed.

(** The header is complete. *)
Lemma header_begin_full s P : hphase s P -> lenN P = 128 ->
  header_begin s =
  Ok (if version_of P =? 0 then
        (true, DS (d_zs s) CbV0 BUser (d_tmpsz s) (hdr_convert e P) (d_tmp s) (d_tmp s) (d_tmpsz s) true (set_err false (d_p s)))
      else
        (false, DS (d_zs s) CbHeader BHdr (d_bsz s) (hdr_convert e P) (d_ubuf s) (d_tmp s) (d_tmpsz s) true (set_err false (d_p s)))).
Proof.
  intros (H1 & H2 & H3 & H4 & H5 & H6 & H7 & H8 & H9 & H10 & H11 & H12) HP.
  assert (Eh : d_hdr s = P) by (rewrite <- H10, HP; symmetry; apply takeN_all; lia).
  unfold Decompress.header_begin. rewrite H6, HP, Eh. unfold MAIN_HEADER_SIZE. rewrite N.ltb_irrefl.
  destruct (hdr_convert_fields P) as [-> _]; [lia|].
  rewrite H1, H3. destruct (version_of P =? 0); reflexivity.
Qed.

Lemma header_begin_short s P : hphase s P -> lenN P < 128 -> header_begin s = Ok (false, s).
Proof.
  intros (H1 & H2 & H3 & H4 & H5 & H6 & H7 & H8 & H9 & H10 & H11 & H12) HP.
  unfold Decompress.header_begin. rewrite H6. unfold MAIN_HEADER_SIZE.
  destruct (N.ltb_spec (lenN P) 128); [reflexivity|lia].
Qed.

(** ** What a session has done after the bytes [F] were passed in *)

(** Delivering content: [chunks] are the inflate outputs after the header [H]; [p0]: the decoder's
    fields at that moment. *)
Definition phaseB (s : dsess z) (F : bytes) (evs : list event) (w : bool) (H : bytes) (p0 : pst) (chunks : list (bytes * bytes)) : Prop :=
  content z s /\ d_inited s = true /\ lenN H = 128 /\ version_of H = 0 /\ hdr_type e (d_hdr s) = type_of H /\
  (p0 = set_err false pd /\ lenN (p_img p0) = ITEM_SIZE) /\ p_err p0 = false /\
  content_run (type_of H) CbV0 p0 chunks = Ok (d_cb s, d_p s, evs) /\
  prefix (H ++ cat chunks) (zc_dec C F) /\
  (exists c p, zc_iinv C (z_st (d_zs s)) c p) /\
  (if w then zc_iinv C (z_st (d_zs s)) F (H ++ cat chunks) /\
             (0 < z_aout (d_zs s) -> H ++ cat chunks = zc_dec C F)
   else zc_stuck C (z_st (d_zs s))).

Definition phaseA (s : dsess z) (F : bytes) (evs : list event) (w : bool) (P : bytes) : Prop :=
  hphase s P /\ evs = [] /\ (exists c p, zc_iinv C (z_st (d_zs s)) c p) /\
  (if w then zc_iinv C (z_st (d_zs s)) F P /\ lenN P < 128 /\ P = zc_dec C F
   else zc_stuck C (z_st (d_zs s))).

(** No user callback can be reached: the header callback stays installed. *)
Definition dead (s : dsess z) : Prop :=
  d_cb s = CbHeader /\ d_inited s = true /\ 128 <= z_tot (d_zs s) /\ 
  (z_tot (d_zs s) = 128 -> lenN (d_hdr s) = 128 /\ hdr_version e (d_hdr s) <> 0).

Lemma load_zero l : load e l = 0 <-> le_dec l = 0.
Proof.
  unfold load. destruct e; [reflexivity|]. rewrite !le_dec_zero. split; intro H; [rewrite <- (rev_involutive l)|]; now apply Forall_rev.
Qed.

Lemma dead_header s b s' : dead s -> header_begin s = Ok (b, s') -> b = false /\ dead s'.
Proof.
  intros (D1 & D2 & D3 & D4) H. unfold Decompress.header_begin, MAIN_HEADER_SIZE in H.
  destruct (N.ltb_spec (z_tot (d_zs s)) 128); [lia|].
  destruct (N.eqb_spec (hdr_version e (hdr_convert e (d_hdr s))) 0) as [Ev|Ev].
  - destruct (N.ltb_spec 128 (z_tot (d_zs s))) as [|Hl]; [discriminate|].
    exfalso. destruct D4 as [L V]; [lia|]. apply V. unfold hdr_version. apply load_zero.
    destruct (hdr_convert_fields (d_hdr s)) as [E _]; [lia|]. rewrite E in Ev. exact Ev.
  - injection H as <- <-. split; [reflexivity|]. split; [exact D1|]. split; [reflexivity|]. split; [exact D3|].
    cbn. intro T. destruct (D4 T) as [L _]. split; [|exact Ev].
    unfold hdr_convert. rewrite !lenN_write_at; rewrite ?lenN_store, ?lenN_write_at; rewrite ?lenN_store; lia.
Qed.

Lemma dead_inflate fl s r s' : dead s -> do_inflate fl s = Ok (r, s') -> dead s'.
Proof.
  intros (D1 & D2 & D3 & D4) H. unfold do_inflate in H.
  destruct (mem (z_sel (d_zs s)) s) as [m|] eqn:Em. 2:{ injection H as <- <-. repeat split; auto. all: now apply D4. }
  set (q := inflate z _ fl _ _) in *. unfold checked_write in H.
  destruct (_ <=? _); [|discriminate]. cbn [obind] in H. injection H as <- <-.
  split; [destruct (z_sel (d_zs s)); exact D1|]. split; [destruct (z_sel (d_zs s)); exact D2|].
  cbn [d_zs with_zs z_tot]. split; [lia|]. intro T.
  assert (Hn : lenN (zr_out q) = 0) by lia. assert (Ht : z_tot (d_zs s) = 128) by lia. specialize (D4 Ht).
  destruct (z_sel (d_zs s)); cbn [mem] in Em; [|exact D4]. injection Em as <-. cbn [d_hdr with_zs set_mem].
  destruct (zr_out q) as [|b l]; [|rewrite lenN_cons in Hn; lia]. now rewrite write_at_nil.
Qed.

Lemma dead_run fuel : forall m fl s r s' evs, dead s -> run fuel m fl s = Ok (r, s', evs) -> evs = [] /\ dead s'.
Proof.
  induction fuel as [|fuel IH]; intros m fl s r s' evs D H; [discriminate|]. cbn [Decompress.run] in H.
  destruct (_ || _). { injection H as <- <- <-. auto. }
  set (s0 := match m with Reset => setup s | NoTouch => s end) in *.
  assert (D0 : dead s0) by (subst s0; destruct m; exact D).
  destruct (do_inflate fl s0) as [[r1 s1]| |] eqn:E; try discriminate H. cbn [obind] in H.
  pose proof (dead_inflate _ _ _ _ D0 E) as D1.
  destruct (negb _). { injection H as <- <- <-. auto. }
  pose proof D1 as (Ecb & _). rewrite Ecb in H.
  destruct (header_begin s1) as [[again s2]| |] eqn:Eh; try discriminate H. cbn [obind] in H.
  destruct (dead_header _ _ _ D1 Eh) as [-> D2]. cbn [obind] in H.
  destruct (run fuel m Z_NO_FLUSH s2) as [[[r3 s4] ev2]| |] eqn:E2; try discriminate H. cbn [obind app] in H.
  injection H as <- <- <-. exact (IH _ _ _ _ _ _ D2 E2).
Qed.

Lemma dead_dops fuel : forall ops s rets s' evs, dead s -> run_dops e alloc fuel s ops = Ok (rets, s', evs) -> evs = [].
Proof.
  induction ops as [|op ops IH]; intros s rets s' evs D H.
  - injection H as <- <- <-. reflexivity.
  - destruct op as [f d|b n]; cbn [run_dops] in H.
    + destruct (decompress e alloc fuel f d s) as [[[r1 s1] ev1]| |] eqn:E; try discriminate H. cbn [obind] in H.
      destruct (run_dops e alloc fuel s1 ops) as [[[rs s2] ev2]| |] eqn:E2; try discriminate H. cbn [obind] in H.
      injection H as <- <- <-. unfold decompress in E. pose proof D as (_ & Di & _). rewrite Di in E.
      assert (D0 : dead (feed d s)) by exact D. destruct (dead_run _ _ _ _ _ _ _ D0 E) as [-> D1].
      exact (IH _ _ _ _ D1 E2).
    + refine (IH _ _ _ _ _ H). unfold set_buffer. pose proof D as (_ & Di & _). rewrite Di. exact D.
Qed.

(** The version is not supported. *)
Definition phaseX (s : dsess z) (F : bytes) (evs : list event) (H : bytes) : Prop :=
  d_inited s = true /\ lenN H = 128 /\ version_of H <> 0 /\ prefix H (zc_dec C F) /\ evs = [] /\ dead s.

Definition mid_inv (s : dsess z) (F : bytes) (evs : list event) (w : bool) : Prop :=
  (exists P, phaseA s F evs w P) \/ (exists H p0 chunks, phaseB s F evs w H p0 chunks).

Lemma usable_u32 b n : usable b n -> usable b (u32 n).
Proof. intros (m & A & B & D). exists m. split; [exact A|]. unfold u32, two32 in *. lia. Qed.

(** Content delivery, from a state of phase B with input pending. *)
Lemma content_call fuel fl s F evs H p0 chunks d ret s' ev :
  phaseB s F evs true H p0 chunks -> normal_flush fl ->
  z_inp (d_zs s) = d -> run fuel Reset fl s = Ok (ret, s', ev) ->
  exists ch2,
    phaseB s' (F ++ d) (evs ++ ev) (ret =? 0)%Z H p0 (chunks ++ ch2) /\
    (ret = 0%Z -> z_inp (d_zs s') = []) /\
    (d <> [] -> z_sel (d_zs s') = BUser /\ z_pos (d_zs s') + z_aout (d_zs s') = d_bsz s') /\
    (zc_bad C (F ++ d) = false -> zc_fin C (F ++ d) = false -> ret = 0%Z).
Proof.
  intros (B1 & B2 & B3 & B4 & B5 & B6 & B7 & B8 & B9 & B10 & B11 & B12) Hf Hd H0.
  destruct (run_content_spec _ C _ _ _ _ _ _ _ _ _ _ H0 B1 Hf B11) as (ch2 & R & C' & Fr & Dk & Nil & Zs & Cases).
  rewrite Hd in *. rewrite B5 in R.
  destruct Fr as (F1 & F2 & F3 & F4 & F5 & F6).
  exists ch2. split.
  - unfold phaseB. rewrite F6, F3.
    split; [exact C'|]. split; [exact B2|]. split; [exact B3|]. split; [exact B4|]. split; [exact B5|].
    split; [exact B6|]. split; [exact B7|].
    split. { rewrite content_run_app, B8. cbn [obind]. rewrite R. reflexivity. }
    rewrite cat_app, app_assoc.
    destruct Cases as [(Q1 & Q2 & Q3 & Q4 & Q5)|(Q1 & Q2 & Q3 & Q4 & Q5)].
    + rewrite Q1. cbn. split; [exact (zc_iprefix _ C _ _ _ Q3)|]. split; [eauto|]. split; [exact Q3|].
      intro Ha. destruct d as [|b t]; [|apply Q5; [discriminate|exact Ha]].
      destruct (Nil eq_refl) as (-> & -> & _). change (cat []) with (@nil Byte.byte). rewrite !app_nil_r. now apply B12.
    + destruct (Z.eqb_spec ret 0); [congruence|]. split; [exact Q3|]. split; [|exact Q2].
      destruct Q4 as (u & lost & _ & _ & I4 & _). eauto.
  - split.
    { intro E. destruct Cases as [(_ & Q2 & _)|(Q1 & _)]; [exact Q2|congruence]. }
    split. { intro Hne. rewrite F2. exact (Zs Hne). }
    intros V1 V2. destruct Cases as [(Q1 & _)|(_ & _ & _ & _ & Q5)]; [exact Q1|tauto].
Qed.

(** Phase B is kept by whatever happens after the stream has ended or failed. *)
Lemma stuck_call fuel m fl s F evs H p0 chunks d ret s' ev :
  phaseB s F evs false H p0 chunks -> m = Reset \/ z_sel (d_zs s) = BUser ->
  run fuel m fl s = Ok (ret, s', ev) ->
  phaseB s' (F ++ d) (evs ++ ev) false H p0 chunks.
Proof.
  intros (B1 & B2 & B3 & B4 & B5 & B6 & B7 & B8 & B9 & B10 & B11) Hs H0.
  destruct (run_stuck_spec _ C _ _ _ _ _ _ _ _ _ H0 B11) as
      (-> & S1 & S2 & S3 & S4 & S5 & S6 & S7 & S8 & S9 & S10 & S11 & S12 & S13 & S14).
  destruct B1 as (Bc & Bb & Bu).
  assert (Eh : d_hdr s' = d_hdr s).
  { destruct Hs as [Hs|Hs]; [now apply S12|]. now destruct (S11 Hs Bb). }
  unfold phaseB. rewrite Eh, S2, S3, S8, app_nil_r.
  split. { split; [congruence|]. split; [congruence|]. rewrite S5. now apply S9. }
  do 6 (split; [assumption|]). split; [exact B8|].
  split; [eapply prefix_trans; [exact B9|apply (zc_dec_mono _ C)]|].
  split; [|exact S1]. destruct B10 as (c & p & I). exact (S13 _ _ I).
Qed.

Lemma phaseB_weak s F evs H p0 chunks d w : phaseB s F evs w H p0 chunks -> w = false ->
  phaseB s (F ++ d) evs false H p0 chunks.
Proof.
  intros (B1 & B2 & B3 & B4 & B5 & B6 & B7 & B8 & B9 & B10 & B11) ->.
  repeat (split; [assumption|]). split; [|auto].
  eapply prefix_trans; [exact B9|apply (zc_dec_mono _ C)].
Qed.

Lemma hdr_call fuel : forall fl s F P d ret s' ev,
  hphase s P -> normal_flush fl -> zc_iinv C (z_st (d_zs s)) F P -> lenN P < 128 ->
  (z_inp (d_zs s) = [] -> P = zc_dec C F) ->
  z_inp (d_zs s) = d -> run fuel NoTouch fl s = Ok (ret, s', ev) ->
  exists w, (mid_inv s' (F ++ d) ev w \/ exists H, phaseX s' (F ++ d) ev H) /\
    (zc_bad C (F ++ d) = false -> zc_fin C (F ++ d) = false -> ret = 0%Z /\ w = true).
Proof.
  induction fuel as [|fuel IH]; intros fl s F P d ret s' ev Hp Hf I HP Hn Hd H0; [discriminate|].
  destruct d as [|b0 t0] eqn:Ed.
  - rewrite run_inp_nil in H0 by assumption. injection H0 as <- <- <-. rewrite app_nil_r.
    exists true. split; [|auto]. left. left. exists P. split; [exact Hp|]. split; [reflexivity|]. split; [eauto|].
    cbn. auto.
  - assert (Hi : z_inp (d_zs s) <> []) by congruence. rewrite <- Ed in Hd |- *. clear b0 t0 Ed.
    destruct (run_hdr_step s P fl F P Hp I Hi HP) as (s1 & Hp1 & A1 & A2 & A3 & A4 & A5 & E).
    rewrite E in H0; clear E. rewrite Hd in *.
    set (r := inflate z (z_st (d_zs s)) fl d (128 - lenN P)) in *.
    destruct (zc_istep _ C _ _ _ _ _ _ r I eq_refl) as (S1 & S2 & S3).
    assert (Hroom : 0 < 128 - lenN P) by lia.
    destruct (negb (zr_ret r =? Z_OK)%Z) eqn:En.
    + injection H0 as <- <- <-.
      assert (Hne : zr_ret r <> Z_OK) by (destruct (Z.eqb_spec (zr_ret r) Z_OK); [discriminate|assumption]).
      exists false. split.
      * left. left. exists (P ++ zr_out r). split; [exact Hp1|]. split; [reflexivity|].
        rewrite A1. split; [eauto|]. exact (zc_istop _ C _ _ _ _ _ _ r I Hf Hi Hroom eq_refl Hne).
      * intros V1 V2. exfalso. exact (Hne (zc_ivalid _ C _ _ _ _ _ _ r I Hf Hi Hroom V1 V2 eq_refl)).
    + assert (Hok : zr_ret r = Z_OK) by (destruct (Z.eqb_spec (zr_ret r) Z_OK); [assumption|discriminate]).
      assert (Hf0 : normal_flush Z_NO_FLUSH) by (unfold normal_flush, Z_NO_FLUSH; lia).
      assert (HP1 : lenN (P ++ zr_out r) <= 128) by (rewrite lenN_app; lia).
      destruct (N.ltb_spec (lenN (P ++ zr_out r)) 128) as [Hlt|Hge].
      * rewrite (header_begin_short _ _ Hp1 Hlt) in H0. cbn [obind] in H0.
        destruct (run fuel NoTouch Z_NO_FLUSH s1) as [[[r3 s4] ev2]| |] eqn:E2; try discriminate H0.
        cbn [obind app] in H0. injection H0 as <- <- <-.
        rewrite lenN_app in Hlt.
        destruct (zc_icomplete _ C _ _ _ _ _ _ r I Hf eq_refl Hok ltac:(lia)) as (K0 & K1 & K2).
        rewrite K0 in *. rewrite dropN_all in A2 by lia. rewrite takeN_all in S3 by lia.
        rewrite <- A1 in S3.
        destruct (IH _ _ _ _ [] _ _ _ Hp1 Hf0 S3 ltac:(rewrite lenN_app; lia) (fun _ => K1) A2 E2) as (w & M & V).
        rewrite app_nil_r in *. eauto.
      * assert (H128 : lenN (P ++ zr_out r) = 128) by lia.
        set (H := P ++ zr_out r) in *.
        rewrite (header_begin_full _ _ Hp1 H128) in H0.
        destruct (version_of H =? 0) eqn:Ev; cbn [obind] in H0.
        -- set (s2 := DS (d_zs s1) CbV0 BUser (d_tmpsz s1) (hdr_convert e H) (d_tmp s1) (d_tmp s1) (d_tmpsz s1) true
                       (set_err false (d_p s1))) in *.
           destruct (run fuel Reset Z_NO_FLUSH s2) as [[[r2 s3] ev1]| |] eqn:E2; try discriminate H0. cbn [obind] in H0.
           destruct (run fuel NoTouch Z_NO_FLUSH s3) as [[[r3 s4] ev2]| |] eqn:E3; try discriminate H0.
           cbn [obind] in H0. injection H0 as <- <- <-.
           set (u := takeN (zr_used r) d) in *. set (rest := dropN (zr_used r) d) in *.
           assert (Ed : d = u ++ rest) by (symmetry; apply takeN_dropN).
           assert (Hao : z_aout (d_zs s1) = 0) by (destruct Hp1 as (_ & _ & _ & _ & _ & _ & -> & _); lia).
           assert (B0 : phaseB s2 (F ++ u) [] true H (set_err false (d_p s1)) []).
           { unfold phaseB. change (d_zs s2) with (d_zs s1). rewrite A1.
             split. { split; [discriminate|]. split; [reflexivity|]. cbn. apply Hp1. }
             split; [reflexivity|]. split; [exact H128|]. split; [lia|].
             split. { cbn [d_hdr s2]. apply hdr_convert_fields. lia. }
             split. { destruct Hp1 as (_ & _ & _ & _ & _ & _ & _ & _ & _ & _ & _ & Ep & Li). rewrite Ep. auto. }
             split; [reflexivity|]. split; [reflexivity|]. change (cat []) with (@nil Byte.byte). rewrite app_nil_r.
             split; [exact (zc_iprefix _ C _ _ _ S3)|]. split; [eauto|]. split; [exact S3|].
             change (z_aout (d_zs s2)) with (z_aout (d_zs s1)). lia. }
           assert (I2 : z_inp (d_zs s2) = rest) by exact A2.
           destruct (content_call _ _ _ _ _ _ _ _ _ _ _ _ B0 Hf0 I2 E2) as (ch2 & Q1 & Q2 & Q3 & Q4).
           rewrite <- app_assoc, <- Ed in *. cbn [app] in Q1.
           destruct (Z.eqb_spec r2 0) as [->|Hr2].
           ++ destruct fuel as [|fuel]; [discriminate|].
              rewrite run_inp_nil in E3 by (apply Q2; reflexivity). injection E3 as <- <- <-.
              rewrite app_nil_r. exists true. split; [|auto]. left. right. eauto.
           ++ exists false. split; [|intros V1 V2; exfalso; auto].
              left. right. exists H, (set_err false (d_p s1)), ch2.
              assert (Hne : rest <> []).
              { intro Er. destruct fuel as [|fuel']; [discriminate|].
                rewrite run_inp_nil in E2 by (rewrite I2; exact Er). congruence. }
              destruct (Q3 Hne) as [Hs _].
              pose proof (stuck_call _ _ _ _ _ _ _ _ _ [] _ _ _ Q1 (or_intror Hs) E3) as K.
              rewrite app_nil_r in K. exact K.
        -- destruct (run fuel NoTouch Z_NO_FLUSH _) as [[[r3 s4] ev2]| |] eqn:E3; try discriminate H0.
           cbn [obind app] in H0. injection H0 as <- <- <-.
           destruct fuel as [|fuel]; [discriminate|]. cbn [Decompress.run] in E3.
           assert (Hao : z_aout (d_zs s1) = 0) by (destruct Hp1 as (_ & _ & _ & _ & _ & _ & -> & _); lia).
           cbn [d_zs] in E3. rewrite Hao in E3. rewrite N.eqb_refl, orb_true_r in E3. injection E3 as <- <- <-.
           exists true. split; [|auto]. right. exists H. split; [reflexivity|]. split; [exact H128|]. split; [lia|].
           split.
           { eapply prefix_trans; [exact (zc_iprefix _ C _ _ _ S3)|].
             rewrite <- (takeN_dropN _ (zr_used r) d) at 2. rewrite app_assoc. apply (zc_dec_mono _ C). }
           split; [reflexivity|].
           assert (Ht : z_tot (d_zs s1) = 128) by (destruct Hp1 as (_ & _ & _ & _ & _ & -> & _); exact H128).
           split; [reflexivity|]. split; [reflexivity|]. cbn [d_zs d_hdr]. rewrite Ht. split; [lia|]. intros _.
           destruct (hdr_convert_fields H) as [E _]; [lia|]. rewrite E. split; [|lia].
           unfold hdr_convert. rewrite !lenN_write_at; rewrite ?lenN_store, ?lenN_write_at; rewrite ?lenN_store; lia.
Qed.

(** One decompress call. *)
Lemma decompress_spec fuel fl d s F evs w ret s' ev :
  mid_inv s F evs w -> normal_flush fl -> lenN d < two32 ->
  decompress e alloc fuel fl d s = Ok (ret, s', ev) ->
  exists w', (mid_inv s' (F ++ d) (evs ++ ev) w' \/ exists H, phaseX s' (F ++ d) (evs ++ ev) H) /\
    (w = true -> zc_bad C (F ++ d) = false -> zc_fin C (F ++ d) = false -> ret = 0%Z /\ w' = true).
Proof.
  intros [(P & Hp & -> & Iv & W)|(H & p0 & chunks & B)] Hf Hd H0; unfold decompress in H0.
  - assert (Hin : d_inited s = false) by apply Hp. rewrite Hin in H0.
    assert (Hp' : hphase (feed d s) P) by exact Hp.
    destruct (feed_frame z d s) as (_ & _ & _ & _ & A5 & A6). specialize (A6 Hd). cbn [app].
    destruct w.
    + destruct W as (W1 & W2 & W3). rewrite <- A5 in W1.
      destruct (hdr_call _ _ _ _ _ _ _ _ _ Hp' Hf W1 W2 (fun _ => W3) A6 H0) as (w' & M & V). eauto.
    + rewrite <- A5 in W.
      destruct (run_stuck_spec _ C _ _ _ _ _ _ _ _ _ H0 W) as
        (-> & S1 & S2 & S3 & S4 & S5 & S6 & S7 & S8 & S9 & S10 & S11 & S12 & S13 & S14).
      exists false. split; [|discriminate].
      destruct Iv as (c & p & I). rewrite <- A5 in I.
      (* the header phase is kept: at most one inflate call *)
      destruct fuel as [|fuel]; [discriminate|].
      left. left.
      destruct (lenN P <? 128) eqn:EP; destruct d as [|b t] eqn:Ed.
      * rewrite run_inp_nil in H0 by exact A6. injection H0 as <- <-.
        exists P. split; [exact Hp'|]. split; [reflexivity|]. split; [eauto|exact W].
      * assert (Hi : z_inp (d_zs (feed (b :: t) s)) <> []) by (rewrite A6; discriminate).
        destruct (run_hdr_step _ P fl c p Hp' I Hi ltac:(lia)) as (s1 & Hp1 & A1 & A2 & A3 & A4 & A5' & E).
        rewrite E in H0.
        set (r := inflate z _ fl _ (128 - lenN P)) in *.
        destruct (zc_istuck _ C _ _ _ _ r W eq_refl) as [Hr St].
        destruct (Z.eqb_spec (zr_ret r) Z_OK) as [|_]; [contradiction|]. cbn [negb] in H0. injection H0 as <- <-.
        exists (P ++ zr_out r). split; [exact Hp1|]. split; [reflexivity|]. rewrite A1.
        destruct (zc_istep _ C _ _ _ _ _ _ r I eq_refl) as (_ & _ & I3). split; [eauto|exact St].
      * rewrite run_inp_nil in H0 by exact A6. injection H0 as <- <-.
        exists P. split; [exact Hp'|]. split; [reflexivity|]. split; [eauto|exact W].
      * cbn [Decompress.run] in H0.
        assert (Hao : z_aout (d_zs (feed (b :: t) s)) =? 0 = true).
        { destruct Hp' as (_ & _ & _ & _ & _ & _ & -> & _). lia. }
        rewrite Hao, orb_true_r in H0. injection H0 as <- <-.
        exists P. split; [exact Hp'|]. split; [reflexivity|]. split; [eauto|exact W].
  - assert (Hin : d_inited s = true) by apply B. rewrite Hin in H0.
    assert (B' : phaseB (feed d s) F evs w H p0 chunks) by exact B.
    destruct (feed_frame z d s) as (_ & _ & _ & _ & A5 & A6). specialize (A6 Hd).
    destruct w.
    + assert (Hf0 : normal_flush Z_NO_FLUSH) by (unfold normal_flush, Z_NO_FLUSH; lia).
      destruct (content_call _ _ _ _ _ _ _ _ _ _ _ _ B' Hf0 A6 H0) as (ch2 & Q1 & _ & _ & Q4).
      exists (ret =? 0)%Z. split; [left; right; eauto|]. intros _ V1 V2. split; [auto|]. rewrite (Q4 V1 V2). reflexivity.
    + exists false. split; [|discriminate]. left. right.
      exists H, p0, chunks. exact (stuck_call _ _ _ _ _ _ _ _ _ d _ _ _ B' (or_introl eq_refl) H0).
Qed.

Lemma set_buffer_inv s F evs w b n : mid_inv s F evs w -> usable b n -> mid_inv (set_buffer b n s) F evs w.
Proof.
  intros [(P & Hp & E & Iv & W)|(H & p0 & chunks & B)] Hu; unfold set_buffer.
  - assert (Hin : d_inited s = false) by apply Hp. rewrite Hin. left. exists P.
    split; [|split; [exact E|split; [exact Iv|exact W]]].
    destruct Hp as (H1 & H2 & H3 & H4 & H5 & H6 & H7 & H8 & H9 & H10 & H11 & H12).
    unfold hphase. cbn. repeat (split; [first [assumption|reflexivity]|]). split; [now apply usable_u32|exact H12].
  - assert (Hin : d_inited s = true) by apply B. rewrite Hin. right. exists H, p0, chunks.
    destruct B as ((Bc & Bb & Bu) & B2 & B3 & B4 & B5 & B6 & B7 & B8 & B9 & B10 & B11).
    split. { split; [exact Bc|]. split; [reflexivity|]. cbn. now apply usable_u32. }
    repeat (split; [assumption|]). exact B11.
Qed.

(** ** Histories *)

Definition dfed (ops : list dop) : bytes :=
  concat (map (fun op => match op with DFeed _ d => d | _ => [] end) ops).
Definition dop_ok (op : dop) : Prop :=
  match op with
  | DFeed f d => normal_flush f /\ lenN d < two32
  | DSetBuffer b n => usable b n
  end.
(** A supported archive: not enough plaintext yet, or version 0. *)
Definition supported (c : bytes) : Prop :=
  lenN (zc_dec C c) < 128 \/ version_of (takeN 128 (zc_dec C c)) = 0.

Lemma version_prefix H c d : prefix H (zc_dec C c) -> lenN H = 128 -> supported (c ++ d) -> version_of H = 0.
Proof.
  intros [x E] L [S|S].
  - destruct (zc_dec_mono _ C c d) as [y Ey]. rewrite Ey, E, !lenN_app in S. lia.
  - destruct (zc_dec_mono _ C c d) as [y Ey]. rewrite Ey, E in S. rewrite <- app_assoc in S.
    rewrite (takeN_app_exact _ 128 H (x ++ y) (eq_sym L)) in S. exact S.
Qed.

Lemma run_dops_spec fuel : forall ops s F evs0 w rets s' evs,
  mid_inv s F evs0 w -> Forall dop_ok ops -> supported (F ++ dfed ops) ->
  run_dops e alloc fuel s ops = Ok (rets, s', evs) ->
  exists w', mid_inv s' (F ++ dfed ops) (evs0 ++ evs) w' /\
    (w = true -> zc_bad C (F ++ dfed ops) = false -> zc_fin C (F ++ dfed ops) = false ->
     Forall (fun r => r = 0%Z) rets /\ w' = true).
Proof.
  induction ops as [|op ops IH]; intros s F evs0 w rets s' evs I Ho Sup H.
  - cbn in H. injection H as <- <- <-. cbn. rewrite !app_nil_r. exists w. split; [exact I|]. intros; split; [constructor|assumption].
  - inversion Ho as [|? ? O1 O2]; subst. destruct op as [f d|b n]; cbn [run_dops] in H.
    + destruct (decompress e alloc fuel f d s) as [[[r1 s1] ev1]| |] eqn:E; try discriminate H. cbn [obind] in H.
      destruct (run_dops e alloc fuel s1 ops) as [[[rs s2] ev2]| |] eqn:E2; try discriminate H. cbn [obind] in H.
      injection H as <- <- <-. destruct O1 as [Hf Hd].
      change (dfed (DFeed f d :: ops)) with (d ++ dfed ops) in *. rewrite !app_assoc in *.
      destruct (decompress_spec _ _ _ _ _ _ _ _ _ _ I Hf Hd E) as (w1 & [I1|(H & X)] & V).
      2:{ exfalso. destruct X as (_ & X2 & X3 & X4 & _). apply X3. exact (version_prefix _ _ _ X4 X2 Sup). }
      destruct (IH _ _ _ _ _ _ _ I1 O2 Sup E2) as (w2 & I2 & V2).
      exists w2. split; [exact I2|]. intros -> V3 V4.
      assert (Hb : zc_bad C (F ++ d) = false).
      { destruct (zc_bad C (F ++ d)) eqn:Q; [|reflexivity]. now rewrite (zc_bad_mono _ C _ (dfed ops) Q) in V3. }
      assert (Hfi : zc_fin C (F ++ d) = false).
      { destruct (zc_fin C (F ++ d)) eqn:Q; [|reflexivity]. now rewrite (zc_fin_mono _ C _ (dfed ops) Q) in V4. }
      destruct (V eq_refl Hb Hfi) as [-> ->]. destruct (V2 eq_refl V3 V4). split; [constructor; auto|assumption].
    + exact (IH _ _ _ _ _ _ _ (set_buffer_inv _ _ _ _ _ _ I O1) O2 Sup H).
Qed.

(** An unsupported version: no callback, however the input is split. *)
Lemma bad_version_dops fuel : forall ops s F evs0 w rets s' evs,
  mid_inv s F evs0 w -> Forall dop_ok ops -> 128 <= lenN (zc_dec C (F ++ dfed ops)) ->
  version_of (takeN 128 (zc_dec C (F ++ dfed ops))) <> 0 ->
  run_dops e alloc fuel s ops = Ok (rets, s', evs) -> evs0 ++ evs = [].
Proof.
  induction ops as [|op ops IH]; intros s F evs0 w rets s' evs I Ho L V H.
  - cbn in H. injection H as <- <- <-. cbn in *. rewrite !app_nil_r in *.
    destruct I as [(P & _ & E & _)|(H & p0 & chunks & B)]; [exact E|]. exfalso. apply V.
    destruct B as (_ & _ & B1 & B2 & _ & _ & _ & _ & [x B3] & _). rewrite B3, <- app_assoc.
    rewrite takeN_app_exact by lia. exact B2.
  - inversion Ho as [|? ? O1 O2]; subst. destruct op as [f d|b n]; cbn [run_dops] in H.
    + destruct (decompress e alloc fuel f d s) as [[[r1 s1] ev1]| |] eqn:E; try discriminate H. cbn [obind] in H.
      destruct (run_dops e alloc fuel s1 ops) as [[[rs s2] ev2]| |] eqn:E2; try discriminate H. cbn [obind] in H.
      injection H as <- <- <-. destruct O1 as [Hf Hd].
      change (dfed (DFeed f d :: ops)) with (d ++ dfed ops) in *. rewrite !app_assoc in *.
      destruct (decompress_spec _ _ _ _ _ _ _ _ _ _ I Hf Hd E) as (w1 & [I1|(H & X)] & _).
      * exact (IH _ _ _ _ _ _ _ I1 O2 L V E2).
      * destruct X as (_ & _ & _ & _ & -> & D). exact (dead_dops _ _ _ _ _ _ D E2).
    + exact (IH _ _ _ _ _ _ _ (set_buffer_inv _ _ _ _ _ _ I O1) O2 L V H).
Qed.

Lemma create_inv ok buf size hjunk pjunk s : create z ok buf size hjunk pjunk = Some s ->
  usable buf size -> lenN hjunk = 128 -> lenN (p_img pjunk) = ITEM_SIZE -> pd = set_name None pjunk -> mid_inv s [] [] true.
Proof.
  unfold create. intros H Hu Hh Hp Epd. destruct ok; [|discriminate].
  destruct (inflateInit z) as [i|] eqn:Ei; [|discriminate]. injection H as <-.
  pose proof (zc_iinit _ C _ Ei) as I.
  left. exists []. split.
  - unfold hphase. cbn. repeat split; auto; try lia; try (now apply takeN_0); try (now rewrite Epd). now apply usable_u32.
  - split; [reflexivity|]. split; [eauto|]. split; [exact I|]. split; [reflexivity|]. symmetry. apply (zc_dec_nil _ C).
Qed.

(** ** Every call returns, without undefined behaviour *)

Lemma content_run_cwf typ : forall chunks c p c' p' evs, c <> CbHeader -> cwf e c p ->
  content_run typ c p chunks = Ok (c', p', evs) -> c' <> CbHeader /\ cwf e c' p'.
Proof.
  induction chunks as [|[d t] r IH]; intros c p c' p' evs Hc W H.
  - cbn in H. injection H as <- <- <-. auto.
  - cbn [DecompressProofs.content_run] in H.
    destruct (content_cb_ok e alloc typ c p d t Hc W) as (c1 & p1 & ev1 & E & W1).
    rewrite E in H. cbn [obind] in H.
    pose proof (content_cb_not_header _ _ _ _ _ _ _ _ _ _ Hc E) as Hc1.
    destruct (content_run typ c1 p1 r) as [[[c2 p2] ev2]| |] eqn:E2; try discriminate H. cbn [obind] in H.
    injection H as <- <- <-. exact (IH _ _ _ _ _ Hc1 W1 E2).
Qed.

Lemma notouch_stuck fl s c p : content z s -> z_sel (d_zs s) = BUser ->
  z_pos (d_zs s) + z_aout (d_zs s) = d_bsz s -> zc_stuck C (z_st (d_zs s)) -> zc_iinv C (z_st (d_zs s)) c p ->
  exists r, run 1 NoTouch fl s = Ok r.
Proof.
  intros (_ & _ & (m & Em & Hm & _)) Hs Hp St I. cbn [Decompress.run].
  destruct (_ || _); [eauto|]. unfold do_inflate. rewrite Hs. cbn [mem]. rewrite Em.
  set (r := inflate z (z_st (d_zs s)) fl (z_inp (d_zs s)) (z_aout (d_zs s))).
  destruct (zc_istep _ C _ _ _ _ _ _ r I eq_refl) as (B1 & B2 & B3).
  destruct (checked_write_ok alloc (z_pos (d_zs s)) (zr_out r) m) as [E L]; [lia|]. rewrite E. cbn [obind].
  destruct (zc_istuck _ C _ _ _ _ r St eq_refl) as [Hr _].
  destruct (Z.eqb_spec (zr_ret r) Z_OK); [contradiction|]. cbn [negb]. eauto.
Qed.

Lemma hdr_total : forall n k fl s P c p,
  (length (z_inp (d_zs s)) <= n)%nat -> (zc_ipend C (z_st (d_zs s)) <= k)%nat ->
  hphase s P -> zc_iinv C (z_st (d_zs s)) c p ->
  exists fuel r, run fuel NoTouch fl s = Ok r.
Proof.
  induction n as [n IHn] using (well_founded_induction Wf_nat.lt_wf).
  induction k as [k IHk] using (well_founded_induction Wf_nat.lt_wf).
  intros fl s P c p Hn Hk Hp I.
  destruct (z_inp (d_zs s)) as [|b0 t0] eqn:Ei.
  { exists 1%nat. rewrite run_inp_nil by assumption. eauto. }
  assert (Hi : z_inp (d_zs s) <> []) by congruence. rewrite <- Ei in Hn. clear b0 t0 Ei.
  destruct (N.ltb_spec (lenN P) 128) as [HP|HP].
  2:{ exists 1%nat. cbn [Decompress.run].
      assert (Hao : z_aout (d_zs s) =? 0 = true) by (destruct Hp as (_ & _ & _ & _ & _ & _ & -> & _); lia).
      rewrite Hao, orb_true_r. eauto. }
  destruct (run_hdr_step s P fl c p Hp I Hi HP) as (s1 & Hp1 & A1 & A2 & A3 & A4 & A5 & E).
  set (r := inflate z (z_st (d_zs s)) fl (z_inp (d_zs s)) (128 - lenN P)) in *.
  destruct (zc_istep _ C _ _ _ _ _ _ r I eq_refl) as (S1 & S2 & S3). rewrite <- A1 in S3.
  destruct (negb (zr_ret r =? Z_OK)%Z) eqn:En.
  { exists 1%nat. rewrite E. eauto. }
  assert (Hok : zr_ret r = Z_OK) by (destruct (Z.eqb_spec (zr_ret r) Z_OK); [assumption|discriminate]).
  assert (HP1 : lenN (P ++ zr_out r) <= 128) by (rewrite lenN_app; lia).
  destruct (N.ltb_spec (lenN (P ++ zr_out r)) 128) as [Hlt|Hge].
  - (* header still incomplete *)
    rewrite (header_begin_short _ _ Hp1 Hlt) in E. cbn [obind] in E.
    assert (L2 : length (z_inp (d_zs s1)) = (length (z_inp (d_zs s)) - N.to_nat (zr_used r))%nat).
    { rewrite A2. pose proof (lenN_dropN _ (zr_used r) (z_inp (d_zs s))) as Q. unfold lenN in Q. lia. }
    assert (R : exists fuel r', run fuel NoTouch Z_NO_FLUSH s1 = Ok r').
    { destruct (zc_iprogress _ C _ _ _ _ _ _ r I eq_refl Hok) as [Hu|Hpd].
      - refine (IHn (length (z_inp (d_zs s1))) _ (zc_ipend C (z_st (d_zs s1))) _ _ _ _ _ (le_n _) (le_n _) Hp1 S3).
        rewrite L2. assert (length (z_inp (d_zs s)) <> O) by (destruct (z_inp (d_zs s)); [congruence|discriminate]). lia.
      - assert (Hp2 : (zc_ipend C (z_st (d_zs s1)) < k)%nat) by (rewrite A1; lia).
        refine (IHk _ Hp2 _ _ _ _ _ _ (le_n _) Hp1 S3). rewrite L2. lia. }
    destruct R as (fuel & [[r3 s4] ev2] & R). exists (S fuel). rewrite E, R. cbn [obind]. eauto.
  - assert (H128 : lenN (P ++ zr_out r) = 128) by lia.
    rewrite (header_begin_full _ _ Hp1 H128) in E.
    assert (Hao : z_aout (d_zs s1) = 0) by (destruct Hp1 as (_ & _ & _ & _ & _ & _ & -> & _); lia).
    destruct (version_of (P ++ zr_out r) =? 0) eqn:Ev; cbn [obind] in E.
    + set (s2 := DS (d_zs s1) CbV0 BUser (d_tmpsz s1) (hdr_convert e (P ++ zr_out r)) (d_tmp s1) (d_tmp s1)
               (d_tmpsz s1) true (set_err false (d_p s1))) in *.
      assert (C2 : content z s2).
      { split; [discriminate|]. split; [reflexivity|]. cbn. apply Hp1. }
      assert (W2 : cwf e (d_cb s2) (d_p s2)).
      { cbn. destruct Hp1 as (_ & _ & _ & _ & _ & _ & _ & _ & _ & _ & _ & Ep & Li). now rewrite Ep. }
      assert (S3' : zc_iinv C (z_st (d_zs s2)) (c ++ takeN (zr_used r) (z_inp (d_zs s))) (p ++ zr_out r)) by exact S3.
      destruct (run_content_total z C e alloc _ _ Z_NO_FLUSH s2 _ _ (le_n _) (le_n _) C2 W2 S3')
        as (f1 & r1 & s3 & ev1 & R1 & _).
      assert (Hf0 : normal_flush Z_NO_FLUSH) by (unfold normal_flush, Z_NO_FLUSH; lia).
      destruct (run_content_spec _ C _ _ _ _ _ _ _ _ _ _ R1 C2 Hf0 S3') as (ch2 & _ & C3 & Fr & _ & Nil & Zs & Cases).
      assert (R2 : exists f2 r2, run f2 NoTouch Z_NO_FLUSH s3 = Ok r2).
      { destruct Cases as [(Q1 & Q2 & _)|(Q1 & Q2 & Q3 & Q4 & Q5)].
        - exists 1%nat. rewrite run_inp_nil by assumption. eauto.
        - assert (Hne : z_inp (d_zs s2) <> []) by (intro Q; destruct (Nil Q) as (_ & _ & ?); congruence).
          destruct (Zs Hne) as [Z1 Z2]. destruct Fr as (_ & F2 & _). rewrite <- F2 in Z2.
          destruct Q4 as (u & lost & _ & _ & I4 & _).
          exists 1%nat. exact (notouch_stuck _ _ _ _ C3 Z1 Z2 Q2 I4). }
      destruct R2 as (f2 & [[r2 s4] ev2] & R2).
      exists (S (f1 + f2)). rewrite E.
      rewrite (run_more z e alloc f1 (f1 + f2) _ _ _ _ ltac:(lia) R1). cbn [obind].
      rewrite (run_more z e alloc f2 (f1 + f2) _ _ _ _ ltac:(lia) R2). cbn [obind]. eauto.
    + exists 2%nat. rewrite E. cbn [Decompress.run d_zs]. rewrite Hao, N.eqb_refl, orb_true_r. cbn [obind]. eauto.
Qed.

Lemma decompress_total fl d s F evs w : mid_inv s F evs w ->
  exists fuel r, decompress e alloc fuel fl d s = Ok r.
Proof.
  intros [(P & Hp & _ & (c & p & I) & _)|(H & p0 & chunks & B)]; unfold decompress.
  - assert (Hin : d_inited s = false) by apply Hp. rewrite Hin.
    exact (hdr_total _ _ fl (feed d s) P c p (le_n _) (le_n _) Hp I).
  - assert (Hin : d_inited s = true) by apply B. rewrite Hin.
    destruct B as (B1 & B2 & B3 & B4 & B5 & B6 & B7 & B8 & B9 & (c & p & I) & B11).
    assert (Hc0 : CbV0 <> CbHeader) by discriminate.
    destruct (content_run_cwf _ _ _ _ _ _ _ Hc0 (proj2 B6) B8) as [_ W].
    destruct (run_content_total z C e alloc _ _ Z_NO_FLUSH (feed d s) c p (le_n _) (le_n _) B1 W I) as (f & a & b & ev & R & _).
    eauto.
Qed.

Lemma decompress_more f f' fl d (s : dsess z) r : (f <= f')%nat ->
  decompress e alloc f fl d s = Ok r -> decompress e alloc f' fl d s = Ok r.
Proof. unfold decompress. intro Hf. destruct (d_inited s); now apply run_more. Qed.

Lemma run_dops_more : forall ops f f' (s : dsess z) r, (f <= f')%nat ->
  run_dops e alloc f s ops = Ok r -> run_dops e alloc f' s ops = Ok r.
Proof.
  induction ops as [|[fl d|b n] ops IH]; intros f f' s r Hf H; cbn [run_dops] in *; [exact H| |now apply IH with f].
  destruct (decompress e alloc f fl d s) as [[[r1 s1] ev1]| |] eqn:E; try discriminate H.
  rewrite (decompress_more _ _ _ _ _ _ Hf E). cbn [obind] in *.
  destruct (run_dops e alloc f s1 ops) as [[[rs s2] ev2]| |] eqn:E2; try discriminate H.
  now rewrite (IH _ _ _ _ Hf E2).
Qed.

Lemma run_dops_total : forall ops s F evs w,
  mid_inv s F evs w -> Forall dop_ok ops -> supported (F ++ dfed ops) ->
  exists fuel r, run_dops e alloc fuel s ops = Ok r.
Proof.
  induction ops as [|op ops IH]; intros s F evs w I Ho Sup.
  - exists O. cbn. eauto.
  - inversion Ho as [|? ? O1 O2]; subst. destruct op as [fl d|b n].
    + change (dfed (DFeed fl d :: ops)) with (d ++ dfed ops) in *. rewrite app_assoc in Sup.
      destruct (decompress_total fl d s F evs w I) as (f1 & [[r1 s1] ev1] & R1). destruct O1 as [Hf Hd].
      destruct (decompress_spec _ _ _ _ _ _ _ _ _ _ I Hf Hd R1) as (w1 & [I1|(H & X)] & _).
      2:{ exfalso. destruct X as (_ & X2 & X3 & X4 & _). apply X3. exact (version_prefix _ _ _ X4 X2 Sup). }
      destruct (IH _ _ _ _ I1 O2 Sup) as (f2 & [[rs s2] ev2] & R2).
      exists (f1 + f2)%nat. cbn [run_dops].
      rewrite (decompress_more f1 (f1 + f2) _ _ _ _ ltac:(lia) R1). cbn [obind].
      rewrite (run_dops_more _ f2 (f1 + f2) _ _ ltac:(lia) R2). cbn [obind]. eauto.
    + exact (IH _ _ _ _ (set_buffer_inv _ _ _ _ _ _ I O1) O2 Sup).
Qed.

End Mid.
