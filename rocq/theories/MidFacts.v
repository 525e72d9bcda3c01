(** MidFacts.v: what the user sees of sessions of ZlibWtDecompressBufferToCallback. *)
From Verif Require Import Base Format Zlib Parser ParserProofs ParserFacts Decompress DecompressProofs MidProofs.

(** The last inflate call returned with avail_out > 0: it did not fill its buffer. *)
Definition room_left {z} (s : dsess z) : Prop := 0 < z_aout (d_zs s).

(** A session as the user gets it: usable output buffer, arbitrary contents of uninitialised memory
    (128 bytes header, 40 bytes record). *)
Definition started (z : zlib) (s : dsess z) : Prop :=
  exists buf size hjunk pjunk, create z true buf size hjunk pjunk = Some s /\ usable buf size /\
    lenN hjunk = 128 /\ lenN (p_img pjunk) = 40.

(** The directory decoder when the content starts; [p]: leftovers. *)
Definition dir_fresh (p : pst) : pst := snd (fst (v0_begin ContentDirectory p)).
(** Decoder leftovers: the record structure has 40 bytes. *)
Definition leftovers (p : pst) : Prop := lenN (p_img p) = 40 /\ p_err p = false.

(** The archive starts with a version 0 header of content type [typ]. *)
Definition archive_of (typ : N) (plain : bytes) : Prop :=
  128 <= lenN plain /\ version_of plain = 0 /\ type_of plain = typ.

Lemma fresh_at_hdr e p : leftovers p -> at_hdr e (dir_fresh p).
Proof.
  intros [H He]. split; [|cbn; auto].
  destruct (v0_begin_pwf e (fun _ _ => true) p ContentDirectory CbDir (dir_fresh p) [EvDirBegin] H eq_refl) as [[_ W]|Q]; [exact W|discriminate].
Qed.
Lemma fresh_pwf e p : leftovers p -> pwf e (dir_fresh p).
Proof. intro H. apply (fresh_at_hdr e p H). Qed.

Lemma slice_takeN {A} off n k (l : list A) : off + n <= k -> slice off n (takeN k l) = slice off n l.
Proof.
  intro H. unfold slice. rewrite !takeN_firstn, !dropN_skipn.
  rewrite skipn_firstn_comm, firstn_firstn. f_equal. lia.
Qed.

Lemma version_takeN h : version_of (takeN 128 h) = version_of h.
Proof. unfold version_of. rewrite slice_takeN by lia. reflexivity. Qed.
Lemma type_takeN h : type_of (takeN 128 h) = type_of h.
Proof. unfold type_of. rewrite slice_takeN by lia. reflexivity. Qed.

Lemma header_is_take (H x P : bytes) : lenN H = 128 -> H ++ x = P -> H = takeN 128 P.
Proof. intros L <-. symmetry. apply takeN_app_exact. lia. Qed.

Section Sessions.
Context (z : zlib) (C : zlib_contract z) (e : endian) (alloc : N -> N -> bool).
Notation content_run := (content_run e alloc).
Notation parse_chunks := (parse_chunks e alloc).

Lemma started_inv s : started z s -> mid_inv z C e alloc (d_p s) s [] [] true.
Proof.
  intros (buf & size & hj & pj & Hc & Hu & Hh & Hp).
  assert (E : d_p s = set_name None pj).
  { unfold create in Hc. destruct (inflateInit z); [|discriminate]. injection Hc as <-. reflexivity. }
  exact (create_inv z C e alloc _ _ _ _ _ _ _ Hc Hu Hh Hp E).
Qed.

Lemma started_leftovers (s : dsess z) : started z s -> leftovers (set_err false (d_p s)).
Proof.
  intros (buf & size & hj & pj & Hc & Hu & Hh & Hp).
  unfold create in Hc. destruct (inflateInit z); [|discriminate]. injection Hc as <-. split; [exact Hp|reflexivity].
Qed.

Lemma content_run_none typ : typ <> ContentDirectory -> typ <> ContentFile -> typ <> ContentBlob ->
  forall chunks p, exists p', content_run typ CbV0 p chunks = Ok (CbV0, p', []).
Proof.
  intros H1 H2 H3. induction chunks as [|[d t] r IH]; intro p; [eexists; reflexivity|].
  cbn [DecompressProofs.content_run content_cb]. unfold v0_begin.
  destruct (N.eqb_spec typ ContentDirectory); [congruence|].
  destruct (N.eqb_spec typ ContentFile); [congruence|]. destruct (N.eqb_spec typ ContentBlob); [congruence|].
  cbn [orb obind]. match goal with |- context [content_run typ CbV0 ?q r] => destruct (IH q) as [p' ->] end.
  eexists. reflexivity.
Qed.

Lemma content_run_blob typ p : forall chunks,
  content_run typ CbBlob p chunks = Ok (CbBlob, p, map (fun ch => EvFlRead (fst ch)) chunks).
Proof.
  induction chunks as [|[d t] r IH]; [reflexivity|].
  cbn [DecompressProofs.content_run content_cb leaf_cb obind]. rewrite IH. reflexivity.
Qed.

Lemma content_run_file typ p d t r : typ = ContentFile \/ typ = ContentBlob ->
  exists p', content_run typ CbV0 p ((d, t) :: r) =
    Ok (CbBlob, p', EvFlBegin :: map (fun ch => EvFlRead (fst ch)) ((d, t) :: r)).
Proof.
  intro H. cbn [DecompressProofs.content_run content_cb]. unfold v0_begin.
  destruct (N.eqb_spec typ ContentDirectory) as [->|_]; [destruct H; discriminate|].
  assert (E : (typ =? ContentFile) || (typ =? ContentBlob) = true) by (destruct H as [->| ->]; reflexivity).
  rewrite E. cbn [leaf_cb obind]. rewrite content_run_blob. cbn [obind]. eexists. reflexivity.
Qed.

Lemma content_run_dir typ : forall chunks p s evs, parse_chunks p chunks = Ok (s, evs) ->
  content_run typ CbDir p chunks = Ok (CbDir, s, evs).
Proof.
  induction chunks as [|[d t] r IH]; intros p s evs H; cbn [ParserFacts.parse_chunks] in H.
  - injection H as <- <-. reflexivity.
  - cbn [DecompressProofs.content_run content_cb leaf_cb].
    destruct (parse e alloc t p d) as [[s1 ev1]| |]; try discriminate H. cbn [obind] in *.
    destruct (parse_chunks s1 r) as [[s2 ev2]| |] eqn:E; try discriminate H. cbn [obind] in H. injection H as <- <-.
    rewrite (IH _ _ _ E). reflexivity.
Qed.

Lemma content_run_dir0 p d t r : leftovers p ->
  exists s evs, parse_chunks (dir_fresh p) ((d, t) :: r) = Ok (s, evs) /\
    content_run ContentDirectory CbV0 p ((d, t) :: r) = Ok (CbDir, s, EvDirBegin :: evs).
Proof.
  intro H. destruct (parse_chunks_ok e alloc ((d, t) :: r) _ (fresh_pwf e p H)) as (s & evs & E & _).
  exists s, evs. split; [exact E|]. cbn [ParserFacts.parse_chunks] in E.
  cbn [DecompressProofs.content_run content_cb]. unfold v0_begin. cbn [N.eqb ContentDirectory Pos.eqb leaf_cb].
  unfold dir_fresh in E. cbn [v0_begin N.eqb ContentDirectory Pos.eqb fst snd] in E.
  destruct (parse e alloc t _ d) as [[s1 ev1]| |]; try discriminate E. cbn [obind] in *.
  destruct (parse_chunks s1 r) as [[s2 ev2]| |] eqn:E2; try discriminate E. cbn [obind] in E. injection E as <- <-.
  rewrite (content_run_dir _ _ _ _ _ E2). reflexivity.
Qed.

(** ** The general shape of a history of a supported archive *)

Lemma session_shape fuel s0 ops rets s evs : started z s0 -> Forall dop_ok ops -> supported z C (dfed ops) ->
  run_dops e alloc fuel s0 ops = Ok (rets, s, evs) ->
  let plain := zc_dec C (dfed ops) in
  (evs = [] \/ exists p0 chunks c p, 128 <= lenN plain /\ p0 = set_err false (d_p s0) /\ chunks <> [] /\
     content_run (type_of plain) CbV0 p0 chunks = Ok (c, p, evs) /\ prefix (cat chunks) (dropN 128 plain) /\
     (zc_bad C (dfed ops) = false -> zc_fin C (dfed ops) = false -> room_left s -> cat chunks = dropN 128 plain)) /\
  (zc_bad C (dfed ops) = false -> zc_fin C (dfed ops) = false ->
     Forall (fun r => r = 0%Z) rets /\
     (room_left s -> 128 < lenN plain -> exists p0 chunks c p, p0 = set_err false (d_p s0) /\ chunks <> [] /\
        content_run (type_of plain) CbV0 p0 chunks = Ok (c, p, evs) /\ cat chunks = dropN 128 plain)).
Proof.
  intros Hs Ho Sup H plain.
  destruct (run_dops_spec z C e alloc _ fuel _ _ _ _ _ _ _ _ (started_inv _ Hs) Ho Sup H) as (w & I & V).
  cbn [app] in I, V. fold plain in V.
  assert (HB : forall h p0 chunks, phaseB z C e alloc (d_p s0) s (dfed ops) evs w h p0 chunks ->
     128 <= lenN plain /\ p0 = set_err false (d_p s0) /\ content_run (type_of plain) CbV0 p0 chunks = Ok (d_cb s, d_p s, evs) /\
     prefix (cat chunks) (dropN 128 plain) /\ (w = true -> room_left s -> cat chunks = dropN 128 plain)).
  { intros h p0 chunks (_ & _ & L & Vz & _ & (Hi & _) & He & R & Pf & _ & W).
    fold plain in Pf, W. destruct Pf as [y Ey].
    assert (Eh : h = takeN 128 plain) by (rewrite Ey, <- app_assoc; eapply header_is_take; eauto).
    assert (Lp : 128 <= lenN plain) by (rewrite Ey, !lenN_app; lia).
    split; [exact Lp|]. split; [exact Hi|].
    split. { rewrite <- type_takeN, <- Eh. exact R. }
    split. { exists y. rewrite Ey, <- app_assoc. apply dropN_app_exact. lia. }
    intros -> Hr. destruct W as [_ W]. rewrite <- (W Hr). symmetry. apply dropN_app_exact. lia. }
  split.
  - destruct I as [(P & _ & -> & _)|(h & p0 & chunks & B)]; [left; reflexivity|].
    destruct (HB _ _ _ B) as (L & Lo & R & Pf & Cm).
    destruct chunks as [|ch r]. { left. cbn in R. congruence. }
    right. exists p0, (ch :: r), (d_cb s), (d_p s). split; [exact L|]. split; [exact Lo|]. split; [discriminate|].
    split; [exact R|]. split; [exact Pf|]. intros V1 V2. apply Cm. apply V; auto.
  - intros V1 V2. destruct (V eq_refl V1 V2) as [Hr Hw]. split; [exact Hr|]. intros Hroom Hlen.
    destruct I as [(P & A)|(h & p0 & chunks & B)].
    { exfalso. destruct A as (_ & _ & _ & W). rewrite Hw in W. destruct W as (_ & W1 & W2). fold plain in W2. rewrite W2 in W1. lia. }
    destruct (HB _ _ _ B) as (L & Lo & R & Pf & Cm). specialize (Cm Hw Hroom).
    exists p0, chunks, (d_cb s), (d_p s). split; [exact Lo|]. split; [|auto].
    intros ->. assert (Q : lenN (dropN 128 plain) = 0) by (rewrite <- Cm; reflexivity).
    rewrite lenN_dropN in Q. lia.
Qed.

Lemma supported_of typ F : archive_of typ (zc_dec C F) -> supported z C F.
Proof. intros (_ & V & _). right. now rewrite version_takeN. Qed.

(** C17: nothing is called before the header is complete. *)
Lemma before_header fuel s0 ops rets s evs : started z s0 -> Forall dop_ok ops ->
  lenN (zc_dec C (dfed ops)) < 128 -> run_dops e alloc fuel s0 ops = Ok (rets, s, evs) -> evs = [].
Proof.
  intros Hs Ho Hl H. destruct (session_shape _ _ _ _ _ _ Hs Ho (or_introl Hl) H) as [[E|(p0 & ch & c & p & L & _)] _]; [exact E|lia].
Qed.

(** C24 *)
Lemma unknown_type fuel s0 ops rets s evs typ : started z s0 -> Forall dop_ok ops ->
  archive_of typ (zc_dec C (dfed ops)) -> typ <> ContentDirectory -> typ <> ContentFile -> typ <> ContentBlob ->
  run_dops e alloc fuel s0 ops = Ok (rets, s, evs) -> evs = [].
Proof.
  intros Hs Ho A H1 H2 H3 H.
  destruct (session_shape _ _ _ _ _ _ Hs Ho (supported_of _ _ A) H) as [[E|(p0 & ch & c & p & _ & _ & _ & R & _)] _]; [exact E|].
  destruct A as (_ & _ & <-). destruct (content_run_none _ H1 H2 H3 ch p0) as [p' Q]. congruence.
Qed.

(** C25 *)
Definition reads (ds : list bytes) : list event := EvFlBegin :: map EvFlRead ds.

Lemma map_reads chunks : map (fun ch : bytes * bytes => EvFlRead (fst ch)) chunks = map EvFlRead (map fst chunks).
Proof. now rewrite map_map. Qed.

Lemma file_session fuel s0 ops rets s evs typ : started z s0 -> Forall dop_ok ops ->
  archive_of typ (zc_dec C (dfed ops)) -> typ = ContentFile \/ typ = ContentBlob ->
  run_dops e alloc fuel s0 ops = Ok (rets, s, evs) ->
  (evs = [] \/ exists ds, evs = reads ds /\ prefix (concat ds) (dropN 128 (zc_dec C (dfed ops)))) /\
  (zc_bad C (dfed ops) = false -> zc_fin C (dfed ops) = false ->
   Forall (fun r => r = 0%Z) rets /\
   (room_left s -> 128 < lenN (zc_dec C (dfed ops)) ->
    exists ds, evs = reads ds /\ concat ds = dropN 128 (zc_dec C (dfed ops)))).
Proof.
  intros Hs Ho A Ht H.
  destruct (session_shape _ _ _ _ _ _ Hs Ho (supported_of _ _ A) H) as [S1 S2].
  destruct A as (_ & _ & E). rewrite E in *. split.
  - destruct S1 as [->|(p0 & ch & c & p & _ & _ & Hc & R & Pf & _)]; [left; reflexivity|]. right.
    destruct ch as [|[d t] r]; [congruence|]. destruct (content_run_file typ p0 d t r Ht) as [p' Q].
    exists (map fst ((d, t) :: r)). unfold reads. rewrite <- map_reads. split; [congruence|exact Pf].
  - intros V1 V2. destruct (S2 V1 V2) as [Hr Q]. split; [exact Hr|]. intros R1 R2.
    destruct (Q R1 R2) as (p0 & ch & c & p & _ & Hc & R & Cm).
    destruct ch as [|[d t] r]; [congruence|]. destruct (content_run_file typ p0 d t r Ht) as [p' Q'].
    exists (map fst ((d, t) :: r)). unfold reads. rewrite <- map_reads. split; [congruence|exact Cm].
Qed.

(** Directory archives: [dir_events s0 chunks evs]: the decoder, freshly started, calls [evs] when it is
    given the outputs [chunks]. *)
Definition dir_events (s0 : dsess z) (chunks : list (bytes * bytes)) (evs : list event) : Prop :=
  exists s, parse_chunks (dir_fresh (set_err false (d_p s0))) chunks = Ok (s, evs).

Lemma dir_session fuel s0 ops rets s evs : started z s0 -> Forall dop_ok ops ->
  archive_of ContentDirectory (zc_dec C (dfed ops)) ->
  run_dops e alloc fuel s0 ops = Ok (rets, s, evs) ->
  (evs = [] \/ exists chunks evs', evs = EvDirBegin :: evs' /\ dir_events s0 chunks evs' /\
     prefix (ctext chunks) (dropN 128 (zc_dec C (dfed ops)))) /\
  (zc_bad C (dfed ops) = false -> zc_fin C (dfed ops) = false ->
   Forall (fun r => r = 0%Z) rets /\
   (room_left s -> 128 < lenN (zc_dec C (dfed ops)) ->
    exists chunks evs', evs = EvDirBegin :: evs' /\ dir_events s0 chunks evs' /\
      ctext chunks = dropN 128 (zc_dec C (dfed ops)))).
Proof.
  intros Hs Ho A H.
  destruct (session_shape _ _ _ _ _ _ Hs Ho (supported_of _ _ A) H) as [S1 S2].
  destruct A as (_ & _ & E). rewrite E in *. pose proof (started_leftovers _ Hs) as Ls. split.
  - destruct S1 as [->|(p0 & ch & c & p & _ & Lo & Hc & R & Pf & _)]; [left; reflexivity|]. right.
    destruct ch as [|[d t] r]; [congruence|]. assert (Lo' : leftovers p0) by (rewrite Lo; exact Ls).
    destruct (content_run_dir0 p0 d t r Lo') as (s' & ev' & Q1 & Q2).
    exists ((d, t) :: r), ev'. split; [congruence|]. split; [subst p0; exists s'; exact Q1|exact Pf].
  - intros V1 V2. destruct (S2 V1 V2) as [Hr Q]. split; [exact Hr|]. intros R1 R2.
    destruct (Q R1 R2) as (p0 & ch & c & p & Lo & Hc & R & Cm).
    destruct ch as [|[d t] r]; [congruence|]. assert (Lo' : leftovers p0) by (rewrite Lo; exact Ls).
    destruct (content_run_dir0 p0 d t r Lo') as (s' & ev' & Q1 & Q2).
    exists ((d, t) :: r), ev'. split; [congruence|]. split; [subst p0; exists s'; exact Q1|exact Cm].
Qed.

(** C23: unless the assertion is reached. *)
Lemma bad_version fuel s0 ops rets s evs : started z s0 -> Forall dop_ok ops ->
  128 <= lenN (zc_dec C (dfed ops)) -> version_of (zc_dec C (dfed ops)) <> 0 ->
  run_dops e alloc fuel s0 ops = Ok (rets, s, evs) -> evs = [].
Proof.
  intros Hs Ho L V H. rewrite <- version_takeN in V.
  exact (bad_version_dops z C e alloc _ _ _ _ _ _ _ _ _ _ (started_inv _ Hs) Ho L V H).
Qed.

(** C16, C20: every history returns normally. *)
Lemma session_returns_ok s0 ops : started z s0 -> Forall dop_ok ops -> supported z C (dfed ops) ->
  exists fuel0 r, forall fuel, (fuel0 <= fuel)%nat -> run_dops e alloc fuel s0 ops = Ok r.
Proof.
  intros Hs Ho Sup. destruct (run_dops_total z C e alloc _ _ _ _ _ _ (started_inv _ Hs) Ho Sup) as (fuel0 & r & R).
  exists fuel0, r. intros fuel Hf. exact (run_dops_more z e alloc _ _ _ _ _ Hf R).
Qed.

End Sessions.

(** ** Session level consequences for directory archives *)

Lemma prefix_total {A} (a b c : list A) : prefix a c -> prefix b c -> prefix a b \/ prefix b a.
Proof.
  intros Ha Hb. destruct (N.le_ge_cases (lenN a) (lenN b)) as [H|H]; [left|right]; eapply prefix_same; eauto.
Qed.

Lemma prefix_dropN {A} n (a b : list A) : prefix a b -> prefix (dropN n a) (dropN n b).
Proof.
  intros [x ->]. rewrite dropN_app. destruct (N.le_ge_cases n (lenN a)) as [H|H].
  - replace (n - lenN a) with 0 by lia. rewrite dropN_0. apply prefix_app.
  - rewrite (dropN_all _ n a) by lia. apply prefix_nil.
Qed.

Section DirSessions.
Context (z : zlib) (C : zlib_contract z) (e : endian) (alloc : N -> N -> bool).

Lemma dir_session_protocol fuel s0 ops rets s evs : started z s0 -> Forall dop_ok ops ->
  archive_of ContentDirectory (zc_dec C (dfed ops)) -> run_dops e alloc fuel s0 ops = Ok (rets, s, evs) ->
  evs = [] \/ exists evs' st, evs = EvDirBegin :: evs' /\ proto_run Idle evs' = Some st.
Proof.
  intros Hs Ho A H. destruct (dir_session z C e alloc _ _ _ _ _ _ Hs Ho A H) as [[->|(ch & ev' & -> & (s' & E) & _)] _].
  - left; reflexivity.
  - right. destruct (parse_chunks_ok e alloc ch _ (fresh_pwf e _ (started_leftovers z s0 Hs))) as (s1 & ev1 & E1 & _ & P).
    rewrite E in E1. injection E1 as <- <-. exists ev', (proto_of s'). auto.
Qed.

(** Two histories of the same session start, the second one with at least the bytes of the first. *)
Lemma dir_session_cmp fuel1 fuel2 s0 ops1 ops2 rets1 rets2 s1 s2 evs1 evs2 : started z s0 ->
  Forall dop_ok ops1 -> Forall dop_ok ops2 -> prefix (dfed ops1) (dfed ops2) ->
  archive_of ContentDirectory (zc_dec C (dfed ops2)) ->
  run_dops e alloc fuel1 s0 ops1 = Ok (rets1, s1, evs1) -> run_dops e alloc fuel2 s0 ops2 = Ok (rets2, s2, evs2) ->
  prefix (flat evs1) (flat evs2) \/ prefix (flat evs2) (flat evs1).
Proof.
  intros Hs Ho1 Ho2 [y Ey] A H1 H2.
  pose proof (zc_dec_mono _ C (dfed ops1) y) as Pd. rewrite <- Ey in Pd.
  assert (S1 : evs1 = [] \/ exists ch ev', evs1 = EvDirBegin :: ev' /\ dir_events z e alloc s0 ch ev' /\
     prefix (ctext ch) (dropN 128 (zc_dec C (dfed ops2)))).
  { destruct (N.lt_ge_cases (lenN (zc_dec C (dfed ops1))) 128) as [L|L].
    - left. exact (before_header z C e alloc _ _ _ _ _ _ Hs Ho1 L H1).
    - assert (A1 : archive_of ContentDirectory (zc_dec C (dfed ops1))).
      { destruct A as (_ & A2 & A3). destruct Pd as [x Ex].
        split; [exact L|]. unfold version_of, type_of in *. rewrite Ex in A2, A3.
        assert (Sl : forall off n, off + n <= 128 -> slice off n (zc_dec C (dfed ops1) ++ x) = slice off n (zc_dec C (dfed ops1))).
        { intros off n Hn. unfold slice. rewrite dropN_app, takeN_app.
          replace (n - lenN (dropN off (zc_dec C (dfed ops1)))) with 0 by (rewrite lenN_dropN; lia).
          rewrite takeN_0, app_nil_r. reflexivity. }
        rewrite Sl in A2 by lia. rewrite Sl in A3 by lia. auto. }
      destruct (dir_session z C e alloc _ _ _ _ _ _ Hs Ho1 A1 H1) as [[->|(ch & ev' & -> & D & P)] _]; [left; reflexivity|].
      right. exists ch, ev'. split; [reflexivity|]. split; [exact D|].
      eapply prefix_trans; [exact P|]. now apply prefix_dropN. }
  destruct (dir_session z C e alloc _ _ _ _ _ _ Hs Ho2 A H2) as [[->|(ch2 & ev2 & -> & (q2 & D2) & P2)] _].
  { right. apply prefix_nil. }
  destruct S1 as [->|(ch1 & ev1 & -> & (q1 & D1) & P1)]. { left. apply prefix_nil. }
  pose proof (fresh_pwf e _ (started_leftovers z s0 Hs)) as W.
  assert (Q : prefix (flat ev1) (flat ev2) \/ prefix (flat ev2) (flat ev1)).
  { destruct (prefix_total _ _ _ P1 P2) as [P|P].
    - destruct (parse_chunks_cmp e alloc ch1 ch2 _ W P) as (a1 & b1 & a2 & b2 & E1 & E2 & Q).
      rewrite D1 in E1. rewrite D2 in E2. injection E1 as <- <-. injection E2 as <- <-. exact Q.
    - destruct (parse_chunks_cmp e alloc ch2 ch1 _ W P) as (a1 & b1 & a2 & b2 & E1 & E2 & Q).
      rewrite D2 in E1. rewrite D1 in E2. injection E1 as <- <-. injection E2 as <- <-. tauto. }
  rewrite !flat_cons. destruct Q as [[x ->]|[x ->]]; [left|right]; exists x; now rewrite app_assoc.
Qed.

End DirSessions.

(** ** The decoder, freshly started *)

Section Fresh.
Context (e : endian) (alloc : N -> N -> bool).

Lemma fresh_split p c1 d1 t1 c2 d2 t2 : leftovers p -> d1 <> [] -> d2 <> [] ->
  ctext c1 ++ d1 = ctext c2 ++ d2 ->
  exists s1 ev1 ev2, parse_chunks e alloc (dir_fresh p) (c1 ++ [(d1, t1)]) = Ok (s1, ev1) /\
    parse_chunks e alloc (dir_fresh p) (c2 ++ [(d2, t2)]) = Ok (s1, ev2) /\ flat ev1 = flat ev2.
Proof. intro H. apply parse_chunks_same. now apply fresh_pwf. Qed.

Lemma fresh_safe p chunks : leftovers p ->
  exists s evs, parse_chunks e alloc (dir_fresh p) chunks = Ok (s, evs).
Proof.
  intro H. destruct (parse_chunks_ok e alloc chunks _ (fresh_pwf e p H)) as (s & evs & E & _). eauto.
Qed.

Lemma fresh_protocol p chunks s evs : leftovers p ->
  parse_chunks e alloc (dir_fresh p) chunks = Ok (s, evs) -> exists st, proto_run Idle evs = Some st.
Proof.
  intros H E. destruct (parse_chunks_ok e alloc chunks _ (fresh_pwf e p H)) as (s' & evs' & E' & _ & P).
  rewrite E in E'. injection E' as <- <-. eauto.
Qed.

Lemma fresh_prefix p ca cb y : leftovers p -> y <> [] -> ctext cb = ctext ca ++ y ->
  exists s1 ev1 s2 ev2, parse_chunks e alloc (dir_fresh p) ca = Ok (s1, ev1) /\
    parse_chunks e alloc (dir_fresh p) cb = Ok (s2, ev2) /\ prefix (flat ev1) (flat ev2).
Proof. intro H. apply parse_chunks_prefix. now apply fresh_pwf. Qed.

Lemma fresh_progress p chunks s evs t buf : leftovers p ->
  parse_chunks e alloc (dir_fresh p) chunks = Ok (s, evs) ->
  exists r, forall fuel, (4 * length buf + 4 <= fuel)%nat -> dir_parse e alloc fuel t s buf = Ok r.
Proof.
  intros H E. destruct (parse_chunks_ok e alloc chunks _ (fresh_pwf e p H)) as (s' & evs' & E' & W & _).
  rewrite E in E'. injection E' as <- <-. pose proof (rank_le s) as R.
  destruct (dir_parse_ok e alloc (4 * length buf + 4) t s buf W) as (s1 & ev1 & D & _); [lia|].
  exists (s1, ev1). intros fuel Hf. exact (dir_parse_more e alloc _ _ _ _ _ _ Hf D).
Qed.

Lemma fresh_link p e' name mode target junk pn c1 a b t : (forall k n, alloc k n = true) ->
  leftovers p -> lenN junk = 40 -> lenN name + 8 < two32 -> mode < two32 -> lenN target + 8 < two64 ->
  lenN pn = norm_len32 (lenN name) - lenN name -> target <> [] ->
  ctext c1 ++ a = link_item e' (lenN name) mode (lenN target) junk ++ name ++ pn ->
  exists s evx ev3, parse_chunks e alloc (dir_fresh p) (c1 ++ [(a ++ target ++ b, t)]) =
      Ok (s, evx ++ EvSym target (b ++ t) :: ev3) /\
    flat evx = [OEntry FtSymLink (Item (lenN target) (norm_len64 (lenN target)) (lenN name) (norm_len32 (lenN name)) mode CT_SYM_LINK)
                  (name ++ pn)].
Proof.
  intros Ha H Hj Hn Hm Ht Hp Hne Hc.
  destruct (link_split e alloc Ha _ e' name mode target junk pn c1 a b t (fresh_at_hdr e p H) Hj Hn Hm Ht Hp Hne Hc)
    as (s1 & ev1 & s2 & evx & ev3 & E1 & E2 & F).
  exists s2, (ev1 ++ evx), ev3. rewrite parse_chunks_app, E1. cbn [obind parse_chunks]. rewrite E2. cbn [obind].
  split; [now rewrite app_nil_r, app_assoc|]. rewrite F. reflexivity.
Qed.
End Fresh.
