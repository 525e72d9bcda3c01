(** InitFacts.v: what a decompression session does does not depend on its uninitialised fields. *)
From Coq Require Import Lia.
From Verif Require Import Base Format Zlib LLCompress Compress Parser ParserProofs ParserFacts Decompress DecompressProofs DecompressFacts
  FS FSFacts HL HLSpec Sessions SessionsFacts.

Lemma taken_written off d m : off + lenN d <= lenN m -> takeN (off + lenN d) (write_at off d m) = takeN off m ++ d.
Proof. exact (takeN_write (fun _ _ => true) off d m). Qed.

Section Parser.
Context (e : endian) (alloc : N -> N -> bool).

(** Decoders that differ only in the bytes of a record that have not been read yet. *)
Definition prel (p q : pst) : Prop :=
  p_stage p = p_stage q /\ p_off p = p_off q /\ p_size p = p_size q /\ p_item p = p_item q /\ p_name p = p_name q /\
  p_ft p = p_ft q /\ p_err p = p_err q /\ p_allocs p = p_allocs q /\ lenN (p_img p) = ITEM_SIZE /\ lenN (p_img q) = ITEM_SIZE /\
  (p_stage p = StHeader -> p_size p = ITEM_SIZE /\ p_off p < ITEM_SIZE /\ takeN (p_off p) (p_img p) = takeN (p_off p) (p_img q)) /\
  (p_stage p <> StHeader -> p_img p = p_img q).

Lemma write_at_full off d a b : lenN a = lenN b -> off + lenN d = lenN a -> takeN off a = takeN off b ->
  write_at off d a = write_at off d b.
Proof.
  intros L H T. unfold write_at. rewrite T. f_equal. f_equal.
  rewrite !dropN_all by lia. reflexivity.
Qed.

Lemma prel_same p : lenN (p_img p) = ITEM_SIZE -> (p_stage p = StHeader -> p_size p = ITEM_SIZE /\ p_off p < ITEM_SIZE) -> prel p p.
Proof. intros L H. unfold prel. repeat (split; [auto; fail|]). split; [intro E; destruct (H E); auto|auto]. Qed.

Definition psame (a b : pst * list event) : Prop := prel (fst a) (fst b) /\ snd a = snd b.

Lemma body_rel rec rec' tail p q buf : prel p q ->
  (forall p q b, prel p q -> orel psame (rec p b) (rec' q b)) ->
  orel psame (dir_body e alloc rec tail p buf) (dir_body e alloc rec' tail q buf).
Proof.
  intros R Hr. pose proof R as (E1 & E2 & E3 & E4 & E5 & E6 & E7 & E8 & L1 & L2 & Hh & Hn).
  unfold dir_body. rewrite <- E1, <- E2, <- E3, <- E4, <- E5, <- E6, <- E7. cbv zeta.
  destruct (p_err p) eqn:Ee; [cbn; split; [exact R|reflexivity]|].
  set (rem := sub64 (p_size p) (p_off p)).
  assert (K : forall a b ev, prel a b -> orel psame
     (if rem <? lenN buf then do (s2, evs2) <- rec a (dropN rem buf); Ok (s2, ev ++ evs2) else Ok (a, ev))
     (if rem <? lenN buf then do (s2, evs2) <- rec' b (dropN rem buf); Ok (s2, ev ++ evs2) else Ok (b, ev))).
  { intros a b ev Rab. destruct (_ <? _).
    - eapply orel_bind; [apply Hr, Rab|]. intros [a1 v1] [b1 v2] [R1 V1]. cbn in *. subst v2. split; [exact R1|reflexivity].
    - cbn. split; [exact Rab|reflexivity]. }
  destruct (p_stage p) eqn:Es.
  - destruct (Hh eq_refl) as (Hs & Ho & Ht).
    assert (Er : rem = ITEM_SIZE - p_off p).
    { unfold rem. rewrite Hs. unfold sub64, two64, ITEM_SIZE in *. rewrite N.mod_eq by lia.
      replace ((40 + 18446744073709551616 - p_off p) / 18446744073709551616) with 1; [lia|].
      apply N.div_unique with (r := 40 - p_off p); lia. }
    unfold checked_write. rewrite L1, L2. destruct (N.leb_spec rem (lenN buf)) as [Lb|Lb].
    + assert (Lt : lenN (takeN rem buf) = rem) by (rewrite lenN_takeN; lia). rewrite Lt.
      destruct (_ <=? _); [|exact I]. cbn [obind].
      assert (Ei : write_at (p_off p) (takeN rem buf) (p_img p) = write_at (p_off p) (takeN rem buf) (p_img q))
        by (apply write_at_full; [congruence|lia|exact Ht]).
      rewrite Ei. set (img := write_at (p_off p) (takeN rem buf) (p_img q)).
      assert (Li : lenN img = ITEM_SIZE) by (unfold img; rewrite lenN_write_at; lia).
      assert (G : forall ft, prel (set_off 0 (set_ft ft (close_header e alloc (set_img img p))))
                                  (set_off 0 (set_ft ft (close_header e alloc (set_img img q))))).
      { intro ft. unfold prel, close_header. cbn. rewrite E5, E8, Ee, <- E7. repeat (split; [auto; fail|]). try (split; [discriminate|]); auto. }
      destruct (byte_eqb _ _); [apply K, G|]. destruct (byte_eqb _ _); [apply K, G|]. destruct (byte_eqb _ _); [apply K, G|].
      destruct (byte_eqb _ _); apply K; unfold prel; cbn; repeat (split; [first [auto; fail | congruence]|]); (split; [|auto]);
        intros _; (split; [congruence|]); (split; [reflexivity|]); reflexivity.
    + destruct (_ <=? _); [|exact I]. cbn. split; [|reflexivity]. unfold prel; cbn.
      repeat (split; [first [auto; fail | congruence | rewrite lenN_write_at; lia]|]). split; [|intro H; elim H; exact Es].
      intros _. split; [exact Hs|]. split; [lia|]. rewrite !taken_written by lia. congruence.
  - assert (Ei := Hn ltac:(discriminate)). rewrite <- Ei.
    assert (G : forall nm st sz, st <> StHeader \/ sz = ITEM_SIZE -> prel (set_sec st 0 sz (set_name nm p)) (set_sec st 0 sz (set_name nm q))).
    { intros nm st sz Hx. unfold prel; cbn. repeat (split; [first [auto; fail | congruence]|]). split; [|auto].
      intro H. split; [destruct Hx; congruence|]. split; [reflexivity|congruence]. }
    destruct (_ <=? _).
    + destruct (write_name _ _ _) as [nm| |]; cbn [obind]; try exact I.
      destruct (byte_eqb _ _); [apply K, G; left; discriminate|]. destruct (byte_eqb _ _); [apply K, G; right; reflexivity|].
      destruct (byte_eqb _ _); [apply K, G; left; discriminate|].
      cbn. split; [|reflexivity]. unfold prel; cbn. repeat (split; [first [auto; fail | congruence]|]). try (split; [congruence|]); auto.
    + destruct (write_name _ _ _) as [nm| |]; cbn [obind]; try exact I.
      cbn. split; [|reflexivity]. unfold prel; cbn. repeat (split; [first [auto; fail | congruence]|]). try (split; [congruence|]); auto.
  - assert (Ei := Hn ltac:(discriminate)). rewrite <- Ei. destruct (_ <=? _).
    + destruct (byte_eqb _ _); [|exact I]. apply K. unfold prel; cbn. repeat (split; [first [auto; fail | congruence]|]). try (split; [discriminate|]); auto.
    + cbn. split; [|reflexivity]. unfold prel; cbn. repeat (split; [first [auto; fail | congruence]|]). try (split; [congruence|]); auto.
  - assert (Ei := Hn ltac:(discriminate)). rewrite <- Ei. destruct (_ <=? _).
    + destruct (_ || _); [|exact I]. apply K. unfold prel; cbn. repeat (split; [first [auto; fail | congruence]|]). split; [|auto].
      intros _. split; [reflexivity|]. split; [reflexivity|congruence].
    + cbn. split; [|reflexivity]. unfold prel; cbn. repeat (split; [first [auto; fail | congruence]|]). try (split; [congruence|]); auto.
  - assert (Ei := Hn ltac:(discriminate)). rewrite <- Ei. destruct (_ <=? _).
    + destruct (byte_eqb _ _); [|exact I]. apply K. unfold prel; cbn. repeat (split; [first [auto; fail | congruence]|]). try (split; [discriminate|]); auto.
    + cbn. split; [|reflexivity]. unfold prel; cbn. repeat (split; [first [auto; fail | congruence]|]). try (split; [congruence|]); auto.
  - assert (Ei := Hn ltac:(discriminate)). rewrite <- Ei. destruct (_ <=? _).
    + destruct (_ || _); [|exact I]. apply K. unfold prel; cbn. repeat (split; [first [auto; fail | congruence]|]). split; [|auto].
      intros _. split; [reflexivity|]. split; [reflexivity|congruence].
    + cbn. split; [|reflexivity]. unfold prel; cbn. repeat (split; [first [auto; fail | congruence]|]). try (split; [congruence|]); auto.
Qed.

Lemma parse_rel tail p q buf : prel p q -> orel psame (parse e alloc tail p buf) (parse e alloc tail q buf).
Proof.
  unfold parse. revert p q buf. assert (H : forall f p q buf, prel p q ->
    orel psame (dir_parse e alloc f tail p buf) (dir_parse e alloc f tail q buf)); [|intros; now apply H].
  induction f as [|f IH]; intros p q buf R; [exact I|]. cbn [dir_parse]. apply body_rel; [exact R|exact IH].
Qed.

(** Sessions that differ only in what has not been initialised. *)
Definition pjoin (c : cbk) (p q : pst) : Prop :=
  lenN (p_img p) = ITEM_SIZE /\ lenN (p_img q) = ITEM_SIZE /\
  match c with
  | CbUser _ => True
  | CbBlob => True
  | CbDir => prel p q
  | CbHeader | CbV0 => p_name p = p_name q /\ p_allocs p = p_allocs q /\ (c = CbV0 -> p_err p = p_err q)
  end.

Lemma begin_rel typ p q : pjoin CbV0 p q ->
  match v0_begin typ p, v0_begin typ q with
  | (c, p1, ev), (c', q1, ev') => c = c' /\ ev = ev' /\ pjoin (match c with Some d => d | None => CbV0 end) p1 q1 /\ c <> Some CbHeader
  end.
Proof.
  intros (L1 & L2 & En & Ea & Ee). specialize (Ee eq_refl). unfold v0_begin.
  assert (Lz : lenN (zeros 28) = 28) by reflexivity.
  assert (Li : forall p, lenN (p_img p) = ITEM_SIZE -> lenN (put_ctype CT_SINGLE_BLOB (write_at 0 (zeros 28) (p_img p))) = ITEM_SIZE).
  { intros x Lx. unfold put_ctype. rewrite lenN_write_at; rewrite lenN_write_at; rewrite ?Lz; try lia; unfold ITEM_SIZE in *; cbn; lia. }
  destruct (_ =? ContentDirectory).
  - split; [reflexivity|]. split; [reflexivity|]. split; [|discriminate]. unfold pjoin; cbn.
    split; [now apply Li|]. split; [now apply Li|]. unfold prel; cbn. repeat (split; [first [auto; fail | congruence | now apply Li]|]).
    split; [|congruence]. intros _. split; [reflexivity|]. split; [reflexivity|now rewrite !takeN_0].
  - destruct (_ || _).
    + split; [reflexivity|]. split; [reflexivity|]. split; [|discriminate]. unfold pjoin; cbn. split; [now apply Li|]. split; [now apply Li|exact I].
    + split; [reflexivity|]. split; [reflexivity|]. split; [|discriminate]. unfold pjoin; cbn. split; [now apply Li|]. split; [now apply Li|]. auto.
Qed.

Definition csame (a b : cbk * pst * list event) : Prop :=
  fst (fst a) = fst (fst b) /\ pjoin (fst (fst a)) (snd (fst a)) (snd (fst b)) /\ snd a = snd b /\ fst (fst a) <> CbHeader.

Lemma leaf_rel c p q d t : c <> CbHeader -> c <> CbV0 -> pjoin c p q ->
  orel (fun a b => pjoin c (fst a) (fst b) /\ snd a = snd b) (leaf_cb e alloc c p d t) (leaf_cb e alloc c q d t).
Proof.
  intros H1 H2 J. destruct c; cbn [leaf_cb]; try congruence; try (cbn; split; [exact J|reflexivity]).
  destruct J as (L1 & L2 & R).
  pose proof (parse_rel t p q d R) as P.
  destruct (parse e alloc t p d) as [[p1 v1]| |], (parse e alloc t q d) as [[q1 v2]| |]; cbn in P |- *; try contradiction; try exact I.
  destruct P as [P V]. cbn in P, V. split; [|exact V]. unfold pjoin. split; [apply P|]. split; [apply P|exact P].
Qed.

Lemma content_rel typ c p q d t : c <> CbHeader -> pjoin c p q ->
  orel csame (content_cb e alloc typ c p d t) (content_cb e alloc typ c q d t).
Proof.
  intros H J. unfold content_cb.
  assert (K : forall c0 p0 q0 ev, c0 <> CbHeader -> c0 <> CbV0 -> pjoin c0 p0 q0 ->
    orel csame (do (p2, evs2) <- leaf_cb e alloc c0 p0 d t; Ok (c0, p2, ev ++ evs2))
               (do (p2, evs2) <- leaf_cb e alloc c0 q0 d t; Ok (c0, p2, ev ++ evs2))).
  { intros c0 p0 q0 ev Hc Hv J0. eapply orel_bind; [apply leaf_rel; eassumption|].
    intros [p2 v1] [q2 v2] [J2 V]. cbn in J2, V |- *. subst v2. unfold csame; cbn. auto. }
  assert (K' : forall c0 p0 q0, c0 <> CbHeader -> c0 <> CbV0 -> pjoin c0 p0 q0 ->
    orel csame (do (p2, evs2) <- leaf_cb e alloc c0 p0 d t; Ok (c0, p2, evs2))
               (do (p2, evs2) <- leaf_cb e alloc c0 q0 d t; Ok (c0, p2, evs2))).
  { intros c0 p0 q0 Hc Hv J0. apply (K c0 p0 q0 [] Hc Hv J0). }
  destruct c; try congruence; try (apply K'; [discriminate|discriminate|exact J]).
  pose proof (begin_rel typ p q J) as B. destruct (v0_begin typ p) as [[c' p1] ev], (v0_begin typ q) as [[c2 q1] ev'].
  destruct B as (<- & <- & J1 & Hn). destruct c' as [c1|].
  - destruct c1; try (apply K; [discriminate|discriminate|exact J1]); [congruence|].
    cbn. exact I.
  - cbn. unfold csame; cbn. split; [reflexivity|]. split; [exact J1|]. split; [reflexivity|discriminate].
Qed.
End Parser.

Section Session.
Context (z : zlib) (e : endian) (alloc : N -> N -> bool).

Definition join (s t : dsess z) : Prop :=
  d_zs t = d_zs s /\ d_cb t = d_cb s /\ d_bsel t = d_bsel s /\ d_bsz t = d_bsz s /\
  d_ubuf t = d_ubuf s /\ d_tmp t = d_tmp s /\ d_tmpsz t = d_tmpsz s /\ d_inited t = d_inited s /\
  lenN (d_hdr s) = MAIN_HEADER_SIZE /\ lenN (d_hdr t) = MAIN_HEADER_SIZE /\
  (d_inited s = true -> d_hdr t = d_hdr s) /\
  (d_inited s = false -> takeN (z_tot (d_zs s)) (d_hdr t) = takeN (z_tot (d_zs s)) (d_hdr s) /\
     d_cb s = CbHeader /\ z_sel (d_zs s) = BHdr /\ z_pos (d_zs s) = z_tot (d_zs s)) /\
  pjoin (d_cb s) (d_p s) (d_p t).

Definition jsame (i : bool) (a b : Z * dsess z * list event) : Prop :=
  fst (fst a) = fst (fst b) /\ join (snd (fst a)) (snd (fst b)) /\ snd a = snd b /\ (i = true -> d_inited (snd (fst a)) = true).

Lemma inflate_join fl s t : join s t ->
  orel (fun a b => fst a = fst b /\ join (snd a) (snd b) /\ d_inited (snd a) = d_inited s) (do_inflate fl s) (do_inflate fl t).
Proof.
  intros J. pose proof J as (E1 & E2 & E3 & E4 & E5 & E6 & E7 & E8 & L1 & L2 & H1 & H2 & P). unfold do_inflate. rewrite E1. cbv zeta.
  destruct (z_sel (d_zs s)) eqn:Es; cbn [mem].
  - unfold checked_write. rewrite L1, L2.
    set (r := inflate z (z_st (d_zs s)) fl (z_inp (d_zs s)) (z_aout (d_zs s))).
    destruct (N.leb_spec (z_pos (d_zs s) + lenN (zr_out r)) MAIN_HEADER_SIZE) as [L|L]; [|exact I].
    cbn. split; [reflexivity|]. split; [|reflexivity]. unfold join; cbn.
    repeat (split; [first [auto; fail | congruence | rewrite lenN_write_at; lia]|]). split.
    + intro H. rewrite (H1 H). reflexivity.
    + split; [|exact P]. intro H. destruct (H2 H) as (Ht & Hc & _ & Hp). split; [|split; [exact Hc|split; [reflexivity|congruence]]].
      rewrite <- Hp. rewrite !taken_written by lia. rewrite Hp, Ht. reflexivity.
  - rewrite E5. destruct (d_ubuf s) as [m|] eqn:Em.
    + destruct (checked_write _ _ m) as [m'| |]; cbn; try exact I. split; [reflexivity|]. split; [|reflexivity]. unfold join; cbn.
      repeat (split; [first [auto; fail | congruence]|]). split; [|exact P].
      intro H. destruct (H2 H) as (_ & _ & Hx & _). congruence.
    + cbn. split; [reflexivity|]. split; [exact J|reflexivity].
Qed.

Lemma header_join s t : join s t -> d_cb s = CbHeader ->
  orel (fun a b => fst a = fst b /\ join (snd a) (snd b) /\ (fst a = true -> d_inited (snd a) = true) /\ (d_inited s = true -> d_inited (snd a) = true))
    (header_begin e s) (header_begin e t).
Proof.
  intros J Hc. pose proof J as (E1 & E2 & E3 & E4 & E5 & E6 & E7 & E8 & L1 & L2 & H1 & H2 & P). unfold header_begin. rewrite E1.
  destruct (N.ltb_spec (z_tot (d_zs s)) MAIN_HEADER_SIZE) as [L|L].
  { cbn. split; [reflexivity|]. split; [exact J|]. try (split; [discriminate|]); auto. }
  assert (Eh : d_hdr t = d_hdr s).
  { destruct (d_inited s) eqn:Ei; [auto|]. destruct (H2 eq_refl) as (Ht & _). rewrite !takeN_all in Ht by lia. exact Ht. }
  cbv zeta. rewrite Eh. rewrite Hc in P. destruct P as (P1 & P2 & P3 & P4 & _).
  assert (Lh : lenN (hdr_convert e (d_hdr s)) = MAIN_HEADER_SIZE).
  { unfold hdr_convert. rewrite lenN_write_at; rewrite lenN_write_at; rewrite ?lenN_store; unfold MAIN_HEADER_SIZE in *; lia. }
  destruct (_ =? 0).
  - destruct (_ <? _); [exact I|]. cbn. split; [reflexivity|]. split; [|auto]. unfold join; cbn.
    repeat (split; [first [auto; fail | congruence]|]). unfold pjoin; cbn. auto.
  - cbn. split; [reflexivity|]. split; [|auto]. unfold join; cbn.
    repeat (split; [first [auto; fail | congruence]|]). unfold pjoin; cbn. rewrite Hc.
    auto 10.
Qed.

Lemma data_join s t : join s t -> d_inited s = true -> cb_data t = cb_data s.
Proof.
  intros (E1 & E2 & E3 & E4 & E5 & E6 & E7 & E8 & L1 & L2 & H1 & _) Hi. unfold cb_data. rewrite E1, E3, E4.
  destruct (d_bsel s); cbn [mem]; [now rewrite (H1 Hi)|now rewrite E5].
Qed.

Lemma setup_join s t : join s t -> d_inited s = true -> join (setup s) (setup t).
Proof.
  intros (E1 & E2 & E3 & E4 & E5 & E6 & E7 & E8 & L1 & L2 & H1 & H2 & P) Hi. unfold setup, with_zs, join. cbn.
  rewrite E1, E3, E4. repeat (split; [auto; fail|]). split; [congruence|exact P].
Qed.

Lemma run_join fuel : forall m fl s t, join s t -> (m = Reset -> d_inited s = true) ->
  orel (jsame (d_inited s)) (run e alloc fuel m fl s) (run e alloc fuel m fl t).
Proof.
  induction fuel as [|f IH]; intros m fl s t J Hm; [exact I|]. cbn [run].
  assert (Ez : d_zs t = d_zs s) by apply J. rewrite Ez.
  destruct (_ || _). { cbn. unfold jsame; cbn. auto. }
  cbv zeta.
  assert (J0 : join (match m with Reset => setup s | NoTouch => s end) (match m with Reset => setup t | NoTouch => t end)).
  { destruct m; [apply setup_join; auto|exact J]. }
  assert (I0 : d_inited (match m with Reset => setup s | NoTouch => s end) = d_inited s) by (destruct m; reflexivity).
  revert J0 I0. generalize (match m with Reset => setup s | NoTouch => s end) (match m with Reset => setup t | NoTouch => t end).
  intros s0 t0 J0 I0.
  eapply orel_bind; [apply (inflate_join fl s0 t0 J0)|].
  intros [ret s1] [ret' t1] (Er & J1 & I1). cbn [fst snd] in *. subst ret'.
  destruct (negb _). { cbn. unfold jsame; cbn. split; [reflexivity|]. split; [exact J1|]. split; [reflexivity|congruence]. }
  eapply (orel_bind (fun a b => join (fst a) (fst b) /\ snd a = snd b /\ (d_inited s = true -> d_inited (fst a) = true))).
  2:{ intros [s3 v] [t3 v'] (J3 & V & I3). cbn [fst snd] in *. subst v'.
      eapply orel_bind; [apply (IH m Z_NO_FLUSH s3 t3 J3); auto|].
      intros [[r4 s4] v4] [[r4' t4] v4'] (Er & J4 & V4 & I4). cbn [fst snd] in *. subst. cbn. unfold jsame; cbn. split; [reflexivity|]. split; [exact J4|]. split; [reflexivity|auto]. }
  assert (Ec : d_cb t1 = d_cb s1) by apply J1. rewrite Ec.
  assert (K : d_cb s1 <> CbHeader -> orel (fun a b => join (fst a) (fst b) /\ snd a = snd b /\ (d_inited s = true -> d_inited (fst a) = true))
    (let '(data, tail) := cb_data s1 in
      do (c', p', evs) <- content_cb e alloc (hdr_type e (d_hdr s1)) (d_cb s1) (d_p s1) data tail;
      Ok (with_cb c' (with_p p' s1), evs))
    (let '(data, tail) := cb_data t1 in
      do (c', p', evs) <- content_cb e alloc (hdr_type e (d_hdr t1)) (d_cb s1) (d_p t1) data tail;
      Ok (with_cb c' (with_p p' t1), evs))).
  { intro Hc. assert (Hi : d_inited s1 = true).
    { destruct (d_inited s1) eqn:Q; [reflexivity|]. elim Hc. apply J1. exact Q. }
    rewrite (data_join s1 t1 J1 Hi). destruct (cb_data s1) as [d tl].
    pose proof J1 as (E1 & E2 & E3 & E4 & E5 & E6 & E7 & E8 & L1 & L2 & H1 & H2 & P). rewrite (H1 Hi).
    eapply orel_bind; [apply (content_rel e alloc (hdr_type e (d_hdr s1)) (d_cb s1) (d_p s1) (d_p t1) d tl Hc P)|].
    intros [[c1 p1] v1] [[c2 p2] v2] (C1 & P1 & V1 & _). cbn [fst snd] in *. subst c2 v2. cbn.
    split; [|split; [reflexivity|congruence]]. unfold join; cbn. repeat (split; [first [auto; fail | congruence]|]).
    exact P1. }
  destruct (d_cb s1) eqn:Ecb; try (apply K; discriminate). clear K.
  eapply orel_bind; [apply (header_join s1 t1 J1 Ecb)|].
  intros [again s2] [again' t2] (Ea & J2 & Hi & Hk). cbn [fst snd] in *. subst again'.
  destruct again.
  - eapply orel_bind; [apply (IH Reset Z_NO_FLUSH s2 t2 J2); auto|].
    intros [[r4 s4] v4] [[r4' t4] v4'] (Er & J4 & V4 & I4). cbn [fst snd] in *. subst. cbn. split; [exact J4|]. split; [reflexivity|].
    intro Q. auto.
  - cbn. split; [exact J2|]. split; [reflexivity|]. intro Q. apply Hk. congruence.
Qed.

Lemma feed_join d s t : join s t -> join (feed d s) (feed d t).
Proof.
  intros (E1 & E2 & E3 & E4 & E5 & E6 & E7 & E8 & L1 & L2 & H1 & H2 & P). unfold feed, with_zs, join. cbn.
  rewrite E1. repeat (split; [auto; fail|]). exact P.
Qed.

Lemma decompress_join fuel fl d s t : join s t ->
  orel (jsame (d_inited s)) (decompress e alloc fuel fl d s) (decompress e alloc fuel fl d t).
Proof.
  intros J. unfold decompress. assert (Ei : d_inited t = d_inited s) by apply J. rewrite Ei.
  destruct (d_inited s) eqn:Es.
  - rewrite <- Es. apply (run_join fuel Reset Z_NO_FLUSH (feed d s) (feed d t)); [now apply feed_join|auto].
  - rewrite <- Es. apply (run_join fuel NoTouch fl (feed d s) (feed d t)); [now apply feed_join|discriminate].
Qed.

Lemma buffer_join b n s t : join s t -> join (set_buffer b n s) (set_buffer b n t).
Proof.
  intros (E1 & E2 & E3 & E4 & E5 & E6 & E7 & E8 & L1 & L2 & H1 & H2 & P). unfold set_buffer. rewrite E8.
  destruct (d_inited s) eqn:Es; unfold ll_set_buffer, join; cbn.
  - repeat (split; [first [auto; fail | congruence]|]). exact P.
  - repeat (split; [first [auto; fail | congruence]|]). exact P.
Qed.

Lemma dops_join fuel : forall ops s t, join s t ->
  orel (fun a b => fst (fst a) = fst (fst b) /\ join (snd (fst a)) (snd (fst b)) /\ snd a = snd b)
    (run_dops e alloc fuel s ops) (run_dops e alloc fuel t ops).
Proof.
  induction ops as [|[fl d|b n] ops IH]; intros s t J; cbn [run_dops].
  - cbn. auto.
  - eapply orel_bind; [apply decompress_join, J|]. intros [[r s1] v] [[r' t1] v'] (Er & J1 & V & _). cbn [fst snd] in *. subst r' v'.
    eapply orel_bind; [apply IH, J1|]. intros [[rs s2] v2] [[rs' t2] v2'] (Er & J2 & V). cbn [fst snd] in *. subst. cbn. auto.
  - apply IH, buffer_join, J.
Qed.

Lemma create_join ok buf size hj pj hj' pj' s s' :
  lenN hj = MAIN_HEADER_SIZE -> lenN hj' = MAIN_HEADER_SIZE -> lenN (p_img pj) = ITEM_SIZE -> lenN (p_img pj') = ITEM_SIZE ->
  p_allocs pj = p_allocs pj' ->
  create z ok buf size hj pj = Some s -> create z ok buf size hj' pj' = Some s' -> join s s'.
Proof.
  unfold create. destruct ok; [|discriminate]. destruct (inflateInit z) as [i|]; [|discriminate].
  intros L1 L2 L3 L4 Ea H H'.
  assert (Ex : forall (a b : dsess z), Some a = Some b -> a = b) by congruence.
  apply Ex in H, H'. subst s s'. unfold join; cbn.
  repeat (split; [first [auto; fail | congruence]|]). split.
  - intros _. rewrite !takeN_0. auto.
  - unfold pjoin; cbn. repeat (split; [auto; fail|]). discriminate.
Qed.

(** What the caller of a session sees: the results of the calls and the callbacks. *)
Definition seen_of (x : outcome (list Z * dsess z * list event)) : outcome (list Z * list event) :=
  match x with Ok (rets, _, evs) => Ok (rets, evs) | UB => UB | NoFuel => NoFuel end.

Lemma uninit_session fuel ok buf size hj pj hj' pj' s s' ops :
  lenN hj = MAIN_HEADER_SIZE -> lenN hj' = MAIN_HEADER_SIZE -> lenN (p_img pj) = ITEM_SIZE -> lenN (p_img pj') = ITEM_SIZE ->
  p_allocs pj = p_allocs pj' ->
  create z ok buf size hj pj = Some s -> create z ok buf size hj' pj' = Some s' ->
  seen_of (run_dops e alloc fuel s ops) = seen_of (run_dops e alloc fuel s' ops).
Proof.
  intros L1 L2 L3 L4 Ea H H'. pose proof (dops_join fuel ops s s' (create_join _ _ _ _ _ _ _ _ _ L1 L2 L3 L4 Ea H H')) as D.
  destruct (run_dops e alloc fuel s ops) as [[[r a] v]| |], (run_dops e alloc fuel s' ops) as [[[r' a'] v']| |]; cbn in D |- *;
    try contradiction; try reflexivity.
  destruct D as (E & _ & V). congruence.
Qed.

(** ** Extraction *)
Context (T : bytes) (hal : N -> bool) (stk archive : N).

Definition lsame (a b : bool * dsess z * hst * bytes * os) : Prop :=
  match a, b with (ok, s, h, ds, o), (ok', s', h', ds', o') => ok = ok' /\ join s s' /\ h = h' /\ ds = ds' /\ o = o' end.

Lemma loop_join dfuel rderr : forall fuel inp total idx s t h o, join s t ->
  orel lsame (exec (extract_loop T hal stk z e alloc archive fuel dfuel inp rderr total idx s h) o)
             (exec (extract_loop T hal stk z e alloc archive fuel dfuel inp rderr total idx t h) o).
Proof.
  induction fuel as [|f IH]; intros inp total idx s t h o J; [exact I|]. cbn [extract_loop]. cbv zeta.
  destruct (_ <? 1). { cbn. auto. }
  destruct (_ && rderr). { cbn. auto. }
  rewrite !exec_bind.
  pose proof (decompress_join dfuel (Z.of_N (N.shiftr (N.land (idx + 1) 16) 4)) (takeN (next_size archive total) inp) s t J) as D.
  destruct (decompress _ _ _ _ _ s) as [[[r s1] v]| |], (decompress _ _ _ _ _ t) as [[[r' t1] v']| |]; cbn in D |- *; try contradiction; try exact I.
  destruct D as (Er & J1 & V & _). cbn [fst snd] in *. subst r' v'. rewrite !exec_bind.
  destruct (exec (cbs _ _ _ v h) o) as [[h1 o1]| |]; cbn [obind]; try exact I.
  destruct (_ || h_err h1). { cbn. auto. }
  rewrite !exec_bind.
  pose proof (IH (dropN (next_size archive total) inp) (total + lenN (takeN (next_size archive total) inp)) (idx + 1) s1 t1 h1 o1 J1) as K.
  destruct (exec (extract_loop _ _ _ _ _ _ _ _ _ _ _ _ _ s1 _) _) as [[[[[ok s2] h2] ds] o2]| |],
    (exec (extract_loop _ _ _ _ _ _ _ _ _ _ _ _ _ t1 _) _) as [[[[[ok' t2] h2'] ds'] o2']| |]; cbn in K |- *; try contradiction; try exact I.
  destruct K as (-> & J2 & -> & -> & ->). auto.
Qed.

Lemma destroy_join s t : join s t -> orel (fun _ _ => True) (destroy s) (destroy t).
Proof.
  intro J. unfold destroy. eapply orel_bind; [apply (inflate_join Z_FULL_FLUSH s t J)|]. intros [r1 s1] [r1' t1] (_ & J1 & _). cbn [fst snd] in *.
  eapply orel_bind; [apply (inflate_join Z_FINISH s1 t1 J1)|]. intros [r2 s2] [r2' t2] _. exact I.
Qed.

(** What an extraction returns and leaves. *)
Definition left_of (x : outcome (N * option (dsess z * hst * bytes) * os)) : outcome (N * os) :=
  match x with Ok ((ret, _), o) => Ok (ret, o) | UB => UB | NoFuel => NoFuel end.

Lemma uninit_extract fuel dfuel al obuf hj pj hj' pj' inp rderr o :
  lenN hj = MAIN_HEADER_SIZE -> lenN hj' = MAIN_HEADER_SIZE -> lenN (p_img pj) = ITEM_SIZE -> lenN (p_img pj') = ITEM_SIZE ->
  p_allocs pj = p_allocs pj' ->
  left_of (exec (extract T hal stk z e alloc archive fuel dfuel al obuf hj pj inp rderr) o) =
  left_of (exec (extract T hal stk z e alloc archive fuel dfuel al obuf hj' pj' inp rderr) o).
Proof.
  intros L1 L2 L3 L4 Ea. unfold extract. destruct (_ || _); [reflexivity|].
  destruct (create z (al 3) (Some obuf) DEF_CHUNK_SIZE hj pj) as [s|] eqn:C1, (create z (al 3) (Some obuf) DEF_CHUNK_SIZE hj' pj') as [t|] eqn:C2.
  2,3: unfold create in C1, C2; destruct (al 3), (inflateInit z); discriminate.
  2: reflexivity.
  pose proof (create_join _ _ _ _ _ _ _ _ _ L1 L2 L3 L4 Ea C1 C2) as J. rewrite !exec_bind.
  pose proof (loop_join dfuel rderr fuel inp 0 0 s t HS0 o J) as K.
  destruct (exec (extract_loop _ _ _ _ _ _ _ _ _ _ _ _ _ s _) _) as [[[[[ok s2] h2] ds] o2]| |],
    (exec (extract_loop _ _ _ _ _ _ _ _ _ _ _ _ _ t _) _) as [[[[[ok' t2] h2'] ds'] o2']| |]; cbn in K |- *; try contradiction; try reflexivity.
  destruct K as (-> & J2 & -> & -> & ->). rewrite !exec_bind. destruct (exec (close_fp h2') o2') as [[u o3]| |]; cbn [obind]; try reflexivity.
  rewrite !exec_bind. pose proof (destroy_join s2 t2 J2) as D.
  destruct (destroy s2), (destroy t2); cbn in D |- *; try contradiction; reflexivity.
Qed.
End Session.

(** ** The contents of the caller's buffers *)
Definition op_alike (a b : dop) : Prop :=
  match a, b with
  | DFeed f d, DFeed f' d' => f = f' /\ d = d'
  | DSetBuffer b n, DSetBuffer b' n' => alike b b' /\ n = n'
  | _, _ => False
  end.
Section Buffers.
Context (z : zlib) (e : endian) (alloc : N -> N -> bool).

(** What the callbacks get, without the memory behind the target of a symbolic link. *)
Definition shown_of (x : outcome (list Z * dsess z * list event)) : outcome (list Z * list event) :=
  match x with Ok (rets, _, evs) => Ok (rets, map vis evs) | UB => UB | NoFuel => NoFuel end.

Lemma dops_rel fuel : forall ops ops', Forall2 op_alike ops ops' -> forall s s', rel z s s' -> sized z s -> flagged z s ->
  orel (fun a b => fst (fst a) = fst (fst b) /\ map vis (snd a) = map vis (snd b))
    (run_dops e alloc fuel s ops) (run_dops e alloc fuel s' ops').
Proof.
  induction 1 as [|x y ops ops' A F IH]; intros s s' R Sz Fl; cbn [run_dops].
  - cbn. auto.
  - destruct x as [fl d|b n], y as [fl' d'|b' n']; cbn in A; try contradiction.
    + destruct A as [<- <-].
      eapply (orel_bind (same_run z s)).
      * unfold decompress. assert (Ei : d_inited s' = d_inited s) by apply R. rewrite Ei.
        destruct (d_inited s) eqn:Es.
        -- eapply orel_mono; [|apply run_rel; [apply rel_feed, R|exact Sz|discriminate]]. intros a c Q. exact Q.
        -- eapply orel_mono; [|apply run_rel; [apply rel_feed, R|exact Sz|]]. { intros a c Q. exact Q. } intros _ H. elim H. exact (Fl Es).
      * intros [[r1 x1] v1] [[r2 x2] v2] (E & R' & Sz' & F' & _ & V). cbn [fst snd] in *. subst r2.
        eapply orel_bind; [apply (IH x1 x2 R' Sz' (F' Fl))|].
        intros [[r3 x3] v3] [[r4 x4] v4] (E3 & V3). cbn [fst snd] in *. subst r4. cbn. rewrite !map_app. split; congruence.
    + destruct A as [A <-]. apply IH.
      * destruct R as (E1 & E2 & E3 & E4 & E5 & A1 & A2 & E6 & E7 & E8). unfold set_buffer. rewrite E7.
        destruct (d_inited s) eqn:Es; unfold rel; cbn; repeat (split; [first [auto; fail | congruence]|]); congruence.
      * destruct Sz. unfold set_buffer. destruct (d_inited s); split; cbn; auto using u32_lt.
      * unfold flagged, set_buffer in *. destruct (d_inited s) eqn:Es; cbn; [congruence|auto].
Qed.

Lemma uninit_buffers fuel ok buf buf' size hj pj hj' pj' s s' ops ops' :
  alike buf buf' -> Forall2 op_alike ops ops' ->
  lenN hj = MAIN_HEADER_SIZE -> lenN hj' = MAIN_HEADER_SIZE -> lenN (p_img pj) = ITEM_SIZE -> lenN (p_img pj') = ITEM_SIZE ->
  p_allocs pj = p_allocs pj' ->
  create z ok buf size hj pj = Some s -> create z ok buf' size hj' pj' = Some s' ->
  shown_of (run_dops e alloc fuel s ops) = shown_of (run_dops e alloc fuel s' ops').
Proof.
  intros A F L1 L2 L3 L4 Ea H H'.
  assert (Q : exists t, create z ok buf' size hj pj = Some t /\ rel z s t /\ sized z s /\ flagged z s).
  { revert H. unfold create. destruct ok; [|discriminate]. destruct (inflateInit z) as [i|]; [|discriminate]. intro H.
    eexists. split; [reflexivity|].
    assert (Ex : forall (a b : dsess z), Some a = Some b -> a = b) by congruence. apply Ex in H. subst s.
    unfold rel, sized, flagged; cbn. split; [auto 20|]. split; [|auto]. split; [reflexivity|apply u32_lt]. }
  destruct Q as (t & Ct & R & Sz & Fl).
  pose proof (dops_rel fuel ops ops' F s t R Sz Fl) as D.
  pose proof (uninit_session z e alloc fuel ok buf' size hj pj hj' pj' t s' ops' L1 L2 L3 L4 Ea Ct H') as U.
  destruct (run_dops e alloc fuel s ops) as [[[r a] v]| |], (run_dops e alloc fuel t ops') as [[[r' a'] v']| |]; cbn in D, U |- *;
    try contradiction; destruct (run_dops e alloc fuel s' ops') as [[[r2 a2] v2]| |]; cbn in U |- *; try discriminate; try reflexivity.
  destruct D as (E & V). injection U as -> ->. congruence.
Qed.
End Buffers.
