(** DecompressProofs.v: lemmas on decompression sessions. *)
From Verif Require Import Base Format Zlib Parser ParserProofs Decompress.

Section Proofs.
Context (z : zlib) (C : zlib_contract z) (e : endian) (alloc : N -> N -> bool).

Notation run := (@Decompress.run z e alloc).
Notation content_cb := (content_cb e alloc).
Notation leaf_cb := (leaf_cb e alloc).
Notation header_begin := (header_begin e).

(** A sequence of output chunks (data, memory behind it) handed to the content callbacks. *)
Fixpoint content_run (typ : N) (c : cbk) (p : pst) (chunks : list (bytes * bytes)) : outcome (cbk * pst * list event) :=
  match chunks with
  | [] => Ok (c, p, [])
  | (d, t) :: r =>
    do (c1, p1, ev1) <- content_cb typ c p d t;
    do (c2, p2, ev2) <- content_run typ c1 p1 r;
    Ok (c2, p2, ev1 ++ ev2)
  end.

Definition cat (chunks : list (bytes * bytes)) : bytes := concat (map fst chunks).

Lemma cat_app a b : cat (a ++ b) = cat a ++ cat b.
Proof. unfold cat. now rewrite map_app, concat_app. Qed.
Lemma cat_cons d t b : cat ((d, t) :: b) = d ++ cat b.
Proof. reflexivity. Qed.

Lemma content_run_app typ : forall a b c p,
  content_run typ c p (a ++ b) =
  do (c1, p1, ev1) <- content_run typ c p a;
  do (c2, p2, ev2) <- content_run typ c1 p1 b;
  Ok (c2, p2, ev1 ++ ev2).
Proof.
  induction a as [|[d t] a IH]; intros b c p; cbn [content_run app obind].
  - destruct (content_run typ c p b) as [[[c2 p2] ev2]| |]; reflexivity.
  - destruct (content_cb typ c p d t) as [[[c1 p1] ev1]| |]; cbn [obind]; try reflexivity.
    rewrite IH. destruct (content_run typ c1 p1 a) as [[[c2 p2] ev2]| |]; cbn [obind]; try reflexivity.
    destruct (content_run typ c2 p2 b) as [[[c3 p3] ev3]| |]; cbn [obind]; try reflexivity.
    now rewrite app_assoc.
Qed.

(** ** Basic facts on the loop *)

Lemma run_more f : forall f' m fl s r, (f <= f')%nat -> run f m fl s = Ok r -> run f' m fl s = Ok r.
Proof.
  induction f as [|f IH]; intros f' m fl s r Hf H; [discriminate|].
  destruct f' as [|f']; [lia|]. cbn [Decompress.run] in *.
  destruct (_ || _); [exact H|].
  destruct (do_inflate _ _) as [[ret s1]| |]; cbn [obind] in *; try exact H.
  destruct (negb _); [exact H|].
  assert (Q : (f <= f')%nat) by lia.
  destruct (d_cb s1).
  - destruct (cb_data s1) as [dd tt]. destruct (content_cb _ _ _ _ _) as [[[c' p'] ev]| |]; cbn [obind] in *; try exact H.
    destruct (run f m _ _) as [[[r3 s4] ev2]| |] eqn:E; try discriminate H.
    rewrite (IH _ _ _ _ _ Q E). exact H.
  - destruct (header_begin s1) as [[again s2]| |]; cbn [obind] in *; try exact H.
    destruct again; cbn [obind] in *.
    + destruct (run f Reset _ s2) as [[[r3 s4] ev2]| |] eqn:E; try discriminate H.
      rewrite (IH _ _ _ _ _ Q E). cbn [obind] in *.
      destruct (run f m _ s4) as [[[r5 s5] ev3]| |] eqn:E2; try discriminate H.
      rewrite (IH _ _ _ _ _ Q E2). exact H.
    + destruct (run f m _ _) as [[[r3 s4] ev2]| |] eqn:E; try discriminate H.
      rewrite (IH _ _ _ _ _ Q E). exact H.
  - destruct (cb_data s1) as [dd tt]. destruct (content_cb _ _ _ _ _) as [[[c' p'] ev]| |]; cbn [obind] in *; try exact H.
    destruct (run f m _ _) as [[[r3 s4] ev2]| |] eqn:E; try discriminate H.
    rewrite (IH _ _ _ _ _ Q E). exact H.
  - destruct (cb_data s1) as [dd tt]. destruct (content_cb _ _ _ _ _) as [[[c' p'] ev]| |]; cbn [obind] in *; try exact H.
    destruct (run f m _ _) as [[[r3 s4] ev2]| |] eqn:E; try discriminate H.
    rewrite (IH _ _ _ _ _ Q E). exact H.
  - destruct (cb_data s1) as [dd tt]. destruct (content_cb _ _ _ _ _) as [[[c' p'] ev]| |]; cbn [obind] in *; try exact H.
    destruct (run f m _ _) as [[[r3 s4] ev2]| |] eqn:E; try discriminate H.
    rewrite (IH _ _ _ _ _ Q E). exact H.
Qed.

(** ** Content phase *)

(** The session delivers content into a usable user buffer. *)
Definition usable (buf : option bytes) (sz : N) : Prop :=
  exists m, buf = Some m /\ sz <= lenN m /\ 0 < sz < two32.

Definition content (s : dsess z) : Prop :=
  d_cb s <> CbHeader /\ d_bsel s = BUser /\ usable (d_ubuf s) (d_bsz s).

(** Everything that content delivery does not touch. *)
Definition same_frame (s s' : dsess z) : Prop :=
  d_bsel s' = d_bsel s /\ d_bsz s' = d_bsz s /\ d_hdr s' = d_hdr s /\
  d_tmp s' = d_tmp s /\ d_tmpsz s' = d_tmpsz s /\ d_inited s' = d_inited s.

Lemma same_frame_refl s : same_frame s s.
Proof. repeat split. Qed.
Lemma same_frame_trans a b c : same_frame a b -> same_frame b c -> same_frame a c.
Proof. unfold same_frame. intuition congruence. Qed.

(** One inflate step into a fresh user buffer. *)
Lemma do_inflate_content s fl c p : content s -> zc_iinv C (z_st (d_zs s)) c p ->
  let r := inflate z (z_st (d_zs s)) fl (z_inp (d_zs s)) (d_bsz s) in
  exists s1 m, do_inflate fl (setup s) = Ok (zr_ret r, s1) /\
    d_zs s1 = ZS (zr_st r) (dropN (zr_used r) (z_inp (d_zs s))) (d_bsz s - lenN (zr_out r)) BUser (lenN (zr_out r))
                 (z_tot (d_zs s) + lenN (zr_out r)) /\
    cb_data s1 = (zr_out r, m) /\ lenN (zr_out r) <= d_bsz s /\
    content s1 /\ same_frame s s1 /\ d_cb s1 = d_cb s /\ d_p s1 = d_p s.
Proof.
  intros (Hc & Hs & (m & Hm & Hl & H0 & Hz)) I r.
  destruct (zc_istep _ C _ _ _ _ _ _ r I eq_refl) as (B1 & B2 & B3).
  unfold do_inflate, setup. cbn [d_zs with_zs z_sel z_st z_inp z_aout z_pos mem]. rewrite Hs. cbn [mem with_zs d_ubuf].
  rewrite Hm. fold r.
  destruct (checked_write_ok alloc 0 (zr_out r) m) as [E L]; [lia|].
  rewrite E. cbn [obind]. eexists _, _. split; [reflexivity|].
  cbn [d_zs with_zs set_mem]. rewrite !N.add_0_l.
  split; [reflexivity|]. split.
  { unfold cb_data. cbn [d_bsz with_zs d_zs z_aout set_mem d_bsel mem d_ubuf]. rewrite Hs.
    cbn [mem d_ubuf with_zs set_mem].
    assert (Hn : sub32 (d_bsz s) (d_bsz s - lenN (zr_out r)) = lenN (zr_out r)).
    { unfold sub32, two32 in *. lia. }
    rewrite Hn. unfold write_at. rewrite takeN_0, app_nil_l, N.add_0_l.
    rewrite takeN_app_exact by reflexivity. reflexivity. }
  split; [exact B2|]. split.
  { split; [exact Hc|]. split; [exact Hs|]. eexists. split; [reflexivity|]. cbn. rewrite L. lia. }
  split; [repeat split; auto|]. auto.
Qed.

Lemma run_content_step fl s c p : content s -> zc_iinv C (z_st (d_zs s)) c p -> z_inp (d_zs s) <> [] ->
  let r := inflate z (z_st (d_zs s)) fl (z_inp (d_zs s)) (d_bsz s) in
  exists s1 m,
    d_zs s1 = ZS (zr_st r) (dropN (zr_used r) (z_inp (d_zs s))) (d_bsz s - lenN (zr_out r)) BUser (lenN (zr_out r))
                 (z_tot (d_zs s) + lenN (zr_out r)) /\
    content s1 /\ same_frame s s1 /\ d_cb s1 = d_cb s /\ d_p s1 = d_p s /\
    forall f, run (S f) Reset fl s =
      if negb (zr_ret r =? Z_OK)%Z then Ok (zr_ret r, s1, [])
      else
        do (c', p', evs) <- content_cb (hdr_type e (d_hdr s)) (d_cb s) (d_p s) (zr_out r) m;
        do (ret3, s4, evs2) <- run f Reset Z_NO_FLUSH (with_cb c' (with_p p' s1));
        Ok (ret3, s4, evs ++ evs2).
Proof.
  intros Hc I Hi r.
  destruct (do_inflate_content s fl c p Hc I) as (s1 & m & E & Z1 & Cd & _ & C1 & F1 & B1 & P1). fold r in E, Z1, Cd.
  exists s1, m. split; [exact Z1|]. split; [exact C1|]. split; [exact F1|]. split; [exact B1|]. split; [exact P1|].
  intro f. cbn [Decompress.run].
  assert (Hn : (lenN (z_inp (d_zs s)) =? 0) || false = false).
  { destruct (z_inp (d_zs s)); [congruence|]. rewrite lenN_cons. lia. }
  rewrite Hn, E. cbn [obind]. destruct (negb _) eqn:En; [reflexivity|].
  rewrite B1, P1, Cd. destruct F1 as (_ & _ & -> & _).
  destruct Hc as (Hh & _). destruct (d_cb s) eqn:Ecb; try congruence;
    destruct (content_cb _ _ _ _ _) as [[[c' p'] evs]| |]; reflexivity.
Qed.

Lemma content_cb_not_header typ c p d t c' p' evs : c <> CbHeader ->
  content_cb typ c p d t = Ok (c', p', evs) -> c' <> CbHeader.
Proof.
  unfold Decompress.content_cb. intros Hc H. destruct c; try congruence.
  - destruct (leaf_cb _ _ _ _) as [[p2 e2]| |]; try discriminate H. cbn in H. congruence.
  - unfold v0_begin in H. destruct (_ =? _).
    + destruct (leaf_cb _ _ _ _) as [[p2 e2]| |]; try discriminate H. cbn in H. congruence.
    + destruct (_ || _).
      * destruct (leaf_cb _ _ _ _) as [[p2 e2]| |]; try discriminate H. cbn in H. congruence.
      * congruence.
  - destruct (leaf_cb _ _ _ _) as [[p2 e2]| |]; try discriminate H. cbn in H. congruence.
  - destruct (leaf_cb _ _ _ _) as [[p2 e2]| |]; try discriminate H. cbn in H. congruence.
Qed.

Lemma run_inp_nil f fl m s : z_inp (d_zs s) = [] -> run (S f) m fl s = Ok (0%Z, s, []).
Proof. intro H. cbn [Decompress.run]. rewrite H. reflexivity. Qed.

Definition data_ok (chunks : list (bytes * bytes)) (sz : N) : Prop :=
  Forall (fun ch => lenN (fst ch) <= sz) chunks.

Lemma run_content_spec fuel : forall fl s c p ret s' evs,
  run fuel Reset fl s = Ok (ret, s', evs) -> content s -> normal_flush fl ->
  zc_iinv C (z_st (d_zs s)) c p ->
  let inp := z_inp (d_zs s) in
  exists chunks,
    content_run (hdr_type e (d_hdr s)) (d_cb s) (d_p s) chunks = Ok (d_cb s', d_p s', evs) /\
    content s' /\ same_frame s s' /\ data_ok chunks (d_bsz s) /\
    (inp = [] -> s' = s /\ chunks = [] /\ ret = 0%Z) /\
    (inp <> [] -> z_sel (d_zs s') = BUser /\ z_pos (d_zs s') + z_aout (d_zs s') = d_bsz s) /\
    ((ret = 0%Z /\ z_inp (d_zs s') = [] /\ zc_iinv C (z_st (d_zs s')) (c ++ inp) (p ++ cat chunks) /\
      (inp <> [] -> exists ch0 x t, chunks = ch0 ++ [(x, t)] /\ z_aout (d_zs s') = d_bsz s - lenN x) /\
      (inp <> [] -> 0 < z_aout (d_zs s') ->
         p ++ cat chunks = zc_dec C (c ++ inp) /\ zc_bad C (c ++ inp) = false)) \/
     (ret <> 0%Z /\ zc_stuck C (z_st (d_zs s')) /\ prefix (p ++ cat chunks) (zc_dec C (c ++ inp)) /\
      (exists u lost, prefix u inp /\ lenN lost <= d_bsz s /\
         zc_iinv C (z_st (d_zs s')) (c ++ u) (p ++ cat chunks ++ lost) /\
         (ret = Z_STREAM_END -> zc_fin C (c ++ u) = true /\ p ++ cat chunks ++ lost = zc_dec C (c ++ u))) /\
      ~ (zc_bad C (c ++ inp) = false /\ zc_fin C (c ++ inp) = false))).
Proof.
  induction fuel as [|fuel IH]; intros fl s c p ret s' evs H Hc Hf I inp; [discriminate|].
  destruct inp as [|b0 t0] eqn:Einp.
  - subst inp. rewrite run_inp_nil in H by assumption. injection H as <- <- <-.
    exists []. change (cat []) with (@nil Byte.byte). rewrite !app_nil_r.
    split; [reflexivity|]. split; [exact Hc|]. split; [apply same_frame_refl|]. split; [constructor|].
    split; [auto|]. split; [congruence|]. left. repeat split; auto; congruence.
  - assert (Hi : inp <> []) by (rewrite Einp; discriminate). rewrite <- Einp. clear b0 t0 Einp.
    destruct (run_content_step fl s c p Hc I Hi) as (s1 & m & Z1 & C1 & F1 & B1 & P1 & E).
    rewrite E in H; clear E. fold inp in Z1, H.
    set (r := inflate z (z_st (d_zs s)) fl inp (d_bsz s)) in *.
    destruct (zc_istep _ C _ _ _ _ _ _ r I eq_refl) as (S1 & S2 & S3).
    assert (Hb : 0 < d_bsz s) by (destruct Hc as (_ & _ & (m0 & _ & _ & ? & _)); assumption).
    destruct (negb (zr_ret r =? Z_OK)%Z) eqn:En.
    + injection H as <- <- <-.
      assert (Hne : zr_ret r <> Z_OK) by (destruct (Z.eqb_spec (zr_ret r) Z_OK); [discriminate|assumption]).
      exists []. cbn [content_run]. change (cat []) with (@nil Byte.byte). rewrite app_nil_r, B1, P1.
      split; [reflexivity|]. split; [exact C1|]. split; [exact F1|]. split; [constructor|].
      split; [congruence|]. split; [intros _; rewrite Z1; cbn; split; [reflexivity|lia]|].
      right. rewrite Z1. cbn [z_st].
      split; [exact Hne|]. split; [exact (zc_istop _ C _ _ _ _ _ _ r I Hf Hi Hb eq_refl Hne)|].
      split; [eapply prefix_trans; [exact (zc_iprefix _ C _ _ _ I)|apply (zc_dec_mono _ C)]|].
      split.
      { exists (takeN (zr_used r) inp), (zr_out r). split; [apply prefix_takeN|]. split; [exact S2|].
        split; [exact S3|]. intro Hend. exact (zc_iend _ C _ _ _ _ _ _ r I eq_refl Hend). }
      intros [V1 V2]. exact (Hne (zc_ivalid _ C _ _ _ _ _ _ r I Hf Hi Hb V1 V2 eq_refl)).
    + assert (Hok : zr_ret r = Z_OK) by (destruct (Z.eqb_spec (zr_ret r) Z_OK); [assumption|discriminate]).
      destruct (content_cb _ _ _ _ _) as [[[c1 p1] ev1]| |] eqn:Ecb; try discriminate H. cbn [obind] in H.
      destruct (run fuel Reset _ _) as [[[r3 s4] ev2]| |] eqn:E2; try discriminate H. cbn [obind] in H.
      injection H as <- <- <-.
      set (s2 := with_cb c1 (with_p p1 s1)) in *.
      assert (C2 : content s2).
      { destruct C1 as (_ & A & B). split; [|split; assumption]. cbn.
        eapply content_cb_not_header; [|exact Ecb]. apply Hc. }
      assert (F2 : same_frame s s2) by (destruct F1 as (? & ? & ? & ? & ? & ?); repeat split; cbn; assumption).
      assert (I2 : zc_iinv C (z_st (d_zs s2)) (c ++ takeN (zr_used r) inp) (p ++ zr_out r)).
      { change (d_zs s2) with (d_zs s1). rewrite Z1. exact S3. }
      assert (Inp2 : z_inp (d_zs s2) = dropN (zr_used r) inp) by (change (d_zs s2) with (d_zs s1); now rewrite Z1).
      assert (A2 : z_aout (d_zs s2) = d_bsz s - lenN (zr_out r)) by (change (d_zs s2) with (d_zs s1); now rewrite Z1).
      destruct (IH _ _ _ _ _ _ _ E2 C2 ltac:(unfold normal_flush, Z_NO_FLUSH; lia) I2)
        as (chunks & R & C4 & F4 & D4 & Nil & Zs & Cases). clear IH.
      rewrite Inp2 in *.
      rewrite <- !app_assoc, takeN_dropN in Cases.
      exists ((zr_out r, m) :: chunks).
      destruct F2 as (X1 & X2 & X3 & X4 & X5 & X6).
      rewrite X3, X2 in *. cbn [content_run]. rewrite Ecb. cbn [obind].
      change (d_cb s2) with c1 in R. change (d_p s2) with p1 in R. rewrite R. cbn [obind].
      split; [reflexivity|]. split; [exact C4|].
      split. { eapply same_frame_trans; [|exact F4]. repeat split; assumption. }
      split. { constructor; [exact S2|exact D4]. }
      split; [congruence|].
      split.
      { intros _. destruct (dropN (zr_used r) inp) as [|b t] eqn:Ed; [|apply Zs; discriminate].
        destruct (Nil eq_refl) as (-> & _). change (d_zs s2) with (d_zs s1). rewrite Z1. cbn. split; [reflexivity|lia]. }
      rewrite cat_cons.
      destruct Cases as [(Q1 & Q2 & Q3 & Q4 & Q5)|(Q1 & Q2 & Q3 & Q4 & Q5)].
      * left. split; [exact Q1|]. split; [exact Q2|]. split; [exact Q3|].
        split.
        { intros _. destruct (dropN (zr_used r) inp) as [|b t] eqn:Ed.
          - destruct (Nil eq_refl) as (-> & -> & _). exists [], (zr_out r), m. split; [reflexivity|exact A2].
          - destruct (Q4 ltac:(discriminate)) as (ch0 & x & t' & -> & Ea).
            exists ((zr_out r, m) :: ch0), x, t'. split; [reflexivity|exact Ea]. }
        intros _ Ha.
        destruct (dropN (zr_used r) inp) as [|b t] eqn:Ed.
        -- destruct (Nil eq_refl) as (-> & -> & _). change (cat []) with (@nil Byte.byte). rewrite app_nil_r.
           rewrite A2 in Ha.
           destruct (zc_icomplete _ C _ _ _ _ _ _ r I Hf eq_refl Hok ltac:(lia)) as (_ & K1 & K2). auto.
        -- apply Q5; [discriminate|exact Ha].
      * right. split; [exact Q1|]. split; [exact Q2|]. split; [exact Q3|]. split; [|exact Q5].
        destruct Q4 as (u & lost & U1 & U2 & U3 & U4).
        exists (takeN (zr_used r) inp ++ u), lost.
        rewrite <- !app_assoc in U3. rewrite <- !app_assoc in U4. rewrite <- !app_assoc. split.
        { rewrite <- (takeN_dropN _ (zr_used r) inp) at 2. now apply prefix_app_l. }
        split; [exact U2|]. split; [exact U3|exact U4].
Qed.

(** Nothing happens in a session whose stream has ended or failed. *)
Lemma do_inflate_frame fl s ret s1 : do_inflate fl s = Ok (ret, s1) ->
  d_cb s1 = d_cb s /\ d_p s1 = d_p s /\ d_bsel s1 = d_bsel s /\ d_bsz s1 = d_bsz s /\
  d_tmp s1 = d_tmp s /\ d_tmpsz s1 = d_tmpsz s /\ d_inited s1 = d_inited s /\
  (forall k, usable (d_ubuf s) k -> usable (d_ubuf s1) k) /\
  (zc_stuck C (z_st (d_zs s)) -> ret <> 0%Z /\ zc_stuck C (z_st (d_zs s1))) /\
  (z_sel (d_zs s) = BUser -> d_hdr s1 = d_hdr s) /\ lenN (d_hdr s1) = lenN (d_hdr s) /\
  z_sel (d_zs s1) = z_sel (d_zs s) /\
  (forall c p, zc_iinv C (z_st (d_zs s)) c p -> exists c' p', zc_iinv C (z_st (d_zs s1)) c' p').
Proof.
  unfold do_inflate. intro H.
  destruct (mem (z_sel (d_zs s)) s) as [m|] eqn:Em.
  2:{ injection H as <- <-. repeat split; auto; try discriminate. eauto. }
  set (r := inflate z (z_st (d_zs s)) fl (z_inp (d_zs s)) (z_aout (d_zs s))) in *.
  unfold checked_write in H.
  destruct (N.leb_spec (z_pos (d_zs s) + lenN (zr_out r)) (lenN m)) as [Hl|Hl]; [|discriminate].
  cbn [obind] in H. injection H as <- <-.
  assert (St : zc_stuck C (z_st (d_zs s)) -> zr_ret r <> 0%Z /\ zc_stuck C (zr_st r)).
  { intro St. exact (zc_istuck _ C _ _ _ _ r St eq_refl). }
  assert (Iv : forall c p, zc_iinv C (z_st (d_zs s)) c p -> exists c' p', zc_iinv C (zr_st r) c' p').
  { intros c p I. destruct (zc_istep _ C _ _ _ _ _ _ r I eq_refl) as (_ & _ & K). eauto. }
  destruct (z_sel (d_zs s)) eqn:Es; cbn in *.
  - injection Em as <-. repeat split; auto; try (now intros); try tauto; try (apply St; assumption).
    rewrite lenN_write_at by assumption. reflexivity.
  - repeat split; auto; try tauto; try (apply St; assumption).
    intros k (m' & E1 & E2 & E3). rewrite Em in E1. injection E1 as <-.
    eexists. split; [reflexivity|]. rewrite lenN_write_at by assumption. auto.
Qed.

Lemma run_stuck_spec fuel : forall m fl s ret s' evs,
  run fuel m fl s = Ok (ret, s', evs) -> zc_stuck C (z_st (d_zs s)) ->
  evs = [] /\ zc_stuck C (z_st (d_zs s')) /\
  d_cb s' = d_cb s /\ d_p s' = d_p s /\ d_bsel s' = d_bsel s /\ d_bsz s' = d_bsz s /\
  d_tmp s' = d_tmp s /\ d_tmpsz s' = d_tmpsz s /\ d_inited s' = d_inited s /\
  (forall k, usable (d_ubuf s) k -> usable (d_ubuf s') k) /\
  lenN (d_hdr s') = lenN (d_hdr s) /\
  (z_sel (d_zs s) = BUser -> d_bsel s = BUser -> d_hdr s' = d_hdr s /\ z_sel (d_zs s') = BUser) /\
  (m = Reset -> d_bsel s = BUser -> d_hdr s' = d_hdr s) /\
  (forall c p, zc_iinv C (z_st (d_zs s)) c p -> exists c' p', zc_iinv C (z_st (d_zs s')) c' p') /\
  (z_inp (d_zs s) <> [] -> m = Reset \/ 0 < z_aout (d_zs s) -> ret <> 0%Z).
Proof.
  intros m fl s ret s' evs H St. destruct fuel as [|fuel]; [discriminate|].
  cbn [Decompress.run] in H.
  destruct (_ || _) eqn:Ez.
  - injection H as <- <- <-. repeat split; auto; try tauto; eauto.
    intros Hi Hm. destruct (z_inp (d_zs s)) eqn:Ei; [congruence|]. rewrite lenN_cons in Ez.
    destruct m; destruct Hm as [Hm|Hm]; try discriminate; lia.
  - set (s0 := match m with Reset => setup s | NoTouch => s end) in *.
    destruct (do_inflate fl s0) as [[r1 s1]| |] eqn:E; try discriminate H. cbn [obind] in H.
    destruct (do_inflate_frame _ _ _ _ E) as (A1 & A2 & A3 & A4 & A5 & A6 & A7 & A8 & A9 & A10 & A11 & A12 & A13).
    assert (St0 : zc_stuck C (z_st (d_zs s0))) by (subst s0; destruct m; exact St).
    destruct (A9 St0) as [Hr St1].
    destruct (negb (r1 =? Z_OK)%Z) eqn:En.
    2:{ exfalso. apply Hr. destruct (Z.eqb_spec r1 Z_OK); [assumption|discriminate]. }
    injection H as <- <- <-.
    assert (Ub : forall k, usable (d_ubuf s) k -> usable (d_ubuf s0) k) by (subst s0; destruct m; auto).
    assert (Iv0 : z_st (d_zs s0) = z_st (d_zs s)) by (subst s0; destruct m; reflexivity).
    assert (Fr : d_cb s0 = d_cb s /\ d_p s0 = d_p s /\ d_bsel s0 = d_bsel s /\ d_bsz s0 = d_bsz s /\
      d_tmp s0 = d_tmp s /\ d_tmpsz s0 = d_tmpsz s /\ d_inited s0 = d_inited s /\ d_hdr s0 = d_hdr s).
    { subst s0; destruct m; repeat split. }
    destruct Fr as (B1 & B2 & B3 & B4 & B5 & B6 & B7 & B8).
    rewrite Iv0 in A13.
    split; [reflexivity|]. split; [exact St1|].
    do 7 (split; [congruence|]). split; [auto|]. split; [congruence|].
    split.
    { intros Hs Hb.
      assert (Hs0 : z_sel (d_zs s0) = BUser) by (subst s0; destruct m; [cbn; assumption|assumption]).
      split; [rewrite A10 by assumption; exact B8|now rewrite A12]. }
    split.
    { intros -> Hb. rewrite A10; [exact B8|]. subst s0. cbn. exact Hb. }
    split; [exact A13|]. intros _ _. exact Hr.
Qed.

(** ** Termination and absence of undefined behaviour *)

Definition cwf (c : cbk) (p : pst) : Prop :=
  match c with CbDir => pwf e p | CbV0 => lenN (p_img p) = ITEM_SIZE | _ => True end.

Lemma lenN_init_img m : lenN m = ITEM_SIZE -> lenN (put_ctype CT_SINGLE_BLOB (write_at 0 (zeros 28) m)) = ITEM_SIZE.
Proof.
  unfold ITEM_SIZE. intro H.
  assert (L : lenN (write_at 0 (zeros 28) m) = 40) by (rewrite lenN_write_at; rewrite ?lenN_zeros; lia).
  rewrite lenN_put_ctype; lia.
Qed.

Lemma v0_begin_pwf p typ c1 p1 evs : lenN (p_img p) = ITEM_SIZE ->
  v0_begin typ p = (Some c1, p1, evs) -> c1 = CbDir /\ pwf e p1 \/ c1 = CbBlob.
Proof.
  intros Hl H. unfold v0_begin in H. destruct (typ =? ContentDirectory).
  - injection H as <- <- <-. left. split; [reflexivity|]. split.
    + cbn [set_sec p_img]. now apply lenN_init_img.
    + right. cbn. unfold ITEM_SIZE, two64. lia.
  - destruct (_ || _); [|discriminate]. injection H as <- <- <-. now right.
Qed.

Lemma content_cb_ok typ c p d t : c <> CbHeader -> cwf c p ->
  exists c' p' evs, content_cb typ c p d t = Ok (c', p', evs) /\ cwf c' p'.
Proof.
  intros Hc W. unfold Decompress.content_cb. destruct c; try congruence.
  - cbn [Decompress.leaf_cb obind]. do 3 eexists. split; [reflexivity|]. first [exact W2 | exact I].
  - destruct (v0_begin typ p) as [[oc p1] evs] eqn:E. cbn [cwf] in W.
    destruct oc as [c1|].
    + destruct (v0_begin_pwf _ _ _ _ _ W E) as [(-> & W1)| -> ].
      * cbn [Decompress.leaf_cb]. destruct (parse_ok e alloc t p1 d W1) as (p2 & ev2 & -> & W2). cbn [obind]. do 3 eexists. split; [reflexivity|]. first [exact W2 | exact I].
      * cbn [Decompress.leaf_cb obind]. do 3 eexists. split; [reflexivity|]. first [exact W2 | exact I].
    + eexists _, _, _. split; [reflexivity|]. cbn [cwf].
      unfold v0_begin in E. destruct (_ =? _); [discriminate|]. destruct (_ || _); [discriminate|].
      injection E as <- <-. cbn [set_err p_img]. now apply lenN_init_img.
  - cbn [Decompress.leaf_cb]. destruct (parse_ok e alloc t p d W) as (p2 & ev2 & -> & W2). cbn [obind]. do 3 eexists. split; [reflexivity|]. first [exact W2 | exact I].
  - cbn [Decompress.leaf_cb obind]. do 3 eexists. split; [reflexivity|]. first [exact W2 | exact I].
Qed.

Lemma run_content_total : forall n k fl s c p,
  (length (z_inp (d_zs s)) <= n)%nat -> (zc_ipend C (z_st (d_zs s)) <= k)%nat ->
  content s -> cwf (d_cb s) (d_p s) -> zc_iinv C (z_st (d_zs s)) c p ->
  exists fuel ret s' evs, run fuel Reset fl s = Ok (ret, s', evs) /\ cwf (d_cb s') (d_p s') /\
    content s' /\ (exists c' p', zc_iinv C (z_st (d_zs s')) c' p').
Proof.
  induction n as [n IHn] using (well_founded_induction Wf_nat.lt_wf).
  induction k as [k IHk] using (well_founded_induction Wf_nat.lt_wf).
  intros fl s c p Hn Hk Hc W I.
  destruct (z_inp (d_zs s)) as [|b0 t0] eqn:Ei.
  { exists 1%nat. rewrite run_inp_nil by assumption. eauto 10. }
  assert (Hi : z_inp (d_zs s) <> []) by congruence.
  destruct (zc_istep _ C _ _ _ _ _ _ _ I (eq_refl (inflate z (z_st (d_zs s)) fl (z_inp (d_zs s)) (d_bsz s)))) as (S1 & S2 & S3).
  destruct (run_content_step fl s c p Hc I Hi) as (s1 & m & Z1 & C1 & F1 & B1 & P1 & E).
  set (r := inflate z (z_st (d_zs s)) fl (z_inp (d_zs s)) (d_bsz s)) in *.
  destruct (negb (zr_ret r =? Z_OK)%Z) eqn:En.
  { exists 1%nat. rewrite E. do 3 eexists. split; [reflexivity|]. rewrite B1, P1. split; [exact W|]. split; [exact C1|].
    rewrite Z1. cbn [z_st]. eauto. }
  assert (Hok : zr_ret r = Z_OK) by (destruct (Z.eqb_spec (zr_ret r) Z_OK); [assumption|discriminate]).
  destruct (content_cb_ok (hdr_type e (d_hdr s)) (d_cb s) (d_p s) (zr_out r) m) as (c1 & p1 & ev1 & Ec & W1); [apply Hc|exact W|].
  set (s2 := with_cb c1 (with_p p1 s1)).
  assert (C2 : content s2).
  { destruct C1 as (_ & A & B). split; [|split; assumption]. cbn.
    eapply content_cb_not_header; [|exact Ec]. apply Hc. }
  assert (Z2 : d_zs s2 = d_zs s1) by reflexivity.
  assert (I2 : zc_iinv C (z_st (d_zs s2)) (c ++ takeN (zr_used r) (z_inp (d_zs s))) (p ++ zr_out r)).
  { rewrite Z2, Z1. exact S3. }
  assert (L2 : length (z_inp (d_zs s2)) = (length (z_inp (d_zs s)) - N.to_nat (zr_used r))%nat).
  { rewrite Z2, Z1. cbn [z_inp]. pose proof (lenN_dropN _ (zr_used r) (z_inp (d_zs s))) as Q. unfold lenN in Q. lia. }
  assert (R : exists fuel ret s' evs, run fuel Reset Z_NO_FLUSH s2 = Ok (ret, s', evs) /\ cwf (d_cb s') (d_p s') /\
    content s' /\ (exists c' p', zc_iinv C (z_st (d_zs s')) c' p')).
  { unfold lenN in S1.
    destruct (zc_iprogress _ C _ _ _ _ _ _ _ I eq_refl Hok) as [Hu|Hp].
    - refine (IHn (length (z_inp (d_zs s2))) _ (zc_ipend C (z_st (d_zs s2))) _ _ _ _ (le_n _) (le_n _) C2 W1 I2).
      fold r in Hu. rewrite L2, Ei. cbn [length] in *. lia.
    - assert (Hp2 : (zc_ipend C (z_st (d_zs s2)) < k)%nat) by (rewrite Z2, Z1; cbn [z_st]; fold r in Hp; lia).
      refine (IHk _ Hp2 _ _ _ _ _ (le_n _) C2 W1 I2). rewrite L2, Ei. lia. }
  destruct R as (fuel & ret & s' & evs & R & W').
  exists (S fuel).
  rewrite E, Ec. cbn [obind]. fold s2. rewrite R. cbn [obind]. eauto 8.
Qed.

(** ** Histories of the low level API *)

(** Bytes handed to the user's callbacks, and bytes passed in. *)
Definition raw_bytes (evs : list event) : bytes :=
  concat (map (fun ev => match ev with EvRaw _ d => d | _ => [] end) evs).
Definition fed (ops : list llop) : bytes :=
  concat (map (fun op => match op with LFeed _ d => d | _ => [] end) ops).

(** Admissible calls: data shorter than 4 GiB with a flush value other than Z_FINISH, Z_BLOCK,
    Z_TREES; buffers of at least one byte. *)
Definition llop_ok (op : llop) : Prop :=
  match op with
  | LFeed f d => normal_flush f /\ lenN d < two32
  | LSetBuffer b n => usable b n
  | LSetCallback _ => True
  end.

(** The callback and the buffer size in force at each decompress call. *)
Fixpoint ll_settings (id n : N) (ops : list llop) : list (N * N) :=
  match ops with
  | [] => []
  | LFeed _ _ :: r => (id, n) :: ll_settings id n r
  | LSetBuffer _ k :: r => ll_settings id k r
  | LSetCallback i :: r => ll_settings i n r
  end.

(** The callbacks of one call: all to [id], each with at most [n] bytes. *)
Definition ll_obeys (set : N * N) (evs : list event) : Prop :=
  forall ev, In ev evs -> exists d, ev = EvRaw (fst set) d /\ lenN d <= snd set.

Lemma raw_bytes_app a b : raw_bytes (a ++ b) = raw_bytes a ++ raw_bytes b.
Proof. unfold raw_bytes. now rewrite map_app, concat_app. Qed.
Lemma fed_app a b : fed (a ++ b) = fed a ++ fed b.
Proof. unfold fed. now rewrite map_app, concat_app. Qed.

Lemma content_run_user typ id p : forall chunks,
  content_run typ (CbUser id) p chunks = Ok (CbUser id, p, map (fun ch => EvRaw id (fst ch)) chunks).
Proof.
  induction chunks as [|[d t] r IH]; [reflexivity|].
  cbn [content_run Decompress.content_cb Decompress.leaf_cb obind]. rewrite IH. reflexivity.
Qed.

Lemma raw_bytes_user id chunks : raw_bytes (map (fun ch => EvRaw id (fst ch)) chunks) = cat chunks.
Proof.
  induction chunks as [|[d t] r IH]; [reflexivity|].
  cbn [map]. unfold raw_bytes in *. cbn [map concat]. rewrite IH. reflexivity.
Qed.

Definition user_cb (s : dsess z) (id : N) : Prop := d_cb s = CbUser id.

(** State of a low level session after the bytes [F] were passed in and [D] delivered:
    working ([true]) or ended/failed ([false]). *)
Definition ll_inv (s : dsess z) (F D : bytes) (w : bool) : Prop :=
  d_bsel s = BUser /\ usable (d_ubuf s) (d_bsz s) /\ (exists id, d_cb s = CbUser id) /\
  prefix D (zc_dec C F) /\
  (exists c p, zc_iinv C (z_st (d_zs s)) c p) /\
  (if w then zc_iinv C (z_st (d_zs s)) F D else zc_stuck C (z_st (d_zs s))).

Lemma feed_frame d (s : dsess z) : d_bsel (feed d s) = d_bsel s /\ d_bsz (feed d s) = d_bsz s /\
  d_ubuf (feed d s) = d_ubuf s /\ d_cb (feed d s) = d_cb s /\ z_st (d_zs (feed d s)) = z_st (d_zs s) /\
  (lenN d < two32 -> z_inp (d_zs (feed d s)) = d).
Proof.
  repeat split. intro H. cbn. apply takeN_all. unfold u32, two32 in *. lia.
Qed.

Lemma ll_decompress_spec fuel f d s F D w ret s' evs :
  ll_decompress e alloc fuel f d s = Ok (ret, s', evs) -> ll_inv s F D w ->
  normal_flush f -> lenN d < two32 -> forall id, d_cb s = CbUser id ->
  d_cb s' = CbUser id /\ d_bsz s' = d_bsz s /\
  ll_obeys (id, d_bsz s) evs /\
  ll_inv s' (F ++ d) (D ++ raw_bytes evs) (w && (ret =? 0)%Z) /\
  (d = [] -> ret = 0%Z /\ evs = []) /\
  (w = false -> evs = [] /\ (d <> [] -> ret <> 0%Z)) /\
  (w = true -> zc_bad C (F ++ d) = false -> zc_fin C (F ++ d) = false -> ret = 0%Z) /\
  (w = true -> ret = 0%Z -> d <> [] ->
     exists evs1 x, evs = evs1 ++ [EvRaw id x] /\
     (lenN x < d_bsz s -> D ++ raw_bytes evs = zc_dec C (F ++ d) /\ zc_bad C (F ++ d) = false)) /\
  (w = true -> ret = Z_STREAM_END ->
     exists lost, lenN lost <= d_bsz s /\ D ++ raw_bytes evs ++ lost = zc_dec C (F ++ d)).
Proof.
  intros H (B & U & _ & Pf & Iv & W) Hf Hd id Hid. unfold ll_decompress in H.
  destruct (feed_frame d s) as (A1 & A2 & A3 & A4 & A5 & A6). specialize (A6 Hd).
  destruct w.
  - assert (Hc : content (feed d s)).
    { split; [rewrite A4, Hid; discriminate|]. split; [now rewrite A1|]. now rewrite A3, A2. }
    rewrite <- A5 in W.
    destruct (run_content_spec _ _ _ _ _ _ _ _ H Hc Hf W) as (chunks & R & C' & Fr & Dk & Nil & _ & Cases).
    rewrite A6 in *. rewrite A4, Hid, content_run_user in R.
    assert (Ecb : d_cb s' = CbUser id) by congruence.
    assert (Eev : evs = map (fun ch => EvRaw id (fst ch)) chunks) by congruence.
    destruct Fr as (F1 & F2 & _). rewrite A2 in *.
    assert (Eraw : raw_bytes evs = cat chunks) by (rewrite Eev; apply raw_bytes_user).
    split; [exact Ecb|]. split; [exact F2|]. split.
    { intros ev Hev. rewrite Eev in Hev. apply in_map_iff in Hev. destruct Hev as (ch & <- & Hin).
      exists (fst ch). split; [reflexivity|]. unfold data_ok in Dk. rewrite Forall_forall in Dk. exact (Dk _ Hin). }
    rewrite Eraw. destruct C' as (_ & C2 & C3). rewrite F2 in C3.
    split.
    { split; [exact C2|]. rewrite F2. split; [exact C3|]. split; [eauto|].
      destruct Cases as [(Q1 & Q2 & Q3 & Q4 & Q5)|(Q1 & Q2 & Q3 & Q4 & Q5)].
      - rewrite Q1. cbn. split; [exact (zc_iprefix _ C _ _ _ Q3)|]. split; [eauto|exact Q3].
      - destruct (Z.eqb_spec ret 0) as [|_]; [congruence|]. cbn. split; [exact Q3|]. split; [|exact Q2].
        destruct Q4 as (u & lost & _ & _ & I4 & _). eauto. }
    split. { intros ->. destruct (Nil eq_refl) as (_ & -> & ->). now rewrite Eev. }
    split; [discriminate|].
    split.
    { intros _ V1 V2. destruct Cases as [(Q1 & _)|(_ & _ & _ & _ & Q5)]; [exact Q1|tauto]. }
    split.
    { intros _ H0 Hne. destruct Cases as [(Q1 & Q2 & Q3 & Q4 & Q5)|(Q1 & _)]; [|congruence].
      destruct (Q4 Hne) as (ch0 & x & t & Ech & Ea).
      exists (map (fun ch => EvRaw id (fst ch)) ch0), x. split; [rewrite Eev, Ech, map_app; reflexivity|].
      intro Hx. apply Q5; [assumption|]. rewrite Ea. lia. }
    intros _ Hend. destruct Cases as [(Q1 & _)|(_ & _ & _ & Q4 & _)]; [subst ret; discriminate Hend|].
    destruct Q4 as (u & lost & [v U1] & U2 & _ & U4). destruct (U4 Hend) as [V1 V2].
    exists lost. split; [exact U2|]. rewrite V2, U1, app_assoc. symmetry. now apply (zc_fin_dec _ C).
  - rewrite <- A5 in W.
    destruct (run_stuck_spec _ _ _ _ _ _ _ H W) as
      (-> & S1 & S2 & S3 & S4 & S5 & _ & _ & _ & S6 & _ & _ & _ & S7 & S8).
    rewrite A6 in *.
    split; [congruence|]. split; [congruence|]. split; [intros ev []|].
    cbn [andb]. split.
    { split; [congruence|]. split; [rewrite S5, A2; apply S6; now rewrite A3|].
      split; [exists id; congruence|]. rewrite app_nil_r.
      split; [eapply prefix_trans; [exact Pf|apply (zc_dec_mono _ C)]|].
      split; [|exact S1]. destruct Iv as (c & p & I). rewrite <- A5 in I. exact (S7 _ _ I). }
    split.
    { intros ->. destruct fuel as [|fuel]; [discriminate|]. rewrite run_inp_nil in H by assumption.
      split; congruence. }
    split; [intros _; split; [reflexivity|]; intro Hne; apply S8; auto|].
    repeat split; discriminate.
Qed.

(** Admissible buffer and callback changes keep the invariant. *)
Lemma ll_set_buffer_inv s F D w b n : ll_inv s F D w -> usable b n -> ll_inv (ll_set_buffer b n s) F D w.
Proof.
  intros (B & U & I & Pf & Iv & W) Hu. split; [reflexivity|]. split.
  { cbn. destruct Hu as (m & -> & H1 & H2 & H3). exists m. unfold u32, two32 in *. split; [reflexivity|]. lia. }
  split; [exact I|]. split; [exact Pf|]. split; [exact Iv|exact W].
Qed.

Lemma run_llops_spec fuel : forall ops s F D w rets s' evs id,
  run_llops e alloc fuel s ops = Ok (rets, s', evs) -> ll_inv s F D w -> d_cb s = CbUser id -> Forall llop_ok ops ->
  (exists w', ll_inv s' (F ++ fed ops) (D ++ raw_bytes evs) w' /\
     (w = true -> Forall (fun r => r = 0%Z) rets -> w' = true)) /\
  (w = true -> zc_bad C (F ++ fed ops) = false -> zc_fin C (F ++ fed ops) = false -> Forall (fun r => r = 0%Z) rets) /\
  (w = false -> evs = []) /\
  exists evss, evs = concat evss /\ Forall2 ll_obeys (ll_settings id (d_bsz s) ops) evss.
Proof.
  induction ops as [|op ops IH]; intros s F D w rets s' evs id H I Hid Ho.
  - cbn in H. injection H as <- <- <-. cbn. rewrite !app_nil_r.
    split; [exists w; auto|]. split; [constructor|]. split; [reflexivity|]. exists []. split; [reflexivity|constructor].
  - inversion Ho as [|? ? O1 O2]; subst.
    destruct op as [f d|b n|i]; cbn [run_llops] in H.
    + destruct (ll_decompress e alloc fuel f d s) as [[[r1 s1] ev1]| |] eqn:E; try discriminate H. cbn [obind] in H.
      destruct (run_llops e alloc fuel s1 ops) as [[[rs s2] ev2]| |] eqn:E2; try discriminate H. cbn [obind] in H.
      injection H as <- <- <-. destruct O1 as [Hf Hd].
      destruct (ll_decompress_spec _ _ _ _ _ _ _ _ _ _ E I Hf Hd _ Hid) as (C1 & B1 & Ob & I1 & _ & St & Va & _ & _).
      destruct (IH _ _ _ _ _ _ _ _ E2 I1 C1 O2) as ((w' & I2 & W2) & V2 & N2 & (evss & -> & Obs)).
      cbn [fed map concat]. change (concat (map _ ops)) with (fed ops).
      rewrite raw_bytes_app, !app_assoc.
      split; [exists w'; split; [exact I2|]|].
      { intros -> Hr. inversion Hr as [|? ? R1 R2]; subst. apply W2; [reflexivity|assumption]. }
      split.
      { intros -> V3 V4. rewrite <- !app_assoc in *.
        assert (Hb : zc_bad C (F ++ d) = false).
        { destruct (zc_bad C (F ++ d)) eqn:Q; [|reflexivity].
          rewrite app_assoc in V3. now rewrite (zc_bad_mono _ C _ (fed ops) Q) in V3. }
        assert (Hfi : zc_fin C (F ++ d) = false).
        { destruct (zc_fin C (F ++ d)) eqn:Q; [|reflexivity].
          rewrite app_assoc in V4. now rewrite (zc_fin_mono _ C _ (fed ops) Q) in V4. }
        rewrite (Va eq_refl Hb Hfi) in *. constructor; [reflexivity|].
        apply V2; auto. }
      split. { intros ->. destruct (St eq_refl) as [-> _]. now rewrite N2. }
      exists (ev1 :: evss). split; [reflexivity|]. cbn [ll_settings]. constructor; [exact Ob|]. now rewrite B1 in Obs.
    + destruct (IH _ _ _ _ _ _ _ _ H (ll_set_buffer_inv _ _ _ _ _ _ I O1) Hid O2) as (Q1 & Q2 & Q3 & Q4).
      cbn [fed map concat app]. change (concat (map _ ops)) with (fed ops).
      split; [exact Q1|]. split; [exact Q2|]. split; [exact Q3|]. cbn [ll_settings].
      assert (En : d_bsz (ll_set_buffer b n s) = n).
      { cbn. destruct O1 as (m & _ & _ & _ & H3). unfold u32, two32 in *. lia. }
      now rewrite En in Q4.
    + assert (I1 : ll_inv (ll_set_callback i s) F D w).
      { destruct I as (B & U & _ & Pf & Iv & W). split; [exact B|]. split; [exact U|]. split; [exists i; reflexivity|]. auto. }
      exact (IH _ _ _ _ _ _ _ _ H I1 eq_refl O2).
Qed.

End Proofs.
