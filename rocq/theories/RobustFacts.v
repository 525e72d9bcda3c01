(** RobustFacts.v: what sessions and extraction do when something fails. *)
From Coq Require Import Lia.
From Verif Require Import Base Format Zlib LLCompress Compress Parser ParserProofs Decompress DecompressProofs MidProofs MidFacts
  ArchiveSpec ArchiveFacts ArchiveDecode ArchiveEntry ArchiveProps
  FS FSFacts HL HLFacts HLDrive HLProps HLSafe HLTame HLMore.
From Verif Require Import HaltFacts.

Section Robust.
Context (z : zlib) (C : zlib_contract z) (e : endian) (alloc : N -> N -> bool).
Notation run := (run e alloc).

(** ** Return values *)

(** Before the header is recognised inflate writes to the header. *)
Definition sel_ok (s : dsess z) : Prop := d_inited s = false -> z_sel (d_zs s) = BHdr /\ d_bsel s = BHdr.

(** A call that returned a code other than 0 has met the end of the stream or an error. *)
Lemma run_facts fuel : forall m fl s ret s' evs, jinv z C e s -> normal_flush fl -> sel_ok s ->
  (m = NoTouch -> z_sel (d_zs s) = BHdr \/ zc_stuck C (z_st (d_zs s)) \/ z_inp (d_zs s) = []) ->
  run fuel m fl s = Ok (ret, s', evs) ->
  jinv z C e s' /\ sel_ok s' /\ (ret <> 0%Z -> zc_stuck C (z_st (d_zs s'))) /\
  (m = Reset -> zc_stuck C (z_st (d_zs s')) \/ z_inp (d_zs s') = []) /\
  (d_inited s = true -> d_inited s' = true).
Proof.
  assert (Hf0 : normal_flush Z_NO_FLUSH) by (unfold normal_flush, Z_NO_FLUSH; lia).
  induction fuel as [|fuel IH]; intros m fl s ret s' evs J Hf So Hm H; [discriminate|]. cbn [Decompress.run] in H.
  destruct ((lenN (z_inp (d_zs s)) =? 0) || match m with NoTouch => z_aout (d_zs s) =? 0 | Reset => false end) eqn:Ez.
  { injection H as <- <- <-. split; [exact J|]. split; [exact So|]. split; [congruence|]. split; [|auto]. intros ->. right. rewrite orb_false_r in Ez.
    destruct (z_inp (d_zs s)); [reflexivity|]. rewrite lenN_cons in Ez. lia. }
  set (s0 := match m with Reset => setup s | NoTouch => s end) in *.
  assert (J0 : jinv z C e s0) by (subst s0; destruct m; exact J).
  assert (So0 : sel_ok s0). { subst s0; destruct m; [|exact So]. intro Q. cbn. destruct (So Q). auto. }
  assert (I0 : z_inp (d_zs s0) = z_inp (d_zs s) /\ z_st (d_zs s0) = z_st (d_zs s) /\ d_inited s0 = d_inited s) by (subst s0; destruct m; auto).
  destruct I0 as (I0 & S0 & N0).
  assert (Hi : z_inp (d_zs s) <> []). { intro Q. rewrite Q in Ez. discriminate Ez. }
  assert (Hi0 : z_inp (d_zs s0) <> []) by (rewrite I0; exact Hi).
  assert (Hm0 : m = Reset \/ z_sel (d_zs s0) = BHdr \/ zc_stuck C (z_st (d_zs s0))).
  { destruct m; [auto|right]. subst s0. destruct (Hm eq_refl) as [Q|[Q|Q]]; [auto|auto|contradiction]. }
  assert (Ha : 0 < z_aout (d_zs s0)).
  { subst s0; destruct m.
    - destruct J as (_ & U & B & _). cbn. destruct (d_bsel s) eqn:Eb; [now apply B|]. destruct (U eq_refl) as (? & ? & ? & ? & ?). assumption.
    - apply orb_false_elim in Ez. lia. }
  destruct (do_inflate fl s0) as [[r1 s1]| |] eqn:E; try discriminate H. cbn [obind] in H.
  pose proof (jinv_inflate _ _ _ _ _ _ _ J0 E) as J1.
  destruct (do_inflate_frame z C fl s0 r1 s1 E) as (A1 & A2 & A3 & A4 & A5 & A6 & A7 & A8 & A9 & _ & _ & A12 & _).
  assert (St : r1 <> Z_OK -> zc_stuck C (z_st (d_zs s1))).
  { intro Hr. destruct Hm0 as [Hm0|[Hm0|Hm0]]; [| |now apply A9].
    - destruct J0 as ((c & p & Iv) & U & B & _). unfold do_inflate in E. destruct (mem (z_sel (d_zs s0)) s0) as [mm|] eqn:Em.
      + set (r := inflate z (z_st (d_zs s0)) fl (z_inp (d_zs s0)) (z_aout (d_zs s0))) in *.
        unfold checked_write in E. destruct (_ <=? _); [|discriminate]. cbn [obind] in E. injection E as <- <-.
        cbn [d_zs with_zs set_mem z_st]. exact (zc_istop _ C _ _ _ _ _ _ r Iv Hf Hi0 Ha eq_refl Hr).
      + exfalso. subst m s0. cbn [setup with_zs d_zs z_sel] in Em.
        destruct (d_bsel s) eqn:Eb; [discriminate Em|]. destruct (U Eb) as (? & Q & _). cbn in Em, Q. congruence.
    - destruct J0 as ((c & p & Iv) & U & B & _). unfold do_inflate in E. rewrite Hm0 in E. cbn [mem] in E.
      set (r := inflate z (z_st (d_zs s0)) fl (z_inp (d_zs s0)) (z_aout (d_zs s0))) in *.
      unfold checked_write in E. destruct (_ <=? _); [|discriminate]. cbn [obind] in E. injection E as <- <-.
      cbn [d_zs with_zs set_mem z_st]. exact (zc_istop _ C _ _ _ _ _ _ r Iv Hf Hi0 Ha eq_refl Hr). }
  assert (So1 : sel_ok s1). { unfold sel_ok. rewrite A7, A12, A3. exact So0. }
  destruct (Z.eqb_spec r1 Z_OK) as [Hok|Hne].
  2:{ cbn [negb] in H. injection H as <- <- <-. split; [exact J1|]. split; [exact So1|]. split; [auto|]. split; [auto|]. congruence. }
  assert (Hm1 : m = NoTouch -> z_sel (d_zs s1) = BHdr \/ zc_stuck C (z_st (d_zs s1)) \/ z_inp (d_zs s1) = []).
  { intros ->. destruct Hm0 as [Q|[Q|Q]]; [discriminate|left; congruence|right; left; now apply A9]. }
  cbn [negb] in H.
  match type of H with obind ?x _ = _ => destruct x as [[s3 ev3]| |] eqn:E3; try discriminate H end. cbn [obind] in H.
  destruct (run fuel m Z_NO_FLUSH s3) as [[[r4 s4] ev4]| |] eqn:E4; try discriminate H. cbn [obind] in H. injection H as <- <- <-.
  assert (K : jinv z C e s3 /\ sel_ok s3 /\ (m = NoTouch -> z_sel (d_zs s3) = BHdr \/ zc_stuck C (z_st (d_zs s3)) \/ z_inp (d_zs s3) = []) /\
              (d_inited s = true -> d_inited s3 = true)).
  { clear E4. destruct (d_cb s1) eqn:Ec.
    2:{ destruct (header_begin e s1) as [[again s2]| |] eqn:Eh; try discriminate E3. cbn [obind] in E3.
        destruct (jinv_header _ _ _ _ _ _ J1 Ec Eh) as [J2 Z2].
        assert (Q2 : sel_ok s2 /\ (d_inited s1 = true -> d_inited s2 = true)).
        { clear - Eh So1. unfold header_begin in Eh. cbv zeta in Eh.
          repeat match type of Eh with (if ?b then _ else _) = _ => destruct b end; try discriminate Eh; injection Eh as <- <-; auto;
          split; try reflexivity; intro Q; discriminate Q. }
        destruct Q2 as [So2 N2]. destruct again.
        - destruct (run fuel Reset Z_NO_FLUSH s2) as [[[r5 s5] ev5]| |] eqn:E5; try discriminate E3. cbn [obind] in E3. injection E3 as <- <-.
          destruct (IH Reset _ s2 _ _ _ J2 Hf0 So2 ltac:(discriminate) E5) as (K1 & K2 & _ & K4 & K5).
          split; [exact K1|]. split; [exact K2|]. split; [intros _; destruct (K4 eq_refl); auto|]. intro Q. apply K5, N2. congruence.
        - injection E3 as <- <-. split; [exact J2|]. split; [exact So2|]. split; [rewrite Z2; exact Hm1|]. intro Q. apply N2. congruence. }
    all: destruct (cb_data s1) as [data tail];
      match type of E3 with obind ?x _ = _ => destruct x as [[[c' p'] ev']| |] eqn:E5; try discriminate E3 end; cbn [obind] in E3;
      injection E3 as <- <-;
      (assert (Hn : c' <> CbHeader) by (eapply content_cb_not_header; [|exact E5]; congruence));
      destruct J1 as (K1 & K2 & K3 & K4 & K5); rewrite Ec in K5;
      (destruct (content_cb_ok e alloc (hdr_type e (d_hdr s1)) (d_cb s1) (d_p s1) data tail) as (c2 & p2 & ev2 & Eb & W); [congruence|rewrite Ec; apply K5; congruence|]);
      rewrite Ec, E5 in Eb; injection Eb as <- <- <-;
      (split; [split; [exact K1|]; split; [exact K2|]; split; [exact K3|]; split; [intro Q; contradiction|intros _; exact W]|]);
      (split; [exact So1|]); (split; [exact Hm1|]); cbn; congruence. }
  destruct K as (K1 & K2 & K3 & K4).
  destruct (IH _ _ _ _ _ _ K1 Hf0 K2 K3 E4) as (L1 & L2 & L3 & L4 & L5).
  split; [exact L1|]. split; [exact L2|]. split; [exact L3|]. split; [exact L4|]. auto.
Qed.

Lemma decompress_facts fuel fl d s ret s' evs : jinv z C e s -> normal_flush fl -> sel_ok s ->
  decompress e alloc fuel fl d s = Ok (ret, s', evs) ->
  jinv z C e s' /\ sel_ok s' /\ (ret <> 0%Z -> zc_stuck C (z_st (d_zs s'))) /\ (d_inited s = true -> d_inited s' = true).
Proof.
  assert (Hf0 : normal_flush Z_NO_FLUSH) by (unfold normal_flush, Z_NO_FLUSH; lia).
  intros J Hf So H. unfold decompress in H. destruct (d_inited s) eqn:En.
  - destruct (run_facts _ Reset _ (feed d s) _ _ _ J Hf0 So ltac:(discriminate) H) as (A & B & D & _ & F). auto.
  - assert (Q : NoTouch = NoTouch -> z_sel (d_zs (feed d s)) = BHdr \/ zc_stuck C (z_st (d_zs (feed d s))) \/ z_inp (d_zs (feed d s)) = []).
    { intros _. left. exact (proj1 (So En)). }
    destruct (run_facts _ _ _ (feed d s) _ _ _ J Hf So Q H) as (A & B & D & _ & F).
    split; [exact A|]. split; [exact B|]. split; [exact D|]. discriminate.
Qed.

Lemma set_buffer_facts b n s : usable b n -> jinv z C e s -> sel_ok s ->
  jinv z C e (set_buffer b n s) /\ sel_ok (set_buffer b n s) /\ z_st (d_zs (set_buffer b n s)) = z_st (d_zs s) /\
  d_inited (set_buffer b n s) = d_inited s.
Proof.
  intros Hu J So. split; [now apply (jinv_buffer z C e alloc)|]. unfold set_buffer, sel_ok in *. destruct (d_inited s) eqn:En; cbn.
  - split; [congruence|auto].
  - auto.
Qed.

(** ** After an error nothing is delivered *)
Lemma stuck_dops fuel : forall ops s rets s' evs, zc_stuck C (z_st (d_zs s)) ->
  run_dops e alloc fuel s ops = Ok (rets, s', evs) -> evs = [] /\ zc_stuck C (z_st (d_zs s')).
Proof.
  induction ops as [|op ops IH]; intros s rets s' evs St H.
  - injection H as <- <- <-. auto.
  - destruct op as [f d|b n]; cbn [run_dops] in H.
    + destruct (decompress e alloc fuel f d s) as [[[r1 s1] ev1]| |] eqn:E; try discriminate H. cbn [obind] in H.
      destruct (run_dops e alloc fuel s1 ops) as [[[rs s2] ev2]| |] eqn:E2; try discriminate H. cbn [obind] in H.
      injection H as <- <- <-.
      assert (Q : ev1 = [] /\ zc_stuck C (z_st (d_zs s1))).
      { unfold decompress in E. destruct (d_inited s);
        destruct (run_stuck_spec _ C _ _ _ _ _ (feed d s) _ _ _ E St) as (-> & S1 & _); auto. }
      destruct Q as [-> S1]. exact (IH _ _ _ _ S1 E2).
    + refine (IH _ _ _ _ _ H). unfold set_buffer. destruct (d_inited s); exact St.
Qed.
Lemma error_stuck fuel : forall ops s rets s' evs, jinv z C e s -> sel_ok s -> Forall dop_ok ops ->
  run_dops e alloc fuel s ops = Ok (rets, s', evs) -> Exists (fun r => r <> 0%Z) rets -> zc_stuck C (z_st (d_zs s')).
Proof.
  induction ops as [|op ops IH]; intros s rets s' evs J So Ho H Hr.
  - injection H as <- <- <-. inversion Hr.
  - inversion Ho as [|? ? O1 O2]; subst. destruct op as [f d|b n]; cbn [run_dops] in H.
    + destruct (decompress e alloc fuel f d s) as [[[r1 s1] ev1]| |] eqn:E; try discriminate H. cbn [obind] in H.
      destruct (run_dops e alloc fuel s1 ops) as [[[rs s2] ev2]| |] eqn:E2; try discriminate H. cbn [obind] in H.
      injection H as <- <- <-. destruct O1 as [Hf _].
      destruct (decompress_facts _ _ _ _ _ _ _ J Hf So E) as (J1 & So1 & St & _).
      inversion Hr; subst; [|exact (IH _ _ _ _ J1 So1 O2 E2 H0)].
      exact (proj2 (stuck_dops _ _ _ _ _ _ (St H0) E2)).
    + destruct (set_buffer_facts b n s O1 J So) as (A & B & _ & _). exact (IH _ _ _ _ A B O2 H Hr).
Qed.
Lemma started_sel s : started z s -> sel_ok s.
Proof.
  intros (buf & size & hj & pj & Hc & _). unfold create in Hc. destruct (inflateInit z); [|discriminate]. injection Hc as <-. intros _. auto.
Qed.
Lemma silent_after_error fuel s0 ops1 ops2 rets1 s1 ev1 rets2 s2 ev2 : started z s0 -> Forall dop_ok ops1 ->
  run_dops e alloc fuel s0 ops1 = Ok (rets1, s1, ev1) -> Exists (fun r => r <> 0%Z) rets1 ->
  run_dops e alloc fuel s1 ops2 = Ok (rets2, s2, ev2) -> ev2 = [].
Proof.
  intros S O1 H1 Hr H2. pose proof (error_stuck _ _ _ _ _ _ (started_jinv z C e alloc _ S) (started_sel _ S) O1 H1 Hr) as St.
  exact (proj1 (stuck_dops _ _ _ _ _ _ St H2)).
Qed.

(** ** Corrupt data are reported *)
Context (pd : pst).
Notation hphase := (hphase z pd).
Notation phaseA := (phaseA z C pd).
Lemma hdr_zero fuel : forall fl s F P d s' ev,
  hphase s P -> jinv z C e s -> normal_flush fl -> zc_iinv C (z_st (d_zs s)) F P -> lenN P < 128 ->
  (z_inp (d_zs s) = [] -> P = zc_dec C F) ->
  z_inp (d_zs s) = d -> run fuel NoTouch fl s = Ok (0%Z, s', ev) ->
  (exists P', phaseA s' (F ++ d) [] true P') \/ d_inited s' = true.
Proof.
  induction fuel as [|fuel IH]; intros fl s F P d s' ev Hp J Hf I HP Hn Hd H0; [discriminate|].
  destruct d as [|b0 t0] eqn:Ed.
  - rewrite run_inp_nil in H0 by assumption. injection H0 as <- <-. rewrite app_nil_r.
    left. exists P. split; [exact Hp|]. split; [reflexivity|]. split; [eauto|]. cbn. auto.
  - assert (Hi : z_inp (d_zs s) <> []) by congruence. rewrite <- Ed in Hd |- *. clear b0 t0 Ed.
    assert (Hf0 : normal_flush Z_NO_FLUSH) by (unfold normal_flush, Z_NO_FLUSH; lia).
    cbn [Decompress.run] in H0.
    assert (Hz : (lenN (z_inp (d_zs s)) =? 0) || (z_aout (d_zs s) =? 0) = false).
    { pose proof Hp as (_ & _ & _ & _ & _ & _ & -> & _). destruct (z_inp (d_zs s)); [congruence|]. rewrite lenN_cons. lia. }
    rewrite Hz in H0. clear Hz.
    destruct (do_inflate_hdr z C alloc pd s P fl F P Hp I) as (s1 & E & Hp1 & A1 & A2 & _). rewrite E in H0. cbn [obind] in H0.
    pose proof (jinv_inflate _ _ _ _ _ _ _ J E) as J1.
    rewrite Hd in *. set (r := inflate z (z_st (d_zs s)) fl d (128 - lenN P)) in *.
    destruct (zc_istep _ C _ _ _ _ _ _ r I eq_refl) as (S1 & S2 & S3).
    destruct (Z.eqb_spec (zr_ret r) Z_OK) as [Hok|Hne]; [|cbn [negb] in H0; injection H0 as Q _ _; contradiction].
    cbn [negb] in H0. pose proof Hp1 as (Ec & _). rewrite Ec in H0.
    assert (HP1 : lenN (P ++ zr_out r) <= 128) by (rewrite lenN_app; lia).
    destruct (N.ltb_spec (lenN (P ++ zr_out r)) 128) as [Hlt|Hge].
    + rewrite (header_begin_short z e pd _ _ Hp1 Hlt) in H0. cbn [obind] in H0.
      destruct (run fuel NoTouch Z_NO_FLUSH s1) as [[[r3 s4] ev2]| |] eqn:E2; try discriminate H0.
      cbn [obind app] in H0. injection H0 as -> <- <-.
      rewrite lenN_app in Hlt.
      destruct (zc_icomplete _ C _ _ _ _ _ _ r I Hf eq_refl Hok ltac:(lia)) as (K0 & K1 & K2).
      rewrite K0 in *. rewrite dropN_all in A2 by lia. rewrite takeN_all in S3 by lia. rewrite <- A1 in S3.
      destruct (IH _ _ _ _ [] _ _ Hp1 J1 Hf0 S3 ltac:(rewrite lenN_app; lia) (fun _ => K1) A2 E2) as [(P' & M)|M]; [|auto].
      rewrite app_nil_r in M. eauto.
    + right. assert (H128 : lenN (P ++ zr_out r) = 128) by lia.
      pose proof (header_begin_full z e pd _ _ Hp1 H128) as Eh. rewrite Eh in H0.
      assert (J2 : exists s2 b, header_begin e s1 = Ok (b, s2) /\ d_inited s2 = true).
      { rewrite Eh. destruct (_ =? 0); eexists _, _; split; reflexivity. }
      destruct J2 as (s2 & b & Eb & N2). destruct (jinv_header _ _ _ _ _ _ J1 Ec Eb) as [J2 Z2].
      rewrite <- Eh, Eb in H0. cbn [obind] in H0.
      assert (So2 : sel_ok s2) by (unfold sel_ok; congruence).
      assert (B2 : z_sel (d_zs s2) = BHdr) by (rewrite Z2; apply Hp1).
      destruct b.
      * destruct (run fuel Reset Z_NO_FLUSH s2) as [[[r5 s5] ev5]| |] eqn:E5; try discriminate H0. cbn [obind] in H0.
        destruct (run fuel NoTouch Z_NO_FLUSH s5) as [[[r6 s6] ev6]| |] eqn:E6; try discriminate H0. cbn [obind] in H0. injection H0 as -> <- <-.
        destruct (run_facts _ Reset _ s2 _ _ _ J2 Hf0 So2 ltac:(discriminate) E5) as (K1 & K2 & _ & K4 & K5).
        refine (proj2 (proj2 (proj2 (proj2 (run_facts _ _ _ _ _ _ _ K1 Hf0 K2 _ E6)))) (K5 N2)). intros _. destruct (K4 eq_refl); auto.
      * cbn [obind] in H0.
        destruct (run fuel NoTouch Z_NO_FLUSH s2) as [[[r6 s6] ev6]| |] eqn:E6; try discriminate H0. cbn [obind] in H0. injection H0 as -> <- <-.
        refine (proj2 (proj2 (proj2 (proj2 (run_facts _ _ _ _ _ _ _ J2 Hf0 So2 _ E6)))) N2). auto.
Qed.

Definition going (s : dsess z) (F : bytes) : Prop := (exists P, phaseA s F [] true P) \/ d_inited s = true.
Lemma going_call fuel fl d s F s' ev : going s F -> jinv z C e s -> sel_ok s -> normal_flush fl -> lenN d < two32 ->
  decompress e alloc fuel fl d s = Ok (0%Z, s', ev) -> going s' (F ++ d).
Proof.
  intros [(P & Hp & _ & Iv & (W1 & W2 & W3))|N] J So Hf Hd H.
  - unfold decompress in H. assert (Hin : d_inited s = false) by apply Hp. rewrite Hin in H.
    destruct (feed_frame z d s) as (_ & _ & _ & _ & A5 & A6). specialize (A6 Hd). rewrite <- A5 in W1.
    exact (hdr_zero _ _ (feed d s) _ _ _ _ _ Hp J Hf W1 W2 (fun _ => W3) A6 H).
  - right. exact (proj2 (proj2 (proj2 (decompress_facts _ _ _ _ _ _ _ J Hf So H))) N).
Qed.
Lemma going_dops fuel : forall ops s F rets s' evs, going s F -> jinv z C e s -> sel_ok s -> Forall dop_ok ops ->
  run_dops e alloc fuel s ops = Ok (rets, s', evs) -> Forall (fun r => r = 0%Z) rets ->
  going s' (F ++ dfed ops) /\ jinv z C e s' /\ sel_ok s'.
Proof.
  induction ops as [|op ops IH]; intros s F rets s' evs G J So Ho H Hr.
  - injection H as <- <- <-. cbn. rewrite app_nil_r. auto.
  - inversion Ho as [|? ? O1 O2]; subst. destruct op as [f d|b n]; cbn [run_dops] in H.
    + destruct (decompress e alloc fuel f d s) as [[[r1 s1] ev1]| |] eqn:E; try discriminate H. cbn [obind] in H.
      destruct (run_dops e alloc fuel s1 ops) as [[[rs s2] ev2]| |] eqn:E2; try discriminate H. cbn [obind] in H.
      injection H as <- <- <-. destruct O1 as [Hf Hd]. inversion Hr as [|? ? R1 R2]; subst.
      change (dfed (DFeed f d :: ops)) with (d ++ dfed ops). rewrite app_assoc.
      destruct (decompress_facts _ _ _ _ _ _ _ J Hf So E) as (J1 & So1 & _ & _).
      exact (IH _ _ _ _ _ (going_call _ _ _ _ _ _ _ G J So Hf Hd E) J1 So1 O2 E2 R2).
    + destruct (set_buffer_facts b n s O1 J So) as (A & B & D1 & D2).
      change (dfed (DSetBuffer b n :: ops)) with (dfed ops).
      refine (IH _ _ _ _ _ _ A B O2 H Hr). destruct G as [(P & Hp & P2 & P3 & P4)|N]; [|right; congruence].
      left. exists P. unfold set_buffer. assert (Hin : d_inited s = false) by apply Hp. rewrite Hin.
      split; [|split; [exact P2|split; [exact P3|exact P4]]].
      destruct Hp as (H1 & H2 & H3 & H4 & H5 & H6 & H7 & H8 & H9 & H10 & H11 & H12).
      unfold MidProofs.hphase. cbn. repeat (split; [first [assumption|reflexivity]|]). split; [now apply (usable_u32 alloc)|exact H12].
Qed.
End Robust.

Lemma corrupt_found z (C : zlib_contract z) e alloc fuel s0 ops f d rets s evs : started z s0 -> Forall dop_ok (ops ++ [DFeed f d]) ->
  supported z C (dfed ops) -> 128 <= lenN (zc_dec C (dfed ops)) -> d <> [] ->
  run_dops e alloc fuel s0 (ops ++ [DFeed f d]) = Ok (rets, s, evs) -> Forall (fun r => r = 0%Z) rets -> room_left s ->
  zc_bad C (dfed ops ++ d) = false.
Proof.
  intros S Ho Sup L Hd H Hr Rm. apply Forall_app in Ho. destruct Ho as [O1 O2]. inversion O2 as [|? ? Od _]; subst. destruct Od as [Hf Hl].
  pose proof S as (buf & size & hj & pj & Hc & Hu & Hh & Hp).
  pose proof (create_inv z C e alloc (set_name None pj) true buf size hj pj s0 Hc Hu Hh Hp eq_refl) as M0.
  assert (H' : exists r1 s1 ev1 r2 ev2, run_dops e alloc fuel s0 ops = Ok (r1, s1, ev1) /\
    decompress e alloc fuel f d s1 = Ok (r2, s, ev2) /\ rets = r1 ++ [r2]).
  { clear - H. revert s0 rets evs H. induction ops as [|op ops IH]; intros s0 rets evs H.
    - cbn [app run_dops] in H. destruct (decompress e alloc fuel f d s0) as [[[r1 s1] ev1]| |] eqn:E; try discriminate H. cbn [obind] in H.
      injection H as <- <- <-. exists [], s0, [], r1, ev1. auto.
    - destruct op as [f1 d1|b n]; cbn [app run_dops] in *.
      + destruct (decompress e alloc fuel f1 d1 s0) as [[[r1 s1] ev1]| |] eqn:E; try discriminate H. cbn [obind] in H |- *.
        destruct (run_dops e alloc fuel s1 (ops ++ [DFeed f d])) as [[[rs s2] ev2]| |] eqn:E2; try discriminate H. cbn [obind] in H.
        injection H as <- <- <-. destruct (IH _ _ _ E2) as (r3 & s3 & ev3 & r4 & ev4 & -> & X & ->). cbn [obind].
        exists (r1 :: r3), s3, (ev1 ++ ev3), r4, ev4. auto.
      + exact (IH _ _ _ H). }
  destruct H' as (rs & s1 & ev1 & r2 & ev2 & H1 & H2 & ->). apply Forall_app in Hr. destruct Hr as [R1 R2]. inversion R2; subst.
  assert (G0 : going z C (set_name None pj) s0 []).
  { left. destruct M0 as [(P & A1 & A2 & A3 & A4)|(h0 & q0 & ch0 & B)]; [exists P; exact (conj A1 (conj eq_refl (conj A3 A4)))|].
    assert (N : d_inited s0 = true) by apply B.
    clear - Hc N. unfold create in Hc. destruct (inflateInit z); [|discriminate]. injection Hc as <-. discriminate N. }
  destruct (going_dops z C e alloc _ _ _ _ _ _ _ _ G0 (started_jinv z C e alloc _ S) (started_sel z _ S) O1 H1 R1) as (G & J & So).
  cbn [app] in G.
  destruct (run_dops_spec z C e alloc _ fuel ops s0 [] [] true _ _ _ M0 O1 Sup H1) as (w & M & _). cbn [app] in M.
  assert (N : d_inited s1 = true).
  { destruct G as [(P & _ & _ & _ & (_ & W2 & W3))|N]; [|exact N]. rewrite W3 in W2. lia. }
  destruct M as [(P & Hp1 & _)|(H0 & p0 & chunks & B)].
  { exfalso. assert (d_inited s1 = false) by apply Hp1. congruence. }
  unfold decompress in H2. rewrite N in H2.
  destruct (feed_frame z d s1) as (_ & _ & _ & _ & A5 & A6). specialize (A6 Hl).
  assert (Hf0 : normal_flush Z_NO_FLUSH) by (unfold normal_flush, Z_NO_FLUSH; lia).
  destruct B as (B1 & B2 & B3 & B4 & B5 & B6 & B7 & B8 & B9 & B10 & B11). destruct w.
  - destruct B11 as [B11 B12]. rewrite <- A5 in B11.
    destruct (run_content_spec _ C _ _ _ _ (feed d s1) _ _ _ _ _ H2 B1 Hf0 B11) as (ch2 & _ & _ & _ & _ & _ & _ & Cases).
    rewrite A6 in Cases. destruct Cases as [(_ & _ & _ & _ & Q)|(Q & _)]; [exact (proj2 (Q Hd Rm))|congruence].
  - exfalso. rewrite <- A5 in B11.
    destruct (run_stuck_spec _ C _ _ _ _ _ (feed d s1) _ _ _ H2 B11) as (_ & _ & _ & _ & _ & _ & _ & _ & _ & _ & _ & _ & _ & _ & Q).
    apply Q; [now rewrite A6|auto|reflexivity].
Qed.

(** ** Destroying a session *)
Section Destroy.
Context (z : zlib) (C : zlib_contract z) (e : endian) (alloc : N -> N -> bool).

(** Nothing more to write: no input, no room or everything delivered. *)
Definition drained (s : dsess z) : Prop :=
  z_inp (d_zs s) = [] /\ exists c p, zc_iinv C (z_st (d_zs s)) c p /\ (0 < z_aout (d_zs s) -> p = zc_dec C c).

Lemma inflate_drained fl s r s' : drained s -> do_inflate fl s = Ok (r, s') -> drained s' /\ d_ubuf s' = d_ubuf s /\ d_hdr s' = d_hdr s /\
  z_tot (d_zs s') = z_tot (d_zs s).
Proof.
  intros (Hi & c & p & I & W) H. unfold do_inflate in H. destruct (mem (z_sel (d_zs s)) s) as [m|] eqn:Em.
  2:{ injection H as <- <-. split; [split; [exact Hi|eauto]|auto]. }
  set (q := inflate z (z_st (d_zs s)) fl (z_inp (d_zs s)) (z_aout (d_zs s))) in *.
  destruct (zc_istep _ C _ _ _ _ _ _ q I eq_refl) as (S1 & S2 & S3). rewrite Hi in S1, S3. cbn in S1.
  assert (U : zr_used q = 0) by lia. rewrite U, takeN_0, app_nil_r in S3.
  assert (O : zr_out q = []).
  { destruct (N.eq_dec (z_aout (d_zs s)) 0) as [Z|Z]. { rewrite Z in S2. destruct (zr_out q); [reflexivity|rewrite lenN_cons in S2; lia]. }
    destruct (zc_iprefix _ C _ _ _ S3) as [y Ey]. rewrite <- W in Ey by lia. apply (f_equal lenN) in Ey. rewrite !lenN_app in Ey.
    destruct (zr_out q); [reflexivity|rewrite lenN_cons in Ey; lia]. }
  unfold checked_write in H. destruct (_ <=? _); [|discriminate]. cbn [obind] in H. injection H as <- <-. rewrite O, write_at_nil, U, Hi.
  rewrite O, app_nil_r in S3. split.
  - split; [reflexivity|]. exists c, p. split; [exact S3|]. cbn. intro L. apply W. lia.
  - destruct (z_sel (d_zs s)); cbn [mem] in Em; cbn; [injection Em as <-|rewrite Em]; (split; [reflexivity|split; [reflexivity|lia]]).
Qed.
Lemma destroy_drained s s' : drained s -> destroy s = Ok s' -> d_ubuf s' = d_ubuf s /\ d_hdr s' = d_hdr s /\ z_tot (d_zs s') = z_tot (d_zs s).
Proof.
  intros D H. unfold destroy in H. destruct (do_inflate Z_FULL_FLUSH s) as [[r1 s1]| |] eqn:E1; try discriminate H. cbn [obind] in H.
  destruct (do_inflate Z_FINISH s1) as [[r2 s2]| |] eqn:E2; try discriminate H. cbn [obind] in H. injection H as <-.
  destruct (inflate_drained _ _ _ _ D E1) as (D1 & A1 & A2 & A3). destruct (inflate_drained _ _ _ _ D1 E2) as (D2 & B1 & B2 & B3).
  repeat split; congruence.
Qed.
End Destroy.

Section Destroyed.
Context (z : zlib) (C : zlib_contract z) (e : endian) (alloc : N -> N -> bool) (pd : pst).
Notation run := (run e alloc).

(** No input waits for the user's buffer. *)
Definition nothing_waits (s : dsess z) : Prop := z_sel (d_zs s) = BHdr \/ z_inp (d_zs s) = [].

Lemma hdr_drains fuel : forall fl s F P d r s' ev,
  MidProofs.hphase z pd s P -> normal_flush fl -> zc_iinv C (z_st (d_zs s)) F P -> lenN P < 128 ->
  z_inp (d_zs s) = d -> run fuel NoTouch fl s = Ok (r, s', ev) ->
  zc_bad C (F ++ d) = false -> zc_fin C (F ++ d) = false -> nothing_waits s'.
Proof.
  assert (Hf0 : normal_flush Z_NO_FLUSH) by (unfold normal_flush, Z_NO_FLUSH; lia).
  induction fuel as [|fuel IH]; intros fl s F P d rr s' ev Hp Hf I HP Hd H0 V1 V2; [discriminate|].
  destruct d as [|b0 t0] eqn:Ed.
  - rewrite run_inp_nil in H0 by assumption. injection H0 as <- <- <-. now right.
  - assert (Hi : z_inp (d_zs s) <> []) by congruence. rewrite <- Ed in Hd, V1, V2. clear b0 t0 Ed.
    destruct (run_hdr_step z C e alloc pd s P fl F P Hp I Hi HP) as (s1 & Hp1 & A1 & A2 & _ & _ & _ & E). rewrite E in H0. clear E.
    rewrite Hd in *. set (r := inflate z (z_st (d_zs s)) fl d (128 - lenN P)) in *.
    destruct (zc_istep _ C _ _ _ _ _ _ r I eq_refl) as (S1 & S2 & S3).
    assert (Sel : z_sel (d_zs s1) = BHdr) by apply Hp1.
    destruct (Z.eqb_spec (zr_ret r) Z_OK) as [Hok|Hne]; [|cbn [negb] in H0; injection H0 as <- <- <-; now left].
    cbn [negb] in H0.
    assert (HP1 : lenN (P ++ zr_out r) <= 128) by (rewrite lenN_app; lia).
    assert (Sp : F ++ d = (F ++ takeN (zr_used r) d) ++ dropN (zr_used r) d) by (rewrite <- app_assoc, takeN_dropN; reflexivity).
    rewrite <- A1 in S3.
    destruct (N.ltb_spec (lenN (P ++ zr_out r)) 128) as [Hlt|Hge].
    + rewrite (header_begin_short z e pd _ _ Hp1 Hlt) in H0. cbn [obind] in H0.
      destruct (run fuel NoTouch Z_NO_FLUSH s1) as [[[r3 s4] ev2]| |] eqn:E2; try discriminate H0.
      cbn [obind app] in H0. injection H0 as <- <- <-. rewrite Sp in V1, V2.
      exact (IH _ _ _ _ _ _ _ _ Hp1 Hf0 S3 Hlt A2 E2 V1 V2).
    + assert (H128 : lenN (P ++ zr_out r) = 128) by lia.
      rewrite (header_begin_full z e pd _ _ Hp1 H128) in H0. cbn [obind] in H0.
      destruct (version_of (P ++ zr_out r) =? 0) eqn:Ev; cbn [obind] in H0.
      * match type of H0 with context [run fuel Reset Z_NO_FLUSH ?q] => set (s2 := q) in * end.
        destruct (run fuel Reset Z_NO_FLUSH s2) as [[[r5 s5] ev5]| |] eqn:E5; try discriminate H0. cbn [obind] in H0.
        assert (Ct : content z s2). { split; [discriminate|]. split; [reflexivity|]. apply Hp1. }
        destruct (run_content_spec _ C _ _ _ _ s2 _ _ _ _ _ E5 Ct Hf0 S3) as (chunks & _ & _ & _ & _ & _ & _ & Cases).
        change (z_inp (d_zs s2)) with (z_inp (d_zs s1)) in Cases. rewrite A2, <- Sp in Cases.
        destruct Cases as [(_ & Q2 & _)|(_ & _ & _ & _ & Q)]; [|tauto].
        destruct fuel as [|fuel]; [discriminate|].
        destruct (run (S fuel) NoTouch Z_NO_FLUSH s5) as [[[r6 s6] ev6]| |] eqn:E6; try discriminate H0. cbn [obind] in H0.
        rewrite run_inp_nil in E6 by exact Q2. injection E6 as <- <- <-. injection H0 as <- <- <-. now right.
      * match type of H0 with context [run fuel NoTouch Z_NO_FLUSH ?q] => set (s2 := q) in * end.
        assert (Z2 : z_aout (d_zs s2) = 0). { change (d_zs s2) with (d_zs s1). destruct Hp1 as (_ & _ & _ & _ & _ & _ & -> & _). lia. }
        destruct fuel as [|fuel]; [discriminate|]. cbn [Decompress.run] in H0. rewrite Z2, orb_true_r in H0. cbn [obind] in H0.
        injection H0 as <- <- <-. left. exact Sel.
Qed.
Lemma call_drains fuel fl d s F evs r s' ev : mid_inv z C e alloc pd s F evs true -> nothing_waits s -> normal_flush fl -> lenN d < two32 ->
  decompress e alloc fuel fl d s = Ok (r, s', ev) -> zc_bad C (F ++ d) = false -> zc_fin C (F ++ d) = false -> nothing_waits s'.
Proof.
  assert (Hf0 : normal_flush Z_NO_FLUSH) by (unfold normal_flush, Z_NO_FLUSH; lia).
  intros [(P & Hp & _ & _ & (W1 & W2 & W3))|(h & p0 & chunks & B)] Nw Hf Hd H V1 V2; unfold decompress in H;
  destruct (feed_frame z d s) as (_ & _ & _ & _ & A5 & A6); specialize (A6 Hd).
  - assert (Hin : d_inited s = false) by apply Hp. rewrite Hin in H. rewrite <- A5 in W1.
    exact (hdr_drains _ _ (feed d s) _ _ _ _ _ _ Hp Hf W1 W2 A6 H V1 V2).
  - assert (Hin : d_inited s = true) by apply B. rewrite Hin in H.
    destruct (content_call z C e alloc pd fuel _ (feed d s) _ _ _ _ _ _ _ _ _ B Hf0 A6 H) as (ch2 & _ & Q & _ & V).
    right. apply Q, V; assumption.
Qed.
Lemma valid_prefix c d : zc_bad C (c ++ d) = false -> zc_fin C (c ++ d) = false -> zc_bad C c = false /\ zc_fin C c = false.
Proof.
  intros A B. split.
  - destruct (zc_bad C c) eqn:Q; [|reflexivity]. now rewrite (zc_bad_mono _ C _ d Q) in A.
  - destruct (zc_fin C c) eqn:Q; [|reflexivity]. now rewrite (zc_fin_mono _ C _ d Q) in B.
Qed.
Lemma dops_drains fuel : forall ops s F evs0 rets s' evs, mid_inv z C e alloc pd s F evs0 true -> nothing_waits s -> Forall dop_ok ops ->
  supported z C (F ++ dfed ops) -> zc_bad C (F ++ dfed ops) = false -> zc_fin C (F ++ dfed ops) = false ->
  run_dops e alloc fuel s ops = Ok (rets, s', evs) -> nothing_waits s'.
Proof.
  induction ops as [|op ops IH]; intros s F evs0 rets s' evs I Nw Ho Sup V1 V2 H.
  - injection H as <- <- <-. exact Nw.
  - inversion Ho as [|? ? O1 O2]; subst. destruct op as [f d|b n]; cbn [run_dops] in H.
    + destruct (decompress e alloc fuel f d s) as [[[r1 s1] ev1]| |] eqn:E; try discriminate H. cbn [obind] in H.
      destruct (run_dops e alloc fuel s1 ops) as [[[rs s2] ev2]| |] eqn:E2; try discriminate H. cbn [obind] in H.
      injection H as <- <- <-. destruct O1 as [Hf Hd].
      change (dfed (DFeed f d :: ops)) with (d ++ dfed ops) in *. rewrite !app_assoc in *.
      destruct (valid_prefix _ _ V1 V2) as [V3 V4].
      pose proof (call_drains _ _ _ _ _ _ _ _ _ I Nw Hf Hd E V3 V4) as Nw1.
      destruct (decompress_spec z C e alloc pd _ _ _ _ _ _ _ _ _ _ I Hf Hd E) as (w1 & [I1|(h & X)] & V).
      2:{ exfalso. destruct X as (_ & X2 & X3 & X4 & _). apply X3. exact (version_prefix z C _ _ _ X4 X2 Sup). }
      destruct (V eq_refl V3 V4) as [_ ->]. exact (IH _ _ _ _ _ _ I1 Nw1 O2 Sup V1 V2 E2).
    + refine (IH _ _ _ _ _ _ (set_buffer_inv z C e alloc pd _ _ _ _ _ _ I O1) _ O2 Sup V1 V2 H).
      unfold nothing_waits, set_buffer in *. destruct (d_inited s); exact Nw.
Qed.
End Destroyed.

Lemma inflate_hdr_only z fl (s : dsess z) r s' : z_sel (d_zs s) = BHdr -> do_inflate fl s = Ok (r, s') ->
  z_sel (d_zs s') = BHdr /\ d_ubuf s' = d_ubuf s /\ d_tmp s' = d_tmp s.
Proof.
  intros Es H. unfold do_inflate in H. rewrite Es in H. cbn [mem] in H.
  unfold checked_write in H. destruct (_ <=? _); [|discriminate]. cbn [obind] in H. injection H as <- <-. auto.
Qed.
Lemma inflate_tmp z fl (s : dsess z) r s' : do_inflate fl s = Ok (r, s') -> d_tmp s' = d_tmp s.
Proof.
  intros H. unfold do_inflate in H. destruct (mem (z_sel (d_zs s)) s); [|injection H as <- <-; reflexivity].
  unfold checked_write in H. destruct (_ <=? _); [|discriminate]. cbn [obind] in H. injection H as <- <-. destruct (z_sel (d_zs s)); reflexivity.
Qed.
Lemma destroy_keeps_buffer z (C : zlib_contract z) e alloc fuel s0 ops rets s evs s' : started z s0 -> Forall dop_ok ops ->
  supported z C (dfed ops) -> zc_bad C (dfed ops) = false -> zc_fin C (dfed ops) = false ->
  run_dops e alloc fuel s0 ops = Ok (rets, s, evs) -> destroy s = Ok s' -> d_ubuf s' = d_ubuf s /\ d_tmp s' = d_tmp s.
Proof.
  intros S Ho Sup V1 V2 H D. pose proof (started_inv z C e alloc _ S) as M0.
  assert (N0 : nothing_waits z s0). { destruct S as (? & ? & ? & ? & Hc & _). unfold create in Hc. destruct (inflateInit z); [|discriminate]. injection Hc as <-. now left. }
  pose proof (dops_drains z C e alloc _ fuel ops s0 [] [] _ _ _ M0 N0 Ho Sup V1 V2 H) as Nw.
  destruct (run_dops_spec z C e alloc _ fuel ops s0 [] [] true _ _ _ M0 Ho Sup H) as (w & M & V). cbn [app] in M, V.
  destruct (V eq_refl V1 V2) as [_ ->].
  split.
  - destruct Nw as [B|Inp].
    + unfold destroy in D. destruct (do_inflate Z_FULL_FLUSH s) as [[r1 s1]| |] eqn:E1; try discriminate D. cbn [obind] in D.
      destruct (do_inflate Z_FINISH s1) as [[r2 s2]| |] eqn:E2; try discriminate D. cbn [obind] in D. injection D as <-.
      destruct (inflate_hdr_only _ _ _ _ _ B E1) as (B1 & U1 & _). destruct (inflate_hdr_only _ _ _ _ _ B1 E2) as (_ & U2 & _). congruence.
    + refine (proj1 (destroy_drained z C s s' _ D)). split; [exact Inp|].
      destruct M as [(P & _ & _ & _ & (W1 & _ & W3))|(h & p0 & chunks & (_ & _ & _ & _ & _ & _ & _ & _ & _ & _ & (W1 & W2)))].
      * exists (dfed ops), P. auto.
      * exists (dfed ops), (h ++ cat chunks). auto.
  - unfold destroy in D. destruct (do_inflate Z_FULL_FLUSH s) as [[r1 s1]| |] eqn:E1; try discriminate D. cbn [obind] in D.
    destruct (do_inflate Z_FINISH s1) as [[r2 s2]| |] eqn:E2; try discriminate D. cbn [obind] in D. injection D as <-.
    pose proof (inflate_tmp _ _ _ _ _ E1). pose proof (inflate_tmp _ _ _ _ _ E2). congruence.
Qed.

(** ** Extraction *)
Section Out.
Context (z : zlib) (C : zlib_contract z) (e : endian) (alloc : N -> N -> bool) (hal al : N -> bool) (stk : N) (obuf hjunk : bytes) (pjunk : pst).
Context (Calm : calm z hal al stk obuf hjunk pjunk).

(** Callbacks of a file session: none, or the beginning and at least one block. *)
Lemma file_session_block fuel s0 ops rets s evs typ : started z s0 -> Forall dop_ok ops ->
  archive_of typ (zc_dec C (dfed ops)) -> typ = ContentFile \/ typ = ContentBlob ->
  run_dops e alloc fuel s0 ops = Ok (rets, s, evs) -> evs = [] \/ exists d ds, evs = reads (d :: ds).
Proof.
  intros Hs Ho A Ht H. destruct (session_shape z C e alloc _ _ _ _ _ _ Hs Ho (supported_of z C _ _ A) H) as [S1 _].
  destruct A as (_ & _ & E). rewrite E in *. destruct S1 as [->|(p0 & ch & c & p & _ & _ & Hc & R & _)]; [now left|]. right.
  destruct ch as [|[d t] r]; [congruence|]. destruct (content_run_file e alloc typ p0 d t r Ht) as [p' Q].
  exists d, (map fst r). unfold reads. change (d :: map fst r) with (map fst ((d, t) :: r)). rewrite <- map_reads. congruence.
Qed.

(** fopen fails: no extraction of a file archive with contents returns, unless the last inflate call filled its buffer. *)
Lemma unopened_crashes T archive fuel dfuel inp o typ er ret s h ds o' :
  archive_of typ (zc_dec C (first_bytes archive inp)) -> typ = ContentFile \/ typ = ContentBlob ->
  zc_bad C (first_bytes archive inp) = false -> zc_fin C (first_bytes archive inp) = false ->
  128 < lenN (zc_dec C (first_bytes archive inp)) -> sys_open true T MODE_FOPEN o = (RErr er, o) ->
  exec (extract T hal stk z e alloc archive fuel dfuel al obuf hjunk pjunk inp false) o = Ok ((ret, Some (s, h, ds)), o') -> ~ room_left s.
Proof.
  intros A Ht V1 V2 L Op H Rm.
  destruct (extract_did z C e alloc hal al stk obuf hjunk pjunk Calm _ _ _ _ _ _ _ _ _ _ H)
    as (s0 & ops & rets & s1 & evs & h1 & o1 & ds1 & Q & St & Ho & Fed & R & X & Cl & Pf & All & _).
  injection Q as <- <- <-. rewrite limited_first in *.
  destruct (N.lt_ge_cases (lenN (zc_dec C ds)) 128) as [Lt|Ge].
  { subst ds. rewrite (before_header z C e alloc _ _ _ _ _ _ St Ho Lt R) in X. cbn in X. injection X as <- <-.
    rewrite (All eq_refl eq_refl) in Lt. lia. }
  destruct Pf as [y Ey]. pose proof (zc_dec_mono _ C ds y) as Pd. rewrite <- Ey in Pd.
  pose proof (archive_of_prefix _ _ _ Pd Ge A) as A1. rewrite <- Fed in A1.
  destruct (file_session_block _ _ _ _ _ _ _ St Ho A1 Ht R) as [->|(d & r & ->)].
  - cbn in X. injection X as <- <-. specialize (All eq_refl eq_refl).
    destruct (file_session z C e alloc _ _ _ _ _ _ _ St Ho A1 Ht R) as [_ F]. rewrite Fed, All in F. destruct (F V1 V2) as [_ F2]. destruct (F2 Rm L) as (dd & Q & _). discriminate Q.
  - unfold reads in X. rewrite exec_cbs_cons in X. cbn [cb] in X. unfold cb_fl_start in X. rewrite exec_sys in X. cbn [sys] in X.
    rewrite Op in X. cbn [fst snd exec obind map] in X. rewrite exec_cbs_cons in X. cbn in X. discriminate X.
Qed.

(** A file archive whose target can be opened: the extraction returns, with ContentFile if anything was written. *)
Lemma opened_returns T archive inp o t m fuel typ : (length inp < fuel)%nat ->
  archive_of typ (zc_dec C (first_bytes archive inp)) -> typ = ContentFile \/ typ = ContentBlob -> writable_spot o T t m ->
  exists dfuel0, forall dfuel, (dfuel0 <= dfuel)%nat -> exists ret s h ds o',
    exec (extract T hal stk z e alloc archive fuel dfuel al obuf hjunk pjunk inp false) o = Ok ((ret, Some (s, h, ds)), o') /\
    ((ret = ContentFile /\ exists x, o_fs o' t = Some (IFile m x)) \/ (ret = ContentNone /\ forall q, o_fs o' q = o_fs o q)).
Proof.
  intros Hf A Ht Sp. pose proof (supported_of z C _ _ A) as Sup.
  destruct (extract_runs z C e alloc hal al stk obuf hjunk pjunk Calm T archive inp o fuel Hf) as (d0 & K).
  { now rewrite limited_first. }
  { intros s0 dfuel ops rets s evs St Ho Fed R. rewrite limited_first in Fed. rewrite <- Fed in A.
    destruct (file_session_block _ _ _ _ _ _ _ St Ho A Ht R) as [->|(d & r & ->)]; [eexists _, _; reflexivity|].
    destruct (fl_below hal stk T t m o (d :: r) Sp) as (h & n & o1 & x & X & _). eauto. }
  exists d0. intros dfuel Hd. destruct (K dfuel Hd) as (ret & x & o' & Ex).
  destruct (extract_did z C e alloc hal al stk obuf hjunk pjunk Calm _ _ _ _ _ _ _ _ _ _ Ex)
    as (s0 & ops & rets & s & evs & h & o1 & ds & -> & St & Ho & Fed & R & X & Cl & Pf & All & Rt & _).
  rewrite limited_first in *. specialize (Rt eq_refl). exists ret, s, h, ds, o'. split; [exact Ex|].
  assert (Nil : evs = [] -> ret = ContentNone /\ forall q, o_fs o' q = o_fs o q).
  { intros ->. cbn in X. injection X as <- <-. cbn in Cl. injection Cl as <-. auto. }
  destruct (N.lt_ge_cases (lenN (zc_dec C ds)) 128) as [Lt|Ge].
  { right. apply Nil. subst ds. exact (before_header z C e alloc _ _ _ _ _ _ St Ho Lt R). }
  destruct Pf as [y Ey]. pose proof (zc_dec_mono _ C ds y) as Pd. rewrite <- Ey in Pd.
  pose proof (archive_of_prefix _ _ _ Pd Ge A) as A1. rewrite <- Fed in A1.
  destruct (file_session_block _ _ _ _ _ _ _ St Ho A1 Ht R) as [E|(d & r & ->)]; [right; auto|]. left.
  destruct (fl_below hal stk T t m o (d :: r) Sp) as (h' & n & o1' & x & X' & F1 & F2 & _ & F3 & F4 & _ & _ & _ & off & F5).
  rewrite X in X'. injection X' as <- <-. unfold close_fp in Cl. rewrite F1, exec_sys in Cl. cbn [sys] in Cl.
  rewrite (close_head _ _ _ _ F5) in Cl. cbn [snd exec] in Cl. injection Cl as <-. cbn [o_fs]. split; [congruence|eauto].
Qed.

(** ** directoryPath *)
Lemma cb_dp T ev h o h' o' : exec (cb T hal stk ev h) o = Ok (h', o') -> begins ev = false -> h_dp h <> None -> h_dp h' <> None.
Proof.
  intros H Hb Hd. destruct ev; cbn [cb begins] in *; try discriminate Hb.
  - cbn in H. injection H as <- <-. exact Hd.
  - unfold cb_fl_read in H. destruct (h_fp h); [|discriminate]. apply exec_psys in H. destruct H as (r & o1 & _ & H). cbn in H. injection H as <- <-. exact Hd.
  - unfold cb_entry in H. destruct ft.
    + cbn in H. injection H as <- <-. exact Hd.
    + destruct (negb _); [cbn in H; injection H as <- <-; exact Hd|]. rewrite exec_bind in H.
      destruct (entry_path _ _ _) as [b| |]; try discriminate H. cbn [plift exec obind] in H. apply with_cstr_ok in H. destruct H as (s & _ & H).
      rewrite exec_bind in H. destruct (exec (mkdir_recurse _ _ _) o) as [[rr o3]| |]; try discriminate H. cbn [obind exec] in H.
      injection H as <- <-. destruct (rr =? 0)%Z; discriminate.
    + destruct (stk <? _); [discriminate|]. rewrite exec_bind in H.
      destruct (entry_path _ _ _) as [b| |]; try discriminate H. cbn [plift exec obind] in H. apply with_cstr_ok in H. destruct H as (s & _ & H).
      apply exec_psys in H. destruct H as (r & o1 & _ & H). destruct r; cbn in H; injection H as <- <-; exact Hd.
    + cbn in H. injection H as <- <-. exact Hd.
  - unfold cb_read in H. apply exec_psys in H. destruct H as (r & o1 & _ & H). cbn in H. injection H as <- <-. exact Hd.
  - unfold cb_file_end in H. apply exec_psys in H. destruct H as (r & o1 & _ & H). cbn in H. injection H as <- <-. exact Hd.
  - unfold cb_dir_end in H. destruct (h_dp h) as [b|]; [|discriminate]. apply with_cstr_ok in H. destruct H as (s1 & _ & H).
    destruct (rindex _ _); [|discriminate]. cbn in H. injection H as <- <-. discriminate.
  - unfold cb_sym in H. apply exec_psys in H. destruct H as (r & o1 & _ & H). destruct r; try (cbn in H; injection H as <- <-; exact Hd).
    destruct (h_dp h) as [dp|] eqn:Ed; [|contradiction]. apply with_cstr_ok in H. destruct H as (s1 & _ & H).
    apply exec_psys in H. destruct H as (r & o2 & _ & H). destruct r; try (cbn in H; injection H as <- <-; congruence).
    apply with_cstr_ok in H. destruct H as (s2 & _ & H). apply with_cstr_ok in H. destruct H as (s3 & _ & H).
    apply exec_psys in H. destruct H as (r2 & o3 & _ & H). apply exec_psys in H. destruct H as (r3 & o4 & _ & H). cbn in H. injection H as <- <-. congruence.
Qed.
Lemma cbs_dp T evs : forall h o h' o', exec (cbs T hal stk evs h) o = Ok (h', o') -> forallb (fun ev => negb (begins ev)) evs = true ->
  h_dp h <> None -> h_dp h' <> None.
Proof.
  induction evs as [|ev evs IH]; intros h o h' o' H Hb Hd; [cbn in H; injection H as <- <-; exact Hd|].
  rewrite exec_cbs_cons in H. destruct (exec (cb T hal stk ev h) o) as [[h1 o1]| |] eqn:E; try discriminate H. cbn [obind] in H.
  cbn [forallb] in Hb. apply andb_prop in Hb. destruct Hb as [B1 B2]. apply negb_true_iff in B1.
  exact (IH _ _ _ _ H B2 (cb_dp _ _ _ _ _ _ E B1 Hd)).
Qed.
Lemma fl_dp T ds : forall h o h' o', exec (cbs T hal stk (map EvFlRead ds) h) o = Ok (h', o') -> h_dp h' = h_dp h.
Proof.
  induction ds as [|d ds IH]; intros h o h' o' H; [cbn in H; injection H as <- <-; reflexivity|].
  cbn [map] in H. rewrite exec_cbs_cons in H. destruct (exec (cb T hal stk _ h) o) as [[h1 o1]| |] eqn:E; try discriminate H. cbn [obind] in H.
  rewrite (IH _ _ _ _ H). cbn [cb] in E. unfold cb_fl_read in E. destruct (h_fp h); [|discriminate]. apply exec_psys in E.
  destruct E as (r & o2 & _ & E). cbn in E. injection E as <- <-. reflexivity.
Qed.
Lemma dir_leaks T archive fuel dfuel inp rderr o s h ds o' : supported z C (first_bytes archive inp) ->
  exec (extract T hal stk z e alloc archive fuel dfuel al obuf hjunk pjunk inp rderr) o = Ok ((ContentDirectory, Some (s, h, ds)), o') ->
  h_dp h <> None.
Proof.
  intros Sup H.
  destruct (extract_did z C e alloc hal al stk obuf hjunk pjunk Calm _ _ _ _ _ _ _ _ _ _ H)
    as (s0 & ops & rets & s1 & evs & h1 & o1 & ds1 & Q & St & Ho & Fed & R & X & Cl & Pf & _ & _ & Rt).
  injection Q as <- <- <-. destruct Rt as [Rt|Q]; [|discriminate Q]. rewrite limited_first in Pf. subst ds.
  destruct (listing_shape z C e alloc _ _ _ _ _ _ St Ho (supported_prefix z C _ _ Pf Sup) R) as [->|[(r & st & -> & P)|(dd & ->)]].
  - cbn in X. injection X as <- <-. discriminate Rt.
  - rewrite exec_cbs_cons in X. destruct (exec (cb T hal stk EvDirBegin HS0) o) as [[h2 o2]| |] eqn:E; try discriminate X. cbn [obind] in X.
    rewrite (cbs_ret _ _ _ _ _ _ _ _ X (proto_begins _ _ _ P)) in Rt. apply (cbs_dp _ _ _ _ _ _ X (proto_begins _ _ _ P)).
    cbn [cb] in E. unfold cb_dr_start in E. rewrite exec_bind in E.
    destruct (exec (mkdir_recurse _ _ _) o) as [[rr o3]| |]; try discriminate E. cbn [obind] in E.
    destruct (negb _); [cbn in E; injection E as <- <-; discriminate Rt|].
    destruct (negb _); cbn in E; injection E as <- <-; [discriminate Rt|discriminate].
  - exfalso. unfold reads in X. rewrite exec_cbs_cons in X. destruct (exec (cb T hal stk EvFlBegin HS0) o) as [[h2 o2]| |] eqn:E; try discriminate X. cbn [obind] in X.
    rewrite (cbs_ret T hal stk (map EvFlRead dd) h2 o2 h o1 X) in Rt by (clear; induction dd; [reflexivity|assumption]).
    cbn [cb] in E. unfold cb_fl_start in E. apply exec_psys in E. destruct E as (r & o3 & _ & E).
    destruct r; cbn in E; injection E as <- <-; discriminate Rt.
Qed.
Lemma others_keep_nothing T archive fuel dfuel inp rderr o typ ret s h ds o' : archive_of typ (zc_dec C (first_bytes archive inp)) ->
  typ <> ContentDirectory ->
  exec (extract T hal stk z e alloc archive fuel dfuel al obuf hjunk pjunk inp rderr) o = Ok ((ret, Some (s, h, ds)), o') ->
  h_dp h = None.
Proof.
  intros A Ht H.
  destruct (extract_did z C e alloc hal al stk obuf hjunk pjunk Calm _ _ _ _ _ _ _ _ _ _ H)
    as (s0 & ops & rets & s1 & evs & h1 & o1 & ds1 & Q & St & Ho & Fed & R & X & Cl & Pf & _ & _ & Rt).
  injection Q as <- <- <-. rewrite limited_first in Pf. subst ds.
  assert (Nil : evs = [] -> h_dp h = None) by (intros ->; cbn in X; injection X as <- <-; reflexivity).
  destruct (N.lt_ge_cases (lenN (zc_dec C (dfed ops))) 128) as [L|L].
  { apply Nil. exact (before_header z C e alloc _ _ _ _ _ _ St Ho L R). }
  destruct Pf as [y Ey]. pose proof (zc_dec_mono _ C (dfed ops) y) as Pd. rewrite <- Ey in Pd.
  pose proof (archive_of_prefix _ _ _ Pd L A) as A1.
  assert (Fl : typ = ContentFile \/ typ = ContentBlob -> h_dp h = None).
  { intro Q. destruct (file_session z C e alloc _ _ _ _ _ _ _ St Ho A1 Q R) as [[E|(dd & -> & _)] _]; [auto|].
    unfold reads in X. rewrite exec_cbs_cons in X. destruct (exec (cb T hal stk EvFlBegin HS0) o) as [[h2 o2]| |] eqn:E; try discriminate X. cbn [obind] in X.
    rewrite (fl_dp _ _ _ _ _ _ X). cbn [cb] in E. unfold cb_fl_start in E. apply exec_psys in E. destruct E as (r & o3 & _ & E).
    destruct r; cbn in E; injection E as <- <-; reflexivity. }
  destruct (N.eq_dec typ ContentFile) as [E|E2]; [auto|]. destruct (N.eq_dec typ ContentBlob) as [E|E3]; [auto|].
  apply Nil. exact (unknown_type z C e alloc _ _ _ _ _ _ _ St Ho A1 Ht E2 E3 R).
Qed.
End Out.

(** The buffers or the session cannot be allocated. *)
Lemma no_memory z T hal stk e alloc archive fuel dfuel al obuf hjunk pjunk inp rderr o :
  al 1 = false \/ al 2 = false \/ al 3 = false \/ inflateInit z = None ->
  exec (extract T hal stk z e alloc archive fuel dfuel al obuf hjunk pjunk inp rderr) o = Ok ((ContentNone, None), o).
Proof.
  intro H. unfold extract. destruct (al 1) eqn:A1; [|reflexivity]. destruct (al 2) eqn:A2; [|reflexivity]. cbn [negb orb].
  assert (E : create z (al 3) (Some obuf) DEF_CHUNK_SIZE hjunk pjunk = None).
  { unfold create. destruct H as [H|[H|[H|H]]]; try discriminate; [now rewrite H|]. destruct (al 3); [|reflexivity]. now rewrite H. }
  rewrite E. reflexivity.
Qed.

(** ** Archiving *)
Lemma missing_is_empty z {F} e (filt : F -> list bytes -> bytes -> skind -> Z * F) jk hj xjk hjunk al fuel level clbk nested xs f0 :
  compress_dir z e filt jk hj xjk hjunk al fuel level clbk nested xs None f0 =
  compress_dir z e filt jk hj xjk hjunk al fuel level clbk nested xs (Some []) f0.
Proof. reflexivity. Qed.
Lemma missing_succeeds z (C : zlib_contract z) {F} e (filt : F -> list bytes -> bytes -> skind -> Z * F) jk hj xjk hjunk al fuel level clbk nested xs f0
    r cevs ws wx led : junk_ok jk hj xjk hjunk -> Forall xb_ok xs -> created z al level ->
  compress_dir z e filt jk hj xjk hjunk al fuel level clbk nested xs None f0 = Ok (r, cevs, ws, wx, led) -> r = CRet 0.
Proof.
  intros J Fx Cr H. assert (Ft : tree_fits (@None (list (bytes * snode)))) by constructor.
  destruct (compress_dir_spec z C e filt jk hj xjk hjunk al _ _ _ _ _ _ _ _ _ _ _ _ J Ft Fx H)
    as [(Q & _)|(_ & xr & recs & content & X1 & T & En & R & _)]; [contradiction|].
  cbn [listing jobs map] in T. assert (Ht : tend_of ws = Done) by (inversion T; congruence). rewrite R, Ht. reflexivity.
Qed.
Lemma links_no_exit z (C : zlib_contract z) {F} e (filt : F -> list bytes -> bytes -> skind -> Z * F) jk hj xjk hjunk al fuel level clbk nested xs root f0
    r cevs ws wx led : junk_ok jk hj xjk hjunk -> tree_fits root -> Forall xb_ok xs ->
  compress_dir z e filt jk hj xjk hjunk al fuel level clbk nested xs root f0 = Ok (r, cevs, ws, wx, led) ->
  Forall (fun x => links_hold (snd x)) (listing root) -> r <> CExit.
Proof.
  intros J Ft Fx H Hl. destruct (compress_dir_spec z C e filt jk hj xjk hjunk al _ _ _ _ _ _ _ _ _ _ _ _ J Ft Fx H)
    as [(_ & Q & _)|(_ & xr & recs & content & X1 & T & En & R & _)].
  - rewrite Q. discriminate.
  - subst r. intro Q. apply (trav_links filt _ _ _ _ _ _ T); [now apply (jobs_all (fun _ x => links_hold x))|].
    destruct (tend_of ws); cbn in Q; congruence.
Qed.
