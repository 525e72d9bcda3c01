(** CutProps.v: extracting the beginning of an archive; extracting to a full disk. *)
From Coq Require Import Lia.
From Verif Require Import Base Format Zlib Compress Parser ParserProofs ParserFacts Decompress DecompressProofs MidProofs MidFacts
  ArchiveSpec ArchiveFacts ArchiveDecode FS FSFacts HL HLSpec HLFacts HLDrive HLProps HLSafe MkdirFacts HLTame CutSpec CutFacts CutRun.

Lemma begun_prefix a l l' : begun l l' -> prefix a l -> prefix l' a -> l = l'.
Proof.
  intro B. revert a. induction B as [l|p m x d l P|x l l' B IH]; intros a [b Eb] [c Ec].
  - destruct a; [|discriminate]. destruct l; [reflexivity|discriminate].
  - subst a. cbn in Eb. injection Eb as -> Eb. destruct l; [reflexivity|discriminate].
  - subst a. cbn in Eb. injection Eb as Eb. f_equal. apply (IH (l' ++ c)); [now exists b|now exists c].
Qed.

Lemma target_overlay t i l fs q : (forall p, In p (map fst l) -> p <> []) ->
  overlay t (fun r => look r l) (upd fs t i) q = overlay t (target_with i l) fs q.
Proof.
  intro H. unfold overlay. destruct (strip t q) as [r|] eqn:E.
  - apply strip_spec in E. subst q. destruct r as [|c r].
    + cbn [target_with]. rewrite look_none; [|intro Q; now apply (H [])]. rewrite app_nil_r. apply upd_same.
    + cbn [target_with]. destruct (look (c :: r) l); [reflexivity|]. apply upd_other. intro Q.
      rewrite <- (app_nil_r t) in Q at 2. apply app_inv_head in Q. discriminate.
  - apply upd_other. intros ->. pose proof (strip_app t []) as Q. rewrite app_nil_r in Q. congruence.
Qed.

Section Cut.
Context (z : zlib) (C : zlib_contract z) (e : endian) (alloc : N -> N -> bool).
Hypothesis Halloc : forall k n, alloc k n = true.

(** Which callbacks a beginning of an archive causes. *)
Lemma cut_events F recs s0 fuel ops rets s evs : dir_archive C F recs -> started z s0 -> Forall dop_ok ops -> prefix (dfed ops) F ->
  run_dops e alloc fuel s0 ops = Ok (rets, s, evs) ->
  (evs = [] \/ exists evs' more st, evs = EvDirBegin :: evs' /\ shows recs (flat (evs' ++ more)) /\ proto_run Idle (evs' ++ more) = Some st) /\
  (room_left s -> forall r1 r2 y1, recs = r1 ++ r2 -> r1 <> [] -> encodes r1 y1 -> prefix y1 (dropN 128 (zc_dec C (dfed ops))) ->
   exists evs' o1 o2, evs = EvDirBegin :: evs' /\ flat evs' = o1 ++ o2 /\ shows r1 o1).
Proof.
  intros (B & Fi & Ar & En & Rk) Hs Ho [x Pf] H.
  assert (Short : lenN (zc_dec C (dfed ops)) < 128 -> evs = []) by (intro Q; eapply before_header; eauto).
  destruct (N.lt_ge_cases (lenN (zc_dec C (dfed ops))) 128) as [Ls|Ls].
  { split; [left; auto|]. intros _ r1 r2 y1 _ N1 E1 [w P]. exfalso. apply (encodes_nonempty _ _ E1 N1).
    rewrite dropN_all in P by lia. now destruct y1. }
  pose proof (zc_dec_mono _ C (dfed ops) x) as Pd. rewrite <- Pf in Pd.
  pose proof (archive_of_prefix _ _ _ Pd Ls Ar) as Ar1.
  assert (B1 : zc_bad C (dfed ops) = false).
  { destruct (zc_bad C (dfed ops)) eqn:Q; [|reflexivity]. rewrite Pf, (zc_bad_mono _ C _ x Q) in B. discriminate. }
  assert (F1 : zc_fin C (dfed ops) = false).
  { destruct (zc_fin C (dfed ops)) eqn:Q; [|reflexivity]. rewrite Pf, (zc_fin_mono _ C _ x Q) in Fi. discriminate. }
  assert (At : at_hdr e (dir_fresh (set_err false (d_p s0)))) by (apply fresh_at_hdr, (started_leftovers z), Hs).
  pose proof (fresh_pwf e _ (started_leftovers z s0 Hs)) as W.
  destruct (dir_session z C e alloc _ _ _ _ _ _ Hs Ho Ar1 H) as [D1 D2]. destruct (D2 B1 F1) as [_ D4]. split.
  - destruct D1 as [->|(ch & ev' & -> & (s' & E) & P1)]; [left; reflexivity|]. right.
    destruct (prefix_trans _ _ _ _ P1 (prefix_dropN 128 _ _ Pd)) as [y Ey].
    destruct (parse_chunks_ok e alloc (ch ++ [(y, [])]) _ W) as (s1 & ev1 & E1 & _ & P).
    pose proof E1 as E2. rewrite HLProps.parse_chunks_app, E in E2. cbn [obind] in E2.
    destruct (parse_chunks e alloc s' [(y, [])]) as [[s2 ev2]| |]; try discriminate E2. cbn [obind] in E2. injection E2 as <- <-.
    exists ev', ev2, (proto_of s2). split; [reflexivity|]. split; [|exact P].
    eapply (decode_chunks e alloc Halloc); [exact At| |exact Rk|exact E1].
    unfold ctext in *. rewrite map_app, concat_app. cbn [map concat fst]. rewrite app_nil_r, <- Ey. exact En.
  - intros Rl r1 r2 y1 -> N1 E1 [w Py]. pose proof (encodes_nonempty _ _ E1 N1) as Ny.
    assert (L1 : 128 < lenN (zc_dec C (dfed ops))).
    { assert (Q : lenN (dropN 128 (zc_dec C (dfed ops))) <> 0).
      { rewrite Py, lenN_app. intro Q. assert (Q1 : lenN y1 = 0) by lia. apply lenN_0 in Q1. contradiction. }
      rewrite lenN_dropN in Q. lia. }
    destruct (D4 Rl L1) as (ch & ev' & -> & (s' & E) & Ec).
    apply Forall_app in Rk. destruct Rk as [Rk1 _]. rewrite Py in Ec.
    destruct w as [|w0 w].
    + rewrite app_nil_r in Ec. exists ev', (flat ev'), []. split; [reflexivity|]. split; [symmetry; apply app_nil_r|].
      eapply (decode_chunks e alloc Halloc); [exact At| |exact Rk1|exact E]. now rewrite Ec.
    + destruct (ctext_last ch) as (c1 & d & tl & c2 & -> & Hd & E2). { rewrite Ec. destruct y1; [contradiction|discriminate]. }
      rewrite !ctext_app, E2 in Ec. change (ctext [(d, tl)]) with (d ++ []) in Ec. rewrite !app_nil_r in Ec.
      destruct (parse_chunks_same e alloc c1 d tl [(y1, [])] (w0 :: w) [] _ W Hd) as (s1 & ev1 & ev2 & X1 & X2 & Fl).
      { discriminate. }
      { rewrite Ec. cbn [ctext map concat fst]. now rewrite app_nil_r. }
      rewrite app_assoc, HLProps.parse_chunks_app, X1 in E. cbn [obind] in E.
      destruct (parse_chunks e alloc s1 c2) as [[s3 ev3]| |]; try discriminate E. cbn [obind] in E. injection E as <- <-.
      rewrite HLProps.parse_chunks_app in X2.
      destruct (parse_chunks e alloc _ [(y1, [])]) as [[s4 ev4]| |] eqn:X4; try discriminate X2. cbn [obind] in X2.
      destruct (parse_chunks e alloc s4 _) as [[s5 ev5]| |]; try discriminate X2. cbn [obind] in X2. injection X2 as <- <-.
      exists (ev1 ++ ev3), (flat ev4), (flat ev5 ++ flat ev3). split; [reflexivity|].
      split; [rewrite flat_app, Fl, flat_app; now rewrite app_assoc|].
      eapply (decode_chunks e alloc Halloc); [exact At| |exact Rk1|exact X4]. cbn [ctext map concat fst]. now rewrite app_nil_r.
Qed.

Context (hal al : N -> bool) (stk : N) (obuf hjunk : bytes) (pjunk : pst).
Hypothesis Calm : calm z hal al stk obuf hjunk pjunk.

(** An extraction that has returned, of a beginning of an archive. *)
Lemma cut_extract T archive inp rderr F es t o fuel dfuel ret x o' :
  dir_archive C F (preorder es) -> prefix (limited archive 0 inp) F -> NoDup (map fst es) ->
  Forall (fun x => extractable (o_priv o) (o_umask o) (lenN T) (fst x) (snd x)) es ->
  free_spot o T t -> usable_dir (o_priv o) (o_umask o) MODE_BASE_DIR -> (forall r, o_fs o (t ++ r) = None) ->
  exec (extract T hal stk z e alloc archive fuel dfuel al obuf hjunk pjunk inp rderr) o = Ok ((ret, x), o') ->
  exists s h ds, x = Some (s, h, ds) /\ still o o' /\
    (((forall q, o_fs o' q = o_fs o q) /\ h_ret h = ContentNone /\
      (rderr = false -> room_left s -> forall r1 r2 y1, preorder es = r1 ++ r2 -> encodes r1 y1 ->
         prefix y1 (dropN 128 (zc_dec C (limited archive 0 inp))) -> r1 = [])) \/
     exists done, begun done (layout (o_umask o) [] es) /\ h_ret h = ContentDirectory /\
       (forall q, o_fs o' q = overlay t (target_with (IDir (dir_perm (o_umask o) MODE_BASE_DIR)) (fill (o_free o) done)) (o_fs o) q) /\
       (rderr = false -> room_left s -> forall r1 r2 y1, preorder es = r1 ++ r2 -> encodes r1 y1 ->
         prefix y1 (dropN 128 (zc_dec C (limited archive 0 inp))) -> prefix (places (o_umask o) [] r1) done)) /\
    (rderr = false -> ret = h_ret h) /\ (ret = h_ret h \/ ret = ContentNone) /\ (rderr = false -> ds = limited archive 0 inp).
Proof.
  intros Da Pf ND X Fs U Fr H.
  destruct (extract_did z C e alloc hal al stk obuf hjunk pjunk Calm _ _ _ _ _ _ _ _ _ _ H)
    as (s0 & ops & rets & s & evs & h & o1 & ds & -> & St & Ho & <- & R & Xc & Cl & Pd & Al & Rt1 & Rt2).
  exists s, h, (dfed ops). split; [reflexivity|].
  destruct (cut_events F _ _ _ _ _ _ _ Da St Ho (prefix_trans _ _ _ _ Pd Pf) R) as [[->|(evs' & more & st & -> & S & P)] Cp].
  - cbn [cbs exec] in Xc. injection Xc as <- <-. cbn [close_fp HS0 h_fp exec] in Cl. injection Cl as <-.
    split; [repeat split|]. split.
    { left. split; [reflexivity|]. split; [reflexivity|]. intros Re Rl r1 r2 y1 Er E1 P1. rewrite <- (Al Re eq_refl) in P1.
      destruct r1 as [|a r1]; [reflexivity|]. destruct (Cp Rl _ _ _ Er ltac:(discriminate) E1 P1) as (? & ? & ? & Q & _). discriminate. }
    split; [exact Rt1|]. split; [exact Rt2|]. intro Q. apply Al; auto.
  - destruct (begin_dir z hal al stk obuf hjunk pjunk Calm T t o Fs U) as (h1 & X1 & D1 & E1 & P1 & R1 & At1 & Nw).
    set (o2 := with_fs (upd (o_fs o) t (IDir (dir_perm (o_umask o) MODE_BASE_DIR))) o) in *.
    assert (Ne : forall p, In p (map fst (layout (o_umask o) [] es)) -> p <> []).
    { intros p Hp ->. destruct (layout_below _ _ _ _ Hp) as (c & r & _ & Q). discriminate. }
    rewrite exec_cbs_cons, X1 in Xc. cbn [obind] in Xc.
    destruct (run_begun T hal stk (o_priv o) (o_umask o) t (ca_hal _ _ _ _ _ _ _ Calm) (ca_stk _ _ _ _ _ _ _ Calm) _ _ S [] evs' more st h1 o2 eq_refl P)
      as (h' & o3 & X3 & (S1 & S2 & S3) & (B1 & B2 & B3) & Y & _).
    + apply preorder_good, X.
    + rewrite places_preorder. eapply layout_nodup; eauto.
    + rewrite places_preorder. intros p Hp. unfold o2. cbn [o_fs with_fs]. rewrite upd_other; [apply Fr|].
      intro Q. rewrite <- (app_nil_r t) in Q at 2. apply app_inv_head in Q. exact (Ne p Hp Q).
    + intros c c' Ec. destruct c; [|discriminate]. rewrite under_nil, app_nil_r. split; [exact At1|]. split; [reflexivity|]. split; [reflexivity|].
      unfold dir_mode, o2. cbn [o_fs with_fs]. rewrite upd_same. apply U.
    + constructor.
    + rewrite under_nil. exact D1.
    + rewrite X3 in Xc. injection Xc as <- <-.
      unfold close_fp in Cl. rewrite S1, P1 in Cl. cbn [exec] in Cl. injection Cl as <-.
      split; [repeat split; assumption|].
      assert (Bg : begun (trace (o_umask o) [] (flat evs')) (layout (o_umask o) [] es)).
      { rewrite <- places_preorder. eapply trace_begun; [exact S|apply flat_app]. }
      split; [|split; [exact Rt1|split; [exact Rt2|intro Q; apply Al; [exact Q|congruence]]]].
      right. exists (trace (o_umask o) [] (flat evs')). split; [exact Bg|]. split; [congruence|]. split.
      * intro q. rewrite Y. apply target_overlay. intros p Hp. apply Ne. rewrite fill_fst in Hp.
        destruct (begun_fst _ _ Bg) as [c ->]. apply in_app_iff. now left.
      * intros Re Rl r1 r2 y1 Er E4 P4. rewrite <- (Al Re ltac:(congruence)) in P4.
        destruct r1 as [|a r1]; [apply prefix_nil|].
        destruct (Cp Rl _ _ _ Er ltac:(discriminate) E4 P4) as (ev2 & o4 & o5 & Q & Fl & S4). injection Q as <-.
        rewrite Fl, (trace_shows _ _ _ S4). eexists. reflexivity.
Qed.
End Cut.

Lemma cut_limited archive F inp : cut_input archive F inp -> limited archive 0 inp = inp.
Proof.
  intros [[x Ex] H]. unfold limited. destruct (N.ltb_spec 0 archive) as [L|L]; [|reflexivity]. destruct H as [->| ->]; [lia|].
  apply takeN_all. rewrite Ex, lenN_app. lia.
Qed.

Lemma cut_returns z (C : zlib_contract z) e alloc hal al stk obuf hjunk pjunk T archive F es inp t o fuel :
  calm z hal al stk obuf hjunk pjunk -> (forall k n, alloc k n = true) ->
  dir_archive C F (preorder es) -> prefix (limited archive 0 inp) F -> NoDup (map fst es) ->
  Forall (fun x => extractable (o_priv o) (o_umask o) (lenN T) (fst x) (snd x)) es ->
  free_spot o T t -> usable_dir (o_priv o) (o_umask o) MODE_BASE_DIR -> (forall r, o_fs o (t ++ r) = None) -> (length inp < fuel)%nat ->
  exists dfuel0, forall dfuel, (dfuel0 <= dfuel)%nat -> exists ret s h ds o',
    exec (extract T hal stk z e alloc archive fuel dfuel al obuf hjunk pjunk inp false) o = Ok ((ret, Some (s, h, ds)), o').
Proof.
  intros Ca Ha Da Pf ND X Fs U Fr Hf.
  destruct (extract_runs z C e alloc hal al stk obuf hjunk pjunk Ca T archive inp o fuel Hf) as (d0 & K).
  - eapply supported_prefix; [exact Pf|]. eapply supported_of. apply Da.
  - intros s0 dfuel ops rets s evs St Ho Fed R.
    destruct (cut_events z C e alloc Ha F _ _ _ _ _ _ _ Da St Ho ltac:(now rewrite Fed) R) as [[->|(evs' & more & st & -> & S & P)] _].
    + exists HS0, o. reflexivity.
    + destruct (begin_dir z hal al stk obuf hjunk pjunk Ca T t o Fs U) as (h1 & X1 & D1 & E1 & P1 & R1 & At1 & Nw).
      set (o2 := with_fs (upd (o_fs o) t (IDir (dir_perm (o_umask o) MODE_BASE_DIR))) o) in *.
      rewrite exec_cbs_cons, X1. cbn [obind].
      destruct (run_begun T hal stk (o_priv o) (o_umask o) t (ca_hal _ _ _ _ _ _ _ Ca) (ca_stk _ _ _ _ _ _ _ Ca) _ _ S [] evs' more st h1 o2 eq_refl P)
        as (h' & o3 & X3 & _).
      * apply preorder_good, X.
      * rewrite places_preorder. eapply layout_nodup; eauto.
      * rewrite places_preorder. intros p Hp. unfold o2. cbn [o_fs with_fs]. rewrite upd_other; [apply Fr|].
        intro Q. rewrite <- (app_nil_r t) in Q at 2. apply app_inv_head in Q. subst p.
        destruct (layout_below _ _ _ _ Hp) as (c & r & _ & Q). discriminate.
      * intros c c' Ec. destruct c; [|discriminate]. rewrite under_nil, app_nil_r. split; [exact At1|]. split; [reflexivity|]. split; [reflexivity|].
        unfold dir_mode, o2. cbn [o_fs with_fs]. rewrite upd_same. apply U.
      * constructor.
      * rewrite under_nil. exact D1.
      * eauto.
  - exists d0. intros d Hd. destruct (K d Hd) as (ret & x & o' & Ex).
    destruct (extract_did z C e alloc hal al stk obuf hjunk pjunk Ca _ _ _ _ _ _ _ _ _ _ Ex) as (? & ? & ? & s & ? & h & ? & ds & -> & _). eauto 8.
Qed.

(** C99 *)
Lemma interrupted z (C : zlib_contract z) es F e alloc hal al stk obuf hjunk pjunk T archive inp t o fuel :
  archives_dir z es F -> cut_input archive F inp -> (length inp < fuel)%nat ->
  calm z hal al stk obuf hjunk pjunk -> (forall k n, alloc k n = true) ->
  Forall (fun x => quiet (snd x)) es -> NoDup (map fst es) ->
  Forall (fun x => extractable (o_priv o) (o_umask o) (lenN T) (fst x) (snd x)) es ->
  free_spot o T t -> usable_dir (o_priv o) (o_umask o) MODE_BASE_DIR -> (forall r, o_fs o (t ++ r) = None) ->
  (exists dfuel0, forall dfuel, (dfuel0 <= dfuel)%nat -> exists ret s h ds o',
     exec (extract T hal stk z e alloc archive fuel dfuel al obuf hjunk pjunk inp false) o = Ok ((ret, Some (s, h, ds)), o')) /\
  forall dfuel rderr ret x o',
    exec (extract T hal stk z e alloc archive fuel dfuel al obuf hjunk pjunk inp rderr) o = Ok ((ret, x), o') ->
    exists s h ds, x = Some (s, h, ds) /\ o_cwd o' = o_cwd o /\ o_umask o' = o_umask o /\ o_priv o' = o_priv o /\
    ((forall q, o_fs o' q = o_fs o q) /\ ret = ContentNone /\
     (rderr = false -> room_left s -> forall r1 r2 y1, preorder es = r1 ++ r2 -> encodes r1 y1 ->
        prefix y1 (dropN 128 (zc_dec C inp)) -> r1 = []) \/
     exists done, begun done (layout (o_umask o) [] es) /\ (rderr = false -> ret = ContentDirectory) /\
       (forall q, o_fs o' q = overlay t (target_with (IDir (dir_perm (o_umask o) MODE_BASE_DIR)) (fill (o_free o) done)) (o_fs o) q) /\
       (rderr = false -> room_left s -> forall r1 r2 y1, preorder es = r1 ++ r2 -> encodes r1 y1 ->
          prefix y1 (dropN 128 (zc_dec C inp)) -> prefix (places (o_umask o) [] r1) done)).
Proof.
  intros A I Hf Ca Ha Q ND X Fs U Fr. pose proof (dir_archived z C es F A Q) as D. pose proof (cut_limited _ _ _ I) as Li.
  assert (Pf : prefix (limited archive 0 inp) F) by (rewrite Li; apply I). split.
  - eapply cut_returns; eauto.
  - intros dfuel rderr ret x o' H.
    destruct (cut_extract z C e alloc Ha hal al stk obuf hjunk pjunk Ca _ _ _ _ _ _ _ _ _ _ _ _ _ D Pf ND X Fs U Fr H)
      as (s & h & ds & -> & (B1 & B2 & B3) & K & R1 & R2 & _). rewrite Li in K. exists s, h, ds. split; [reflexivity|].
    split; [exact B1|]. split; [exact B2|]. split; [exact B3|].
    destruct K as [(K1 & K2 & K3)|(done & K1 & K2 & K3 & K4)]; [left|right].
    + split; [exact K1|]. split; [destruct R2; congruence|exact K3].
    + exists done. split; [exact K1|]. split; [intro Re; now rewrite (R1 Re)|]. auto.
Qed.

(** C100 *)
Lemma full_disk z (C : zlib_contract z) es F e alloc hal al stk obuf hjunk pjunk T archive inp t o fuel :
  archives_dir z es F -> input_of archive F inp -> (length inp < fuel)%nat ->
  calm z hal al stk obuf hjunk pjunk -> (forall k n, alloc k n = true) ->
  preorder es <> [] -> Forall (fun x => quiet (snd x)) es -> NoDup (map fst es) ->
  Forall (fun x => extractable (o_priv o) (o_umask o) (lenN T) (fst x) (snd x)) es ->
  free_spot o T t -> usable_dir (o_priv o) (o_umask o) MODE_BASE_DIR -> (forall r, o_fs o (t ++ r) = None) ->
  exists dfuel0, forall dfuel, (dfuel0 <= dfuel)%nat -> exists ret s h ds o',
    exec (extract T hal stk z e alloc archive fuel dfuel al obuf hjunk pjunk inp false) o = Ok ((ret, Some (s, h, ds)), o') /\
    (room_left s -> ret = ContentDirectory /\ o_cwd o' = o_cwd o /\ o_umask o' = o_umask o /\ o_priv o' = o_priv o /\
       forall q, o_fs o' q = overlay t (target_with (IDir (dir_perm (o_umask o) MODE_BASE_DIR))
                                                    (fill (o_free o) (layout (o_umask o) [] es))) (o_fs o) q).
Proof.
  intros A I Hf Ca Ha Ne Q ND X Fs U Fr. pose proof (dir_archived z C es F A Q) as D. pose proof (input_limited _ _ _ I) as Li.
  assert (Pf : prefix (limited archive 0 inp) F) by (rewrite Li; apply prefix_refl).
  destruct (cut_returns z C e alloc hal al stk obuf hjunk pjunk T archive F es inp t o fuel Ca Ha D Pf ND X Fs U Fr Hf) as (d0 & K).
  exists d0. intros d Hd. destruct (K d Hd) as (ret & s & h & ds & o' & Ex). exists ret, s, h, ds, o'. split; [exact Ex|]. intro Rl.
  destruct (cut_extract z C e alloc Ha hal al stk obuf hjunk pjunk Ca _ _ _ _ _ _ _ _ _ _ _ _ _ D Pf ND X Fs U Fr Ex)
    as (s' & h' & ds' & Es & (B1 & B2 & B3) & K2 & R1 & _). injection Es as <- <- <-. rewrite Li in K2.
  assert (En : encodes (preorder es) (dropN 128 (zc_dec C F))) by apply D.
  destruct K2 as [(_ & _ & K3)|(done & K1 & K2 & K3 & K4)].
  - exfalso. apply Ne. apply (K3 eq_refl Rl (preorder es) [] _ (eq_sym (app_nil_r _)) En (prefix_refl _ _)).
  - pose proof (K4 eq_refl Rl (preorder es) [] _ (eq_sym (app_nil_r _)) En (prefix_refl _ _)) as P. rewrite places_preorder in P.
    rewrite (begun_prefix _ _ _ K1 P (prefix_refl _ _)) in K3. rewrite (R1 eq_refl), K2. auto.
Qed.

(** C101: a read error is not passed over. *)
Lemma loop_read_error T hal stk z e alloc archive fuel dfuel : forall inp total idx s h o s' h' ds o',
  exec (extract_loop T hal stk z e alloc archive fuel dfuel inp true total idx s h) o = Ok ((true, s', h', ds), o') ->
  h_err h' = true \/ (0 < archive /\ archive <= total + lenN inp).
Proof.
  induction fuel as [|f IH]; intros inp total idx s h o s' h' ds o' H; [discriminate|]. cbn [extract_loop] in H.
  destruct (N.ltb_spec (next_size archive total) 1) as [H1|H1].
  { right. unfold next_size in H1. destruct (N.ltb_spec 0 archive); [destruct (N.ltb_spec total archive)|]; unfold DEF_CHUNK_SIZE in *; lia. }
  set (n := next_size archive total) in *.
  destruct (N.ltb_spec (lenN (takeN n inp)) n) as [Sh|Sh]; cbn [andb orb] in H; [discriminate H|].
  rewrite exec_bind in H. destruct (decompress e alloc dfuel _ (takeN n inp) s) as [[[r1 s1] ev1]| |]; try discriminate H.
  cbn [plift exec obind] in H. rewrite exec_bind in H.
  destruct (exec (cbs T hal stk ev1 h) o) as [[h1 o1]| |]; try discriminate H. cbn [obind] in H.
  destruct (h_err h1) eqn:Eh. { cbn [exec] in H. injection H as <- <- <- <-. left. exact Eh. }
  rewrite exec_bind in H. destruct (exec (extract_loop _ _ _ _ _ _ _ _ _ _ _ _ _ _ _) o1) as [[[[[ok s2] h2] ds2] o2]| |] eqn:El; try discriminate H.
  cbn [obind exec] in H. injection H as -> -> -> <- ->. rewrite lenN_takeN in *.
  destruct (IH _ _ _ _ _ _ _ _ _ _ El) as [Q|[Q1 Q2]]; [auto|right]. split; [exact Q1|]. rewrite lenN_dropN in Q2. lia.
Qed.
Lemma read_error T hal stk z e alloc archive fuel dfuel al obuf hjunk pjunk inp o ret s h ds o' :
  exec (extract T hal stk z e alloc archive fuel dfuel al obuf hjunk pjunk inp true) o = Ok ((ret, Some (s, h, ds)), o') ->
  (archive = 0 \/ lenN inp < archive) -> ret = ContentNone \/ h_err h = true.
Proof.
  unfold extract. intros H A. destruct (negb (al 1) || negb (al 2)); [discriminate H|].
  destruct (create z (al 3) (Some obuf) DEF_CHUNK_SIZE hjunk pjunk) as [s0|]; [|discriminate H]. rewrite exec_bind in H.
  destruct (exec (extract_loop _ _ _ _ _ _ _ _ _ _ _ _ _ _ _) o) as [[[[[ok s1] h1] ds1] o1]| |] eqn:El; try discriminate H. cbn [obind] in H.
  rewrite exec_bind in H. destruct (exec (close_fp h1) o1) as [[[] o2]| |]; try discriminate H. cbn [obind] in H.
  destruct (destroy s1); try discriminate H. cbn [plift pbind exec] in H. injection H as <- <- <- <- <-.
  destruct ok; [|left; reflexivity]. right. destruct (loop_read_error _ _ _ _ _ _ _ _ _ _ _ _ _ _ _ _ _ _ _ El) as [Q|[Q1 Q2]]; [exact Q|lia].
Qed.
