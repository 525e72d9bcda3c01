(** WinCut.v: archives of files that are cut off, extracted on Windows (C127). *)
From Coq Require Import Lia ZifyN.
From Verif Require Import Base Format Zlib RleZlib Compress Parser ParserProofs ParserFacts Decompress DecompressProofs MidProofs MidFacts DecompressExamples
  ArchiveSpec ArchiveFacts ArchiveDecode ArchiveExamples FS FSFacts HL HLSpec HLFacts HLDrive HLProps HLTame HLExamples CutSpec CutProps WinTools WinFacts
  WinExtract WinExtractSpec WinExtractFacts WinExtractTame WinExtractExamples.

Lemma zc_bad_prefix z (C : zlib_contract z) c d : prefix c d -> zc_bad C d = false -> zc_bad C c = false.
Proof. intros [x ->] H. destruct (zc_bad C c) eqn:Q; [|reflexivity]. rewrite (zc_bad_mono _ C _ x Q) in H. discriminate H. Qed.
Lemma zc_fin_prefix z (C : zlib_contract z) c d : prefix c d -> zc_fin C d = false -> zc_fin C c = false.
Proof. intros [x ->] H. destruct (zc_fin C c) eqn:Q; [|reflexivity]. rewrite (zc_fin_mono _ C _ x Q) in H. discriminate H. Qed.
Lemma wcut_file maxd maxf deny z (C : zlib_contract z) data F e alloc hal al stk obuf hjunk pjunk T archive inp rderr t w fuel dfuel ret x w' :
  archives_file z data F -> cut_input archive F inp -> calm z hal al stk obuf hjunk pjunk -> wspot maxf deny w T t ->
  xextract maxd maxf deny T hal stk z e alloc archive fuel dfuel al obuf hjunk pjunk inp rderr w = Ok (ret, x, w') ->
  exists v s h ds, ret = Some v /\ x = Some (s, h, ds) /\ same_w w w' /\
  (((forall q, w_fs w' q = w_fs w q) /\ v = ContentNone /\ (rderr = false -> room_left s -> lenN (zc_dec C inp) <= 128)) \/
   exists y, prefix y data /\ (forall q, w_fs w' q = xupd (w_fs w) t (XFile false y) q) /\
     (rderr = false -> v = ContentFile /\ (room_left s -> y = dropN 128 (zc_dec C inp)))).
Proof.
  intros A Ci Ca Sp Ex. destruct (file_archived z C data F A) as (B & Fi & Ar & D). pose proof (cut_limited _ _ _ Ci) as Li. pose proof Ci as [Pf0 _].
  pose proof Sp as (_ & _ & _ & _ & Dd & _). destruct (xopen_spot _ _ _ _ _ Sp) as (w1 & Op & O1 & O2 & O3 & O4).
  destruct (xextract_did maxd maxf deny z C e alloc hal al stk obuf hjunk pjunk Ca _ _ _ _ _ _ _ _ _ _ Dd Ex)
    as (s0 & ops & rets & s & evs & h & w2 & ds & -> & St & Ho & Fed & R & X & Pf & Full & Q1 & Q2).
  subst ds. rewrite Li in *.
  set (h1 := HS (Some (w_next w)) None None 0 false ContentFile [] 0).
  assert (Run : forall ds, exists w2, xcbs maxd maxf deny T hal stk (reads ds) HS0 w = Ok (h1, w2) /\ (forall q, w_fs w2 q = xupd (w_fs w) t (XFile false (concat ds)) q) /\
      w_cwd w2 = w_cwd w /\ w_dead w2 = false /\ w_fds w2 = (w_next w, (t, lenN (concat ds))) :: w_fds w).
  { intros ds. unfold reads. rewrite xcbs_cons. cbn [xcb]. unfold xcb_fl_start. rewrite Op. cbn [obind]. rewrite O3.
    destruct (xwrite_fp maxd maxf deny hal stk T ds h1 w1 (w_next w) t [] (w_fds w) O3 eq_refl) as (w3 & X3 & A3 & B1 & B2 & B3); [exact O4|rewrite O1; apply xupd_same|].
    exists w3. split; [exact X3|]. split; [|split; [congruence|split; [exact B2|exact B3]]].
    intro q. rewrite A3. cbn [app]. destruct (path_dec q t) as [->|Hn]; [now rewrite !xupd_same|rewrite !xupd_other by exact Hn; rewrite O1; now apply xupd_other]. }
  destruct (prefix_trans _ _ _ _ Pf Pf0) as [y Ey]. pose proof (zc_dec_mono _ C (dfed ops) y) as Pm. rewrite <- Ey in Pm.
  pose proof (zc_bad_prefix _ C _ _ Pf0 B) as Bi. pose proof (zc_fin_prefix _ C _ _ Pf0 Fi) as Fii.
  destruct Pf0 as [y0 Ey0]. pose proof (zc_dec_mono _ C inp y0) as Pm0. rewrite <- Ey0 in Pm0.
  assert (None_ : evs = [] -> (room_left s -> dfed ops = inp -> lenN (zc_dec C inp) <= 128)).
  { intros -> Rl Ef. destruct (N.le_gt_cases (lenN (zc_dec C inp)) 128) as [L|L]; [exact L|]. exfalso. rewrite <- Ef in *.
    destruct (file_session z C e alloc _ _ _ _ _ _ _ St Ho (archive_of_prefix _ _ _ Pm0 ltac:(lia) Ar) (or_introl eq_refl) R) as [_ K]. destruct (K Bi Fii) as [_ K2].
    destruct (K2 Rl L) as (dd & Q & _). discriminate Q. }
  assert (K : evs = [] \/ exists ds, evs = reads ds /\ prefix (concat ds) data /\ (room_left s -> dfed ops = inp -> concat ds = dropN 128 (zc_dec C inp))).
  { destruct (N.lt_ge_cases (lenN (zc_dec C (dfed ops))) 128) as [Ls|Ls]; [left; exact (before_header z C e alloc _ _ _ _ _ _ St Ho Ls R)|].
    destruct (file_session z C e alloc _ _ _ _ _ _ _ St Ho (archive_of_prefix _ _ _ Pm Ls Ar) (or_introl eq_refl) R) as [[->|(ds & -> & P)] K]; [left; reflexivity|right].
    exists ds. split; [reflexivity|]. split; [rewrite <- D; eapply prefix_trans; [exact P|]; now apply prefix_dropN|].
    intros Rl Ef. rewrite Ef in *. destruct (K Bi Fii) as [_ K2]. destruct (N.le_gt_cases (lenN (zc_dec C inp)) 128) as [L|L].
    - rewrite dropN_all by exact L. rewrite dropN_all in P by exact L. destruct P as [u Eu]. symmetry in Eu. now apply app_eq_nil in Eu.
    - destruct (K2 Rl L) as (dd & Q & <-). f_equal. unfold reads in Q. injection Q as Q. revert Q. clear. revert dd.
      induction ds as [|a r IH]; intros [|b q] Q; try discriminate Q; [reflexivity|]. cbn [map] in Q. injection Q as -> Q. f_equal. now apply IH. }
  destruct K as [E|(ds & -> & P & Pr)].
  - rewrite E in X. cbn in X. injection X as <- <-. destruct (Q2 Dd) as (-> & v & -> & Hv & _). exists v, s, HS0, (dfed ops). split; [reflexivity|]. split; [reflexivity|].
    split; [repeat split|]. left. split; [reflexivity|]. split; [destruct Hv as [ -> | -> ]; reflexivity|]. intros Hr Rl. apply None_; [exact E|exact Rl|]. now apply Full.
  - destruct (Run ds) as (w3 & X3 & A3 & B1 & B2 & B3). rewrite X3 in X. injection X as <- <-. destruct (Q2 B2) as (-> & v & -> & _ & Hv).
    exists v, s, h1, (dfed ops). split; [reflexivity|]. split; [reflexivity|].
    assert (Ec : xclose_fp h1 w3 = WS (w_fs w3) (w_cwd w3) (w_fds w) (w_next w3) (w_dead w3)).
    { unfold xclose_fp, h1. cbn [h_fp xclose]. rewrite B3. cbn [find_fd]. rewrite N.eqb_refl. cbn [del_fd]. now rewrite N.eqb_refl. }
    rewrite Ec. split; [split; [exact B1|split; [reflexivity|cbn [w_dead]; congruence]]|]. right. exists (concat ds). split; [exact P|]. split; [exact A3|].
    intros Hr. split; [exact (Hv Hr)|]. intros Rl. apply Pr; [exact Rl|]. now apply Full.
Qed.

(** The archive of a file with two bytes, without its last two bytes. *)
Definition wx_cut : bytes := takeN (lenN (hx_farch [x61;x62]) - 2) (hx_farch [x61;x62]).
Lemma ex_c127_cut : exists ret w', archives_file rle_zlib [x61;x62] (hx_farch [x61;x62]) /\ cut_input 0 (hx_farch [x61;x62]) wx_cut /\
  calm rle_zlib hx_hal ax_al hx_stk (zeros DEF_CHUNK_SIZE) ax_hjunk ex_pj /\ wspot 260 (fun _ => false) wx_w [x46] [[x77]; [x66]] /\
  wdid_all (wx_extract [x46] wx_cut wx_w) ret w' /\ ret = Some ContentFile /\ w_fs w' [[x77]; [x66]] = Some (XFile false [x61]).
Proof.
  destruct (wdid_all_of (wx_extract [x46] wx_cut wx_w) (fun ret w' => is_ret ret ContentFile && xat w' [[x77]; [x66]] (Some (XFile false [x61]))))
    as (ret & w' & D & H); [vm_compute; reflexivity|].
  apply andb_prop in H. destruct H as [H1 H2]. exists ret, w'. split; [apply hx_farch_ok; vm_compute; reflexivity|].
  split. { split; [|now left]. exists (dropN (lenN (hx_farch [x61;x62]) - 2) (hx_farch [x61;x62])). symmetry. apply takeN_dropN. }
  split; [exact hx_calm|].
  split. { split; [discriminate|]. split; [reflexivity|]. split; [reflexivity|]. split; [reflexivity|]. split; [reflexivity|]. left. eexists. reflexivity. }
  split; [exact D|]. split; [now apply is_ret_ok|now apply xat_ok].
Qed.
