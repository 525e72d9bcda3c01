(** WinMore.v: results of an extraction on Windows (C43, C44, C101). *)
From Coq Require Import Lia ZifyN.
From Verif Require Import Base Format Zlib RleZlib Compress Parser ParserProofs ParserFacts Decompress DecompressProofs MidProofs MidFacts DecompressExamples
  ArchiveSpec ArchiveFacts ArchiveDecode ArchiveExamples FS FSFacts HL HLSpec HLFacts HLDrive HLProps HLSafe MkdirFacts HLTame HLMore HLExamples WinTools WinFacts
  WinExtract WinExtractSpec WinExtractFacts WinExtractTame WinExtractExamples WinKeep CutExamples.

(** C101: a read error is not passed over. *)
Lemma xloop_read_error maxd maxf deny T hal stk z e alloc archive fuel dfuel : forall inp total idx s h w s' h' ds w',
  xextract_loop maxd maxf deny T hal stk z e alloc archive fuel dfuel inp true total idx s h w = Ok (true, s', h', ds, w') -> w_dead w' = false ->
  h_err h' = true \/ (0 < archive /\ archive <= total + lenN inp).
Proof.
  induction fuel as [|f IH]; intros inp total idx s h w s' h' ds w' H Dd; [discriminate|]. cbn [xextract_loop] in H.
  destruct (N.ltb_spec (next_size archive total) 1) as [H1|H1].
  { right. unfold next_size in H1. destruct (N.ltb_spec 0 archive); [destruct (N.ltb_spec total archive)|]; unfold DEF_CHUNK_SIZE in *; lia. }
  set (n := next_size archive total) in *.
  destruct (N.ltb_spec (lenN (takeN n inp)) n) as [Sh|Sh]; cbn [andb orb] in H; [discriminate H|].
  destruct (decompress e alloc dfuel _ (takeN n inp) s) as [[[r1 s1] ev1]| |]; try discriminate H. cbn [obind] in H.
  destruct (xcbs _ _ _ _ _ _ ev1 h w) as [[h1 w1]| |]; try discriminate H. cbn [obind] in H. rewrite orb_false_r in H.
  destruct (w_dead w1) eqn:D1. { cbn [orb] in H. injection H as <- <- <- <-. congruence. }
  cbn [orb] in H. destruct (h_err h1) eqn:Eh. { injection H as <- <- <- <-. left. exact Eh. }
  match type of H with obind ?x _ = _ => destruct x as [[[[[ok s2] h2] ds2] w2]| |] eqn:El; try discriminate H end.
  cbn [obind] in H. injection H as -> -> -> <- ->. rewrite lenN_takeN in *.
  destruct (IH _ _ _ _ _ _ _ _ _ _ El Dd) as [Q|[Q1 Q2]]; [auto|right]. split; [exact Q1|]. rewrite lenN_dropN in Q2. lia.
Qed.
Lemma wread_error maxd maxf deny T hal stk z e alloc archive fuel dfuel al obuf hjunk pjunk inp w ret s h ds w' :
  xextract maxd maxf deny T hal stk z e alloc archive fuel dfuel al obuf hjunk pjunk inp true w = Ok (Some ret, Some (s, h, ds), w') ->
  (archive = 0 \/ lenN inp < archive) -> ret = ContentNone \/ h_err h = true.
Proof.
  unfold xextract. intros H A. destruct (negb (al 1) || negb (al 2)); [discriminate H|].
  destruct (create z (al 3) (Some obuf) DEF_CHUNK_SIZE hjunk pjunk) as [s0|]; [|discriminate H].
  match type of H with obind ?x _ = _ => destruct x as [[[[[ok s1] h1] ds1] w1]| |] eqn:El; try discriminate H end. cbn [obind] in H.
  destruct (w_dead w1) eqn:D1; [discriminate H|]. destruct (destroy s1); try discriminate H. cbn [obind] in H. injection H as <- <- <- <- <-.
  destruct ok; [|left; reflexivity]. right. destruct (xloop_read_error _ _ _ _ _ _ _ _ _ _ _ _ _ _ _ _ _ _ _ _ _ _ El D1) as [Q|[Q1 Q2]]; [exact Q|lia].
Qed.
(** C44: only the first bytes are read, and all of them unless an error was noticed. *)
Lemma wextract_fed maxd maxf deny z T hal stk e alloc archive fuel dfuel al obuf hjunk pjunk inp rderr w ret s h ds w' : w_dead w = false ->
  xextract maxd maxf deny T hal stk z e alloc archive fuel dfuel al obuf hjunk pjunk inp rderr w = Ok (Some ret, Some (s, h, ds), w') ->
  prefix ds (first_bytes archive inp) /\ (ret <> ContentNone \/ rderr = false -> h_err h = false -> ds = first_bytes archive inp).
Proof.
  intros Dd H. unfold xextract in H. destruct (_ || _); [discriminate|]. destruct (create _ _ _ _ _ _) as [s0|]; [|discriminate].
  match type of H with obind ?x _ = _ => destruct x as [[[[[ok s1] h1] ds1] w1]| |] eqn:El; try discriminate H end. cbn [obind] in H.
  destruct (xloop_inv _ _ _ _ _ _ _ _ _ _ _ _ _ _ _ _ _ _ _ _ _ _ _ _ Dd El) as (ops & rets & evs & A1 & A2 & A3 & A4 & A5 & A6 & A7 & A8).
  destruct (w_dead w1) eqn:D1; [discriminate H|]. destruct (destroy s1) as [s'| |]; try discriminate H. cbn [obind] in H. injection H as <- <- <- <- <-.
  rewrite limited_first in *. split; [exact A6|]. intros [Hr|Hr] He; [|auto]. apply A7; [|exact He|reflexivity]. destruct ok; [reflexivity|contradiction].
Qed.

Section Type_.
Context (maxd maxf : N) (deny : path -> bool).
Context (z : zlib) (C : zlib_contract z) (e : endian) (alloc : N -> N -> bool) (hal al : N -> bool) (stk : N) (obuf hjunk : bytes) (pjunk : pst).
Hypothesis Calm : calm z hal al stk obuf hjunk pjunk.
(** C43: the content type reported is the one of the header. *)
Lemma wextract_type T archive fuel dfuel inp rderr w ret x w' : supported z C (first_bytes archive inp) -> w_dead w = false ->
  xextract maxd maxf deny T hal stk z e alloc archive fuel dfuel al obuf hjunk pjunk inp rderr w = Ok (Some ret, x, w') -> ret <> ContentNone ->
  exists typ, archive_of typ (zc_dec C (first_bytes archive inp)) /\
    ((ret = ContentDirectory /\ typ = ContentDirectory) \/ (ret = ContentFile /\ (typ = ContentFile \/ typ = ContentBlob))).
Proof.
  intros Sup Dd H Hr.
  destruct (xextract_did maxd maxf deny z C e alloc hal al stk obuf hjunk pjunk Calm _ _ _ _ _ _ _ _ _ _ Dd H)
    as (s0 & ops & rets & s & evs & h & w1 & ds & -> & St & Ho & Fed & R & X & Pf & _ & Kd & Kr).
  destruct (w_dead w1) eqn:D1; [destruct (Kd eq_refl) as [Q _]; discriminate Q|]. destruct (Kr eq_refl) as (_ & v & Ev & Rt & _). injection Ev as <-. clear Kd Kr.
  rewrite limited_first in Pf. destruct Rt as [ -> |]; [|contradiction]. subst ds.
  pose proof (supported_prefix z C _ _ Pf Sup) as Sup1.
  destruct (N.lt_ge_cases (lenN (zc_dec C (dfed ops))) 128) as [L|L].
  { rewrite (before_header z C e alloc _ _ _ _ _ _ St Ho L R) in X. cbn in X. injection X as <- <-. contradiction. }
  destruct Pf as [y Ey]. pose proof (zc_dec_mono _ C (dfed ops) y) as Pd. rewrite <- Ey in Pd.
  assert (V : version_of (zc_dec C (dfed ops)) = 0) by (destruct Sup1 as [Q|Q]; [lia|now rewrite version_takeN in Q]).
  assert (A : archive_of (type_of (zc_dec C (dfed ops))) (zc_dec C (dfed ops))) by (repeat split; assumption).
  assert (Up : forall typ, archive_of typ (zc_dec C (dfed ops)) -> archive_of typ (zc_dec C (first_bytes archive inp))).
  { destruct Pd as [u Ew]. intros typ (B1 & B2 & B3). rewrite Ew. split; [rewrite lenN_app; lia|].
    unfold version_of, type_of in *. assert (Sl : forall off n, off + n <= 128 -> slice off n (zc_dec C (dfed ops) ++ u) = slice off n (zc_dec C (dfed ops))).
    { intros off n Hn. unfold slice. rewrite dropN_app, takeN_app.
      replace (n - lenN (dropN off (zc_dec C (dfed ops)))) with 0 by (rewrite lenN_dropN; lia). now rewrite takeN_0, app_nil_r. }
    rewrite !Sl by lia. auto. }
  set (typ := type_of (zc_dec C (dfed ops))) in *. exists typ. split; [auto|].
  destruct (N.eq_dec typ ContentDirectory) as [E|E1].
  { left. split; [|exact E]. rewrite E in A. destruct (dir_session_protocol z C e alloc _ _ _ _ _ _ St Ho A R) as [->|(r & st & -> & P)].
    - cbn in X. injection X as <- <-. contradiction.
    - rewrite xcbs_cons in X. destruct (xcb maxd maxf deny T hal stk EvDirBegin HS0 w) as [[h1 w2]| |] eqn:E1; try discriminate X. cbn [obind] in X.
      destruct (w_dead w2) eqn:D2; [injection X as <- <-; congruence|].
      rewrite (xcbs_ret _ _ _ _ _ _ _ _ _ _ _ X (proto_begins _ _ _ P)) in *. cbn [xcb] in E1. unfold xcb_dr_start in E1.
      destruct (xmkdir _ _ _ _ w) as [[rr w3]| |]; try discriminate E1. cbn [obind] in E1.
      destruct (negb _); [cbn in E1; injection E1 as <- <-; contradiction|].
      destruct (negb _); cbn in E1; injection E1 as <- <-; [contradiction|reflexivity]. }
  assert (Fl : typ = ContentFile \/ typ = ContentBlob -> h_ret h = ContentFile).
  { intro Q. destruct (file_session z C e alloc _ _ _ _ _ _ _ St Ho A Q R) as [[->|(dd & -> & _)] _].
    - cbn in X. injection X as <- <-. contradiction.
    - unfold reads in X. rewrite xcbs_cons in X. destruct (xcb maxd maxf deny T hal stk EvFlBegin HS0 w) as [[h1 w2]| |] eqn:E2; try discriminate X. cbn [obind] in X.
      assert (Er : h_ret h = h_ret h1).
      { destruct (w_dead w2); [now injection X as <- _|]. eapply xcbs_ret; [exact X|clear; induction dd; [reflexivity|assumption]]. }
      rewrite Er in *. clear Er. cbn [xcb] in E2. unfold xcb_fl_start in E2. destruct (xopen _ _ _ _ _ w) as [r w3].
      destruct r; injection E2 as <- <-; [reflexivity|contradiction]. }
  destruct (N.eq_dec typ ContentFile) as [E|E2]; [right; auto|].
  destruct (N.eq_dec typ ContentBlob) as [E|E3]; [right; auto|].
  rewrite (unknown_type z C e alloc _ _ _ _ _ _ _ St Ho A E1 E2 E3 R) in X. cbn in X. injection X as <- <-. contradiction.
Qed.
End Type_.

(** The archive of 168 bytes cannot be read behind its 69th byte. *)
Definition wx_more (archive : N) (inp : bytes) (rderr : bool) :=
  xextract 248 260 (fun _ => false) [x6f] hx_hal hx_stk rle_zlib LE ex_alloc archive 4000 4000 ax_al (zeros DEF_CHUNK_SIZE) ax_hjunk ex_pj inp rderr wx_w.
Lemma ex_c101_win : exists ret w', wdid (wx_more 168 (cx_in 69) true) (Some ret) w' /\ lenN (cx_in 69) < 168 /\ ret = ContentNone.
Proof.
  assert (T : wtest false (wx_more 168 (cx_in 69) true) (fun r w' => match r with Some v => v =? ContentNone | None => false end) = true) by (vm_compute; reflexivity).
  destruct (wdid_of _ _ T) as (ret & w' & D & Q). destruct ret as [v|]; [|discriminate Q]. exists v, w'. split; [exact D|]. split; [vm_compute; reflexivity|now apply N.eqb_eq].
Qed.
(** Two bytes follow the archive. *)
Lemma ex_c44_win : exists s h ds w', wx_more (lenN (hx_arch wx_two)) (hx_arch wx_two ++ [x41;x42]) false = Ok (Some ContentDirectory, Some (s, h, ds), w') /\
  w_dead wx_w = false /\ h_err h = false /\ lenN ds = lenN (hx_arch wx_two) /\
  supported rle_zlib rle_contract (first_bytes (lenN (hx_arch wx_two)) (hx_arch wx_two ++ [x41;x42])).
Proof.
  assert (T : match wx_more (lenN (hx_arch wx_two)) (hx_arch wx_two ++ [x41;x42]) false with
    | Ok (Some v, Some (s, h, ds), w') => (v =? ContentDirectory) && negb (h_err h) && (lenN ds =? lenN (hx_arch wx_two)) | _ => false end = true) by (vm_compute; reflexivity).
  assert (S : supported rle_zlib rle_contract (first_bytes (lenN (hx_arch wx_two)) (hx_arch wx_two ++ [x41;x42]))) by (right; vm_compute; reflexivity).
  destruct (wx_more _ _ _) as [[[[v|] [[[s h] ds]|]] w']| |]; try discriminate T.
  apply andb_true_iff in T. destruct T as [T T3]. apply andb_true_iff in T. destruct T as [T1 T2]. apply N.eqb_eq in T1, T3. apply negb_true_iff in T2. subst v.
  exists s, h, ds, w'. repeat split; auto.
Qed.
Lemma ex_c43_win : calm rle_zlib hx_hal ax_al hx_stk (zeros DEF_CHUNK_SIZE) ax_hjunk ex_pj /\ exists x w',
  wx_more (lenN (hx_arch wx_two)) (hx_arch wx_two ++ [x41;x42]) false = Ok (Some ContentDirectory, x, w') /\ w_dead wx_w = false /\
  supported rle_zlib rle_contract (first_bytes (lenN (hx_arch wx_two)) (hx_arch wx_two ++ [x41;x42])).
Proof. split; [exact hx_calm|]. destruct ex_c44_win as (s & h & ds & w' & A & B & _ & _ & S). exists (Some (s, h, ds)), w'. auto. Qed.
