(** NoneFacts.v: extracting a file that is not an archive (C154). *)
From Coq Require Import Lia.
From Verif Require Import Base Format Zlib RleZlib Compress Parser ParserProofs ParserFacts Decompress DecompressProofs MidProofs MidFacts DecompressExamples
  ArchiveSpec ArchiveFacts ArchiveDecode ArchiveExamples FS FSFacts HL HLSpec HLFacts HLDrive HLProps HLSafe MkdirFacts HLTame HLMore HLExamples WinTools WinFacts
  WinExtract WinExtractSpec WinExtractFacts WinExtractTame WinExtractExamples.

(** The decompressed bytes do not start with a header this library writes: there are fewer than 128, or the first four are not the version 0,
    or the next four are none of the three types (zlibwt_compress_decompress_common.h, lines 25-30: directory, file, blob). *)
Definition foreign (P : bytes) : Prop :=
  lenN P < 128 \/ version_of P <> 0 \/ (type_of P <> ContentDirectory /\ type_of P <> ContentFile /\ type_of P <> ContentBlob).

Lemma front_version (a b : bytes) : prefix a b -> 128 <= lenN a -> version_of a = version_of b /\ type_of a = type_of b.
Proof.
  intros [x ->] L. unfold version_of, type_of.
  assert (Sl : forall off n, off + n <= 128 -> slice off n (a ++ x) = slice off n a).
  { intros off n Hn. unfold slice. rewrite dropN_app, takeN_app.
    replace (n - lenN (dropN off a)) with 0 by (rewrite lenN_dropN; lia). now rewrite takeN_0, app_nil_r. }
  rewrite !Sl by lia. auto.
Qed.
Lemma foreign_silent z (C : zlib_contract z) e alloc fuel s0 ops rets s evs F : started z s0 -> Forall dop_ok ops -> prefix (dfed ops) F ->
  foreign (zc_dec C F) -> run_dops e alloc fuel s0 ops = Ok (rets, s, evs) -> evs = [].
Proof.
  intros St Ho [y Ey] Fo R.
  destruct (N.lt_ge_cases (lenN (zc_dec C (dfed ops))) 128) as [L|L]; [eapply (before_header z C); eauto|].
  pose proof (zc_dec_mono _ C (dfed ops) y) as Pd. rewrite <- Ey in Pd. destruct (front_version _ _ Pd L) as [Vq Tq].
  destruct Fo as [Lt|[V|(T1 & T2 & T3)]].
  - destruct Pd as [u Eu]. rewrite Eu, lenN_app in Lt. lia.
  - eapply (bad_version z C); eauto. now rewrite Vq.
  - destruct (N.eq_dec (version_of (zc_dec C (dfed ops))) 0) as [V|V]; [|eapply (bad_version z C); eauto].
    eapply (unknown_type z C) with (typ := type_of (zc_dec C (dfed ops))); eauto; rewrite ?Tq; auto. now repeat split.
Qed.

Section Foreign.
Context (z : zlib) (C : zlib_contract z) (e : endian) (alloc : N -> N -> bool) (hal al : N -> bool) (stk : N) (obuf hjunk : bytes) (pjunk : pst).
Hypothesis Calm : calm z hal al stk obuf hjunk pjunk.

Lemma foreign_kept T archive fuel dfuel inp rderr o ret x o' : foreign (zc_dec C (first_bytes archive inp)) ->
  exec (extract T hal stk z e alloc archive fuel dfuel al obuf hjunk pjunk inp rderr) o = Ok ((ret, x), o') -> ret = ContentNone /\ o' = o.
Proof.
  intros Fo H. destruct (extract_did z C e alloc hal al stk obuf hjunk pjunk Calm _ _ _ _ _ _ _ _ _ _ H)
    as (s0 & ops & rets & s & evs & h & o2 & ds & -> & St & Ho & Fed & R & X & Cl & Pf & _ & _ & Rt).
  rewrite limited_first in Pf. rewrite <- Fed in Pf. rewrite (foreign_silent z C e alloc _ _ _ _ _ _ _ St Ho Pf Fo R) in X.
  cbn in X. injection X as <- <-. cbn in Cl. injection Cl as <-. split; [destruct Rt as [ -> | -> ]; reflexivity|reflexivity].
Qed.
Lemma foreign_kept_win maxd maxf deny T archive fuel dfuel inp rderr w ret x w' : w_dead w = false -> foreign (zc_dec C (first_bytes archive inp)) ->
  xextract maxd maxf deny T hal stk z e alloc archive fuel dfuel al obuf hjunk pjunk inp rderr w = Ok (ret, x, w') -> ret = Some ContentNone /\ w' = w.
Proof.
  intros Dd Fo H. destruct (xextract_did maxd maxf deny z C e alloc hal al stk obuf hjunk pjunk Calm _ _ _ _ _ _ _ _ _ _ Dd H)
    as (s0 & ops & rets & s & evs & h & w1 & ds & -> & St & Ho & Fed & R & X & Pf & _ & _ & Kr).
  rewrite limited_first in Pf. rewrite <- Fed in Pf. rewrite (foreign_silent z C e alloc _ _ _ _ _ _ _ St Ho Pf Fo R) in X.
  cbn in X. injection X as <- <-. destruct (Kr Dd) as (-> & v & -> & Rt & _). split; [destruct Rt as [ -> | -> ]; reflexivity|reflexivity].
Qed.
(** The call returns unless the version is not 0 (C23). *)
Lemma foreign_returns T archive inp o fuel : (length inp < fuel)%nat -> foreign (zc_dec C (first_bytes archive inp)) -> supported z C (first_bytes archive inp) ->
  exists dfuel0, forall dfuel, (dfuel0 <= dfuel)%nat -> exists x,
    exec (extract T hal stk z e alloc archive fuel dfuel al obuf hjunk pjunk inp false) o = Ok ((ContentNone, x), o).
Proof.
  intros Hf Fo Sup. rewrite <- limited_first in Sup.
  destruct (extract_ok z C e alloc hal al stk obuf hjunk pjunk Calm T archive inp o fuel Hf Sup) as (k & K).
  { intros s0 dfuel ops rets s evs St Ho Fed R. rewrite limited_first in Fed.
    rewrite (foreign_silent z C e alloc _ _ _ _ _ _ (first_bytes archive inp) St Ho (ex_intro _ [] (eq_sym (eq_trans (app_nil_r _) Fed))) Fo R).
    exists HS0, o. split; reflexivity. }
  exists k. intros dfuel Hd. destruct (K dfuel Hd) as (s0 & ops & rets & s & evs & h & o1 & o' & _ & _ & _ & _ & _ & _ & _ & H).
  destruct (foreign_kept _ _ _ _ _ _ _ _ _ _ Fo H) as [E1 E2]. rewrite E1, E2 in H. eauto.
Qed.
Lemma foreign_returns_win maxd maxf deny T archive inp w fuel : (length inp < fuel)%nat -> w_dead w = false ->
  foreign (zc_dec C (first_bytes archive inp)) -> supported z C (first_bytes archive inp) ->
  exists dfuel0, forall dfuel, (dfuel0 <= dfuel)%nat -> exists x,
    xextract maxd maxf deny T hal stk z e alloc archive fuel dfuel al obuf hjunk pjunk inp false w = Ok (Some ContentNone, x, w).
Proof.
  intros Hf Dd Fo Sup. rewrite <- limited_first in Sup.
  destruct (xextract_runs maxd maxf deny z C e alloc hal al stk obuf hjunk pjunk Calm T archive inp w fuel Hf Sup Dd) as (k & K).
  { intros s0 dfuel ops rets s evs St Ho Fed R. rewrite limited_first in Fed.
    rewrite (foreign_silent z C e alloc _ _ _ _ _ _ (first_bytes archive inp) St Ho (ex_intro _ [] (eq_sym (eq_trans (app_nil_r _) Fed))) Fo R).
    exists HS0, w. reflexivity. }
  exists k. intros dfuel Hd. destruct (K dfuel Hd) as (ret & x & w' & H).
  destruct (foreign_kept_win _ _ _ _ _ _ _ _ _ _ _ _ _ Dd Fo H) as [E1 E2]. rewrite E1, E2 in H. eauto.
Qed.
End Foreign.

(** A file that zlib rejects, one with the version 1 and one with the type 77. *)
Lemma ex_c154 : exists ret o' ret2 o2 ret3 w',
  calm rle_zlib hx_hal ax_al hx_stk (zeros DEF_CHUNK_SIZE) ax_hjunk ex_pj /\
  foreign (zc_dec rle_contract (first_bytes 0 [x00;x05;x07])) /\ foreign (zc_dec rle_contract (first_bytes 0 ex_bad)) /\
  foreign (zc_dec rle_contract (first_bytes 0 (ex_arch 77 ex_tree))) /\ supported rle_zlib rle_contract (first_bytes 0 (ex_arch 77 ex_tree)) /\
  did (hx_extract [x6f] 0 ex_bad (hx_os 1000)) ret o' /\ did (hx_extract [x6f] 0 (ex_arch 77 ex_tree) (hx_os 1000)) ret2 o2 /\
  w_dead wx_w = false /\ wdid (wx_extract [x6f] (ex_arch 77 ex_tree) wx_w) ret3 w'.
Proof.
  assert (T1 : test false (hx_extract [x6f] 0 ex_bad (hx_os 1000)) (fun r o' => true) = true) by (vm_compute; reflexivity).
  assert (T2 : test false (hx_extract [x6f] 0 (ex_arch 77 ex_tree) (hx_os 1000)) (fun r o' => true) = true) by (vm_compute; reflexivity).
  assert (T3 : wtest false (wx_extract [x6f] (ex_arch 77 ex_tree) wx_w) (fun r o' => true) = true) by (vm_compute; reflexivity).
  destruct (did_of _ _ T1) as (ret & o' & D & _). destruct (did_of _ _ T2) as (ret2 & o2 & D2 & _). destruct (wdid_of _ _ T3) as (ret3 & w' & D3 & _).
  exists ret, o', ret2, o2, ret3, w'. split; [exact hx_calm|].
  split; [left; vm_compute; reflexivity|]. split; [right; left; vm_compute; discriminate|].
  split; [right; right; repeat split; vm_compute; discriminate|]. split; [right; vm_compute; reflexivity|]. repeat split; assumption.
Qed.
