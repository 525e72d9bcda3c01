(** DamageFacts.v: archives whose bytes were changed. *)
From Coq Require Import Lia ZifyN ZifyNat ZifyBool.
From Verif Require Import Base Format Zlib RleZlib LLCompress Compress Parser ParserProofs ParserFacts Decompress DecompressProofs
  DecompressFacts MidProofs MidFacts DecompressExamples ArchiveSpec ArchiveFacts ArchiveDecode ArchiveEntry ArchiveProps ArchiveExamples
  FS FSFacts HL HLSpec HLFacts HLDrive HLProps HLSafe MkdirFacts HLTame HLMkdir HLMore HLExamples HaltFacts RobustFacts.

(** No archive contains the end of its stream. *)
Lemma never_ends z (C : zlib_contract z) :
  (forall xs es F, archives_with z xs es F -> zc_fin C F = false) /\ (forall data F, archives_file z data F -> zc_fin C F = false).
Proof.
  split.
  - intros xs es F (St & filt & e & jk & hj & xjk & hjunk & al & fuel & level & clbk & f0 & cevs & ws & wx & led & J & Ft & Ac & Hx & H & Cr & L & ->).
    destruct (compress_dir_spec z C e filt jk hj xjk hjunk al _ _ _ _ _ _ _ _ _ _ _ _ J Ft Hx H) as [(Q & _)|(_ & xr & recs & content & _ & _ & _ & _ & _ & _ & Fi & _)];
      [contradiction|exact Fi].
  - intros data F A. destruct (file_archived z C data F A) as (_ & Fi & _). exact Fi.
Qed.

Section Out.
Context (z : zlib) (C : zlib_contract z) (e : endian) (alloc : N -> N -> bool) (hal al : N -> bool) (stk : N) (obuf hjunk : bytes) (pjunk : pst).
Context (Calm : calm z hal al stk obuf hjunk pjunk).

Lemma damaged_file T archive inp o t m fuel typ : (length inp < fuel)%nat ->
  archive_of typ (zc_dec C (first_bytes archive inp)) -> typ = ContentFile \/ typ = ContentBlob -> writable_spot o T t m ->
  lenN (zc_dec C (first_bytes archive inp)) <= 128 + o_free o ->
  exists dfuel0, forall dfuel, (dfuel0 <= dfuel)%nat -> exists ret s h ds o',
    exec (extract T hal stk z e alloc archive fuel dfuel al obuf hjunk pjunk inp false) o = Ok ((ret, Some (s, h, ds)), o') /\
    ((ret = ContentFile /\ exists x, prefix x (dropN 128 (zc_dec C (first_bytes archive inp))) /\ forall q, o_fs o' q = upd (o_fs o) t (IFile m x) q) \/
     (ret = ContentNone /\ forall q, o_fs o' q = o_fs o q)).
Proof.
  intros Hf A Ht Sp V. pose proof (supported_of z C _ _ A) as Sup. destruct (open_spot _ _ _ _ Sp) as (free & Hfree & Op).
  set (h1 := HS (Some (o_next o)) None None 0 false ContentFile [] 0).
  assert (X1 : exec (cb T hal stk EvFlBegin HS0) o = Ok (h1, snd (sys_open true T MODE_FOPEN o))).
  { cbn [cb]. unfold cb_fl_start. rewrite exec_sys. cbn [sys]. rewrite Op. reflexivity. }
  assert (Run : forall ds, lenN (concat ds) <= o_free o ->
    exists o2, exec (cbs T hal stk (reads ds) HS0) o = Ok (h1, o2) /\ (forall q, o_fs o2 q = upd (o_fs o) t (IFile m (concat ds)) q) /\
      o_fds o2 = (o_next o, (t, lenN (concat ds))) :: o_fds o).
  { intros ds L. unfold reads. rewrite exec_cbs_cons, X1. cbn [obind]. rewrite Op. cbn [snd].
    match goal with |- context [exec _ ?oo] => destruct (write_fp alloc hal stk T ds h1 oo (o_next o) t [] m (o_fds o)) as (o' & Y1 & Y2 & Y3 & Y4 & Y5 & Y6) end;
      [reflexivity|reflexivity|cbn [o_fs]; apply upd_same|cbn [o_free]; lia|].
    exists o'. split; [exact Y1|]. split; [|exact Y6].
    intro q. rewrite Y2. cbn [o_fs app]. destruct (path_dec q t) as [->|Hn]; [now rewrite !upd_same|now rewrite !upd_other]. }
  assert (Pre : forall ds, prefix (concat ds) (dropN 128 (zc_dec C (first_bytes archive inp))) -> lenN (concat ds) <= o_free o).
  { intros ds [x Q]. apply (f_equal lenN) in Q. rewrite lenN_dropN, lenN_app in Q. lia. }
  destruct (extract_runs z C e alloc hal al stk obuf hjunk pjunk Calm T archive inp o fuel Hf) as (d0 & K).
  { now rewrite limited_first. }
  { intros s0 dfuel ops rets s evs St Ho Fed R. rewrite limited_first in Fed. rewrite <- Fed in A, Pre.
    destruct (file_session z C e alloc _ _ _ _ _ _ _ St Ho A Ht R) as [[->|(ds & -> & P)] _]; [eexists _, _; reflexivity|].
    destruct (Run ds (Pre ds P)) as (o2 & X2 & _). eauto. }
  exists d0. intros dfuel Hd. destruct (K dfuel Hd) as (ret & x & o' & Ex).
  destruct (extract_did z C e alloc hal al stk obuf hjunk pjunk Calm _ _ _ _ _ _ _ _ _ _ Ex)
    as (s0 & ops & rets & s & evs & h & o1 & ds & -> & St & Ho & Fed & R & X & Cl & Pf & All & Rt & _).
  rewrite limited_first in *. specialize (Rt eq_refl). exists ret, s, h, ds, o'. split; [exact Ex|].
  assert (Nil : evs = [] -> ret = ContentNone /\ forall q, o_fs o' q = o_fs o q).
  { intros ->. cbn in X. injection X as <- <-. cbn in Cl. injection Cl as <-. auto. }
  destruct (N.lt_ge_cases (lenN (zc_dec C ds)) 128) as [Lt|Ge].
  { right. apply Nil. subst ds. exact (before_header z C e alloc _ _ _ _ _ _ St Ho Lt R). }
  destruct Pf as [y Ey]. pose proof (zc_dec_mono _ C ds y) as Pd. rewrite <- Ey in Pd.
  pose proof (archive_of_prefix _ _ _ Pd Ge A) as A1. rewrite <- Fed in A1.
  destruct (file_session z C e alloc _ _ _ _ _ _ _ St Ho A1 Ht R) as [[E|(bs & -> & P)] _]; [right; auto|]. left.
  rewrite Fed in P.
  assert (P' : prefix (concat bs) (dropN 128 (zc_dec C (first_bytes archive inp)))).
  { destruct Pd as [w ->]. destruct P as [v P]. exists (v ++ w). rewrite dropN_app. replace (128 - lenN (zc_dec C ds)) with 0 by lia. rewrite dropN_0. rewrite P, <- app_assoc. reflexivity. }
  destruct (Run bs (Pre bs P')) as (o3 & X3 & Y2 & Y6). rewrite X3 in X. injection X as <- <-.
  unfold close_fp, h1 in Cl. cbn [h_fp] in Cl. rewrite exec_sys in Cl. cbn [sys] in Cl. rewrite (close_head _ _ _ _ Y6) in Cl. cbn [snd exec] in Cl. injection Cl as <-. cbn [o_fs].
  split; [exact Rt|]. exists (concat bs). auto.
Qed.
End Out.
