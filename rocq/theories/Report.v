(** Report.v: what the result of an extraction says. *)
From Coq Require Import Lia.
From Verif Require Import Base Format Zlib Compress Parser ParserProofs ParserFacts Decompress DecompressProofs MidProofs MidFacts
  ArchiveSpec ArchiveFacts ArchiveDecode FS FSFacts HL HLSpec HLFacts HLDrive HLProps HLSafe MkdirFacts HLTame HLMore RobustFacts.

Section Report.
Context (z : zlib) (C : zlib_contract z) (e : endian) (alloc : N -> N -> bool) (hal al : N -> bool) (stk : N) (obuf hjunk : bytes) (pjunk : pst).
Hypothesis Calm : calm z hal al stk obuf hjunk pjunk.

(** A directory is reported if and only if the target was created, whatever happened afterwards. *)
Lemma dir_reported T archive fuel dfuel inp o ret s h ds o' r o1 : archive_of ContentDirectory (zc_dec C (first_bytes archive inp)) ->
  zc_bad C (first_bytes archive inp) = false -> zc_fin C (first_bytes archive inp) = false -> 128 < lenN (zc_dec C (first_bytes archive inp)) ->
  exec (mkdir_recurse true T MODE_BASE_DIR) o = Ok (r, o1) ->
  exec (extract T hal stk z e alloc archive fuel dfuel al obuf hjunk pjunk inp false) o = Ok ((ret, Some (s, h, ds)), o') -> room_left s ->
  (r = 0%Z -> ret = ContentDirectory) /\ (r <> 0%Z -> ret = ContentNone).
Proof.
  intros Ar V1 V2 L Mk H Rm. split; [intros ->|intro Hr; eapply target_fails; eauto].
  destruct (extract_did z C e alloc hal al stk obuf hjunk pjunk Calm _ _ _ _ _ _ _ _ _ _ H)
    as (s0 & ops & rets & s1 & evs & h1 & o2 & ds1 & Q & St & Ho & Fed & R & X & Cl & Pf & All & Rt & _).
  injection Q as <- <- <-. rewrite limited_first in *. rewrite (Rt eq_refl).
  destruct (N.lt_ge_cases (lenN (zc_dec C ds)) 128) as [Lt|Ge].
  { subst ds. rewrite (before_header z C e alloc _ _ _ _ _ _ St Ho Lt R) in X. cbn in X. injection X as <- <-.
    rewrite (All eq_refl eq_refl) in Lt. lia. }
  destruct Pf as [y Ey]. pose proof (zc_dec_mono _ C ds y) as Pd. rewrite <- Ey in Pd.
  pose proof (archive_of_prefix _ _ _ Pd Ge Ar) as A1. rewrite <- Fed in A1.
  destruct (dir_session_protocol z C e alloc _ _ _ _ _ _ St Ho A1 R) as [->|(q & st & -> & P)].
  - cbn in X. injection X as <- <-. specialize (All eq_refl eq_refl).
    destruct (dir_session z C e alloc _ _ _ _ _ _ St Ho A1 R) as [_ F]. rewrite Fed, All in F. destruct (F V1 V2) as [_ F2].
    destruct (F2 Rm L) as (dd & ev & Q & _). discriminate Q.
  - rewrite exec_cbs_cons in X. cbn [cb] in X. unfold cb_dr_start in X. rewrite (ca_hal _ _ _ _ _ _ _ Calm), exec_bind, Mk in X.
    cbn [obind Z.eqb negb] in X. rewrite (ca_hal _ _ _ _ _ _ _ Calm) in X. cbn [negb exec obind] in X.
    now rewrite (cbs_ret _ _ _ _ _ _ _ _ X (proto_begins _ _ _ P)).
Qed.
(** An extraction of a file that returns reports a file. *)
Lemma file_reported T archive fuel dfuel inp o typ ret s h ds o' : archive_of typ (zc_dec C (first_bytes archive inp)) -> typ = ContentFile \/ typ = ContentBlob ->
  zc_bad C (first_bytes archive inp) = false -> zc_fin C (first_bytes archive inp) = false -> 128 < lenN (zc_dec C (first_bytes archive inp)) ->
  exec (extract T hal stk z e alloc archive fuel dfuel al obuf hjunk pjunk inp false) o = Ok ((ret, Some (s, h, ds)), o') -> room_left s ->
  ret = ContentFile.
Proof.
  intros A Ht V1 V2 L H Rm.
  destruct (extract_did z C e alloc hal al stk obuf hjunk pjunk Calm _ _ _ _ _ _ _ _ _ _ H)
    as (s0 & ops & rets & s1 & evs & h1 & o2 & ds1 & Q & St & Ho & Fed & R & X & Cl & Pf & All & Rt & _).
  injection Q as <- <- <-. rewrite limited_first in *. rewrite (Rt eq_refl).
  destruct (N.lt_ge_cases (lenN (zc_dec C ds)) 128) as [Lt|Ge].
  { subst ds. rewrite (before_header z C e alloc _ _ _ _ _ _ St Ho Lt R) in X. cbn in X. injection X as <- <-.
    rewrite (All eq_refl eq_refl) in Lt. lia. }
  destruct Pf as [y Ey]. pose proof (zc_dec_mono _ C ds y) as Pd. rewrite <- Ey in Pd.
  pose proof (archive_of_prefix _ _ _ Pd Ge A) as A1. rewrite <- Fed in A1.
  destruct (file_session_block z C e alloc _ _ _ _ _ _ _ St Ho A1 Ht R) as [->|(d & r & ->)].
  - cbn in X. injection X as <- <-. specialize (All eq_refl eq_refl).
    destruct (file_session z C e alloc _ _ _ _ _ _ _ St Ho A1 Ht R) as [_ F]. rewrite Fed, All in F. destruct (F V1 V2) as [_ F2]. destruct (F2 Rm L) as (dd & Q & _). discriminate Q.
  - unfold reads in X. rewrite exec_cbs_cons in X. cbn [cb] in X. unfold cb_fl_start in X. rewrite exec_sys in X.
    destruct (sys (ScOpen true T MODE_FOPEN) o) as [rr o3] eqn:Eo. cbn [fst snd] in X. destruct rr.
    all: try (cbn [exec obind map] in X; rewrite exec_cbs_cons in X; cbn in X; discriminate X).
    cbn [exec obind] in X. erewrite cbs_ret; [|exact X|]; [reflexivity|]. clear. induction (d :: r); [reflexivity|assumption].
Qed.
End Report.
