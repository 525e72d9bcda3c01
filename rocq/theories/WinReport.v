(** WinReport.v: what the result of an extraction on Windows says (C134). *)
From Coq Require Import Lia ZifyN.
From Verif Require Import Base Format Zlib RleZlib Compress Parser ParserProofs ParserFacts Decompress DecompressProofs MidProofs MidFacts DecompressExamples
  ArchiveSpec ArchiveFacts ArchiveDecode ArchiveExamples FS FSFacts HL HLSpec HLFacts HLDrive HLProps HLSafe MkdirFacts HLTame HLMore RobustFacts HLExamples WinTools WinFacts
  WinExtract WinExtractSpec WinExtractFacts WinExtractTame WinExtractExamples WinKeep RobustExamples ReportExamples.

Section Report.
Context (maxd maxf : N) (deny : path -> bool).
Context (z : zlib) (C : zlib_contract z) (e : endian) (alloc : N -> N -> bool) (hal al : N -> bool) (stk : N) (obuf hjunk : bytes) (pjunk : pst).
Hypothesis Calm : calm z hal al stk obuf hjunk pjunk.

(** A directory is reported if and only if the target was created, whatever happened afterwards. *)
Lemma wdir_reported T archive fuel dfuel inp w ret s h ds w' r w0 : archive_of ContentDirectory (zc_dec C (first_bytes archive inp)) ->
  zc_bad C (first_bytes archive inp) = false -> zc_fin C (first_bytes archive inp) = false -> 128 < lenN (zc_dec C (first_bytes archive inp)) ->
  w_dead w = false -> xmkdir maxd deny true T w = Ok (r, w0) ->
  xextract maxd maxf deny T hal stk z e alloc archive fuel dfuel al obuf hjunk pjunk inp false w = Ok (Some ret, Some (s, h, ds), w') -> room_left s ->
  (r = 0%Z -> ret = ContentDirectory) /\ (r <> 0%Z -> ret = ContentNone).
Proof.
  intros Ar V1 V2 L Dd Mk H Rm.
  destruct (xextract_did maxd maxf deny z C e alloc hal al stk obuf hjunk pjunk Calm _ _ _ _ _ _ _ _ _ _ Dd H)
    as (s0 & ops & rets & s1 & evs & h1 & w1 & ds1 & Q & St & Ho & Fed & R & X & Pf & All & Kd & Kr).
  injection Q as <- <- <-. destruct (w_dead w1) eqn:D1; [destruct (Kd eq_refl) as [Q _]; discriminate Q|].
  destruct (Kr eq_refl) as (_ & v & Ev & _ & Rt). injection Ev as <-. rewrite (Rt eq_refl). clear Kd Kr Rt. rewrite limited_first in *.
  destruct (N.lt_ge_cases (lenN (zc_dec C ds)) 128) as [Lt|Ge].
  { subst ds. rewrite (before_header z C e alloc _ _ _ _ _ _ St Ho Lt R) in X. cbn in X. injection X as <- <-.
    rewrite (All eq_refl eq_refl eq_refl) in Lt. lia. }
  destruct Pf as [y Ey]. pose proof (zc_dec_mono _ C ds y) as Pd. rewrite <- Ey in Pd.
  pose proof (archive_of_prefix _ _ _ Pd Ge Ar) as A1. rewrite <- Fed in A1.
  destruct (dir_session_protocol z C e alloc _ _ _ _ _ _ St Ho A1 R) as [->|(q & st & -> & P)].
  - cbn in X. injection X as <- <-. specialize (All eq_refl eq_refl eq_refl).
    destruct (dir_session z C e alloc _ _ _ _ _ _ St Ho A1 R) as [_ F]. rewrite Fed, All in F. destruct (F V1 V2) as [_ F2].
    destruct (F2 Rm L) as (dd & ev & Q & _). discriminate Q.
  - rewrite xcbs_cons in X. cbn [xcb] in X. unfold xcb_dr_start in X. rewrite (ca_hal _ _ _ _ _ _ _ Calm), Mk in X. cbn [obind] in X.
    destruct (Z.eqb_spec r 0%Z) as [Er|Er]; cbn [negb] in X; [rewrite (ca_hal _ _ _ _ _ _ _ Calm) in X; cbn [negb] in X|]; cbn [obind] in X;
    (destruct (w_dead w0); [injection X as <- <-; split; [(reflexivity || (intro; contradiction))|(reflexivity || (intro; contradiction))]|]);
    rewrite (xcbs_ret _ _ _ _ _ _ _ _ _ _ _ X (proto_begins _ _ _ P)); split; try (intro; contradiction); reflexivity.
Qed.
(** An extraction of a file that returns reports a file. *)
Lemma wfile_reported T archive fuel dfuel inp w typ ret s h ds w' : archive_of typ (zc_dec C (first_bytes archive inp)) -> typ = ContentFile \/ typ = ContentBlob ->
  zc_bad C (first_bytes archive inp) = false -> zc_fin C (first_bytes archive inp) = false -> 128 < lenN (zc_dec C (first_bytes archive inp)) ->
  w_dead w = false ->
  xextract maxd maxf deny T hal stk z e alloc archive fuel dfuel al obuf hjunk pjunk inp false w = Ok (Some ret, Some (s, h, ds), w') -> room_left s ->
  ret = ContentFile.
Proof.
  intros A Ht V1 V2 L Dd H Rm.
  destruct (xextract_did maxd maxf deny z C e alloc hal al stk obuf hjunk pjunk Calm _ _ _ _ _ _ _ _ _ _ Dd H)
    as (s0 & ops & rets & s1 & evs & h1 & w1 & ds1 & Q & St & Ho & Fed & R & X & Pf & All & Kd & Kr).
  injection Q as <- <- <-. destruct (w_dead w1) eqn:D1; [destruct (Kd eq_refl) as [Q _]; discriminate Q|].
  destruct (Kr eq_refl) as (_ & v & Ev & _ & Rt). injection Ev as <-. rewrite (Rt eq_refl). clear Kd Kr Rt. rewrite limited_first in *.
  destruct (N.lt_ge_cases (lenN (zc_dec C ds)) 128) as [Lt|Ge].
  { subst ds. rewrite (before_header z C e alloc _ _ _ _ _ _ St Ho Lt R) in X. cbn in X. injection X as <- <-.
    rewrite (All eq_refl eq_refl eq_refl) in Lt. lia. }
  destruct Pf as [y Ey]. pose proof (zc_dec_mono _ C ds y) as Pd. rewrite <- Ey in Pd.
  pose proof (archive_of_prefix _ _ _ Pd Ge A) as A1. rewrite <- Fed in A1.
  destruct (file_session_block z C e alloc _ _ _ _ _ _ _ St Ho A1 Ht R) as [->|(d & r & ->)].
  - cbn in X. injection X as <- <-. specialize (All eq_refl eq_refl eq_refl).
    destruct (file_session z C e alloc _ _ _ _ _ _ _ St Ho A1 Ht R) as [_ F]. rewrite Fed, All in F. destruct (F V1 V2) as [_ F2]. destruct (F2 Rm L) as (dd & Q & _). discriminate Q.
  - unfold reads in X. rewrite xcbs_cons in X. cbn [xcb] in X. unfold xcb_fl_start in X. destruct (xopen _ _ _ _ _ w) as [[fd|] w2]; cbn [obind] in X.
    + destruct (w_dead w2); [now injection X as <- _|]. erewrite xcbs_ret; [|exact X|]; [reflexivity|]. clear. induction (d :: r); [reflexivity|assumption].
    + exfalso. destruct (w_dead w2) eqn:D2; [injection X as _ <-; congruence|]. cbn [map] in X. rewrite xcbs_cons in X. cbn in X. injection X as _ <-. discriminate D1.
Qed.
End Report.

(** The archive of a directory with a file, extracted to o in the current directory. *)
Lemma ex_c134_win : exists r w0 ret w', archive_of ContentDirectory (zc_dec rle_contract (first_bytes 0 (rx_arch (rx_file [x78] [x31;x32;x33] 420)))) /\
  zc_bad rle_contract (first_bytes 0 (rx_arch (rx_file [x78] [x31;x32;x33] 420))) = false /\
  zc_fin rle_contract (first_bytes 0 (rx_arch (rx_file [x78] [x31;x32;x33] 420))) = false /\
  128 < lenN (zc_dec rle_contract (first_bytes 0 (rx_arch (rx_file [x78] [x31;x32;x33] 420)))) /\
  w_dead wx_w = false /\ xmkdir 248 (fun _ => false) true [x6f] wx_w = Ok (r, w0) /\ r = 0%Z /\
  wdid_all (wx_extract [x6f] (rx_arch (rx_file [x78] [x31;x32;x33] 420)) wx_w) (Some ret) w' /\ ret = ContentDirectory.
Proof.
  assert (G : forall x : outcome (Z * wst), match x with Ok (r, w0) => (r =? 0)%Z | _ => false end = true -> exists r w0, x = Ok (r, w0) /\ r = 0%Z).
  { intros [[r w0]| |] Q; try discriminate Q. apply Z.eqb_eq in Q. eauto. }
  destruct (G (xmkdir 248 (fun _ => false) true [x6f] wx_w)) as (r & w0 & E & Er); [vm_compute; reflexivity|].
  destruct (wdid_all_of (wx_extract [x6f] (rx_arch (rx_file [x78] [x31;x32;x33] 420)) wx_w) (fun ret w' => match ret with Some v => v =? ContentDirectory | None => false end))
    as ([ret|] & w' & D & H); [vm_compute; reflexivity| |discriminate H].
  exists r, w0, ret, w'. split; [split; [vm_compute; discriminate|vm_compute; auto]|]. split; [vm_compute; reflexivity|]. split; [vm_compute; reflexivity|].
  split; [vm_compute; reflexivity|]. split; [reflexivity|]. split; [exact E|]. split; [exact Er|]. split; [exact D|now apply N.eqb_eq].
Qed.
Lemma ex_c134_win_file : exists ret w', archive_of ContentFile (zc_dec rle_contract (first_bytes 0 (hx_farch [x61;x62]))) /\
  zc_bad rle_contract (first_bytes 0 (hx_farch [x61;x62])) = false /\ zc_fin rle_contract (first_bytes 0 (hx_farch [x61;x62])) = false /\
  128 < lenN (zc_dec rle_contract (first_bytes 0 (hx_farch [x61;x62]))) /\ w_dead wx_w = false /\
  wdid_all (wx_extract [x6f] (hx_farch [x61;x62]) wx_w) (Some ret) w' /\ ret = ContentFile.
Proof.
  destruct (wdid_all_of (wx_extract [x6f] (hx_farch [x61;x62]) wx_w) (fun ret w' => match ret with Some v => v =? ContentFile | None => false end))
    as ([ret|] & w' & D & H); [vm_compute; reflexivity| |discriminate H].
  exists ret, w'. split; [split; [vm_compute; discriminate|vm_compute; auto]|]. split; [vm_compute; reflexivity|]. split; [vm_compute; reflexivity|].
  split; [vm_compute; reflexivity|]. split; [reflexivity|]. split; [exact D|now apply N.eqb_eq].
Qed.
