(** HLMore.v: what the result of an extraction says; archives with extra buffers. *)
From Coq Require Import Lia.
From Verif Require Import Base Format Zlib LLCompress CompressFacts Compress Parser ParserProofs ParserFacts Decompress DecompressProofs MidProofs MidFacts
  ArchiveSpec ArchiveFacts ArchiveDecode ArchiveEntry ArchiveProps FS FSFacts HL HLSpec HLFacts HLDrive HLProps HLSafe MkdirFacts HLTame HLMkdir.

(** ** The input that is used *)

(** With a limit [n] <> 0: the first [n] bytes; with 0: everything. *)
Definition first_bytes (n : N) (inp : bytes) : bytes := if n =? 0 then inp else takeN n inp.
Lemma limited_first archive inp : limited archive 0 inp = first_bytes archive inp.
Proof. unfold limited, first_bytes. rewrite N.sub_0_r. destruct (N.eqb_spec archive 0) as [->|H]; [reflexivity|]. destruct (N.ltb_spec 0 archive); [reflexivity|lia]. Qed.

Lemma extract_fed z T hal stk e alloc archive fuel dfuel al obuf hjunk pjunk inp rderr o ret s h ds o' :
  exec (extract T hal stk z e alloc archive fuel dfuel al obuf hjunk pjunk inp rderr) o = Ok ((ret, Some (s, h, ds)), o') ->
  prefix ds (first_bytes archive inp) /\ (ret <> ContentNone \/ rderr = false -> h_err h = false -> ds = first_bytes archive inp).
Proof.
  intro H. unfold extract in H. destruct (_ || _); [discriminate|]. destruct (create _ _ _ _ _ _) as [s0|]; [|discriminate].
  rewrite exec_bind in H.
  destruct (exec (extract_loop _ _ _ _ _ _ _ _ _ _ _ _ _ _ _) o) as [[[[[ok s1] h1] ds1] o1]| |] eqn:El; try discriminate H. cbn [obind] in H.
  destruct (loop_inv _ _ _ _ _ _ _ _ _ _ _ _ _ _ _ _ _ _ _ _ _ El) as (ops & rets & evs & A1 & A2 & A3 & A4 & A5 & A6 & A7 & A8).
  rewrite exec_bind in H. destruct (exec (close_fp h1) o1) as [[[] o2]| |] eqn:Ecl; try discriminate H. cbn [obind] in H.
  destruct (destroy s1) as [s'| |]; try discriminate H. cbn [plift pbind exec] in H. injection H as <- <- <- <- <-.
  rewrite limited_first in *. split; [exact A6|]. intros [Hr|Hr] He; [|auto]. apply A7; [|exact He]. destruct ok; [reflexivity|contradiction].
Qed.

(** ** Results *)

Section Ret.
Context (target : bytes) (hal : N -> bool) (stk : N).
Definition begins (ev : event) : bool := match ev with EvDirBegin | EvFlBegin => true | _ => false end.
Lemma cb_ret ev h o h' o' : exec (cb target hal stk ev h) o = Ok (h', o') -> begins ev = false -> h_ret h' = h_ret h.
Proof.
  intros H Hb. destruct ev as [id d| | |d|ft it name|d| | |d t]; cbn [cb] in H; try discriminate Hb.
  - cbn in H. congruence.
  - unfold cb_fl_read in H. destruct (h_fp h); [|discriminate]. apply exec_psys in H. destruct H as (r & o1 & _ & H). cbn in H. congruence.
  - unfold cb_entry in H. destruct ft; try (cbn in H; injection H as <- <-; reflexivity).
    + destruct (negb _); [cbn in H; injection H as <- <-; reflexivity|].
      rewrite exec_bind in H. destruct (entry_path _ _ _) as [b| |]; try discriminate H. cbn [plift exec obind] in H.
      apply with_cstr_ok in H. destruct H as (s & _ & H). rewrite exec_bind in H.
      destruct (exec (mkdir_recurse _ _ _) o) as [[r o1]| |]; try discriminate H. cbn [obind exec] in H.
      destruct (r =? 0)%Z; injection H as <- <-; reflexivity.
    + destruct (_ <? _); [discriminate|].
      rewrite exec_bind in H. destruct (entry_path _ _ _) as [b| |]; try discriminate H. cbn [plift exec obind] in H.
      apply with_cstr_ok in H. destruct H as (s & _ & H). apply exec_psys in H. destruct H as (r & o1 & _ & H).
      destruct r; cbn in H; injection H as <- <-; auto.
  - unfold cb_read in H. apply exec_psys in H. destruct H as (r & o1 & _ & H). cbn in H. congruence.
  - unfold cb_file_end in H. apply exec_psys in H. destruct H as (r & o1 & _ & H). cbn in H. congruence.
  - unfold cb_dir_end in H. destruct (h_dp h); [|discriminate]. apply with_cstr_ok in H. destruct H as (s & _ & H).
    destruct (rindex _ _); [|discriminate]. cbn in H. injection H as <- <-. reflexivity.
  - unfold cb_sym in H. apply exec_psys in H. destruct H as (r & o1 & _ & H). destruct r as [| | |cwd|]; try (cbn in H; congruence).
    destruct (h_dp h); [|cbn in H; congruence]. apply with_cstr_ok in H. destruct H as (s1 & _ & H).
    apply exec_psys in H. destruct H as (r & o2 & _ & H). destruct r; try (cbn in H; congruence).
    apply with_cstr_ok in H. destruct H as (s2 & _ & H). apply with_cstr_ok in H. destruct H as (s3 & _ & H).
    apply exec_psys in H. destruct H as (r & o3 & _ & H). apply exec_psys in H. destruct H as (r' & o4 & _ & H). cbn in H. congruence.
Qed.
Lemma cbs_ret evs : forall h o h' o', exec (cbs target hal stk evs h) o = Ok (h', o') -> forallb (fun ev => negb (begins ev)) evs = true ->
  h_ret h' = h_ret h.
Proof.
  induction evs as [|ev evs IH]; intros h o h' o' H Hb; [cbn in H; congruence|]. cbn [forallb] in Hb. apply andb_true_iff in Hb. destruct Hb as [B1 B2].
  rewrite exec_cbs_cons in H. destruct (exec (cb _ _ _ ev h) o) as [[h1 o1]| |] eqn:E; try discriminate H. cbn [obind] in H.
  rewrite (IH _ _ _ _ H B2). eapply cb_ret; [exact E|]. now apply negb_true_iff.
Qed.
End Ret.

Lemma proto_begins evs : forall st st', proto_run st evs = Some st' -> forallb (fun ev => negb (begins ev)) evs = true.
Proof.
  induction evs as [|ev evs IH]; intros st st' H; [reflexivity|]. cbn [proto_run] in H.
  destruct (proto_step st ev) as [st1|] eqn:E; [|discriminate]. cbn [forallb]. rewrite (IH _ _ H), andb_true_r.
  destruct ev, st; try reflexivity; discriminate E.
Qed.

Section Results.
Context (z : zlib) (C : zlib_contract z) (e : endian) (alloc : N -> N -> bool) (hal al : N -> bool) (stk : N) (obuf hjunk : bytes) (pjunk : pst).
Hypothesis Calm : calm z hal al stk obuf hjunk pjunk.

(** The kind of the archive that a result reports. *)
Lemma extract_type T archive fuel dfuel inp rderr o ret x o' : supported z C (first_bytes archive inp) ->
  exec (extract T hal stk z e alloc archive fuel dfuel al obuf hjunk pjunk inp rderr) o = Ok ((ret, x), o') -> ret <> ContentNone ->
  exists typ, archive_of typ (zc_dec C (first_bytes archive inp)) /\
    ((ret = ContentDirectory /\ typ = ContentDirectory) \/ (ret = ContentFile /\ (typ = ContentFile \/ typ = ContentBlob))).
Proof.
  intros Sup H Hr.
  destruct (extract_did z C e alloc hal al stk obuf hjunk pjunk Calm _ _ _ _ _ _ _ _ _ _ H)
    as (s0 & ops & rets & s & evs & h & o1 & ds & -> & St & Ho & Fed & R & X & Cl & Pf & _ & _ & Rt).
  rewrite limited_first in Pf. destruct Rt as [->|]; [|contradiction]. subst ds.
  pose proof (supported_prefix z C _ _ Pf Sup) as Sup1.
  destruct (N.lt_ge_cases (lenN (zc_dec C (dfed ops))) 128) as [L|L].
  { rewrite (before_header z C e alloc _ _ _ _ _ _ St Ho L R) in X. cbn in X. injection X as <- <-. contradiction. }
  destruct Pf as [y Ey]. pose proof (zc_dec_mono _ C (dfed ops) y) as Pd. rewrite <- Ey in Pd.
  assert (V : version_of (zc_dec C (dfed ops)) = 0) by (destruct Sup1 as [Q|Q]; [lia|now rewrite version_takeN in Q]).
  assert (A : archive_of (type_of (zc_dec C (dfed ops))) (zc_dec C (dfed ops))) by (repeat split; assumption).
  assert (Up : forall typ, archive_of typ (zc_dec C (dfed ops)) -> archive_of typ (zc_dec C (first_bytes archive inp))).
  { destruct Pd as [w Ew]. intros typ (B1 & B2 & B3). rewrite Ew. split; [rewrite lenN_app; lia|].
    unfold version_of, type_of in *. assert (Sl : forall off n, off + n <= 128 -> slice off n (zc_dec C (dfed ops) ++ w) = slice off n (zc_dec C (dfed ops))).
    { intros off n Hn. unfold slice. rewrite dropN_app, takeN_app.
      replace (n - lenN (dropN off (zc_dec C (dfed ops)))) with 0 by (rewrite lenN_dropN; lia). now rewrite takeN_0, app_nil_r. }
    rewrite !Sl by lia. auto. }
  set (typ := type_of (zc_dec C (dfed ops))) in *. exists typ. split; [auto|].
  destruct (N.eq_dec typ ContentDirectory) as [E|E1].
  { left. split; [|exact E]. rewrite E in A. destruct (dir_session_protocol z C e alloc _ _ _ _ _ _ St Ho A R) as [->|(r & st & -> & P)].
    - cbn in X. injection X as <- <-. contradiction.
    - rewrite exec_cbs_cons in X. destruct (exec (cb T hal stk EvDirBegin HS0) o) as [[h1 o2]| |] eqn:E1; try discriminate X. cbn [obind] in X.
      rewrite (cbs_ret _ _ _ _ _ _ _ _ X (proto_begins _ _ _ P)) in *. cbn [cb] in E1. unfold cb_dr_start in E1. rewrite exec_bind in E1.
      destruct (exec (mkdir_recurse _ _ _) o) as [[rr o3]| |]; try discriminate E1. cbn [obind] in E1.
      destruct (negb _); [cbn in E1; injection E1 as <- <-; contradiction|].
      destruct (negb _); cbn in E1; injection E1 as <- <-; [contradiction|reflexivity]. }
  assert (Fl : typ = ContentFile \/ typ = ContentBlob -> h_ret h = ContentFile).
  { intro Q. destruct (file_session z C e alloc _ _ _ _ _ _ _ St Ho A Q R) as [[->|(dd & -> & _)] _].
    - cbn in X. injection X as <- <-. contradiction.
    - unfold reads in X. rewrite exec_cbs_cons in X. destruct (exec (cb T hal stk EvFlBegin HS0) o) as [[h1 o2]| |] eqn:E2; try discriminate X. cbn [obind] in X.
      assert (Er : h_ret h = h_ret h1) by (eapply cbs_ret; [exact X|clear; induction dd; [reflexivity|assumption]]). rewrite Er in *. clear Er.
      cbn [cb] in E2. unfold cb_fl_start in E2. apply exec_psys in E2. destruct E2 as (r & o3 & _ & E2).
      destruct r; cbn in E2; injection E2 as <- <-; try contradiction; reflexivity. }
  destruct (N.eq_dec typ ContentFile) as [E|E2]; [right; auto|].
  destruct (N.eq_dec typ ContentBlob) as [E|E3]; [right; auto|].
  rewrite (unknown_type z C e alloc _ _ _ _ _ _ _ St Ho A E1 E2 E3 R) in X. cbn in X. injection X as <- <-. contradiction.
Qed.

(** A target directory that cannot be created is reported. *)
Lemma target_fails T archive fuel dfuel inp rderr o ret x o' r o1 : archive_of ContentDirectory (zc_dec C (first_bytes archive inp)) ->
  exec (mkdir_recurse true T MODE_BASE_DIR) o = Ok (r, o1) -> r <> 0%Z ->
  exec (extract T hal stk z e alloc archive fuel dfuel al obuf hjunk pjunk inp rderr) o = Ok ((ret, x), o') -> ret = ContentNone.
Proof.
  intros Ar Mk Hr H.
  destruct (extract_did z C e alloc hal al stk obuf hjunk pjunk Calm _ _ _ _ _ _ _ _ _ _ H)
    as (s0 & ops & rets & s & evs & h & o2 & ds & -> & St & Ho & Fed & R & X & Cl & Pf & _ & _ & Rt).
  rewrite limited_first in Pf. destruct Rt as [->|]; [|assumption]. subst ds.
  destruct (N.lt_ge_cases (lenN (zc_dec C (dfed ops))) 128) as [L|L].
  { rewrite (before_header z C e alloc _ _ _ _ _ _ St Ho L R) in X. cbn in X. injection X as <- <-. reflexivity. }
  destruct Pf as [y Ey]. pose proof (zc_dec_mono _ C (dfed ops) y) as Pd. rewrite <- Ey in Pd.
  destruct (dir_session_protocol z C e alloc _ _ _ _ _ _ St Ho (archive_of_prefix _ _ _ Pd L Ar) R) as [->|(q & st & -> & P)].
  { cbn in X. injection X as <- <-. reflexivity. }
  rewrite exec_cbs_cons in X. cbn [cb] in X. unfold cb_dr_start in X. rewrite (ca_hal _ _ _ _ _ _ _ Calm), exec_bind, Mk in X. cbn [obind] in X.
  destruct (Z.eqb_spec r 0); [contradiction|]. cbn [negb exec obind] in X.
  now rewrite (cbs_ret _ _ _ _ _ _ _ _ X (proto_begins _ _ _ P)).
Qed.

Definition exists_at (o : os) (T : bytes) : Prop := ~ In x00 T /\ match namei false o T with WErr _ => False | WDir _ => True | WAt _ _ i => i <> None end.
Lemma target_exists T archive fuel dfuel inp rderr o ret x o' : archive_of ContentDirectory (zc_dec C (first_bytes archive inp)) ->
  exists_at o T ->
  exec (extract T hal stk z e alloc archive fuel dfuel al obuf hjunk pjunk inp rderr) o = Ok ((ret, x), o') ->
  ret = ContentNone /\ keeps (o_fs o) (o_fs o').
Proof.
  intros Ar [Nz Ex] H. split; [|eapply exec_keeps; exact H].
  eapply target_fails; [exact Ar| | |exact H].
  - eapply (mkdir_exists T Nz o _ (fst (sys_stat_dir T o))).
    + unfold sys_mkdir. destruct (namei false o T) as [er|d|d c [i|]]; [contradiction|reflexivity|reflexivity|contradiction].
    + rewrite <- (stat_same T o) at 3. apply surjective_pairing.
  - destruct (fst (sys_stat_dir T o)); discriminate.
Qed.
End Results.

(** ** Archives of given records *)

Section Records.
Context (z : zlib) (C : zlib_contract z) (e : endian) (alloc : N -> N -> bool) (hal al : N -> bool) (stk : N) (obuf hjunk : bytes) (pjunk : pst).
Hypothesis Calm : calm z hal al stk obuf hjunk pjunk.

Lemma extract_recs T archive F recs t o fuel (R : os -> Prop) : (forall k n, alloc k n = true) -> (length F < fuel)%nat ->
  dir_archive C (limited archive 0 F) recs -> recs <> [] ->
  free_spot o T t -> usable_dir (o_priv o) (o_umask o) MODE_BASE_DIR ->
  (forall h1, in_dir h1 T -> h_err h1 = false -> forall evs' st, shows recs (flat evs') -> proto_run Idle evs' = Some st ->
    exists h' o', exec (cbs T hal stk evs' h1) (with_fs (upd (o_fs o) t (IDir (dir_perm (o_umask o) MODE_BASE_DIR))) o) = Ok (h', o') /\
      same_h h1 h' /\ R o') ->
  exists dfuel0, forall dfuel, (dfuel0 <= dfuel)%nat -> exists ret s h ds o',
    exec (extract T hal stk z e alloc archive fuel dfuel al obuf hjunk pjunk F false) o = Ok ((ret, Some (s, h, ds)), o') /\
    (room_left s -> ret = ContentDirectory /\ R o').
Proof.
  intros Halloc Hf Da Ne Fs U Run.
  set (o1 := with_fs (upd (o_fs o) t (IDir (dir_perm (o_umask o) MODE_BASE_DIR))) o) in *.
  destruct (begin_dir z hal al stk obuf hjunk pjunk Calm T t o Fs U) as (h1 & X1 & D1 & E1 & P1 & R1 & At1 & Nw). fold o1 in X1, At1.
  specialize (Run h1 D1 E1).
  destruct (extract_ok z C e alloc hal al stk obuf hjunk pjunk Calm T archive F o fuel Hf) as (dfuel0 & K).
  { eapply supported_of. apply Da. }
  { intros s0 dfuel ops rets s evs St Ho Fed R'. rewrite <- Fed in Da.
    destruct (session_extends z C e alloc Halloc _ _ _ _ _ _ _ St Ho Da R') as (_ & [->|(evs' & more & st & -> & S & P)] & _).
    - exists HS0, o. split; reflexivity.
    - destruct (Run _ _ S P) as (h' & o' & X2 & (_ & E2 & _) & _).
      rewrite exec_cbs_app in X2. rewrite exec_cbs_cons, X1. cbn [obind].
      destruct (exec (cbs T hal stk evs' h1) o1) as [[h2 o2]| |] eqn:E3; try discriminate X2. cbn [obind] in X2.
      exists h2, o2. split; [reflexivity|]. destruct (h_err h2) eqn:E4; [|reflexivity].
      rewrite (cbs_err _ _ _ _ _ _ _ _ X2 E4) in E2. congruence. }
  exists dfuel0. intros dfuel Hd. destruct (K dfuel Hd) as (s0 & ops & rets & s & evs & h & o2 & o' & St & Ho & Fed & R' & X2 & E2 & Cl & Ex).
  exists (h_ret h), s, h, (limited archive 0 F), o'. split; [exact Ex|]. rewrite <- Fed in Da.
  destruct (session_extends z C e alloc Halloc _ _ _ _ _ _ _ St Ho Da R') as (_ & _ & S2).
  intro Rl. destruct (S2 Rl Ne) as (evs' & st & -> & S & P). rewrite exec_cbs_cons, X1 in X2. cbn [obind] in X2.
  destruct (Run _ _ S P) as (h' & o3 & X3 & (P3 & _ & R3) & Q). rewrite X3 in X2. injection X2 as <- <-.
  unfold close_fp in Cl. rewrite P3, P1 in Cl. cbn [exec] in Cl. injection Cl as <-. split; [congruence|exact Q].
Qed.
End Records.

(** ** A second file entry of the same name *)

Section Again.
Context (target : bytes) (hal : N -> bool) (stk : N).
Hypothesis Hal : forall n, hal n = true.
Hypothesis Stk : PATH_MAX + 4 <= stk.
Notation cb := (cb target hal stk).
Notation cbs := (cbs target hal stk).

Lemma write_over ds : forall h o n p x y m fds, h_fd h = Some n -> o_fds o = (n, (p, lenN y)) :: fds ->
  o_fs o p = Some (IFile m (y ++ dropN (lenN y) x)) -> lenN (concat ds) <= o_free o ->
  exists o', exec (cbs (map EvRead ds) h) o = Ok (h, o') /\
    (forall q, o_fs o' q = upd (o_fs o) p (IFile m ((y ++ concat ds) ++ dropN (lenN (y ++ concat ds)) x)) q) /\
    o_cwd o' = o_cwd o /\ o_umask o' = o_umask o /\ o_priv o' = o_priv o /\
    o_fds o' = (n, (p, lenN (y ++ concat ds))) :: fds.
Proof.
  induction ds as [|d ds IH]; intros h o n p x y m fds Hf E F L.
  - exists o. cbn [map HL.cbs exec concat]. rewrite app_nil_r. split; [reflexivity|]. repeat split; auto.
    intro q. destruct (path_dec q p) as [->|Hn]; [now rewrite upd_same|now rewrite upd_other].
  - cbn [map concat] in *. rewrite lenN_app in L. rewrite exec_cbs_cons. unfold HL.cb, cb_read. rewrite exec_sys, Hf. cbn [sys].
    unfold sys_write. rewrite E. cbn [find_fd]. rewrite N.eqb_refl, F. cbn zeta.
    set (k := N.min (lenN d) (lenN (y ++ dropN (lenN y) x) - lenN y + o_free o)).
    assert (Ek : k = lenN d) by (unfold k; lia). rewrite Ek.
    assert (Ez : (lenN d =? 0) && negb (lenN d =? 0) = false) by (destruct (lenN d =? 0); reflexivity). rewrite Ez. clear Ez.
    rewrite (takeN_all _ (lenN d) d) by lia. cbn [fst snd exec obind set_fd]. rewrite N.eqb_refl.
    assert (Ov : overwrite (lenN y) d (y ++ dropN (lenN y) x) = (y ++ d) ++ dropN (lenN (y ++ d)) x).
    { unfold overwrite. rewrite takeN_app_exact by reflexivity. rewrite dropN_app.
      rewrite (dropN_all _ (lenN y + lenN d) y) by lia. cbn [app]. replace (lenN y + lenN d - lenN y) with (lenN d) by lia.
      rewrite <- app_assoc. do 2 f_equal. rewrite lenN_app. now rewrite dropN_dropN. }
    rewrite Ov.
    match goal with |- context [exec _ ?oo] => destruct (IH h oo n p x (y ++ d) m fds Hf) as (o' & X & Y & A1 & A2 & A3 & A4) end.
    + cbn [o_fds]. now rewrite lenN_app.
    + cbn [o_fs]. apply upd_same.
    + cbn [o_free]. rewrite !lenN_app. rewrite !lenN_dropN. lia.
    + exists o'. split; [exact X|]. cbn [o_fs o_free o_cwd o_umask o_priv] in *. rewrite (app_assoc y d).
      split; [|auto]. intro q. rewrite Y. destruct (path_dec q p) as [->|Hn]; [now rewrite !upd_same|now rewrite !upd_other].
Qed.

Lemma place_again h o s t it name x m ds : in_dir h s -> it_nlen it = lenN name -> plain name -> lenN s + 1 + lenN name < PATH_MAX ->
  dir_at o s t -> o_fs o (t ++ [name]) = Some (IFile m x) -> can_w (o_priv o) m = true -> lenN (concat ds) <= o_free o ->
  exists h' o', exec (cbs (EvEntry FtFile it (padded name) :: map EvRead ds ++ [EvFileEnd]) h) o = Ok (h', o') /\
    in_dir h' s /\ same_h h h' /\ same_env o o' /\
    (forall q, o_fs o' q = upd (o_fs o) (t ++ [name]) (IFile m (concat ds ++ dropN (lenN (concat ds)) x)) q).
Proof.
  intros D N Pn L Da Ex W Fr. rewrite exec_cbs_cons. unfold HL.cb at 1, cb_entry. pose proof D as (Nz & Ld & _).
  cbn [h_dplen h_setname]. rewrite Ld, N.
  replace (stk <? lenN s + 4 + lenN name) with false by (symmetry; apply N.ltb_ge; lia).
  rewrite (path_ok hal stk Hal Stk (h_setname (padded name) h) s it name D N). cbn [plift pbind]. unfold with_cstr.
  rewrite cstr_app by (now apply no_nul). rewrite exec_sys. cbn [sys].
  assert (Op : sys_open false (s ++ x2f :: name) (N.land 511 (it_mode it)) o = open_at (t ++ [name]) o).
  { unfold sys_open. rewrite (namei_entry true o s t name Da Pn L) by (intros y Q; congruence). rewrite Ex.
    rewrite (slash_end_entry s name Pn), W. reflexivity. }
  rewrite Op. unfold open_at. cbn [fst snd exec obind]. rewrite exec_cbs_app.
  match goal with |- context [exec (cbs (map EvRead ds) ?hh) ?oo] =>
    destruct (write_over ds hh oo (o_next o) (t ++ [name]) x [] m (o_fds o)) as (o' & X & Y & A1 & A2 & A3 & A4) end.
  - reflexivity. - reflexivity. - cbn [o_fs app]. rewrite Ex. do 2 f_equal. symmetry. apply dropN_0. - exact Fr.
  - rewrite X. cbn [obind]. rewrite exec_cbs_cons. unfold HL.cb, cb_file_end. rewrite exec_sys. cbn [h_fd h_setfd sys].
    rewrite (close_head _ _ _ _ A4). cbn [snd exec obind HL.cbs].
    eexists. eexists. split; [reflexivity|]. cbn [o_fs o_free o_cwd o_umask o_priv o_fds app] in *.
    split; [exact D|]. split; [repeat split|]. split; [repeat split; assumption|].
    intro q. rewrite Y. reflexivity.
Qed.
End Again.

(** ** Archives with extra buffers in the root directory *)

(** [F]: the archive of the directory with the entries [es] and the extra buffers [xs] (with paths that are names), delivered completely. *)
Definition archives_with (z : zlib) (xs : list xbuf) (es : list (bytes * snode)) (F : bytes) : Prop :=
  exists (St : Type) (filt : St -> list bytes -> bytes -> skind -> Z * St) e jk hj xjk hjunk al fuel level clbk f0 cevs ws wx led,
    junk_ok jk hj xjk hjunk /\ tree_fits (Some es) /\ accepts filt /\ Forall xb_ok xs /\
    compress_dir z e filt jk hj xjk hjunk al fuel level clbk false xs (Some es) f0 = Ok (CRet 0, cevs, ws, wx, led) /\
    created z al level /\ last_not_full cevs /\ F = cev_bytes cevs.

(** The buffers as files. *)
Definition as_files (xs : list xbuf) : list (bytes * snode) :=
  map (fun x => (xb_path x, SFile true true (xb_mode x) (lenN (xb_data x)) (xb_data x) false)) xs.

Lemma dir_archived_with z (C : zlib_contract z) xs es F : archives_with z xs es F -> Forall (fun x => quiet (snd x)) es ->
  dir_archive C F (map root_rec xs ++ preorder es).
Proof.
  intros (St & filt & e & jk & hj & xjk & hjunk & al & fuel & level & clbk & f0 & cevs & ws & wx & led & J & Ft & Ha & Hx & H & Cr & L & ->) Q.
  destruct (compress_dir_spec z C e filt jk hj xjk hjunk al _ _ _ _ _ _ _ _ _ _ _ _ J Ft Hx H)
    as [(Q' & _)|(_ & xr & recs & content & X1 & T & En & R & P & B & Fi & Q')]; [contradiction|].
  specialize (Q' L). pose proof (xrecs_ok _ _ _ Hx X1) as Okx. cbn in X1. subst xr.
  destruct (header_archive e ContentDirectory hjunk content (proj2 (proj2 (proj2 J))) eq_refl) as [Ar Dr]. rewrite <- Q' in Ar, Dr.
  assert (Ok1 : Forall rec_ok recs).
  { destruct (trav_rec_ok filt _ _ _ _ _ _ T) as [Q1|Q1]; [| |exact Q1].
    - apply jobs_all. unfold tree_fits in Ft. cbn [listing] in *. rewrite Forall_forall in *. intros x Hx'. split; [auto|]. apply quiet_steady. auto.
    - rewrite Q1 in R. discriminate. }
  destruct (trav_pure (fun _ _ _ => 0%Z) filt Ha ltac:(discriminate) _ _ _ _ _ _ T) as (_ & _ & E).
  { apply (jobs_all (fun _ x => quiet x)). exact Q. }
  rewrite kept_jobs, kept_all in E. cbn [listing] in E. subst recs.
  split; [exact B|]. split; [exact Fi|]. split; [exact Ar|]. split; [now rewrite Dr|]. apply Forall_app. auto.
Qed.

Lemma plain_dotb c : plain c -> dotb c = false.
Proof. intros (_ & _ & _ & A & B & _). destruct (dotb c) eqn:E; [|reflexivity]. apply dotb_spec in E. destruct E; contradiction. Qed.
Lemma preorder_as_files xs es : Forall (fun x => plain (xb_path x)) xs -> preorder (as_files xs ++ es) = map root_rec xs ++ preorder es.
Proof.
  induction 1 as [|x xs H F IH]; [reflexivity|]. cbn [as_files map app]. fold (as_files xs). rewrite preorder_cons, IH. cbn [preorder1].
  now rewrite (plain_dotb _ H).
Qed.
Lemma quiet_as_files xs es : Forall (fun x => quiet (snd x)) es -> Forall (fun x => quiet (snd x)) (as_files xs ++ es).
Proof. intro Q. apply Forall_app. split; [|exact Q]. apply Forall_map, Forall_forall. intros x _. constructor. Qed.

Lemma disk_with z (C : zlib_contract z) xs es F e alloc hal al stk obuf hjunk pjunk T archive inp t o fuel :
  archives_with z xs es F -> input_of archive F inp -> (length inp < fuel)%nat ->
  calm z hal al stk obuf hjunk pjunk -> (forall k n, alloc k n = true) ->
  preorder (as_files xs ++ es) <> [] -> Forall (fun x => quiet (snd x)) es -> Forall (fun x => plain (xb_path x)) xs ->
  NoDup (map fst (as_files xs ++ es)) ->
  Forall (fun x => extractable (o_priv o) (o_umask o) (lenN T) (fst x) (snd x)) (as_files xs ++ es) ->
  free_spot o T t -> usable_dir (o_priv o) (o_umask o) MODE_BASE_DIR -> (forall r, o_fs o (t ++ r) = None) ->
  volume (preorder (as_files xs ++ es)) <= o_free o ->
  exists dfuel0, forall dfuel, (dfuel0 <= dfuel)%nat -> exists ret s h ds o',
    exec (extract T hal stk z e alloc archive fuel dfuel al obuf hjunk pjunk inp false) o = Ok ((ret, Some (s, h, ds)), o') /\
    (room_left s -> ret = ContentDirectory /\ same_env o o' /\
      forall q, o_fs o' q = overlay t (dir_tree (o_umask o) (as_files xs ++ es)) (o_fs o) q).
Proof.
  intros A I Hf Ca Ha Ne Q Px ND X Fs U Fr V. pose proof (dir_archived_with z C xs es F A Q) as D.
  rewrite <- (input_limited _ _ _ I), <- (preorder_as_files xs es Px) in D.
  destruct (extract_dir z C e alloc hal al stk obuf hjunk pjunk Ca T archive inp (as_files xs ++ es) t o fuel Ha Hf D Ne (quiet_as_files xs es Q) ND X Fs U Fr V) as (d0 & H).
  exists d0. intros d Hd. destruct (H d Hd) as (ret & s & h & ds & o' & E & R). exists ret, s, h, ds, o'. split; [exact E|].
  intro Rl. destruct (R Rl) as (R1 & R2 & _ & R3). auto.
Qed.

Lemma disk_again z (C : zlib_contract z) xs es c m1 d1 m2 d2 F e alloc hal al stk obuf hjunk pjunk T archive inp t o fuel :
  archives_with z xs (es ++ [(c, SFile true true m2 (lenN d2) d2 false)]) F -> input_of archive F inp -> (length inp < fuel)%nat ->
  calm z hal al stk obuf hjunk pjunk -> (forall k n, alloc k n = true) ->
  Forall (fun x => quiet (snd x)) es -> Forall (fun x => plain (xb_path x)) xs -> plain c -> lenN T + 1 + lenN c < PATH_MAX ->
  NoDup (map fst (as_files xs ++ es)) ->
  Forall (fun x => extractable (o_priv o) (o_umask o) (lenN T) (fst x) (snd x)) (as_files xs ++ es) ->
  tree_at (o_umask o) [c] (as_files xs ++ es) = Some (IFile m1 d1) -> can_w (o_priv o) m1 = true ->
  free_spot o T t -> usable_dir (o_priv o) (o_umask o) MODE_BASE_DIR -> (forall r, o_fs o (t ++ r) = None) ->
  volume (preorder (as_files xs ++ es)) + lenN d2 <= o_free o ->
  exists dfuel0, forall dfuel, (dfuel0 <= dfuel)%nat -> exists ret s h ds o',
    exec (extract T hal stk z e alloc archive fuel dfuel al obuf hjunk pjunk inp false) o = Ok ((ret, Some (s, h, ds)), o') /\
    (room_left s -> ret = ContentDirectory /\ same_env o o' /\
      forall q, o_fs o' q = upd (overlay t (dir_tree (o_umask o) (as_files xs ++ es)) (o_fs o)) (t ++ [c])
        (IFile m1 (d2 ++ dropN (lenN d2) d1)) q).
Proof.
  intros A I Hf Ca Ha Q Px Pc Lc ND X Te W Fs U Fr V.
  assert (Q2 : Forall (fun x => quiet (snd x)) (es ++ [(c, SFile true true m2 (lenN d2) d2 false)])).
  { apply Forall_app. split; [exact Q|]. constructor; [constructor|constructor]. }
  pose proof (dir_archived_with z C xs _ F A Q2) as D. rewrite <- (input_limited _ _ _ I) in D.
  assert (Er : map root_rec xs ++ preorder (es ++ [(c, SFile true true m2 (lenN d2) d2 false)]) =
    preorder (as_files xs ++ es) ++ [AFile c m2 (lenN d2) d2]).
  { rewrite (preorder_as_files xs es Px). unfold preorder. rewrite map_app, concat_app. cbn [map concat fst snd preorder1]. rewrite (plain_dotb c Pc).
    now rewrite app_nil_r, app_assoc. }
  rewrite Er in D. set (es0 := as_files xs ++ es) in *.
  assert (Q0 : Forall (fun x => quiet (snd x)) es0) by (now apply quiet_as_files).
  set (um := o_umask o) in *. set (pv := o_priv o) in *.
  eapply (extract_recs z C e alloc hal al stk obuf hjunk pjunk Ca T archive inp _ t o fuel
    (fun o' => same_env o o' /\ forall q, o_fs o' q = upd (overlay t (dir_tree um es0) (o_fs o)) (t ++ [c]) (IFile m1 (d2 ++ dropN (lenN d2) d1)) q));
    [exact Ha|exact Hf|exact D| |exact Fs|exact U|].
  { destruct (preorder es0); discriminate. }
  intros h1 D1 E1 evs' st S P. fold um. set (o1 := with_fs (upd (o_fs o) t (IDir (dir_perm um MODE_BASE_DIR))) o).
  assert (Nz : ~ In x00 T) by apply Fs.
  destruct (free_mkdir o T t _ Fs U) as (_ & At1 & Nw). fold um in At1. fold o1 in At1.
  assert (Rd : ready pv um o1 T t).
  { split; [exact At1|]. split; [reflexivity|]. split; [reflexivity|]. unfold dir_mode, o1. cbn [o_fs with_fs]. rewrite upd_same. apply U. }
  assert (HP : Forall (fun x : bytes * snode => node_placed T hal stk pv um (snd x)) es0)
    by (apply Forall_forall; intros; apply node_placed_all; [apply (ca_hal _ _ _ _ _ _ _ Ca)|apply (ca_stk _ _ _ _ _ _ _ Ca)]).
  destruct (list_placed T hal stk (ca_hal _ _ _ _ _ _ _ Ca) (ca_stk _ _ _ _ _ _ _ Ca) pv um es0 HP T t Q0 ND X Nz _ _ _ S P) as (ev1 & ev2 & -> & S2 & P2 & Pu).
  destruct (Pu h1 o1 D1 Rd) as (h2 & o2 & X2 & D2 & H2 & Env2 & V2 & K2 & Y2).
  { intros r (c' & _ & _ & r' & ->). unfold o1. cbn [o_fs with_fs]. rewrite upd_other; [apply Fr|].
    intro E. apply (f_equal (@length bytes)) in E. rewrite app_length in E. cbn in E. lia. }
  { cbn [o_free o1 with_fs]. lia. }
  inversion S2 as [|? ? ? ? ? ? ? ? ? S3|? ? ? ? ? S3 Z1 Z2|? ? ? ? ? S3|]; subst.
  destruct (idle_entry _ _ _ _ _ _ P2 (eq_sym Z2)) as (ev3 & -> & F3). cbn [proto_run proto_step] in P2.
  destruct (file_reads _ _ _ _ _ P2 F3) as (ds & ev4 & -> & Ed & F4 & P4). inversion S3 as [Z| | | |]; subst.
  assert (E4 : ev4 = []).
  { destruct ev4 as [|ev ev4]; [reflexivity|]. rewrite flat_cons in *. exfalso. destruct ev; cbn in P4; try discriminate P4; cbn in *; discriminate. }
  subst ev4.
  match goal with |- context [EvEntry FtFile ?it (padded c)] =>
    destruct (place_again T hal stk (ca_hal _ _ _ _ _ _ _ Ca) (ca_stk _ _ _ _ _ _ _ Ca) h2 o2 T t it c d1 m1 ds D2 eq_refl Pc Lc)
      as (h3 & o3 & X3 & D3 & H3 & Env3 & Y3) end.
  - eapply dir_at_keeps; [exact K2|apply Env2|apply Env2|exact At1].
  - rewrite Y2, overlay_at, Te. reflexivity.
  - destruct Env2 as (_ & _ & -> & _). exact W.
  - rewrite V2. cbn [o_free o1 with_fs]. lia.
  - exists h3, o3. rewrite exec_cbs_app, X2. cbn [obind]. split; [exact X3|]. split; [eapply same_h_trans; eauto|].
    split; [eapply same_env_trans; [|exact Env3]; exact Env2|].
    intro q. rewrite Y3. destruct (path_dec q (t ++ [c])) as [->|Hn]; [now rewrite !upd_same|]. rewrite !upd_other by exact Hn. rewrite Y2.
    unfold overlay. destruct (strip t q) as [r|] eqn:Es.
    + apply strip_spec in Es. subst q. unfold o1. cbn [o_fs with_fs]. destruct r as [|c1 r].
      * rewrite app_nil_r, upd_same. cbn [dir_tree]. destruct (tree_at um [] es0) eqn:Et; [discriminate Et|reflexivity].
      * cbn [dir_tree]. destruct (tree_at um (c1 :: r) es0); [reflexivity|]. rewrite upd_other; [reflexivity|].
        intro E. apply (f_equal (@length bytes)) in E. rewrite app_length in E. cbn in E. lia.
    + unfold o1. cbn [o_fs with_fs]. rewrite upd_other; [reflexivity|]. intro E; subst q.
      pose proof (strip_app t []) as E. rewrite app_nil_r in E. congruence.
Qed.

(** ** Working directory (C48) *)

Lemma extract_home z T hal stk e alloc archive fuel dfuel al obuf hjunk pjunk inp rderr o ret x o' :
  reachable o ->
  exec (extract T hal stk z e alloc archive fuel dfuel al obuf hjunk pjunk inp rderr) o = Ok ((ret, x), o') ->
  o_cwd o' = o_cwd o.
Proof.
  intros Re H. unfold extract in H. destruct (_ || _); [now injection H as _ _ <-|].
  destruct (create _ _ _ _ _ _) as [s0|]; [|now injection H as _ _ <-].
  rewrite exec_bind in H.
  destruct (exec (extract_loop _ _ _ _ _ _ _ _ _ _ _ _ _ _ _) o) as [[[[[ok s1] h1] ds1] o1]| |] eqn:El; try discriminate H. cbn [obind] in H.
  destruct (loop_inv _ _ _ _ _ _ _ _ _ _ _ _ _ _ _ _ _ _ _ _ _ El) as (ops & rets & evs & A1 & A2 & A3 & A4 & A5 & A6 & A7 & A8).
  rewrite exec_bind in H. destruct (exec (close_fp h1) o1) as [[[] o2]| |] eqn:Ecl; try discriminate H. cbn [obind] in H.
  destruct (destroy s1) as [s'| |]; try discriminate H. cbn [plift pbind exec] in H. injection H as <- <- <-.
  assert (Hc : o_cwd o2 = o_cwd o1).
  { unfold close_fp in Ecl. destruct (h_fp h1); [|now injection Ecl as <-].
    eapply exec_stays; [|exact Ecl]. apply stays_bind; [now apply stays_sys|]. intro; exact I. }
  rewrite Hc. exact (proj1 (cbs_home _ _ _ _ _ _ _ _ _ (conj eq_refl (reachable_dir _ Re)) A5)).
Qed.

(** ** Archives written by the library, possibly cut short (C41, C45, C53) *)

Section Own.
Context (z : zlib) (C : zlib_contract z) (e : endian) (alloc : N -> N -> bool) (hal al : N -> bool) (stk : N) (obuf hjunk : bytes) (pjunk : pst).
Context (Calm : calm z hal al stk obuf hjunk pjunk).

Lemma tame_first T archive inp t o fuel : (length inp < fuel)%nat ->
  supported z C (first_bytes archive inp) -> lists_tame (z := z) e alloc (lenN T) stk (first_bytes archive inp) ->
  free_spot o T t -> slash_end T = false -> usable_dir (o_priv o) (o_umask o) MODE_BASE_DIR -> (forall r, o_fs o (t ++ r) = None) ->
  exists dfuel0, forall dfuel, (dfuel0 <= dfuel)%nat -> exists ret s0 ops rets s evs h o',
    exec (extract T hal stk z e alloc archive fuel dfuel al obuf hjunk pjunk inp false) o = Ok ((ret, Some (s, h, dfed ops)), o') /\
    started z s0 /\ Forall dop_ok ops /\ prefix (dfed ops) (first_bytes archive inp) /\
    run_dops e alloc dfuel s0 ops = Ok (rets, s, evs) /\ only_below t o o' /\ (file_opens evs = file_ends evs -> o_fds o' = o_fds o).
Proof. rewrite <- limited_first. intros. eapply tame_extract; eauto. Qed.

Lemma own_tame L es F archive inp : (forall k n, alloc k n = true) -> archives_dir z es F -> prefix (first_bytes archive inp) F ->
  forall priv um, Forall (fun x => quiet (snd x)) es -> Forall (fun x => extractable priv um L (fst x) (snd x)) es ->
  supported z C (first_bytes archive inp) /\ lists_tame (z := z) e alloc L stk (first_bytes archive inp).
Proof.
  intros Al Ar Pf priv um Q X. split.
  - eapply supported_prefix; [exact Pf|]. destruct (dir_archived z C _ _ Ar Q) as (_ & _ & A & _). eapply supported_of, A.
  - eapply lists_tame_prefix; [exact Pf|]. eapply archived_tame; eauto. apply Calm.
Qed.
End Own.

Lemma priv_usable um mode : usable_dir true um mode.
Proof. split; reflexivity. Qed.

(** ** Privileged extraction (C52) *)

(** [nameable L name nd]: as [extractable], without conditions on modes. *)
Inductive nameable : N -> bytes -> snode -> Prop :=
| nm_dot L name nd : dotted name -> nameable L name nd
| nm_other L name : nameable L name SOther
| nm_file L name o s mode size data r : plain name -> L + 1 + lenN name < PATH_MAX -> nameable L name (SFile o s mode size data r)
| nm_dir L name mode es : plain name -> L + 1 + lenN name < PATH_MAX -> NoDup (map fst es) ->
    Forall (fun x => nameable (L + 1 + lenN name) (fst x) (snd x)) es -> nameable L name (SDir mode es).
Fixpoint nameable_extractable um L name nd (H : nameable L name nd) {struct H} : extractable true um L name nd :=
  match H in nameable L0 name0 nd0 return extractable true um L0 name0 nd0 with
  | nm_dot L n d D => xt_dot _ _ L n d D
  | nm_other L n => xt_other _ _ L n
  | nm_file L n o s m sz da r P Le => xt_file _ _ L n o s m sz da r P Le
  | nm_dir L n m es P Le Nd Fa => xt_dir _ _ L n m es P Le (priv_usable um m) Nd
      ((fix all l (F : Forall (fun x => nameable (L + 1 + lenN n) (fst x) (snd x)) l) {struct F} :
          Forall (fun x => extractable true um (L + 1 + lenN n) (fst x) (snd x)) l :=
          match F in Forall _ l0 return Forall (fun x => extractable true um (L + 1 + lenN n) (fst x) (snd x)) l0 with
          | Forall_nil _ => Forall_nil _
          | Forall_cons x Hx Hr => Forall_cons x (nameable_extractable um _ _ _ Hx) (all _ Hr)
          end) es Fa)
  end.

Lemma disk_priv z (C : zlib_contract z) es F e alloc hal al stk obuf hjunk pjunk T archive inp t o fuel :
  archives_dir z es F -> input_of archive F inp -> (length inp < fuel)%nat -> calm z hal al stk obuf hjunk pjunk ->
  (forall k n, alloc k n = true) -> preorder es <> [] -> Forall (fun x => quiet (snd x)) es -> NoDup (map fst es) ->
  o_priv o = true -> Forall (fun x => nameable (lenN T) (fst x) (snd x)) es ->
  free_spot o T t -> (forall r, o_fs o (t ++ r) = None) -> volume (preorder es) <= o_free o ->
  exists dfuel0, forall dfuel, (dfuel0 <= dfuel)%nat -> exists ret s h ds o',
    exec (extract T hal stk z e alloc archive fuel dfuel al obuf hjunk pjunk inp false) o = Ok ((ret, Some (s, h, ds)), o') /\
    (room_left s -> ret = ContentDirectory /\ same_env o o' /\ forall q, o_fs o' q = overlay t (dir_tree (o_umask o) es) (o_fs o) q).
Proof.
  intros A I L K Al Ne Q Nd Pr Nm Sp Em V. eapply disk_dir; eauto.
  - rewrite Pr. eapply Forall_impl; [|exact Nm]. intros x Hx. now apply nameable_extractable.
  - rewrite Pr. apply priv_usable.
Qed.

Lemma complete_closed z (C : zlib_contract z) es F e alloc hal al stk obuf hjunk pjunk T archive inp t o fuel :
  archives_dir z es F -> input_of archive F inp -> (length inp < fuel)%nat -> calm z hal al stk obuf hjunk pjunk ->
  (forall k n, alloc k n = true) -> preorder es <> [] -> Forall (fun x => quiet (snd x)) es -> NoDup (map fst es) ->
  Forall (fun x => extractable (o_priv o) (o_umask o) (lenN T) (fst x) (snd x)) es ->
  free_spot o T t -> usable_dir (o_priv o) (o_umask o) MODE_BASE_DIR -> (forall r, o_fs o (t ++ r) = None) ->
  volume (preorder es) <= o_free o ->
  exists dfuel0, forall dfuel, (dfuel0 <= dfuel)%nat -> exists ret s h ds o',
    exec (extract T hal stk z e alloc archive fuel dfuel al obuf hjunk pjunk inp false) o = Ok ((ret, Some (s, h, ds)), o') /\
    (room_left s -> o_fds o' = o_fds o).
Proof.
  intros A I L K Al Ne Q Nd X Sp U Em V.
  destruct (disk_dir z C _ _ e alloc _ _ _ _ _ _ _ _ _ _ _ _ A I L K Al Ne Q Nd X Sp U Em V) as [d0 H]. exists d0. intros d Hd.
  destruct (H d Hd) as (ret & s & h & ds & o' & E & R). exists ret, s, h, ds, o'. split; [exact E|]. intro Rm.
  destruct (R Rm) as (_ & (_ & _ & _ & Fd) & _). exact Fd.
Qed.

Section Own2.
Context (z : zlib) (C : zlib_contract z) (e : endian) (alloc : N -> N -> bool) (hal al : N -> bool) (stk : N) (obuf hjunk : bytes) (pjunk : pst).
Context (Calm : calm z hal al stk obuf hjunk pjunk).

Lemma stays_below T archive inp t o fuel : (length inp < fuel)%nat ->
  supported z C (first_bytes archive inp) -> lists_tame (z := z) e alloc (lenN T) stk (first_bytes archive inp) ->
  free_spot o T t -> slash_end T = false -> usable_dir (o_priv o) (o_umask o) MODE_BASE_DIR -> (forall r, o_fs o (t ++ r) = None) ->
  exists dfuel0, forall dfuel, (dfuel0 <= dfuel)%nat -> exists ret s h ds o',
    exec (extract T hal stk z e alloc archive fuel dfuel al obuf hjunk pjunk inp false) o = Ok ((ret, Some (s, h, ds)), o') /\
    forall q, strip t q = None -> o_fs o' q = o_fs o q.
Proof.
  intros A1 A2 A3 A4 A5 A6 A7. destruct (tame_first z C e alloc _ _ _ _ _ _ Calm _ _ _ _ _ _ A1 A2 A3 A4 A5 A6 A7) as [d0 H]. exists d0. intros d Hd.
  destruct (H d Hd) as (ret & s0 & ops & rets & s & evs & h & o' & E & _ & _ & _ & _ & [B _] & _).
  exists ret, s, h, (dfed ops), o'. split; [exact E|exact B].
Qed.

Lemma tame_returns T archive inp t o fuel : (length inp < fuel)%nat ->
  supported z C (first_bytes archive inp) -> lists_tame (z := z) e alloc (lenN T) stk (first_bytes archive inp) ->
  free_spot o T t -> slash_end T = false -> usable_dir (o_priv o) (o_umask o) MODE_BASE_DIR -> (forall r, o_fs o (t ++ r) = None) ->
  exists dfuel0, forall dfuel, (dfuel0 <= dfuel)%nat -> exists r,
    exec (extract T hal stk z e alloc archive fuel dfuel al obuf hjunk pjunk inp false) o = Ok r.
Proof.
  intros A1 A2 A3 A4 A5 A6 A7. destruct (tame_first z C e alloc _ _ _ _ _ _ Calm _ _ _ _ _ _ A1 A2 A3 A4 A5 A6 A7) as [d0 H]. exists d0. intros d Hd.
  destruct (H d Hd) as (ret & s0 & ops & rets & s & evs & h & o' & E & _). eexists. exact E.
Qed.
End Own2.
