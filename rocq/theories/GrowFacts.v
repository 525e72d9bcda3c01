(** GrowFacts.v: how much an extraction can write (C155). *)
From Coq Require Import Lia ZifyN.
From Verif Require Import Base Format Zlib Compress Parser ParserProofs ParserFacts Decompress DecompressProofs MidProofs MidFacts
  ArchiveSpec ArchiveFacts ArchiveDecode FS FSFacts HL HLSpec HLFacts HLDrive HLProps HLSafe MkdirFacts HLTame HLMore RobustFacts Fds NoneFacts.

(** ** Specification *)
(** The bytes of an archive a callback stands for: 40 and the name for an entry, 40 for the end of a directory, the bytes passed for contents and
    targets of links. *)
Definition load (ev : event) : N :=
  match ev with
  | EvEntry _ _ name => 40 + lenN name
  | EvDirEnd => 40
  | EvRead d | EvFlRead d | EvSym d _ => lenN d
  | _ => 0
  end.
Definition loads (evs : list event) : N := fold_right N.add 0 (map load evs).
(** The bytes to be written to files. *)
Definition written (evs : list event) : N :=
  fold_right N.add 0 (map (fun ev => match ev with EvRead d | EvFlRead d => lenN d | _ => 0 end) evs).

Lemma loads_app a b : loads (a ++ b) = loads a + loads b.
Proof. unfold loads. rewrite map_app, fold_right_app. induction a as [|x a IH]; cbn [map fold_right]; [lia|]. rewrite IH. lia. Qed.
Lemma loads_cons a b : loads (a :: b) = load a + loads b. Proof. reflexivity. Qed.
Lemma written_loads evs : written evs <= loads evs.
Proof.
  induction evs as [|ev evs IH]; [cbn; lia|]. unfold written, loads in *. cbn [map fold_right].
  destruct ev; cbn [load]; lia.
Qed.

(** ** The decoder *)
(** The bytes of the current record that have been read and not yet been accounted for. *)
Definition pend (s : pst) : N := match p_stage s with StHeader => p_off s | StFilename => 40 + p_off s | _ => 0 end.

Section Dec.
Context (e : endian) (alloc : N -> N -> bool).
Lemma sec_end_load t s d s1 evs : pwf e s -> p_err s = false -> lenN d = prem s ->
  sec_end e alloc t s d = Ok (s1, evs) -> loads evs + pend s1 <= pend s + lenN d.
Proof.
  intros [Wi [W|(W1 & W2 & W3)]] He Hd H; [congruence|]. unfold sec_end in H. unfold pend, prem in *.
  destruct (p_stage s) eqn:Es.
  - destruct W3 as [Hs Ho]. unfold ITEM_SIZE in *. destruct (checked_write _ _ _) as [img| |]; try discriminate H. cbn [obind] in H.
    repeat (match type of H with (if ?b then _ else _) = _ => destruct b end;
            [injection H as <- <-; cbn; rewrite ?Es; lia|]).
    injection H as <- <-. cbn. rewrite Es. lia.
  - destruct W3 as (Hit & Hs & (blk & Hb & Lb) & Hc). rewrite Hb in H. unfold write_name in H.
    destruct (checked_write_ok alloc (p_off s) d blk) as [E L]; [lia|]. rewrite E in H. cbn [obind] in H.
    repeat (match type of H with (if ?b then _ else _) = _ => destruct b end; try discriminate H;
      try (injection H as <- <-; cbn [loads map fold_right load set_sec set_name p_stage p_off]; lia)).
  - destruct (byte_eqb _ _); [|discriminate]. injection H as <- <-. cbn [loads map fold_right load set_sec p_stage p_off]. lia.
  - destruct (_ || _); [|discriminate]. injection H as <- <-. cbn. lia.
  - destruct (byte_eqb _ _); [|discriminate]. injection H as <- <-. cbn [loads map fold_right load set_sec p_stage p_off]. lia.
  - destruct (_ || _); [|discriminate]. injection H as <- <-. cbn. lia.
Qed.
Lemma sec_part_load s d s1 evs : sec_part s d = Ok (s1, evs) -> loads evs + pend s1 <= pend s + lenN d.
Proof.
  intro H. unfold sec_part in H. unfold pend. destruct (p_stage s) eqn:Es.
  - destruct (checked_write _ _ _) as [img| |]; try discriminate H. injection H as <- <-. cbn [loads map fold_right set_off set_img p_stage p_off]. rewrite Es. lia.
  - destruct (write_name _ _ _) as [name| |]; try discriminate H. injection H as <- <-. cbn [loads map fold_right set_off set_name p_stage p_off]. rewrite Es. lia.
  - injection H as <- <-. cbn [loads map fold_right load set_off p_stage p_off]. rewrite Es. lia.
  - injection H as <- <-. cbn [loads map fold_right load set_off p_stage p_off]. rewrite Es. lia.
  - injection H as <- <-. cbn [loads map fold_right load set_off p_stage p_off]. rewrite Es. lia.
  - injection H as <- <-. cbn [loads map fold_right load set_off p_stage p_off]. rewrite Es. lia.
Qed.
Lemma parse_load : forall n t s b s1 evs, (4 * length b + rank s <= n)%nat -> pwf e s ->
  parse e alloc t s b = Ok (s1, evs) -> loads evs + pend s1 <= pend s + lenN b.
Proof.
  induction n as [n IH] using (well_founded_induction Wf_nat.lt_wf). intros t s b s1 evs Hn W H.
  rewrite parse_eq in H by assumption.
  destruct (p_err s) eqn:He. { injection H as <- <-. cbn. lia. }
  destruct (N.leb_spec (prem s) (lenN b)) as [Hl|Hl].
  - assert (Ld : lenN (takeN (prem s) b) = prem s) by (rewrite lenN_takeN; lia).
    destruct (sec_end_ok e alloc (dropN (prem s) b ++ t) s (takeN (prem s) b) W He Ld) as (s2 & ev & E & W1 & R).
    rewrite E in H. cbn [obind] in H.
    pose proof (sec_end_load _ _ _ _ _ W He Ld E) as P1. rewrite Ld in P1.
    destruct (N.ltb_spec (prem s) (lenN b)) as [Hl2|Hl2].
    + destruct (parse e alloc t s2 (dropN (prem s) b)) as [[s3 ev3]| |] eqn:E3; try discriminate H. cbn [obind] in H.
      injection H as <- <-. rewrite loads_app.
      pose proof (lenN_dropN _ (prem s) b) as L.
      assert (Hlen : (length (dropN (prem s) b) + N.to_nat (prem s) = length b)%nat) by (unfold lenN in *; lia).
      pose proof (rank_le s2). pose proof (rank_le s).
      assert (P2 : loads ev3 + pend s3 <= pend s2 + lenN (dropN (prem s) b)).
      { apply (IH (4 * length (dropN (prem s) b) + rank s2)%nat) with (2 := le_n _) (4 := E3); [|exact W1].
        destruct R as [R|[R1 R2]]; lia. }
      lia.
    + injection H as <- <-. lia.
  - eapply sec_part_load; eauto.
Qed.
Lemma chunks_load : forall chunks s s1 evs, pwf e s -> parse_chunks e alloc s chunks = Ok (s1, evs) -> loads evs + pend s1 <= pend s + lenN (ctext chunks).
Proof.
  induction chunks as [|[d t] chunks IH]; intros s s1 evs W H; cbn [parse_chunks] in H.
  - injection H as <- <-. cbn. lia.
  - destruct (parse_ok e alloc t s d W) as (s2 & ev1 & E & W2). rewrite E in H. cbn [obind] in H.
    destruct (parse_chunks e alloc s2 chunks) as [[s3 ev2]| |] eqn:E2; try discriminate H. cbn [obind] in H. injection H as <- <-.
    pose proof (parse_load _ _ _ _ _ _ (le_n _) W E) as P1. pose proof (IH _ _ _ W2 E2) as P2.
    rewrite loads_app. change (ctext ((d, t) :: chunks)) with (d ++ ctext chunks). rewrite lenN_app. lia.
Qed.
End Dec.

Section Session.
Context (z : zlib) (C : zlib_contract z) (e : endian) (alloc : N -> N -> bool).
(** A session calls back for no more than the bytes behind the header. *)
Lemma session_load fuel s0 ops rets s evs : started z s0 -> Forall dop_ok ops -> run_dops e alloc fuel s0 ops = Ok (rets, s, evs) ->
  evs = [] \/ loads evs + 128 <= lenN (zc_dec C (dfed ops)).
Proof.
  intros St Ho R. set (P := zc_dec C (dfed ops)).
  destruct (N.lt_ge_cases (lenN P) 128) as [L|L]; [left; eapply (before_header z C); eauto|].
  destruct (N.eq_dec (version_of P) 0) as [V|V]; [|left; eapply (bad_version z C); eauto].
  destruct (N.eq_dec (type_of P) ContentDirectory) as [Td|Td].
  { assert (Ar : archive_of ContentDirectory P) by now repeat split.
    destruct (dir_session z C e alloc _ _ _ _ _ _ St Ho Ar R) as [[->|(ch & ev' & -> & (s' & E) & [y Py])] _]; [now left|right].
    assert (W : pwf e (dir_fresh (set_err false (d_p s0)))).
    { apply (fresh_at_hdr e), (started_leftovers z), St. }
    pose proof (chunks_load e alloc _ _ _ _ W E) as K. apply (f_equal lenN) in Py. rewrite lenN_app, lenN_dropN in Py. fold P in Py.
    rewrite loads_cons. cbn [load]. change (pend (dir_fresh (set_err false (d_p s0)))) with 0 in K. lia. }
  assert (Fi : type_of P = ContentFile \/ type_of P = ContentBlob -> evs = [] \/ loads evs + 128 <= lenN P).
  { intro Tf. assert (Ar : archive_of (type_of P) P) by now repeat split.
    destruct (file_session z C e alloc _ _ _ _ _ _ _ St Ho Ar Tf R) as [[->|(ds & -> & [y Py])] _]; [now left|right].
    apply (f_equal lenN) in Py. rewrite lenN_app, lenN_dropN in Py. fold P in Py. unfold reads. rewrite loads_cons. cbn [load].
    assert (K : loads (map EvFlRead ds) = lenN (concat ds)).
    { clear. induction ds as [|d ds IH]; [reflexivity|]. cbn [map concat]. rewrite loads_cons, lenN_app, IH. reflexivity. }
    lia. }
  destruct (N.eq_dec (type_of P) ContentFile) as [T1|T1]; [auto|]. destruct (N.eq_dec (type_of P) ContentBlob) as [T2|T2]; [auto|].
  left. eapply (unknown_type z C) with (typ := type_of P); eauto. now repeat split.
Qed.
End Session.

(** ** The file system *)
Lemma sys_free c o : match c with ScWrite _ _ => True | _ => o_free o <= o_free (snd (sys c o)) end.
Proof.
  destruct c as [s m|s|tr s m|fd d|fd|n|s|x s]; cbn [sys]; try exact Logic.I.
  - unfold sys_mkdir. destruct (namei false o s) as [er|d|d c [i|]]; try apply N.le_refl. destruct (can_w _ _); apply N.le_refl.
  - unfold sys_stat_dir. destruct (namei true o s) as [er|d|d c [[]|]]; apply N.le_refl.
  - unfold sys_open. destruct (namei true o s) as [er|d|d c [[m'|m' x|x]|]]; try apply N.le_refl.
    + destruct (slash_end s); [apply N.le_refl|]. destruct (negb _); [apply N.le_refl|]. destruct tr; cbn; lia.
    + destruct (slash_end s); [apply N.le_refl|]. destruct (can_w _ _); apply N.le_refl.
  - unfold sys_close. destruct fd as [n|]; [|apply N.le_refl]. destruct (find_fd n (o_fds o)); apply N.le_refl.
  - unfold sys_getcwd. destruct (o_fs o (o_cwd o)) as [[]|]; try apply N.le_refl. destruct (_ <=? _); apply N.le_refl.
  - unfold sys_chdir. destruct (namei true o s) as [er|d|d c i]; try apply N.le_refl; unfold enter; repeat match goal with |- context [match ?b with _ => _ end] => destruct b end; apply N.le_refl.
  - unfold sys_symlink. destruct (negb _); [apply N.le_refl|]. destruct (_ <=? _); [apply N.le_refl|].
    destruct (namei false o s) as [er|d|d c [i|]]; try apply N.le_refl. destruct (slash_end s); [apply N.le_refl|]. destruct (can_w _ _); apply N.le_refl.
Qed.
Lemma write_free fd d o : o_free o <= o_free (snd (sys (ScWrite fd d) o)) + lenN d.
Proof.
  cbn [sys]. unfold sys_write. destruct fd as [n|]; [|cbn; lia]. destruct (find_fd n (o_fds o)) as [[p off]|]; [|cbn; lia].
  destruct (o_fs o p) as [[m|m x|x]|]; try (cbn; lia). destruct (_ && _); [cbn; lia|]. cbn [snd o_free].
  unfold overwrite. rewrite !lenN_app, lenN_dropN, !lenN_takeN. lia.
Qed.
Lemma exec_fdless_free {A} (p : prog A) : fdless p -> forall o a o', exec p o = Ok (a, o') -> o_free o <= o_free o'.
Proof.
  induction p as [a| | |c k IH]; intros S o a' o' H; cbn in H; try discriminate.
  - injection H as _ <-. apply N.le_refl.
  - destruct S as [S1 S2]. destruct (sys c o) as [r o1] eqn:E. pose proof (IH _ (S2 r) _ _ _ H) as K.
    pose proof (sys_free c o) as Q. rewrite E in Q. cbn [snd] in Q. destruct c; try discriminate S1; lia.
Qed.
Section Cbs.
Context (T : bytes) (hal : N -> bool) (stk : N).
Lemma cb_free ev h o h1 o1 : exec (cb T hal stk ev h) o = Ok (h1, o1) -> o_free o <= o_free o1 + written [ev].
Proof.
  destruct ev as [x y| | |d|ft it name|d| | |d t]; cbn [cb]; intro X.
  - cbn in X. injection X as <- <-. cbn. lia.
  - unfold cb_dr_start in X. rewrite exec_bind in X. destruct (exec (mkdir_recurse _ _ _) o) as [[r o2]| |] eqn:E; try discriminate X. cbn [obind] in X.
    apply (exec_fdless_free _ (mkdir_fdless _ _ _)) in E. destruct (negb (r =? 0)%Z); [cbn in X; injection X as _ <-; cbn; lia|].
    destruct (negb _); cbn in X; injection X as _ <-; cbn; lia.
  - unfold cb_fl_start in X. apply exec_psys in X. destruct X as (r & o2 & E & X). pose proof (sys_free (ScOpen true T MODE_FOPEN) o) as K. rewrite E in K. cbn [snd] in K.
    destruct r; cbn in X; injection X as _ <-; cbn; lia.
  - unfold cb_fl_read in X. destruct (h_fp h) as [n|]; [|discriminate X]. apply exec_psys in X. destruct X as (r & o2 & E & X).
    pose proof (write_free (Some n) d o) as K. rewrite E in K. cbn [snd] in K. cbn in X. injection X as _ <-. cbn [written map fold_right]. lia.
  - destruct ft; cbn [cb_entry] in X.
    + cbn in X. injection X as _ <-. cbn. lia.
    + destruct (negb _); [cbn in X; injection X as _ <-; cbn; lia|]. rewrite exec_bind in X.
      destruct (entry_path _ _ _) as [b| |]; try discriminate X. cbn [plift exec obind] in X. apply with_cstr_ok in X. destruct X as (s & _ & X).
      rewrite exec_bind in X. destruct (exec (mkdir_recurse _ _ _) o) as [[rr o3]| |] eqn:E; try discriminate X. cbn [obind exec] in X.
      injection X as _ <-. apply (exec_fdless_free _ (mkdir_fdless _ _ _)) in E. cbn. lia.
    + destruct (stk <? _); [discriminate|]. rewrite exec_bind in X.
      destruct (entry_path _ _ _) as [b| |]; try discriminate X. cbn [plift exec obind] in X. apply with_cstr_ok in X. destruct X as (s & _ & X).
      apply exec_psys in X. destruct X as (r & o2 & E & X). pose proof (sys_free (ScOpen false s (N.land 511 (it_mode it))) o) as K. rewrite E in K. cbn [snd] in K.
      destruct r; cbn in X; injection X as _ <-; cbn; lia.
    + cbn in X. injection X as _ <-. cbn. lia.
  - unfold cb_read in X. apply exec_psys in X. destruct X as (r & o2 & E & X).
    pose proof (write_free (h_fd h) d o) as K. rewrite E in K. cbn [snd] in K. cbn in X. injection X as _ <-. cbn [written map fold_right]. lia.
  - unfold cb_file_end in X. apply exec_psys in X. destruct X as (r & o2 & E & X).
    pose proof (sys_free (ScClose (h_fd h)) o) as K. rewrite E in K. cbn [snd] in K. cbn in X. injection X as _ <-. cbn. lia.
  - unfold cb_dir_end in X. destruct (h_dp h) as [b|]; [|discriminate]. apply with_cstr_ok in X. destruct X as (s1 & _ & X).
    destruct (rindex _ _); [|discriminate]. cbn in X. injection X as _ <-. cbn. lia.
  - apply (exec_fdless_free _ (sym_fdless d t h)) in X. cbn. lia.
Qed.
Lemma cbs_free : forall evs h o h1 o1, exec (cbs T hal stk evs h) o = Ok (h1, o1) -> o_free o <= o_free o1 + written evs.
Proof.
  induction evs as [|ev evs IH]; intros h o h1 o1 X; [cbn in X; injection X as _ <-; cbn; lia|]. rewrite exec_cbs_cons in X.
  destruct (exec (cb T hal stk ev h) o) as [[h2 o2]| |] eqn:E; try discriminate X. cbn [obind] in X.
  apply IH in X. apply cb_free in E. assert (Q : written (ev :: evs) = written [ev] + written evs) by (unfold written; cbn [map fold_right]; lia). lia.
Qed.
End Cbs.

Section Extraction.
Context (z : zlib) (C : zlib_contract z) (e : endian) (alloc : N -> N -> bool) (hal al : N -> bool) (stk : N) (obuf hjunk : bytes) (pjunk : pst).
Hypothesis Calm : calm z hal al stk obuf hjunk pjunk.
Lemma extract_free T archive fuel dfuel inp rderr o ret x o' :
  exec (extract T hal stk z e alloc archive fuel dfuel al obuf hjunk pjunk inp rderr) o = Ok ((ret, x), o') ->
  o_free o <= o_free o' + (lenN (zc_dec C (first_bytes archive inp)) - 128).
Proof.
  intro H. destruct (extract_did z C e alloc hal al stk obuf hjunk pjunk Calm _ _ _ _ _ _ _ _ _ _ H)
    as (s0 & ops & rets & s & evs & h & o2 & ds & -> & St & Ho & Fed & R & X & Cl & Pf & _ & _ & _).
  rewrite limited_first in Pf. rewrite <- Fed in Pf. destruct Pf as [y Ey]. destruct (zc_dec_mono _ C (dfed ops) y) as [u Eu]. rewrite <- Ey in Eu.
  apply (f_equal lenN) in Eu. rewrite lenN_app in Eu.
  assert (K : o_free o2 <= o_free o').
  { unfold close_fp in Cl. destruct (h_fp h) as [n|]; [|cbn in Cl; injection Cl as <-; lia]. apply exec_psys in Cl. destruct Cl as (r & o3 & E & Q).
    cbn in Q. injection Q as <-. pose proof (sys_free (ScClose (Some n)) o2) as K. rewrite E in K. exact K. }
  apply cbs_free in X. pose proof (written_loads evs) as W.
  destruct (session_load z C e alloc _ _ _ _ _ _ St Ho R) as [->|L]; [cbn in X; lia|lia].
Qed.
End Extraction.
