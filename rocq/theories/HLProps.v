(** HLProps.v: whole extractions. *)
From Coq Require Import Lia.
From Verif Require Import Base Format Zlib LLCompress CompressFacts Compress Parser ParserProofs ParserFacts Decompress DecompressProofs MidProofs MidFacts
  ArchiveSpec ArchiveFacts ArchiveDecode ArchiveEntry ArchiveProps FS FSFacts HL HLSpec HLFacts HLDrive.

(** ** Creating the target *)

Lemma walk_none fs priv follow d' c' : forall links d cs, walk_path fs priv follow links d cs = WAt d' c' None ->
  fs (d' ++ [c']) = None /\ exists m, fs d' = Some (IDir m) /\ can_x priv m = true.
Proof.
  induction links as [links IHl] using (well_founded_induction lt_wf).
  intros d cs. revert d. induction cs as [|c1 r IH]; intros d Hw; rewrite walk_eq in Hw; [discriminate|].
  destruct (fs d) as [[m1|m1 x|x]|] eqn:Ed; try discriminate. destruct (negb _) eqn:Ex; [discriminate|].
  destruct (bytes_eqb c1 _); [eauto|]. destruct (bytes_eqb c1 _); [eauto|]. destruct (_ <? _); [discriminate|].
  destruct (fs (d ++ [c1])) as [[m2|m2 x|x]|] eqn:Ec.
  - destruct r; [discriminate|eauto].
  - destruct r; discriminate.
  - assert (Q : match r, follow with [], false => WAt d c1 (Some (ILink x)) | _, _ =>
       match links with O => WErr ELOOP | S l => if nonempty x then walk_path fs priv follow l (start x d) (comps x ++ r) else WErr ENOENT end end = WAt d' c' None ->
       match links with O => WErr ELOOP | S l => if nonempty x then walk_path fs priv follow l (start x d) (comps x ++ r) else WErr ENOENT end = WAt d' c' None)
      by (destruct r, follow; auto; discriminate).
    apply Q in Hw. destruct links as [|l]; [discriminate|]. destruct (nonempty x); [|discriminate]. eapply IHl; [|exact Hw]. lia.
  - destruct r; [|discriminate]. injection Hw as <- <-. split; [exact Ec|]. exists m1. split; [exact Ed|]. now destruct (can_x priv m1).
Qed.

Lemma walk_made fs priv m follow d' c' : can_x priv m = true -> fs (d' ++ [c']) = None -> forall links d cs,
  walk_path fs priv follow links d cs = WAt d' c' None -> leads (upd fs (d' ++ [c']) (IDir m)) priv links d cs (d' ++ [c']).
Proof.
  intros X Nw links d cs Hw. split; [exists m; split; [apply upd_same|exact X]|]. revert links d cs Hw.
  set (fs' := upd fs (d' ++ [c']) (IDir m)).
  assert (Keep : forall p i, fs p = Some i -> fs' p = Some i) by (intros p i E; unfold fs'; rewrite upd_other; congruence).
  induction links as [links IHl] using (well_founded_induction lt_wf).
  intros d cs. revert d. induction cs as [|c1 r IH]; intros d Hw; rewrite walk_eq in Hw; [discriminate|].
  rewrite walk_eq. destruct (fs d) as [i|] eqn:Ed; [|discriminate]. rewrite (Keep _ _ Ed).
  destruct i as [m1|m1 x|x]; try discriminate. destruct (negb _) eqn:Ex; [discriminate|].
  destruct (bytes_eqb c1 _); [eauto|]. destruct (bytes_eqb c1 _); [eauto|]. destruct (_ <? _); [discriminate|].
  destruct (fs (d ++ [c1])) as [j|] eqn:Ec.
  - rewrite (Keep _ _ Ec). destruct j as [m2|m2 x|x].
    + destruct r; [discriminate|eauto].
    + destruct r; discriminate.
    + assert (Q : match r, follow with [], false => WAt d c1 (Some (ILink x)) | _, _ =>
       match links with O => WErr ELOOP | S l => if nonempty x then walk_path fs priv follow l (start x d) (comps x ++ r) else WErr ENOENT end end = WAt d' c' None ->
       match links with O => WErr ELOOP | S l => if nonempty x then walk_path fs priv follow l (start x d) (comps x ++ r) else WErr ENOENT end = WAt d' c' None)
      by (destruct r, follow; auto; discriminate).
      apply Q in Hw. clear Q. destruct links as [|l]; [discriminate|]. destruct (nonempty x); [|discriminate].
      destruct (IHl l ltac:(lia) _ _ Hw) as [E|(a & b & m' & E & Et)]; [left|right; exists a, b, m'; split; [|exact Et]]; destruct r; exact E.
  - destruct r; [|discriminate]. injection Hw as <- <-. right. unfold fs'. rewrite upd_same. eauto.
Qed.

(** [T] names the entry [t] that does not exist; its directory exists and can be written. *)
Definition free_spot (o : os) (T : bytes) (t : path) : Prop :=
  ~ In x00 T /\ (exists d c, t = d ++ [c] /\ namei false o T = WAt d c None /\ can_w (o_priv o) (dir_mode (o_fs o) d) = true).

Lemma free_mkdir o T t mode : free_spot o T t -> usable_dir (o_priv o) (o_umask o) mode ->
  let o1 := with_fs (upd (o_fs o) t (IDir (dir_perm (o_umask o) mode))) o in
  exec (mkdir_recurse true T mode) o = Ok (0%Z, o1) /\ dir_at o1 T t /\ o_fs o t = None.
Proof.
  intros (Nz & d & c & -> & Hn & W) [Ux Uw] o1.
  assert (E : sys_mkdir T mode o = (ROk, o1)) by (unfold sys_mkdir; rewrite Hn, W; reflexivity).
  unfold namei in Hn. destruct (nonempty T) eqn:En; [|discriminate]. cbn [negb] in Hn. destruct (_ <=? _); [discriminate|].
  destruct (walk_none _ _ _ _ _ _ _ _ Hn) as [Hno _].
  split; [|split].
  - unfold mkdir_recurse, mkdir_raw. rewrite exec_bind. unfold os_create, with_cstr. change (T ++ [x00]) with (T ++ x00 :: []).
    rewrite cstr_app by exact Nz. rewrite exec_sys. cbn [sys]. rewrite E. reflexivity.
  - split; [destruct T; discriminate|]. exact (walk_made _ _ _ _ _ _ Ux Hno _ _ _ Hn).
  - exact Hno.
Qed.

(** ** Directory archives *)

(** [F]: a complete, valid and unfinished stream whose content is a directory archive of the records [recs]. *)
Definition dir_archive {z} (C : zlib_contract z) (F : bytes) (recs : list arec) : Prop :=
  zc_bad C F = false /\ zc_fin C F = false /\ archive_of ContentDirectory (zc_dec C F) /\ encodes recs (dropN 128 (zc_dec C F)) /\
  Forall rec_ok recs.

Section Dir.
Context (z : zlib) (C : zlib_contract z) (e : endian) (alloc : N -> N -> bool).
Hypothesis Halloc : forall k n, alloc k n = true.

Lemma parse_chunks_app c1 : forall s c2, parse_chunks e alloc s (c1 ++ c2) =
  do (s1, ev1) <- parse_chunks e alloc s c1; do (s2, ev2) <- parse_chunks e alloc s1 c2; Ok (s2, ev1 ++ ev2).
Proof.
  induction c1 as [|[d t] c1 IH]; intros s c2; cbn [app ParserFacts.parse_chunks obind].
  - destruct (parse_chunks e alloc s c2) as [[]| |]; reflexivity.
  - destruct (parse e alloc t s d) as [[s1 ev1]| |]; cbn [obind]; try reflexivity. rewrite IH.
    destruct (parse_chunks e alloc s1 c1) as [[s2 ev2]| |]; cbn [obind]; try reflexivity.
    destruct (parse_chunks e alloc s2 c2) as [[s3 ev3]| |]; cbn [obind]; try reflexivity. now rewrite app_assoc.
Qed.

(** The callbacks so far are the beginning of those that present the records. *)
Lemma session_extends fuel s0 ops rets s evs recs : started z s0 -> Forall dop_ok ops -> dir_archive C (dfed ops) recs ->
  run_dops e alloc fuel s0 ops = Ok (rets, s, evs) ->
  Forall (fun r => r = 0%Z) rets /\
  (evs = [] \/ exists evs' more st, evs = EvDirBegin :: evs' /\ shows recs (flat (evs' ++ more)) /\ proto_run Idle (evs' ++ more) = Some st) /\
  (room_left s -> recs <> [] -> exists evs' st, evs = EvDirBegin :: evs' /\ shows recs (flat evs') /\ proto_run Idle evs' = Some st).
Proof.
  intros Hs Ho (B & Fi & Ar & En & Rk) H.
  assert (At : at_hdr e (dir_fresh (set_err false (d_p s0)))) by (apply fresh_at_hdr, started_leftovers, Hs).
  destruct (dir_session z C e alloc _ _ _ _ _ _ Hs Ho Ar H) as [D1 D2]. destruct (D2 B Fi) as [D3 D4].
  split; [exact D3|]. split.
  - destruct D1 as [->|(ch & ev' & -> & (s' & E) & [y Ey])]; [left; reflexivity|]. right.
    destruct (parse_chunks_ok e alloc (ch ++ [(y, [])]) _ (fresh_pwf e _ (started_leftovers z s0 Hs))) as (s1 & ev1 & E1 & _ & P).
    pose proof E1 as E2. rewrite parse_chunks_app, E in E2. cbn [obind] in E2.
    destruct (parse_chunks e alloc s' [(y, [])]) as [[s2 ev2]| |]; try discriminate E2. cbn [obind] in E2. injection E2 as <- <-.
    exists ev', ev2, (proto_of s2). split; [reflexivity|].
    split; [|exact P]. eapply (decode_chunks e alloc Halloc); [exact At| |exact Rk|exact E1].
    unfold ctext in *. rewrite map_app, concat_app. cbn [map concat fst]. rewrite app_nil_r, <- Ey. exact En.
  - intros Rl Hr. assert (L1 : 128 < lenN (zc_dec C (dfed ops))).
    { pose proof (encodes_nonempty _ _ En Hr) as Q. destruct (dropN 128 (zc_dec C (dfed ops))) eqn:Ed; [contradiction|].
      assert (lenN (dropN 128 (zc_dec C (dfed ops))) <> 0) by (rewrite Ed, lenN_cons; lia). rewrite lenN_dropN in *. lia. }
    destruct (D4 Rl L1) as (ch & ev' & -> & (s' & E) & Ec).
    destruct (parse_chunks_ok e alloc ch _ (fresh_pwf e _ (started_leftovers z s0 Hs))) as (s1 & ev1 & E1 & _ & P).
    rewrite E in E1. injection E1 as <- <-. exists ev', (proto_of s'). split; [reflexivity|]. split; [|exact P].
    eapply (decode_chunks e alloc Halloc); [exact At| |exact Rk|exact E]. rewrite Ec. exact En.
Qed.
End Dir.

(** ** The environment of an extraction without failures *)
Record calm (z : zlib) (hal al : N -> bool) (stk : N) (obuf hjunk : bytes) (pjunk : pst) : Prop := {
  ca_hal : forall n, hal n = true;
  ca_al : forall n, al n = true;
  ca_stk : PATH_MAX + 4 <= stk;
  ca_obuf : lenN obuf = DEF_CHUNK_SIZE;
  ca_hjunk : lenN hjunk = 128;
  ca_pjunk : lenN (p_img pjunk) = 40;
  ca_init : inflateInit z <> None
}.

(** The directory with the entries [es] at [r] below the target. *)
Definition dir_tree (um : N) (es : list (bytes * snode)) (r : path) : option inode :=
  match r with [] => Some (IDir (dir_perm um MODE_BASE_DIR)) | _ => tree_at um r es end.

Section Extraction.
Context (z : zlib) (C : zlib_contract z) (e : endian) (alloc : N -> N -> bool) (hal al : N -> bool) (stk : N) (obuf hjunk : bytes) (pjunk : pst).
Hypothesis Calm : calm z hal al stk obuf hjunk pjunk.

Lemma calm_started : exists s0, create z (al 3) (Some obuf) DEF_CHUNK_SIZE hjunk pjunk = Some s0 /\ started z s0 /\ safe z C s0.
Proof.
  destruct Calm as [A B D E F G I]. unfold create. rewrite B. destruct (inflateInit z) as [i|] eqn:Ei; [|contradiction].
  eexists. split; [reflexivity|]. split.
  - exists (Some obuf), DEF_CHUNK_SIZE, hjunk, pjunk. split; [unfold create; rewrite Ei; reflexivity|].
    split; [exists obuf; split; [reflexivity|]; unfold DEF_CHUNK_SIZE, two32 in *; lia|]. split; assumption.
  - eapply (create_safe z C alloc true obuf DEF_CHUNK_SIZE hjunk pjunk); [unfold DEF_CHUNK_SIZE, two32; lia|lia|exact F|].
    unfold create. rewrite Ei. reflexivity.
Qed.

Lemma run_dops_safe fuel : forall ops s rets s' evs, safe z C s -> (forall b n, ~ In (DSetBuffer b n) ops) ->
  run_dops e alloc fuel s ops = Ok (rets, s', evs) -> safe z C s'.
Proof.
  induction ops as [|[f d|b n] ops IH]; intros s rets s' evs S Hn H; cbn [run_dops] in H.
  - injection H as <- <- <-. exact S.
  - destruct (decompress e alloc fuel f d s) as [[[r1 s1] ev1]| |] eqn:E; try discriminate H. cbn [obind] in H.
    destruct (run_dops e alloc fuel s1 ops) as [[[rs s2] ev2]| |] eqn:E2; try discriminate H. cbn [obind] in H. injection H as <- <- <-.
    eapply IH; [|intros b n Q; apply (Hn b n); now right|exact E2]. eapply decompress_safe; eauto.
  - destruct (Hn b n). now left.
Qed.
Lemma chunk_ops_feeds archive fuel : forall inp total idx b n, ~ In (DSetBuffer b n) (chunk_ops archive fuel inp total idx).
Proof.
  induction fuel as [|f IH]; intros inp total idx b n; cbn [chunk_ops]; [auto|].
  destruct (_ <? 1); [auto|]. intros [Q|Q]; [discriminate|]. destruct (_ <? _); [auto|]. now apply IH in Q.
Qed.

(** An extraction during which no callback reports an error. *)
Lemma extract_ok T archive inp o fuel : (length inp < fuel)%nat -> supported z C (limited archive 0 inp) ->
  (forall s0 dfuel ops rets s evs, started z s0 -> Forall dop_ok ops -> dfed ops = limited archive 0 inp ->
     run_dops e alloc dfuel s0 ops = Ok (rets, s, evs) ->
     exists h o1, exec (cbs T hal stk evs HS0) o = Ok (h, o1) /\ h_err h = false) ->
  exists dfuel0, forall dfuel, (dfuel0 <= dfuel)%nat -> exists s0 ops rets s evs h o1 o',
    started z s0 /\ Forall dop_ok ops /\ dfed ops = limited archive 0 inp /\
    run_dops e alloc dfuel s0 ops = Ok (rets, s, evs) /\ exec (cbs T hal stk evs HS0) o = Ok (h, o1) /\ h_err h = false /\
    exec (close_fp h) o1 = Ok (tt, o') /\
    exec (extract T hal stk z e alloc archive fuel dfuel al obuf hjunk pjunk inp false) o = Ok ((h_ret h, Some (s, h, limited archive 0 inp)), o').
Proof.
  intros Hf Sup Hc. destruct calm_started as (s0 & Ec & St & Sf).
  set (ops := chunk_ops archive fuel inp 0 0). pose proof (chunk_ops_ok archive fuel inp 0 0) as Ho. fold ops in Ho.
  pose proof (chunk_ops_fed archive fuel inp 0 0 Hf) as Fed. fold ops in Fed.
  destruct (session_returns_ok z C e alloc s0 ops St Ho) as (dfuel0 & [[rets s] evs] & R). { now rewrite Fed. }
  exists dfuel0. intros dfuel Hd. specialize (R dfuel Hd).
  destruct (Hc _ _ _ _ _ _ St Ho Fed R) as (h & o1 & X & He).
  pose proof (drive T hal stk z e alloc archive fuel dfuel inp 0 0 s0 HS0 o rets s evs h o1 Hf R X He) as Dr.
  destruct (destroy_safe z C alloc s) as (s' & Ds).
  { eapply run_dops_safe; [exact Sf| |exact R]. intros b n. apply chunk_ops_feeds. }
  assert (Cl : exists o', exec (close_fp h) o1 = Ok (tt, o')).
  { unfold close_fp. destruct (h_fp h); [|eexists; reflexivity]. rewrite exec_sys. cbn [exec]. eauto. }
  destruct Cl as (o' & Cl).
  exists s0, ops, rets, s, evs, h, o1, o'.
  split; [exact St|]. split; [exact Ho|]. split; [exact Fed|]. split; [exact R|]. split; [exact X|]. split; [exact He|]. split; [exact Cl|].
  unfold extract. rewrite !(ca_al _ _ _ _ _ _ _ Calm) in *. cbn [negb orb]. rewrite Ec, exec_bind, Dr. cbn [obind].
  rewrite exec_bind, Cl. cbn [obind]. rewrite Ds. reflexivity.
Qed.

Lemma begin_dir T t o : free_spot o T t -> usable_dir (o_priv o) (o_umask o) MODE_BASE_DIR ->
  let o1 := with_fs (upd (o_fs o) t (IDir (dir_perm (o_umask o) MODE_BASE_DIR))) o in
  exists h, exec (cb T hal stk EvDirBegin HS0) o = Ok (h, o1) /\ in_dir h T /\ h_err h = false /\ h_fp h = None /\ h_ret h = ContentDirectory /\
    dir_at o1 T t /\ o_fs o t = None.
Proof.
  intros Fs U o1. destruct (free_mkdir o T t _ Fs U) as (X & Da & Nw). pose proof Fs as (Nz & _).
  cbn [cb]. unfold cb_dr_start. rewrite (ca_hal _ _ _ _ _ _ _ Calm), exec_bind, X. cbn [obind Z.eqb negb].
  rewrite (ca_hal _ _ _ _ _ _ _ Calm). cbn [negb exec].
  eexists. split; [reflexivity|]. split; [|auto]. split; [exact Nz|]. split; [reflexivity|]. exists []. reflexivity.
Qed.

Lemma extract_dir T archive F es t o fuel : (forall k n, alloc k n = true) -> (length F < fuel)%nat ->
  dir_archive C (limited archive 0 F) (preorder es) -> preorder es <> [] ->
  Forall (fun x => quiet (snd x)) es -> NoDup (map fst es) ->
  Forall (fun x => extractable (o_priv o) (o_umask o) (lenN T) (fst x) (snd x)) es ->
  free_spot o T t -> usable_dir (o_priv o) (o_umask o) MODE_BASE_DIR -> (forall r, o_fs o (t ++ r) = None) ->
  volume (preorder es) <= o_free o ->
  exists dfuel0, forall dfuel, (dfuel0 <= dfuel)%nat -> exists ret s h ds o',
    exec (extract T hal stk z e alloc archive fuel dfuel al obuf hjunk pjunk F false) o = Ok ((ret, Some (s, h, ds)), o') /\
    (room_left s -> ret = ContentDirectory /\ same_env o o' /\ o_free o' = o_free o - volume (preorder es) /\
       forall q, o_fs o' q = overlay t (dir_tree (o_umask o) es) (o_fs o) q).
Proof.
  intros Halloc Hf Da Ne Q ND X Fs U Fr V.
  set (o1 := with_fs (upd (o_fs o) t (IDir (dir_perm (o_umask o) MODE_BASE_DIR))) o).
  destruct (begin_dir T t o Fs U) as (h1 & X1 & D1 & E1 & P1 & R1 & At1 & Nw). fold o1 in X1, At1.
  assert (Rd : ready (o_priv o) (o_umask o) o1 T t).
  { split; [exact At1|]. split; [reflexivity|]. split; [reflexivity|]. unfold dir_mode, o1. cbn [o_fs with_fs]. rewrite upd_same. apply U. }
  assert (Nz : ~ In x00 T) by apply Fs.
  assert (Run : forall evs' st, shows (preorder es) (flat evs') -> proto_run Idle evs' = Some st ->
    exists h' o', exec (cbs T hal stk evs' h1) o1 = Ok (h', o') /\ in_dir h' T /\ same_h h1 h' /\ same_env o1 o' /\
      o_free o' = o_free o1 - volume (preorder es) /\ keeps (o_fs o1) (o_fs o') /\
      forall q, o_fs o' q = overlay t (fun r => tree_at (o_umask o) r es) (o_fs o1) q).
  { intros evs' st S P.
    apply (tree_placed T hal stk (ca_hal _ _ _ _ _ _ _ Calm) (ca_stk _ _ _ _ _ _ _ Calm) (o_priv o) (o_umask o) es T t evs' st Q ND X Nz S P h1 o1 D1 Rd).
    - intros r Hr. unfold o1. cbn [o_fs with_fs]. rewrite upd_other; [apply Fr|].
      intro Q'. apply Hr. apply (f_equal (@length bytes)) in Q'. rewrite app_length in Q'. destruct r; [reflexivity|cbn in Q'; lia].
    - exact V. }
  assert (Env1 : same_env o o1) by (repeat split).
  destruct (extract_ok T archive F o fuel Hf) as (dfuel0 & K).
  { eapply supported_of. apply Da. }
  { intros s0 dfuel ops rets s evs St Ho Fed R. rewrite <- Fed in Da.
    destruct (session_extends z C e alloc Halloc _ _ _ _ _ _ _ St Ho Da R) as (_ & [->|(evs' & more & st & -> & S & P)] & _).
    - exists HS0, o. split; reflexivity.
    - destruct (Run _ _ S P) as (h' & o' & X2 & _ & (_ & E2 & _) & _).
      rewrite exec_cbs_app in X2. rewrite exec_cbs_cons, X1. cbn [obind].
      destruct (exec (cbs T hal stk evs' h1) o1) as [[h2 o2]| |] eqn:E3; try discriminate X2. cbn [obind] in X2.
      exists h2, o2. split; [reflexivity|]. destruct (h_err h2) eqn:E4; [|reflexivity].
      rewrite (cbs_err _ _ _ _ _ _ _ _ X2 E4) in E2. congruence. }
  exists dfuel0. intros dfuel Hd. destruct (K dfuel Hd) as (s0 & ops & rets & s & evs & h & o2 & o' & St & Ho & Fed & R & X2 & E2 & Cl & Ex).
  exists (h_ret h), s, h, (limited archive 0 F), o'. split; [exact Ex|]. rewrite <- Fed in Da.
  destruct (session_extends z C e alloc Halloc _ _ _ _ _ _ _ St Ho Da R) as (_ & _ & S2).
  intro Rl. destruct (S2 Rl Ne) as (evs' & st & -> & S & P). rewrite exec_cbs_cons, X1 in X2. cbn [obind] in X2.
  destruct (Run _ _ S P) as (h' & o3 & X3 & _ & (P3 & _ & R3) & Env3 & Fr3 & _ & Eq). rewrite X3 in X2. injection X2 as <- <-.
  unfold close_fp in Cl. rewrite P3, P1 in Cl. cbn [exec] in Cl. injection Cl as <-.
  split; [congruence|]. split; [exact (same_env_trans _ _ _ Env1 Env3)|]. split; [exact Fr3|].
  intro q. rewrite Eq. unfold overlay. destruct (strip t q) as [r|] eqn:Es.
  - apply strip_spec in Es. subst q. unfold o1. cbn [o_fs with_fs].
    destruct r as [|c r].
    + rewrite app_nil_r, upd_same. cbn [dir_tree]. destruct (tree_at (o_umask o) [] es) eqn:Et; [|reflexivity].
      discriminate Et.
    + cbn [dir_tree]. destruct (tree_at (o_umask o) (c :: r) es); [reflexivity|]. rewrite upd_other; [reflexivity|].
      intro E. apply (f_equal (@length bytes)) in E. rewrite app_length in E. cbn in E. lia.
  - unfold o1. cbn [o_fs with_fs]. rewrite upd_other; [reflexivity|]. intro E; subst q.
    pose proof (strip_app t []) as E. rewrite app_nil_r in E. congruence.
Qed.

(** ** File archives *)
Lemma reads_inj : forall a b, map EvFlRead a = map EvFlRead b -> a = b.
Proof. induction a as [|x a IH]; intros [|y b] H; cbn in H; try discriminate; [reflexivity|]. injection H as -> H. f_equal. auto. Qed.


(** What fopen(T, "wb") finds: nothing, in a directory that can be written, or a file that can be written. *)
Definition writable_spot (o : os) (T : bytes) (t : path) (m : N) : Prop :=
  slash_end T = false /\ exists d c, t = d ++ [c] /\
    ((namei true o T = WAt d c None /\ can_w (o_priv o) (dir_mode (o_fs o) d) = true /\ m = file_perm (o_umask o) MODE_FOPEN) \/
     (exists x, namei true o T = WAt d c (Some (IFile m x)) /\ can_w (o_priv o) m = true)).

Lemma open_spot o T t m : writable_spot o T t m -> exists free, o_free o <= free /\
  sys_open true T MODE_FOPEN o = (RFd (o_next o), OS (upd (o_fs o) t (IFile m [])) free (o_cwd o) (o_umask o) (o_priv o)
     ((o_next o, (t, 0)) :: o_fds o) (o_next o + 1)).
Proof using. clear - o T t m.
  intros (Sl & d & c & -> & [(Hn & W & ->)|(x & Hn & W)]); unfold sys_open; rewrite Hn, Sl, W; cbn [negb].
  - exists (o_free o). split; [lia|reflexivity].
  - exists (o_free o + lenN x). split; [lia|reflexivity].
Qed.

Lemma write_fp T ds : forall h o n p x m fds, h_fp h = Some n -> o_fds o = (n, (p, lenN x)) :: fds ->
  o_fs o p = Some (IFile m x) -> lenN (concat ds) <= o_free o ->
  exists o', exec (cbs T hal stk (map EvFlRead ds) h) o = Ok (h, o') /\ (forall q, o_fs o' q = upd (o_fs o) p (IFile m (x ++ concat ds)) q) /\
    o_cwd o' = o_cwd o /\ o_umask o' = o_umask o /\ o_priv o' = o_priv o /\ o_fds o' = (n, (p, lenN (x ++ concat ds))) :: fds.
Proof.
  induction ds as [|d ds IH]; intros h o n p x m fds Hf E F L.
  - exists o. cbn. rewrite app_nil_r. repeat split; auto.
    intro q. destruct (path_dec q p) as [->|Hn]; [now rewrite upd_same|now rewrite upd_other].
  - cbn [map concat] in *. rewrite lenN_app in L. rewrite exec_cbs_cons. unfold HL.cb, cb_fl_read. rewrite Hf, exec_sys. cbn [sys].
    rewrite (write_new o n p (lenN x) m x d fds E F eq_refl) by lia. cbn [fst snd exec obind].
    match goal with |- context [exec _ ?oo] => destruct (IH h oo n p (x ++ d) m fds Hf) as (o' & X & Y & A1 & A2 & A3 & A4) end.
    + cbn [o_fds]. now rewrite lenN_app.
    + cbn [o_fs]. apply upd_same.
    + cbn [o_free]. lia.
    + exists o'. split; [exact X|]. rewrite !app_assoc. repeat split; auto.
      intro q. rewrite Y. cbn [o_fs]. destruct (path_dec q p) as [->|Hn]; [now rewrite !upd_same|now rewrite !upd_other].
Qed.

Lemma extract_fl T archive F data t m o fuel : (length F < fuel)%nat ->
  zc_bad C (limited archive 0 F) = false -> zc_fin C (limited archive 0 F) = false ->
  archive_of ContentFile (zc_dec C (limited archive 0 F)) -> dropN 128 (zc_dec C (limited archive 0 F)) = data -> data <> [] ->
  writable_spot o T t m -> lenN data <= o_free o ->
  exists dfuel0, forall dfuel, (dfuel0 <= dfuel)%nat -> exists ret s h ds o',
    exec (extract T hal stk z e alloc archive fuel dfuel al obuf hjunk pjunk F false) o = Ok ((ret, Some (s, h, ds)), o') /\
    same_env o o' /\
    (room_left s -> ret = ContentFile /\ forall q, o_fs o' q = upd (o_fs o) t (IFile m data) q).
Proof.
  intros Hf B Fi Ar Ed Ne Sp V. destruct (open_spot _ _ _ _ Sp) as (free & Hfree & Op).
  set (h1 := HS (Some (o_next o)) None None 0 false ContentFile [] 0).
  assert (X1 : exec (cb T hal stk EvFlBegin HS0) o = Ok (h1, snd (sys_open true T MODE_FOPEN o))).
  { cbn [cb]. unfold cb_fl_start. rewrite exec_sys. cbn [sys]. rewrite Op. reflexivity. }
  assert (Run : forall ds, lenN (concat ds) <= lenN data ->
    exists o2, exec (cbs T hal stk (reads ds) HS0) o = Ok (h1, o2) /\ (forall q, o_fs o2 q = upd (o_fs o) t (IFile m (concat ds)) q) /\
      o_cwd o2 = o_cwd o /\ o_umask o2 = o_umask o /\ o_priv o2 = o_priv o /\ o_fds o2 = (o_next o, (t, lenN (concat ds))) :: o_fds o).
  { intros ds L. unfold reads. rewrite exec_cbs_cons, X1. cbn [obind]. rewrite Op. cbn [snd].
    match goal with |- context [exec _ ?oo] => destruct (write_fp T ds h1 oo (o_next o) t [] m (o_fds o)) as (o' & Y1 & Y2 & Y3 & Y4 & Y5 & Y6) end;
      [reflexivity|reflexivity|cbn [o_fs]; apply upd_same|cbn [o_free]; lia|].
    exists o'. split; [exact Y1|]. repeat split; auto.
    intro q. rewrite Y2. cbn [o_fs app]. destruct (path_dec q t) as [->|Hn]; [now rewrite !upd_same|now rewrite !upd_other]. }
  assert (Pre : forall ds, prefix (concat ds) data -> lenN (concat ds) <= lenN data).
  { intros ds [x Q]. rewrite Q, lenN_app. lia. }
  assert (L1 : 128 < lenN (zc_dec C (limited archive 0 F))).
  { destruct data; [contradiction|]. apply (f_equal lenN) in Ed. rewrite lenN_dropN, lenN_cons in Ed. lia. }
  destruct (extract_ok T archive F o fuel Hf) as (dfuel0 & K).
  { eapply supported_of. exact Ar. }
  { intros s0 dfuel ops rets s evs St Ho Fed R. rewrite <- Fed in *.
    destruct (file_session z C e alloc _ _ _ _ _ _ _ St Ho Ar (or_introl eq_refl) R) as [[->|(ds & -> & P)] _].
    - exists HS0, o. split; reflexivity.
    - destruct (Run ds) as (o2 & X2 & _). { apply Pre. rewrite <- Ed. exact P. } exists h1, o2. split; [exact X2|reflexivity]. }
  exists dfuel0. intros dfuel Hd. destruct (K dfuel Hd) as (s0 & ops & rets & s & evs & h & o2 & o' & St & Ho & Fed & R & X2 & E2 & Cl & Ex).
  exists (h_ret h), s, h, (limited archive 0 F), o'. split; [exact Ex|]. rewrite <- Fed in *.
  destruct (file_session z C e alloc _ _ _ _ _ _ _ St Ho Ar (or_introl eq_refl) R) as [S1 S2].
  destruct (S2 B Fi) as [_ S3].
  assert (Q : evs = [] \/ exists ds, evs = reads ds /\ prefix (concat ds) data).
  { destruct S1 as [->|(ds & -> & P)]; [left; reflexivity|right]. exists ds. rewrite <- Ed. auto. }
  destruct Q as [->|(ds & -> & P)].
  - cbn in X2. injection X2 as <- <-. cbn in Cl. injection Cl as <-. split; [repeat split|].
    intro Rl. destruct (S3 Rl L1) as (ds & Q & _). discriminate.
  - destruct (Run ds (Pre ds P)) as (o3 & X3 & Y2 & Y3 & Y4 & Y5 & Y6). rewrite X3 in X2. injection X2 as <- <-.
    unfold close_fp in Cl. cbn [h_fp h1] in Cl. rewrite exec_sys in Cl. cbn [sys] in Cl. rewrite (close_head _ _ _ _ Y6) in Cl.
    cbn [fst snd exec] in Cl. injection Cl as <-. split; [repeat split; assumption|].
    intro Rl. split; [reflexivity|]. destruct (S3 Rl L1) as (ds' & Q & Q2). assert (ds = ds') by (unfold reads in Q; apply reads_inj; congruence). subst ds'.
    intro q. cbn [o_fs]. rewrite Y2. congruence.
Qed.
End Extraction.

(** ** Round trips *)

(** [F]: the archive of the directory with the entries [es], delivered completely (see C06). *)
Definition archives_dir (z : zlib) (es : list (bytes * snode)) (F : bytes) : Prop :=
  exists (St : Type) (filt : St -> list bytes -> bytes -> skind -> Z * St) e jk hj xjk hjunk al fuel level clbk f0 cevs ws wx led,
    junk_ok jk hj xjk hjunk /\ tree_fits (Some es) /\ accepts filt /\
    compress_dir z e filt jk hj xjk hjunk al fuel level clbk false [] (Some es) f0 = Ok (CRet 0, cevs, ws, wx, led) /\
    created z al level /\ last_not_full cevs /\ F = cev_bytes cevs.

(** [F]: the archive of a file with the contents [data], delivered completely. *)
Definition archives_file (z : zlib) (data F : bytes) : Prop :=
  exists e hjunk al fuel level clbk cevs led, lenN hjunk = 128 /\
    compress_file z e hjunk al fuel level clbk data false = Ok (0%Z, cevs, led) /\ last_not_full cevs /\ F = cev_bytes cevs.

(** The input file: the archive, or the archive followed by something else if its size is passed. *)
Definition input_of (archive : N) (F inp : bytes) : Prop :=
  (archive = 0 /\ inp = F) \/ (archive <> 0 /\ archive = lenN F /\ exists rest, inp = F ++ rest).

Lemma input_limited archive F inp : input_of archive F inp -> limited archive 0 inp = F.
Proof.
  unfold limited. intros [[-> ->]|(H & -> & rest & ->)]; [reflexivity|].
  destruct (N.ltb_spec 0 (lenN F)); [|lia]. rewrite N.sub_0_r. now apply takeN_app_exact.
Qed.

Lemma dir_archived z (C : zlib_contract z) es F : archives_dir z es F -> Forall (fun x => quiet (snd x)) es -> dir_archive C F (preorder es).
Proof.
  intros (St & filt & e & jk & hj & xjk & hjunk & al & fuel & level & clbk & f0 & cevs & ws & wx & led & J & Ft & Ha & H & Cr & L & ->) Q.
  destruct (compress_dir_spec z C e filt jk hj xjk hjunk al _ _ _ _ _ _ _ _ _ _ _ _ J Ft (Forall_nil _) H)
    as [(Q' & _)|(_ & xr & recs & content & X1 & T & En & R & P & B & Fi & Q')]; [contradiction|].
  specialize (Q' L). cbn in X1. subst xr. cbn [app] in En.
  destruct (header_archive e ContentDirectory hjunk content (proj2 (proj2 (proj2 J))) eq_refl) as [Ar Dr]. rewrite <- Q' in Ar, Dr.
  assert (Ok1 : Forall rec_ok recs).
  { destruct (trav_rec_ok filt _ _ _ _ _ _ T) as [Q1|Q1]; [| |exact Q1].
    - apply jobs_all. unfold tree_fits in Ft. cbn [listing] in *. rewrite Forall_forall in *. intros x Hx. split; [auto|]. apply quiet_steady. auto.
    - rewrite Q1 in R. discriminate. }
  destruct (trav_pure (fun _ _ _ => 0%Z) filt Ha ltac:(discriminate) _ _ _ _ _ _ T) as (_ & _ & E).
  { apply (jobs_all (fun _ x => quiet x)). exact Q. }
  rewrite kept_jobs, kept_all in E. cbn [listing] in E. subst recs.
  split; [exact B|]. split; [exact Fi|]. split; [exact Ar|]. split; [now rewrite Dr|exact Ok1].
Qed.

Lemma file_archived z (C : zlib_contract z) data F : archives_file z data F ->
  zc_bad C F = false /\ zc_fin C F = false /\ archive_of ContentFile (zc_dec C F) /\ dropN 128 (zc_dec C F) = data.
Proof.
  intros (e & hjunk & al & fuel & level & clbk & cevs & led & J & H & L & ->).
  destruct (compress_file_spec z C e hjunk al _ _ _ _ _ _ _ _ J H) as [(Q & _)|(_ & st & _ & E & _ & B & Fi & D)]; [discriminate|].
  specialize (E eq_refl). subst st. specialize (D L).
  destruct (header_archive e ContentFile hjunk data J eq_refl) as [Ar Dr]. rewrite <- D in Ar, Dr. auto.
Qed.

Lemma disk_dir_free z (C : zlib_contract z) es F e alloc hal al stk obuf hjunk pjunk T archive inp t o fuel :
  archives_dir z es F -> input_of archive F inp -> (length inp < fuel)%nat ->
  calm z hal al stk obuf hjunk pjunk -> (forall k n, alloc k n = true) ->
  preorder es <> [] -> Forall (fun x => quiet (snd x)) es -> NoDup (map fst es) ->
  Forall (fun x => extractable (o_priv o) (o_umask o) (lenN T) (fst x) (snd x)) es ->
  free_spot o T t -> usable_dir (o_priv o) (o_umask o) MODE_BASE_DIR -> (forall r, o_fs o (t ++ r) = None) ->
  volume (preorder es) <= o_free o ->
  exists dfuel0, forall dfuel, (dfuel0 <= dfuel)%nat -> exists ret s h ds o',
    exec (extract T hal stk z e alloc archive fuel dfuel al obuf hjunk pjunk inp false) o = Ok ((ret, Some (s, h, ds)), o') /\
    (room_left s -> ret = ContentDirectory /\ same_env o o' /\ o_free o' = o_free o - volume (preorder es) /\
       forall q, o_fs o' q = overlay t (dir_tree (o_umask o) es) (o_fs o) q).
Proof.
  intros A I Hf Ca Ha Ne Q ND X Fs U Fr V. pose proof (dir_archived z C es F A Q) as D. rewrite <- (input_limited _ _ _ I) in D.
  exact (extract_dir z C e alloc hal al stk obuf hjunk pjunk Ca T archive inp es t o fuel Ha Hf D Ne Q ND X Fs U Fr V).
Qed.

Lemma disk_dir z (C : zlib_contract z) es F e alloc hal al stk obuf hjunk pjunk T archive inp t o fuel :
  archives_dir z es F -> input_of archive F inp -> (length inp < fuel)%nat ->
  calm z hal al stk obuf hjunk pjunk -> (forall k n, alloc k n = true) ->
  preorder es <> [] -> Forall (fun x => quiet (snd x)) es -> NoDup (map fst es) ->
  Forall (fun x => extractable (o_priv o) (o_umask o) (lenN T) (fst x) (snd x)) es ->
  free_spot o T t -> usable_dir (o_priv o) (o_umask o) MODE_BASE_DIR -> (forall r, o_fs o (t ++ r) = None) ->
  volume (preorder es) <= o_free o ->
  exists dfuel0, forall dfuel, (dfuel0 <= dfuel)%nat -> exists ret s h ds o',
    exec (extract T hal stk z e alloc archive fuel dfuel al obuf hjunk pjunk inp false) o = Ok ((ret, Some (s, h, ds)), o') /\
    (room_left s -> ret = ContentDirectory /\ same_env o o' /\ forall q, o_fs o' q = overlay t (dir_tree (o_umask o) es) (o_fs o) q).
Proof.
  intros A I Hf Ca Ha Ne Q ND X Fs U Fr V.
  destruct (disk_dir_free z C es F e alloc hal al stk obuf hjunk pjunk T archive inp t o fuel A I Hf Ca Ha Ne Q ND X Fs U Fr V) as (d0 & H).
  exists d0. intros d Hd. destruct (H d Hd) as (ret & s & h & ds & o' & E & R). exists ret, s, h, ds, o'. split; [exact E|].
  intro Rl. destruct (R Rl) as (R1 & R2 & _ & R3). auto.
Qed.

Lemma disk_file z (C : zlib_contract z) data F e alloc hal al stk obuf hjunk pjunk T archive inp t m o fuel :
  archives_file z data F -> input_of archive F inp -> (length inp < fuel)%nat ->
  calm z hal al stk obuf hjunk pjunk -> data <> [] -> writable_spot o T t m -> lenN data <= o_free o ->
  exists dfuel0, forall dfuel, (dfuel0 <= dfuel)%nat -> exists ret s h ds o',
    exec (extract T hal stk z e alloc archive fuel dfuel al obuf hjunk pjunk inp false) o = Ok ((ret, Some (s, h, ds)), o') /\
    same_env o o' /\ (room_left s -> ret = ContentFile /\ forall q, o_fs o' q = upd (o_fs o) t (IFile m data) q).
Proof.
  intros A I Hf Ca Ne Sp V. destruct (file_archived z C data F A) as (B & Fi & Ar & D). rewrite <- (input_limited _ _ _ I) in B, Fi, Ar, D.
  exact (extract_fl z C e alloc hal al stk obuf hjunk pjunk Ca T archive inp data t m o fuel Hf B Fi Ar D Ne Sp V).
Qed.
