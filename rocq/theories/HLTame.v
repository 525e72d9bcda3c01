(** HLTame.v: archives that stay inside the directory they are extracted to. *)
From Coq Require Import Lia.
From Verif Require Import Base Format Zlib Compress Parser ParserProofs ParserFacts Decompress DecompressProofs MidProofs MidFacts
  ArchiveSpec ArchiveFacts ArchiveDecode FS FSFacts HL HLSpec HLFacts HLDrive HLProps HLSafe MkdirFacts.

(** ** Specification *)

Fixpoint depth_len (cs : list bytes) : N := match cs with [] => 0 | c :: r => 1 + lenN c + depth_len r end.

(** The callbacks of an archive whose entries have plain names, without links, and in which only directories that have been
    entered are left.  [cs]: the directories entered so far; [L]: length of the target's path; [stk]: room for a path on the stack. *)
Fixpoint tame (L stk : N) (cs : list bytes) (evs : list event) : Prop :=
  match evs with
  | [] => True
  | ev :: r =>
    match ev with
    | EvEntry FtDir it name => it_nlen it <= lenN name /\ plain (takeN (it_nlen it) name) /\ tame L stk (cs ++ [takeN (it_nlen it) name]) r
    | EvEntry FtFile it name => it_nlen it <= lenN name /\ plain (takeN (it_nlen it) name) /\
        L + depth_len cs + 4 + it_nlen it <= stk /\ tame L stk cs r
    | EvRead _ | EvFileEnd => tame L stk cs r
    | EvDirEnd => cs <> [] /\ tame L stk (removelast cs) r
    | _ => False
    end
  end.

(** Whoever lists the archive [F], or its beginning, with the callback interface, is shown such callbacks, if it is a directory. *)
Definition lists_tame {z} (e : endian) (alloc : N -> N -> bool) (L stk : N) (F : bytes) : Prop :=
  forall s0 fuel ops rets s evs, started z s0 -> Forall dop_ok ops -> prefix (dfed ops) F ->
    run_dops e alloc fuel s0 ops = Ok (rets, s, evs) -> forall r, evs = EvDirBegin :: r -> tame L stk [] r.

(** Files opened and files ended. *)
Definition file_opens (evs : list event) : N := lenN (filter (fun ev => match ev with EvEntry FtFile _ _ => true | _ => false end) evs).
Definition file_ends (evs : list event) : N := lenN (filter (fun ev => match ev with EvFileEnd => true | _ => false end) evs).

(** Only inodes at or below [t] differ. *)
Definition confined (t : path) (fs fs' : fstree) : Prop := forall q, strip t q = None -> fs' q = fs q.

(** ** Proofs *)

Lemma depth_len_app a b : depth_len (a ++ b) = depth_len a + depth_len b.
Proof. induction a as [|c a IH]; [reflexivity|]. cbn [app depth_len]. rewrite IH. lia. Qed.
Lemma lenN_under B cs : lenN (under B cs) = lenN B + depth_len cs.
Proof.
  induction cs as [|c cs IH] using rev_ind; [rewrite under_nil; cbn; lia|].
  rewrite under_snoc, lenN_app, IH, depth_len_app, lenN_cons. cbn [depth_len]. lia.
Qed.

Section Tame.
Context (T : bytes) (hal : N -> bool) (stk : N) (o1 : os) (t : path) (fds : list (N * (path * N))).
Hypothesis Hal : forall n, hal n = true.
Hypothesis Nz : ~ In x00 T.
Hypothesis Da : dir_at o1 T t.
Hypothesis LT : lenN T < PATH_MAX.
Notation cb := (cb T hal stk).
Notation cbs := (cbs T hal stk).

Definition fd_state (st : proto) (h : hst) (o : os) : Prop :=
  match st with
  | InFile _ => (h_fd h = None /\ o_fds o = fds) \/ exists n r off, h_fd h = Some n /\ o_fds o = (n, (t ++ r, off)) :: fds
  | _ => o_fds o = fds
  end.
Definition tstate (cs : list bytes) (st : proto) (h : hst) (o : os) : Prop :=
  Forall plain cs /\ in_dir h (under T cs) /\ base o1 t o /\ fd_state st h o.

Lemma entry_ok h cs it name : in_dir h (under T cs) -> it_nlen it <= lenN name ->
  entry_path it name h = Ok (under T (cs ++ [takeN (it_nlen it) name]) ++ [x00]).
Proof.
  intros (_ & L & junk & E) N. unfold entry_path. rewrite E, L.
  replace (lenN name <? it_nlen it) with false by (symmetry; apply N.ltb_ge; lia).
  replace (lenN (under T cs ++ x00 :: junk) <? lenN (under T cs)) with false by (symmetry; apply N.ltb_ge; rewrite lenN_app; lia).
  rewrite takeN_app_exact by reflexivity. rewrite under_snoc. now rewrite <- app_assoc.
Qed.

Lemma open_below o cs mode : base o1 t o -> Forall plain cs -> cs <> [] ->
  let r := sys_open false (under T cs) mode o in
  base o1 t (snd r) /\
  ((exists n r', fst r = RFd n /\ o_fds (snd r) = (n, (t ++ r', 0)) :: o_fds o) \/ (exists er, fst r = RErr er /\ o_fds (snd r) = o_fds o)).
Proof.
  intros Hb Hp Ne. pose proof (namei_below T o1 t Da true o cs Hb Hp Ne) as H. cbn zeta. unfold sys_open.
  destruct (namei true o (under T cs)) as [er|d|d c [[m|m x|x]|]] eqn:E; try (split; [exact Hb|right; eexists; split; reflexivity]).
  - destruct (slash_end _); [split; [exact Hb|right; eexists; split; reflexivity]|]. destruct (negb _); [split; [exact Hb|right; eexists; split; reflexivity]|].
    destruct H as (cs' & -> & ->). split.
    + destruct Hb as (A1 & A2 & A3 & A4 & A5 & A6). repeat split; auto.
    + left. exists (o_next o), (cs' ++ [c]). cbn [open_at fst snd o_fds]. now rewrite app_assoc.
  - destruct (slash_end _); [split; [exact Hb|right; eexists; split; reflexivity]|]. destruct (can_w _ _); [|split; [exact Hb|right; eexists; split; reflexivity]].
    destruct H as (cs' & -> & ->). split.
    + eapply (base_upd o1 t) with (i := IFile _ _); [exact Hb| | | |reflexivity|reflexivity|reflexivity|reflexivity].
      * exists (cs' ++ [c]). now rewrite app_assoc.
      * discriminate.
      * apply keeps_upd_new. symmetry. eapply namei_at; eauto.
    + left. exists (o_next o), (cs' ++ [c]). cbn [open_at fst snd o_fds with_fs o_next]. now rewrite app_assoc.
Qed.

Lemma write_below o n r off d : base o1 t o -> o_fds o = (n, (t ++ r, off)) :: fds ->
  let x := sys_write (Some n) d o in base o1 t (snd x) /\ exists off', o_fds (snd x) = (n, (t ++ r, off')) :: fds.
Proof.
  intros Hb E. cbn zeta. unfold sys_write. rewrite E. cbn [find_fd]. rewrite N.eqb_refl.
  destruct (o_fs o (t ++ r)) as [[m|m x|x]|] eqn:Ef; try (split; [exact Hb|eauto]).
  destruct (_ && _); [split; [exact Hb|eauto]|]. split.
  - eapply (base_upd o1 t) with (p := t ++ r) (i := IFile m _); [exact Hb|eauto|discriminate|eapply keeps_upd_file; exact Ef| | | |]; reflexivity.
  - cbn [snd o_fds set_fd]. rewrite N.eqb_refl. eauto.
Qed.

Lemma tame_step ev r cs st st1 h o : tstate cs st h o -> tame (lenN T) stk cs (ev :: r) -> proto_step st ev = Some st1 ->
  exists cs1 h1 oo, exec (cb ev h) o = Ok (h1, oo) /\ tstate cs1 st1 h1 oo /\ tame (lenN T) stk cs1 r /\
    h_fp h1 = h_fp h /\ h_ret h1 = h_ret h.
Proof.
  intros (Hp & D & Hb & Hf) Tm Ps. pose proof D as (Nu & Ld & junk & Ej).
  destruct ev as [id d| | |d|ft it name|d| | |d tl]; cbn [tame] in Tm; try contradiction.
  - destruct ft; try contradiction.
    + destruct Tm as (L1 & P1 & Tm). destruct st; try discriminate. cbn in Ps. injection Ps as <-.
      assert (Hp1 : Forall plain (cs ++ [takeN (it_nlen it) name])) by (apply Forall_app; auto).
      exists (cs ++ [takeN (it_nlen it) name]). cbn [HL.cb]. unfold cb_entry. rewrite Hal. cbn [negb].
      rewrite (entry_ok _ cs) by (exact D || exact L1). cbn [plift pbind]. unfold with_cstr.
      change (under T ?c ++ [x00]) with (under T c ++ x00 :: []). rewrite cstr_app by (now apply under_nul).
      rewrite exec_bind, Hal.
      destruct (mkdir_rec_below T Nz o1 t Da LT o (cs ++ [takeN (it_nlen it) name]) (it_mode it) Hb Hp1 ltac:(destruct cs; discriminate))
        as (r1 & o' & E & Hb' & F' & _). rewrite E. cbn [obind exec].
      eexists _, _. split; [reflexivity|]. split; [|split; [exact Tm|destruct (r1 =? 0)%Z; split; reflexivity]].
      split; [exact Hp1|]. split; [|split; [exact Hb'|cbn in Hf |- *; congruence]].
      assert (Q : forall hh, h_dp hh = Some (under T (cs ++ [takeN (it_nlen it) name]) ++ x00 :: []) ->
        h_dplen hh = lenN (under T cs) + 1 + it_nlen it -> in_dir hh (under T (cs ++ [takeN (it_nlen it) name]))).
      { intros hh Q1 Q2. split; [now apply under_nul|]. split; [|exists []; exact Q1].
        rewrite Q2, under_snoc, lenN_app, lenN_cons, lenN_takeN. lia. }
      apply Q; destruct (r1 =? 0)%Z; try reflexivity; cbn [h_dplen h_alloc h_fail h_setdir h_setname]; now rewrite Ld.
    + destruct Tm as (L1 & P1 & Ls & Tm). destruct st; try discriminate. cbn in Ps. injection Ps as <-. cbn in Hf.
      assert (Hp1 : Forall plain (cs ++ [takeN (it_nlen it) name])) by (apply Forall_app; auto).
      exists cs. cbn [HL.cb]. unfold cb_entry. cbn [h_dplen h_setname]. rewrite Ld, lenN_under.
      replace (stk <? lenN T + depth_len cs + 4 + it_nlen it) with false by (symmetry; apply N.ltb_ge; lia).
      rewrite (entry_ok _ cs) by (exact D || exact L1). cbn [plift pbind]. unfold with_cstr.
      change (under T ?c ++ [x00]) with (under T c ++ x00 :: []). rewrite cstr_app by (now apply under_nul).
      rewrite exec_sys. cbn [sys].
      destruct (open_below o (cs ++ [takeN (it_nlen it) name]) (N.land 511 (it_mode it)) Hb Hp1 ltac:(destruct cs; discriminate))
        as (Hb' & [(n & r' & E & F')|(er & E & F')]); rewrite E; cbn [exec].
      * eexists _, _. split; [reflexivity|]. split; [|split; [exact Tm|split; reflexivity]].
        split; [exact Hp|]. split; [exact D|]. split; [exact Hb'|]. right. exists n, r', 0. split; [reflexivity|]. congruence.
      * eexists _, _. split; [reflexivity|]. split; [|split; [exact Tm|split; reflexivity]].
        split; [exact Hp|]. split; [exact D|]. split; [exact Hb'|]. left. split; [reflexivity|]. congruence.
  - destruct st as [|k|]; try discriminate. cbn in Ps. destruct (lenN d <=? k); [|discriminate]. injection Ps as <-.
    exists cs. cbn [HL.cb]. unfold cb_read. rewrite exec_sys. cbn [sys exec].
    exists h. eexists. split; [reflexivity|]. split; [|split; [exact Tm|split; reflexivity]].
    split; [exact Hp|]. split; [exact D|]. destruct Hf as [[E F]|(n & r' & off & E & F)]; rewrite E.
    + split; [exact Hb|]. left. auto.
    + destruct (write_below o n r' off d Hb F) as (Hb' & off' & F'). split; [exact Hb'|]. right. eauto.
  - destruct st as [|k|]; try discriminate. cbn in Ps. destruct (k =? 0); [|discriminate]. injection Ps as <-.
    exists cs. cbn [HL.cb]. unfold cb_file_end. rewrite exec_sys. cbn [sys exec].
    exists h. eexists. split; [reflexivity|]. split; [|split; [exact Tm|split; reflexivity]].
    split; [exact Hp|]. split; [exact D|]. destruct Hf as [[E F]|(n & r' & off & E & F)]; rewrite E.
    + split; [exact Hb|exact F].
    + rewrite (close_head _ _ _ _ F). cbn [snd]. split; [|reflexivity]. destruct Hb as (A1 & A2 & A3 & A4 & A5 & A6). repeat split; auto.
  - destruct Tm as (Ne & Tm). destruct st as [|k|]; try discriminate. cbn in Ps. injection Ps as <-.
    destruct (exists_last Ne) as (cs1 & c & ->). rewrite removelast_last in Tm. apply Forall_app in Hp. destruct Hp as [Hp1 Hp2].
    assert (Pc : plain c) by (now inversion Hp2). rewrite under_snoc in D.
    destruct (leave_dir T hal stk h o (under T cs1) c D Pc) as (h1 & X & D1 & (S1 & _ & S3)).
    exists cs1, h1, o. split; [exact X|]. split; [|auto]. split; [exact Hp1|]. split; [exact D1|]. split; [exact Hb|exact Hf].
Qed.

Lemma tame_run : forall evs cs st st' h o, tstate cs st h o -> tame (lenN T) stk cs evs -> proto_run st evs = Some st' ->
  exists cs' h' o', exec (cbs evs h) o = Ok (h', o') /\ tstate cs' st' h' o' /\ h_fp h' = h_fp h /\ h_ret h' = h_ret h.
Proof.
  induction evs as [|ev evs IH]; intros cs st st' h o S Tm P.
  - cbn in P. injection P as <-. exists cs, h, o. cbn. auto.
  - cbn [proto_run] in P. destruct (proto_step st ev) as [st1|] eqn:Ps; [|discriminate].
    destruct (tame_step _ _ _ _ _ _ _ S Tm Ps) as (cs1 & h1 & oo & X & S1 & Tm1 & F1 & R1).
    destruct (IH _ _ _ _ _ S1 Tm1 P) as (cs2 & h2 & o2 & X2 & S2 & F2 & R2).
    exists cs2, h2, o2. rewrite exec_cbs_cons, X. cbn [obind]. split; [exact X2|]. split; [exact S2|]. split; congruence.
Qed.
End Tame.

(** ** Whole extractions *)

Lemma proto_counts : forall evs st st', proto_run st evs = Some st' ->
  file_opens evs + match st with InFile _ => 1 | _ => 0 end = file_ends evs + match st' with InFile _ => 1 | _ => 0 end.
Proof.
  unfold file_opens, file_ends. induction evs as [|ev evs IH]; intros st st' P; [cbn in P; injection P as <-; reflexivity|].
  cbn [proto_run] in P. destruct (proto_step st ev) as [st1|] eqn:E; [|discriminate]. specialize (IH _ _ P).
  destruct st as [|k|], ev as [id d| | |d|ft it name|d| | |d tl]; cbn in E; try discriminate; try (destruct ft; try discriminate);
    try (destruct (lenN d <=? k); try discriminate); try (destruct (k =? 0); try discriminate); injection E as <-;
    cbn [filter]; rewrite ?lenN_cons; lia.
Qed.

Lemma walk_follow fs priv d' c' : forall links d cs, walk_path fs priv false links d cs = WAt d' c' None ->
  walk_path fs priv true links d cs = WAt d' c' None.
Proof.
  induction links as [links IHl] using (well_founded_induction lt_wf).
  intros d cs. revert d. induction cs as [|c1 r IH]; intros d Hw; rewrite walk_eq in Hw; [discriminate|]. rewrite walk_eq.
  destruct (fs d) as [[m1|m1 x|x]|] eqn:Ed; try discriminate. destruct (negb _) eqn:Ex; [discriminate|].
  destruct (bytes_eqb c1 _); [auto|]. destruct (bytes_eqb c1 _); [auto|]. destruct (_ <? _); [discriminate|].
  destruct (fs (d ++ [c1])) as [[m2|m2 x|x]|] eqn:Ec; auto.
  - destruct r; [discriminate|auto].
  - destruct r; [discriminate|]. destruct links as [|lk]; [discriminate|]. destruct (nonempty x); [|discriminate]. apply IHl; [lia|exact Hw].
Qed.
Lemma free_writable o T t : free_spot o T t -> slash_end T = false -> writable_spot o T t (file_perm (o_umask o) MODE_FOPEN).
Proof.
  intros (Nz & d & c & -> & Hn & W) Sl. split; [exact Sl|]. exists d, c. split; [reflexivity|]. left. split; [|auto].
  unfold namei in *. destruct (negb _); [discriminate|]. destruct (_ <=? _); [discriminate|]. now apply walk_follow.
Qed.

Section Shape.
Context (z : zlib) (C : zlib_contract z) (e : endian) (alloc : N -> N -> bool).

Lemma supported_prefix F G : prefix F G -> supported z C G -> supported z C F.
Proof.
  intros [x ->] S. destruct (N.lt_ge_cases (lenN (zc_dec C F)) 128) as [L|L]; [left; exact L|right].
  apply (version_prefix z C (takeN 128 (zc_dec C F)) F x); [|rewrite lenN_takeN; lia|exact S].
  exists (dropN 128 (zc_dec C F)). symmetry. apply takeN_dropN.
Qed.

Lemma listing_shape fuel s0 ops rets s evs : started z s0 -> Forall dop_ok ops -> supported z C (dfed ops) ->
  run_dops e alloc fuel s0 ops = Ok (rets, s, evs) ->
  evs = [] \/ (exists r st, evs = EvDirBegin :: r /\ proto_run Idle r = Some st) \/ (exists ds, evs = reads ds).
Proof.
  intros Hs Ho Sup H. destruct (N.lt_ge_cases (lenN (zc_dec C (dfed ops))) 128) as [L|L].
  { left. eapply before_header; eauto. }
  assert (V : version_of (zc_dec C (dfed ops)) = 0) by (destruct Sup as [Q|Q]; [lia|now rewrite version_takeN in Q]).
  assert (A : archive_of (type_of (zc_dec C (dfed ops))) (zc_dec C (dfed ops))) by (repeat split; assumption).
  set (typ := type_of (zc_dec C (dfed ops))) in *.
  destruct (N.eq_dec typ ContentDirectory) as [E|E1].
  { rewrite E in A. destruct (dir_session_protocol z C e alloc _ _ _ _ _ _ Hs Ho A H) as [->|(r & st & Q)]; [left; reflexivity|right; left; eauto]. }
  assert (Fl : typ = ContentFile \/ typ = ContentBlob -> evs = [] \/ exists ds, evs = reads ds).
  { intro Q. destruct (file_session z C e alloc _ _ _ _ _ _ _ Hs Ho A Q H) as [[->|(ds & -> & _)] _]; eauto. }
  destruct (N.eq_dec typ ContentFile) as [E|E2]; [destruct (Fl (or_introl E)); auto|].
  destruct (N.eq_dec typ ContentBlob) as [E|E3]; [destruct (Fl (or_intror E)); auto|].
  left. eapply unknown_type; eauto.
Qed.
End Shape.

Section Whole.
Context (z : zlib) (C : zlib_contract z) (e : endian) (alloc : N -> N -> bool) (hal al : N -> bool) (stk : N) (obuf hjunk : bytes) (pjunk : pst).
Hypothesis Calm : calm z hal al stk obuf hjunk pjunk.

(** What an extraction that returned did. *)
Lemma extract_did T archive fuel dfuel inp rderr o ret x o' :
  exec (extract T hal stk z e alloc archive fuel dfuel al obuf hjunk pjunk inp rderr) o = Ok ((ret, x), o') ->
  exists s0 ops rets s evs h o1 ds, x = Some (s, h, ds) /\ started z s0 /\ Forall dop_ok ops /\ dfed ops = ds /\
    run_dops e alloc dfuel s0 ops = Ok (rets, s, evs) /\ exec (cbs T hal stk evs HS0) o = Ok (h, o1) /\
    exec (close_fp h) o1 = Ok (tt, o') /\ prefix ds (limited archive 0 inp) /\
    (rderr = false -> h_err h = false -> ds = limited archive 0 inp) /\ (rderr = false -> ret = h_ret h) /\
    (ret = h_ret h \/ ret = ContentNone).
Proof.
  intro H. unfold extract in H. rewrite !(ca_al _ _ _ _ _ _ _ Calm) in H. cbn [negb orb] in H.
  destruct (calm_started z C alloc hal al stk obuf hjunk pjunk Calm) as (s0 & Ec & St & Sf).
  rewrite (ca_al _ _ _ _ _ _ _ Calm) in Ec. rewrite Ec, exec_bind in H.
  destruct (exec (extract_loop _ _ _ _ _ _ _ _ _ _ _ _ _ _ _) o) as [[[[[ok s] h] ds] o1]| |] eqn:El; try discriminate H. cbn [obind] in H.
  destruct (loop_inv _ _ _ _ _ _ _ _ _ _ _ _ _ _ _ _ _ _ _ _ _ El) as (ops & rets & evs & A1 & A2 & A3 & A4 & A5 & A6 & A7 & A8).
  rewrite exec_bind in H. destruct (exec (close_fp h) o1) as [[[] o2]| |] eqn:Ecl; try discriminate H. cbn [obind] in H.
  destruct (destroy s) as [s'| |]; try discriminate H. cbn [plift pbind exec] in H. injection H as <- <- <-.
  exists s0, ops, rets, s, evs, h, o1, ds. split; [reflexivity|]. split; [exact St|]. split; [exact A1|]. split; [exact A3|].
  split; [exact A4|]. split; [exact A5|]. split; [exact Ecl|]. split; [exact A6|]. split; [auto|].
  split; [intro R; now rewrite (A8 R)|]. destruct ok; auto.
Qed.

(** An extraction returns if no callback has undefined behaviour. *)
Lemma extract_runs T archive inp o fuel : (length inp < fuel)%nat -> supported z C (limited archive 0 inp) ->
  (forall s0 dfuel ops rets s evs, started z s0 -> Forall dop_ok ops -> dfed ops = limited archive 0 inp ->
     run_dops e alloc dfuel s0 ops = Ok (rets, s, evs) -> exists h o1, exec (cbs T hal stk evs HS0) o = Ok (h, o1)) ->
  exists dfuel0, forall dfuel, (dfuel0 <= dfuel)%nat -> exists ret x o',
    exec (extract T hal stk z e alloc archive fuel dfuel al obuf hjunk pjunk inp false) o = Ok ((ret, x), o').
Proof.
  intros Hf Sup Hc. destruct (calm_started z C alloc hal al stk obuf hjunk pjunk Calm) as (s0 & Ec & St & Sf).
  set (ops := chunk_ops archive fuel inp 0 0). pose proof (chunk_ops_ok archive fuel inp 0 0) as Ho. fold ops in Ho.
  pose proof (chunk_ops_fed archive fuel inp 0 0 Hf) as Fed. fold ops in Fed.
  destruct (session_returns_ok z C e alloc s0 ops St Ho) as (dfuel0 & [[rets s] evs] & R). { now rewrite Fed. }
  exists dfuel0. intros dfuel Hd. specialize (R dfuel Hd).
  destruct (Hc _ _ _ _ _ _ St Ho Fed R) as (h & o1 & X).
  destruct (loop_runs T hal stk z e alloc archive fuel dfuel inp 0 0 s0 HS0 o rets s evs h o1 Hf R X) as (s1 & h1 & ds & o2 & El).
  destruct (loop_inv _ _ _ _ _ _ _ _ _ _ _ _ _ _ _ _ _ _ _ _ _ El) as (ops' & rets' & evs' & A1 & A2 & A3 & A4 & _).
  destruct (destroy_safe z C alloc s1) as (s' & Ds).
  { eapply run_dops_safe; [exact Sf|exact A2|exact A4]. }
  assert (Cl : exists o', exec (close_fp h1) o2 = Ok (tt, o')).
  { unfold close_fp. destruct (h_fp h1); [|eexists; reflexivity]. rewrite exec_sys. cbn [exec]. eauto. }
  destruct Cl as (o' & Cl). exists (h_ret h1), (Some (s1, h1, ds)), o'.
  unfold extract. rewrite !(ca_al _ _ _ _ _ _ _ Calm) in *. cbn [negb orb]. rewrite Ec, exec_bind, El. cbn [obind].
  rewrite exec_bind, Cl. cbn [obind]. rewrite Ds. reflexivity.
Qed.

(** ** A directory or file archive extracted to a free place *)

Lemma fl_confined T ds : forall h o n t off fds x m, h_fp h = Some n -> o_fds o = (n, (t, off)) :: fds -> o_fs o t = Some (IFile m x) ->
  exists o' x' off', exec (cbs T hal stk (map EvFlRead ds) h) o = Ok (h, o') /\ (forall q, q <> t -> o_fs o' q = o_fs o q) /\
    o_fs o' t = Some (IFile m x') /\
    o_cwd o' = o_cwd o /\ o_umask o' = o_umask o /\ o_priv o' = o_priv o /\ o_fds o' = (n, (t, off')) :: fds.
Proof.
  induction ds as [|d ds IH]; intros h o n t off fds x m Hf E F; [exists o, x, off; cbn; auto 8|].
  cbn [map]. rewrite exec_cbs_cons. unfold HL.cb, cb_fl_read. rewrite Hf, exec_sys. cbn [sys exec obind].
  assert (W : exists x' off', o_fds (snd (sys_write (Some n) d o)) = (n, (t, off')) :: fds /\
    (forall q, q <> t -> o_fs (snd (sys_write (Some n) d o)) q = o_fs o q) /\ o_fs (snd (sys_write (Some n) d o)) t = Some (IFile m x') /\
    o_cwd (snd (sys_write (Some n) d o)) = o_cwd o /\ o_umask (snd (sys_write (Some n) d o)) = o_umask o /\ o_priv (snd (sys_write (Some n) d o)) = o_priv o).
  { unfold sys_write. rewrite E. cbn [find_fd]. rewrite N.eqb_refl, F. destruct (_ && _); [exists x, off; cbn [snd]; auto 8|].
    eexists _, _. cbn [snd o_fds o_fs o_cwd o_umask o_priv set_fd]. rewrite N.eqb_refl. split; [reflexivity|].
    split; [intros q Hq; now apply upd_other|]. split; [apply upd_same|auto]. }
  destruct W as (x1 & off1 & W1 & W2 & W3 & W4 & W5 & W6).
  destruct (IH h _ n t off1 fds x1 m Hf W1 W3) as (o' & x' & off' & A1 & A2 & A3 & A4 & A5 & A6 & A7).
  exists o', x', off'. split; [exact A1|]. split; [intros q Hq; rewrite A2, W2; auto|]. split; [exact A3|]. repeat split; congruence.
Qed.

(** State after the callbacks: only inodes at or below [t], no other change except a descriptor of a file there that may be open. *)
Definition only_below (t : path) (o o' : os) : Prop :=
  confined t (o_fs o) (o_fs o') /\ o_cwd o' = o_cwd o /\ o_umask o' = o_umask o /\ o_priv o' = o_priv o /\
  (o_fds o' = o_fds o \/ exists n r off, o_fds o' = (n, (t ++ r, off)) :: o_fds o).

Lemma dir_below T t o r st : free_spot o T t -> usable_dir (o_priv o) (o_umask o) MODE_BASE_DIR -> (forall r, o_fs o (t ++ r) = None) ->
  tame (lenN T) stk [] r -> proto_run Idle r = Some st ->
  exists h o', exec (cbs T hal stk (EvDirBegin :: r) HS0) o = Ok (h, o') /\ only_below t o o' /\ h_fp h = None /\ h_ret h = ContentDirectory /\
    (file_opens r = file_ends r -> o_fds o' = o_fds o) /\ exists m, o_fs o' t = Some (IDir m).
Proof.
  intros Fs U Fr Tm P.
  destruct (begin_dir z hal al stk obuf hjunk pjunk Calm T t o Fs U) as (h1 & X1 & D1 & E1 & P1 & R1 & At1 & Nw).
  set (o1 := with_fs (upd (o_fs o) t (IDir (dir_perm (o_umask o) MODE_BASE_DIR))) o) in *.
  assert (LT : lenN T < PATH_MAX).
  { destruct Fs as (_ & d & c & _ & Hn & _). unfold namei in Hn. destruct (negb _); [discriminate|]. destruct (N.leb_spec PATH_MAX (lenN T)); [discriminate|assumption]. }
  assert (Hb : base o1 t o1).
  { split; [apply keeps_refl|]. repeat split; auto. intros r' x. unfold o1. cbn [o_fs with_fs].
    destruct (path_dec (t ++ r') t) as [->|Hn]; [rewrite upd_same; discriminate|]. rewrite upd_other by exact Hn. rewrite Fr. discriminate. }
  assert (S1 : tstate T o1 t (o_fds o) [] Idle h1 o1).
  { split; [constructor|]. rewrite under_nil. split; [exact D1|]. split; [exact Hb|reflexivity]. }
  destruct (tame_run T hal stk o1 t (o_fds o) (ca_hal _ _ _ _ _ _ _ Calm) (proj1 Fs) At1 LT r [] Idle st h1 o1 S1 Tm P) as (cs & h & o' & X & (_ & _ & Hb' & Hf) & F2 & R2).
  exists h, o'. rewrite exec_cbs_cons, X1. cbn [obind]. split; [exact X|].
  destruct Hb' as (K & B1 & B2 & B3 & B4 & _).
  split; [|split; [congruence|]; split; [congruence|]; split].
  - split; [|split; [exact B1|split; [exact B2|split; [exact B3|]]]].
    + intros q Hq. rewrite B4 by exact Hq. unfold o1. cbn [o_fs with_fs]. apply upd_other. intro Q. subst q.
      pose proof (strip_app t []) as Q. rewrite app_nil_r in Q. congruence.
    + destruct st; cbn in Hf; auto. destruct Hf as [[_ Hf]|(n & r' & off & _ & Hf)]; [auto|right; eauto].
  - intro Cn. apply proto_counts in P. destruct st; cbn in Hf; auto. lia.
  - specialize (K t). unfold o1 in K. cbn [o_fs with_fs] in K. rewrite upd_same in K. eauto.
Qed.

Lemma fl_below T t m o ds : writable_spot o T t m ->
  exists h n o' x, exec (cbs T hal stk (reads ds) HS0) o = Ok (h, o') /\ h_fp h = Some n /\ h_ret h = ContentFile /\ h_err h = false /\
    (forall q, q <> t -> o_fs o' q = o_fs o q) /\ o_fs o' t = Some (IFile m x) /\
    o_cwd o' = o_cwd o /\ o_umask o' = o_umask o /\ o_priv o' = o_priv o /\ exists off, o_fds o' = (n, (t, off)) :: o_fds o.
Proof.
  intro Sp. destruct (open_spot _ _ _ _ Sp) as (free & Hfree & Op).
  unfold reads. rewrite exec_cbs_cons. cbn [HL.cb]. unfold cb_fl_start. rewrite exec_sys. cbn [sys]. rewrite Op. cbn [fst snd exec obind].
  match goal with |- context [exec (cbs T hal stk _ ?hh) ?oo] =>
    destruct (fl_confined T ds hh oo (o_next o) t 0 (o_fds o) [] m eq_refl eq_refl) as (o' & x & off & A1 & A2 & A3 & A4 & A5 & A6 & A7); [cbn [o_fs]; apply upd_same|];
    exists hh, (o_next o), o', x end.
  cbn [o_fs o_cwd o_umask o_priv] in *. split; [exact A1|]. split; [reflexivity|]. split; [reflexivity|]. split; [reflexivity|].
  split; [intros q Hq; rewrite A2 by exact Hq; now apply upd_other|]. split; [exact A3|]. repeat split; eauto.
Qed.

Lemma not_below (t q : path) : strip t q = None -> q <> t.
Proof. intros H ->. pose proof (strip_app t []) as Q. rewrite app_nil_r in Q. congruence. Qed.

Lemma tame_extract T archive inp t o fuel : (length inp < fuel)%nat -> supported z C (limited archive 0 inp) ->
  lists_tame (z := z) e alloc (lenN T) stk (limited archive 0 inp) ->
  free_spot o T t -> slash_end T = false -> usable_dir (o_priv o) (o_umask o) MODE_BASE_DIR -> (forall r, o_fs o (t ++ r) = None) ->
  exists dfuel0, forall dfuel, (dfuel0 <= dfuel)%nat -> exists ret s0 ops rets s evs h o',
    exec (extract T hal stk z e alloc archive fuel dfuel al obuf hjunk pjunk inp false) o = Ok ((ret, Some (s, h, dfed ops)), o') /\
    started z s0 /\ Forall dop_ok ops /\ prefix (dfed ops) (limited archive 0 inp) /\ run_dops e alloc dfuel s0 ops = Ok (rets, s, evs) /\
    only_below t o o' /\ (file_opens evs = file_ends evs -> o_fds o' = o_fds o).
Proof.
  intros Hf Sup Lt Fs Sl U Fr.
  assert (Run : forall s0 dfuel ops rets s evs, started z s0 -> Forall dop_ok ops -> prefix (dfed ops) (limited archive 0 inp) ->
    run_dops e alloc dfuel s0 ops = Ok (rets, s, evs) ->
    exists h o1, exec (cbs T hal stk evs HS0) o = Ok (h, o1) /\
      forall o', exec (close_fp h) o1 = Ok (tt, o') -> only_below t o o' /\ (file_opens evs = file_ends evs -> o_fds o' = o_fds o)).
  { intros s0 dfuel ops rets s evs St Ho Pf R.
    destruct (listing_shape z C e alloc _ _ _ _ _ _ St Ho (supported_prefix z C _ _ Pf Sup) R) as [->|[(r & st & -> & P)|(ds & ->)]].
    - exists HS0, o. split; [reflexivity|]. intros o' Cl. cbn in Cl. injection Cl as <-. split; [|auto]. repeat split; auto.
    - destruct (dir_below T t o r st Fs U Fr (Lt _ _ _ _ _ _ St Ho Pf R _ eq_refl) P) as (h & o1 & X & B & F1 & _ & Cn & _).
      exists h, o1. split; [exact X|]. intros o' Cl. unfold close_fp in Cl. rewrite F1 in Cl. cbn in Cl. injection Cl as <-. auto.
    - destruct (fl_below T t _ o ds (free_writable o T t Fs Sl)) as (h & n & o1 & x & X & F1 & _ & _ & A2 & A3 & A4 & A5 & A6 & off & A7).
      exists h, o1. split; [exact X|]. intros o' Cl. unfold close_fp in Cl. rewrite F1, exec_sys in Cl. cbn [sys] in Cl.
      rewrite (close_head _ _ _ _ A7) in Cl. cbn [snd exec] in Cl. injection Cl as <-. split; [|reflexivity].
      split; [intros q Hq; cbn [o_fs]; apply A2; now apply not_below|]. cbn [o_cwd o_umask o_priv o_fds]. auto. }
  destruct (extract_runs T archive inp o fuel Hf Sup) as (dfuel0 & K).
  { intros s0 dfuel ops rets s evs St Ho Fed R. destruct (Run _ _ _ _ _ _ St Ho ltac:(rewrite Fed; apply prefix_refl) R) as (h & o1 & X & _). eauto. }
  exists dfuel0. intros dfuel Hd. destruct (K dfuel Hd) as (ret & x & o' & Ex).
  destruct (extract_did _ _ _ _ _ _ _ _ _ _ Ex) as (s0 & ops & rets & s & evs & h & o1 & ds & -> & St & Ho & Fed & R & X & Cl & Pf & _).
  subst ds. destruct (Run _ _ _ _ _ _ St Ho Pf R) as (h' & o1' & X' & Q). rewrite X in X'. injection X' as <- <-.
  destruct (Q _ Cl) as [Q1 Q2]. exists ret, s0, ops, rets, s, evs, h, o'. split; [exact Ex|]. auto 8.
Qed.
End Whole.

(** ** Archives of records *)

(** The records of an archive with plain names and without links, every end of a directory after a beginning. *)
Fixpoint tame_recs (L stk : N) (cs : list bytes) (rs : list arec) : Prop :=
  match rs with
  | [] => True
  | ADir name _ :: r => plain name /\ tame_recs L stk (cs ++ [name]) r
  | AFile name _ _ _ :: r => plain name /\ L + depth_len cs + 4 + lenN name <= stk /\ tame_recs L stk cs r
  | AEnd :: r => cs <> [] /\ tame_recs L stk (removelast cs) r
  | ALink _ _ _ :: _ | ABroken _ _ _ _ :: _ => False
  end.

Lemma tame_app L stk a : forall cs b, tame L stk cs (a ++ b) -> tame L stk cs a.
Proof.
  induction a as [|ev a IH]; intros cs b H; [exact I|]. cbn [app tame] in *.
  destruct ev as [id d| | |d|ft it name|d| | |d tl]; try contradiction; eauto.
  - destruct ft; try contradiction.
    + destruct H as (H1 & H2 & H). eauto.
    + destruct H as (H1 & H2 & H3 & H). eauto.
  - destruct H as (H1 & H). eauto.
Qed.
Lemma tame_reads L stk cs ds r : tame L stk cs r -> tame L stk cs (map EvRead ds ++ EvFileEnd :: r).
Proof. intro H. induction ds as [|d ds IH]; [exact H|exact IH]. Qed.

Lemma padded_take name : takeN (lenN name) (padded name) = name.
Proof. unfold padded. now apply takeN_app_exact. Qed.
Lemma padded_len name : lenN name <= lenN (padded name).
Proof. unfold padded. rewrite lenN_app. lia. Qed.

Lemma shows_tame L stk : forall rs obs, shows rs obs -> forall cs evs st, flat evs = obs -> proto_run Idle evs = Some st ->
  tame_recs L stk cs rs -> tame L stk cs evs.
Proof.
  induction 1 as [|name mode rs o it H1 H2 H3 H4 H IH|name mode data rs o H IH|name mode target rs o H IH|rs o H IH];
    intros cs evs st F P Tm; cbn [tame_recs] in Tm.
  - destruct evs as [|ev evs]; [exact I|]. cbn [proto_run] in P. destruct ev; cbn in P, F; try discriminate.
  - destruct (idle_entry _ _ _ _ _ _ P F) as (evs' & -> & F'). cbn [tame].
    rewrite H1, padded_take. split; [apply padded_len|]. split; [apply Tm|]. eapply IH; [exact F'|exact P|apply Tm].
  - destruct (idle_entry _ _ _ _ _ _ P F) as (evs' & -> & F'). cbn [proto_run proto_step] in P.
    destruct (file_reads _ _ _ _ _ P F') as (ds & evs2 & -> & Ed & F2 & P2). cbn [tame it_nlen]. rewrite padded_take.
    split; [apply padded_len|]. split; [apply Tm|]. split; [apply Tm|]. apply tame_reads. eapply IH; [exact F2|exact P2|apply Tm].
  - contradiction.
  - destruct (idle_end _ _ _ P F) as (evs' & -> & F' & P'). cbn [tame]. split; [apply Tm|]. eapply IH; [exact F'|exact P'|apply Tm].
Qed.

Lemma archive_of_prefix typ (a b : bytes) : prefix a b -> 128 <= lenN a -> archive_of typ b -> archive_of typ a.
Proof.
  intros [x ->] L (_ & V & Ty). split; [exact L|]. unfold version_of, type_of in *.
  assert (Sl : forall off n, off + n <= 128 -> slice off n (a ++ x) = slice off n a).
  { intros off n Hn. unfold slice. rewrite dropN_app, takeN_app.
    replace (n - lenN (dropN off a)) with 0 by (rewrite lenN_dropN; lia). now rewrite takeN_0, app_nil_r. }
  rewrite Sl in V by lia. rewrite Sl in Ty by lia. auto.
Qed.

Lemma recs_tame z (C : zlib_contract z) e alloc L stk F recs : (forall k n, alloc k n = true) ->
  dir_archive C F recs -> tame_recs L stk [] recs -> lists_tame (z := z) e alloc L stk F.
Proof.
  intros Halloc (B & Fi & Ar & En & Rk) Tm s0 fuel ops rets s evs Hs Ho [x Pf] H r ->.
  destruct (N.lt_ge_cases (lenN (zc_dec C (dfed ops))) 128) as [Ls|Ls].
  { pose proof (before_header z C e alloc _ _ _ _ _ _ Hs Ho Ls H). discriminate. }
  pose proof (zc_dec_mono _ C (dfed ops) x) as Pd. rewrite <- Pf in Pd.
  pose proof (archive_of_prefix _ _ _ Pd Ls Ar) as Ar1.
  destruct (dir_session z C e alloc _ _ _ _ _ _ Hs Ho Ar1 H) as [[Q|(ch & ev' & Q & (s' & E) & P1)] _]; [discriminate|]. injection Q as <-.
  destruct (prefix_trans _ _ _ _ P1 (prefix_dropN 128 _ _ Pd)) as [y Ey].
  assert (At : at_hdr e (dir_fresh (set_err false (d_p s0)))) by (apply fresh_at_hdr, (started_leftovers z), Hs).
  destruct (parse_chunks_ok e alloc (ch ++ [(y, [])]) _ (fresh_pwf e _ (started_leftovers z s0 Hs))) as (s1 & ev1 & E1 & _ & P).
  pose proof E1 as E2. rewrite HLProps.parse_chunks_app, E in E2. cbn [obind] in E2.
  destruct (parse_chunks e alloc s' [(y, [])]) as [[s2 ev2]| |]; try discriminate E2. cbn [obind] in E2. injection E2 as <- <-.
  apply (tame_app L stk r [] ev2). eapply shows_tame; [|reflexivity|exact P|exact Tm].
  eapply (decode_chunks e alloc Halloc); [exact At| |exact Rk|exact E1].
  unfold ctext in *. rewrite map_app, concat_app. cbn [map concat fst]. rewrite app_nil_r, <- Ey. exact En.
Qed.

Lemma preorder1_tame priv um stk : PATH_MAX + 4 <= stk -> forall nd name L cs rest, extractable priv um (L + depth_len cs) name nd ->
  tame_recs L stk cs rest -> tame_recs L stk cs (preorder1 name nd ++ rest).
Proof.
  intro Stk. induction nd as [o st m sz d r|m es IH|m sz tg|] using snode_ind2; intros name L cs rest X R; cbn [preorder1].
  - destruct (dotb name) eqn:Ed; [exact R|]. inversion X as [? ? ? Dd| |? ? ? ? ? ? ? ? P Ln|]; subst.
    { apply dotb_spec in Dd. congruence. }
    cbn [app tame_recs]. split; [exact P|]. split; [|exact R]. lia.
  - destruct (dotb name) eqn:Ed; [exact R|]. inversion X as [? ? ? Dd| | |? ? ? ? P Ln U ND Fe]; subst.
    { apply dotb_spec in Dd. congruence. }
    cbn [app tame_recs]. split; [exact P|]. rewrite <- app_assoc. cbn [app].
    assert (R' : tame_recs L stk (cs ++ [name]) (AEnd :: rest)).
    { cbn [tame_recs]. split; [now destruct cs|]. now rewrite removelast_last. }
    revert R'. generalize (AEnd :: rest). clear R rest ND X. induction es as [|x es IHes]; intros rest R; [exact R|].
    cbn [map concat]. rewrite <- app_assoc. inversion IH; inversion Fe; subst. apply H1; [|apply IHes; auto].
    rewrite depth_len_app. cbn [depth_len]. now replace (L + (depth_len cs + (1 + lenN name + 0))) with (L + depth_len cs + 1 + lenN name) by lia.
  - inversion X as [? ? ? Dd| | |]; subst. apply dotb_spec in Dd. now rewrite Dd.
  - now destruct (dotb name).
Qed.

Lemma preorder_tame priv um stk L es : PATH_MAX + 4 <= stk -> Forall (fun x => extractable priv um L (fst x) (snd x)) es ->
  tame_recs L stk [] (preorder es).
Proof.
  intros Stk X. unfold preorder. induction X as [|x es Hx X IH]; [exact I|]. cbn [map concat].
  eapply preorder1_tame; [exact Stk| |exact IH]. cbn [depth_len]. rewrite N.add_0_r. exact Hx.
Qed.

(** Archives of trees without links, and whatever such archives begin with. *)
Lemma archived_tame z (C : zlib_contract z) priv um e alloc L stk es F : (forall k n, alloc k n = true) -> PATH_MAX + 4 <= stk ->
  archives_dir z es F -> Forall (fun x => quiet (snd x)) es -> Forall (fun x => extractable priv um L (fst x) (snd x)) es ->
  lists_tame (z := z) e alloc L stk F.
Proof.
  intros Ha Stk A Q X. eapply (recs_tame z C); [exact Ha|apply dir_archived; eauto|]. eapply preorder_tame; eauto.
Qed.
Lemma lists_tame_prefix z e alloc L stk F G : prefix G F -> lists_tame (z := z) e alloc L stk F -> lists_tame (z := z) e alloc L stk G.
Proof. intros P H s0 fuel ops rets s evs Hs Ho Hp. apply (H s0 fuel ops rets s evs Hs Ho). eapply prefix_trans; eauto. Qed.
