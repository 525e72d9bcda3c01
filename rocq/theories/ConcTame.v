(** ConcTame.v: two extractions at the same time. *)
From Coq Require Import Lia.
From Verif Require Import Base Format Zlib Compress Parser ParserProofs ParserFacts Decompress DecompressProofs MidProofs MidFacts
  ArchiveSpec ArchiveFacts ArchiveDecode FS FSFacts HL HLSpec HLFacts HLDrive HLProps HLSafe MkdirFacts HLTame HLMkdir HLMore Conc ConcFacts.

(** Below a directory without links, plain components. *)
Lemma walk_same_below fs fs' priv follow t : (forall r x, fs (t ++ r) <> Some (ILink x)) -> (forall r, fs' (t ++ r) = fs (t ++ r)) ->
  forall cs d l l', Forall plain cs -> (exists r, d = t ++ r) ->
  walk_path fs' priv follow l' d cs = walk_path fs priv follow l d cs.
Proof.
  intros Nl Eq. induction cs as [|c cs IH]; intros d l l' Hp [r ->]; [now rewrite !walk_eq|].
  inversion Hp as [|? ? (P1 & P2 & P3 & P4 & P5 & P6) Hp']; subst. rewrite (walk_eq fs'), (walk_eq fs). rewrite Eq.
  destruct (fs (t ++ r)) as [[m|m x|x]|]; try reflexivity. destruct (negb _); [reflexivity|].
  rewrite (bytes_eqb_neq _ _ P4), (bytes_eqb_neq _ _ P5). destruct (_ <? _); [reflexivity|].
  rewrite <- app_assoc, Eq. pose proof (Nl (r ++ [c])) as Nl'.
  destruct (fs (t ++ r ++ [c])) as [[m'|m' x|x]|]; try reflexivity.
  - destruct cs as [|c2 cs]; [reflexivity|]. apply IH; eauto.
  - destruct (Nl' x eq_refl).
Qed.

Section Tame.
Context (T : bytes) (hal : N -> bool) (stk : N) (o1 : os) (t u : path) (fds : list (N * (path * N))).
Hypothesis Hal : forall n, hal n = true.
Hypothesis Nz : ~ In x00 T.
Hypothesis Da : dir_at o1 T t.
Hypothesis LT : lenN T < PATH_MAX.
Hypothesis Tu : strip u t = None.
Hypothesis Ut : strip t u = None.
Hypothesis Fu : forall r, o_fs o1 (u ++ r) = None.
Hypothesis Tn : exists d c m, namei false o1 T = WAt d c (Some (IDir m)) /\ t = d ++ [c].

Lemma base_free o : base o1 t o -> forall r, o_fs o (u ++ r) = None.
Proof. intros (_ & _ & _ & _ & Out & _) r. rewrite Out; [apply Fu|]. now apply strip_none_app. Qed.

Lemma target_at follow o : base o1 t o -> exists d c m, namei follow o T = WAt d c (Some (IDir m)) /\ t = d ++ [c].
Proof.
  intros (K & E1 & E2 & E3 & _). destruct Tn as (d & c & m & N1 & E). exists d, c, m. split; [|exact E].
  assert (N2 : namei false o T = WAt d c (Some (IDir m))).
  { unfold namei in *. destruct (negb _); [discriminate|]. destruct (_ <=? _); [discriminate|]. rewrite E1, E3. eapply walk_keeps_dir; eauto. }
  destruct follow; [|exact N2]. apply namei_follow; [exact N2|discriminate].
Qed.

Lemma path_local_under o cs : base o1 t o -> Forall plain cs -> path_local t u (under T cs) o.
Proof.
  intros Hb Hp follow o' (F1 & F2 & F3 & F4). pose proof (base_free o Hb) as Fo. destruct cs as [|c0 cs0].
  - rewrite under_nil. destruct (target_at follow o Hb) as (d & c & m & E & Et). rewrite E. split.
    + rewrite <- E. unfold namei in *. destruct (negb _); [discriminate|]. destruct (_ <=? _); [discriminate|]. rewrite F1, F3.
      eapply walk_indep; [exact F4|exact Fo|]. rewrite E. cbn [off_u]. now rewrite <- Et.
    + intros d' c' i Q. injection Q as <- <- <-. exists []. now rewrite app_nil_r.
  - remember (c0 :: cs0) as cs eqn:Ecs. assert (Ne : cs <> []) by (subst; discriminate). clear Ecs c0 cs0.
    pose proof (namei_below T o1 t Da follow o cs Hb Hp Ne) as Bl. split.
    + pose proof (base_dir T o1 t Da o Hb) as [Bn L].
      assert (L' : leads (o_fs o') (o_priv o') MAX_LINKS (start T (o_cwd o')) (comps T) t).
      { rewrite F1, F3. destruct L as [(m & Em & Xm) Hw]. split.
        - exists m. split; [|exact Xm]. rewrite F4 by exact Tu. exact Em.
        - destruct Hw as [Hw|(d & c & m' & Hw & Et)]; [left|right; exists d, c, m'; split; [|exact Et]];
            (etransitivity; [|exact Hw]; apply (walk_indep _ _ u F4 Fo); rewrite Hw; cbn [off_u]; [exact I || now rewrite <- Et]). }
      unfold namei. destruct (negb _); [reflexivity|]. destruct (_ <=? _); [reflexivity|].
      rewrite comps_under by exact Hp.
      replace (start (under T cs) (o_cwd o')) with (start T (o_cwd o')) by (unfold start, under; now rewrite absolute_app by exact Bn).
      replace (start (under T cs) (o_cwd o)) with (start T (o_cwd o)) by (unfold start, under; now rewrite absolute_app by exact Bn).
      destruct (walk_cat (o_fs o) (o_priv o) follow cs Ne _ _ _ _ L) as [l ->].
      destruct (walk_cat (o_fs o') (o_priv o') follow cs Ne _ _ _ _ L') as [l' ->]. rewrite F3.
      apply (walk_same_below _ _ _ _ t); [apply Hb| |exact Hp|exists []; now rewrite app_nil_r].
      intro r. apply F4. now apply strip_none_app.
    + intros d c i Q. rewrite Q in Bl. destruct Bl as (cs' & -> & ->). exists (cs' ++ [c]). now rewrite app_assoc.
Qed.

Notation loc := (along (local t u)).

Lemma create_local o cs cuts junk mode : base o1 t o -> Forall plain cs -> loc (os_create (block T cs cuts junk) mode) o.
Proof.
  intros Hb Hp. unfold os_create, with_cstr. rewrite (block_cstr T Nz) by exact Hp. cbn [psys pbind along].
  split; [now apply path_local_under|]. cbn [sys]. destruct (create_below T Nz o1 t Da LT o cs cuts junk mode Hb Hp) as (r & o' & E & _ & Hb' & _).
  unfold os_create, with_cstr in E. rewrite (block_cstr T Nz) in E by exact Hp. rewrite exec_sys in E. cbn [sys] in E.
  destruct (sys_mkdir (under T cs) mode o) as [[er| | | |] o2]; cbn [fst snd along] in *; try exact I.
  destruct er; try exact I. rewrite exec_sys in E. cbn [sys exec] in E. rewrite stat_same in E. injection E as _ <-.
  cbn [along psys pbind]. split; [|exact I]. now apply path_local_under.
Qed.

Lemma mk_down_local mode junk k : forall cs cuts o, base o1 t o -> Forall plain cs -> cs <> [] ->
  loc (mk_down k (block T cs cuts junk) (cuts_at T cs cuts) mode) o.
Proof.
  induction k as [|k IH]; intros cs cuts o Hb Hp Ne; [exact I|].
  destruct (exists_last Ne) as (cs1 & c & ->). apply Forall_app in Hp. destruct Hp as [H1 H2].
  assert (Pc : plain c) by (now inversion H2).
  assert (Hp : Forall plain (cs1 ++ [c])) by (apply Forall_app; auto).
  cbn [mk_down]. unfold with_cstr. rewrite (block_cstr T Nz) by exact Hp. destruct (block_cut T cs1 c cuts junk Pc) as [-> ->].
  apply along_bind. split; [now apply create_local|]. intros r o2 E.
  destruct (create_below T Nz o1 t Da LT o cs1 (c :: cuts) junk mode Hb H1) as (r' & o2' & E' & _ & Hb2 & _ & _ & Z).
  rewrite E in E'. injection E' as <- <-. destruct (r =? -1)%Z; [exact I|]. destruct ((r =? 0)%Z || (r =? 1)%Z) eqn:Er; [exact I|].
  change (lenN (under T cs1) :: cuts_at T (cs1 ++ [c]) cuts) with (cuts_at T cs1 (c :: cuts)). apply IH; [exact Hb2|exact H1|].
  intros ->. destruct (Z eq_refl) as [-> _]. discriminate.
Qed.

Lemma mk_up_local mode junk : forall cuts cs o, base o1 t o -> Forall plain (cs ++ cuts) -> loc (mk_up (block T cs cuts junk) (cuts_at T cs cuts) mode) o.
Proof.
  induction cuts as [|c cuts IH]; intros cs o Hb Hp; cbn [cuts_at mk_up]; [exact I|].
  rewrite block_join. change (c :: cuts) with ([c] ++ cuts) in Hp. rewrite app_assoc in Hp.
  assert (Hp1 : Forall plain (cs ++ [c])) by (apply Forall_app in Hp; apply Hp).
  apply along_bind. split; [now apply create_local|]. intros r o2 E.
  destruct (create_below T Nz o1 t Da LT o (cs ++ [c]) cuts junk mode Hb Hp1) as (r' & o2' & E' & _ & Hb2 & _).
  rewrite E in E'. injection E' as <- <-. destruct (r =? 0)%Z; [|exact I]. now apply IH.
Qed.

Lemma mkdir_local o cs mode : base o1 t o -> Forall plain cs -> cs <> [] -> loc (mkdir_recurse true (under T cs) mode) o.
Proof.
  intros Hb Hp Ne. unfold mkdir_recurse, mkdir_raw. change (under T cs ++ [x00]) with (block T cs [] []).
  apply along_bind. split; [now apply create_local|]. intros r o2 E.
  destruct (create_below T Nz o1 t Da LT o cs [] [] mode Hb Hp) as (r' & o2' & E' & _ & Hb2 & _). rewrite E in E'. injection E' as <- <-.
  destruct (_ || _); [exact I|]. apply along_bind. split; [now apply mk_down_local|]. intros [[b idx] en] o3 E3.
  destruct (mk_down_below T Nz o1 t Da LT mode [] 62 cs [] o2 Hb2 Hp Ne) as (cs' & cuts' & o' & en' & E' & Hb' & _ & _ & Q).
  change (cuts_at T cs []) with (@nil N) in E'. rewrite E3 in E'. injection E' as -> -> -> ->. rewrite app_nil_r in Q.
  destruct en'; try exact I. destruct (_ <? _); [|exact I]. apply mk_up_local; [exact Hb'|now rewrite Q].
Qed.

Lemma tame_step_local ev r cs st st1 h o : tstate T o1 t fds cs st h o -> tame (lenN T) stk cs (ev :: r) -> proto_step st ev = Some st1 ->
  loc (cb T hal stk ev h) o.
Proof.
  intros (Hp & D & Hb & Hf) Tm Ps. pose proof D as (Nu & Ld & junk & Ej).
  destruct ev as [id d| | |d|ft it name|d| | |d tl]; cbn [tame] in Tm; try contradiction.
  - destruct ft; try contradiction.
    + destruct Tm as (L1 & P1 & Tm).
      assert (Hp1 : Forall plain (cs ++ [takeN (it_nlen it) name])) by (apply Forall_app; auto).
      cbn [HL.cb]. unfold cb_entry. rewrite Hal. cbn [negb].
      rewrite (entry_ok T hal stk Hal LT _ cs) by (exact D || exact L1). cbn [plift pbind]. unfold with_cstr.
      change (under T ?c ++ [x00]) with (under T c ++ x00 :: []). rewrite cstr_app by (now apply under_nul).
      rewrite Hal. apply along_bind. split; [apply mkdir_local; [exact Hb|exact Hp1|destruct cs; discriminate]|]. intros; exact I.
    + destruct Tm as (L1 & P1 & Ls & Tm).
      assert (Hp1 : Forall plain (cs ++ [takeN (it_nlen it) name])) by (apply Forall_app; auto).
      cbn [HL.cb]. unfold cb_entry. cbn [h_dplen h_setname]. rewrite Ld, lenN_under.
      replace (stk <? lenN T + depth_len cs + 4 + it_nlen it) with false by (symmetry; apply N.ltb_ge; lia).
      rewrite (entry_ok T hal stk Hal LT _ cs) by (exact D || exact L1). cbn [plift pbind]. unfold with_cstr.
      change (under T ?c ++ [x00]) with (under T c ++ x00 :: []). rewrite cstr_app by (now apply under_nul).
      cbn [psys pbind along local]. split; [split; [now apply path_local_under|discriminate]|]. destruct (fst _); exact I.
  - destruct st as [|k|]; try discriminate. cbn [HL.cb]. unfold cb_read. cbn [psys pbind along local]. split; [|exact I].
    destruct Hf as [[E F]|(n & r' & off & E & F)]; rewrite E; intros n' p off' Q; [discriminate|]. injection Q as <-.
    rewrite F. cbn [find_fd]. rewrite N.eqb_refl. intro Q. injection Q as <- <-. eauto.
  - destruct st as [|k|]; try discriminate. cbn [HL.cb]. unfold cb_file_end. cbn [psys pbind along local]. split; [|exact I].
    destruct Hf as [[E F]|(n & r' & off & E & F)]; rewrite E; intros n' p off' Q; [discriminate|]. injection Q as <-.
    rewrite F. cbn [find_fd]. rewrite N.eqb_refl. intro Q. injection Q as <- <-. eauto.
  - cbn [HL.cb]. unfold cb_dir_end. destruct (h_dp h) as [b|]; [|exact I]. unfold with_cstr. destruct (cstr b) as [s|]; [|exact I].
    destruct (rindex _ _); exact I.
Qed.

Lemma tame_run_local : forall evs cs st st' h o, tstate T o1 t fds cs st h o -> tame (lenN T) stk cs evs -> proto_run st evs = Some st' ->
  loc (cbs T hal stk evs h) o.
Proof.
  induction evs as [|ev evs IH]; intros cs st st' h o S Tm P; [exact I|].
  cbn [proto_run] in P. destruct (proto_step st ev) as [st1|] eqn:Ps; [|discriminate].
  cbn [HL.cbs]. apply along_bind. split; [eapply tame_step_local; eauto|]. intros h1' oo' X'.
  destruct (tame_step T hal stk o1 t fds Hal Nz Da LT _ _ _ _ _ _ _ S Tm Ps) as (cs1 & h1 & oo & X & S1 & Tm1 & _).
  rewrite X' in X. injection X as -> ->. eapply IH; eauto.
Qed.
End Tame.

(** ** The loop *)
Lemma loop_along P T hal stk z e alloc archive fuel dfuel : forall inp rderr total idx (s : dsess z) h o,
  (forall ops rets s' evs, Forall dop_ok ops -> prefix (dfed ops) (limited archive total inp) ->
     run_dops e alloc dfuel s ops = Ok (rets, s', evs) -> along P (cbs T hal stk evs h) o) ->
  along P (extract_loop T hal stk z e alloc archive fuel dfuel inp rderr total idx s h) o.
Proof.
  induction fuel as [|f IH]; intros inp rderr total idx s h o H; [exact I|]. cbn [HL.extract_loop].
  destruct (N.ltb_spec (next_size archive total) 1) as [H1|H1]; [exact I|].
  set (n := next_size archive total) in *.
  destruct ((lenN (takeN n inp) <? n) && rderr); [exact I|].
  destruct (decompress e alloc dfuel _ (takeN n inp) s) as [[[r1 s1] ev1]| |] eqn:Ed; try exact I. cbn [plift pbind].
  assert (Dk : dop_ok (DFeed (Z.of_N (N.shiftr (N.land (idx + 1) 16) 4)) (takeN n inp))).
  { split; [apply flush_normal|]. rewrite lenN_takeN. pose proof (next_size_le archive total). unfold DEF_CHUNK_SIZE, two32, n in *. lia. }
  pose proof (limited_step hal alloc archive total inp) as Ls. cbn zeta in Ls. fold n in Ls.
  assert (Go : forall ops rets s' evs, Forall dop_ok ops -> prefix (takeN n inp ++ dfed ops) (limited archive total inp) ->
    run_dops e alloc dfuel s1 ops = Ok (rets, s', evs) -> along P (cbs T hal stk (ev1 ++ evs) h) o).
  { intros ops rets s' evs Ho Pf R.
    apply (H (DFeed (Z.of_N (N.shiftr (N.land (idx + 1) 16) 4)) (takeN n inp) :: ops) (r1 :: rets) s'); [now constructor|exact Pf|].
    cbn [run_dops]. rewrite Ed. cbn [obind]. now rewrite R. }
  apply along_bind. split.
  - pose proof (Go [] [] s1 [] (Forall_nil _)) as G. rewrite !app_nil_r in G. apply G; [|reflexivity].
    rewrite Ls. eexists. reflexivity.
  - intros h1 o1 X1. destruct (_ || h_err h1) eqn:Es; [exact I|]. apply along_bind. split; [|intros [[[? ?] ?] ?] ? _; exact I].
    apply IH. intros ops rets s' evs Ho [y Pf] R.
    assert (Ll : lenN (takeN n inp) = n).
    { apply orb_false_iff in Es. destruct Es as [Es _]. apply N.ltb_ge in Es. rewrite lenN_takeN in *. lia. }
    rewrite Ll in Pf.
    assert (G : along P (cbs T hal stk (ev1 ++ evs) h) o).
    { eapply Go; [exact Ho| |exact R]. rewrite Ls, Pf. exists y. now rewrite app_assoc. }
    clear - G X1. revert h o G X1. induction ev1 as [|ev l IHl]; intros h o G X1.
    + cbn in X1. injection X1 as <- <-. exact G.
    + cbn [app HL.cbs] in G. apply along_bind in G. destruct G as [_ G]. rewrite exec_cbs_cons in X1.
      destruct (exec (cb T hal stk ev h) o) as [[h2 o2]| |] eqn:X; try discriminate X1. cbn [obind] in X1. eapply IHl; [|exact X1]. now apply G.
Qed.

Lemma walk_made_at fs priv i follow d' c' : (forall x, i <> ILink x) -> fs (d' ++ [c']) = None -> forall links d cs,
  walk_path fs priv follow links d cs = WAt d' c' None -> walk_path (upd fs (d' ++ [c']) i) priv follow links d cs = WAt d' c' (Some i).
Proof.
  intros Hi Nw links d cs Hw. revert links d cs Hw.
  set (fs' := upd fs (d' ++ [c']) i).
  assert (Keep : forall p j, fs p = Some j -> fs' p = Some j) by (intros p j E; unfold fs'; rewrite upd_other; congruence).
  induction links as [links IHl] using (well_founded_induction lt_wf).
  intros d cs. revert d. induction cs as [|c1 r IH]; intros d Hw; rewrite walk_eq in Hw; [discriminate|].
  rewrite walk_eq. destruct (fs d) as [j|] eqn:Ed; [|discriminate]. rewrite (Keep _ _ Ed).
  destruct j as [m1|m1 x|x]; try discriminate. destruct (negb _) eqn:Ex; [discriminate|].
  destruct (bytes_eqb c1 _); [auto|]. destruct (bytes_eqb c1 _); [auto|]. destruct (_ <? _); [discriminate|].
  destruct (fs (d ++ [c1])) as [j|] eqn:Ec.
  - rewrite (Keep _ _ Ec). destruct j as [m2|m2 x|x].
    + destruct r; [discriminate|auto].
    + destruct r; discriminate.
    + destruct r, follow; try discriminate; (destruct links as [|lk]; [discriminate|]; destruct (nonempty x); [|discriminate]; apply IHl; [lia|exact Hw]).
  - destruct r; [|discriminate]. injection Hw as <- <-. unfold fs'. rewrite upd_same. destruct i as [m|m x|x]; try reflexivity. destruct (Hi x eq_refl).
Qed.

Lemma free_spot_local o T t u : free_spot o T t -> strip u t = None -> (forall r, o_fs o (u ++ r) = None) -> path_local t u T o.
Proof.
  intros (_ & d & c & -> & Hn & _) Tu Fu follow o' (F1 & F2 & F3 & F4).
  assert (E : namei follow o T = WAt d c None).
  { destruct follow; [|exact Hn]. unfold namei in *. destruct (negb _); [discriminate|]. destruct (_ <=? _); [discriminate|]. now apply walk_follow. }
  rewrite E. split.
  - rewrite <- E. unfold namei in *. destruct (negb _); [discriminate|]. destruct (_ <=? _); [discriminate|]. rewrite F1, F3.
    eapply walk_indep; [exact F4|exact Fu|]. rewrite E. exact Tu.
  - intros d' c' i Q. injection Q as <- <- <-. exists []. now rewrite app_nil_r.
Qed.

Section Whole.
Context (z : zlib) (C : zlib_contract z) (e : endian) (alloc : N -> N -> bool) (hal al : N -> bool) (stk : N) (obuf hjunk : bytes) (pjunk : pst).
Hypothesis Calm : calm z hal al stk obuf hjunk pjunk.
Context (T : bytes) (t u : path) (o : os).
Hypothesis Fs : free_spot o T t.
Hypothesis Sl : slash_end T = false.
Hypothesis U : usable_dir (o_priv o) (o_umask o) MODE_BASE_DIR.
Hypothesis Ft : forall r, o_fs o (t ++ r) = None.
Hypothesis Fu : forall r, o_fs o (u ++ r) = None.
Hypothesis Tu : strip u t = None.
Hypothesis Ut : strip t u = None.

Lemma dir_local r st : tame (lenN T) stk [] r -> proto_run Idle r = Some st -> along (local t u) (cbs T hal stk (EvDirBegin :: r) HS0) o.
Proof.
  intros Tm P.
  destruct (begin_dir z hal al stk obuf hjunk pjunk Calm T t o Fs U) as (h1 & X1 & D1 & E1 & P1 & R1 & At1 & Nw).
  set (o1 := with_fs (upd (o_fs o) t (IDir (dir_perm (o_umask o) MODE_BASE_DIR))) o) in *.
  assert (LT : lenN T < PATH_MAX).
  { destruct Fs as (_ & d & c & _ & Hn & _). unfold namei in Hn. destruct (negb _); [discriminate|]. destruct (N.leb_spec PATH_MAX (lenN T)); [discriminate|assumption]. }
  assert (Hb : base o1 t o1).
  { split; [apply keeps_refl|]. repeat split; auto. intros r' x. unfold o1. cbn [o_fs with_fs].
    destruct (path_dec (t ++ r') t) as [->|Hn]; [rewrite upd_same; discriminate|]. rewrite upd_other by exact Hn. rewrite Ft. discriminate. }
  assert (S1 : tstate T o1 t (o_fds o) [] Idle h1 o1).
  { split; [constructor|]. rewrite under_nil. split; [exact D1|]. split; [exact Hb|reflexivity]. }
  cbn [HL.cbs]. apply along_bind. split.
  - cbn [HL.cb]. unfold cb_dr_start. rewrite (ca_hal _ _ _ _ _ _ _ Calm). apply along_bind. split.
    2:{ intros a o' _. destruct (negb _); [exact I|]. destruct (negb _); exact I. }
    pose proof (free_mkdir o T t MODE_BASE_DIR Fs U) as (Xm & _).
    unfold mkdir_recurse, mkdir_raw in *. apply along_bind. split.
    + unfold os_create, with_cstr. change (T ++ [x00]) with (T ++ x00 :: []). rewrite cstr_app by (apply Fs). cbn [psys pbind along].
      split; [now apply free_spot_local|]. cbn [sys]. destruct Fs as (Nz & d & c & Et & Hn & W). unfold sys_mkdir. rewrite Hn, W. exact I.
    + intros a o' E. unfold os_create, with_cstr in E. change (T ++ [x00]) with (T ++ x00 :: []) in E. rewrite cstr_app in E by (apply Fs).
      rewrite exec_sys in E. cbn [sys] in E. destruct Fs as (Nz & d & c & Et & Hn & W). unfold sys_mkdir in E. rewrite Hn, W in E. cbn [fst snd exec] in E.
      injection E as <- _. exact I.
  - intros h1' o1' X1'. rewrite X1 in X1'. injection X1' as <- <-.
    assert (Fu1 : forall r, o_fs o1 (u ++ r) = None).
    { intro r'. unfold o1. cbn [o_fs with_fs]. rewrite upd_other; [apply Fu|]. intro Q. pose proof (strip_app u r') as Q'. rewrite Q, Tu in Q'. discriminate. }
    assert (Tn : exists d c m, namei false o1 T = WAt d c (Some (IDir m)) /\ t = d ++ [c]).
    { destruct Fs as (Nz & d & c & Et & Hn & W). exists d, c, (dir_perm (o_umask o) MODE_BASE_DIR). split; [|exact Et].
      unfold namei in *. destruct (negb _); [discriminate|]. destruct (_ <=? _); [discriminate|]. unfold o1. cbn [o_fs o_priv o_cwd with_fs]. rewrite Et.
      apply walk_made_at; [discriminate|now rewrite <- Et|exact Hn]. }
    exact (tame_run_local T hal stk o1 t u (o_fds o) (ca_hal _ _ _ _ _ _ _ Calm) (proj1 Fs) At1 LT Tu Ut Fu1 Tn r [] Idle st h1 o1 S1 Tm P).
Qed.

Lemma fl_reads_local ds : forall h oo n off fds x m, h_fp h = Some n -> o_fds oo = (n, (t, off)) :: fds -> o_fs oo t = Some (IFile m x) ->
  along (local t u) (cbs T hal stk (map EvFlRead ds) h) oo.
Proof.
  induction ds as [|d ds IH]; intros h oo n off fds x m Hf E F; [exact I|].
  cbn [map HL.cbs]. apply along_bind. split.
  - cbn [HL.cb]. unfold cb_fl_read. rewrite Hf. cbn [psys pbind along local]. split; [|exact I].
    intros n' p off' Q Q2. injection Q as <-. rewrite E in Q2. cbn [find_fd] in Q2. rewrite N.eqb_refl in Q2. injection Q2 as <- <-. exists []. now rewrite app_nil_r.
  - intros h1 o1 X.
    destruct (fl_confined hal stk T [d] h oo n t off fds x m Hf E F) as (o' & x' & off' & A1 & _ & A3 & _ & _ & _ & A7).
    cbn [map] in A1. rewrite exec_cbs_cons, X in A1. cbn [obind] in A1. cbn in A1. injection A1 as -> ->. eapply IH; eauto.
Qed.

Lemma fl_local ds : along (local t u) (cbs T hal stk (reads ds) HS0) o.
Proof.
  destruct (open_spot _ _ _ _ (free_writable o T t Fs Sl)) as (free & Hfree & Op).
  unfold reads. cbn [HL.cbs]. apply along_bind. split.
  - cbn [HL.cb]. unfold cb_fl_start. cbn [psys pbind along local]. split; [|destruct (fst _); exact I].
    split; [now apply free_spot_local|]. intros _ d c i Q.
    pose proof Fs as (_ & d1 & c1 & _ & Hn & _). unfold namei in *. destruct (negb _); [discriminate|]. destruct (_ <=? _); [discriminate|].
    rewrite (walk_follow _ _ _ _ _ _ _ Hn) in Q. injection Q as _ _ <-. reflexivity.
  - intros h1 o1 X. cbn [HL.cb] in X. unfold cb_fl_start in X. rewrite exec_sys in X. cbn [sys] in X. rewrite Op in X. cbn [fst snd exec] in X.
    injection X as <- <-. eapply fl_reads_local; [reflexivity|reflexivity|]. cbn [o_fs]. apply upd_same.
Qed.

Lemma extract_local archive fuel dfuel inp : supported z C (limited archive 0 inp) -> lists_tame (z := z) e alloc (lenN T) stk (limited archive 0 inp) ->
  along (local t u) (extract T hal stk z e alloc archive fuel dfuel al obuf hjunk pjunk inp false) o.
Proof.
  intros Sup Lt.
  assert (Run : forall s0 ops rets s evs, started z s0 -> Forall dop_ok ops -> prefix (dfed ops) (limited archive 0 inp) ->
    run_dops e alloc dfuel s0 ops = Ok (rets, s, evs) ->
    along (local t u) (cbs T hal stk evs HS0) o /\
    forall h o1, exec (cbs T hal stk evs HS0) o = Ok (h, o1) -> along (local t u) (close_fp h) o1).
  { intros s0 ops rets s evs St Ho Pf R.
    destruct (listing_shape z C e alloc _ _ _ _ _ _ St Ho (supported_prefix z C _ _ Pf Sup) R) as [->|[(r & st & -> & P)|(ds & ->)]].
    - split; [exact I|]. intros h o1 X. cbn in X. injection X as <- <-. exact I.
    - pose proof (Lt _ _ _ _ _ _ St Ho Pf R _ eq_refl) as Tm. split; [now apply (dir_local r st)|].
      destruct (dir_below z alloc hal al stk obuf hjunk pjunk Calm T t o r st Fs U Ft Tm P) as (h & o1 & X & _ & F1 & _).
      intros h' o1' X'. rewrite X in X'. injection X' as <- <-. unfold close_fp. rewrite F1. exact I.
    - split; [apply fl_local|].
      destruct (fl_below hal stk T t _ o ds (free_writable o T t Fs Sl)) as (h & n & o1 & x & X & F1 & _ & _ & A2 & A3 & A4 & A5 & A6 & off & A7).
      intros h' o1' X'. rewrite X in X'. injection X' as <- <-. unfold close_fp. rewrite F1. cbn [psys pbind along local]. split; [|exact I].
      intros n' p off' Q Q2. injection Q as <-. rewrite A7 in Q2. cbn [find_fd] in Q2. rewrite N.eqb_refl in Q2. injection Q2 as <- <-. exists []. now rewrite app_nil_r. }
  unfold extract. destruct (_ || _); [exact I|].
  destruct (calm_started z C alloc hal al stk obuf hjunk pjunk Calm) as (s0 & Ec & St & Sf). rewrite Ec.
  apply along_bind. split.
  - apply loop_along. intros ops rets s' evs Ho Pf R. now apply (Run s0 ops rets s').
  - intros [[[ok s] h] ds] o1 X. destruct (loop_inv _ _ _ _ _ _ _ _ _ _ _ _ _ _ _ _ _ _ _ _ _ X) as (ops & rets & evs & A1 & A2 & A3 & A4 & A5 & A6 & _).
    apply along_bind. subst ds. split; [now apply (Run s0 ops rets s evs)|]. intros [] o2 _. destruct (destroy s); exact I.
Qed.
End Whole.

(** ** Two extractions *)

Definition with_free (n : N) (o : os) : os := OS (o_fs o) n (o_cwd o) (o_umask o) (o_priv o) (o_fds o) (o_next o).

(** The arguments of a call of ZlibWtDecompressFileOrDirEx and what its environment does. *)
Record job (z : zlib) : Type := Job {
  j_target : bytes; j_input : bytes; j_archive : N;
  j_e : endian; j_alloc : N -> N -> bool; j_hal : N -> bool; j_al : N -> bool; j_stk : N;
  j_obuf : bytes; j_hjunk : bytes; j_pjunk : pst; j_fuel : nat; j_dfuel : nat
}.
Arguments j_target {z}. Arguments j_input {z}. Arguments j_archive {z}. Arguments j_e {z}. Arguments j_alloc {z}. Arguments j_hal {z}.
Arguments j_al {z}. Arguments j_stk {z}. Arguments j_obuf {z}. Arguments j_hjunk {z}. Arguments j_pjunk {z}. Arguments j_fuel {z}. Arguments j_dfuel {z}.

Definition extraction {z} (x : job z) : prog (N * option (dsess z * hst * bytes)) :=
  extract (j_target x) (j_hal x) (j_stk x) z (j_e x) (j_alloc x) (j_archive x) (j_fuel x) (j_dfuel x) (j_al x) (j_obuf x) (j_hjunk x) (j_pjunk x) (j_input x) false.

(** The call extracts an archive that stays below its target (C41) to the free place [t]. *)
Definition proper {z} (C : zlib_contract z) (x : job z) (t : path) (o : os) : Prop :=
  calm z (j_hal x) (j_al x) (j_stk x) (j_obuf x) (j_hjunk x) (j_pjunk x) /\
  supported z C (first_bytes (j_archive x) (j_input x)) /\
  lists_tame (z := z) (j_e x) (j_alloc x) (lenN (j_target x)) (j_stk x) (first_bytes (j_archive x) (j_input x)) /\
  free_spot o (j_target x) t /\ slash_end (j_target x) = false /\ usable_dir (o_priv o) (o_umask o) MODE_BASE_DIR /\
  (forall r, o_fs o (t ++ r) = None).

(** Neither path is at or below the other. *)
Definition apart (t u : path) : Prop := strip t u = None /\ strip u t = None.

Lemma proper_alone z C (x : job z) t u o b r o1 : proper C x t o -> apart t u -> (forall r, o_fs o (u ++ r) = None) ->
  exec (extraction x) (with_free b o) = Ok (r, o1) -> 0 < o_free o1 -> along (alone t u) (extraction x) (with_free b o).
Proof.
  intros (Cm & Sup & Lt & Fs & Sl & U & Ft) [Tu Ut] Fu X Pos.
  assert (L : along (local t u) (extraction x) (with_free b o)).
  { unfold extraction. apply (extract_local z C _ _ _ _ _ _ _ _ Cm); try assumption; now rewrite limited_first. }
  apply along_and; [exact L|]. eapply run_complete; eauto.
Qed.

Lemma both_extract z (C : zlib_contract z) (x1 x2 : job z) t1 t2 o b1 b2 r1 r2 o1 o2 :
  proper C x1 t1 o -> proper C x2 t2 o -> apart t1 t2 ->
  exec (extraction x1) (with_free b1 o) = Ok (r1, o1) -> 0 < o_free o1 ->
  exec (extraction x2) (with_free b2 o) = Ok (r2, o2) -> 0 < o_free o2 -> b1 + b2 <= o_free o ->
  exists n, forall sched, (n <= turns true sched)%nat -> (n <= turns false sched)%nat ->
    exists f1 f2 o', interleave sched (extraction x1, fds_of o) (extraction x2, fds_of o) o = ((PRet r1, f1), (PRet r2, f2), o') /\
      o_cwd o' = o_cwd o /\
      forall q, o_fs o' q = match strip t1 q, strip t2 q with Some _, _ => o_fs o1 q | None, Some _ => o_fs o2 q | None, None => o_fs o q end.
Proof.
  intros P1 P2 Ap X1 F1 X2 F2 Le.
  assert (Ap' : apart t2 t1) by (destruct Ap; split; assumption).
  pose proof (proper_alone _ _ _ _ _ _ _ _ _ P1 Ap ltac:(apply P2) X1 F1) as A1.
  pose proof (proper_alone _ _ _ _ _ _ _ _ _ P2 Ap' ltac:(apply P1) X2 F2) as A2.
  exists (Nat.max (psteps (extraction x1) (with_free b1 o)) (psteps (extraction x2) (with_free b2 o))). intros sched T1 T2.
  destruct Ap as [T12 T21].
  destruct (two_threads t1 t2 T21 T12 sched _ _ _ _ o _ _ _ _ A1 A2 (frame_refl _ _) (frame_refl _ _) Le X1 X2 ltac:(lia) ltac:(lia))
    as (f1 & f2 & o' & E & _ & _ & (G1 & _ & _ & G2) & (_ & _ & _ & G3) & _).
  pose proof (run_touches _ _ T21 T12 _ _ _ _ A1 X1) as (Q1 & _ & _ & Q2).
  pose proof (run_touches _ _ T12 T21 _ _ _ _ A2 X2) as (_ & _ & _ & Q3).
  exists f1, f2, o'. split; [exact E|]. split; [etransitivity; [exact G1|exact Q1]|]. intro q.
  destruct (strip t1 q) as [x|] eqn:S1.
  - apply G2. apply strip_spec in S1. subst q. now apply strip_none_app.
  - destruct (strip t2 q) as [y|] eqn:S2; [now apply G3|]. rewrite (G2 q S2). now apply Q2.
Qed.

(** The call extracts an archive of the listing [es] written by the library. *)
Definition own_job {z} (x : job z) (es : list (bytes * snode)) (F : bytes) (t : path) (o : os) : Prop :=
  calm z (j_hal x) (j_al x) (j_stk x) (j_obuf x) (j_hjunk x) (j_pjunk x) /\
  archives_dir z es F /\ input_of (j_archive x) F (j_input x) /\ (length (j_input x) < j_fuel x)%nat /\ (forall k n, j_alloc x k n = true) /\
  preorder es <> [] /\ Forall (fun y => quiet (snd y)) es /\ NoDup (map fst es) /\
  Forall (fun y => extractable (o_priv o) (o_umask o) (lenN (j_target x)) (fst y) (snd y)) es /\
  free_spot o (j_target x) t /\ slash_end (j_target x) = false /\ usable_dir (o_priv o) (o_umask o) MODE_BASE_DIR /\
  (forall r, o_fs o (t ++ r) = None).
Definition with_dfuel {z} (d : nat) (x : job z) : job z :=
  Job z (j_target x) (j_input x) (j_archive x) (j_e x) (j_alloc x) (j_hal x) (j_al x) (j_stk x) (j_obuf x) (j_hjunk x) (j_pjunk x) (j_fuel x) d.

Lemma own_proper z (C : zlib_contract z) (x : job z) es F t o : own_job x es F t o -> proper C x t o.
Proof.
  intros (Cm & A & In & Hf & Ha & Ne & Q & ND & X & Fs & Sl & U & Ft).
  destruct (own_tame z C (j_e x) (j_alloc x) _ _ _ _ _ _ Cm (lenN (j_target x)) es F (j_archive x) (j_input x) Ha A) with (priv := o_priv o) (um := o_umask o) as [S L]; auto.
  { rewrite <- limited_first, (input_limited _ _ _ In). apply prefix_refl. }
  exact (conj Cm (conj S (conj L (conj Fs (conj Sl (conj U Ft)))))).
Qed.

Lemma both_trees z (C : zlib_contract z) (x1 x2 : job z) es1 es2 F1 F2 t1 t2 o :
  own_job x1 es1 F1 t1 o -> own_job x2 es2 F2 t2 o -> apart t1 t2 -> volume (preorder es1) + volume (preorder es2) + 2 <= o_free o ->
  exists d0, forall d, (d0 <= d)%nat -> exists ret1 s1 h1 ds1 ret2 s2 h2 ds2, room_left s1 -> room_left s2 ->
    ret1 = ContentDirectory /\ ret2 = ContentDirectory /\
    exists n, forall sched, (n <= turns true sched)%nat -> (n <= turns false sched)%nat ->
    exists f1 f2 o', interleave sched (extraction (with_dfuel d x1), fds_of o) (extraction (with_dfuel d x2), fds_of o) o =
        ((PRet (ret1, Some (s1, h1, ds1)), f1), (PRet (ret2, Some (s2, h2, ds2)), f2), o') /\
      o_cwd o' = o_cwd o /\
      forall q, o_fs o' q = overlay t1 (dir_tree (o_umask o) es1) (overlay t2 (dir_tree (o_umask o) es2) (o_fs o)) q.
Proof.
  intros O1 O2 Ap V.
  assert (Solo : forall (x : job z) es F t, own_job x es F t o -> exists d0, forall d, (d0 <= d)%nat -> exists ret s h ds o',
    exec (extraction (with_dfuel d x)) (with_free (volume (preorder es) + 1) o) = Ok ((ret, Some (s, h, ds)), o') /\
    (room_left s -> ret = ContentDirectory /\ 0 < o_free o' /\ forall q, o_fs o' q = overlay t (dir_tree (o_umask o) es) (o_fs o) q)).
  { intros x es F t (Cm & A & In & Hf & Ha & Ne & Q & ND & X & Fs & Sl & U & Ft).
    destruct (disk_dir_free z C es F (j_e x) (j_alloc x) (j_hal x) (j_al x) (j_stk x) (j_obuf x) (j_hjunk x) (j_pjunk x) (j_target x) (j_archive x) (j_input x) t
      (with_free (volume (preorder es) + 1) o) (j_fuel x) A In Hf Cm Ha Ne Q ND X Fs U Ft ltac:(cbn [o_free with_free]; lia)) as (d0 & H).
    exists d0. intros d Hd. destruct (H d Hd) as (ret & s & h & ds & o' & E & R). exists ret, s, h, ds, o'. split; [exact E|].
    intro Rl. destruct (R Rl) as (R1 & R2 & R3 & R4). split; [exact R1|]. split; [|exact R4]. rewrite R3. cbn [o_free with_free]. lia. }
  destruct (Solo _ _ _ _ O1) as (d1 & S1). destruct (Solo _ _ _ _ O2) as (d2 & S2). exists (Nat.max d1 d2). intros d Hd.
  destruct (S1 d ltac:(lia)) as (ret1 & s1 & h1 & ds1 & e1 & X1 & R1). destruct (S2 d ltac:(lia)) as (ret2 & s2 & h2 & ds2 & e2 & X2 & R2).
  exists ret1, s1, h1, ds1, ret2, s2, h2, ds2. intros L1 L2. destruct (R1 L1) as (T1 & P1 & G1). destruct (R2 L2) as (T2 & P2 & G2).
  split; [exact T1|]. split; [exact T2|].
  destruct (both_extract z C (with_dfuel d x1) (with_dfuel d x2) t1 t2 o _ _ _ _ _ _ (own_proper z C _ _ _ _ _ O1) (own_proper z C _ _ _ _ _ O2) Ap X1 P1 X2 P2 ltac:(lia)) as (n & H).
  exists n. intros sched N1 N2. destruct (H sched N1 N2) as (f1 & f2 & o' & E & Cw & Fq). exists f1, f2, o'. split; [exact E|]. split; [exact Cw|].
  intro q. rewrite Fq. destruct Ap as [A1 A2]. unfold overlay at 1. destruct (strip t1 q) as [r|] eqn:Q1.
  - rewrite G1. unfold overlay at 1. rewrite Q1. destruct (dir_tree (o_umask o) es1 r); [reflexivity|].
    unfold overlay. apply strip_spec in Q1. subst q. now rewrite (strip_none_app t2 t1 r A2 A1).
  - destruct (strip t2 q) as [r|] eqn:Q2; [now rewrite G2|]. unfold overlay. now rewrite Q2.
Qed.
