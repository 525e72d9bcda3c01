(** WinExtractTame.v: archives that stay inside the directory they are extracted to on Windows; archives of single files. *)
From Coq Require Import Lia.
From Verif Require Import Base Format Zlib Compress Parser ParserProofs ParserFacts Decompress DecompressProofs MidProofs MidFacts
  ArchiveSpec ArchiveFacts ArchiveDecode FS FSFacts HL HLSpec HLFacts HLDrive HLProps HLSafe MkdirFacts HLTame HLMore WinTools WinFacts
  WinExtract WinExtractSpec WinExtractFacts.

Definition wclear (n : bytes) : Prop := plain n /\ ~ In x5c n.
Lemma wclear_plain cs : Forall wclear cs -> Forall plain cs.
Proof. intro H. eapply Forall_impl; [|exact H]. intros c Hc. apply Hc. Qed.
Lemma xkey_under cwd B cs : B <> [] -> Forall wclear cs -> xkey cwd (under B cs) = xkey cwd B ++ map fold_case cs.
Proof.
  intro Hb. induction cs as [|c cs IH] using rev_ind; intro H; [now rewrite under_nil, app_nil_r|].
  apply Forall_app in H. destruct H as [H1 H2]. inversion H2 as [|? ? [P Q] _]; subst.
  rewrite under_snoc, xkey_entry, IH, map_app, app_assoc; auto. unfold under. now destruct B.
Qed.

Lemma wentry_ok T h cs it name : in_dir h (under T cs) -> it_nlen it <= lenN name ->
  entry_path it name h = Ok (under T (cs ++ [takeN (it_nlen it) name]) ++ [x00]).
Proof.
  intros (_ & L & junk & E) N. unfold entry_path. rewrite E, L.
  replace (lenN name <? it_nlen it) with false by (symmetry; apply N.ltb_ge; lia).
  replace (lenN (under T cs ++ x00 :: junk) <? lenN (under T cs)) with false by (symmetry; apply N.ltb_ge; rewrite lenN_app; lia).
  rewrite takeN_app_exact by reflexivity. rewrite under_snoc. now rewrite <- app_assoc.
Qed.

Section Tame.
Context (maxd maxf : N) (deny : path -> bool) (T : bytes) (hal : N -> bool) (stk : N) (w1 : wst) (t : path) (fds : list (N * (path * N))).
Hypothesis Hal : forall n, hal n = true.
Hypothesis Nz : ~ In x00 T.
Hypothesis Ne : T <> [].
Hypothesis Key : xkey (w_cwd w1) T = t.
Notation xcb := (xcb maxd maxf deny T hal stk).
Notation xcbs := (xcbs maxd maxf deny T hal stk).
Notation under := (under T).

Definition wbase (w : wst) : Prop := w_cwd w = w_cwd w1 /\ xconfined t (w_fs w1) (w_fs w) /\ w_fs w t = Some XDir.

Lemma wbase_upd w w' r i : wbase w -> w_cwd w' = w_cwd w -> w_fs w' = xupd (w_fs w) (t ++ r) i -> (r = [] -> i = XDir) -> wbase w'.
Proof.
  intros (A & B & D) Hc Hf Hr. split; [congruence|]. split.
  - intros q Hq. rewrite Hf, xupd_other; [now apply B|]. intros ->. rewrite strip_app in Hq. discriminate.
  - rewrite Hf. destruct r as [|c r]; [rewrite app_nil_r, xupd_same, Hr; reflexivity|]. rewrite xupd_other; [exact D|].
    intro Q. apply (f_equal (@length bytes)) in Q. rewrite app_length in Q. cbn in Q. lia.
Qed.
Lemma wbase_key w cs : wbase w -> Forall wclear cs -> xkey (w_cwd w) (under cs) = t ++ map fold_case cs.
Proof. intros (A & _) H. rewrite A, xkey_under, Key by assumption. reflexivity. Qed.

Definition quietly (w w' : wst) : Prop := wbase w' /\ w_fds w' = w_fds w /\ w_dead w' = w_dead w.
Lemma quietly_trans a b c : quietly a b -> quietly b c -> quietly a c.
Proof. intros (A1 & A2 & A3) (B1 & B2 & B3). split; [exact B1|]. split; congruence. Qed.

Lemma xcreate_below w cs : wbase w -> Forall wclear cs -> exists r w', xcreate maxd deny (under cs) w = (r, w') /\ quietly w w' /\ (cs = [] -> r <> CdNoPath).
Proof.
  intros Hb Hc. unfold xcreate. rewrite (wbase_key w cs Hb Hc).
  assert (Q : quietly w w) by (split; [exact Hb|split; reflexivity]).
  assert (Nn : nonempty (under cs) = true) by (unfold MkdirFacts.under; now destruct T). rewrite Nn. cbn [negb].
  destruct (maxd <=? _); [exists CdOther, w; split; [reflexivity|]; split; [exact Q|discriminate]|].
  destruct (w_fs w (t ++ map fold_case cs)) as [i|] eqn:E; [exists CdExists, w; split; [reflexivity|]; split; [exact Q|discriminate]|].
  assert (Nc : cs = [] -> False). { intros ->. rewrite app_nil_r in E. destruct Hb as (_ & _ & D). congruence. }
  destruct (xdir _ _); [|exists CdNoPath, w; split; [reflexivity|]; split; [exact Q|intro; contradiction]].
  destruct (deny _); [exists CdOther, w; split; [reflexivity|]; split; [exact Q|discriminate]|].
  eexists CdMade, _. split; [reflexivity|]. split; [|discriminate]. split; [|split; reflexivity].
  eapply wbase_upd; [exact Hb|reflexivity|reflexivity|reflexivity].
Qed.
Lemma xos_below w cs cuts junk : wbase w -> Forall wclear cs ->
  exists r w', xos_create maxd deny (block T cs cuts junk) w = Ok (r, w') /\ quietly w w' /\ (cs = [] -> r <> 2%Z).
Proof.
  intros Hb Hc. unfold xos_create. rewrite block_cstr by (exact Nz || now apply wclear_plain).
  destruct (xcreate_below w cs Hb Hc) as (r & w' & E & Q & R). rewrite E. eexists _, w'. split; [reflexivity|]. split; [exact Q|].
  intros H. specialize (R H). destruct r; (discriminate || contradiction).
Qed.
Lemma xmk_down_below junk k : forall cs cuts w, wbase w -> Forall wclear cs -> cs <> [] ->
  exists cs' cuts' w' en, xmk_down maxd deny k (block T cs cuts junk) (cuts_at T cs cuts) w = Ok (block T cs' cuts' junk, cuts_at T cs' cuts', en, w') /\
    quietly w w' /\ cs' ++ cuts' = cs ++ cuts.
Proof.
  induction k as [|k IH]; intros cs cuts w Hb Hp Nc.
  { cbn [xmk_down]. exists cs, cuts, w, DownOut. split; [reflexivity|]. split; [|reflexivity]. split; [exact Hb|split; reflexivity]. }
  destruct (exists_last Nc) as (cs1 & c & ->). apply Forall_app in Hp. destruct Hp as [H1 H2].
  assert (Pc : plain c) by (inversion H2 as [|? ? [P _] _]; exact P).
  assert (Hp : Forall wclear (cs1 ++ [c])) by (apply Forall_app; auto).
  cbn [xmk_down]. rewrite block_cstr by (exact Nz || now apply wclear_plain). destruct (block_cut T cs1 c cuts junk Pc) as [-> ->].
  destruct (xos_below w cs1 (c :: cuts) junk Hb H1) as (r & w2 & E & Q2 & Z).
  rewrite E. cbn [obind]. change (lenN (under cs1) :: cuts_at T (cs1 ++ [c]) cuts) with (cuts_at T cs1 (c :: cuts)).
  destruct (Z.eqb_spec r (-1)).
  { exists cs1, (c :: cuts), w2, DownErr. rewrite <- app_assoc. auto. }
  destruct ((r =? 0)%Z || (r =? 1)%Z) eqn:Er.
  { exists cs1, (c :: cuts), w2, DownFound. rewrite <- app_assoc. auto. }
  destruct cs1 as [|c1 cs1].
  { (* the base exists: the result is not 2 *)
    exfalso. specialize (Z eq_refl). unfold xos_create in E. rewrite block_cstr in E by (exact Nz || constructor).
    destruct (xcreate maxd deny (under []) w) as [[] ?]; injection E as <- <-; first [discriminate Er|congruence]. }
  destruct (IH (c1 :: cs1) (c :: cuts) w2 (proj1 Q2) H1 ltac:(discriminate)) as (cs' & cuts' & w' & en & E' & Q' & Q).
  exists cs', cuts', w', en. split; [exact E'|]. split; [eapply quietly_trans; eauto|]. rewrite Q, <- app_assoc. reflexivity.
Qed.
Lemma xmk_up_below junk : forall cuts cs w, wbase w -> Forall wclear (cs ++ cuts) ->
  exists r w', xmk_up maxd deny (block T cs cuts junk) (cuts_at T cs cuts) w = Ok (r, w') /\ quietly w w'.
Proof.
  induction cuts as [|c cuts IH]; intros cs w Hb Hp; cbn [cuts_at xmk_up].
  { exists 0%Z, w. split; [reflexivity|]. split; [exact Hb|split; reflexivity]. }
  rewrite block_join. change (c :: cuts) with ([c] ++ cuts) in Hp. rewrite app_assoc in Hp.
  destruct (xos_below w (cs ++ [c]) cuts junk Hb) as (r & w2 & E & Q2 & _). { apply Forall_app in Hp. apply Hp. }
  rewrite E. cbn [obind]. destruct (r =? 0)%Z; [|exists (-1)%Z, w2; auto].
  destruct (IH (cs ++ [c]) w2 (proj1 Q2) Hp) as (r' & w' & E' & Q'). exists r', w'. split; [exact E'|]. eapply quietly_trans; eauto.
Qed.
Lemma xmkdir_below w cs : wbase w -> Forall wclear cs -> cs <> [] ->
  exists r w', xmkdir maxd deny true (under cs) w = Ok (r, w') /\ quietly w w'.
Proof.
  intros Hb Hp Nc. unfold xmkdir. cbn [negb]. change (under cs ++ [x00]) with (block T cs [] []).
  destruct (xos_below w cs [] [] Hb Hp) as (r & w2 & E & Q2 & _). rewrite E. cbn [obind].
  destruct (_ || _); [eexists _, _; split; [reflexivity|exact Q2]|].
  destruct (xmk_down_below [] 62 cs [] w2 (proj1 Q2) Hp Nc) as (cs' & cuts' & w' & en & E' & Q' & Q).
  change (cuts_at T cs []) with (@nil N) in E'. rewrite E'. cbn [obind]. rewrite app_nil_r in Q.
  pose proof (quietly_trans _ _ _ Q2 Q') as Q3.
  destruct en; try (eexists _, _; split; [reflexivity|exact Q3]).
  destruct (_ <? _); [|eexists _, _; split; [reflexivity|exact Q3]].
  destruct (xmk_up_below [] cuts' cs' w' (proj1 Q')) as (r' & w'' & E'' & Q''); [now rewrite Q|].
  exists r', w''. split; [exact E''|]. eapply quietly_trans; eauto.
Qed.

Definition wfd_state (st : proto) (h : hst) (w : wst) : Prop :=
  match st with
  | InFile _ => (h_fd h = None /\ h_err h = true /\ w_fds w = fds) \/ exists n r off, h_fd h = Some n /\ w_fds w = (n, (t ++ r, off)) :: fds
  | _ => w_fds w = fds
  end.
Definition wtstate (cs : list bytes) (st : proto) (h : hst) (w : wst) : Prop :=
  Forall wclear cs /\ in_dir h (under cs) /\ wbase w /\ wfd_state st h w /\ w_dead w = false.

Lemma xopen_below w cs wr : wbase w -> Forall wclear cs -> cs <> [] ->
  exists r w', xopen maxf deny false wr (under cs) w = (r, w') /\ wbase w' /\ w_dead w' = w_dead w /\
    match r with Some n => exists r', w_fds w' = (n, (t ++ r', 0)) :: w_fds w | None => w_fds w' = w_fds w end.
Proof.
  intros Hb Hp Nc. unfold xopen. rewrite (wbase_key w cs Hb Hp).
  destruct (_ || _); [exists None, w; auto|].
  destruct (w_fs w (t ++ map fold_case cs)) as [[|[] x]|] eqn:E; try (exists None, w; auto; fail).
  - eexists (Some _), _. split; [reflexivity|]. split; [exact Hb|]. split; [reflexivity|]. exists (map fold_case cs). reflexivity.
  - destruct (_ && _); [|exists None, w; auto].
    eexists (Some _), _. split; [reflexivity|]. split; [|split; [reflexivity|exists (map fold_case cs); reflexivity]].
    eapply wbase_upd; [exact Hb|reflexivity|reflexivity|]. intro Q. apply map_eq_nil in Q. contradiction.
Qed.
Lemma xwrite_below w n r off d : wbase w -> w_fds w = (n, (t ++ r, off)) :: fds ->
  wbase (xwrite (Some n) d w) /\ w_dead (xwrite (Some n) d w) = w_dead w /\ exists off', w_fds (xwrite (Some n) d w) = (n, (t ++ r, off')) :: fds.
Proof.
  intros Hb E. unfold xwrite. rewrite E. cbn [find_fd]. rewrite N.eqb_refl.
  destruct (w_fs w (t ++ r)) as [[|ro x]|] eqn:F; try (split; [exact Hb|split; [reflexivity|eauto]]).
  split; [|split; [reflexivity|]].
  - eapply wbase_upd; [exact Hb|reflexivity|reflexivity|]. intros ->. rewrite app_nil_r in F. destruct Hb as (_ & _ & D). congruence.
  - cbn [w_fds set_fd]. rewrite N.eqb_refl. eauto.
Qed.

Lemma wtame_step ev r cs st st1 h w : wtstate cs st h w -> wtame (lenN T) stk cs (ev :: r) -> proto_step st ev = Some st1 ->
  exists h1 w', xcb ev h w = Ok (h1, w') /\ wbase w' /\ h_fp h1 = h_fp h /\ h_ret h1 = h_ret h /\ (w_dead w' = true -> h_err h1 = true) /\
    (w_dead w' = false -> exists cs1, wtstate cs1 st1 h1 w' /\ wtame (lenN T) stk cs1 r).
Proof.
  intros (Hp & D & Hb & Hf & Dw) Tm Ps. pose proof D as (Nu & Ld & junk & Ej).
  destruct ev as [id d| | |d|ft it name|d| | |d tl]; cbn [wtame] in Tm; try contradiction.
  - cbn [WinExtract.xcb]. unfold xcb_entry. destruct ft; [destruct st; discriminate Ps| | |].
    + destruct Tm as (L1 & P1 & Tm). apply wplain_plain in P1. fold (wclear (takeN (it_nlen it) name)) in P1. destruct st; try discriminate. cbn in Ps. injection Ps as <-.
      assert (Hp1 : Forall wclear (cs ++ [takeN (it_nlen it) name])) by (apply Forall_app; auto).
      rewrite Hal. cbn [negb]. rewrite (wentry_ok T _ cs) by (exact D || exact L1). cbn [obind].
      change (under ?c ++ [x00]) with (under c ++ x00 :: []). rewrite cstr_app by (apply under_nul; [exact Nz|now apply wclear_plain]).
      rewrite Hal. destruct (xmkdir_below w (cs ++ [takeN (it_nlen it) name]) Hb Hp1 ltac:(destruct cs; discriminate)) as (r1 & w' & E & Hb' & F' & Dd').
      rewrite E. cbn [obind]. eexists _, _. split; [reflexivity|]. split; [exact Hb'|].
      split; [destruct (r1 =? 0)%Z; reflexivity|]. split; [destruct (r1 =? 0)%Z; reflexivity|]. split; [congruence|].
      intros _. exists (cs ++ [takeN (it_nlen it) name]). split; [|exact Tm].
      split; [exact Hp1|]. split; [|split; [exact Hb'|split; [cbn in Hf |- *; congruence|congruence]]].
      assert (Q : forall hh, h_dp hh = Some (under (cs ++ [takeN (it_nlen it) name]) ++ x00 :: []) ->
        h_dplen hh = lenN (under cs) + 1 + it_nlen it -> in_dir hh (under (cs ++ [takeN (it_nlen it) name]))).
      { intros hh Q1 Q2. split; [apply under_nul; [exact Nz|now apply wclear_plain]|]. split; [|exists []; exact Q1].
        rewrite Q2, under_snoc, lenN_app, lenN_cons, lenN_takeN. lia. }
      apply Q; destruct (r1 =? 0)%Z; try reflexivity; cbn [h_dplen h_alloc h_fail h_setdir h_setname]; now rewrite Ld.
    + destruct Tm as (L1 & P1 & Ls & Tm). apply wplain_plain in P1. fold (wclear (takeN (it_nlen it) name)) in P1. destruct st; try discriminate. cbn in Ps. injection Ps as <-. cbn in Hf.
      assert (Hp1 : Forall wclear (cs ++ [takeN (it_nlen it) name])) by (apply Forall_app; auto).
      cbn [h_dplen h_setname]. rewrite Ld, lenN_under.
      replace (stk <? lenN T + depth_len cs + 4 + it_nlen it) with false by (symmetry; apply N.ltb_ge; lia).
      rewrite (wentry_ok T _ cs) by (exact D || exact L1). cbn [obind].
      change (under ?c ++ [x00]) with (under c ++ x00 :: []). rewrite cstr_app by (apply under_nul; [exact Nz|now apply wclear_plain]).
      destruct (xopen_below w (cs ++ [takeN (it_nlen it) name]) (N.testbit (it_mode it) 7) Hb Hp1 ltac:(destruct cs; discriminate))
        as (r1 & w' & E & Hb' & Dd' & F'). rewrite E. cbn [obind].
      eexists _, _. split; [reflexivity|]. split; [exact Hb'|].
      split; [destruct r1; reflexivity|]. split; [destruct r1; reflexivity|]. split; [congruence|].
      intros _. exists cs. split; [|exact Tm]. split; [exact Hp|]. split; [destruct r1; exact D|]. split; [exact Hb'|]. split; [|congruence].
      cbn [wfd_state]. destruct r1 as [n|]; [right|left].
      * destruct F' as (r' & F'). exists n, r', 0. split; [reflexivity|]. congruence.
      * split; [reflexivity|]. split; [reflexivity|]. congruence.
    + destruct st; try discriminate. cbn in Ps. injection Ps as <-. exists (h_setname name h), w. split; [reflexivity|]. split; [exact Hb|].
      split; [reflexivity|]. split; [reflexivity|]. split; [congruence|]. intros _. exists cs. split; [|exact Tm]. split; [exact Hp|]. split; [exact D|]. split; [exact Hb|]. split; [exact Hf|exact Dw].
  - destruct st as [|k|]; try discriminate. cbn in Ps. destruct (lenN d <=? k); [|discriminate]. injection Ps as <-.
    cbn [WinExtract.xcb]. exists h. eexists. split; [reflexivity|]. cbn in Hf.
    destruct Hf as [(E & Er & F)|(n & r' & off & E & F)]; rewrite E.
    + split; [exact Hb|]. split; [reflexivity|]. split; [reflexivity|]. split; [intros _; exact Er|]. cbn. discriminate.
    + destruct (xwrite_below w n r' off d Hb F) as (Hb' & Dd' & off' & F'). split; [exact Hb'|]. split; [reflexivity|]. split; [reflexivity|]. split; [congruence|].
      intros _. exists cs. split; [|exact Tm]. split; [exact Hp|]. split; [exact D|]. split; [exact Hb'|]. split; [right; eauto 6|congruence].
  - destruct st as [|k|]; try discriminate. cbn in Ps. destruct (k =? 0); [|discriminate]. injection Ps as <-.
    cbn [WinExtract.xcb]. exists h. eexists. split; [reflexivity|]. cbn in Hf.
    destruct Hf as [(E & Er & F)|(n & r' & off & E & F)]; rewrite E.
    + split; [exact Hb|]. split; [reflexivity|]. split; [reflexivity|]. split; [intros _; exact Er|]. cbn. discriminate.
    + unfold xclose. rewrite F. cbn [find_fd]. rewrite N.eqb_refl. cbn [del_fd]. rewrite N.eqb_refl.
      split; [exact Hb|]. split; [reflexivity|]. split; [reflexivity|]. split; [cbn; congruence|].
      intros _. exists cs. split; [|exact Tm]. split; [exact Hp|]. split; [exact D|]. split; [exact Hb|]. split; [reflexivity|exact Dw].
  - destruct Tm as (Nc & Tm). destruct st as [|k|]; try discriminate. cbn in Ps. injection Ps as <-.
    destruct (exists_last Nc) as (cs1 & c & ->). rewrite removelast_last in Tm. apply Forall_app in Hp. destruct Hp as [Hp1 Hp2].
    assert (Pc : ~ In x2f c) by (inversion Hp2 as [|? ? [(_ & P & _) _] _]; exact P). rewrite under_snoc in D.
    destruct (xleave_dir maxd maxf deny T hal stk h w (under cs1) c D Pc) as (h1 & X & D1 & (S1 & _ & S3)).
    exists h1, w. split; [exact X|]. split; [exact Hb|]. split; [exact S1|]. split; [exact S3|]. split; [congruence|]. intros _. exists cs1. split; [|exact Tm].
    split; [exact Hp1|]. split; [exact D1|]. split; [exact Hb|]. split; [exact Hf|exact Dw].
  - cbn [WinExtract.xcb]. exists h, w. split; [reflexivity|]. split; [exact Hb|]. split; [reflexivity|]. split; [reflexivity|]. split; [congruence|]. intros _. exists cs.
    split; [|exact Tm]. split; [exact Hp|]. split; [exact D|]. split; [exact Hb|]. split; [|exact Dw].
    destruct st; cbn in Ps; try discriminate. injection Ps as <-. exact Hf.
Qed.

Lemma wtame_run : forall evs cs st st' h w, wtstate cs st h w -> wtame (lenN T) stk cs evs -> proto_run st evs = Some st' ->
  exists h' w', xcbs evs h w = Ok (h', w') /\ wbase w' /\ (w_dead w' = true -> h_err h' = true).
Proof.
  induction evs as [|ev evs IH]; intros cs st st' h w S Tm P.
  - exists h, w. split; [reflexivity|]. destruct S as (_ & _ & Hb & _ & Dw). split; [exact Hb|congruence].
  - cbn [proto_run] in P. destruct (proto_step st ev) as [st1|] eqn:Ps; [|discriminate].
    destruct (wtame_step _ _ _ _ _ _ _ S Tm Ps) as (h1 & w2 & X & Hb & _ & _ & Kd & K).
    rewrite xcbs_cons, X. cbn [obind]. destruct (w_dead w2) eqn:Dw; [exists h1, w2; auto|].
    destruct (K eq_refl) as (cs1 & S1 & Tm1). destruct (IH _ _ _ _ _ S1 Tm1 P) as (h2 & w3 & X2 & Hb2 & E2).
    exists h2, w3. auto.
Qed.
End Tame.

(** ** Whole extractions *)
Section Whole.
Context (maxd maxf : N) (deny : path -> bool).
Context (z : zlib) (C : zlib_contract z) (e : endian) (alloc : N -> N -> bool) (hal al : N -> bool) (stk : N) (obuf hjunk : bytes) (pjunk : pst).
Hypothesis Calm : calm z hal al stk obuf hjunk pjunk.
Notation xextract T archive := (xextract maxd maxf deny T hal stk z e alloc archive).
Notation xcbs T := (xcbs maxd maxf deny T hal stk).

Lemma xmkdir_first w s t : deny t = false -> ~ In x00 s -> s <> [] -> lenN s < maxd -> xkey (w_cwd w) s = t -> w_fs w t = None -> xdir (w_fs w) (removelast t) = true ->
  xmkdir maxd deny true s w = Ok (0%Z, w_setfs (xupd (w_fs w) t XDir) w).
Proof.
  intros De Nz Hn L K Fr Pd. unfold xmkdir, xos_create. cbn [negb]. change (s ++ [x00]) with (s ++ x00 :: []). rewrite cstr_app by exact Nz.
  unfold xcreate. rewrite K. assert (Nn : nonempty s = true) by (now destruct s). rewrite Nn. cbn [negb].
  replace (maxd <=? lenN s) with false by (symmetry; apply N.leb_gt; exact L). rewrite Fr, Pd, De. reflexivity.
Qed.
Lemma xbegin_below T t w : wfree maxd w T t -> deny t = false ->
  let w1 := w_setfs (xupd (w_fs w) t XDir) w in
  exists h, xcb maxd maxf deny T hal stk EvDirBegin HS0 w = Ok (h, w1) /\ in_dir h T /\ h_fp h = None /\ h_ret h = ContentDirectory.
Proof.
  intros (Nz & Ne & L & K & Pd & Fr & Dd) De w1. cbn [xcb]. unfold xcb_dr_start. rewrite (ca_hal _ _ _ _ _ _ _ Calm).
  rewrite (xmkdir_first w T t De Nz Ne L K); [|rewrite <- (app_nil_r t); apply Fr|exact Pd].
  cbn [obind Z.eqb negb]. rewrite (ca_hal _ _ _ _ _ _ _ Calm). cbn [negb].
  eexists. split; [reflexivity|]. split. { split; [exact Nz|]. split; [reflexivity|]. exists []. reflexivity. }
  split; reflexivity.
Qed.

Definition xonly (t : path) (w w' : wst) : Prop := w_cwd w' = w_cwd w /\ xconfined t (w_fs w) (w_fs w').
Lemma xonly_close t h w w' : xonly t w w' -> xonly t w (xclose_fp h w').
Proof.
  intros H. unfold xclose_fp. destruct (h_fp h); [|exact H]. cbn [xclose]. destruct (find_fd _ _); exact H.
Qed.

Lemma wdir_below T t w r st : wfree maxd w T t -> deny t = false -> wtame (lenN T) stk [] r -> proto_run Idle r = Some st ->
  exists h w', xcbs T (EvDirBegin :: r) HS0 w = Ok (h, w') /\ xonly t w w' /\ (w_dead w' = true -> h_err h = true).
Proof.
  intros Fs De Tm P. pose proof Fs as (Nz & Ne & L & K & Pd & Fr & Dd).
  destruct (xbegin_below T t w Fs De) as (h1 & X1 & D1 & _). set (w1 := w_setfs (xupd (w_fs w) t XDir) w) in *.
  assert (Hb : wbase w1 t w1).
  { split; [reflexivity|]. split; [intros q _; reflexivity|]. unfold w1. cbn [w_fs w_setfs]. apply xupd_same. }
  assert (S1 : wtstate T w1 t (w_fds w) [] Idle h1 w1).
  { split; [constructor|]. rewrite under_nil. split; [exact D1|]. split; [exact Hb|]. split; [reflexivity|exact Dd]. }
  destruct (wtame_run maxd maxf deny T hal stk w1 t (w_fds w) (ca_hal _ _ _ _ _ _ _ Calm) Nz Ne K r [] Idle st h1 w1 S1 Tm P) as (h & w' & X & (B1 & B2 & _) & Er).
  exists h, w'. rewrite xcbs_cons, X1. cbn [obind]. change (w_dead w1) with (w_dead w). rewrite Dd. split; [exact X|]. split; [|exact Er].
  split; [exact B1|]. intros q Hq. rewrite B2 by exact Hq. unfold w1. cbn [w_fs w_setfs]. apply xupd_other. now apply not_below.
Qed.

Lemma wreads_below T t ds : forall h w w0, xonly t w0 w ->
  w_dead w = false -> (h_fp h = None /\ h_err h = true \/ exists n off, h_fp h = Some n /\ find_fd n (w_fds w) = Some (t, off)) ->
  exists w', xcbs T (map EvFlRead ds) h w = Ok (h, w') /\ xonly t w0 w' /\ (w_dead w' = true -> h_err h = true).
Proof.
  induction ds as [|d ds IH]; intros h w w0 O Dw Hf; [exists w; split; [reflexivity|]; split; [exact O|congruence]|]. cbn [map]. rewrite xcbs_cons. cbn [xcb obind].
  destruct Hf as [[E Er]|(n & off & E & F)]; rewrite E.
  - cbn [xwrite w_kill w_dead]. eexists. split; [reflexivity|]. split; [exact O|auto].
  - assert (Hd : w_dead (xwrite (Some n) d w) = false).
    { unfold xwrite. rewrite F. destruct (w_fs w t) as [[|ro x]|]; exact Dw. }
    assert (Hx : xonly t w0 (xwrite (Some n) d w) /\ exists off', find_fd n (w_fds (xwrite (Some n) d w)) = Some (t, off')).
    { unfold xwrite. rewrite F. destruct (w_fs w t) as [[|ro x]|]; try (split; [exact O|eauto]). split.
      - destruct O as [O1 O2]. split; [exact O1|]. intros q Hq. cbn [w_fs]. rewrite xupd_other; [now apply O2|now apply not_below].
      - cbn [w_fds]. clear -F. induction (w_fds w) as [|[k v] l IH]; [discriminate|]. cbn [find_fd set_fd] in *.
        destruct (N.eqb_spec k n) as [->|Hn]; cbn [find_fd]; [rewrite N.eqb_refl; eauto|].
        destruct (N.eqb_spec k n); [contradiction|]. auto. }
    destruct Hx as [O' F']. rewrite Hd.
    apply IH; [exact O'|exact Hd|]. right. destruct F' as [off' F']. eauto.
Qed.
Lemma wfl_below T t w ds : wfree maxd w T t -> exists h w', xcbs T (reads ds) HS0 w = Ok (h, w') /\ xonly t w w' /\ (w_dead w' = true -> h_err h = true).
Proof.
  intros (Nz & Ne & L & K & Pd & Fr & Dd). unfold reads. rewrite xcbs_cons. cbn [xcb]. unfold xcb_fl_start.
  assert (O : exists r w', xopen maxf deny true true T w = (r, w') /\ xonly t w w' /\ w_dead w' = false /\ match r with Some n => find_fd n (w_fds w') = Some (t, 0) | None => True end).
  { unfold xopen. rewrite K. destruct (_ || _); [exists None, w; repeat split; exact Dd|]. pose proof (Fr []) as F0. rewrite app_nil_r in F0. rewrite F0.
    destruct (_ && _); [|exists None, w; repeat split; exact Dd]. eexists (Some _), _. split; [reflexivity|]. split; [|split; [exact Dd|]].
    - split; [reflexivity|]. intros q Hq. cbn [w_fs w_setfs]. apply xupd_other. now apply not_below.
    - cbn [w_fds find_fd]. rewrite N.eqb_refl. reflexivity. }
  destruct O as (r & w' & -> & O & Dw & F). cbn [obind]. rewrite Dw.
  match goal with |- context [WinExtract.xcbs _ _ _ _ _ _ _ ?hh _] => destruct (wreads_below T t ds hh w' w O Dw) as (w2 & X & O2) end.
  { destruct r as [n|]; [right; exists n, 0; auto|left; split; reflexivity]. }
  eexists _, w2. split; [exact X|exact O2].
Qed.

Lemma wtame_did T archive inp t w : supported z C (limited archive 0 inp) ->
  lists_wtame (z := z) e alloc (lenN T) stk (limited archive 0 inp) -> wfree maxd w T t -> deny t = false ->
  forall s0 dfuel ops rets s evs, started z s0 -> Forall dop_ok ops -> prefix (dfed ops) (limited archive 0 inp) ->
    run_dops e alloc dfuel s0 ops = Ok (rets, s, evs) ->
    exists h w1, xcbs T evs HS0 w = Ok (h, w1) /\ xonly t w w1 /\ (w_dead w1 = true -> h_err h = true).
Proof.
  intros Sup Lt Fs De. pose proof Fs as (_ & _ & _ & _ & _ & _ & Dd). intros s0 dfuel ops rets s evs St Ho Pf R.
  destruct (listing_shape z C e alloc _ _ _ _ _ _ St Ho (supported_prefix z C _ _ Pf Sup) R) as [->|[(r & st & -> & P)|(ds & ->)]].
  - exists HS0, w. split; [reflexivity|]. split; [repeat split|congruence].
  - exact (wdir_below T t w r st Fs De (Lt _ _ _ _ _ _ St Ho Pf R _ eq_refl) P).
  - exact (wfl_below T t w ds Fs).
Qed.
Lemma wtame_result T archive inp t w fuel dfuel ret x w' : supported z C (first_bytes archive inp) ->
  lists_wtame (z := z) e alloc (lenN T) stk (first_bytes archive inp) -> wfree maxd w T t -> deny t = false ->
  xextract T archive fuel dfuel al obuf hjunk pjunk inp false w = Ok (ret, x, w') ->
  w_cwd w' = w_cwd w /\ xconfined t (w_fs w) (w_fs w') /\ (ret = None -> exists s h ds, x = Some (s, h, ds) /\ h_err h = true).
Proof.
  rewrite <- limited_first. intros Sup Lt Fs De Ex. pose proof Fs as (_ & _ & _ & _ & _ & _ & Dd).
  destruct (xextract_did maxd maxf deny z C e alloc hal al stk obuf hjunk pjunk Calm _ _ _ _ _ _ _ _ _ _ Dd Ex)
    as (s0 & ops & rets & s & evs & h & w1 & ds & -> & St & Ho & Fed & R & X & Pf & _ & Q1 & Q2).
  subst ds. destruct (wtame_did T archive inp t w Sup Lt Fs De _ _ _ _ _ _ St Ho Pf R) as (h' & w1' & X' & O & Er). rewrite X in X'. injection X' as <- <-.
  destruct (w_dead w1) eqn:D1.
  - destruct (Q1 eq_refl) as [_ ->]. destruct O as [O1 O2]. split; [exact O1|]. split; [exact O2|]. intros _. exists s, h, (dfed ops). auto.
  - destruct (Q2 eq_refl) as (-> & v & -> & _). destruct (xonly_close t h w w1 O) as [O1 O2]. split; [exact O1|]. split; [exact O2|discriminate].
Qed.
Lemma wtame_extract T archive inp t w fuel : (length inp < fuel)%nat -> supported z C (first_bytes archive inp) ->
  lists_wtame (z := z) e alloc (lenN T) stk (first_bytes archive inp) -> wfree maxd w T t -> deny t = false ->
  exists dfuel0, forall dfuel, (dfuel0 <= dfuel)%nat -> exists ret x w',
    xextract T archive fuel dfuel al obuf hjunk pjunk inp false w = Ok (ret, x, w') /\ w_cwd w' = w_cwd w /\ xconfined t (w_fs w) (w_fs w') /\
    (ret = None -> exists s h ds, x = Some (s, h, ds) /\ h_err h = true).
Proof.
  intros Hf Sup Lt Fs De. pose proof Fs as (_ & _ & _ & _ & _ & _ & Dd).
  assert (Sup' := Sup). assert (Lt' := Lt). rewrite <- limited_first in Sup', Lt'.
  destruct (xextract_runs maxd maxf deny z C e alloc hal al stk obuf hjunk pjunk Calm T archive inp w fuel Hf Sup' Dd) as (dfuel0 & K).
  { intros s0 dfuel ops rets s evs St Ho Fed R.
    destruct (wtame_did T archive inp t w Sup' Lt' Fs De _ _ _ _ _ _ St Ho ltac:(rewrite Fed; apply prefix_refl) R) as (h & w1 & X & _). eauto. }
  exists dfuel0. intros dfuel Hd. destruct (K dfuel Hd) as (ret & x & w' & Ex). exists ret, x, w'. split; [exact Ex|].
  exact (wtame_result T archive inp t w fuel dfuel ret x w' Sup Lt Fs De Ex).
Qed.

(** ** Archives of single files *)
Lemma xwrite_fp T ds : forall h w n t x fds, w_dead w = false -> h_fp h = Some n -> w_fds w = (n, (t, lenN x)) :: fds -> w_fs w t = Some (XFile false x) ->
  exists w', xcbs T (map EvFlRead ds) h w = Ok (h, w') /\ (forall q, w_fs w' q = xupd (w_fs w) t (XFile false (x ++ concat ds)) q) /\
    w_cwd w' = w_cwd w /\ w_dead w' = false /\ w_fds w' = (n, (t, lenN (x ++ concat ds))) :: fds.
Proof.
  induction ds as [|d ds IH]; intros h w n t x fds Dd Hf E F.
  { exists w. cbn [map concat WinExtract.xcbs]. rewrite app_nil_r. split; [reflexivity|]. split; [|auto].
    intro q. destruct (path_dec q t) as [->|Hn]; [now rewrite xupd_same|now rewrite xupd_other]. }
  cbn [map]. rewrite xcbs_cons. cbn [xcb obind]. rewrite Hf. rewrite (xwrite_head w n t x false fds d E F). cbn [w_dead]. rewrite Dd.
  match goal with |- context [WinExtract.xcbs _ _ _ _ _ _ _ _ ?ww] => destruct (IH h ww n t (x ++ d) fds) as (w' & X & A & B1 & B2 & B3) end;
    [reflexivity|exact Hf|reflexivity|cbn [w_fs]; apply xupd_same|].
  exists w'. cbn [concat]. rewrite app_assoc. split; [exact X|]. split; [|auto].
  intro q. rewrite A. cbn [w_fs]. destruct (path_dec q t) as [->|Hn]; [now rewrite !xupd_same|now rewrite !xupd_other].
Qed.
Lemma xopen_spot w T t : wspot maxf deny w T t -> exists w1, xopen maxf deny true true T w = (Some (w_next w), w1) /\
  (forall q, w_fs w1 q = xupd (w_fs w) t (XFile false []) q) /\ w_cwd w1 = w_cwd w /\ w_dead w1 = false /\ w_fds w1 = (w_next w, (t, 0)) :: w_fds w.
Proof.
  intros (Hn & Sl & L & K & Dd & H). unfold xopen. rewrite K, Sl. assert (Nn : nonempty T = true) by (now destruct T). rewrite Nn. cbn [negb orb].
  replace (maxf <=? lenN T) with false by (symmetry; apply N.leb_gt; exact L).
  destruct H as [(x & ->)|(-> & -> & ->)]; cbn [andb negb]; unfold xopened; cbn [w_next w_setfs]; eexists; (split; [reflexivity|]); cbn [w_fs w_cwd w_dead w_fds w_setfs]; auto.
Qed.

Lemma xextract_fl T archive F data t w fuel : (length F < fuel)%nat ->
  zc_bad C (limited archive 0 F) = false -> zc_fin C (limited archive 0 F) = false ->
  archive_of ContentFile (zc_dec C (limited archive 0 F)) -> dropN 128 (zc_dec C (limited archive 0 F)) = data -> data <> [] ->
  wspot maxf deny w T t ->
  exists dfuel0, forall dfuel, (dfuel0 <= dfuel)%nat -> exists ret s h ds w',
    xextract T archive fuel dfuel al obuf hjunk pjunk F false w = Ok (Some ret, Some (s, h, ds), w') /\ same_w w w' /\
    (room_left s -> ret = ContentFile /\ forall q, w_fs w' q = xupd (w_fs w) t (XFile false data) q).
Proof.
  intros Hf B Fi Ar Ed Ne Sp. pose proof Sp as (_ & _ & _ & _ & Dd & _). destruct (xopen_spot _ _ _ Sp) as (w1 & Op & O1 & O2 & O3 & O4).
  set (h1 := HS (Some (w_next w)) None None 0 false ContentFile [] 0).
  assert (Run : forall ds, exists w2, xcbs T (reads ds) HS0 w = Ok (h1, w2) /\ (forall q, w_fs w2 q = xupd (w_fs w) t (XFile false (concat ds)) q) /\
      w_cwd w2 = w_cwd w /\ w_dead w2 = false /\ w_fds w2 = (w_next w, (t, lenN (concat ds))) :: w_fds w).
  { intros ds. unfold reads. rewrite xcbs_cons. cbn [xcb]. unfold xcb_fl_start. rewrite Op. cbn [obind]. rewrite O3.
    destruct (xwrite_fp T ds h1 w1 (w_next w) t [] (w_fds w) O3 eq_refl) as (w2 & X & A & B1 & B2 & B3); [exact O4|rewrite O1; apply xupd_same|].
    exists w2. split; [exact X|]. split; [|split; [congruence|split; [exact B2|exact B3]]].
    intro q. rewrite A. cbn [app]. destruct (path_dec q t) as [->|Hn]; [now rewrite !xupd_same|rewrite !xupd_other by exact Hn; rewrite O1; now apply xupd_other]. }
  assert (L1 : 128 < lenN (zc_dec C (limited archive 0 F))).
  { destruct data; [contradiction|]. apply (f_equal lenN) in Ed. rewrite lenN_dropN, lenN_cons in Ed. lia. }
  destruct (xextract_runs maxd maxf deny z C e alloc hal al stk obuf hjunk pjunk Calm T archive F w fuel Hf (supported_of z C _ _ Ar) Dd) as (dfuel0 & K).
  { intros s0 dfuel ops rets s evs St Ho Fed R. rewrite <- Fed in *.
    destruct (file_session z C e alloc _ _ _ _ _ _ _ St Ho Ar (or_introl eq_refl) R) as [[->|(ds & -> & P)] _].
    - exists HS0, w. reflexivity.
    - destruct (Run ds) as (w2 & X2 & _). eauto. }
  exists dfuel0. intros dfuel Hd. destruct (K dfuel Hd) as (ret & x & w' & Ex).
  destruct (xextract_did maxd maxf deny z C e alloc hal al stk obuf hjunk pjunk Calm _ _ _ _ _ _ _ _ _ _ Dd Ex)
    as (s0 & ops & rets & s & evs & h & w2 & ds & -> & St & Ho & Fed & R & X & Pf & Full & Q1 & Q2).
  subst ds.
  assert (Part : evs = [] \/ exists ds, evs = reads ds).
  { destruct (N.lt_ge_cases (lenN (zc_dec C (dfed ops))) 128) as [Ls|Ls]; [left; exact (before_header z C e alloc _ _ _ _ _ _ St Ho Ls R)|].
    destruct Pf as [y Py]. pose proof (zc_dec_mono _ C (dfed ops) y) as Pd. rewrite <- Py in Pd.
    pose proof (archive_of_prefix _ _ _ Pd Ls Ar) as Ar1.
    destruct (file_session z C e alloc _ _ _ _ _ _ _ St Ho Ar1 (or_introl eq_refl) R) as [[->|(ds & -> & _)] _]; eauto. }
  assert (Good : h_err h = false /\ w_dead w2 = false /\ same_w w (xclose_fp h w2)).
  { destruct Part as [->|(ds & ->)].
    - cbn in X. injection X as <- <-. split; [reflexivity|]. split; [exact Dd|]. repeat split.
    - destruct (Run ds) as (w3 & X3 & A & B1 & B2 & B3). rewrite X3 in X. injection X as <- <-. split; [reflexivity|]. split; [exact B2|].
      unfold xclose_fp, h1. cbn [h_fp xclose]. rewrite B3. cbn [find_fd]. rewrite N.eqb_refl. cbn [del_fd]. rewrite N.eqb_refl.
      split; [exact B1|]. split; [reflexivity|]. cbn [w_dead]. congruence. }
  destruct Good as (He & D2 & Sw). destruct (Q2 D2) as (-> & v & -> & _ & Hv). rewrite (Hv eq_refl) in *.
  exists (h_ret h), s, h, (dfed ops), (xclose_fp h w2). split; [exact Ex|]. split; [exact Sw|].
  intro Rl. pose proof (Full eq_refl He D2) as Fed. rewrite <- Fed in *.
  destruct (file_session z C e alloc _ _ _ _ _ _ _ St Ho Ar (or_introl eq_refl) R) as [_ S2].
  destruct (S2 B Fi) as [_ S3]. destruct (S3 Rl L1) as (ds & -> & Q).
  destruct (Run ds) as (w3 & X3 & A & _ & _ & B3). rewrite X3 in X. injection X as <- <-. split; [reflexivity|].
  intro q. unfold xclose_fp, h1. cbn [h_fp xclose]. rewrite B3. cbn [find_fd]. rewrite N.eqb_refl. cbn [w_fs]. rewrite A. congruence.
Qed.
End Whole.

(** ** Archives of records *)
Fixpoint wtame_recs (L stk : N) (cs : list bytes) (rs : list arec) : Prop :=
  match rs with
  | [] => True
  | ADir name _ :: r => wplain name = true /\ wtame_recs L stk (cs ++ [name]) r
  | AFile name _ _ _ :: r => wplain name = true /\ L + depth_len cs + 4 + lenN name <= stk /\ wtame_recs L stk cs r
  | AEnd :: r => cs <> [] /\ wtame_recs L stk (removelast cs) r
  | ALink _ _ _ :: r => wtame_recs L stk cs r
  | ABroken _ _ _ _ :: _ => False
  end.

Lemma wtame_app L stk a : forall cs b, wtame L stk cs (a ++ b) -> wtame L stk cs a.
Proof.
  induction a as [|ev a IH]; intros cs b H; [exact I|]. cbn [app wtame] in *.
  destruct ev as [id d| | |d|ft it name|d| | |d tl]; try contradiction; eauto.
  - destruct ft; eauto.
    + destruct H as (H1 & H2 & H). eauto.
    + destruct H as (H1 & H2 & H3 & H). eauto.
  - destruct H as (H1 & H). eauto.
Qed.
Lemma wtame_reads L stk cs ds r : wtame L stk cs r -> wtame L stk cs (map EvRead ds ++ EvFileEnd :: r).
Proof. intro H. induction ds as [|d ds IH]; [exact H|exact IH]. Qed.

Lemma shows_wtame L stk : forall rs obs, shows rs obs -> forall cs evs st, flat evs = obs -> proto_run Idle evs = Some st ->
  wtame_recs L stk cs rs -> wtame L stk cs evs.
Proof.
  induction 1 as [|name mode rs o it H1 H2 H3 H4 H IH|name mode data rs o H IH|name mode target rs o H IH|rs o H IH];
    intros cs evs st F P Tm; cbn [wtame_recs] in Tm.
  - destruct evs as [|ev evs]; [exact I|]. cbn [proto_run] in P. destruct ev; cbn in P, F; try discriminate.
  - destruct (idle_entry _ _ _ _ _ _ P F) as (evs' & -> & F'). cbn [wtame].
    rewrite H1, padded_take. split; [apply padded_len|]. split; [apply Tm|]. eapply IH; [exact F'|exact P|apply Tm].
  - destruct (idle_entry _ _ _ _ _ _ P F) as (evs' & -> & F'). cbn [proto_run proto_step] in P.
    destruct (file_reads _ _ _ _ _ P F') as (ds & evs2 & -> & Ed & F2 & P2). cbn [wtame it_nlen]. rewrite padded_take.
    split; [apply padded_len|]. split; [apply Tm|]. split; [apply Tm|]. apply wtame_reads. eapply IH; [exact F2|exact P2|apply Tm].
  - destruct (idle_entry _ _ _ _ _ _ P F) as (evs' & -> & F'). cbn [proto_run proto_step] in P.
    destruct (idle_sym _ _ _ P F') as (d & tl & evs2 & -> & F2 & P2). cbn [wtame]. eapply IH; [exact F2|exact P2|exact Tm].
  - destruct (idle_end _ _ _ P F) as (evs' & -> & F' & P'). cbn [wtame]. split; [apply Tm|]. eapply IH; [exact F'|exact P'|apply Tm].
Qed.

Lemma recs_wtame z (C : zlib_contract z) e alloc L stk F recs : (forall k n, alloc k n = true) ->
  dir_archive C F recs -> wtame_recs L stk [] recs -> lists_wtame (z := z) e alloc L stk F.
Proof.
  intros Halloc (B & Fi & Ar & En & Rk) Tm s0 fuel ops rets s evs Hs Ho [x Pf] H r ->.
  destruct (N.lt_ge_cases (lenN (zc_dec C (dfed ops))) 128) as [Ls|Ls].
  { pose proof (before_header z C e alloc _ _ _ _ _ _ Hs Ho Ls H). discriminate. }
  pose proof (zc_dec_mono _ C (dfed ops) x) as Pd. rewrite <- Pf in Pd.
  pose proof (archive_of_prefix _ _ _ Pd Ls Ar) as Ar1.
  destruct (dir_session z C e alloc _ _ _ _ _ _ Hs Ho Ar1 H) as [[Q|(ch & ev' & Q & (s' & E) & P1)] _]; [discriminate|]. injection Q as <-.
  destruct (prefix_trans _ _ _ _ P1 (prefix_dropN 128 _ _ Pd)) as [y Ey].
  assert (At : at_hdr e (dir_fresh (set_err false (d_p s0)))) by (apply fresh_at_hdr, (started_leftovers z), Hs).
  destruct (parse_chunks_ok e alloc (ch ++ [(y, [])]) _ (fresh_pwf e _ (started_leftovers z s0 Hs))) as (s1 & ev1 & E1 & _ & P).
  pose proof E1 as E2. rewrite HLProps.parse_chunks_app, E in E2. cbn [obind] in E2.
  destruct (parse_chunks e alloc s' [(y, [])]) as [[s2 ev2]| |]; try discriminate E2. cbn [obind] in E2. injection E2 as <- <-.
  apply (wtame_app L stk r [] ev2). eapply shows_wtame; [|reflexivity|exact P|exact Tm].
  eapply (decode_chunks e alloc Halloc); [exact At| |exact Rk|exact E1].
  unfold ctext in *. rewrite map_app, concat_app. cbn [map concat fst]. rewrite app_nil_r, <- Ey. exact En.
Qed.

Lemma preorder1_wtame stk : PATH_MAX + 4 <= stk -> forall nd name L cs rest, wnamed (L + depth_len cs) name nd ->
  wtame_recs L stk cs rest -> wtame_recs L stk cs (preorder1 name nd ++ rest).
Proof.
  intro Stk. induction nd as [o st m sz d r|m es IH|m sz tg|] using snode_ind2; intros name L cs rest X R; cbn [preorder1].
  - destruct (dotb name) eqn:Ed; [exact R|]. inversion X as [? ? ? Dd| | |? ? ? ? ? ? ? ? P Ln|]; subst.
    { apply dotb_spec in Dd. congruence. }
    cbn [app wtame_recs]. split; [exact P|]. split; [|exact R]. lia.
  - destruct (dotb name) eqn:Ed; [exact R|]. inversion X as [? ? ? Dd| | | |? ? ? ? P Ln Fe]; subst.
    { apply dotb_spec in Dd. congruence. }
    cbn [app wtame_recs]. split; [exact P|]. rewrite <- app_assoc. cbn [app].
    assert (R' : wtame_recs L stk (cs ++ [name]) (AEnd :: rest)).
    { cbn [wtame_recs]. split; [now destruct cs|]. now rewrite removelast_last. }
    revert R'. generalize (AEnd :: rest). clear R rest X. induction es as [|x es IHes]; intros rest R; [exact R|].
    cbn [map concat]. rewrite <- app_assoc. inversion IH; inversion Fe; subst. apply H1; [|apply IHes; auto].
    rewrite depth_len_app. cbn [depth_len]. now replace (L + (depth_len cs + (1 + lenN name + 0))) with (L + depth_len cs + 1 + lenN name) by lia.
  - destruct (dotb name); [exact R|]. destruct tg; exact R.
  - now destruct (dotb name).
Qed.
Lemma preorder_wtame stk L es : PATH_MAX + 4 <= stk -> Forall (fun x => wnamed L (fst x) (snd x)) es -> wtame_recs L stk [] (preorder es).
Proof.
  intros Stk X. unfold preorder. induction X as [|x es Hx X IH]; [exact I|]. cbn [map concat].
  eapply preorder1_wtame; [exact Stk| |exact IH]. cbn [depth_len]. rewrite N.add_0_r. exact Hx.
Qed.

(** ** C124-C127 *)

Lemma wdisk_dir maxd maxf deny z (C : zlib_contract z) es F e alloc hal al stk obuf hjunk pjunk T archive inp t w fuel :
  archives_dir z es F -> input_of archive F inp -> (length inp < fuel)%nat ->
  calm z hal al stk obuf hjunk pjunk -> (forall k n, alloc k n = true) -> (forall q, deny q = false) -> maxf <= PATH_MAX ->
  preorder es <> [] -> Forall (fun x => quiet (snd x)) es -> NoDup (map (fun x => fold_case (fst x)) es) ->
  Forall (fun x => wextractable maxd maxf (lenN T) (fst x) (snd x)) es -> wfree maxd w T t ->
  exists dfuel0, forall dfuel, (dfuel0 <= dfuel)%nat -> exists ret s h ds w',
    xextract maxd maxf deny T hal stk z e alloc archive fuel dfuel al obuf hjunk pjunk inp false w = Ok (Some ret, Some (s, h, ds), w') /\
    (room_left s -> ret = ContentDirectory /\ same_w w w' /\ forall q, w_fs w' q = xoverlay t (win_tree es) (w_fs w) q).
Proof.
  intros A I Hf Ca Ha De Ln Ne Q ND X Fs. pose proof (dir_archived z C es F A Q) as D. rewrite <- (input_limited _ _ _ I) in D.
  exact (xextract_dir maxd maxf deny z C e alloc hal al stk obuf hjunk pjunk Ca De Ln T archive inp es t w fuel Ha Hf D Ne Q ND X Fs).
Qed.

Lemma wtame_confined maxd maxf deny z (C : zlib_contract z) e alloc hal al stk obuf hjunk pjunk :
  calm z hal al stk obuf hjunk pjunk -> forall T archive inp t w fuel, (length inp < fuel)%nat ->
  supported z C (first_bytes archive inp) -> lists_wtame (z := z) e alloc (lenN T) stk (first_bytes archive inp) -> wfree maxd w T t -> deny t = false ->
  exists dfuel0, forall dfuel, (dfuel0 <= dfuel)%nat -> exists ret x w',
    xextract maxd maxf deny T hal stk z e alloc archive fuel dfuel al obuf hjunk pjunk inp false w = Ok (ret, x, w') /\
    w_cwd w' = w_cwd w /\ xconfined t (w_fs w) (w_fs w').
Proof.
  intros Ca T archive inp t w fuel Hf Sup Lt Fs De.
  destruct (wtame_extract maxd maxf deny z C e alloc hal al stk obuf hjunk pjunk Ca T archive inp t w fuel Hf Sup Lt Fs De) as (d0 & K).
  exists d0. intros d Hd. destruct (K d Hd) as (ret & x & w' & Ex & A & B & _). exists ret, x, w'. auto.
Qed.
Lemma wtame_returns maxd maxf deny z (C : zlib_contract z) e alloc hal al stk obuf hjunk pjunk :
  calm z hal al stk obuf hjunk pjunk -> forall T archive inp t w fuel dfuel ret x w',
  supported z C (first_bytes archive inp) -> lists_wtame (z := z) e alloc (lenN T) stk (first_bytes archive inp) -> wfree maxd w T t -> deny t = false ->
  xextract maxd maxf deny T hal stk z e alloc archive fuel dfuel al obuf hjunk pjunk inp false w = Ok (ret, x, w') ->
  ret = None -> exists s h ds, x = Some (s, h, ds) /\ h_err h = true.
Proof.
  intros Ca T archive inp t w fuel dfuel ret x w' Sup Lt Fs De Ex.
  exact (proj2 (proj2 (wtame_result maxd maxf deny z C e alloc hal al stk obuf hjunk pjunk Ca T archive inp t w fuel dfuel ret x w' Sup Lt Fs De Ex))).
Qed.

Lemma own_wtame z (C : zlib_contract z) e alloc L stk es F G : (forall k n, alloc k n = true) -> PATH_MAX + 4 <= stk ->
  archives_dir z es F -> prefix G F -> Forall (fun x => quiet (snd x)) es -> Forall (fun x => wnamed L (fst x) (snd x)) es ->
  supported z C G /\ lists_wtame (z := z) e alloc L stk G.
Proof.
  intros Ha Stk A Pf Q X. pose proof (dir_archived z C es F A Q) as D. split.
  - eapply supported_prefix; [exact Pf|]. destruct D as (_ & _ & Ar & _). eapply supported_of, Ar.
  - intros s0 fuel' ops rets s evs Hs Ho Hp. eapply (recs_wtame z C e alloc); [exact Ha|exact D| |exact Hs|exact Ho|eapply prefix_trans; eassumption].
    apply preorder_wtame; [exact Stk|exact X].
Qed.
Lemma wdisk_confined maxd maxf deny z (C : zlib_contract z) es F e alloc hal al stk obuf hjunk pjunk T archive inp t w fuel :
  archives_dir z es F -> prefix (first_bytes archive inp) F -> (length inp < fuel)%nat ->
  calm z hal al stk obuf hjunk pjunk -> (forall k n, alloc k n = true) -> deny t = false ->
  Forall (fun x => quiet (snd x)) es -> Forall (fun x => wnamed (lenN T) (fst x) (snd x)) es -> wfree maxd w T t ->
  exists dfuel0, forall dfuel, (dfuel0 <= dfuel)%nat -> exists ret x w',
    xextract maxd maxf deny T hal stk z e alloc archive fuel dfuel al obuf hjunk pjunk inp false w = Ok (ret, x, w') /\
    w_cwd w' = w_cwd w /\ xconfined t (w_fs w) (w_fs w') /\ (ret = None -> exists s h ds, x = Some (s, h, ds) /\ h_err h = true).
Proof.
  intros A Pf Hf Ca Ha De Q X Fs.
  destruct (own_wtame z C e alloc (lenN T) stk es F _ Ha (ca_stk _ _ _ _ _ _ _ Ca) A Pf Q X) as [Sup Lt].
  exact (wtame_extract maxd maxf deny z C e alloc hal al stk obuf hjunk pjunk Ca T archive inp t w fuel Hf Sup Lt Fs De).
Qed.

Lemma wdisk_file maxd maxf deny z (C : zlib_contract z) data F e alloc hal al stk obuf hjunk pjunk T archive inp t w fuel :
  archives_file z data F -> input_of archive F inp -> (length inp < fuel)%nat ->
  calm z hal al stk obuf hjunk pjunk -> data <> [] -> wspot maxf deny w T t ->
  exists dfuel0, forall dfuel, (dfuel0 <= dfuel)%nat -> exists ret s h ds w',
    xextract maxd maxf deny T hal stk z e alloc archive fuel dfuel al obuf hjunk pjunk inp false w = Ok (Some ret, Some (s, h, ds), w') /\
    same_w w w' /\ (room_left s -> ret = ContentFile /\ forall q, w_fs w' q = xupd (w_fs w) t (XFile false data) q).
Proof.
  intros A I Hf Ca Ne Sp. destruct (file_archived z C data F A) as (B & Fi & Ar & D). rewrite <- (input_limited _ _ _ I) in B, Fi, Ar, D.
  exact (xextract_fl maxd maxf deny z C e alloc hal al stk obuf hjunk pjunk Ca T archive inp data t w fuel Hf B Fi Ar D Ne Sp).
Qed.
