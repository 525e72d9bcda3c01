(** WinCutDir.v: beginnings of archives of directories, extracted on Windows (C99). *)
From Coq Require Import Lia ZifyN.
From Verif Require Import Base Format Zlib RleZlib Compress Parser ParserProofs ParserFacts Decompress DecompressProofs MidProofs MidFacts DecompressExamples
  ArchiveSpec ArchiveFacts ArchiveDecode ArchiveExamples FS FSFacts HL HLSpec HLFacts HLDrive HLProps HLSafe MkdirFacts HLTame HLExamples CutSpec CutFacts CutRun CutProps WinTools WinFacts
  WinExtract WinExtractSpec WinExtractFacts WinExtractTame WinExtractExamples CutExamples.

(** An entry as it is on Windows: a file is read-only if its owner cannot write (0200). *)
Definition on_win (i : inode) : xnode := match i with IFile m x => XFile (negb (N.testbit m 7)) x | _ => XDir end.
Definition folds (p : path) : path := map fold_case p.
(** The entry with the path [r], in lower case, among [l]. *)
Fixpoint wlook (r : path) (l : list (path * inode)) : option xnode :=
  match l with
  | [] => None
  | (p, i) :: l' => if path_eqb r (folds p) then Some (on_win i) else wlook r l'
  end.
(** The target directory itself and the entries below it. *)
Definition wtarget_with (l : list (path * inode)) (r : path) : option xnode := match r with [] => Some XDir | _ => wlook r l end.

Lemma wlook_none r l : ~ In r (map (fun x => folds (fst x)) l) -> wlook r l = None.
Proof.
  induction l as [|[p i] l IH]; intros H; [reflexivity|]. cbn [wlook]. destruct (path_eqb r (folds p)) eqn:E.
  - apply path_eqb_spec in E. subst. destruct H. now left.
  - apply IH. intros Q. apply H. now right.
Qed.
Lemma xoverlay_cons t p i l fs q : ~ In (folds p) (map (fun x => folds (fst x)) l) ->
  xoverlay t (fun r => wlook r l) (xupd fs (t ++ folds p) (on_win i)) q = xoverlay t (fun r => wlook r ((p, i) :: l)) fs q.
Proof.
  intro H. unfold xoverlay. destruct (strip t q) as [r|] eqn:E.
  - apply strip_spec in E. subst q. cbn [wlook]. destruct (path_eqb r (folds p)) eqn:Ep.
    + apply path_eqb_spec in Ep. subst r. rewrite (wlook_none _ _ H). apply xupd_same.
    + destruct (wlook r l); [reflexivity|]. apply xupd_other. intro Q. apply app_inv_head in Q. subst r. rewrite path_eqb_refl in Ep. discriminate.
  - apply xupd_other. intros ->. rewrite strip_app in E. discriminate.
Qed.
Lemma xoverlay_ext t g fs fs' q : (forall q, fs q = fs' q) -> xoverlay t g fs q = xoverlay t g fs' q.
Proof. intro H. unfold xoverlay. destruct (strip t q) as [p|]; [destruct (g p)|]; auto. Qed.
Lemma xoverlay_nil t fs q : xoverlay t (fun r => wlook r []) fs q = fs q.
Proof. apply xoverlay_out. reflexivity. Qed.
Lemma wtarget_overlay t l fs q : (forall p, In p (map fst l) -> p <> []) ->
  xoverlay t (fun r => wlook r l) (xupd fs t XDir) q = xoverlay t (wtarget_with l) fs q.
Proof.
  intro H. unfold xoverlay. destruct (strip t q) as [r|] eqn:E.
  - apply strip_spec in E. subst q. destruct r as [|c r].
    + cbn [wtarget_with]. rewrite wlook_none.
      * rewrite app_nil_r. apply xupd_same.
      * intro Q. apply in_map_iff in Q. destruct Q as (x & Q & I'). apply (H (fst x)); [now apply in_map|]. now destruct (fst x).
    + cbn [wtarget_with]. destruct (wlook (c :: r) l); [reflexivity|]. apply xupd_other. intro Q.
      rewrite <- (app_nil_r t) in Q at 2. apply app_inv_head in Q. discriminate.
  - apply xupd_other. intros ->. pose proof (strip_app t []) as Q. rewrite app_nil_r in Q. congruence.
Qed.

Section Run.
Context (maxd maxf : N) (deny : path -> bool) (T : bytes) (hal : N -> bool) (stk : N) (t : path).
Hypothesis Hal : forall n, hal n = true.
Hypothesis Stk : maxf + 4 <= stk.
Hypothesis Allow : forall q, deny q = false.
Notation xcb := (xcb maxd maxf deny T hal stk).
Notation xcbs := (xcbs maxd maxf deny T hal stk).

Fixpoint wgood (cs : path) (rs : list arec) : Prop :=
  match rs with
  | [] => True
  | ADir n m :: r => wplain n = true /\ lenN T + depth_len cs + 1 + lenN n < maxd /\ wgood (cs ++ [n]) r
  | AFile n _ _ _ :: r => wplain n = true /\ lenN T + depth_len cs + 1 + lenN n < maxf /\ wgood cs r
  | AEnd :: r => cs <> [] /\ wgood (removelast cs) r
  | _ :: r => wgood cs r
  end.
Lemma preorder1_wgood : forall nd name cs rest, wextractable maxd maxf (lenN T + depth_len cs) name nd -> wgood cs rest -> wgood cs (preorder1 name nd ++ rest).
Proof.
  induction nd as [o st m sz d r|m es IH|m sz tg|] using snode_ind2; intros name cs rest X R; cbn [preorder1].
  - destruct (dotb name) eqn:Ed; [exact R|]. inversion X as [? ? ? Dd| | |? ? ? ? ? ? ? ? P Ln|]; subst.
    { apply dotb_spec in Dd. congruence. }
    cbn [app wgood]. auto.
  - destruct (dotb name) eqn:Ed; [exact R|]. inversion X as [? ? ? Dd| | | |? ? ? ? P Ln ND Fe]; subst.
    { apply dotb_spec in Dd. congruence. }
    cbn [app wgood]. split; [exact P|]. split; [exact Ln|]. rewrite <- app_assoc. cbn [app].
    assert (R' : wgood (cs ++ [name]) (AEnd :: rest)).
    { cbn [wgood]. split; [now destruct cs|]. now rewrite removelast_last. }
    revert R'. generalize (AEnd :: rest). clear R rest ND X. induction es as [|x es IHes]; intros rest R; [exact R|].
    cbn [map concat]. rewrite <- app_assoc. inversion IH; inversion Fe; subst. apply H1; [|apply IHes; auto].
    rewrite depth_len_app. cbn [depth_len]. now replace (lenN T + (depth_len cs + (1 + lenN name + 0))) with (lenN T + depth_len cs + 1 + lenN name) by lia.
  - destruct (dotb name); [exact R|]. destruct tg; exact R.
  - now destruct (dotb name).
Qed.
Lemma preorder_wgood es : Forall (fun x => wextractable maxd maxf (lenN T) (fst x) (snd x)) es -> wgood [] (preorder es).
Proof.
  intros X. unfold preorder. induction X as [|x es Hx X IH]; [exact Logic.I|]. cbn [map concat].
  eapply preorder1_wgood; [|exact IH]. cbn [depth_len]. rewrite N.add_0_r. exact Hx.
Qed.

Lemma xstart_file h w s v it n : in_dir h s -> it_nlen it = lenN n -> plain n -> ~ In x5c n -> lenN s + 1 + lenN n < maxf ->
  at_dir w s v -> w_fs w (v ++ [fold_case n]) = None ->
  xcb (EvEntry FtFile it (padded n)) h w = Ok (h_setfd (Some (w_next w)) (h_setname (padded n) h),
    WS (xupd (w_fs w) (v ++ [fold_case n]) (XFile (negb (N.testbit (it_mode it) 7)) [])) (w_cwd w) ((w_next w, (v ++ [fold_case n], 0)) :: w_fds w) (w_next w + 1) (w_dead w)).
Proof.
  intros D N P Bs L Da Ab. cbn [WinExtract.xcb]. unfold xcb_entry. pose proof D as (Nz & Ld & _).
  cbn [h_dplen h_setname]. rewrite Ld, N.
  replace (stk <? lenN s + 4 + lenN n) with false by (symmetry; apply N.ltb_ge; lia).
  rewrite wpath_ok with (s := s); [|exact D|exact N]. cbn [obind].
  rewrite cstr_app by (now apply no_nul). rewrite (xopen_new maxf deny hal stk Hal Stk Allow w s v n _ Da P Bs L Ab). reflexivity.
Qed.

Lemma wtrace_fresh rs o : shows rs o -> forall o1 o2, o = o1 ++ o2 -> forall cs p,
  In p (map (fun x => folds (fst x)) (trace 0 cs o1)) -> In p (map (fun x => folds (fst x)) (places 0 cs rs)).
Proof.
  intros H o1 o2 E cs p Hp. destruct (begun_fst _ _ (trace_begun 0 _ _ H _ _ E cs)) as [c Ec].
  rewrite <- (map_map fst folds) in *. rewrite Ec, map_app. apply in_app_iff. now left.
Qed.
Lemma ro_perm m x : XFile (negb (N.testbit m 7)) x = on_win (IFile (file_perm 0 m) x).
Proof. cbn [on_win]. unfold file_perm. rewrite N.ldiff_spec, N.land_spec, N.bits_0. change (N.testbit 511 7) with true. now rewrite !andb_true_r. Qed.

Lemma wrun_begun rs obs : shows rs obs -> forall cs evs more st h w, flat (evs ++ more) = obs -> proto_run Idle (evs ++ more) = Some st ->
  wgood cs rs -> NoDup (map (fun x => folds (fst x)) (places 0 cs rs)) ->
  (forall p, In p (map (fun x => folds (fst x)) (places 0 cs rs)) -> w_fs w (t ++ p) = None) ->
  (forall c c', cs = c ++ c' -> at_dir w (under T c) (t ++ folds c)) -> Forall (fun n => wplain n = true) cs -> in_dir h (under T cs) ->
  exists h' w', xcbs evs h w = Ok (h', w') /\ same_h h h' /\ w_cwd w' = w_cwd w /\ w_dead w' = false /\
    (forall q, w_fs w' q = xoverlay t (fun r => wlook r (trace 0 cs (flat evs))) (w_fs w) q).
Proof.
  assert (Nothing : forall cs h w, (forall c c', cs = c ++ c' -> at_dir w (under T c) (t ++ folds c)) ->
    exists h' w', xcbs [] h w = Ok (h', w') /\ same_h h h' /\ w_cwd w' = w_cwd w /\ w_dead w' = false /\
    (forall q, w_fs w' q = xoverlay t (fun r => wlook r (trace 0 cs (flat []))) (w_fs w) q)).
  { intros cs h w Rd. exists h, w. split; [reflexivity|]. split; [repeat split|]. split; [reflexivity|].
    split; [destruct (Rd cs [] (eq_sym (app_nil_r cs))) as (_ & _ & _ & Dd); exact Dd|]. intro q. cbn. symmetry. apply xoverlay_nil. }
  induction 1 as [|name mode rs o0 it H1 H2 H3 H4 H IH|name mode data rs o0 H IH|name mode target rs o0 H IH|rs o0 H IH];
    intros cs evs more st h w F P G ND Fr Rd Pl D; cbn [wgood] in G; cbn [places] in ND, Fr.
  - rewrite (ends_nil _ _ _ P F). now apply Nothing.
  - destruct evs as [|ev evs]; [now apply Nothing|]. cbn [app] in F, P. destruct (idle_entry _ _ _ _ _ _ P F) as (evs' & E & F').
    injection E as -> <-. cbn [proto_run proto_step] in P. destruct G as (Wn & Ln & G). destruct (wplain_plain _ Wn) as [Pn Bs].
    cbn [map fst] in ND, Fr. inversion ND as [|? ? N1 N2]; subst.
    pose proof (Rd cs [] (eq_sym (app_nil_r cs))) as Da.
    assert (Ln2 : lenN (under T cs) + 1 + lenN name < maxd) by (rewrite lenN_under; lia).
    assert (Ef : t ++ folds (cs ++ [name]) = (t ++ folds cs) ++ [fold_case name]) by (unfold folds; rewrite map_app, app_assoc; reflexivity).
    assert (Ab : w_fs w ((t ++ folds cs) ++ [fold_case name]) = None) by (rewrite <- Ef; apply Fr; now left).
    destruct (xenter_dir maxd maxf deny T hal stk Hal Stk Allow h w (under T cs) (t ++ folds cs) it name D H1 Pn Bs Ln2 Da Ab) as (h1 & X1 & D1 & S1).
    rewrite xcbs_cons, X1. cbn [obind w_dead w_setfs]. pose proof Da as (_ & Kc & _ & Dd). rewrite Dd. rewrite <- Ef in *.
    set (w1 := w_setfs (xupd (w_fs w) (t ++ folds (cs ++ [name])) XDir) w).
    assert (K1 : xkeeps (w_fs w) (w_fs w1)).
    { intros p i Hp. unfold w1. cbn [w_fs w_setfs]. rewrite xupd_other; [exact Hp|]. intros ->. congruence. }
    assert (E1 : same_w w w1) by (repeat split).
    rewrite <- under_snoc in D1.
    destruct (IH (cs ++ [name]) evs more st h1 w1) as (h2 & w2 & X2 & S2 & B1 & B2 & Y); auto.
    + intros p Hp. unfold w1. cbn [w_fs w_setfs]. rewrite xupd_other; [apply Fr; now right|].
      intro Q. apply app_inv_head in Q. subst p. contradiction.
    + intros c c' Ec. destruct c' as [|x c' _] using rev_ind.
      * rewrite app_nil_r in Ec. subst c. destruct Da as (A1 & A2 & A3 & A4). split; [rewrite under_snoc; now destruct (under T cs)|]. split; [|split; [apply xupd_same|exact A4]].
        rewrite under_snoc. cbn [w1 w_cwd w_setfs]. rewrite xkey_entry by assumption. rewrite A2. now rewrite Ef.
      * rewrite app_assoc in Ec. apply app_inj_tail in Ec. destruct Ec as [Ec _].
        eapply at_dir_keeps; [exact (Rd _ _ Ec)|exact E1|exact K1].
    + apply Forall_app. split; [exact Pl|]. constructor; [exact Wn|constructor].
    + exists h2, w2. split; [exact X2|]. split; [exact (same_h_trans _ _ _ S1 S2)|]. split; [exact B1|]. split; [exact B2|].
      intro q. rewrite Y. rewrite flat_cons. cbn [flat1 app trace]. rewrite H1, padded_take.
      unfold w1. cbn [w_fs w_setfs]. change XDir with (on_win (IDir (dir_perm 0 (it_mode it)))). apply xoverlay_cons.
      intro Q. apply N1. eapply wtrace_fresh; [exact H| |exact Q]. apply flat_app.
  - destruct evs as [|ev evs]; [now apply Nothing|]. cbn [app] in F, P. destruct (idle_entry _ _ _ _ _ _ P F) as (evs' & E & F').
    injection E as -> <-. cbn [proto_run proto_step it_size] in P. destruct G as (Wn & Ln & G). destruct (wplain_plain _ Wn) as [Pn Bs].
    cbn [map fst] in ND, Fr. inversion ND as [|? ? N1 N2]; subst.
    pose proof (Rd cs [] (eq_sym (app_nil_r cs))) as Da.
    assert (Ln2 : lenN (under T cs) + 1 + lenN name < maxf) by (rewrite lenN_under; lia).
    assert (Ef : t ++ folds (cs ++ [name]) = (t ++ folds cs) ++ [fold_case name]) by (unfold folds; rewrite map_app, app_assoc; reflexivity).
    assert (Ab : w_fs w ((t ++ folds cs) ++ [fold_case name]) = None) by (rewrite <- Ef; apply Fr; now left).
    destruct (file_reads _ _ _ _ _ P F') as (ds & evs2 & E & Ed & F2 & P2).
    set (it := Item (lenN data) (norm_len64 (lenN data)) (lenN name) (norm_len32 (lenN name)) mode CT_FILE) in *.
    rewrite xcbs_cons, (xstart_file h w (under T cs) (t ++ folds cs) it name D eq_refl Pn Bs Ln2 Da Ab). cbn [obind w_dead].
    pose proof Da as (_ & Kc & _ & Dd). rewrite Dd. rewrite <- Ef in *.
    set (h1 := h_setfd (Some (w_next w)) (h_setname (padded name) h)).
    match goal with |- context [xcbs _ _ ?ww] => set (w1 := ww) end.
    assert (Ws : forall dd, exists w', xcbs (map EvRead dd) h1 w1 = Ok (h1, w') /\
      (forall q, w_fs w' q = xupd (w_fs w) (t ++ folds (cs ++ [name])) (XFile (negb (N.testbit mode 7)) (concat dd)) q) /\
      w_cwd w' = w_cwd w /\ w_dead w' = false /\ w_fds w' = (w_next w, (t ++ folds (cs ++ [name]), lenN (concat dd))) :: w_fds w).
    { intro dd. destruct (xwrite_all maxd maxf deny T hal stk dd h1 w1 (w_next w) (t ++ folds (cs ++ [name])) [] (negb (N.testbit mode 7)) (w_fds w)) as (w' & A1 & A2 & A3 & A4 & A5).
      - reflexivity.
      - reflexivity.
      - reflexivity.
      - unfold w1. cbn [w_fs]. apply xupd_same.
      - exists w'. split; [exact A1|]. split; [|auto].
        intro q. rewrite A2. unfold w1. cbn [w_fs app]. destruct (path_dec q (t ++ folds (cs ++ [name]))) as [->|Hn]; [now rewrite !xupd_same|now rewrite !xupd_other]. }
    destruct (reads_cut _ _ _ _ E) as [(d1 & d2 & -> & ->)|(e3 & -> & E3)].
    + destruct (Ws d1) as (w' & A1 & A2 & A3 & A4 & A5). exists h1, w'. split; [exact A1|]. split; [repeat split|]. split; [exact A3|]. split; [exact A4|].
      intro q. rewrite A2, flat_cons, flat_reads. cbn [flat1 app trace]. rewrite leading_map.
      replace (map OByte (concat d1)) with (map OByte (concat d1) ++ []) by apply app_nil_r. rewrite trace_bytes. cbn [trace it_nlen it_mode it].
      rewrite padded_take, ro_perm, <- xoverlay_cons by (intros []). now rewrite xoverlay_nil.
    + destruct (Ws ds) as (w2 & A1 & A2 & A3 & A4 & A5).
      rewrite xcbs_app by reflexivity. rewrite A1. cbn [obind]. rewrite A4, xcbs_cons.
      assert (Hf : xcb EvFileEnd h1 w2 = Ok (h1, WS (w_fs w2) (w_cwd w2) (w_fds w) (w_next w2) (w_dead w2))).
      { cbn [WinExtract.xcb h_fd h1 h_setfd]. unfold xclose. rewrite A5. cbn [find_fd del_fd]. now rewrite N.eqb_refl. }
      rewrite Hf. cbn [obind w_dead]. rewrite A4.
      match goal with |- context [xcbs _ _ ?ww] => set (w3 := ww) end.
      assert (E1 : same_w w w3) by (repeat split; cbn; congruence).
      assert (K1 : xkeeps (w_fs w) (w_fs w3)).
      { intros p i Hp. unfold w3. cbn [w_fs]. rewrite A2, xupd_other; [exact Hp|]. intros ->. congruence. }
      destruct (IH cs e3 more st h1 w3) as (h2 & w4 & X2 & S2 & B1 & B2 & Y); auto.
      * now rewrite E3.
      * now rewrite E3.
      * intros p Hp. unfold w3. cbn [w_fs]. rewrite A2, xupd_other; [apply Fr; now right|].
        intro Q. apply app_inv_head in Q. subst p. contradiction.
      * intros c c' Ec. eapply at_dir_keeps; [exact (Rd _ _ Ec)|exact E1|exact K1].
      * exists h2, w4. split; [exact X2|]. split; [exact S2|]. split; [rewrite B1; exact A3|]. split; [exact B2|].
        intro q. rewrite Y, flat_cons, flat_app, flat_reads, flat_cons. cbn [flat1 app trace]. rewrite leading_bytes, trace_bytes. cbn [trace it_nlen it_mode it].
        rewrite padded_take. rewrite (xoverlay_ext t _ (w_fs w3) _ q (fun q => A2 q)). rewrite ro_perm.
        apply xoverlay_cons. intro Q. apply N1. eapply wtrace_fresh; [exact H| |exact Q]. rewrite <- F2, <- E3. apply flat_app.
  - destruct evs as [|ev evs]; [now apply Nothing|]. cbn [app] in F, P. destruct (idle_entry _ _ _ _ _ _ P F) as (evs' & E & F').
    injection E as -> <-. cbn [proto_run proto_step] in P. destruct (idle_sym _ _ _ P F') as (d & tl & evs2 & E & F2 & P2).
    pose proof (Rd cs [] (eq_sym (app_nil_r cs))) as (_ & _ & _ & Dd). rewrite xcbs_cons. cbn [WinExtract.xcb xcb_entry obind]. rewrite Dd.
    destruct evs as [|ev evs].
    + destruct (Nothing cs (h_setname (padded name) h) w Rd) as (h' & w' & X & S & Q). exists h', w'. split; [exact X|]. split; [exact S|]. exact Q.
    + cbn [app] in E. injection E as -> <-. rewrite xcbs_cons. cbn [WinExtract.xcb obind]. rewrite Dd.
      destruct (IH cs evs more st (h_setname (padded name) h) w F2 P2 G ND Fr Rd Pl D) as (h2 & w2 & X2 & S2 & B1 & B2 & Y).
      exists h2, w2. split; [exact X2|]. split; [exact S2|]. split; [exact B1|]. split; [exact B2|]. intro q. rewrite Y, !flat_cons. reflexivity.
  - destruct evs as [|ev evs]; [now apply Nothing|]. cbn [app] in F, P. destruct (idle_end _ _ _ P F) as (evs' & E & F' & P').
    injection E as -> <-. destruct G as [Nc G]. destruct cs as [|nm cs _] using rev_ind; [contradiction|]. rewrite removelast_last in *.
    rewrite under_snoc in D.
    assert (Wn : wplain nm = true) by (apply Forall_app in Pl; destruct Pl as [_ Pl]; now inversion Pl). destruct (wplain_plain _ Wn) as [(_ & Ns & _) _].
    destruct (xleave_dir maxd maxf deny T hal stk h w (under T cs) nm D Ns) as (h1 & X1 & D1 & S1). rewrite xcbs_cons, X1. cbn [obind].
    pose proof (Rd _ [] (eq_sym (app_nil_r _))) as (_ & _ & _ & Dd). rewrite Dd.
    destruct (IH cs evs more st h1 w F' P' G ND Fr) as (h2 & w2 & X2 & S2 & B1 & B2 & Y); auto.
    + intros c c' ->. apply (Rd c (c' ++ [nm])). now rewrite app_assoc.
    + now apply Forall_app in Pl.
    + exists h2, w2. split; [exact X2|]. split; [exact (same_h_trans _ _ _ S1 S2)|]. split; [exact B1|]. split; [exact B2|].
      intro q. rewrite Y, flat_cons. cbn [flat1 app trace]. now rewrite removelast_last.
Qed.
End Run.

Lemma folds_app a b : folds (a ++ b) = folds a ++ folds b.
Proof. apply map_app. Qed.
Lemma wlayout_below um cs es p : In p (map (fun x => folds (fst x)) (layout um cs es)) -> exists c r, In c (map (fun x => fold_case (fst x)) es) /\ p = folds cs ++ c :: r.
Proof.
  intro H. rewrite <- (map_map fst folds) in H. apply in_map_iff in H. destruct H as (p' & <- & H). destruct (layout_below _ _ _ _ H) as (c & r & Hc & ->).
  exists (fold_case c), (folds r). split; [|now rewrite folds_app]. rewrite <- (map_map fst fold_case). now apply in_map.
Qed.
Lemma wlayout_join um cs es : NoDup (map (fun x => fold_case (fst x)) es) -> Forall (fun x => NoDup (map (fun x => folds (fst x)) (layout1 um cs (fst x) (snd x)))) es ->
  NoDup (map (fun x => folds (fst x)) (layout um cs es)).
Proof.
  induction es as [|x es IH]; intros ND F; [constructor|]. inversion ND as [|? ? N1 N2]; inversion F as [|? ? F1 F2]; subst.
  unfold layout. cbn [map concat]. rewrite map_app. apply NoDup_join; [exact F1|now apply IH|].
  intros p Hp Hq. rewrite <- (map_map fst folds) in Hp. apply in_map_iff in Hp. destruct Hp as (p' & <- & Hp).
  destruct (layout1_below _ _ _ _ _ Hp) as [r ->]. destruct (wlayout_below _ _ _ _ Hq) as (c & r' & Hc & E).
  rewrite folds_app in E. apply app_inv_head in E. injection E as E _. subst c. contradiction.
Qed.
Lemma wlayout1_nodup maxd maxf um : forall nd cs L name, wextractable maxd maxf L name nd -> NoDup (map (fun x => folds (fst x)) (layout1 um cs name nd)).
Proof.
  induction nd as [o st m sz d r|m es IH|m sz tg|] using snode_ind2; intros cs L name X; cbn [layout1]; destruct (dotb name) eqn:Ed; try (now constructor).
  - cbn [map]. constructor; [intros []|constructor].
  - inversion X as [? ? ? Dd| | | |? ? ? ? P Ln ND Fe]; subst. { apply dotb_spec in Dd. congruence. }
    cbn [map fst]. constructor.
    + intro Q. destruct (wlayout_below um (cs ++ [name]) es _ Q) as (c & r & _ & E). rewrite <- (app_nil_r (folds (cs ++ [name]))) in E at 1.
      apply app_inv_head in E. discriminate E.
    + apply (wlayout_join um (cs ++ [name]) es ND). rewrite Forall_forall in *. intros x Hx. eapply IH; [exact Hx|]. apply Fe. exact Hx.
Qed.
Lemma wlayout_nodup maxd maxf um L es : NoDup (map (fun x => fold_case (fst x)) es) -> Forall (fun x => wextractable maxd maxf L (fst x) (snd x)) es ->
  NoDup (map (fun x => folds (fst x)) (layout um [] es)).
Proof. intros ND X. apply wlayout_join; [exact ND|]. rewrite Forall_forall in *. intros x Hx. exact (wlayout1_nodup _ _ _ _ _ _ _ (X x Hx)). Qed.

Section Whole.
Context (maxd maxf : N) (deny : path -> bool) (z : zlib) (C : zlib_contract z) (e : endian) (alloc : N -> N -> bool).
Context (hal al : N -> bool) (stk : N) (obuf hjunk : bytes) (pjunk : pst).
Hypothesis Calm : calm z hal al stk obuf hjunk pjunk.
Hypothesis Halloc : forall k n, alloc k n = true.
Hypothesis Allow : forall q, deny q = false.
Hypothesis Mf : maxf <= PATH_MAX.

Lemma wcut_run T t w es evs more st : NoDup (map (fun x => fold_case (fst x)) es) -> Forall (fun x => wextractable maxd maxf (lenN T) (fst x) (snd x)) es ->
  wfree maxd w T t -> shows (preorder es) (flat (evs ++ more)) -> proto_run Idle (evs ++ more) = Some st ->
  exists h' w', xcbs maxd maxf deny T hal stk (EvDirBegin :: evs) HS0 w = Ok (h', w') /\ h_err h' = false /\ h_fp h' = None /\ h_ret h' = ContentDirectory /\
    w_cwd w' = w_cwd w /\ w_dead w' = false /\ forall q, w_fs w' q = xoverlay t (wtarget_with (trace 0 [] (flat evs))) (w_fs w) q.
Proof.
  intros ND X Fs S P. destruct (xbegin_dir maxd maxf deny z hal al stk obuf hjunk pjunk Calm Allow T t w Fs) as (h1 & X1 & D1 & E1 & P1 & R1 & At1).
  set (w1 := w_setfs (xupd (w_fs w) t XDir) w) in *. pose proof Fs as (_ & _ & _ & _ & _ & Fr & Dd).
  assert (Stk : maxf + 4 <= stk) by (pose proof (ca_stk _ _ _ _ _ _ _ Calm); lia).
  assert (Ne : forall p, In p (map fst (layout 0 [] es)) -> p <> []).
  { intros p Hp ->. destruct (layout_below _ _ _ _ Hp) as (c & r & _ & Q). discriminate Q. }
  rewrite xcbs_cons, X1. cbn [obind]. pose proof At1 as (_ & _ & _ & Dd1). rewrite Dd1.
  destruct (wrun_begun maxd maxf deny T hal stk t (ca_hal _ _ _ _ _ _ _ Calm) Stk Allow _ _ S [] evs more st h1 w1 eq_refl P)
    as (h' & w3 & X3 & (S1 & S2 & S3) & B1 & B2 & Y).
  - eapply preorder_wgood; [exact (ca_hal _ _ _ _ _ _ _ Calm)|exact Stk|exact Allow|exact X].
  - rewrite places_preorder. eapply wlayout_nodup; eauto.
  - rewrite places_preorder. intros p Hp. unfold w1. cbn [w_fs w_setfs]. rewrite xupd_other; [apply Fr|].
    intro Q. rewrite <- (app_nil_r t) in Q at 2. apply app_inv_head in Q. subst p. destruct (wlayout_below _ _ _ _ Hp) as (c & r & _ & Q). discriminate Q.
  - intros c c' Ec. destruct c; [|discriminate Ec]. rewrite under_nil. cbn [folds map]. rewrite app_nil_r. exact At1.
  - constructor.
  - rewrite under_nil. exact D1.
  - exists h', w3. split; [exact X3|]. split; [congruence|]. split; [congruence|]. split; [congruence|]. split; [rewrite B1; reflexivity|]. split; [exact B2|].
    intro q. rewrite Y. apply wtarget_overlay. intros p Hp. apply Ne.
    assert (Bg : begun (trace 0 [] (flat evs)) (layout 0 [] es)). { rewrite <- places_preorder. eapply trace_begun; [exact S|apply flat_app]. }
    destruct (begun_fst _ _ Bg) as [c ->]. apply in_app_iff. now left.
Qed.

Lemma winterrupted es F T archive inp t w fuel :
  archives_dir z es F -> cut_input archive F inp -> (length inp < fuel)%nat -> Forall (fun x => quiet (snd x)) es ->
  NoDup (map (fun x => fold_case (fst x)) es) -> Forall (fun x => wextractable maxd maxf (lenN T) (fst x) (snd x)) es -> wfree maxd w T t ->
  (exists dfuel0, forall dfuel, (dfuel0 <= dfuel)%nat -> exists ret x w',
     xextract maxd maxf deny T hal stk z e alloc archive fuel dfuel al obuf hjunk pjunk inp false w = Ok (ret, x, w')) /\
  forall dfuel rderr ret x w', xextract maxd maxf deny T hal stk z e alloc archive fuel dfuel al obuf hjunk pjunk inp rderr w = Ok (ret, x, w') ->
    exists v s h ds, ret = Some v /\ x = Some (s, h, ds) /\ w_cwd w' = w_cwd w /\ w_dead w' = false /\
    ((forall q, w_fs w' q = w_fs w q) /\ v = ContentNone /\
     (rderr = false -> room_left s -> forall r1 r2 y1, preorder es = r1 ++ r2 -> encodes r1 y1 -> prefix y1 (dropN 128 (zc_dec C inp)) -> r1 = []) \/
     exists done, begun done (layout 0 [] es) /\ (rderr = false -> v = ContentDirectory) /\
       (forall q, w_fs w' q = xoverlay t (wtarget_with done) (w_fs w) q) /\
       (rderr = false -> room_left s -> forall r1 r2 y1, preorder es = r1 ++ r2 -> encodes r1 y1 ->
          prefix y1 (dropN 128 (zc_dec C inp)) -> prefix (places 0 [] r1) done)).
Proof.
  intros A Ci Hf Q ND X Fs. pose proof (cut_limited _ _ _ Ci) as Li. pose proof Ci as [Pf _]. pose proof (dir_archived z C es F A Q) as Da.
  pose proof Fs as (_ & _ & _ & _ & _ & _ & Dd). split.
  - apply (xextract_runs maxd maxf deny z C e alloc hal al stk obuf hjunk pjunk Calm T archive inp w fuel Hf); [|exact Dd|].
    + rewrite Li. eapply supported_prefix; [exact Pf|]. eapply supported_of. apply Da.
    + intros s0 dfuel ops rets s evs St Ho Fed R.
      destruct (cut_events z C e alloc Halloc F _ _ _ _ _ _ _ Da St Ho ltac:(rewrite Fed, Li; exact Pf) R) as [[->|(evs' & more & st & -> & S & P)] _].
      * exists HS0, w. reflexivity.
      * destruct (wcut_run T t w es evs' more st ND X Fs S P) as (h' & w' & X' & _). eauto.
  - intros dfuel rderr ret x w' Ex.
    destruct (xextract_did maxd maxf deny z C e alloc hal al stk obuf hjunk pjunk Calm _ _ _ _ _ _ _ _ _ _ Dd Ex)
      as (s0 & ops & rets & s & evs & h & w2 & ds & -> & St & Ho & <- & R & Xc & Pd & Full & _ & Q2). rewrite Li in *.
    destruct (cut_events z C e alloc Halloc F _ _ _ _ _ _ _ Da St Ho (prefix_trans _ _ _ _ Pd Pf) R) as [[->|(evs' & more & st & -> & S & P)] Cp].
    + cbn in Xc. injection Xc as <- <-. destruct (Q2 Dd) as (-> & v & -> & Hv & _). exists v, s, HS0, (dfed ops).
      split; [reflexivity|]. split; [reflexivity|]. split; [reflexivity|]. split; [exact Dd|]. left. split; [reflexivity|].
      split; [destruct Hv as [ -> | -> ]; reflexivity|]. intros Re Rl r1 r2 y1 Er E1 P1. rewrite <- (Full Re eq_refl Dd) in P1.
      destruct r1 as [|a r1]; [reflexivity|]. assert (Nn : a :: r1 <> []) by (intro Z; discriminate Z).
      destruct (Cp Rl _ _ _ Er Nn E1 P1) as (? & ? & ? & Z & _). discriminate Z.
    + destruct (wcut_run T t w es evs' more st ND X Fs S P) as (h' & w3 & X' & He & Hp & Hr & B1 & B2 & Y).
      rewrite X' in Xc. injection Xc as <- <-. destruct (Q2 B2) as (-> & v & -> & _ & Hv). exists v, s, h', (dfed ops).
      split; [reflexivity|]. split; [reflexivity|]. unfold xclose_fp. rewrite Hp. split; [exact B1|]. split; [exact B2|]. right.
      exists (trace 0 [] (flat evs')). split; [rewrite <- places_preorder; eapply trace_begun; [exact S|apply flat_app]|].
      split; [intro Re; rewrite (Hv Re); exact Hr|]. split; [exact Y|].
      intros Re Rl r1 r2 y1 Er E4 P4. rewrite <- (Full Re He B2) in P4.
      destruct r1 as [|a r1]; [apply prefix_nil|]. assert (Nn : a :: r1 <> []) by (intro Z; discriminate Z).
      destruct (Cp Rl _ _ _ Er Nn E4 P4) as (ev2 & o4 & o5 & Z & Fl & S4). injection Z as <-.
      rewrite Fl, (trace_shows _ _ _ S4). eexists. reflexivity.
Qed.
End Whole.

(** On Windows, the archive of a directory without its end: of the file abc in the directory d two of three bytes are there; b is missing. *)
Lemma ex_c99_windows : exists ret w', archives_dir rle_zlib hx_tree (hx_arch hx_tree) /\ cut_input 0 (hx_arch hx_tree) (cx_in 69) /\ (length (cx_in 69) < 4000)%nat /\
  calm rle_zlib hx_hal ax_al hx_stk (zeros DEF_CHUNK_SIZE) ax_hjunk ex_pj /\ 260 <= PATH_MAX /\ Forall (fun x => quiet (snd x)) hx_tree /\
  NoDup (map (fun x => fold_case (fst x)) hx_tree) /\ Forall (fun x => wextractable 248 260 1 (fst x) (snd x)) hx_tree /\ wfree 248 wx_w [x6f] [[x77]; [x6f]] /\
  wdid_all (wx_extract [x6f] (cx_in 69) wx_w) ret w' /\ ret = Some ContentDirectory /\ w_fs w' [[x77]; [x6f]; [x64]] = Some XDir /\
  w_fs w' [[x77]; [x6f]; [x64]; [x61;x62;x63]] = Some (XFile false [x31;x32]) /\ w_fs w' [[x77]; [x6f]; [x62]] = None.
Proof.
  destruct (wdid_all_of (wx_extract [x6f] (cx_in 69) wx_w) (fun ret w' =>
    is_ret ret ContentDirectory && (xat w' [[x77]; [x6f]; [x64]] (Some XDir) &&
    (xat w' [[x77]; [x6f]; [x64]; [x61;x62;x63]] (Some (XFile false [x31;x32])) && xat w' [[x77]; [x6f]; [x62]] None))))
    as (ret & w' & D & H); [vm_compute; reflexivity|].
  apply andb_prop in H. destruct H as [H1 H]. apply andb_prop in H. destruct H as [H2 H]. apply andb_prop in H. destruct H as [H3 H4].
  exists ret, w'. split; [exact hx_archived|]. split; [split; [exact (proj1 (cx_cut 69))|left; reflexivity]|].
  split; [apply Nat.ltb_lt; vm_compute; reflexivity|]. split; [exact hx_calm|]. split; [apply N.leb_le; vm_compute; reflexivity|]. split; [exact hx_quiet|].
  split; [cbn [hx_tree map fst]; nodup_case|].
  split; [unfold hx_tree; repeat apply Forall_cons; cbn [fst snd]; [apply wx_dot; apply dotb_spec; reflexivity| |apply wx_file; reflexivity|apply Forall_nil];
    apply wx_dir; [reflexivity|reflexivity|cbn [map fst]; nodup_case|]; repeat apply Forall_cons; cbn [fst snd]; [apply wx_file; reflexivity| |apply Forall_nil];
    apply wx_dir; [reflexivity|reflexivity|constructor|constructor]|]. split; [exact wx_free|]. split; [exact D|].
  split; [now apply is_ret_ok|]. split; [now apply xat_ok|]. split; now apply xat_ok.
Qed.
