(** CutRun.v: the callbacks for the beginning of an archive. *)
From Coq Require Import Lia.
From Verif Require Import Base Format Zlib Compress Parser ParserProofs ParserFacts Decompress DecompressProofs MidProofs MidFacts
  ArchiveSpec ArchiveFacts ArchiveDecode FS FSFacts HL HLSpec HLFacts HLDrive HLProps HLSafe MkdirFacts HLTame CutSpec CutFacts.

(** ** Records that can be extracted *)
Section Good.
Context (priv : bool) (um : N) (L : N).
Fixpoint good (cs : path) (rs : list arec) : Prop :=
  match rs with
  | [] => True
  | ADir n m :: r => plain n /\ L + depth_len cs + 1 + lenN n < PATH_MAX /\ usable_dir priv um m /\ good (cs ++ [n]) r
  | AFile n _ _ _ :: r => plain n /\ L + depth_len cs + 1 + lenN n < PATH_MAX /\ good cs r
  | AEnd :: r => cs <> [] /\ good (removelast cs) r
  | _ :: _ => False
  end.

Lemma preorder1_good : forall nd name cs rest, extractable priv um (L + depth_len cs) name nd ->
  good cs rest -> good cs (preorder1 name nd ++ rest).
Proof.
  induction nd as [o st m sz d r|m es IH|m sz tg|] using snode_ind2; intros name cs rest X R; cbn [preorder1].
  - destruct (dotb name) eqn:Ed; [exact R|]. inversion X as [? ? ? Dd| |? ? ? ? ? ? ? ? P Ln|]; subst.
    { apply dotb_spec in Dd. congruence. }
    cbn [app good]. auto.
  - destruct (dotb name) eqn:Ed; [exact R|]. inversion X as [? ? ? Dd| | |? ? ? ? P Ln U ND Fe]; subst.
    { apply dotb_spec in Dd. congruence. }
    cbn [app good]. split; [exact P|]. split; [exact Ln|]. split; [exact U|]. rewrite <- app_assoc. cbn [app].
    assert (R' : good (cs ++ [name]) (AEnd :: rest)).
    { cbn [good]. split; [now destruct cs|]. now rewrite removelast_last. }
    revert R'. generalize (AEnd :: rest). clear R rest ND X. induction es as [|x es IHes]; intros rest R; [exact R|].
    cbn [map concat]. rewrite <- app_assoc. inversion IH; inversion Fe; subst. apply H1; [|apply IHes; auto].
    rewrite depth_len_app. cbn [depth_len]. now replace (L + (depth_len cs + (1 + lenN name + 0))) with (L + depth_len cs + 1 + lenN name) by lia.
  - inversion X as [? ? ? Dd| | |]; subst. apply dotb_spec in Dd. now rewrite Dd.
  - now destruct (dotb name).
Qed.
Lemma preorder_good es : Forall (fun x => extractable priv um L (fst x) (snd x)) es -> good [] (preorder es).
Proof.
  intros X. unfold preorder. induction X as [|x es Hx X IH]; [exact I|]. cbn [map concat].
  eapply preorder1_good; [|exact IH]. cbn [depth_len]. rewrite N.add_0_r. exact Hx.
Qed.
End Good.

(** ** Records and entries *)
Lemma places_preorder1 um : forall nd cs name rest, places um cs (preorder1 name nd ++ rest) = layout1 um cs name nd ++ places um cs rest.
Proof.
  induction nd as [o st m sz d r|m es IH|m sz tg|] using snode_ind2; intros cs name rest; cbn [preorder1 layout1]; destruct (dotb name); try reflexivity.
  - cbn [app places]. f_equal. rewrite <- app_assoc. cbn [app].
    assert (Q : forall r', places um (cs ++ [name]) (concat (map (fun x => preorder1 (fst x) (snd x)) es) ++ r') =
      concat (map (fun x => layout1 um (cs ++ [name]) (fst x) (snd x)) es) ++ places um (cs ++ [name]) r').
    { intro r'. induction IH as [|x es Hx Hes IHes]; [reflexivity|]. cbn [map concat]. rewrite <- !app_assoc, Hx. now rewrite IHes. }
    rewrite Q. cbn [places]. now rewrite removelast_last.
  - destruct tg; reflexivity.
Qed.
Lemma places_preorder um es : places um [] (preorder es) = layout um [] es.
Proof.
  unfold preorder, layout. induction es as [|x es IH]; [reflexivity|]. cbn [map concat]. rewrite places_preorder1. now rewrite IH.
Qed.

Lemma layout1_below um : forall nd cs name p, In p (map fst (layout1 um cs name nd)) -> exists r, p = cs ++ name :: r.
Proof.
  induction nd as [o st m sz d r|m es IH|m sz tg|] using snode_ind2; intros cs name p H; cbn [layout1] in H; destruct (dotb name); try contradiction.
  - destruct H as [<-|[]]. now exists [].
  - cbn [map] in H. destruct H as [<-|H]; [now exists []|].
    assert (Q : exists r, p = (cs ++ [name]) ++ r).
    { induction IH as [|x es Hx Hes IHes]; [contradiction|]. cbn [map concat] in H. rewrite map_app in H. apply in_app_iff in H.
      destruct H as [H|H]; [|auto]. destruct (Hx _ _ _ H) as [r ->]. eauto. }
    destruct Q as [r ->]. exists r. now rewrite <- app_assoc.
Qed.
Lemma layout_below um cs es p : In p (map fst (layout um cs es)) -> exists c r, In c (map fst es) /\ p = cs ++ c :: r.
Proof.
  induction es as [|x es IH]; [contradiction|]. unfold layout. cbn [map concat]. rewrite map_app, in_app_iff. intros [H|H].
  - destruct (layout1_below _ _ _ _ _ H) as [r ->]. exists (fst x), r. split; [now left|reflexivity].
  - destruct (IH H) as (c & r & Hc & ->). exists c, r. split; [now right|reflexivity].
Qed.
Lemma NoDup_join {A} (a b : list A) : NoDup a -> NoDup b -> (forall x, In x a -> ~ In x b) -> NoDup (a ++ b).
Proof.
  induction 1 as [|x a Hx Ha IH]; intros Hb H; [exact Hb|]. cbn [app]. constructor.
  - rewrite in_app_iff. intros [Q|Q]; [contradiction|]. apply (H x); [now left|exact Q].
  - apply IH; [exact Hb|]. intros y Hy. apply H. now right.
Qed.
Lemma layout_join um cs es : NoDup (map fst es) -> Forall (fun x => NoDup (map fst (layout1 um cs (fst x) (snd x)))) es ->
  NoDup (map fst (layout um cs es)).
Proof.
  induction es as [|x es IH]; intros ND F; [constructor|]. inversion ND as [|? ? N1 N2]; inversion F as [|? ? F1 F2]; subst.
  unfold layout. cbn [map concat]. rewrite map_app. apply NoDup_join; [exact F1|now apply IH|].
  intros p Hp Hq. destruct (layout1_below _ _ _ _ _ Hp) as [r ->]. destruct (layout_below _ _ _ _ Hq) as (c & r' & Hc & E).
  apply app_inv_head in E. injection E as E _. subst c. contradiction.
Qed.
Lemma layout1_nodup priv um : forall nd cs L name, extractable priv um L name nd -> NoDup (map fst (layout1 um cs name nd)).
Proof.
  induction nd as [o st m sz d r|m es IH|m sz tg|] using snode_ind2; intros cs L name X; cbn [layout1]; destruct (dotb name) eqn:Ed; try constructor.
  - intros [].
  - constructor.
  - fold (layout um (cs ++ [name]) es). intro H. destruct (layout_below _ _ _ _ H) as (c & r & _ & E).
    rewrite <- (app_nil_r (cs ++ [name])) in E at 1. apply app_inv_head in E. discriminate E.
  - inversion X as [? ? ? Dd| | |? ? ? ? P Ln U ND Fe]; subst. { apply dotb_spec in Dd. congruence. }
    apply (layout_join um (cs ++ [name]) es ND). rewrite Forall_forall in *. intros x Hx. exact (IH x Hx _ _ _ (Fe x Hx)).
Qed.
Lemma layout_nodup priv um L es : NoDup (map fst es) -> Forall (fun x => extractable priv um L (fst x) (snd x)) es ->
  NoDup (map fst (layout um [] es)).
Proof. intros ND X. apply layout_join; [exact ND|]. rewrite Forall_forall in *. intros x Hx. exact (layout1_nodup _ _ _ _ _ _ (X x Hx)). Qed.

(** ** The callbacks *)

Lemma overlay_cons t p i l fs q : ~ In p (map fst l) ->
  overlay t (fun r => look r l) (upd fs (t ++ p) i) q = overlay t (fun r => look r ((p, i) :: l)) fs q.
Proof.
  intro H. unfold overlay. destruct (strip t q) as [r|] eqn:E.
  - apply strip_spec in E. subst q. cbn [look]. destruct (path_eqb r p) eqn:Ep.
    + apply path_eqb_spec in Ep. subst r. rewrite (look_none _ _ H). apply upd_same.
    + destruct (look r l); [reflexivity|]. apply upd_other. intro Q. apply app_inv_head in Q. subst r. rewrite path_eqb_refl in Ep. discriminate.
  - apply upd_other. intros ->. rewrite strip_app in E. discriminate.
Qed.
Lemma overlay_nil t fs q : overlay t (fun r => look r []) fs q = fs q.
Proof. apply overlay_out. reflexivity. Qed.
Lemma overlay_ext t g fs fs' q : (forall q, fs q = fs' q) -> overlay t g fs q = overlay t g fs' q.
Proof. intro H. unfold overlay. destruct (strip t q) as [p|]; [destruct (g p)|]; auto. Qed.

Lemma reads_cut ds : forall evs more rest, evs ++ more = map EvRead ds ++ EvFileEnd :: rest ->
  (exists d1 d2, evs = map EvRead d1 /\ ds = d1 ++ d2) \/ exists e3, evs = map EvRead ds ++ EvFileEnd :: e3 /\ e3 ++ more = rest.
Proof.
  induction ds as [|d ds IH]; intros evs more rest H.
  - destruct evs as [|ev evs]; [left; exists [], []; auto|]. cbn in H. injection H as -> H. right. exists evs. auto.
  - destruct evs as [|ev evs]; [left; exists [], (d :: ds); auto|]. cbn in H. injection H as -> H.
    destruct (IH _ _ _ H) as [(d1 & d2 & -> & ->)|(e3 & -> & E)].
    + left. exists (d :: d1), d2. auto.
    + right. exists e3. auto.
Qed.
Lemma flat_reads ds : flat (map EvRead ds) = map OByte (concat ds).
Proof. induction ds as [|d ds IH]; [reflexivity|]. cbn [map concat]. rewrite flat_cons, map_app, IH. reflexivity. Qed.

Section Run.
Context (T : bytes) (hal : N -> bool) (stk : N) (priv : bool) (um : N) (t : path).
Hypothesis Hal : forall n, hal n = true.
Hypothesis Stk : PATH_MAX + 4 <= stk.
Notation cbs := (cbs T hal stk).

Definition all_ready (o : os) (cs : path) : Prop := forall c c', cs = c ++ c' -> ready priv um o (under T c) (t ++ c).
Definition still (o o' : os) : Prop := o_cwd o' = o_cwd o /\ o_umask o' = o_umask o /\ o_priv o' = o_priv o.

Lemma trace_fresh rs o : shows rs o -> forall o1 o2, o = o1 ++ o2 -> forall cs free p,
  In p (map fst (fill free (trace um cs o1))) -> In p (map fst (places um cs rs)).
Proof.
  intros H o1 o2 E cs free p Hp. rewrite fill_fst in Hp. destruct (begun_fst _ _ (trace_begun um _ _ H _ _ E cs)) as [c ->].
  apply in_app_iff. now left.
Qed.

Lemma ends_nil evs more st : proto_run Idle (evs ++ more) = Some st -> flat (evs ++ more) = [] -> evs = [].
Proof.
  destruct evs as [|ev evs]; [reflexivity|]. intros P F. cbn [app proto_run] in P. cbn [app] in F. rewrite flat_cons in F.
  destruct ev; cbn in P; try discriminate P; cbn in F; discriminate F.
Qed.

Lemma run_begun rs obs : shows rs obs -> forall cs evs more st h o, flat (evs ++ more) = obs -> proto_run Idle (evs ++ more) = Some st ->
  good priv um (lenN T) cs rs -> NoDup (map fst (places um cs rs)) ->
  (forall p, In p (map fst (places um cs rs)) -> o_fs o (t ++ p) = None) -> all_ready o cs -> Forall plain cs -> in_dir h (under T cs) ->
  exists h' o', exec (cbs evs h) o = Ok (h', o') /\ same_h h h' /\ still o o' /\
    (forall q, o_fs o' q = overlay t (fun r => look r (fill (o_free o) (trace um cs (flat evs)))) (o_fs o) q) /\
    (more = [] -> o_fds o' = o_fds o).
Proof.
  assert (None0 : forall cs h o, exists h' o', exec (cbs [] h) o = Ok (h', o') /\ same_h h h' /\ still o o' /\
    (forall q, o_fs o' q = overlay t (fun r => look r (fill (o_free o) (trace um cs (flat [])))) (o_fs o) q) /\ o_fds o' = o_fds o).
  { intros cs h o. exists h, o. split; [reflexivity|]. split; [repeat split|]. split; [repeat split|]. split; [|reflexivity].
    intro q. cbn. symmetry. apply overlay_nil. }
  assert (Nothing : forall cs more h o, exists h' o', exec (cbs [] h) o = Ok (h', o') /\ same_h h h' /\ still o o' /\
    (forall q, o_fs o' q = overlay t (fun r => look r (fill (o_free o) (trace um cs (flat [])))) (o_fs o) q) /\ (more = @nil event -> o_fds o' = o_fds o)).
  { intros cs more h o. destruct (None0 cs h o) as (h' & o' & A). exists h', o'. tauto. }
  induction 1 as [|name mode rs o0 it H1 H2 H3 H4 H IH|name mode data rs o0 H IH|name mode target rs o0 H IH|rs o0 H IH];
    intros cs evs more st h o F P G ND Fr Rd Pl D; cbn [good] in G; cbn [places] in ND, Fr.
  - rewrite (ends_nil _ _ _ P F). apply Nothing.
  - destruct evs as [|ev evs]; [apply Nothing|]. cbn [app] in F, P. destruct (idle_entry _ _ _ _ _ _ P F) as (evs' & E & F').
    injection E as -> <-. cbn [proto_run proto_step] in P. destruct G as (Pn & Ln & [Ux Uw] & G).
    cbn [map fst] in ND, Fr. inversion ND as [|? ? N1 N2]; subst.
    destruct (Rd cs [] (eq_sym (app_nil_r cs))) as (Da & Ru & Rp & Rw).
    assert (Ln2 : lenN (under T cs) + 1 + lenN name < PATH_MAX) by (rewrite lenN_under; lia).
    assert (Ab : o_fs o ((t ++ cs) ++ [name]) = None) by (rewrite <- app_assoc; apply Fr; now left).
    destruct (enter_dir T hal stk Hal Stk h o (under T cs) (t ++ cs) it name D H1 Pn Ln2 Da Ab ltac:(now rewrite Rp)) as (h1 & X1 & D1 & S1).
    rewrite exec_cbs_cons, X1. cbn [obind]. rewrite Ru, <- app_assoc in *.
    set (o1 := with_fs (upd (o_fs o) (t ++ cs ++ [name]) (IDir (dir_perm um (it_mode it)))) o).
    assert (K1 : keeps (o_fs o) (o_fs o1)) by (apply keeps_upd_new; exact Ab).
    assert (E1 : same_env o o1) by (repeat split).
    rewrite <- under_snoc in D1.
    destruct (IH (cs ++ [name]) evs more st h1 o1) as (h2 & o2 & X2 & S2 & (B1 & B2 & B3) & Y & Fd); auto.
    + intros p Hp. unfold o1. cbn [o_fs with_fs]. rewrite upd_other; [apply Fr; now right|].
      intro Q. apply app_inv_head in Q. subst p. contradiction.
    + intros c c' Ec. destruct c' as [|x c' _] using rev_ind.
      * rewrite app_nil_r in Ec. subst c. split; [|split; [exact Ru|split; [exact Rp|]]].
        -- rewrite under_snoc, app_assoc. eapply dir_at_entry; [exact Pn|eapply dir_at_keeps; [exact K1|reflexivity|reflexivity|exact Da]| |].
           ++ rewrite <- app_assoc. apply upd_same. ++ cbn. now rewrite Rp.
        -- unfold dir_mode, o1. cbn [o_fs with_fs]. rewrite upd_same. exact Uw.
      * rewrite app_assoc in Ec. apply app_inj_tail in Ec. destruct Ec as [Ec _].
        eapply ready_keeps; [exact (Rd _ _ Ec)|exact E1|exact K1].
    + apply Forall_app. split; [exact Pl|]. constructor; [exact Pn|constructor].
    + exists h2, o2. split; [exact X2|]. split; [exact (same_h_trans _ _ _ S1 S2)|]. split; [repeat split; assumption|]. split; [|exact Fd].
      intro q. rewrite Y. rewrite flat_cons. cbn [flat1 app trace fill]. rewrite H1, padded_take.
      change (o_free o1) with (o_free o). unfold o1. cbn [o_fs with_fs]. apply overlay_cons.
      intro Q. apply N1. eapply trace_fresh; [exact H| |exact Q]. apply flat_app.
  - destruct evs as [|ev evs]; [apply Nothing|]. cbn [app] in F, P. destruct (idle_entry _ _ _ _ _ _ P F) as (evs' & E & F').
    injection E as -> <-. cbn [proto_run proto_step it_size] in P. destruct G as (Pn & Ln & G).
    cbn [map fst] in ND, Fr. inversion ND as [|? ? N1 N2]; subst.
    destruct (Rd cs [] (eq_sym (app_nil_r cs))) as (Da & Ru & Rp & Rw).
    assert (Ln2 : lenN (under T cs) + 1 + lenN name < PATH_MAX) by (rewrite lenN_under; lia).
    assert (Ab : o_fs o ((t ++ cs) ++ [name]) = None) by (rewrite <- app_assoc; apply Fr; now left).
    destruct (file_reads _ _ _ _ _ P F') as (ds & evs2 & E & Ed & F2 & P2).
    set (it := Item (lenN data) (norm_len64 (lenN data)) (lenN name) (norm_len32 (lenN name)) mode CT_FILE) in *.
    rewrite exec_cbs_cons, (open_file T hal stk Hal Stk h o (under T cs) (t ++ cs) it name D eq_refl Pn Ln2 Da Ab) by (now rewrite Rp). cbn [obind].
    rewrite Ru, <- app_assoc in *.
    set (h1 := h_setfd (Some (o_next o)) (h_setname (padded name) h)).
    match goal with |- context [exec _ ?oo] => set (o1 := oo) end.
    assert (Ws : forall dd, exists o' off, exec (cbs (map EvRead dd) h1) o1 = Ok (h1, o') /\
      (forall q, o_fs o' q = upd (o_fs o) (t ++ cs ++ [name]) (IFile (file_perm um mode) (takeN (o_free o) (concat dd))) q) /\
      o_free o' = o_free o - lenN (concat dd) /\ still o o' /\ o_fds o' = (o_next o, (t ++ cs ++ [name], off)) :: o_fds o).
    { intro dd. destruct (write_some T hal stk dd h1 o1 (o_next o) (t ++ cs ++ [name]) [] (file_perm um mode) (o_fds o) eq_refl eq_refl)
        as (o' & off & A1 & A2 & A3 & A4 & A5 & A6 & A7).
      - unfold o1. cbn [o_fs]. apply upd_same.
      - exists o', off. split; [exact A1|]. split; [|split; [exact A3|split; [exact (conj A4 (conj (eq_trans A5 (eq_sym Ru)) A6))|exact A7]]].
        intro q. rewrite A2. unfold o1. cbn [o_fs o_free app]. destruct (path_dec q (t ++ cs ++ [name])) as [->|Hn]; [now rewrite !upd_same|now rewrite !upd_other]. }
    destruct (reads_cut _ _ _ _ E) as [(d1 & d2 & -> & ->)|(e3 & -> & E3)].
    + destruct (Ws d1) as (o' & off & A1 & A2 & A3 & A4 & A7). exists h1, o'. split; [exact A1|]. split; [repeat split|]. split; [exact A4|]. split.
      * intro q. rewrite A2, flat_cons, flat_reads. cbn [flat1 app trace]. rewrite leading_map.
        replace (map OByte (concat d1)) with (map OByte (concat d1) ++ []) by apply app_nil_r. rewrite trace_bytes. cbn [trace fill it_nlen it_mode it].
        rewrite padded_take, <- overlay_cons by (intros []). now rewrite overlay_nil.
      * intros ->. rewrite app_nil_r in E. exfalso. clear - E. revert E. generalize (d1 ++ d2). intro l. revert l.
        induction d1 as [|d d1 IHd]; intros [|x l] E; cbn in E; try discriminate. injection E as _ E. eauto.
    + destruct (Ws ds) as (o2 & off & A1 & A2 & A3 & (A4 & A5 & A6) & A7).
      assert (Hf : exec (cb T hal stk EvFileEnd h1) o2 = Ok (h1, OS (o_fs o2) (o_free o2) (o_cwd o2) (o_umask o2) (o_priv o2) (o_fds o) (o_next o2))).
      { unfold cb, cb_file_end. rewrite exec_sys. cbn [h_fd h1 h_setfd sys]. rewrite (close_head _ _ _ _ A7). reflexivity. }
      rewrite exec_cbs_app, A1. cbn [obind]. rewrite exec_cbs_cons, Hf. cbn [obind].
      match goal with |- context [exec _ ?oo] => set (o3 := oo) end.
      assert (E1 : same_env o o3) by (repeat split; assumption).
      assert (K1 : keeps (o_fs o) (o_fs o3)).
      { intro p. unfold o3. cbn [o_fs]. rewrite A2. apply (keeps_upd_new (o_fs o) (t ++ cs ++ [name]) _ Ab p). }
      destruct (IH cs e3 more st h1 o3) as (h2 & o4 & X2 & S2 & (B1 & B2 & B3) & Y & Fd); auto.
      * now rewrite E3.
      * now rewrite E3.
      * intros p Hp. unfold o3. cbn [o_fs]. rewrite A2, upd_other; [apply Fr; now right|].
        intro Q. apply app_inv_head in Q. subst p. contradiction.
      * intros c c' Ec. eapply ready_keeps; [exact (Rd _ _ Ec)|exact E1|exact K1].
      * exists h2, o4. split; [exact X2|]. split; [exact S2|].
        split; [destruct E1 as (Q1 & Q2 & Q3 & _); repeat split; congruence|]. split; [|intro Em; rewrite (Fd Em); reflexivity].
        intro q. rewrite Y, flat_cons, flat_app, flat_reads, flat_cons. cbn [flat1 app trace]. rewrite leading_bytes, trace_bytes. cbn [trace fill it_nlen it_mode it].
        rewrite padded_take. rewrite (overlay_ext t _ (o_fs o3) _ q (fun q => A2 q)). change (o_free o3) with (o_free o2). rewrite A3.
        apply overlay_cons. intro Q. apply N1. eapply trace_fresh; [exact H| |exact Q]. rewrite <- F2, <- E3. apply flat_app.
  - contradiction.
  - destruct evs as [|ev evs]; [apply Nothing|]. cbn [app] in F, P. destruct (idle_end _ _ _ P F) as (evs' & E & F' & P').
    injection E as -> <-. destruct G as [Nc G]. destruct cs as [|nm cs _] using rev_ind; [contradiction|]. rewrite removelast_last in *.
    rewrite under_snoc in D.
    assert (Pn : plain nm).
    { apply Forall_app in Pl. destruct Pl as [_ Pl]. now inversion Pl. }
    destruct (leave_dir T hal stk h o (under T cs) nm D Pn) as (h1 & X1 & D1 & S1). rewrite exec_cbs_cons, X1. cbn [obind].
    destruct (IH cs evs more st h1 o F' P' G ND Fr) as (h2 & o2 & X2 & S2 & B & Y & Fd); auto.
    + intros c c' ->. apply (Rd c (c' ++ [nm])). now rewrite app_assoc.
    + now apply Forall_app in Pl.
    + exists h2, o2. split; [exact X2|]. split; [exact (same_h_trans _ _ _ S1 S2)|]. split; [exact B|]. split; [|exact Fd].
      intro q. rewrite Y, flat_cons. cbn [flat1 app trace]. now rewrite removelast_last.
Qed.
End Run.
