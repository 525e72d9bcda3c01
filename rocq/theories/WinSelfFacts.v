(** WinSelfFacts.v: the self extract tool on Windows (C140-C143). *)
From Coq Require Import Lia Strings.String.
From Verif Require Import Base Format Zlib LLCompress Compress Parser ParserProofs ParserFacts Decompress DecompressProofs MidProofs MidFacts
  ArchiveSpec ArchiveFacts ArchiveDecode ArchiveEntry ArchiveProps FS FSFacts HL HLSpec HLFacts HLDrive HLProps HLMore ArgParser ArgSpec
  Tools ToolsSpec ToolsFacts SelfRun SelfRunFacts WinTools WinExtract WinExtractSpec WinExtractFacts Compress WinArchive WinArchiveSpec WinArchiveFacts WinArchiveProps
  WinCdSpec WinCdFacts WinSelf.
Local Notation b := list_byte_of_string.

(** ** The traversal with the two files left out *)
Definition own_pure (exe : bytes) (_ : unit) (d : list bytes) (n : bytes) (k : skind) : Z * unit := (own_ans exe d n k, tt).
Definition kept_or (exe : bytes) (P : bytes -> snode -> Prop) (j : job) : Prop :=
  match j with JEntry d n nd => own_ans exe d n (kind_of nd) <> 0%Z \/ P n nd | JEnd => True end.

Lemma kept_or_entries exe (P : bytes -> snode -> Prop) d n es js : Forall (fun x => P (fst x) (snd x)) es -> Forall (kept_or exe P) js ->
  Forall (kept_or exe P) (jobs (d ++ [n]) es ++ JEnd :: js).
Proof.
  intros A B. apply Forall_app. split; [|constructor; [exact I|exact B]]. unfold jobs. rewrite Forall_map.
  eapply Forall_impl; [|exact A]. intros [m x] H. right. exact H.
Qed.

Lemma own_trav_sound exe f js f' vs rs t : trav (own_pure exe) f js f' vs rs t -> Forall (kept_or exe sound) js -> t <> Failed.
Proof.
  induction 1; intro Fj; try (inversion Fj as [|? ? Hj Fjs]; subst); try discriminate; auto;
    match goal with Q : own_pure _ _ _ _ _ = (0%Z, _) |- _ => injection Q as Q _ end; (destruct Hj as [Hj|Hj]; [cbn [kind_of] in Hj; contradiction|]).
  - inversion Hj; subst; [contradiction|]. apply IHtrav. now apply kept_or_entries.
  - inversion Hj; subst; [contradiction|]. match goal with Q : _ \/ _ |- _ => destruct Q; discriminate end.
  - inversion Hj; contradiction.
Qed.

Lemma own_deep exe d n k : d <> [] -> own_ans exe d n k = 0%Z.
Proof. destruct d; [contradiction|]. reflexivity. Qed.

Lemma own_trav_all exe f js f' vs rs t : trav (own_pure exe) f js f' vs rs t -> t = Done -> Forall (kept_or exe sound) js.
Proof.
  induction 1; intro Ht; try discriminate.
  - constructor.
  - constructor; [exact I|auto].
  - constructor; [right; now apply so_dot|auto].
  - constructor; [left|auto]. match goal with Q : own_pure _ _ _ _ _ = _ |- _ => injection Q as Q _ end. cbn [kept_or]. congruence.
  - specialize (IHtrav Ht). apply Forall_app in IHtrav. destruct IHtrav as [A B]. inversion B; subst.
    constructor; [|assumption]. right. apply so_dir. clear - A. unfold jobs in A. rewrite Forall_map in A. eapply Forall_impl; [|exact A].
    intros [m x] [Q|Q]; [|exact Q]. elim Q. apply own_deep. destruct dir; discriminate.
  - constructor; [right; apply so_file|auto].
  - constructor; [right; apply so_link|auto].
  - constructor; [right; apply so_link|auto].
  - constructor; [right; apply so_other|auto].
Qed.

Lemma own_trav_pure exe f js f' vs rs t : trav (own_pure exe) f js f' vs rs t -> Forall (kept_or exe (fun _ x => quiet x)) js ->
  t = Done /\ rs = concat (map (kept_job (own_ans exe)) js).
Proof.
  induction 1; intro Fj; try (inversion Fj as [|? ? Hj Fjs]; subst); cbn [map concat];
    try (match goal with Q : own_pure _ _ _ _ _ = _ |- _ => injection Q as Q _ end);
    try (match goal with Q : own_ans _ _ _ _ = 0%Z |- _ => destruct Hj as [Hj|Hj]; [cbn [kind_of] in Hj; contradiction|]; inversion Hj; subst; clear Hj end);
    try (match goal with Q : ~ dotted _ |- _ => apply dot_no in Q end).
  - auto.
  - destruct (IHtrav Fjs) as (A & D). split; [exact A|]. cbn [kept_job app]. congruence.
  - destruct (IHtrav Fjs) as (A & D). split; [exact A|]. cbn [kept_job]. match goal with Q : dotted _ |- _ => apply dotb_spec in Q; rename Q into H end.
    destruct nd; cbn [kept1]; rewrite H; cbn [app]; congruence.
  - now apply own_ans_not in H0.
  - destruct (IHtrav Fjs) as (A & D). split; [exact A|]. cbn [kept_job]. apply Z.eqb_neq in H2.
    destruct nd; cbn [kept1 kind_of] in *; rewrite H, H0, H2; cbn [app]; congruence.
  - destruct IHtrav as (A & D). { now apply (kept_or_entries exe (fun _ x => quiet x)). }
    rewrite map_app, concat_app, kept_jobs in D. cbn [map concat kept_job app] in D.
    split; [exact A|]. cbn [kept_job kept1 kind_of]. rewrite H, H0. cbn [Z.eqb]. rewrite D. cbn [app]. rewrite <- app_assoc. reflexivity.
  - destruct (IHtrav Fjs) as (A & D). split; [exact A|]. cbn [kept_job kept1 kind_of]. rewrite H, H0. cbn [Z.eqb app]. congruence.
  - match goal with Q : _ \/ _ |- _ => destruct Q; discriminate end.
  - destruct (IHtrav Fjs) as (A & D). split; [exact A|]. cbn [kept_job kept1 kind_of]. rewrite H, H0. cbn [Z.eqb app]. congruence.
  - destruct junk; [contradiction|]. match goal with Q : context [lenN (_ :: _)] |- _ => rewrite lenN_cons in Q; lia end.
  - lia.
  - destruct (IHtrav Fjs) as (A & D). split; [exact A|]. cbn [kept_job kept1 kind_of]. rewrite H, H0. cbn [Z.eqb app]. congruence.
Qed.

Lemma own_trav_end exe f js f' vs rs t : trav (own_pure exe) f js f' vs rs t -> t <> Stopped.
Proof.
  induction 1; try discriminate; auto. match goal with Q : own_pure _ _ _ _ _ = _ |- _ => injection Q as Q _; now apply own_ans_not in Q end.
Qed.

(** ** The two views of a listing *)
Lemma own_kind exe n nd : own_ans exe [] n (kind_of nd) <> 0%Z <-> its_own exe (n, nd) = true.
Proof.
  unfold its_own, own_ans. cbn [fst snd]. destruct nd; cbn [kind_of not_dir andb]; destruct (bytes_eqb n exe || bytes_eqb n se_out)%bool;
    split; intro H; try discriminate; try reflexivity; now elim H.
Qed.
Lemma win_not_dir locked dir n nd : not_dir (on_win locked dir n nd) = not_dir nd.
Proof. destruct nd; cbn [on_win]; destruct (dotb n); reflexivity. Qed.
Lemma unlinked_not_dir nd : not_dir (unlinked nd) = not_dir nd.
Proof. now destruct nd. Qed.
Lemma win_own locked exe n nd : its_own exe (n, on_win locked [] n nd) = its_own exe (n, nd).
Proof. unfold its_own. cbn [fst snd]. now rewrite win_not_dir. Qed.

Lemma kept_win locked exe (P Q : bytes -> snode -> Prop) es : (forall n nd, P n (on_win locked [] n nd) <-> Q n nd) ->
  Forall (kept_or exe P) (jobs [] (on_win_all locked [] es)) <-> Forall (fun x => Q (fst x) (snd x)) (without_own exe es).
Proof.
  intro E. unfold jobs, on_win_all. rewrite map_map, Forall_map. unfold without_own. rewrite !Forall_forall. cbn [fst snd kept_or].
  split; intros H x Hx.
  - apply filter_In in Hx. destruct Hx as [Hx Ho]. destruct x as [n nd]. specialize (H _ Hx). cbn [fst snd] in *.
    destruct H as [H|H]; [|now apply E]. apply own_kind in H. rewrite win_own in H. rewrite H in Ho. discriminate.
  - destruct x as [n nd]. cbn [fst snd]. destruct (its_own exe (n, nd)) eqn:Eo; [left; apply own_kind; now rewrite win_own|right].
    apply E. apply (H (n, nd)). apply filter_In. now rewrite Eo.
Qed.

Lemma unlinked_steady nd : quiet nd -> steady (unlinked nd).
Proof. intro H. apply quiet_steady. now apply unlinked_quiet. Qed.
Lemma win_steady locked nd : forall dir n, quiet nd -> steady (on_win locked dir n nd).
Proof.
  induction nd as [o st m sz d r|m es IH|m sz t|] using snode_ind2; intros dir n H; cbn [on_win];
    (destruct (dotb n); [now apply unlinked_steady|]); try constructor; inversion H; subst; try constructor.
  apply (Forall_map_any steady (on_win locked (dir ++ [n]))). rewrite Forall_forall in *. intros x Hx. apply (IH x Hx). auto.
Qed.
Lemma unlinked_below nm nd : below_free nm nd -> below_free nm (unlinked nd).
Proof.
  induction nd as [o st m sz d r|m es IH|m sz t|] using snode_ind2; intro H; cbn [unlinked]; try (apply bf_leaf; reflexivity).
  inversion H as [? Q|? ? Q]; subst; [discriminate Q|]. apply bf_dir. rewrite Forall_map. rewrite Forall_forall in *. intros x Hx. cbn [fst snd].
  destruct (Q x Hx) as [A B]. rewrite unlinked_not_dir. split; [exact A|]. now apply (IH x Hx).
Qed.
Lemma win_below locked nm nd : forall dir n, below_free nm nd -> below_free nm (on_win locked dir n nd).
Proof.
  induction nd as [o st m sz d r|m es IH|m sz t|] using snode_ind2; intros dir n H; cbn [on_win];
    (destruct (dotb n); [now apply unlinked_below|]); try (apply bf_leaf; reflexivity).
  inversion H as [? Q|? ? Q]; subst; [discriminate Q|]. apply bf_dir. rewrite Forall_map. rewrite Forall_forall in *. intros x Hx. cbn [fst snd].
  destruct (Q x Hx) as [A B]. rewrite win_not_dir. split; [exact A|]. now apply (IH x Hx).
Qed.
Lemma without_unlinked exe es : without_own exe (unlinked_all es) = unlinked_all (without_own exe es).
Proof.
  unfold without_own, unlinked_all. induction es as [|[n nd] es IH]; [reflexivity|]. cbn [map filter fst snd]. rewrite IH.
  assert (E : its_own exe (n, unlinked nd) = its_own exe (n, nd)) by (unfold its_own; cbn [fst snd]; now rewrite unlinked_not_dir).
  rewrite E. destruct (its_own exe (n, nd)); reflexivity.
Qed.
(** If what is kept can be read, the records are those of the listing without links. *)
Lemma kept_sound locked exe es : Forall (fun x => wsound locked [] (fst x) (snd x)) (without_own exe es) ->
  kept (own_ans exe) [] (on_win_all locked [] es) = preorder (unlinked_all (without_own exe es)).
Proof.
  intro S. rewrite kept_own. f_equal. unfold without_own, on_win_all, unlinked_all in *. induction es as [|[n nd] es IH]; [reflexivity|].
  cbn [map filter fst snd] in *. rewrite win_own. destruct (its_own exe (n, nd)); cbn [negb] in *; [now apply IH|].
  inversion S; subst. cbn [map fst snd]. f_equal; [|now apply IH]. f_equal. now apply sound_unlinked.
Qed.

(** ** Archives and their records *)
Lemma archive_unpacks z (C : zlib_contract z) F recs : dir_archive C F recs -> unpacks z F recs.
Proof.
  intros D e alloc fuel s0 ops rets s evs Ha Hs Ho <- Hr Rl.
  destruct (session_extends z C e alloc Ha fuel s0 ops rets s evs recs Hs Ho D Hr) as (_ & A & B).
  destruct recs as [|r recs].
  - destruct A as [->|(ev' & more & st & -> & S & _)]; [left; auto|]. right. exists ev'. split; [reflexivity|].
    rewrite flat_app in S. remember (flat ev' ++ flat more) as l eqn:El. assert (l = []) as -> by (now inversion S). symmetry in El. apply app_eq_nil in El. destruct El as [-> _]. constructor.
  - destruct (B Rl) as (ev' & st & -> & S & _); [discriminate|]. right. exists ev'. auto.
Qed.

(** Writing inside the file. *)
Lemma over_two p d1 d2 x : p <= lenN x -> overwrite (p + lenN d1) d2 (overwrite p d1 x) = overwrite p (d1 ++ d2) x.
Proof.
  intro H. unfold overwrite. assert (L : lenN (takeN p x ++ d1) = p + lenN d1) by (rewrite lenN_app, lenN_takeN; lia).
  rewrite (app_assoc (takeN p x) d1), <- L, takeN_app_exact by reflexivity.
  rewrite dropN_app, (dropN_all _ _ (takeN p x ++ d1)) by lia. cbn [app]. rewrite <- !app_assoc. do 3 f_equal.
  rewrite dropN_dropN. f_equal. rewrite (lenN_app _ d1 d2). lia.
Qed.
Lemma se_writes_over wr : (forall k n, wr k n = n) -> forall ds n x p, p <= lenN x -> wf_data (se_writes wr n ds (WF x p)) = overwrite p (concat ds) x.
Proof.
  intro Hw. induction ds as [|d ds IH]; intros n x p H; cbn [se_writes concat].
  - cbn [wf_data]. unfold overwrite. cbn [app]. rewrite N.add_0_r. symmetry. apply takeN_dropN.
  - rewrite Hw, takeN_all by lia. unfold wf_write. destruct d as [|b0 d]; [now apply IH|]. cbn [wf_data wf_pos].
    replace (p - lenN x) with 0 by lia. change (zeros 0) with (@nil byte). rewrite app_nil_r.
    rewrite IH; [now apply over_two|]. unfold overwrite. rewrite !lenN_app, lenN_takeN. lia.
Qed.

(** ** Making the executable *)
Section Build.
Context (z : zlib) (C : zlib_contract z) (e : endian) (jk : N -> bytes) (xjk : N -> N -> bytes)
  (hjunk : bytes) (al : N -> bool).
Local Notation hj := (fun _ n => zeros n).

Lemma se_alike exe : forall f g d n k, f = g ->
  fst (se_filter exe f d n k) = fst (se_filter exe g d n (nolink k)) /\ snd (se_filter exe f d n k) = snd (se_filter exe g d n (nolink k)).
Proof. intros f g d n k ->. destruct k; split; reflexivity. Qed.

Lemma own_archived exe locked fuel es r cevs ws wx led : junk_ok jk hj xjk hjunk -> tree_fits (Some es) -> NoDup (map fst es) ->
  Forall (fun x => below_free exe (snd x)) es -> Forall (fun x => below_free se_out (snd x)) es ->
  wcompress_dir z e (se_filter exe) jk xjk hjunk al locked fuel Z_BEST_COMPRESSION 1 false [] (Some es) (true, true) = Ok (r, cevs, ws, wx, led) ->
  created z al Z_BEST_COMPRESSION ->
  (r = CRet 0 /\ Forall (fun x => wsound locked [] (fst x) (snd x)) (without_own exe es) /\
     (last_not_full cevs -> cev_bytes cevs <> []) /\
     (Forall (fun x => quiet (snd x)) es -> last_not_full cevs -> dir_archive C (cev_bytes cevs) (preorder (unlinked_all (without_own exe es))))) \/
  (r = CRet 2 /\ ~ Forall (fun x => wsound locked [] (fst x) (snd x)) (without_own exe es)).
Proof.
  intros J Ft Nd B1 B2 H Cr.
  pose proof (compress_win e (se_filter exe) (se_filter exe) eq jk hj locked (se_alike exe) z xjk hjunk al fuel Z_BEST_COMPRESSION 1 false [] (Some es) (true, true) (true, true) eq_refl) as Q.
  rewrite H in Q. cbn [option_map] in Q. destruct Q as (ws' & _ & Q). clear H.
  pose proof (win_all_fits locked es Ft) as Ft'.
  pose proof Q as Q0.
  destruct (compress_dir_spec z C e (se_filter exe) jk hj xjk hjunk al _ _ _ _ _ _ _ _ _ _ _ _ J Ft' (Forall_nil _) Q)
    as [(Q1 & _)|(_ & xr & recs & content & X1 & T & En & R & P & Bd & Fi & L)]; [contradiction|].
  cbn in X1. subst xr. cbn [app listing] in En, T.
  assert (Er : map fst (on_win_all locked [] es) = map fst es) by (unfold on_win_all; rewrite map_map; reflexivity).
  assert (W : forall nm, Forall (fun x => below_free nm (snd x)) es -> Forall (clean nm) (jobs [] (on_win_all locked [] es))).
  { intros nm B. unfold jobs, on_win_all. rewrite map_map, Forall_map. eapply Forall_impl; [|exact B]. intros x Hx. cbn [fst snd clean].
    split; [now apply win_below|]. intro Z; now elim Z. }
  pose proof T as T'. apply (se_trav (fun _ => None)) in T; [|now apply W|now apply W| |].
  2:{ unfold left_ok. cbn [fst]. apply (hits_nodup (fun _ => None)). now rewrite Er. }
  2:{ unfold left_ok. cbn [snd]. apply (hits_nodup (fun _ => None)). now rewrite Er. }
  fold (own_pure exe) in T.
  pose proof (own_trav_end _ _ _ _ _ _ _ T) as N1.
  assert (N2 : tend_of ws' <> Died).
  { apply (trav_links _ _ _ _ _ _ _ T). apply (jobs_all (fun _ x => links_hold x)).
    apply (Forall_map_any links_hold (on_win locked [])). apply Forall_forall. intros x _. apply win_hold. }
  pose proof (kept_win locked exe sound (wsound locked []) es (fun n nd => win_sound locked nd [] n)) as K.
  destruct (tend_of ws') eqn:Et; try contradiction; subst r; [left|right]; (split; [reflexivity|]).
  - assert (S : Forall (fun x => wsound locked [] (fst x) (snd x)) (without_own exe es)) by (apply K; eapply own_trav_all; [exact T|reflexivity]).
    split; [exact S|]. split.
    { intro Ln. apply (dir_nonempty z C e (se_filter exe) jk hj xjk hjunk al _ _ _ _ _ _ _ _ _ J Ft' Ln Q0). }
    intros Qu Ln. specialize (L Ln).
    destruct (header_archive e ContentDirectory hjunk content (proj2 (proj2 (proj2 J))) eq_refl) as [Ar Dr]. rewrite <- L in Ar, Dr.
    assert (Eq : recs = preorder (unlinked_all (without_own exe es))).
    { destruct (own_trav_pure _ _ _ _ _ _ _ T) as [_ ->].
      - apply (kept_win locked exe (fun _ x => quiet x) (fun n nd => quiet (on_win locked [] n nd)) es (fun n nd => iff_refl _)).
        rewrite Forall_forall in S |- *. intros x Hx. rewrite (sound_unlinked _ _ _ _ (S x Hx)). apply unlinked_quiet. rewrite Forall_forall in Qu. apply Qu.
        unfold without_own in Hx. apply filter_In in Hx. apply Hx.
      - rewrite kept_jobs. now apply kept_sound. }
    split; [exact Bd|]. split; [exact Fi|]. split; [exact Ar|]. rewrite Dr, <- Eq. split; [exact En|].
    destruct (trav_rec_ok _ _ _ _ _ _ _ T) as [Q1|Q1]; [|discriminate Q1|exact Q1].
    apply jobs_all. unfold tree_fits in Ft'. cbn [listing] in Ft'. unfold on_win_all in *. rewrite Forall_map in *. rewrite Forall_forall in *. intros x Hx. cbn [fst snd]. split; [exact (Ft' x Hx)|apply win_steady; auto].
  - intro S. apply K in S. now apply (own_trav_sound _ _ _ _ _ _ _ T S).
Qed.

Context (ls : bytes -> option (list (bytes * snode))) (locked : bytes -> list bytes -> bool)
  (rd wr : N -> N -> N) (opn : N -> bool) (ndebug : bool) (icon : bytes -> bytes).
Local Notation main := (wse_main z e jk xjk hjunk al ls locked rd wr opn ndebug icon).

Lemma no_writes : forall ds n w, concat ds = [] -> se_writes wr n ds w = w.
Proof.
  induction ds as [|d ds IH]; intros n' w' Hd; [reflexivity|]. cbn [concat] in Hd. apply app_eq_nil in Hd. destruct Hd as [-> Hd].
  cbn [se_writes]. rewrite takeN_nil. cbn [wf_write]. now apply IH.
Qed.

Lemma wse_main_wrote cfuel fuel argv0 exe r out : lenN exe <= max_exe ndebug -> (forall k n, wr k n = n) ->
  main cfuel fuel argv0 (Some exe) = Ok (SeBuild r out) -> r <> CRet 1 ->
  exists n cevs ws wx led,
    wcompress_dir z e (se_filter (fst (se_name_dir argv0))) jk xjk hjunk al (locked (snd (se_name_dir argv0))) fuel Z_BEST_COMPRESSION 1 false []
      (ls (snd (se_name_dir argv0))) (true, true) = Ok (r, cevs, ws, wx, led) /\
    out = wf_data (se_writes wr n (map ce_data cevs) (WF (icon exe) (max_exe ndebug))).
Proof.
  intros Hx Hw H Hr. unfold wse_main in H.
  destruct (max_exe ndebug <? lenN exe) eqn:E; [lia|].
  destruct (se_name_dir argv0) as [name dir]. cbn [fst snd].
  destruct (opn 0); cbn [negb] in H; [|discriminate].
  destruct (se_copy rd wr cfuel 0 0 exe (WF [] 0)) as [[w n]| |] eqn:Ec; try discriminate H. cbn [obind] in H.
  apply (se_copy_whole wr Hw) in Ec; [|reflexivity]. cbn [wf_data app] in Ec. rewrite Ec in H.
  destruct (opn 1); cbn [negb] in H; [|injection H as <- <-; now elim Hr].
  destruct (wcompress_dir _ _ _ _ _ _ _ _ _ _ _ _ _ _ _) as [[[[[r' cevs] ws] wx] led]| |]; try discriminate H.
  cbn [obind] in H. injection H as -> <-. eauto 9.
Qed.

Lemma wse_main_layout cfuel fuel argv0 exe r out : lenN exe <= max_exe ndebug -> lenN (icon exe) <= max_exe ndebug -> (forall k n, wr k n = n) ->
  main cfuel fuel argv0 (Some exe) = Ok (SeBuild r out) -> r <> CRet 1 ->
  exists cevs ws wx led,
    wcompress_dir z e (se_filter (fst (se_name_dir argv0))) jk xjk hjunk al (locked (snd (se_name_dir argv0))) fuel Z_BEST_COMPRESSION 1 false []
      (ls (snd (se_name_dir argv0))) (true, true) = Ok (r, cevs, ws, wx, led) /\
    prefix (icon exe) out /\ dropN (max_exe ndebug) out = cev_bytes cevs.
Proof.
  intros Hx Hi Hw H Hr. destruct (wse_main_wrote _ _ _ _ _ _ Hx Hw H Hr) as (n & cevs & ws & wx & led & Hc & ->).
  exists cevs, ws, wx, led. split; [exact Hc|].
  destruct (cev_bytes cevs) as [|b0 bs] eqn:Eb.
  - rewrite no_writes by exact Eb. cbn [wf_data]. split; [apply prefix_refl|]. apply dropN_all. lia.
  - unfold cev_bytes in Eb. rewrite (se_writes_hole wr Hw); cbn [wf_data wf_pos]; [|lia|rewrite Eb; discriminate]. rewrite Eb.
    split; [apply prefix_app|]. rewrite app_assoc. apply dropN_app_exact. rewrite lenN_app, lenN_zeros. lia.
Qed.

Lemma wse_created exe l fuel es cevs ws wx led : junk_ok jk hj xjk hjunk -> tree_fits (Some es) ->
  wcompress_dir z e (se_filter exe) jk xjk hjunk al l fuel Z_BEST_COMPRESSION 1 false [] (Some es) (true, true) = Ok (CRet 0, cevs, ws, wx, led) ->
  created z al Z_BEST_COMPRESSION.
Proof.
  intros J Ft H.
  pose proof (compress_win e (se_filter exe) (se_filter exe) eq jk hj l (se_alike exe) z xjk hjunk al fuel Z_BEST_COMPRESSION 1 false [] (Some es) (true, true) (true, true) eq_refl) as Q.
  rewrite H in Q. cbn [option_map] in Q. destruct Q as (ws' & _ & Q).
  exact (dir_created z C e _ jk hj xjk hjunk al _ _ _ _ _ _ _ _ _ _ _ J (win_all_fits l es Ft) (Forall_nil _) Q).
Qed.

(** C140 *)
Lemma wse_packs cfuel fuel argv0 exe out es : lenN exe <= max_exe ndebug -> lenN (icon exe) <= max_exe ndebug -> (forall k n, wr k n = n) ->
  main cfuel fuel argv0 (Some exe) = Ok (SeBuild (CRet 0) out) ->
  let '(name, dir) := se_name_dir argv0 in
  ls dir = Some es -> junk_ok jk hj xjk hjunk -> tree_fits (Some es) -> Forall (fun x => quiet (snd x)) es ->
  NoDup (map fst es) -> Forall (fun x => below_free name (snd x)) es -> Forall (fun x => below_free se_out (snd x)) es ->
  prefix (icon exe) out /\ (forall p, file_at p (without_own name es) -> locked dir p = false) /\
  exists cevs, dropN (max_exe ndebug) out = cev_bytes cevs /\ (last_not_full cevs ->
    dir_archive C (cev_bytes cevs) (preorder (unlinked_all (without_own name es))) /\
    unpacks z (cev_bytes cevs) (preorder (unlinked_all (without_own name es))) /\
    forall cfuel' fuel' argv0', main cfuel' fuel' argv0' (Some out) = Ok (SeRun (cev_bytes cevs))).
Proof.
  intros Hx Hi Hw H. destruct (wse_main_layout _ _ _ _ _ _ Hx Hi Hw H ltac:(discriminate)) as (cevs & ws & wx & led & Hc & P & D).
  destruct (se_name_dir argv0) as [name dir]. cbn [fst snd] in Hc. intros Hl J Ft Q Nd B1 B2. rewrite Hl in Hc.
  pose proof (wse_created _ _ _ _ _ _ _ _ J Ft Hc) as Cr.
  destruct (own_archived _ _ _ _ _ _ _ _ _ J Ft Nd B1 B2 Hc Cr) as [(_ & S & Ne & A)|(Q1 & _)]; [|discriminate Q1].
  split; [exact P|]. split; [intros p Hp; exact (sound_file _ _ _ Hp [] S)|].
  exists cevs. split; [exact D|]. intro L. specialize (A Q L). split; [exact A|]. split; [now apply archive_unpacks with (C := C)|].
  intros cf' f' a'. specialize (Ne L). unfold wse_main. rewrite <- D in Ne |- *.
  destruct (max_exe ndebug <? lenN out) eqn:E; [reflexivity|]. elim Ne. apply dropN_all. lia.
Qed.

(** C141 *)
Lemma wse_reported cfuel fuel argv0 exe r out es : lenN exe <= max_exe ndebug -> (forall k n, wr k n = n) ->
  main cfuel fuel argv0 (Some exe) = Ok (SeBuild r out) -> opn 1 = true -> created z al Z_BEST_COMPRESSION ->
  let '(name, dir) := se_name_dir argv0 in
  ls dir = Some es -> junk_ok jk hj xjk hjunk -> tree_fits (Some es) ->
  NoDup (map fst es) -> Forall (fun x => below_free name (snd x)) es -> Forall (fun x => below_free se_out (snd x)) es ->
  (r = CRet 0 /\ Forall (fun x => wsound (locked dir) [] (fst x) (snd x)) (without_own name es)) \/
  (r = CRet 2 /\ ~ Forall (fun x => wsound (locked dir) [] (fst x) (snd x)) (without_own name es)).
Proof.
  intros Hx Hw H Ho Cr. unfold wse_main in H. destruct (max_exe ndebug <? lenN exe) eqn:E; [lia|].
  destruct (se_name_dir argv0) as [name dir]. intros Hl J Ft Nd B1 B2.
  destruct (opn 0); cbn [negb] in H; [|discriminate].
  destruct (se_copy rd wr cfuel 0 0 exe (WF [] 0)) as [[w n]| |] eqn:Ec; try discriminate H. cbn [obind] in H.
  rewrite Ho, Hl in H. cbn [negb] in H.
  destruct (wcompress_dir _ _ _ _ _ _ _ _ _ _ _ _ _ _ _) as [[[[[r' cevs] ws] wx] led]| |] eqn:Hc; try discriminate H.
  cbn [obind] in H. injection H as -> <-.
  destruct (own_archived _ _ _ _ _ _ _ _ _ J Ft Nd B1 B2 Hc Cr) as [(Q & S & _)|Q]; auto.
Qed.

(** C140: an executable that has become too large. *)
Lemma wse_overwrites cfuel fuel argv0 exe r out : lenN exe <= max_exe ndebug -> max_exe ndebug <= lenN (icon exe) -> (forall k n, wr k n = n) ->
  main cfuel fuel argv0 (Some exe) = Ok (SeBuild r out) -> r <> CRet 1 ->
  exists cevs, out = takeN (max_exe ndebug) (icon exe) ++ cev_bytes cevs ++ dropN (max_exe ndebug + lenN (cev_bytes cevs)) (icon exe).
Proof.
  intros Hx Hi Hw H Hr. destruct (wse_main_wrote _ _ _ _ _ _ Hx Hw H Hr) as (n & cevs & ws & wx & led & Hc & ->).
  exists cevs. now apply se_writes_over.
Qed.
Lemma wse_main_builds cfuel fuel argv0 exe r cevs ws wx led w n : lenN exe <= max_exe ndebug -> (forall k n, wr k n = n) ->
  opn 0 = true -> opn 1 = true -> se_copy rd wr cfuel 0 0 exe (WF [] 0) = Ok (w, n) ->
  wcompress_dir z e (se_filter (fst (se_name_dir argv0))) jk xjk hjunk al (locked (snd (se_name_dir argv0))) fuel Z_BEST_COMPRESSION 1 false []
      (ls (snd (se_name_dir argv0))) (true, true) = Ok (r, cevs, ws, wx, led) ->
  main cfuel fuel argv0 (Some exe) = Ok (SeBuild r (wf_data (se_writes wr n (map ce_data cevs) (WF (icon exe) (max_exe ndebug))))).
Proof.
  intros Hx Hw H0 H1 Ec Hc. unfold wse_main.
  destruct (max_exe ndebug <? lenN exe) eqn:E; [lia|].
  destruct (se_name_dir argv0) as [name dir]. cbn [fst snd] in Hc. rewrite H0, Ec. cbn [negb obind].
  apply se_copy_whole in Ec; [|exact Hw|reflexivity]. cbn [wf_data app] in Ec. rewrite Ec, H1, Hc. reflexivity.
Qed.
End Build.
