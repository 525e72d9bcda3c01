(** ReadFacts.v: archiving a directory of which the process cannot read everything. *)
From Coq Require Import Lia.
From Verif Require Import Base Format Zlib LLCompress CompressFacts Compress Parser ArchiveSpec ArchiveFacts ArchiveDecode ArchiveEntry ArchiveProps
  FS FSFacts Decompress DecompressProofs MidProofs MidFacts HL HLSpec HLFacts HLDrive HLProps HLSafe HLMore LinkFacts LinkMore CutSpec CopySpec CopyFacts PathWalk PathFacts.

(** ** Specification *)

(** [p] lies in a directory below [d], or in [d], that the process cannot list. *)
Definition hidden (o : os) (d p : path) : Prop :=
  exists r1 c r2 m, p = d ++ r1 ++ c :: r2 /\ o_fs o (d ++ r1) = Some (IDir m) /\ can_r (o_priv o) m = false.
(** [fs']: the file system without what is hidden. *)
Definition shown (o : os) (d : path) (fs' : fstree) : Prop :=
  (forall p, hidden o d p -> fs' p = None) /\ (forall p, ~ hidden o d p -> fs' p = o_fs o p).
(** The directories that the process can list it can also search. *)
Definition searchable (o : os) (d : path) : Prop :=
  forall r m, o_fs o (d ++ r) = Some (IDir m) -> can_r (o_priv o) m = true -> can_x (o_priv o) m = true.
(** Every file that is not hidden can be read. *)
Definition files_readable (o : os) (d : path) : Prop :=
  forall r m x, ~ hidden o d (d ++ r) -> o_fs o (d ++ r) = Some (IFile m x) -> can_r (o_priv o) m = true.
(** As [archivable], with [searchable] instead of [readable]. *)
Definition archivable_part (o : os) (ls : path -> list bytes) (src : bytes) (d : path) (n : nat) : Prop :=
  sane (o_fs o) /\ reports (o_fs o) ls /\ modest (o_fs o) /\ dir_at o src d /\ searchable o d /\ uncut o src d /\ deep (o_fs o) n d.

(** ** The tree that the process sees *)
Section Seen.
Context (o : os) (ls : path -> list bytes).
Definition node_at (p : path) : snode :=
  match o_fs o p with
  | Some (IFile m x) => if can_r (o_priv o) m then SFile true true (S_IFREG + m) (lenN x) x false else SFile false false 0 0 [] false
  | _ => leaf_at (o_fs o) p
  end.
Definition sub (f : path -> list (bytes * snode)) (p : path) : snode :=
  match o_fs o p with Some (IDir m) => SDir (S_IFDIR + m) (if can_r (o_priv o) m then f p else []) | _ => node_at p end.
Fixpoint seen (n : nat) (d : path) : list (bytes * snode) :=
  match n with
  | O => map (fun c => (c, SOther)) (ls d)
  | S k => map (fun c => (c, sub (seen k) (d ++ [c]))) (ls d)
  end.
(** The root: nothing is seen of a directory that cannot be listed. *)
Definition seen_root (n : nat) (d : path) : list (bytes * snode) :=
  match o_fs o d with Some (IDir m) => if can_r (o_priv o) m then seen n d else [] | _ => [] end.
End Seen.

Lemma closed_dir o s t m : dir_at o s t -> lenN s < PATH_MAX -> o_fs o t = Some (IDir m) -> can_r (o_priv o) m = false -> open_dir o s = None.
Proof.
  intros [H1 [_ H2]] L E R. unfold open_dir, namei.
  assert (Ne : nonempty s = true) by (destruct s; [contradiction|reflexivity]). rewrite Ne. cbn [negb].
  replace (PATH_MAX <=? lenN s) with false by (symmetry; apply N.leb_gt; exact L).
  assert (D : dir_of (walk_path (o_fs o) (o_priv o) true MAX_LINKS (start s (o_cwd o)) (comps s)) = Some t).
  { destruct H2 as [->|(d' & c' & m' & -> & ->)]; reflexivity. }
  rewrite D, E, R. reflexivity.
Qed.
Lemma closed_entry o s d c m : dir_at o s d -> plain c -> lenN s + 1 + lenN c < PATH_MAX -> o_fs o (d ++ [c]) = Some (IDir m) ->
  can_r (o_priv o) m = false -> open_dir o (s ++ x2f :: c) = None.
Proof.
  intros Da Pc L E R. unfold open_dir. rewrite (namei_entry true o _ d c Da Pc L) by congruence. rewrite E. cbn [dir_of]. now rewrite E, R.
Qed.

Section Walk.
Context {F : Type} (e : endian) (filt : F -> bytes -> bytes -> skind -> Z * F) (jk : N -> bytes) (hj : N -> N -> bytes)
  (o : os) (ls : path -> list bytes) (dsize : path -> N) (sj : N -> N).
Hypothesis Sn : sane (o_fs o).
Hypothesis Rp : reports (o_fs o) ls.
Context (root : bytes).
Notation filt' := (fun f dir n k => filt f (below root dir) n k).

Lemma node_seen rec dir d c s nd : dir_at o (below root dir) d -> uncut o (below root dir) d ->
  In c (ls d) -> (exists m, o_fs o d = Some (IDir m)) ->
  match o_fs o (d ++ [c]) with
  | Some (IDir m) => exists es, nd = SDir (S_IFDIR + m) es /\
      (forall s', rec (dir ++ [c]) (below root (dir ++ [c])) s' = Ok (walk e filt' jk hj (dir ++ [c]) es s'))
  | _ => nd = node_at o (d ++ [c])
  end ->
  p_node e filt jk hj o dsize sj rec dir (below root dir) c (kind_at o d c) s = Ok (walk_node e filt' jk hj dir c nd s).
Proof.
  intros Da [Us Uc] Hin [md Ed] Hn. unfold node_at in Hn.
  destruct (o_fs o (d ++ [c])) as [i|] eqn:Ec.
  2:{ destruct (Rp _ _ Ed) as (_ & _ & On). destruct (On _ Hin) as [Q|D]; [congruence|].
      subst nd. unfold kind_at, leaf_at. rewrite Ec.
      assert (Dt : is_dot c = true) by (destruct D as [-> | ->]; reflexivity). rewrite Dt. cbn [p_node walk_node]. rewrite Dt.
      destruct (_ || _); reflexivity. }
  destruct (proj1 Sn _ _ _ Ec) as [Pc _].
  assert (L : lenN (below root dir) + 1 + lenN c <= 4094).
  { specialize (Uc [] c). cbn [app] in Uc. rewrite Ec in Uc. specialize (Uc ltac:(discriminate)).
    change [c] with ([] ++ [c]) in Uc. rewrite below_snoc, below_nil, lenN_app, lenN_cons in Uc. lia. }
  assert (Lp : lenN (below root dir) + 1 + lenN c < PATH_MAX) by (unfold PATH_MAX; lia).
  assert (Es : entry_string (below root dir) c = below root dir ++ x2f :: c) by now apply entry_whole.
  unfold kind_at. rewrite Ec. destruct i as [m|m x|x].
  - destruct Hn as (es & -> & Hr). cbn [p_node walk_node kind_of].
    assert (Dt : is_dot c = false). { destruct (is_dot c) eqn:Q; [|reflexivity]. exfalso. apply (plain_dot _ Pc).
      unfold is_dot in Q. apply Bool.orb_true_iff in Q. destruct Q as [Q|Q]; apply bytes_eqb_spec in Q; [left|right]; exact Q. }
    rewrite Dt. destruct (w_dead s || w_err s || w_exit s); [reflexivity|].
    destruct (filt (w_f s) (below root dir) c KDir) as [a f].
    destruct (a =? DIRITER_EXIT_ALL)%Z; [reflexivity|]. destruct (a =? 0)%Z; [|reflexivity]. cbn [negb].
    assert (St : stat_mode o (entry_string (below root dir) c) = Some (S_IFDIR + m)).
    { rewrite Es. unfold stat_mode. rewrite (namei_entry true o _ d c Da Pc Lp) by congruence. now rewrite Ec. }
    rewrite St, Es. rewrite <- below_snoc. rewrite Hr. cbn [obind]. unfold walk.
    destruct (iter_with _ es (w_next (w_setf f s))) as [s1 evs]. reflexivity.
  - subst nd. unfold p_node. f_equal.
    assert (Fa : file_at o dsize (entry_string (below root dir) c) =
      if can_r (o_priv o) m then SFile true true (S_IFREG + m) (lenN x) x false else SFile false false 0 0 [] false).
    { rewrite Es. unfold file_at. rewrite (namei_entry true o _ d c Da Pc Lp) by congruence. rewrite Ec.
      rewrite (slash_end_entry _ _ Pc). now destruct (can_r (o_priv o) m). }
    rewrite Fa. destruct (can_r (o_priv o) m); (apply walk_node_ext; [discriminate|reflexivity]).
  - subst nd. unfold p_node. f_equal. unfold leaf_at. rewrite Ec.
    assert (Fa : link_at o (entry_string (below root dir) c) = SLink (S_IFLNK + 511) (lenN x) (Some x)).
    { rewrite Es. unfold link_at. rewrite (namei_link o _ d c Da Pc Lp). now rewrite Ec. }
    rewrite Fa. apply walk_node_ext; [discriminate|reflexivity].
Qed.

Lemma searchable_step d c : searchable o d -> searchable o (d ++ [c]).
Proof. intros H r m E. specialize (H ([c] ++ r) m). rewrite app_assoc in H. now apply H. Qed.

Lemma p_walk_seen : forall n fuel dir d s, (n < fuel)%nat -> dir_at o (below root dir) d -> (exists m, o_fs o d = Some (IDir m) /\ can_r (o_priv o) m = true) ->
  searchable o d -> uncut o (below root dir) d -> deep (o_fs o) n d ->
  p_walk e filt jk hj o ls dsize sj fuel dir (below root dir) s = Ok (walk e filt' jk hj dir (seen o ls n d) s).
Proof.
  induction n as [|n IH]; intros fuel dir d s Hf Da (m & Em & Rm) Sd Uc Dp; (destruct fuel as [|fuel]; [lia|]); cbn [p_walk];
    rewrite (open_dir_at o _ d m Da (proj1 Uc) Em Rm); cbn [seen].
  - apply (entries_ok e filt jk hj o ls dsize sj root _ dir d (fun _ => SOther)); [|apply incl_refl]. intros c s' Hin.
    apply node_seen; eauto. unfold node_at. destruct (o_fs o (d ++ [c])) as [i|] eqn:Ec.
    { assert (Q : o_fs o (d ++ [c]) <> None) by congruence. specialize (Dp _ Q). cbn in Dp. lia. }
    unfold leaf_at. now rewrite Ec.
  - apply (entries_ok e filt jk hj o ls dsize sj root _ dir d (fun c => sub o (seen o ls n) (d ++ [c]))); [|apply incl_refl]. intros c s' Hin.
    apply node_seen; eauto. unfold sub, node_at. destruct (o_fs o (d ++ [c])) as [[m'|m' x|x]|] eqn:Ec; try reflexivity.
    destruct (proj1 Sn _ _ _ Ec) as [Pc _]. eexists. split; [reflexivity|]. intro s2.
    assert (Uc' : uncut o (below root (dir ++ [c])) (d ++ [c])) by (apply (uncut_step filt jk hj o dsize sj root); [exact Uc|congruence]).
    destruct (can_r (o_priv o) m') eqn:Rc.
    + apply IH; [lia| |eauto|now apply searchable_step|exact Uc'|now apply deep_step].
      rewrite below_snoc. apply (dir_at_entry _ _ _ _ _ Pc Da Ec). exact (Sd [c] m' Ec Rc).
    + destruct fuel as [|fuel]; [lia|]. cbn [p_walk]. rewrite below_snoc.
      assert (Lp : lenN (below root dir) + 1 + lenN c < PATH_MAX).
      { destruct Uc' as [U _]. rewrite below_snoc, lenN_app, lenN_cons in U. lia. }
      rewrite (closed_entry _ _ _ _ _ Da Pc Lp Ec Rc). reflexivity.
Qed.

Lemma p_walk_root n fuel d s : (n < fuel)%nat -> dir_at o root d -> searchable o d -> uncut o root d -> deep (o_fs o) n d ->
  p_walk e filt jk hj o ls dsize sj fuel [] root s = Ok (walk e filt' jk hj [] (seen_root o ls n d) s).
Proof.
  intros Hf Da Sd Uc Dp. destruct (dir_mode_at _ _ _ Da) as (m & Em & _). unfold seen_root. rewrite Em.
  destruct (can_r (o_priv o) m) eqn:Rm.
  - pose proof (p_walk_seen n fuel [] d s Hf) as W. rewrite below_nil in W. apply W; eauto.
  - destruct fuel as [|fuel]; [lia|]. cbn [p_walk]. rewrite (closed_dir _ _ _ _ Da (proj1 Uc) Em Rm). reflexivity.
Qed.
End Walk.

(** ** The tree of the file system without what is hidden *)
Section Tree.
Context (o : os) (ls : path -> list bytes) (d0 : path) (fs' : fstree).
Hypothesis Sn : sane (o_fs o).
Hypothesis Rp : reports (o_fs o) ls.
Hypothesis Md : modest (o_fs o).
Hypothesis Sh : shown o d0 fs'.

(** The names reported for a directory that can be listed. *)
Definition ls' (p : path) : list bytes :=
  match o_fs o p with Some (IDir m) => if can_r (o_priv o) m then ls p else [] | _ => [] end.

Lemma shown_some p i : fs' p = Some i -> ~ hidden o d0 p /\ o_fs o p = Some i.
Proof.
  intro E. assert (N : ~ hidden o d0 p) by (intro H; rewrite (proj1 Sh _ H) in E; discriminate E). split; [exact N|].
  now rewrite (proj2 Sh _ N) in E.
Qed.
Lemma hidden_snoc p c : hidden o d0 p -> hidden o d0 (p ++ [c]).
Proof. intros (r1 & c1 & r2 & m & -> & E & R). exists r1, c1, (r2 ++ [c]), m. split; [|auto]. now rewrite <- !app_assoc. Qed.
(** [p]: below [d0]. *)
Lemma not_hidden_snoc r c m : ~ hidden o d0 (d0 ++ r) -> o_fs o (d0 ++ r) = Some (IDir m) -> can_r (o_priv o) m = true ->
  ~ hidden o d0 ((d0 ++ r) ++ [c]).
Proof.
  intros N E R (r1 & c1 & r2 & m1 & Q & E1 & R1). rewrite <- app_assoc in Q. apply app_inv_head in Q.
  destruct r2 as [|x r2 _] using rev_ind.
  - apply app_inj_tail in Q. destruct Q as [-> ->]. rewrite E in E1. injection E1 as ->. congruence.
  - rewrite app_comm_cons, app_assoc in Q. apply app_inj_tail in Q. destruct Q as [-> ->]. apply N.
    exists r1, c1, r2, m1. auto.
Qed.
Lemma hidden_closed r c m : o_fs o (d0 ++ r) = Some (IDir m) -> can_r (o_priv o) m = false -> hidden o d0 ((d0 ++ r) ++ [c]).
Proof. intros E R. exists r, c, [], m. split; [now rewrite <- app_assoc|auto]. Qed.
Lemma root_not_hidden : ~ hidden o d0 d0.
Proof.
  intros (r1 & c1 & r2 & m1 & Q & _). rewrite <- (app_nil_r d0) in Q at 1. apply app_inv_head in Q. destruct r1; discriminate Q.
Qed.

Lemma shown_sane : sane fs'.
Proof.
  split.
  - intros p c i E. apply shown_some in E. destruct E as [N E]. destruct (proj1 Sn _ _ _ E) as [P (m & Em)]. split; [exact P|]. exists m.
    rewrite (proj2 Sh); [exact Em|]. intro H. apply N. now apply hidden_snoc.
  - intros p x E. apply shown_some in E. exact (proj2 Sn _ _ (proj2 E)).
Qed.
Lemma shown_modest : modest fs'.
Proof.
  intro p. destruct (fs' p) as [i|] eqn:E; [|exact Logic.I]. apply shown_some in E. destruct E as [_ E]. pose proof (Md p) as M. now rewrite E in M.
Qed.

(** [ls'] reports what is shown below [d0]; elsewhere a directory may have entries that [ls'] leaves out, so the reports are taken there from [ls]. *)
Definition in_root (p : path) : bool := match strip d0 p with Some _ => true | None => false end.
Definition lsd (p : path) : list bytes := if in_root p then ls' p else ls p.
Lemma in_root_ok p : in_root p = true -> exists r, p = d0 ++ r.
Proof.
  unfold in_root. destruct (strip d0 p) as [r|] eqn:E; [|discriminate]. intros _. exists r.
  assert (G : forall d p, strip d p = Some r -> p = d ++ r); [|now apply G]. clear. induction d as [|c d IH]; intros p E; cbn [strip] in E; [now injection E as ->|].
  destruct p as [|c' p]; [discriminate E|]. destruct (bytes_eqb c c') eqn:Q; [|discriminate E].
  apply bytes_eqb_spec in Q. subst. cbn [app]. f_equal. now apply IH.
Qed.
Lemma strip_self r : forall d : path, strip d (d ++ r) = Some r.
Proof. induction d as [|c d IH]; [reflexivity|]. cbn [app strip]. assert (bytes_eqb c c = true) as -> by now apply bytes_eqb_spec. exact IH. Qed.
Lemma in_root_app r : in_root (d0 ++ r) = true.
Proof. unfold in_root. now rewrite strip_self. Qed.

Lemma shown_reports : reports fs' lsd.
Proof.
  intros p m E. apply shown_some in E. destruct E as [N E]. destruct (Rp _ _ E) as (R1 & R2 & R3). unfold lsd.
  destruct (in_root p) eqn:Ir.
  - apply in_root_ok in Ir. destruct Ir as (r & ->). unfold ls'. rewrite E. destruct (can_r (o_priv o) m) eqn:R.
    + split; [exact R1|]. split.
      * intros c Hc. apply R2. destruct (fs' ((d0 ++ r) ++ [c])) as [i|] eqn:Q; [|congruence]. apply shown_some in Q. destruct Q as [_ Q]. congruence.
      * intros c Hc. destruct (R3 _ Hc) as [Q|Q]; [left|now right]. rewrite (proj2 Sh); [exact Q|]. now apply (not_hidden_snoc r c m).
    + split; [constructor|]. split; [|intros c []]. intros c Hc. exfalso. apply Hc. apply (proj1 Sh). now apply (hidden_closed r c m).
  - split; [exact R1|]. split.
    + intros c Hc. apply R2. destruct (fs' (p ++ [c])) as [i|] eqn:Q; [|congruence]. apply shown_some in Q. destruct Q as [_ Q]. congruence.
    + intros c Hc. destruct (R3 _ Hc) as [Q|Q]; [left|now right]. rewrite (proj2 Sh); [exact Q|].
      intros (r1 & c1 & r2 & m1 & Q1 & E1 & C1). destruct r2 as [|x r2 _] using rev_ind.
      * rewrite app_assoc in Q1. apply app_inj_tail in Q1. destruct Q1 as [-> _]. rewrite in_root_app in Ir. discriminate Ir.
      * rewrite app_comm_cons, !app_assoc in Q1. apply app_inj_tail in Q1. destruct Q1 as [-> _]. rewrite <- app_assoc, in_root_app in Ir. discriminate Ir.
Qed.
Lemma shown_deep n : deep (o_fs o) n d0 -> deep fs' n d0.
Proof. intros H r E. apply H. destruct (fs' (d0 ++ r)) as [i|] eqn:Q; [|congruence]. apply shown_some in Q. destruct Q as [_ Q]. congruence. Qed.

(** If every file that is not hidden can be read, the process sees the tree that is shown. *)
Lemma seen_tree : files_readable o d0 -> forall n r m, ~ hidden o d0 (d0 ++ r) -> o_fs o (d0 ++ r) = Some (IDir m) -> can_r (o_priv o) m = true ->
  seen o ls n (d0 ++ r) = tree fs' lsd n (d0 ++ r).
Proof.
  intros Fr. induction n as [|n IH]; intros r m N E R; (assert (Hl : lsd (d0 ++ r) = ls (d0 ++ r)) by (unfold lsd; rewrite in_root_app; unfold ls'; now rewrite E, R)); cbn [seen tree]; rewrite Hl; [reflexivity|].
  apply map_ext. intro c. f_equal. pose proof (not_hidden_snoc r c m N E R) as Nc. rewrite (proj2 Sh _ Nc). unfold sub, node_at, leaf_at.
  rewrite (proj2 Sh _ Nc). destruct (o_fs o ((d0 ++ r) ++ [c])) as [[m'|m' x|x]|] eqn:Ec; try reflexivity.
  - f_equal. destruct (can_r (o_priv o) m') eqn:Rc.
    + rewrite <- app_assoc in *. now apply (IH (r ++ [c]) m').
    + rewrite <- app_assoc in *. assert (Hl' : lsd (d0 ++ r ++ [c]) = []) by (unfold lsd; rewrite in_root_app; unfold ls'; now rewrite Ec, Rc). destruct n; cbn [tree]; rewrite Hl'; reflexivity.
  - rewrite <- app_assoc in *. now rewrite (Fr _ _ _ Nc Ec).
Qed.
Lemma seen_root_tree n : files_readable o d0 -> (exists m, o_fs o d0 = Some (IDir m)) -> seen_root o ls n d0 = tree fs' lsd n d0.
Proof.
  intros Fr (m & E). unfold seen_root. rewrite E. destruct (can_r (o_priv o) m) eqn:R.
  - pose proof (seen_tree Fr n [] m) as H. rewrite app_nil_r in H. apply H; auto. exact root_not_hidden.
  - pose proof (in_root_app []) as Ir. rewrite app_nil_r in Ir. assert (Hl : lsd d0 = []) by (unfold lsd; rewrite Ir; unfold ls'; now rewrite E, R). destruct n; cbn [tree]; rewrite Hl; reflexivity.
Qed.

(** A file that cannot be read is not sound. *)
Lemma seen_sound n : deep (o_fs o) n d0 -> (exists m, o_fs o d0 = Some (IDir m)) ->
  Forall (fun x => sound (fst x) (snd x)) (seen_root o ls n d0) -> files_readable o d0.
Proof.
  intros Dp (m0 & E0). unfold seen_root. rewrite E0. destruct (can_r (o_priv o) m0) eqn:R0.
  2:{ intros _ r m x N E. destruct r as [|c r]; [rewrite app_nil_r in E; congruence|]. exfalso. apply N. exists [], c, r, m0. rewrite app_nil_r. auto. }
  assert (G : forall n d r m x, deep (o_fs o) n (d0 ++ d) -> Forall (fun y => sound (fst y) (snd y)) (seen o ls n (d0 ++ d)) ->
    ~ hidden o d0 (d0 ++ d ++ r) -> r <> [] -> o_fs o (d0 ++ d ++ r) = Some (IFile m x) -> (exists md, o_fs o (d0 ++ d) = Some (IDir md)) -> can_r (o_priv o) m = true).
  { clear - Sn Rp. induction n as [|n IH]; intros d r m x Dp Fs N Nr E (md & Ed).
    - rewrite app_assoc in E. assert (Q : o_fs o ((d0 ++ d) ++ r) <> None) by congruence. apply Dp in Q. destruct r; [contradiction|cbn in Q; lia].
    - destruct r as [|c r]; [contradiction|]. cbn [seen] in Fs. rewrite Forall_map, Forall_forall in Fs. cbn [fst snd] in Fs.
      assert (Ex : o_fs o ((d0 ++ d) ++ [c]) <> None).
      { clear - E Sn. rewrite app_assoc in E. change (c :: r) with ([c] ++ r) in E. rewrite app_assoc in E. remember ((d0 ++ d) ++ [c]) as p eqn:Hp. clear Hp.
        revert m x E. assert (G : forall i, o_fs o (p ++ r) = Some i -> o_fs o p <> None).
        { induction r as [|y r IHr] using rev_ind; intros i E; [rewrite app_nil_r in E; congruence|].
          rewrite app_assoc in E. destruct (proj1 Sn _ _ _ E) as [_ (mm & Em)]. eapply IHr; eauto. }
        intros m x E. eapply G; eauto. }
      destruct (Rp _ _ Ed) as (_ & R2 & _). specialize (Fs c (R2 _ Ex)).
      assert (Pc : ~ dotted c) by (destruct (o_fs o ((d0 ++ d) ++ [c])) as [i|] eqn:Q; [|congruence]; exact (fun D => plain_dot _ (proj1 (proj1 Sn _ _ _ Q)) D)).
      unfold sub, node_at, leaf_at in Fs.
      destruct (o_fs o ((d0 ++ d) ++ [c])) as [[m1|m1 x1|x1]|] eqn:Q; [| | |congruence].
      + assert (Nr' : r <> []). { intros ->. rewrite app_assoc in E. rewrite Q in E. discriminate E. }
        destruct (can_r (o_priv o) m1) eqn:R1.
        * rewrite <- !app_assoc in *. apply (IH (d ++ [c]) r m x).
          { replace (d0 ++ d ++ [c]) with ((d0 ++ d) ++ [c]) by (now rewrite <- app_assoc). apply (deep_step _ ls). exact Dp. } 
          { inversion Fs; subst; [contradiction|assumption]. }
          { rewrite <- app_assoc. exact N. }
          { exact Nr'. }
          { rewrite <- app_assoc. exact E. }
          { exists m1. exact Q. }
        * exfalso. apply N. destruct r as [|c' r']; [contradiction|]. exists (d ++ [c]), c', r', m1. rewrite <- !app_assoc in *. auto.
      + destruct r as [|c' r'].
        * rewrite app_assoc in E. rewrite Q in E. injection E as -> ->. destruct (can_r (o_priv o) m) eqn:R1; [reflexivity|]. inversion Fs; subst; contradiction.
        * exfalso. rewrite app_assoc in E. change (c :: c' :: r') with ([c] ++ c' :: r') in E. rewrite app_assoc in E.
          assert (G : forall r i, o_fs o (((d0 ++ d) ++ [c]) ++ r) = Some i -> r <> [] -> exists mm, o_fs o ((d0 ++ d) ++ [c]) = Some (IDir mm)).
          { clear - Sn. induction r as [|y r IHr] using rev_ind; intros i E Nr; [contradiction|]. rewrite app_assoc in E.
            destruct (proj1 Sn _ _ _ E) as [_ (mm & Em)]. destruct r as [|y' r]; [rewrite app_nil_r in Em; eauto|]. eapply IHr; eauto. discriminate. }
          destruct (G _ _ E ltac:(discriminate)) as (mm & Q'). congruence.
      + exfalso. rewrite app_assoc in E. change (c :: r) with ([c] ++ r) in E. rewrite app_assoc in E.
        destruct r as [|c' r']; [rewrite app_nil_r in E; congruence|].
        assert (G : forall r i, o_fs o (((d0 ++ d) ++ [c]) ++ r) = Some i -> r <> [] -> exists mm, o_fs o ((d0 ++ d) ++ [c]) = Some (IDir mm)).
        { clear - Sn. induction r as [|y r IHr] using rev_ind; intros i E Nr; [contradiction|]. rewrite app_assoc in E.
          destruct (proj1 Sn _ _ _ E) as [_ (mm & Em)]. destruct r as [|y' r]; [rewrite app_nil_r in Em; eauto|]. eapply IHr; eauto. discriminate. }
        destruct (G _ _ E ltac:(discriminate)) as (mm & Q'). congruence. }
  intros Fs r m x N E. destruct r as [|c r]; [rewrite app_nil_r in E; congruence|].
  apply (G n [] (c :: r) m x); rewrite ?app_nil_r; cbn [app]; eauto. discriminate.
Qed.

Lemma seen_fit : forall n d, Forall (fun x => fits (fst x) (snd x)) (seen o ls n d).
Proof.
  induction n as [|n IH]; intro d; cbn [seen]; apply Forall_map, Forall_forall; intros c _; cbn [fst snd]; [constructor|].
  pose proof (Md (d ++ [c])) as M. unfold sub, node_at, leaf_at. destruct (o_fs o (d ++ [c])) as [[m|m x|x]|] eqn:E; [| | |constructor];
    destruct (proj1 Sn _ _ _ E) as [P _]; apply plain_short in P.
  - constructor; [exact P| |]; [unfold S_IFDIR, two32; lia|]. destruct (can_r (o_priv o) m); [apply IH|constructor].
  - destruct (can_r (o_priv o) m); constructor; try exact P; unfold S_IFREG, two32, two64 in *; lia.
  - constructor; [exact P|reflexivity|]. destruct (proj2 Sn _ _ E) as (_ & _ & L). unfold PATH_MAX, two32 in *. lia.
Qed.
Lemma seen_links : forall n d, Forall (fun x => links_hold (snd x)) (seen o ls n d).
Proof.
  induction n as [|n IH]; intro d; cbn [seen]; apply Forall_map, Forall_forall; intros c _; cbn [fst snd]; [constructor|].
  unfold sub, node_at, leaf_at. destruct (o_fs o (d ++ [c])) as [[m|m x|x]|]; [| | |constructor].
  - constructor. destruct (can_r (o_priv o) m); [apply IH|constructor].
  - destruct (can_r (o_priv o) m); constructor.
  - constructor. lia.
Qed.
End Tree.

(** ** Whole archives *)
Section Whole.
Context (z : zlib) (C : zlib_contract z) {F : Type} (e : endian) (filt : F -> bytes -> bytes -> skind -> Z * F)
  (jk : N -> bytes) (hj : N -> N -> bytes) (xjk : N -> N -> bytes) (hjunk : bytes) (al : N -> bool)
  (o : os) (ls : path -> list bytes) (dsize : path -> N) (sj : N -> N).

Lemma part_is_dir fuel pfuel level clbk nested xs src f0 d n : archivable_part o ls src d n -> (n < pfuel)%nat ->
  compress_path z e filt jk hj xjk hjunk al o ls dsize sj fuel pfuel level clbk nested xs src f0 =
  compress_dir z e (fun f dir c k => filt f (below src dir) c k) jk hj xjk hjunk al fuel level clbk nested xs
    (Some (seen_root o ls n d)) f0.
Proof.
  intros (Sn & Rp & Md & Da & Sd & Uc & Dp) Hf. unfold compress_path, compress_dir.
  destruct (negb (al 1)); [reflexivity|]. destruct (negb (al 2)); [reflexivity|].
  destruct (create_csession _ _ _ _ _ _ _ _ _ _) as [[so ev0]| |]; try reflexivity. cbn [obind]. destruct so as [cs|]; [|reflexivity].
  rewrite (p_walk_root e filt jk hj o ls dsize sj Sn Rp src n pfuel d _ Hf Da Sd Uc Dp). cbn [obind].
  destruct (walk _ _ _ _ [] _ _) as [s1 wevs]. reflexivity.
Qed.

Lemma part_archived fuel pfuel level clbk src f0 d n r cevs ws wx led fs' :
  junk_ok jk hj xjk hjunk -> accepts_path filt -> archivable_part o ls src d n -> (n < pfuel)%nat -> created z al level -> shown o d fs' ->
  compress_path z e filt jk hj xjk hjunk al o ls dsize sj fuel pfuel level clbk false [] src f0 = Ok (r, cevs, ws, wx, led) ->
  (r = CRet 0%Z \/ r = CRet 2%Z) /\ (r = CRet 0%Z <-> files_readable o d) /\
  (r = CRet 0%Z -> last_not_full cevs -> exists es, lists fs' d es /\ archives_dir z es (cev_bytes cevs)).
Proof.
  intros J Ha Ar Hf Cr Sh H. rewrite (part_is_dir _ _ _ _ _ _ _ _ _ _ Ar Hf) in H.
  destruct Ar as (Sn & Rp & Md & Da & Sd & Uc & Dp). destruct (dir_mode_at _ _ _ Da) as (m & Em & _).
  assert (Ha' : accepts (fun f dir c k => filt f (below src dir) c k)) by (intros f dir c k; apply Ha).
  assert (Ft : tree_fits (Some (seen_root o ls n d))).
  { unfold tree_fits, seen_root. cbn [listing]. rewrite Em. destruct (can_r (o_priv o) m); [now apply seen_fit|constructor]. }
  assert (Lh : Forall (fun x => links_hold (snd x)) (seen_root o ls n d)).
  { unfold seen_root. rewrite Em. destruct (can_r (o_priv o) m); [apply seen_links|constructor]. }
  destruct (failures_reported z C e _ jk hj xjk hjunk al _ _ _ _ _ _ _ _ _ _ _ _ J Ft (Forall_nil _) Cr H) as (S1 & _ & S3).
  specialize (S3 Ha' Lh). cbn [listing] in S1, S3.
  assert (Sr : Forall (fun x => sound (fst x) (snd x)) (seen_root o ls n d) -> files_readable o d) by (apply seen_sound; eauto).
  assert (Tr : files_readable o d -> seen_root o ls n d = tree fs' (lsd o ls d) n d) by (intro Fr; apply seen_root_tree; eauto).
  assert (Li : lists fs' d (tree fs' (lsd o ls d) n d)).
  { exists (S_IFDIR + m). apply tree_sees; [now apply (shown_sane o d fs')|now apply shown_reports| |now apply (shown_deep o d fs')].
    rewrite (proj2 Sh); [exact Em|apply root_not_hidden]. }
  assert (Zr : files_readable o d -> r = CRet 0%Z).
  { intro Fr. rewrite (Tr Fr) in H, Ft. eapply (quiet_status z e jk hj xjk hjunk al C); try eassumption. exact (lists_quiet _ _ _ Li). }
  split; [destruct S3 as [[-> _]| ->]; auto|]. split.
  - split; [|exact Zr]. intro R. apply Sr. destruct S3 as [[_ S]|S]; [exact S|congruence].
  - intros R L. assert (Fr : files_readable o d) by (apply Sr; destruct S3 as [[_ S]|S]; [exact S|congruence]).
    exists (tree fs' (lsd o ls d) n d). split; [exact Li|]. rewrite (Tr Fr) in H, Ft. subst r.
    exists F, (fun f dir c k => filt f (below src dir) c k), e, jk, hj, xjk, hjunk, al, fuel, level, clbk, f0, cevs, ws, wx, led.
    split; [exact J|]. split; [exact Ft|]. split; [exact Ha'|]. split; [exact H|]. split; [exact Cr|]. split; [exact L|reflexivity].
Qed.
End Whole.

(** ** An archive that cannot be opened *)
Lemma no_archive T hal stk z e alloc archive fuel dfuel al obuf hjunk pjunk o :
  exec (extract_file T hal stk z e alloc archive fuel dfuel al obuf hjunk pjunk None) o = Ok ((ContentNone, None), o) /\
  (forall d rderr, extract_file T hal stk z e alloc archive fuel dfuel al obuf hjunk pjunk (Some (d, rderr)) =
    extract T hal stk z e alloc archive fuel dfuel al obuf hjunk pjunk d rderr).
Proof. split; reflexivity. Qed.
