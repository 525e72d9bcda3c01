(** PathFacts.v: the traversal by path strings sees the tree of the file system, if the strings are not cut. *)
From Coq Require Import Lia.
From Verif Require Import Base Format Zlib LLCompress CompressFacts Compress Parser ArchiveSpec ArchiveFacts ArchiveDecode ArchiveEntry ArchiveProps
  FS FSFacts Decompress DecompressProofs MidProofs MidFacts HL HLSpec HLFacts HLDrive HLProps HLSafe HLMore LinkFacts LinkMore CutSpec CopySpec CopyFacts PathWalk.

(** ** Strings and resolution *)

Lemma walk_snoc_nofollow fs priv c : plain c -> forall links d cs t, leads fs priv links d cs t ->
  walk_path fs priv false links d (cs ++ [c]) = WAt t c (fs (t ++ [c])).
Proof.
  intros Pc. destruct Pc as (P1 & P2 & P3 & P4 & P5 & P6).
  assert (Last : forall links t, (exists m, fs t = Some (IDir m) /\ can_x priv m = true) ->
    walk_path fs priv false links t [c] = WAt t c (fs (t ++ [c]))).
  { intros links t (m & Em & Xm). rewrite walk_eq, Em, Xm. cbn [negb].
    rewrite (bytes_eqb_neq _ _ P4), (bytes_eqb_neq _ _ P5).
    replace (NAME_MAX <? lenN c) with false by (symmetry; apply N.ltb_ge; exact P6).
    destruct (fs (t ++ [c])) as [[m'|m' x|x]|]; reflexivity. }
  induction links as [links IHl] using (well_founded_induction lt_wf).
  intros d cs. revert d. induction cs as [|c1 r IH]; intros d t (Ht & Hw).
  - destruct Hw as [Hw|(d' & c' & m & Hw & _)]; rewrite walk_eq in Hw; [|discriminate]. injection Hw as <-. now apply Last.
  - cbn [app]. rewrite walk_eq. rewrite walk_eq in Hw.
    destruct (fs d) as [[m|m x|x]|]; try (destruct Hw as [Hw|(d' & c' & m' & Hw & _)]; discriminate).
    destruct (negb (can_x priv m)); [destruct Hw as [Hw|(d' & c' & m' & Hw & _)]; discriminate|].
    destruct (bytes_eqb c1 [x2e]); [apply IH; split; assumption|].
    destruct (bytes_eqb c1 [x2e; x2e]); [apply IH; split; assumption|].
    destruct (NAME_MAX <? lenN c1); [destruct Hw as [Hw|(d' & c' & m' & Hw & _)]; discriminate|].
    destruct (fs (d ++ [c1])) as [[m1|m1 x1|x1]|].
    + destruct r as [|c2 r].
      * destruct Hw as [Hw|(d' & c' & m' & Hw & ->)]; [discriminate|]. injection Hw as <- <- <-. cbn [app]. apply Last; assumption.
      * cbn [app]. apply IH. split; assumption.
    + destruct r; destruct Hw as [Hw|(d' & c' & m' & Hw & _)]; discriminate.
    + assert (E : match r ++ [c] with [] => WAt d c1 (Some (ILink x1)) | _ =>
        match links with O => WErr ELOOP | S l => if nonempty x1 then walk_path fs priv false l (start x1 d) (comps x1 ++ r ++ [c]) else WErr ENOENT end end =
        match links with O => WErr ELOOP | S l => if nonempty x1 then walk_path fs priv false l (start x1 d) (comps x1 ++ r ++ [c]) else WErr ENOENT end)
        by (destruct r; reflexivity).
      rewrite E. clear E.
      assert (Hw' : match links with O => WErr ELOOP | S l => if nonempty x1 then walk_path fs priv true l (start x1 d) (comps x1 ++ r) else WErr ENOENT end = WDir t \/
        exists d' c' m', match links with O => WErr ELOOP | S l => if nonempty x1 then walk_path fs priv true l (start x1 d) (comps x1 ++ r) else WErr ENOENT end = WAt d' c' (Some (IDir m')) /\ t = d' ++ [c'])
        by (destruct r; exact Hw). clear Hw.
      destruct links as [|l]; [destruct Hw' as [Hw|(d' & c' & m' & Hw & _)]; discriminate|].
      destruct (nonempty x1); [|destruct Hw' as [Hw|(d' & c' & m' & Hw & _)]; discriminate].
      rewrite app_assoc. apply IHl; [lia|]. split; assumption.
    + destruct r; destruct Hw as [Hw|(d' & c' & m' & Hw & _)]; discriminate.
Qed.

Lemma namei_link o s t c : dir_at o s t -> plain c -> lenN s + 1 + lenN c < PATH_MAX ->
  namei false o (s ++ x2f :: c) = WAt t c (o_fs o (t ++ [c])).
Proof.
  intros [H1 H2] Pc L. unfold namei.
  assert (Ne : nonempty (s ++ x2f :: c) = true) by (destruct s; [contradiction|reflexivity]).
  rewrite Ne. cbn [negb]. replace (PATH_MAX <=? lenN (s ++ x2f :: c)) with false
    by (symmetry; apply N.leb_gt; rewrite lenN_app, lenN_cons; lia).
  rewrite comps_app, (comps_plain c Pc). unfold start. rewrite absolute_app by exact H1.
  now apply walk_snoc_nofollow.
Qed.

Lemma open_dir_at o s t m : dir_at o s t -> lenN s < PATH_MAX -> o_fs o t = Some (IDir m) -> can_r (o_priv o) m = true -> open_dir o s = Some t.
Proof.
  intros [H1 [_ H2]] L E R. unfold open_dir, namei.
  assert (Ne : nonempty s = true) by (destruct s; [contradiction|reflexivity]). rewrite Ne. cbn [negb].
  replace (PATH_MAX <=? lenN s) with false by (symmetry; apply N.leb_gt; exact L).
  assert (D : dir_of (walk_path (o_fs o) (o_priv o) true MAX_LINKS (start s (o_cwd o)) (comps s)) = Some t).
  { destruct H2 as [->|(d' & c' & m' & -> & ->)]; reflexivity. }
  rewrite D, E, R. reflexivity.
Qed.

Lemma entry_whole s c : lenN s + 1 + lenN c <= 4094 -> entry_string s c = s ++ x2f :: c.
Proof. intro H. unfold entry_string. apply takeN_all. rewrite lenN_app, lenN_cons. unfold MAX_PATH_MIN1. lia. Qed.

(** ** The tree below a directory, in the order of the iterator *)

Section Tree.
Context (fs : fstree) (ls : path -> list bytes).
Definition leaf_at (p : path) : snode :=
  match fs p with
  | Some (IFile m x) => SFile true true (S_IFREG + m) (lenN x) x false
  | Some (ILink x) => SLink (S_IFLNK + 511) (lenN x) (Some x)
  | _ => SOther
  end.
Fixpoint tree (n : nat) (d : path) : list (bytes * snode) :=
  match n with
  | O => map (fun c => (c, SOther)) (ls d)
  | S k => map (fun c => (c, match fs (d ++ [c]) with Some (IDir m) => SDir (S_IFDIR + m) (tree k (d ++ [c])) | _ => leaf_at (d ++ [c]) end)) (ls d)
  end.

(** The iterator reports every entry once, and nothing else but perhaps "." and "..". *)
Definition reports : Prop := forall p m, fs p = Some (IDir m) ->
  NoDup (ls p) /\ (forall c, fs (p ++ [c]) <> None -> In c (ls p)) /\ (forall c, In c (ls p) -> fs (p ++ [c]) <> None \/ dotted c).
(** At most [n] levels below [d]. *)
Definition deep (n : nat) (d : path) : Prop := forall r, fs (d ++ r) <> None -> (length r <= n)%nat.

Lemma deep_step n d c : deep (S n) d -> deep n (d ++ [c]).
Proof. intros H r E. rewrite <- app_assoc in E. specialize (H _ E). rewrite app_length in H. cbn in H. lia. Qed.

Lemma tree_names n d : map fst (tree n d) = ls d.
Proof. destruct n; cbn [tree]; rewrite map_map; cbn [fst]; apply map_id. Qed.

Hypothesis Sn : sane fs.
Hypothesis Rp : reports.

Lemma dot_none d c : dotted c -> fs (d ++ [c]) = None.
Proof.
  intros D. destruct (fs (d ++ [c])) as [i|] eqn:E; [|reflexivity]. destruct (proj1 Sn _ _ _ E) as [P _].
  destruct (plain_dot _ P D).
Qed.

Lemma tree_sees : forall n d m, fs d = Some (IDir m) -> deep n d -> sees fs d (SDir (S_IFDIR + m) (tree n d)).
Proof.
  induction n as [|n IH]; intros d m E Dp; destruct (Rp _ _ E) as (Nd & Al & On);
    (apply se_dir; [exact E|rewrite tree_names; exact Nd| | |intros c Hc; rewrite tree_names; auto]).
  - intros c nd Hin _. cbn [tree] in Hin. apply in_map_iff in Hin. destruct Hin as (c' & Q & _). injection Q as <- <-. constructor.
  - intros c nd Hin Nd'. cbn [tree] in Hin. apply in_map_iff in Hin. destruct Hin as (c' & Q & Hin). injection Q as <- <-.
    destruct (On _ Hin) as [Q|Q]; [|contradiction]. specialize (Dp _ Q). cbn in Dp. lia.
  - intros c nd Hin D. cbn [tree] in Hin. apply in_map_iff in Hin. destruct Hin as (c' & Q & _). injection Q as <- <-.
    unfold leaf_at. rewrite (dot_none d c' D). constructor.
  - intros c nd Hin Nd'. cbn [tree] in Hin. apply in_map_iff in Hin. destruct Hin as (c' & Q & Hin). injection Q as <- <-.
    destruct (On _ Hin) as [Q|Q]; [|contradiction]. unfold leaf_at.
    destruct (fs (d ++ [c'])) as [[m'|m' x|x]|] eqn:E'; [|now constructor|now constructor|congruence].
    apply IH; [exact E'|]. apply deep_step. exact Dp.
Qed.

(** Permissions are twelve bits, sizes fit the fields of the archive. *)
Definition modest : Prop := forall p, match fs p with
  | Some (IDir m) => m < 4096 | Some (IFile m x) => m < 4096 /\ lenN x + 8 < two64 | _ => True end.
Hypothesis Md : modest.

Lemma plain_short c : plain c -> lenN c + 8 < two32.
Proof. intros (_ & _ & _ & _ & _ & H). unfold NAME_MAX, two32 in *. lia. Qed.

Lemma tree_fit : forall n d, Forall (fun x => fits (fst x) (snd x)) (tree n d).
Proof.
  induction n as [|n IH]; intro d; cbn [tree]; apply Forall_map, Forall_forall; intros c _; cbn [fst snd]; [constructor|].
  pose proof (Md (d ++ [c])) as M. unfold leaf_at. destruct (fs (d ++ [c])) as [[m|m x|x]|] eqn:E; [| | |constructor];
    destruct (proj1 Sn _ _ _ E) as [P _]; apply plain_short in P.
  - constructor; [exact P| |apply IH]. unfold S_IFDIR, two32. lia.
  - constructor; [exact P| |]; unfold S_IFREG, two32; lia.
  - constructor; [exact P|reflexivity|]. destruct (proj2 Sn _ _ E) as (_ & _ & L). unfold PATH_MAX, two32 in *. lia.
Qed.
End Tree.

(** The string for the directory [dir] below [root]. *)
Definition below (root : bytes) (dir : list bytes) : bytes := root ++ concat (map (fun c => x2f :: c) dir).
Lemma below_nil root : below root [] = root.
Proof. apply app_nil_r. Qed.
Lemma below_snoc root dir c : below root (dir ++ [c]) = below root dir ++ x2f :: c.
Proof. unfold below. rewrite map_app, concat_app. cbn [map concat]. now rewrite app_nil_r, app_assoc. Qed.

(** The process can read everything below [d]. *)
Definition readable (o : os) (d : path) : Prop := forall r, match o_fs o (d ++ r) with
  | Some (IDir m) => can_r (o_priv o) m = true /\ can_x (o_priv o) m = true
  | Some (IFile m _) => can_r (o_priv o) m = true | _ => True end.
(** No path is cut. *)
Definition uncut (o : os) (src : bytes) (d : path) : Prop := lenN src < PATH_MAX /\
  forall r c, o_fs o (d ++ r ++ [c]) <> None -> lenN (below src (r ++ [c])) <= 4094.

Section Walk.
Context {F : Type} (e : endian) (filt : F -> bytes -> bytes -> skind -> Z * F) (jk : N -> bytes) (hj : N -> N -> bytes)
  (o : os) (ls : path -> list bytes) (dsize : path -> N) (sj : N -> N).
Hypothesis Sn : sane (o_fs o).
Hypothesis Rp : reports (o_fs o) ls.
Context (root : bytes).
Notation filt' := (fun f dir n k => filt f (below root dir) n k).

Lemma walk_node_ext (f1 f2 : F -> list bytes -> bytes -> skind -> Z * F) dir name nd s :
  (forall es m, nd <> SDir m es) -> (forall f k, f1 f dir name k = f2 f dir name k) ->
  walk_node e f1 jk hj dir name nd s = walk_node e f2 jk hj dir name nd s.
Proof.
  intros H E. destruct nd as [a b m n d r|m es|m n t|]; [| |destruct t|]; cbn [walk_node kind_of]; rewrite E; try reflexivity. destruct (H es m eq_refl).
Qed.

Lemma node_ok rec dir d c s nd : dir_at o (below root dir) d -> readable o d -> uncut o (below root dir) d ->
  In c (ls d) -> (exists m, o_fs o d = Some (IDir m)) ->
  match o_fs o (d ++ [c]) with
  | Some (IDir m) => exists es, nd = SDir (S_IFDIR + m) es /\
      (forall s', rec (dir ++ [c]) (below root (dir ++ [c])) s' = Ok (walk e filt' jk hj (dir ++ [c]) es s'))
  | _ => nd = leaf_at (o_fs o) (d ++ [c])
  end ->
  p_node e filt jk hj o dsize sj rec dir (below root dir) c (kind_at o d c) s = Ok (walk_node e filt' jk hj dir c nd s).
Proof.
  intros Da Rd [Us Uc] Hin [md Ed] Hn.
  destruct (o_fs o (d ++ [c])) as [i|] eqn:Ec.
  2:{ destruct (Rp _ _ Ed) as (_ & _ & On). destruct (On _ Hin) as [Q|D]; [congruence|].
      subst nd. unfold kind_at, leaf_at. rewrite Ec.
      assert (Dt : is_dot c = true) by (destruct D as [-> | ->]; reflexivity). rewrite Dt. cbn [p_node walk_node]. rewrite Dt.
      destruct (_ || _); reflexivity. }
  destruct (proj1 Sn _ _ _ Ec) as [Pc _].
  assert (L : lenN (below root dir) + 1 + lenN c <= 4094).
  { specialize (Uc [] c). cbn [app] in Uc. rewrite Ec in Uc. specialize (Uc ltac:(discriminate)).
    change [c] with ([] ++ [c]) in Uc. rewrite below_snoc, below_nil, lenN_app, lenN_cons in Uc. lia. }
  assert (Lp : lenN (below root dir) + 1 + lenN c < PATH_MAX) by (unfold PATH_MAX; lia).
  assert (Es : entry_string (below root dir) c = below root dir ++ x2f :: c) by now apply entry_whole.
  pose proof (Rd [c]) as R1. rewrite Ec in R1.
  unfold kind_at. rewrite Ec. destruct i as [m|m x|x].
  - destruct Hn as (es & -> & Hr). cbn [p_node walk_node kind_of].
    assert (Dt : is_dot c = false). { destruct (is_dot c) eqn:Q; [|reflexivity]. exfalso. apply (plain_dot _ Pc).
      unfold is_dot in Q. apply Bool.orb_true_iff in Q. destruct Q as [Q|Q]; apply bytes_eqb_spec in Q; [left|right]; exact Q. }
    rewrite Dt. destruct (w_dead s || w_err s || w_exit s); [reflexivity|].
    destruct (filt (w_f s) (below root dir) c KDir) as [a f].
    destruct (a =? DIRITER_EXIT_ALL)%Z; [reflexivity|]. destruct (a =? 0)%Z; [|reflexivity]. cbn [negb].
    assert (St : stat_mode o (entry_string (below root dir) c) = Some (S_IFDIR + m)).
    { rewrite Es. unfold stat_mode. rewrite (namei_entry true o _ d c Da Pc Lp) by congruence. now rewrite Ec. }
    rewrite St, Es. rewrite <- below_snoc. rewrite Hr. cbn [obind]. unfold walk.
    destruct (iter_with _ es (w_next (w_setf f s))) as [s1 evs]. reflexivity.
  - subst nd. unfold p_node. f_equal. unfold leaf_at. rewrite Ec.
    assert (Fa : file_at o dsize (entry_string (below root dir) c) = SFile true true (S_IFREG + m) (lenN x) x false).
    { rewrite Es. unfold file_at. rewrite (namei_entry true o _ d c Da Pc Lp) by congruence. rewrite Ec, R1.
      rewrite (slash_end_entry _ _ Pc). reflexivity. }
    rewrite Fa. apply walk_node_ext; [discriminate|reflexivity].
  - subst nd. unfold p_node. f_equal. unfold leaf_at. rewrite Ec.
    assert (Fa : link_at o (entry_string (below root dir) c) = SLink (S_IFLNK + 511) (lenN x) (Some x)).
    { rewrite Es. unfold link_at. rewrite (namei_link o _ d c Da Pc Lp). now rewrite Ec. }
    rewrite Fa. apply walk_node_ext; [discriminate|reflexivity].
Qed.

Lemma entries_ok rec dir d g : (forall c s, In c (ls d) ->
    p_node e filt jk hj o dsize sj rec dir (below root dir) c (kind_at o d c) s = Ok (walk_node e filt' jk hj dir c (g c) s)) ->
  forall cs s, incl cs (ls d) ->
  p_entries e filt jk hj o dsize sj rec dir (below root dir) d cs s = Ok (walk e filt' jk hj dir (map (fun c => (c, g c)) cs) s).
Proof.
  intros H. induction cs as [|c cs IH]; intros s Hi; [reflexivity|].
  cbn [p_entries map]. rewrite H by (apply Hi; now left). cbn [obind].
  unfold walk. cbn [iter_with]. destruct (walk_node e filt' jk hj dir c (g c) s) as [[ret s1] ev1].
  destruct (ret =? DIRITER_EXIT_ALL)%Z; [reflexivity|].
  fold (p_entries e filt jk hj o dsize sj rec dir (below root dir) d). rewrite IH by (intros y Hy; apply Hi; now right).
  cbn [obind]. unfold walk. destruct (iter_with _ _ s1) as [s2 ev2]. reflexivity.
Qed.

Lemma readable_step d c : readable o d -> readable o (d ++ [c]).
Proof. intros H r. specialize (H ([c] ++ r)). now rewrite app_assoc in H. Qed.
Lemma uncut_step dir d c : uncut o (below root dir) d -> o_fs o (d ++ [c]) <> None -> uncut o (below root (dir ++ [c])) (d ++ [c]).
Proof.
  intros [U1 U2] E. assert (Q : forall r, below (below root (dir ++ [c])) r = below (below root dir) (c :: r)).
  { intro r. rewrite below_snoc. unfold below. cbn [map concat]. now rewrite !app_assoc. }
  split.
  - specialize (U2 [] c E). cbn [app] in U2. replace (below (below root dir) [c]) with (below root (dir ++ [c])) in U2
      by (rewrite below_snoc; unfold below; cbn [map concat]; now rewrite app_nil_r). unfold PATH_MAX. lia.
  - intros r c' E'. rewrite Q. apply (U2 (c :: r) c'). cbn [app]. rewrite <- app_assoc in E'. exact E'.
Qed.

(** The traversal is that of the tree. *)
Lemma p_walk_tree : forall n fuel dir d s, (n < fuel)%nat -> dir_at o (below root dir) d -> readable o d -> uncut o (below root dir) d ->
  deep (o_fs o) n d ->
  p_walk e filt jk hj o ls dsize sj fuel dir (below root dir) s = Ok (walk e filt' jk hj dir (tree (o_fs o) ls n d) s).
Proof.
  induction n as [|n IH]; intros fuel dir d s Hf Da Rd Uc Dp; (destruct fuel as [|fuel]; [lia|]); cbn [p_walk];
    destruct (dir_mode_at _ _ _ Da) as (m & Em & _ & Xm); pose proof (Rd []) as R0; rewrite app_nil_r, Em in R0;
    rewrite (open_dir_at o _ d m Da (proj1 Uc) Em (proj1 R0)); cbn [tree].
  - apply (entries_ok _ dir d (fun _ => SOther)); [|apply incl_refl]. intros c s' Hin.
    apply node_ok; eauto. destruct (o_fs o (d ++ [c])) as [i|] eqn:Ec.
    { assert (Q : o_fs o (d ++ [c]) <> None) by congruence. specialize (Dp _ Q). cbn in Dp. lia. }
    unfold leaf_at. now rewrite Ec.
  - apply (entries_ok _ dir d (fun c => match o_fs o (d ++ [c]) with Some (IDir m') => SDir (S_IFDIR + m') (tree (o_fs o) ls n (d ++ [c]))
        | _ => leaf_at (o_fs o) (d ++ [c]) end)); [|apply incl_refl]. intros c s' Hin.
    apply node_ok; eauto. destruct (o_fs o (d ++ [c])) as [[m'|m' x|x]|] eqn:Ec; try reflexivity.
    exists (tree (o_fs o) ls n (d ++ [c])). split; [reflexivity|]. intro s2.
    destruct (proj1 Sn _ _ _ Ec) as [Pc _]. pose proof (Rd [c]) as Rc. rewrite Ec in Rc.
    apply IH; [lia| |now apply readable_step|apply uncut_step; [exact Uc|congruence]|now apply deep_step].
    rewrite below_snoc. exact (dir_at_entry _ _ _ _ _ Pc Da Ec (proj2 Rc)).
Qed.
End Walk.

(** ** Whole archives *)

Definition accepts_path {F} (filt : F -> bytes -> bytes -> skind -> Z * F) : Prop := forall f d n k, fst (filt f d n k) = 0%Z.
(** What is needed to archive the directory [d], named [src]: at most [n] levels, everything readable, no path cut. *)
Definition archivable (o : os) (ls : path -> list bytes) (src : bytes) (d : path) (n : nat) : Prop :=
  sane (o_fs o) /\ reports (o_fs o) ls /\ modest (o_fs o) /\ dir_at o src d /\ readable o d /\ uncut o src d /\ deep (o_fs o) n d.

Section Whole.
Context (z : zlib) {F : Type} (e : endian) (filt : F -> bytes -> bytes -> skind -> Z * F)
  (jk : N -> bytes) (hj : N -> N -> bytes) (xjk : N -> N -> bytes) (hjunk : bytes) (al : N -> bool)
  (o : os) (ls : path -> list bytes) (dsize : path -> N) (sj : N -> N).

Lemma path_is_dir fuel pfuel level clbk nested xs src f0 d n : archivable o ls src d n -> (n < pfuel)%nat ->
  compress_path z e filt jk hj xjk hjunk al o ls dsize sj fuel pfuel level clbk nested xs src f0 =
  compress_dir z e (fun f dir c k => filt f (below src dir) c k) jk hj xjk hjunk al fuel level clbk nested xs
    (Some (tree (o_fs o) ls n d)) f0.
Proof.
  intros (Sn & Rp & Md & Da & Rd & Uc & Dp) Hf. unfold compress_path, compress_dir.
  destruct (negb (al 1)); [reflexivity|]. destruct (negb (al 2)); [reflexivity|].
  destruct (create_csession _ _ _ _ _ _ _ _ _ _) as [[so ev0]| |]; try reflexivity. cbn [obind]. destruct so as [cs|]; [|reflexivity].
  pose proof (p_walk_tree e filt jk hj o ls dsize sj Sn Rp src n pfuel [] d (WS false false false f0 0) Hf) as W.
  rewrite below_nil in W. rewrite (W Da Rd Uc Dp). cbn [obind].
  destruct (walk _ _ _ _ [] _ _) as [s1 wevs]. reflexivity.
Qed.

Lemma path_lists src d n : archivable o ls src d n -> lists (o_fs o) d (tree (o_fs o) ls n d).
Proof.
  intros (Sn & Rp & Md & Da & Rd & Uc & Dp). destruct (dir_mode_at _ _ _ Da) as (m & Em & _ & _).
  exists (S_IFDIR + m). now apply tree_sees.
Qed.

Lemma quiet_status (C : zlib_contract z) St (fl : St -> list bytes -> bytes -> skind -> Z * St) fuel level clbk es f0 r cevs ws wx led :
  junk_ok jk hj xjk hjunk -> tree_fits (Some es) -> accepts fl -> Forall (fun x => quiet (snd x)) es -> created z al level ->
  compress_dir z e fl jk hj xjk hjunk al fuel level clbk false [] (Some es) f0 = Ok (r, cevs, ws, wx, led) -> r = CRet 0%Z.
Proof.
  intros J Ft Ha Q Cr H.
  destruct (compress_dir_spec z C e fl jk hj xjk hjunk al _ _ _ _ _ _ _ _ _ _ _ _ J Ft (Forall_nil _) H)
    as [(Q' & _)|(_ & xr & recs & content & X1 & T & En & R & _)]; [contradiction|].
  destruct (trav_pure (fun _ _ _ => 0%Z) fl Ha ltac:(discriminate) _ _ _ _ _ _ T) as (E & _ & _).
  { apply (jobs_all (fun _ x => quiet x)). exact Q. }
  rewrite R, E. reflexivity.
Qed.

Lemma path_archived_tree (C : zlib_contract z) fuel pfuel level clbk src f0 d n r cevs ws wx led :
  junk_ok jk hj xjk hjunk -> accepts_path filt -> archivable o ls src d n -> (n < pfuel)%nat -> created z al level ->
  compress_path z e filt jk hj xjk hjunk al o ls dsize sj fuel pfuel level clbk false [] src f0 = Ok (r, cevs, ws, wx, led) ->
  r = CRet 0%Z /\ (last_not_full cevs -> archives_dir z (tree (o_fs o) ls n d) (cev_bytes cevs)).
Proof.
  intros J Ha Ar Hf Cr H. rewrite (path_is_dir _ _ _ _ _ _ _ _ _ _ Ar Hf) in H. pose proof (path_lists _ _ _ Ar) as Ls.
  destruct Ar as (Sn & Rp & Md & Da & Rd & Uc & Dp).
  assert (Ft : tree_fits (Some (tree (o_fs o) ls n d))) by (unfold tree_fits; cbn [listing]; now apply tree_fit).
  assert (Ha' : accepts (fun f dir c k => filt f (below src dir) c k)) by (intros f dir c k; apply Ha).
  assert (r = CRet 0%Z) as ->.
  { eapply (quiet_status C _ (fun f dir c k => filt f (below src dir) c k)); try eassumption. exact (lists_quiet _ _ _ Ls). }
  split; [reflexivity|]. intro L.
  exists F, (fun f dir c k => filt f (below src dir) c k), e, jk, hj, xjk, hjunk, al, fuel, level, clbk, f0, cevs, ws, wx, led.
  split; [exact J|]. split; [exact Ft|]. split; [exact Ha'|]. split; [exact H|]. split; [exact Cr|]. split; [exact L|reflexivity].
Qed.

Lemma path_archived (C : zlib_contract z) fuel pfuel level clbk src f0 d n r cevs ws wx led :
  junk_ok jk hj xjk hjunk -> accepts_path filt -> archivable o ls src d n -> (n < pfuel)%nat -> created z al level ->
  compress_path z e filt jk hj xjk hjunk al o ls dsize sj fuel pfuel level clbk false [] src f0 = Ok (r, cevs, ws, wx, led) ->
  r = CRet 0%Z /\ (last_not_full cevs -> exists es, lists (o_fs o) d es /\ archives_dir z es (cev_bytes cevs)).
Proof.
  intros J Ha Ar Hf Cr H. destruct (path_archived_tree C _ _ _ _ _ _ _ _ _ _ _ _ _ J Ha Ar Hf Cr H) as [Hr Q]. split; [exact Hr|].
  intro L. exists (tree (o_fs o) ls n d). split; [exact (path_lists _ _ _ Ar)|exact (Q L)].
Qed.

Lemma path_returns (C : zlib_contract z) pfuel level clbk src f0 d n : junk_ok jk hj xjk hjunk -> archivable o ls src d n -> (n < pfuel)%nat ->
  exists fuel r, compress_path z e filt jk hj xjk hjunk al o ls dsize sj fuel pfuel level clbk false [] src f0 = Ok r.
Proof.
  intros J Ar Hf.
  destruct (compress_dir_total z C e (fun f dir c k => filt f (below src dir) c k) jk hj xjk hjunk al level clbk false [] (Some (tree (o_fs o) ls n d)) f0 J)
    as (fuel & r & E); [|constructor|].
  { destruct Ar as (Sn & _ & Md & _). unfold tree_fits. cbn [listing]. now apply tree_fit. }
  exists fuel, r. rewrite (path_is_dir _ _ _ _ _ _ _ _ _ _ Ar Hf). exact E.
Qed.

(** ** A path of 4093 bytes: its first subdirectory is taken for the directory itself *)

Lemma slash_dir_at s d : dir_at o s d -> dir_at o (s ++ [x2f]) d.
Proof.
  intros [H1 H2]. split; [destruct s; discriminate|]. change (s ++ [x2f]) with (s ++ x2f :: []) in *.
  rewrite comps_app. change (comps []) with (@nil bytes). rewrite app_nil_r.
  unfold start. rewrite absolute_app by exact H1. exact H2.
Qed.
Lemma entry_cut s c : lenN s = 4093 -> entry_string s c = s ++ [x2f] /\ entry_string (s ++ [x2f]) c = s ++ [x2f].
Proof.
  intro L. unfold entry_string. change (MAX_PATH_MIN1 - 1) with 4094. split.
  - change (s ++ x2f :: c) with (s ++ [x2f] ++ c). rewrite app_assoc. apply takeN_app_exact. rewrite lenN_app. change (lenN [x2f]) with 1. lia.
  - apply takeN_app_exact. rewrite lenN_app. change (lenN [x2f]) with 1. lia.
Qed.

Lemma endless src d m dots c rest mc : accepts_path filt -> dir_at o src d -> lenN src = 4093 -> o_fs o d = Some (IDir m) -> can_r (o_priv o) m = true ->
  ls d = dots ++ c :: rest -> Forall dotted dots -> plain c -> o_fs o (d ++ [c]) = Some (IDir mc) -> Forall (fun x => o_fs o (d ++ [x]) = None) dots ->
  forall fuel dir p s, p = src \/ p = src ++ [x2f] -> w_dead s || w_err s || w_exit s = false ->
  p_walk e filt jk hj o ls dsize sj fuel dir p s = NoFuel.
Proof.
  intros Ha Da L Em R Hl Hd Pc Ec Hn. induction fuel as [|fuel IH]; intros dir p s Hp Hs; [reflexivity|]. cbn [p_walk].
  assert (Op : open_dir o p = Some d).
  { destruct Hp as [-> | ->]; apply (open_dir_at o _ d m); auto using slash_dir_at; [|rewrite lenN_app; change (lenN [x2f]) with 1];
      unfold PATH_MAX; lia. }
  rewrite Op, Hl. clear Op Hl. revert s Hs. induction dots as [|x dots IHd]; intros s Hs; cbn [app p_entries].
  - unfold kind_at. rewrite Ec. cbn [p_node].
    assert (Dt : is_dot c = false). { destruct (is_dot c) eqn:Q; [|reflexivity]. exfalso. apply (plain_dot _ Pc).
      unfold is_dot in Q. apply Bool.orb_true_iff in Q. destruct Q as [Q|Q]; apply bytes_eqb_spec in Q; [left|right]; exact Q. }
    rewrite Hs, Dt. pose proof (Ha (w_f s) p c KDir) as A. destruct (filt (w_f s) p c KDir) as [a f]. cbn [fst] in A. subst a.
    cbn [Z.eqb DIRITER_EXIT_ALL negb]. change (0 =? DIRITER_EXIT_ALL)%Z with false. cbn iota.
    assert (Es : entry_string p c = src ++ [x2f]) by (destruct (entry_cut src c L); destruct Hp as [-> | ->]; assumption).
    rewrite Es, IH; [reflexivity|now right|]. destruct s; exact Hs.
  - inversion Hd; subst. inversion Hn; subst. unfold kind_at.
    assert (Dt : is_dot x = true) by (match goal with H : dotted x |- _ => destruct H as [-> | ->]; reflexivity end).
    match goal with H : o_fs o (d ++ [x]) = None |- _ => rewrite H end. rewrite Dt. cbn [p_node]. rewrite Hs, Dt. cbn [obind].
    change (0 =? DIRITER_EXIT_ALL)%Z with false. cbn iota.
    fold (p_entries e filt jk hj o dsize sj (p_walk e filt jk hj o ls dsize sj fuel) dir p d). rewrite IHd by assumption. reflexivity.
Qed.

Lemma path_endless (C : zlib_contract z) fuel pfuel level clbk src f0 d m dots c rest mc : junk_ok jk hj xjk hjunk -> accepts_path filt -> created z al level ->
  dir_at o src d -> lenN src = 4093 -> o_fs o d = Some (IDir m) -> can_r (o_priv o) m = true ->
  ls d = dots ++ c :: rest -> Forall dotted dots -> plain c -> o_fs o (d ++ [c]) = Some (IDir mc) -> Forall (fun x => o_fs o (d ++ [x]) = None) dots ->
  forall r, compress_path z e filt jk hj xjk hjunk al o ls dsize sj fuel pfuel level clbk false [] src f0 <> Ok r.
Proof.
  intros J Ha Cr Da L Em R Hl Hd Pc Ec Hn r H. unfold compress_path in H. pose proof Cr as (A1 & A2 & A3 & _). rewrite A1, A2 in H. cbn [negb] in H.
  destruct (create_csession z fuel e (al 3) ContentDirectory level clbk false DEF_CHUNK_SIZE hjunk) as [[[cs|] ev0]| |] eqn:Ecs; try discriminate H; cbn [obind] in H.
  - rewrite (endless src d m dots c rest mc Ha Da L Em R Hl Hd Pc Ec Hn) in H; [discriminate H|now left|reflexivity].
  - assert (Q : compress_dir z e (fun f (dir : list bytes) c k => filt f (below src dir) c k) jk hj xjk hjunk al fuel level clbk false [] (Some []) f0 =
      Ok (CRet 1%Z, ev0, WS false false false f0 0, [], [LMalloc 1; LMalloc 2] ++ (if al 3 then [LMalloc 3; LFree 3] else []))).
    { unfold compress_dir. rewrite A1, A2. cbn [negb]. rewrite Ecs. reflexivity. }
    apply (quiet_status C) in Q; [discriminate Q|exact J|constructor|intros f dir c' k; apply Ha|constructor|exact Cr].
Qed.

(** Archiving a directory by its path and extracting the archive. *)
Lemma copied_by_path (C : zlib_contract z) fuel pfuel level clbk src f0 s n r cevs ws wx led
    e' alloc hal al' stk obuf hjunk' pjunk T archive inp t fuel' :
  junk_ok jk hj xjk hjunk -> accepts_path filt -> archivable o ls src s n -> (n < pfuel)%nat -> created z al level ->
  compress_path z e filt jk hj xjk hjunk al o ls dsize sj fuel pfuel level clbk false [] src f0 = Ok (r, cevs, ws, wx, led) -> last_not_full cevs ->
  homely o -> suitable (o_priv o) (o_umask o) (lenN T) (o_fs o) s -> (exists c, o_fs o (s ++ [c]) <> None) ->
  input_of archive (cev_bytes cevs) inp -> (length inp < fuel')%nat -> calm z hal al' stk obuf hjunk' pjunk -> (forall k n, alloc k n = true) ->
  free_spot o T t -> usable_dir (o_priv o) (o_umask o) MODE_BASE_DIR -> volume (preorder (tree (o_fs o) ls n s)) <= o_free o ->
  r = CRet 0%Z /\
  exists dfuel0, forall dfuel, (dfuel0 <= dfuel)%nat -> exists q evs, calls z e' alloc al' obuf hjunk' pjunk dfuel fuel' archive inp q evs /\
    (room_left q -> unsplit evs -> exists h ds o',
      exec (extract T hal stk z e' alloc archive fuel' dfuel al' obuf hjunk' pjunk inp false) o = Ok ((ContentDirectory, Some (q, h, ds)), o') /\
      same_env o o' /\ copy (o_umask o) (o_fs o) s (o_fs o') t).
Proof.
  intros J Ha Ar Hf Cr H L Ho Su Ne In Hi Ca Al Fs Us Vo.
  destruct (path_archived_tree C _ _ _ _ _ _ _ _ _ _ _ _ _ J Ha Ar Hf Cr H) as [Hr Q]. split; [exact Hr|].
  exact (copied_links_whole z C s _ (cev_bytes cevs) e' alloc hal al' stk obuf hjunk' pjunk T archive inp t o fuel' (proj1 Ar) (path_lists _ _ _ Ar) Su Ne (Q L) Ho In Hi Ca Al Fs Us Vo).
Qed.
End Whole.
