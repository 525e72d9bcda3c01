(** TestToolsFacts.v: what the callbacks of the low level test program leave on the disk. *)
From Coq Require Import Lia.
From Verif Require Import Base Format Zlib LLCompress CompressFacts Compress Parser ParserProofs ParserFacts Decompress DecompressProofs MidProofs MidFacts
  ArchiveSpec ArchiveFacts ArchiveDecode ArchiveEntry ArchiveProps FS FSFacts HL HLSpec HLFacts HLDrive HLProps ArgParser Tools TestTools.

(** The directory the extraction is in. *)
Definition in_ldir (l : lst) (s : bytes) : Prop :=
  ~ In x00 s /\ l_dplen l = lenN s /\ exists junk, l_dp l = Some (s ++ x00 :: junk).
Definition same_l (l l' : lst) : Prop := l_fp l' = l_fp l /\ l_err l' = l_err l.
Lemma same_l_trans a b c : same_l a b -> same_l b c -> same_l a c.
Proof. intros (A & B) (A' & B'). split; congruence. Qed.

Lemma volume_both a b : volume (a ++ b) = volume a + volume b.
Proof. induction a as [|[]]; cbn [app volume]; lia. Qed.

Section Place.
Context (target : bytes) (hal : N -> bool).
Hypothesis Hal : forall n, hal n = true.
Notation cb := (lt_cb target hal).
Notation cbs := (lt_cbs target hal).

Lemma exec_cbs_app a : forall b h o,
  exec (cbs (a ++ b) h) o = do (h1, o1) <- exec (cbs a h) o; exec (cbs b h1) o1.
Proof.
  induction a as [|ev a IH]; intros b h o; [reflexivity|]. cbn [app lt_cbs]. rewrite !exec_bind.
  destruct (exec (cb ev h) o) as [[h1 o1]| |]; cbn [obind]; try reflexivity. apply IH.
Qed.
Lemma exec_cbs_cons ev b h o : exec (cbs (ev :: b) h) o = do (h1, o1) <- exec (cb ev h) o; exec (cbs b h1) o1.
Proof. cbn [lt_cbs]. apply exec_bind. Qed.

Lemma lt_path_ok h s it name : in_ldir h s -> it_nlen it = lenN name ->
  lt_path it (padded name) h = Ok ((s ++ x2f :: name) ++ [x00]).
Proof.
  intros (_ & L & junk & E) N. unfold lt_path. rewrite E, L, N. unfold padded.
  replace (lenN (name ++ _) <? lenN name) with false by (symmetry; apply N.ltb_ge; rewrite lenN_app; lia).
  replace (lenN (s ++ x00 :: junk) <? lenN s) with false by (symmetry; apply N.ltb_ge; rewrite lenN_app; lia).
  rewrite !takeN_app_exact by reflexivity. now rewrite <- app_assoc.
Qed.

(** The padding of a name contains a NUL. *)
Lemma padded_cstr name : lenN name < PATH_MAX -> ~ In x00 name -> cstr (padded name) = Some name.
Proof.
  intros L H. unfold padded. destruct (norm_len32_spec (lenN name)) as (_ & Q & _); [unfold PATH_MAX, two32 in *; lia|].
  destruct (zeros (norm_len32 (lenN name) - lenN name)) as [|c k] eqn:E.
  - apply (f_equal lenN) in E. rewrite lenN_zeros in E. cbn in E. lia.
  - assert (c = x00).
    { unfold zeros in E. destruct (N.to_nat _); [discriminate|]. cbn in E. congruence. }
    subst c. now apply cstr_app.
Qed.

Definition l_setfd (l : lst) (fd : N) : lst := LS (l_fp l) (Some fd) (l_dp l) (l_dplen l) (l_err l) (l_n l).

Lemma open_file h o s t it name : in_ldir h s -> it_nlen it = lenN name -> plain name -> lenN s + 2 + lenN name < PATH_MAX ->
  dir_at o s t -> o_fs o (t ++ [name]) = None -> can_w (o_priv o) (dir_mode (o_fs o) t) = true ->
  exec (cb (EvEntry FtFile it (padded name)) h) o =
    Ok (l_setfd h (o_next o),
        OS (upd (o_fs o) (t ++ [name]) (IFile (file_perm (o_umask o) (it_mode it)) [])) (o_free o) (o_cwd o) (o_umask o) (o_priv o)
           ((o_next o, (t ++ [name], 0)) :: o_fds o) (o_next o + 1)).
Proof.
  intros D N Pn L Da Ab W. unfold lt_cb, lt_entry. pose proof D as (Nz & Ld & junk & E). rewrite E.
  unfold with_cstr. rewrite cstr_app by exact Nz. rewrite padded_cstr by (apply Pn || lia).
  rewrite takeN_all by (rewrite lenN_app, lenN_cons; unfold PATH_MAX in L; lia).
  rewrite exec_sys. cbn [sys].
  rewrite (open_entry o s t name _ _ Da Pn ltac:(lia) Ab W). unfold open_at. cbn [fst snd exec].
  unfold new_file_mode, file_perm, with_fs. cbn [o_fs o_free o_cwd o_umask o_priv o_fds o_next].
  rewrite (N.land_comm 511), <- N.land_assoc. unfold l_setfd. rewrite E. reflexivity.
Qed.

Lemma write_all ds : forall h o n p x m fds, l_fd h = Some n -> o_fds o = (n, (p, lenN x)) :: fds ->
  o_fs o p = Some (IFile m x) -> lenN (concat ds) <= o_free o ->
  exists o', exec (cbs (map EvRead ds) h) o = Ok (h, o') /\ (forall q, o_fs o' q = upd (o_fs o) p (IFile m (x ++ concat ds)) q) /\
    o_free o' = o_free o - lenN (concat ds) /\ o_cwd o' = o_cwd o /\ o_umask o' = o_umask o /\ o_priv o' = o_priv o /\
    o_fds o' = (n, (p, lenN (x ++ concat ds))) :: fds.
Proof.
  induction ds as [|d ds IH]; intros h o n p x m fds Hf E F L.
  - exists o. cbn. rewrite app_nil_r, N.sub_0_r. repeat split; auto.
    intro q. destruct (path_dec q p) as [->|Hn]; [now rewrite upd_same|now rewrite upd_other].
  - cbn [map concat] in *. rewrite lenN_app in L. rewrite exec_cbs_cons. unfold lt_cb, lt_read. rewrite exec_sys, Hf. cbn [sys].
    rewrite (write_new o n p (lenN x) m x d fds E F eq_refl) by lia. cbn [fst snd exec obind].
    match goal with |- context [exec _ ?oo] => destruct (IH h oo n p (x ++ d) m fds Hf) as (o' & X & Y & Z & A1 & A2 & A3 & A4) end.
    + cbn [o_fds]. now rewrite lenN_app.
    + cbn [o_fs]. apply upd_same.
    + cbn [o_free]. lia.
    + exists o'. split; [exact X|]. cbn [o_fs o_free o_cwd o_umask o_priv] in *. rewrite <- app_assoc in *.
      split. { intro q. rewrite Y. destruct (path_dec q p) as [->|Hn]; [now rewrite !upd_same|now rewrite !upd_other]. }
      split. { rewrite Z, lenN_app. lia. } auto.
Qed.

Lemma place_file h o s t it name ds : in_ldir h s -> it_nlen it = lenN name -> plain name -> lenN s + 2 + lenN name < PATH_MAX ->
  dir_at o s t -> o_fs o (t ++ [name]) = None -> can_w (o_priv o) (dir_mode (o_fs o) t) = true -> lenN (concat ds) <= o_free o ->
  exists h' o', exec (cbs (EvEntry FtFile it (padded name) :: map EvRead ds ++ [EvFileEnd]) h) o = Ok (h', o') /\
    in_ldir h' s /\ same_l h h' /\ same_env o o' /\ o_free o' = o_free o - lenN (concat ds) /\
    (forall q, o_fs o' q = upd (o_fs o) (t ++ [name]) (IFile (file_perm (o_umask o) (it_mode it)) (concat ds)) q).
Proof.
  intros D N Pn L Da Ab W Fr. rewrite exec_cbs_cons, (open_file h o s t it name D N Pn L Da Ab W). cbn [obind].
  rewrite exec_cbs_app.
  match goal with |- context [exec (cbs (map EvRead ds) ?hh) ?oo] =>
    destruct (write_all ds hh oo (o_next o) (t ++ [name]) [] (file_perm (o_umask o) (it_mode it)) (o_fds o)) as (o' & X & Y & Z & A1 & A2 & A3 & A4) end.
  - reflexivity. - reflexivity. - cbn [o_fs]. apply upd_same. - exact Fr.
  - rewrite X. cbn [obind]. rewrite exec_cbs_cons. unfold lt_cb, lt_file_end. rewrite exec_sys. cbn [l_fd l_setfd sys].
    rewrite (close_head _ _ _ _ A4). cbn [snd exec obind lt_cbs].
    eexists. eexists. split; [reflexivity|]. cbn [o_fs o_free o_cwd o_umask o_priv o_fds app] in *.
    split; [exact D|]. split; [repeat split|]. split; [repeat split; assumption|]. split; [exact Z|].
    intro q. rewrite Y. destruct (path_dec q (t ++ [name])) as [->|Hn]; [now rewrite !upd_same|now rewrite !upd_other].
Qed.

Lemma enter_dir h o s t it name : in_ldir h s -> it_nlen it = lenN name -> plain name -> lenN s + 1 + lenN name < PATH_MAX ->
  dir_at o s t -> o_fs o (t ++ [name]) = None -> can_w (o_priv o) (dir_mode (o_fs o) t) = true ->
  exists h', exec (cb (EvEntry FtDir it (padded name)) h) o =
      Ok (h', with_fs (upd (o_fs o) (t ++ [name]) (IDir (dir_perm (o_umask o) (it_mode it)))) o) /\
    in_ldir h' (s ++ x2f :: name) /\ same_l h h'.
Proof.
  intros D N Pn L Da Ab W. unfold lt_cb, lt_entry. pose proof D as (Nz & Ld & _). rewrite Hal. cbn [negb].
  rewrite lt_path_ok with (s := s); [|exact D|exact N]. cbn [plift pbind]. unfold with_cstr.
  rewrite cstr_app by (now apply no_nul). rewrite exec_sys. cbn [sys]. rewrite (mkdir_entry o s t name _ Da Pn L Ab W). cbn [fst snd exec].
  eexists. split; [reflexivity|]. split; [|repeat split].
  split; [now apply no_nul|]. split.
  - cbn [l_dplen]. rewrite Ld, N, lenN_app, lenN_cons. lia.
  - exists []. reflexivity.
Qed.

Lemma leave_dir h o s name : in_ldir h (s ++ x2f :: name) -> plain name ->
  exists h', exec (cb EvDirEnd h) o = Ok (h', o) /\ in_ldir h' s /\ same_l h h'.
Proof.
  intros (Nz & Ld & junk & E) (_ & P & _). unfold lt_cb, lt_dir_end. rewrite E. unfold with_cstr. rewrite cstr_app by exact Nz.
  rewrite (rindex_app x2f s name P). eexists. split; [reflexivity|]. split; [|repeat split].
  split. { intro Q. apply Nz. apply in_app_iff. now left. }
  split; [reflexivity|]. exists (name ++ x00 :: junk). cbn [l_dp]. f_equal.
  rewrite <- app_assoc. cbn [app]. apply set_byte_app.
Qed.

Section Tree.
Context (priv : bool) (um : N).

(** Where entries can be made. *)
Definition ready (o : os) (s : bytes) (t : path) : Prop :=
  dir_at o s t /\ o_umask o = um /\ o_priv o = priv /\ can_w priv (dir_mode (o_fs o) t) = true.

Lemma ready_keeps o o' s t : ready o s t -> same_env o o' -> keeps (o_fs o) (o_fs o') -> ready o' s t.
Proof.
  intros (A & B & D & E) (F1 & F2 & F3 & F4) K. split; [|split; [congruence|split; [congruence|]]].
  - eapply dir_at_keeps; eauto.
  - destruct (dir_mode_at _ _ _ A) as (m & Em & _). unfold dir_mode in *. rewrite Em in E.
    pose proof (K t) as Kt. rewrite Em in Kt. now rewrite Kt.
Qed.

(** The events [evs1] put the inodes [g] below the directory. *)
Definition puts (evs1 : list event) (g : path -> option inode) (vol : N) (s : bytes) (t : path) (free : path -> Prop) : Prop :=
  forall h o, in_ldir h s -> ready o s t -> (forall r, free r -> o_fs o (t ++ r) = None) -> vol <= o_free o ->
  exists h' o', exec (cbs evs1 h) o = Ok (h', o') /\ in_ldir h' s /\ same_l h h' /\ same_env o o' /\
    o_free o' = o_free o - vol /\ keeps (o_fs o) (o_fs o') /\ forall q, o_fs o' q = overlay t g (o_fs o) q.

Definition placed (rs : list arec) (g : path -> option inode) (s : bytes) (t : path) (free : path -> Prop) : Prop :=
  forall rest evs st, shows (rs ++ rest) (flat evs) -> proto_run Idle evs = Some st ->
  exists ev1 ev2, evs = ev1 ++ ev2 /\ shows rest (flat ev2) /\ proto_run Idle ev2 = Some st /\
    puts ev1 g (volume rs) s t free.

Definition below (name : bytes) (r : path) : Prop := dotb name = false /\ exists r', r = name :: r'.

Definition node_placed (nd : snode) : Prop := forall name s t, quiet nd -> extractable priv um (lenN s + 1) name nd -> ~ In x00 s ->
  placed (preorder1 name nd) (fun r => tree_at um r [(name, nd)]) s t (below name).

Lemma puts_nil g s t fr : (forall r, g r = None) -> puts [] g 0 s t fr.
Proof.
  intros G h o D R _ _. exists h, o. cbn. rewrite N.sub_0_r. repeat split; auto; try apply D; try apply keeps_refl.
  intro q. symmetry. apply overlay_out. auto.
Qed.

Lemma puts_app ev1 ev2 (g1 g2 g : path -> option inode) v1 v2 s t f1 f2 (f : path -> Prop) : puts ev1 g1 v1 s t f1 -> puts ev2 g2 v2 s t f2 ->
  (forall r, f1 r -> f r) -> (forall r, f2 r -> f r /\ g1 r = None) ->
  (forall r, g r = match g1 r with Some i => Some i | None => g2 r end) -> (forall r, g2 r <> None -> g1 r = None) ->
  puts (ev1 ++ ev2) g (v1 + v2) s t f.
Proof.
  intros P1 P2 F1 F2 G G2 h o D R Fr L.
  destruct (P1 h o D R) as (h1 & o1 & X1 & D1 & H1 & E1 & V1 & K1 & Y1). { auto. } { lia. }
  destruct (P2 h1 o1 D1 (ready_keeps _ _ _ _ R E1 K1)) as (h2 & o2 & X2 & D2 & H2 & E2 & V2 & K2 & Y2).
  { intros r Hr. destruct (F2 r Hr) as [A B]. rewrite Y1, overlay_at, B. auto. } { lia. }
  exists h2, o2. rewrite exec_cbs_app, X1. cbn [obind]. split; [exact X2|]. split; [exact D2|].
  split; [eapply same_l_trans; eauto|]. split; [eapply same_env_trans; eauto|]. split; [lia|].
  split; [eapply keeps_trans; eauto|]. intro q. rewrite Y2. unfold overlay. rewrite Y1. unfold overlay.
  destruct (strip t q) as [r|]; [|reflexivity]. rewrite G. specialize (G2 r).
  destruct (g2 r); [rewrite G2 by discriminate; reflexivity|]. destruct (g1 r); reflexivity.
Qed.

Lemma list_placed es : Forall (fun x => node_placed (snd x)) es -> forall s t, Forall (fun x => quiet (snd x)) es ->
  NoDup (map fst es) -> Forall (fun x => extractable priv um (lenN s + 1) (fst x) (snd x)) es -> ~ In x00 s ->
  placed (preorder es) (fun r => tree_at um r es) s t (fun r => exists c, In c (map fst es) /\ below c r).
Proof.
  induction es as [|[n nd] es IH]; intros HP s t Q ND X Nz rest evs st S P.
  { exists [], evs. cbn in S |- *. split; [reflexivity|]. split; [exact S|]. split; [exact P|]. apply puts_nil.
    intro r. now apply tree_at_none. }
  inversion HP as [|? ? HP1 HP2]; inversion Q as [|? ? Q1 Q2]; inversion X as [|? ? X1 X2]; inversion ND as [|? ? N1 N2]; subst.
  cbn [fst snd map] in *. rewrite preorder_cons, <- app_assoc in S.
  destruct (HP1 n s t Q1 X1 Nz _ _ _ S P) as (ev1 & ev2 & -> & S2 & P2 & U1).
  destruct (IH HP2 s t Q2 N2 X2 Nz _ _ _ S2 P2) as (ev3 & ev4 & -> & S4 & P4 & U3).
  exists (ev1 ++ ev3), ev4. split; [now rewrite app_assoc|]. split; [exact S4|]. split; [exact P4|].
  rewrite preorder_cons, volume_both. eapply puts_app; [exact U1|exact U3| | | |].
  - intros r Hr. exists n. split; [now left|exact Hr].
  - intros r (c & Hc & B). split; [exists c; split; [now right|exact B]|].
    apply tree_at_single_none. intros r' ->. destruct B as (B1 & r2 & B2). injection B2 as -> ->. contradiction.
  - intro r. apply tree_at_cons. exact N1.
  - intros r Hr. apply tree_at_single_none. intros r' ->. exfalso. apply Hr. apply tree_at_none.
    intros c r2 E Hc. injection E as -> ->. contradiction.
Qed.

Lemma file_placed o st m sz d r : node_placed (SFile o st m sz d r).
Proof.
  intros name s t Q X Nz rest evs pst S P. cbn [preorder1] in *.
  destruct (dotb name) eqn:D.
  { exists [], evs. split; [reflexivity|]. split; [exact S|]. split; [exact P|]. apply puts_nil.
    intro q. apply tree_at_single_none. auto. }
  inversion Q; subst. inversion X as [? ? ? Dd| | |]; subst; [apply dotb_spec in Dd; congruence|].
  cbn [app] in S. inversion S as [| |? ? ? ? o S' E1 E2| |]; subst. symmetry in E2.
  destruct (idle_entry _ _ _ _ _ _ P E2) as (evs' & -> & F).
  cbn [proto_run proto_step it_size] in P. destruct (file_reads _ _ _ _ _ P F) as (ds & evs2 & -> & Ed & F2 & P2).
  exists (EvEntry FtFile (Item (lenN d) (norm_len64 (lenN d)) (lenN name) (norm_len32 (lenN name)) m CT_FILE) (padded name) :: map EvRead ds ++ [EvFileEnd]), evs2.
  split. { cbn [app]. now rewrite <- app_assoc. }
  split; [now rewrite F2|]. split; [exact P2|].
  intros h os D0 (Rd & Ru & Rp & Rw) Fr L. cbn [volume] in *. rewrite N.add_0_r in *.
  assert (Ab : o_fs os (t ++ [name]) = None) by (apply Fr; split; [exact D|eauto]).
  match goal with Hp : plain name |- _ => rename Hp into Pn end.
  match goal with Hp : _ + 1 + _ < PATH_MAX |- _ => rename Hp into Ln end.
  assert (Ln' : lenN s + 2 + lenN name < PATH_MAX) by lia.
  edestruct (place_file h os s t (Item (lenN d) (norm_len64 (lenN d)) (lenN name) (norm_len32 (lenN name)) m CT_FILE) name ds) as (h' & o' & X1 & D1 & H1 & E1 & V1 & Y1);
    [exact D0|reflexivity|exact Pn|exact Ln'|exact Rd|exact Ab|now rewrite Rp|rewrite Ed; exact L|].
  exists h', o'. split; [exact X1|]. split; [exact D1|]. split; [exact H1|]. split; [exact E1|]. split; [rewrite <- Ed; exact V1|].
  rewrite Ed, Ru in Y1. cbn [it_mode] in Y1.
  assert (Yo : forall q, o_fs o' q = overlay t (fun q0 => tree_at um q0 [(name, SFile true true m (lenN d) d false)]) (o_fs os) q).
  { intro q. rewrite Y1. destruct (path_dec q (t ++ [name])) as [->|Hn].
    - rewrite upd_same, overlay_at. cbn [tree_at entry_of]. rewrite D, (proj2 (bytes_eqb_spec name name) eq_refl). reflexivity.
    - rewrite upd_other by exact Hn. symmetry. apply overlay_out. intros q0 ->.
      destruct q0 as [|c q0]; [reflexivity|]. cbn [tree_at entry_of]. destruct (dotb c); [reflexivity|].
      destruct (bytes_eqb name c) eqn:Ec; [|reflexivity]. apply bytes_eqb_spec in Ec. subst c. destruct q0; [congruence|reflexivity]. }
  split; [|exact Yo]. eapply overlay_keeps; [|exact Yo]. intros q Hq. apply Fr.
  split; [exact D|]. destruct q as [|c q]; [contradiction|]. exists q. f_equal.
  cbn [tree_at entry_of] in Hq. destruct (dotb c); [contradiction|]. destruct (bytes_eqb name c) eqn:Ec; [|contradiction].
  apply bytes_eqb_spec in Ec. congruence.
Qed.

Lemma dir_placed m es : Forall (fun x => node_placed (snd x)) es -> node_placed (SDir m es).
Proof.
  intros HP name s t Q X Nz rest evs pst S P. cbn [preorder1] in *.
  destruct (dotb name) eqn:D.
  { exists [], evs. split; [reflexivity|]. split; [exact S|]. split; [exact P|]. apply puts_nil.
    intro q. apply tree_at_single_none. auto. }
  inversion Q as [|? ? Qe| |]; subst. inversion X as [? ? ? Dd| | |? ? ? ? Pn Ln [Ux Uw] ND Xe]; subst; [apply dotb_spec in Dd; congruence|].
  cbn [app] in S. inversion S as [|? ? ? o it I1 I2 I3 I4 S' E1 E2| | |]; subst. symmetry in E2.
  destruct (idle_entry _ _ _ _ _ _ P E2) as (evs' & -> & <-).
  cbn [proto_run proto_step] in P. fold (preorder es) in *. rewrite <- app_assoc in S'.
  assert (Nz2 : ~ In x00 (s ++ x2f :: name)) by (now apply no_nul).
  assert (Ls : lenN (s ++ x2f :: name) = lenN s + 1 + lenN name) by (rewrite lenN_app, lenN_cons; lia).
  replace (lenN s + 1 + 1 + lenN name) with (lenN (s ++ x2f :: name) + 1) in Xe by lia.
  assert (Ln' : lenN s + 1 + lenN name < PATH_MAX) by lia.
  destruct (list_placed es HP (s ++ x2f :: name) (t ++ [name]) Qe ND Xe Nz2 _ _ _ S' P) as (ev1 & ev2 & -> & S2 & P2 & U).
  cbn [app] in S2. inversion S2 as [| | | |? o2 S3 E3 E4]; subst. symmetry in E4.
  destruct (idle_end _ _ _ P2 E4) as (ev3 & -> & <- & P3).
  exists (EvEntry FtDir it (padded name) :: ev1 ++ [EvDirEnd]), ev3.
  split. { cbn [app]. now rewrite <- app_assoc. }
  split; [exact S3|]. split; [exact P3|].
  intros h os D0 (Rd & Ru & Rp & Rw) Fr L.
  replace (volume (ADir name (it_mode it) :: preorder es ++ [AEnd])) with (volume (preorder es)) in *
    by (cbn [volume]; rewrite volume_both; cbn [volume]; lia).
  assert (Ab : o_fs os (t ++ [name]) = None) by (apply Fr; split; [exact D|eauto]).
  destruct (enter_dir h os s t it name D0 I1 Pn Ln' Rd Ab ltac:(now rewrite Rp)) as (h1 & X1 & D1 & H1).
  rewrite exec_cbs_cons, X1. cbn [obind]. rewrite exec_cbs_app. rewrite Ru.
  set (o1 := with_fs (upd (o_fs os) (t ++ [name]) (IDir (dir_perm um (it_mode it)))) os).
  assert (K1 : keeps (o_fs os) (o_fs o1)) by (apply keeps_upd_new; exact Ab).
  assert (R1 : ready o1 (s ++ x2f :: name) (t ++ [name])).
  { split; [|split; [exact Ru|split; [exact Rp|]]].
    - eapply dir_at_entry; [exact Pn|eapply dir_at_keeps; [exact K1|reflexivity|reflexivity|exact Rd]|apply upd_same|].
      cbn. now rewrite Rp.
    - unfold dir_mode, o1. cbn [o_fs with_fs]. rewrite upd_same. exact Uw. }
  destruct (U h1 o1 D1 R1) as (h2 & o2 & X2 & D2 & H2 & E2' & V2 & K2 & Y2).
  { intros r (c & Hc & B1 & r' & ->). unfold o1. cbn [o_fs with_fs]. rewrite upd_other.
    - rewrite <- app_assoc. apply Fr. split; [exact D|]. eexists. reflexivity.
    - intro Q'. apply (f_equal (@length bytes)) in Q'. rewrite !app_length in Q'. cbn [length] in Q'. lia. }
  { exact L. }
  rewrite X2. cbn [obind]. rewrite exec_cbs_cons.
  destruct (leave_dir h2 o2 s name D2 Pn) as (h3 & X3 & D3 & H3). rewrite X3. cbn [obind lt_cbs exec].
  exists h3, o2. split; [reflexivity|]. split; [exact D3|].
  split. { eapply same_l_trans; [exact H1|]. eapply same_l_trans; [exact H2|exact H3]. }
  split; [exact E2'|]. split; [exact V2|].
  split; [eapply keeps_trans; eauto|].
  intro q. rewrite Y2. unfold o1. cbn [o_fs with_fs].
  destruct (strip t q) as [r|] eqn:St.
  2:{ unfold overlay at 2. rewrite St. rewrite overlay_out.
      - apply upd_other. intros ->. rewrite strip_app in St. discriminate.
      - intros r ->. rewrite <- app_assoc, strip_app in St. discriminate. }
  apply strip_spec in St. subst q. rewrite overlay_at.
  destruct r as [|c r].
  { cbn [tree_at]. rewrite app_nil_r. rewrite overlay_out.
    - apply upd_other. intro Q'. apply (f_equal (@length bytes)) in Q'. rewrite app_length in Q'. cbn in Q'. lia.
    - intros r Q'. apply (f_equal (@length bytes)) in Q'. rewrite !app_length in Q'. cbn in Q'. lia. }
  cbn [tree_at entry_of]. destruct (bytes_dec name c) as [<-|Hc].
  - rewrite D, (proj2 (bytes_eqb_spec name name) eq_refl).
    change (t ++ name :: r) with (t ++ ([name] ++ r)). rewrite app_assoc, overlay_at.
    destruct r as [|c' r]. { cbn [tree_at]. rewrite app_nil_r, upd_same. reflexivity. }
    rewrite upd_other; [reflexivity|]. intro Q'. apply (f_equal (@length bytes)) in Q'. rewrite !app_length in Q'. cbn in Q'. lia.
  - rewrite (bytes_eqb_neq _ _ Hc). rewrite overlay_out.
    + rewrite upd_other. { now destruct (dotb c). } intro Q'. apply app_inv_head in Q'. congruence.
    + intros q Q'. exfalso. rewrite <- app_assoc in Q'. apply app_inv_head in Q'. cbn in Q'. congruence.
Qed.

Lemma node_placed_all : forall nd, node_placed nd.
Proof.
  induction nd as [o st m sz d r|m es IH|m sz tg|] using snode_ind2.
  - apply file_placed.
  - now apply dir_placed.
  - intros name s t Q X Nz rest evs pst S P. inversion X as [? ? ? Dd| | |]; subst. apply dotb_spec in Dd.
    cbn [preorder1] in *. rewrite Dd in *. exists [], evs. split; [reflexivity|]. split; [exact S|]. split; [exact P|]. apply puts_nil.
    intro q. apply tree_at_single_none. auto.
  - intros name s t Q X Nz rest evs pst S P. cbn [preorder1] in *.
    exists [], evs. replace (if dotb name then [] else []) with (@nil arec) in * by (now destruct (dotb name)).
    split; [reflexivity|]. split; [exact S|]. split; [exact P|]. apply puts_nil.
    intros [|c q]; [reflexivity|]. cbn [tree_at entry_of]. destruct (dotb c); [reflexivity|]. now destruct (bytes_eqb name c).
Qed.

(** A whole archive. *)
Lemma tree_placed es s t evs st : Forall (fun x => quiet (snd x)) es -> NoDup (map fst es) ->
  Forall (fun x => extractable priv um (lenN s + 1) (fst x) (snd x)) es -> ~ In x00 s ->
  shows (preorder es) (flat evs) -> proto_run Idle evs = Some st ->
  puts evs (fun r => tree_at um r es) (volume (preorder es)) s t (fun r => r <> []).
Proof.
  intros Q ND X Nz S P.
  assert (HP : Forall (fun x : bytes * snode => node_placed (snd x)) es) by (apply Forall_forall; intros; apply node_placed_all).
  rewrite <- (app_nil_r (preorder es)) in S.
  destruct (list_placed es HP s t Q ND X Nz _ _ _ S P) as (ev1 & ev2 & -> & S2 & P2 & U).
  inversion S2 as [Z|? ? ? ? ? ? ? ? ? ? Z1 Z2|? ? ? ? ? ? Z1 Z2|? ? ? ? ? ? Z1 Z2|]; subst.
  assert (E2 : ev2 = []).
  { destruct ev2 as [|ev ev2]; [reflexivity|]. rewrite flat_cons in *. exfalso.
    destruct ev; cbn in P2; try discriminate P2; cbn in *; discriminate. }
  rewrite E2, app_nil_r. intros h o A B D E. apply U; auto. intros r (c & _ & _ & r' & ->). apply D. discriminate.
Qed.
End Tree.
End Place.

(** ** The loop *)
Section Drive.
Context (target : bytes) (hal : N -> bool).
Context (z : zlib) (e : endian) (alloc : N -> N -> bool).
Notation cbs := (lt_cbs target hal).
Notation loop := (lt_loop target hal z e alloc).

Fixpoint lt_ops (fuel : nat) (inp : bytes) (idx : N) : list dop :=
  match fuel with
  | O => []
  | S f =>
    let d := takeN LT_CHUNK inp in
    DFeed (Z.of_N (N.shiftr (N.land (idx + 1) 16) 4)) d ::
    (if lenN d <? LT_CHUNK then [] else lt_ops f (dropN LT_CHUNK inp) (idx + 1))
  end.

Lemma lt_ops_ok fuel : forall inp idx, Forall dop_ok (lt_ops fuel inp idx).
Proof using. clear hal alloc.
  induction fuel as [|f IH]; intros inp idx; cbn [lt_ops]; [constructor|]. constructor.
  - split; [apply flush_normal|]. rewrite lenN_takeN. unfold LT_CHUNK, two32. lia.
  - destruct (_ <? _); [constructor|apply IH].
Qed.
Lemma lt_ops_fed fuel : forall inp idx, (length inp < fuel)%nat -> dfed (lt_ops fuel inp idx) = inp.
Proof using. clear hal alloc.
  induction fuel as [|f IH]; intros inp idx H; [lia|]. cbn [lt_ops].
  change (dfed (DFeed ?a ?b :: ?c)) with (b ++ dfed c). rewrite lenN_takeN.
  destruct (N.ltb_spec (N.min LT_CHUNK (lenN inp)) LT_CHUNK) as [H2|H2].
  - cbn [dfed map concat]. rewrite app_nil_r. apply takeN_all. lia.
  - rewrite IH; [apply takeN_dropN|]. rewrite dropN_skipn, skipn_length. unfold lenN, LT_CHUNK in *. lia.
Qed.
Lemma lt_ops_feeds fuel : forall inp idx b n, ~ In (DSetBuffer b n) (lt_ops fuel inp idx).
Proof using.
  induction fuel as [|f IH]; intros inp idx b n; cbn [lt_ops]; [auto|].
  intros [Q|Q]; [discriminate|]. destruct (_ <? _); [auto|]. now apply IH in Q.
Qed.

(** Errors stay. *)
Lemma lt_cb_err ev h o h' o' : exec (lt_cb target hal ev h) o = Ok (h', o') -> l_err h = true -> l_err h' = true.
Proof.
  intros H He. destruct ev as [id d| | |d|ft it name|d| | |d t]; cbn [lt_cb] in H.
  - cbn in H. congruence.
  - unfold lt_dr_start in H. apply exec_psys in H. destruct H as (r & o1 & _ & H).
    destruct r; try (cbn in H; injection H as <- <-; reflexivity).
    destruct (hal _); cbn in H; injection H as <- <-; [exact He|reflexivity].
  - unfold lt_fl_start in H. apply exec_psys in H. destruct H as (r & o1 & _ & H). destruct r; cbn in H; injection H as <- <-; auto.
  - unfold lt_fl_read in H. destruct (l_fp h); [|discriminate]. apply exec_psys in H. destruct H as (r & o1 & _ & H). cbn in H. congruence.
  - unfold lt_entry in H.
    assert (Fl : exec match l_dp h with None => PUB | Some dp =>
      with_cstr dp (fun dir => with_cstr name (fun nm =>
        pdo r <- psys (ScOpen false (takeN 4094 (dir ++ x2f :: nm)) (N.land 511 (it_mode it)));
        match r with
        | RFd fd => PRet (LS (l_fp h) (Some fd) (l_dp h) (l_dplen h) (l_err h) (l_n h))
        | _ => PRet (LS (l_fp h) None (l_dp h) (l_dplen h) true (l_n h)) end)) end o = Ok (h', o') -> l_err h' = true).
    { intro H'. destruct (l_dp h); [|discriminate]. apply with_cstr_ok in H'. destruct H' as (s1 & _ & H').
      apply with_cstr_ok in H'. destruct H' as (s2 & _ & H'). apply exec_psys in H'. destruct H' as (r & o1 & _ & H').
      destruct r; cbn in H'; injection H' as <- <-; auto. }
    destruct ft; try (exact (Fl H)).
    destruct (negb _); [cbn in H; injection H as <- <-; reflexivity|].
    rewrite exec_bind in H. destruct (lt_path _ _ _) as [p| |]; try discriminate H. cbn [plift exec obind] in H.
    apply with_cstr_ok in H. destruct H as (s & _ & H). apply exec_psys in H. destruct H as (r & o1 & _ & H).
    destruct r; cbn in H; injection H as <- <-; auto.
  - unfold lt_read in H. apply exec_psys in H. destruct H as (r & o1 & _ & H). cbn in H. congruence.
  - unfold lt_file_end in H. apply exec_psys in H. destruct H as (r & o1 & _ & H). cbn in H. congruence.
  - unfold lt_dir_end in H. destruct (l_dp h); [|discriminate]. apply with_cstr_ok in H. destruct H as (s & _ & H).
    destruct (rindex _ _); [|discriminate]. cbn in H. injection H as <- <-. exact He.
  - cbn in H. congruence.
Qed.
Lemma lt_cbs_err evs : forall h o h' o', exec (cbs evs h) o = Ok (h', o') -> l_err h = true -> l_err h' = true.
Proof.
  induction evs as [|ev evs IH]; intros h o h' o' H He; [cbn in H; congruence|].
  rewrite exec_cbs_cons in H. destruct (exec (lt_cb _ _ ev h) o) as [[h1 o1]| |] eqn:E; try discriminate H. cbn [obind] in H.
  eapply IH; [exact H|]. eapply lt_cb_err; eauto.
Qed.

(** Without errors the loop is the session on the chunks and the callbacks on the events. *)
Lemma lt_drive fuel dfuel : forall inp idx s h o rets s' evs h' o', (length inp < fuel)%nat ->
  run_dops e alloc dfuel s (lt_ops fuel inp idx) = Ok (rets, s', evs) ->
  exec (cbs evs h) o = Ok (h', o') -> l_err h' = false ->
  exec (loop fuel dfuel inp false idx s h) o = Ok ((true, s', h'), o').
Proof.
  induction fuel as [|f IH]; intros inp idx s h o rets s' evs h' o' Hf R X He; [lia|].
  cbn [lt_ops] in R. cbn [lt_loop]. rewrite andb_false_r. cbn [run_dops] in R.
  destruct (decompress e alloc dfuel _ (takeN LT_CHUNK inp) s) as [[[r1 s1] ev1]| |] eqn:Ed; try discriminate R. cbn [obind] in R.
  cbn [plift pbind]. rewrite exec_bind.
  match type of R with obind ?x _ = _ => destruct x as [[[rs s2] ev2]| |] eqn:E2; try discriminate R end. cbn [obind] in R.
  injection R as <- <- <-. rewrite exec_cbs_app in X.
  destruct (exec (cbs ev1 h) o) as [[h1 o1]| |] eqn:X1; try discriminate X. cbn [obind] in X |- *.
  assert (He1 : l_err h1 = false).
  { destruct (l_err h1) eqn:Q; [|reflexivity]. rewrite (lt_cbs_err _ _ _ _ _ X Q) in He. discriminate. }
  rewrite He1, orb_false_r. destruct (lenN (takeN LT_CHUNK inp) <? LT_CHUNK) eqn:Es.
  - cbn [run_dops] in E2. injection E2 as <- <- <-. cbn in X. injection X as <- <-. reflexivity.
  - assert (Hl : (length (dropN LT_CHUNK inp) < f)%nat).
    { rewrite dropN_skipn, skipn_length. apply N.ltb_ge in Es. rewrite lenN_takeN in Es. unfold lenN, LT_CHUNK in *. lia. }
    exact (IH _ _ _ _ _ _ _ _ _ _ Hl E2 X He).
Qed.
End Drive.

(** ** Whole extractions *)
Record lt_calm (z : zlib) (hal al : N -> bool) (obuf hjunk : bytes) (pjunk : Parser.pst) : Prop := {
  lc_hal : forall n, hal n = true;
  lc_al : forall n, al n = true;
  lc_obuf : lenN obuf = LT_CHUNK;
  lc_hjunk : lenN hjunk = 128;
  lc_pjunk : lenN (p_img pjunk) = 40;
  lc_init : inflateInit z <> None
}.

Section Extraction.
Context (z : zlib) (C : zlib_contract z) (e : endian) (alloc : N -> N -> bool) (hal al : N -> bool) (obuf hjunk : bytes) (pjunk : Parser.pst).
Hypothesis Calm : lt_calm z hal al obuf hjunk pjunk.

Lemma lt_started : exists s0, create z (al 1) (Some obuf) LT_CHUNK hjunk pjunk = Some s0 /\ started z s0 /\ safe z C s0.
Proof.
  destruct Calm as [A B D F G I]. unfold create. rewrite B. destruct (inflateInit z) as [i|] eqn:Ei; [|contradiction].
  eexists. split; [reflexivity|]. split.
  - exists (Some obuf), LT_CHUNK, hjunk, pjunk. split; [unfold create; rewrite Ei; reflexivity|].
    split; [exists obuf; split; [reflexivity|]; unfold LT_CHUNK, two32 in *; lia|]. split; assumption.
  - eapply (create_safe z C alloc true obuf LT_CHUNK hjunk pjunk); [unfold LT_CHUNK, two32; lia|lia|exact F|].
    unfold create. rewrite Ei. reflexivity.
Qed.

(** An extraction during which no callback reports an error. *)
Lemma lt_extract_ok T inp o fuel : (length inp < fuel)%nat -> supported z C inp ->
  (forall s0 dfuel ops rets s evs, started z s0 -> Forall dop_ok ops -> dfed ops = inp ->
     run_dops e alloc dfuel s0 ops = Ok (rets, s, evs) ->
     exists h o1, exec (lt_cbs T hal evs LS0) o = Ok (h, o1) /\ l_err h = false) ->
  exists dfuel0, forall dfuel, (dfuel0 <= dfuel)%nat -> exists s0 ops rets s evs h o1 o',
    started z s0 /\ Forall dop_ok ops /\ dfed ops = inp /\
    run_dops e alloc dfuel s0 ops = Ok (rets, s, evs) /\ exec (lt_cbs T hal evs LS0) o = Ok (h, o1) /\ l_err h = false /\
    exec (lt_close_fp h) o1 = Ok (tt, o') /\
    exec (lt_extract T hal z e alloc fuel dfuel (al 1) obuf hjunk pjunk (Some (inp, false))) o = Ok ((1%Z, Some (s, h)), o').
Proof.
  intros Hf Sup Hc. destruct lt_started as (s0 & Ec & St & Sf).
  set (ops := lt_ops fuel inp 0). pose proof (lt_ops_ok fuel inp 0) as Ho. fold ops in Ho.
  pose proof (lt_ops_fed fuel inp 0 Hf) as Fed. fold ops in Fed.
  destruct (session_returns_ok z C e alloc s0 ops St Ho) as (dfuel0 & [[rets s] evs] & R). { now rewrite Fed. }
  exists dfuel0. intros dfuel Hd. specialize (R dfuel Hd).
  destruct (Hc _ _ _ _ _ _ St Ho Fed R) as (h & o1 & X & He).
  pose proof (lt_drive T hal z e alloc fuel dfuel inp 0 s0 LS0 o rets s evs h o1 Hf R X He) as Dr.
  destruct (destroy_safe z C alloc s) as (s' & Ds).
  { eapply run_dops_safe; [exact Sf| |exact R]. intros b n. apply lt_ops_feeds. }
  assert (Cl : exists o', exec (lt_close_fp h) o1 = Ok (tt, o')).
  { unfold lt_close_fp. destruct (l_fp h); [|eexists; reflexivity]. rewrite exec_sys. cbn [exec]. eauto. }
  destruct Cl as (o' & Cl).
  exists s0, ops, rets, s, evs, h, o1, o'.
  split; [exact St|]. split; [exact Ho|]. split; [exact Fed|]. split; [exact R|]. split; [exact X|]. split; [exact He|]. split; [exact Cl|].
  unfold lt_extract. rewrite Ec, exec_bind, Dr. cbn [obind]. rewrite Ds. cbn [plift pbind]. rewrite exec_bind, Cl. reflexivity.
Qed.

Lemma lt_begin_dir T t o : free_spot o T t -> usable_dir (o_priv o) (o_umask o) MODE_BASE_DIR ->
  let o1 := with_fs (upd (o_fs o) t (IDir (dir_perm (o_umask o) MODE_BASE_DIR))) o in
  exists h, exec (lt_cb T hal EvDirBegin LS0) o = Ok (h, o1) /\ in_ldir h T /\ l_err h = false /\ l_fp h = None /\
    dir_at o1 T t /\ o_fs o t = None.
Proof.
  intros Fs U o1. destruct (free_mkdir o T t _ Fs U) as (_ & Da & Nw). destruct Fs as (Nz & d & c & -> & Hn & W).
  assert (E : sys_mkdir T MODE_0775 o = (ROk, o1)) by (unfold sys_mkdir; rewrite Hn, W; reflexivity).
  cbn [lt_cb]. unfold lt_dr_start. rewrite exec_sys. cbn [sys]. rewrite E. cbn [fst snd].
  rewrite (lc_hal _ _ _ _ _ _ Calm). cbn [exec].
  eexists. split; [reflexivity|]. split; [|auto]. split; [exact Nz|]. split; [reflexivity|]. exists []. reflexivity.
Qed.

Lemma lt_dir T F es t o fuel : (forall k n, alloc k n = true) -> (length F < fuel)%nat ->
  dir_archive C F (preorder es) -> preorder es <> [] ->
  Forall (fun x => quiet (snd x)) es -> NoDup (map fst es) ->
  Forall (fun x => extractable (o_priv o) (o_umask o) (lenN T + 1) (fst x) (snd x)) es ->
  free_spot o T t -> usable_dir (o_priv o) (o_umask o) MODE_BASE_DIR -> (forall r, o_fs o (t ++ r) = None) ->
  volume (preorder es) <= o_free o ->
  exists dfuel0, forall dfuel, (dfuel0 <= dfuel)%nat -> exists s h o',
    exec (lt_extract T hal z e alloc fuel dfuel (al 1) obuf hjunk pjunk (Some (F, false))) o = Ok ((1%Z, Some (s, h)), o') /\
    (room_left s -> same_env o o' /\ forall q, o_fs o' q = overlay t (dir_tree (o_umask o) es) (o_fs o) q).
Proof.
  intros Halloc Hf Da Ne Q ND X Fs U Fr V.
  set (o1 := with_fs (upd (o_fs o) t (IDir (dir_perm (o_umask o) MODE_BASE_DIR))) o).
  destruct (lt_begin_dir T t o Fs U) as (h1 & X1 & D1 & E1 & P1 & At1 & Nw). fold o1 in X1, At1.
  assert (Rd : ready (o_priv o) (o_umask o) o1 T t).
  { split; [exact At1|]. split; [reflexivity|]. split; [reflexivity|]. unfold dir_mode, o1. cbn [o_fs with_fs]. rewrite upd_same. apply U. }
  assert (Nz : ~ In x00 T) by apply Fs.
  assert (Run : forall evs' st, shows (preorder es) (flat evs') -> proto_run Idle evs' = Some st ->
    exists h' o', exec (lt_cbs T hal evs' h1) o1 = Ok (h', o') /\ in_ldir h' T /\ same_l h1 h' /\ same_env o1 o' /\
      o_free o' = o_free o1 - volume (preorder es) /\ keeps (o_fs o1) (o_fs o') /\
      forall q, o_fs o' q = overlay t (fun r => tree_at (o_umask o) r es) (o_fs o1) q).
  { intros evs' st S P.
    apply (tree_placed T hal (lc_hal _ _ _ _ _ _ Calm) (o_priv o) (o_umask o) es T t evs' st Q ND X Nz S P h1 o1 D1 Rd).
    - intros r Hr. unfold o1. cbn [o_fs with_fs]. rewrite upd_other; [apply Fr|].
      intro Q'. apply Hr. apply (f_equal (@length bytes)) in Q'. rewrite app_length in Q'. destruct r; [reflexivity|cbn in Q'; lia].
    - exact V. }
  assert (Env1 : same_env o o1) by (repeat split).
  destruct (lt_extract_ok T F o fuel Hf) as (dfuel0 & K).
  { eapply supported_of. apply Da. }
  { intros s0 dfuel ops rets s evs St Ho Fed R. rewrite <- Fed in Da.
    destruct (session_extends z C e alloc Halloc _ _ _ _ _ _ _ St Ho Da R) as (_ & [->|(evs' & more & st & -> & S & P)] & _).
    - exists LS0, o. split; reflexivity.
    - destruct (Run _ _ S P) as (h' & o' & X2 & _ & (_ & E2) & _).
      rewrite exec_cbs_app in X2. rewrite exec_cbs_cons, X1. cbn [obind].
      destruct (exec (lt_cbs T hal evs' h1) o1) as [[h2 o2]| |] eqn:E3; try discriminate X2. cbn [obind] in X2.
      exists h2, o2. split; [reflexivity|]. destruct (l_err h2) eqn:E4; [|reflexivity].
      rewrite (lt_cbs_err _ _ _ _ _ _ _ X2 E4) in E2. congruence. }
  exists dfuel0. intros dfuel Hd. destruct (K dfuel Hd) as (s0 & ops & rets & s & evs & h & o2 & o' & St & Ho & Fed & R & X2 & E2 & Cl & Ex).
  exists s, h, o'. split; [exact Ex|]. rewrite <- Fed in Da.
  destruct (session_extends z C e alloc Halloc _ _ _ _ _ _ _ St Ho Da R) as (_ & _ & S2).
  intro Rl. destruct (S2 Rl Ne) as (evs' & st & -> & S & P). rewrite exec_cbs_cons, X1 in X2. cbn [obind] in X2.
  destruct (Run _ _ S P) as (h' & o3 & X3 & _ & (P3 & _) & Env3 & _ & _ & Eq). rewrite X3 in X2. injection X2 as <- <-.
  unfold lt_close_fp in Cl. rewrite P3, P1 in Cl. cbn [exec] in Cl. injection Cl as <-.
  split; [exact (same_env_trans _ _ _ Env1 Env3)|].
  intro q. rewrite Eq. unfold overlay. destruct (strip t q) as [r|] eqn:Es.
  - apply strip_spec in Es. subst q. unfold o1. cbn [o_fs with_fs].
    destruct r as [|c r].
    + rewrite app_nil_r, upd_same. cbn [dir_tree]. destruct (tree_at (o_umask o) [] es) eqn:Et; [|reflexivity].
      discriminate Et.
    + cbn [dir_tree]. destruct (tree_at (o_umask o) (c :: r) es); [reflexivity|]. rewrite upd_other; [reflexivity|].
      intro E. apply (f_equal (@length bytes)) in E. rewrite app_length in E. cbn in E. lia.
  - unfold o1. cbn [o_fs with_fs]. rewrite upd_other; [reflexivity|]. intro E; subst q.
    pose proof (strip_app t []) as E. rewrite app_nil_r in E. congruence.
Qed.

(** ** File archives *)
Lemma lt_write_fp T ds : forall h o n p x m fds, l_fp h = Some n -> o_fds o = (n, (p, lenN x)) :: fds ->
  o_fs o p = Some (IFile m x) -> lenN (concat ds) <= o_free o ->
  exists o', exec (lt_cbs T hal (map EvFlRead ds) h) o = Ok (h, o') /\ (forall q, o_fs o' q = upd (o_fs o) p (IFile m (x ++ concat ds)) q) /\
    o_cwd o' = o_cwd o /\ o_umask o' = o_umask o /\ o_priv o' = o_priv o /\ o_fds o' = (n, (p, lenN (x ++ concat ds))) :: fds.
Proof.
  induction ds as [|d ds IH]; intros h o n p x m fds Hf E F L.
  - exists o. cbn. rewrite app_nil_r. repeat split; auto.
    intro q. destruct (path_dec q p) as [->|Hn]; [now rewrite upd_same|now rewrite upd_other].
  - cbn [map concat] in *. rewrite lenN_app in L. rewrite exec_cbs_cons. unfold lt_cb, lt_fl_read. rewrite Hf, exec_sys. cbn [sys].
    rewrite (write_new o n p (lenN x) m x d fds E F eq_refl) by lia. cbn [fst snd exec obind].
    match goal with |- context [exec _ ?oo] => destruct (IH h oo n p (x ++ d) m fds Hf) as (o' & X & Y & A1 & A2 & A3 & A4) end.
    + cbn [o_fds]. now rewrite lenN_app.
    + cbn [o_fs]. apply upd_same.
    + cbn [o_free]. lia.
    + exists o'. split; [exact X|]. rewrite !app_assoc. repeat split; auto.
      intro q. rewrite Y. cbn [o_fs]. destruct (path_dec q p) as [->|Hn]; [now rewrite !upd_same|now rewrite !upd_other].
Qed.

Lemma lt_file T F data t m o fuel : (length F < fuel)%nat ->
  zc_bad C F = false -> zc_fin C F = false ->
  archive_of ContentFile (zc_dec C F) -> dropN 128 (zc_dec C F) = data -> data <> [] ->
  writable_spot o T t m -> lenN data <= o_free o ->
  exists dfuel0, forall dfuel, (dfuel0 <= dfuel)%nat -> exists s h o',
    exec (lt_extract T hal z e alloc fuel dfuel (al 1) obuf hjunk pjunk (Some (F, false))) o = Ok ((1%Z, Some (s, h)), o') /\
    same_env o o' /\ (room_left s -> forall q, o_fs o' q = upd (o_fs o) t (IFile m data) q).
Proof.
  intros Hf B Fi Ar Ed Ne Sp V. destruct (open_spot _ _ _ _ Sp) as (free & Hfree & Op).
  set (h1 := LS (Some (o_next o)) None None 0 false 0).
  assert (X1 : exec (lt_cb T hal EvFlBegin LS0) o = Ok (h1, snd (sys_open true T MODE_FOPEN o))).
  { cbn [lt_cb]. unfold lt_fl_start. rewrite exec_sys. cbn [sys]. rewrite Op. reflexivity. }
  assert (Run : forall ds, lenN (concat ds) <= lenN data ->
    exists o2, exec (lt_cbs T hal (reads ds) LS0) o = Ok (h1, o2) /\ (forall q, o_fs o2 q = upd (o_fs o) t (IFile m (concat ds)) q) /\
      o_cwd o2 = o_cwd o /\ o_umask o2 = o_umask o /\ o_priv o2 = o_priv o /\ o_fds o2 = (o_next o, (t, lenN (concat ds))) :: o_fds o).
  { intros ds L. unfold reads. rewrite exec_cbs_cons, X1. cbn [obind]. rewrite Op. cbn [snd].
    match goal with |- context [exec _ ?oo] => destruct (lt_write_fp T ds h1 oo (o_next o) t [] m (o_fds o)) as (o' & Y1 & Y2 & Y3 & Y4 & Y5 & Y6) end;
      [reflexivity|reflexivity|cbn [o_fs]; apply upd_same|cbn [o_free]; lia|].
    exists o'. split; [exact Y1|]. repeat split; auto.
    intro q. rewrite Y2. cbn [o_fs app]. destruct (path_dec q t) as [->|Hn]; [now rewrite !upd_same|now rewrite !upd_other]. }
  assert (Pre : forall ds, prefix (concat ds) data -> lenN (concat ds) <= lenN data).
  { intros ds [x Q]. rewrite Q, lenN_app. lia. }
  assert (L1 : 128 < lenN (zc_dec C F)).
  { destruct data; [contradiction|]. apply (f_equal lenN) in Ed. rewrite lenN_dropN, lenN_cons in Ed. lia. }
  destruct (lt_extract_ok T F o fuel Hf) as (dfuel0 & K).
  { eapply supported_of. exact Ar. }
  { intros s0 dfuel ops rets s evs St Ho Fed R. rewrite <- Fed in *.
    destruct (file_session z C e alloc _ _ _ _ _ _ _ St Ho Ar (or_introl eq_refl) R) as [[->|(ds & -> & P)] _].
    - exists LS0, o. split; reflexivity.
    - destruct (Run ds) as (o2 & X2 & _). { apply Pre. rewrite <- Ed. exact P. } exists h1, o2. split; [exact X2|reflexivity]. }
  exists dfuel0. intros dfuel Hd. destruct (K dfuel Hd) as (s0 & ops & rets & s & evs & h & o2 & o' & St & Ho & Fed & R & X2 & E2 & Cl & Ex).
  exists s, h, o'. split; [exact Ex|]. rewrite <- Fed in *.
  destruct (file_session z C e alloc _ _ _ _ _ _ _ St Ho Ar (or_introl eq_refl) R) as [S1 S2].
  destruct (S2 B Fi) as [_ S3].
  assert (Q : evs = [] \/ exists ds, evs = reads ds /\ prefix (concat ds) data).
  { destruct S1 as [->|(ds & -> & P)]; [left; reflexivity|right]. exists ds. rewrite <- Ed. auto. }
  destruct Q as [->|(ds & -> & P)].
  - cbn in X2. injection X2 as <- <-. cbn in Cl. injection Cl as <-. split; [repeat split|].
    intro Rl. destruct (S3 Rl L1) as (ds & Q & _). discriminate.
  - destruct (Run ds (Pre ds P)) as (o3 & X3 & Y2 & Y3 & Y4 & Y5 & Y6). rewrite X3 in X2. injection X2 as <- <-.
    unfold lt_close_fp in Cl. cbn [l_fp h1] in Cl. rewrite exec_sys in Cl. cbn [sys] in Cl. rewrite (close_head _ _ _ _ Y6) in Cl.
    cbn [fst snd exec] in Cl. injection Cl as <-. split; [repeat split; assumption|].
    intro Rl. destruct (S3 Rl L1) as (ds' & Q & Q2). assert (ds = ds') by (unfold reads in Q; apply reads_inj; congruence). subst ds'.
    intro q. cbn [o_fs]. rewrite Y2. congruence.
Qed.
End Extraction.
