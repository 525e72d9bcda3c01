(** HLFacts.v: what the callbacks of the extraction do to the file system. *)
From Coq Require Import Lia.
From Verif Require Import Base Format Zlib Compress Parser ParserProofs ParserFacts Decompress ArchiveSpec ArchiveFacts FS FSFacts HL HLSpec.

(** ** Strings in blocks *)
Lemma cstr_app s junk : ~ In x00 s -> cstr (s ++ x00 :: junk) = Some s.
Proof.
  induction s as [|b s IH]; intro H; [reflexivity|]. cbn [app cstr].
  destruct (byte_eqb b x00) eqn:E. { apply byte_eqb_spec in E. subst. destruct H. now left. }
  rewrite IH; [reflexivity|]. intro Q. apply H. now right.
Qed.
Lemma rindex_none c s : ~ In c s -> rindex c s = None.
Proof.
  induction s as [|b s IH]; intro H; [reflexivity|]. cbn [rindex]. rewrite IH by (intro Q; apply H; now right).
  destruct (byte_eqb b c) eqn:E; [|reflexivity]. apply byte_eqb_spec in E. subst. destruct H. now left.
Qed.
Lemma rindex_app c s n : ~ In c n -> rindex c (s ++ c :: n) = Some (lenN s).
Proof.
  intro H. induction s as [|b s IH]; cbn [app rindex].
  - rewrite rindex_none by exact H. rewrite (proj2 (byte_eqb_spec c c) eq_refl). reflexivity.
  - rewrite IH. rewrite lenN_cons. f_equal. lia.
Qed.
Lemma set_byte_app s a r v : set_byte (lenN s) v (s ++ a :: r) = s ++ v :: r.
Proof.
  unfold set_byte. rewrite takeN_app_exact by reflexivity. f_equal. f_equal.
  change (a :: r) with ([a] ++ r). rewrite app_assoc. apply dropN_app_exact. rewrite lenN_app. reflexivity.
Qed.

(** ** Overlays *)
Lemma strip_app t r : strip t (t ++ r) = Some r.
Proof. induction t as [|c t IH]; [reflexivity|]. cbn. now rewrite (proj2 (bytes_eqb_spec c c) eq_refl). Qed.
Lemma strip_spec t : forall q r, strip t q = Some r -> q = t ++ r.
Proof.
  induction t as [|c t IH]; intros q r H; cbn in *; [congruence|].
  destruct q as [|c' q]; [discriminate|]. destruct (bytes_eqb c c') eqn:E; [|discriminate].
  apply bytes_eqb_spec in E. subst. now rewrite (IH _ _ H).
Qed.
Lemma overlay_at t g fs r : overlay t g fs (t ++ r) = match g r with Some i => Some i | None => fs (t ++ r) end.
Proof. unfold overlay. now rewrite strip_app. Qed.
Lemma overlay_out t g fs q : (forall r, q = t ++ r -> g r = None) -> overlay t g fs q = fs q.
Proof. unfold overlay. intro H. destruct (strip t q) as [r|] eqn:E; [|reflexivity]. rewrite (H r); [reflexivity|]. now apply strip_spec. Qed.

Lemma dotb_spec n : dotb n = true <-> dotted n.
Proof.
  unfold dotb, dotted. cbn [existsb]. rewrite !orb_true_iff. split.
  - intros [H|[H|H]]; [left|right|discriminate]; now apply bytes_eqb_spec.
  - intros [H|H]; [left|right; left]; now apply bytes_eqb_spec.
Qed.
Lemma plain_not_dot n : plain n -> dotb n = false.
Proof. intros (_ & _ & _ & H1 & H2 & _). destruct (dotb n) eqn:E; [|reflexivity]. apply dotb_spec in E. destruct E; contradiction. Qed.

(** Splitting off the first entry. *)
Lemma tree_at_cons um n nd es : forall r, ~ In n (map fst es) ->
  tree_at um r ((n, nd) :: es) = match tree_at um r [(n, nd)] with Some i => Some i | None => tree_at um r es end.
Proof.
  intros [|c r] H; [reflexivity|]. cbn [tree_at entry_of]. destruct (dotb c); [reflexivity|].
  destruct (bytes_eqb n c) eqn:E; [|reflexivity].
  apply bytes_eqb_spec in E. subst c.
  assert (Q : entry_of n es = None).
  { clear - H. induction es as [|[m x] es IH]; [reflexivity|]. cbn [entry_of].
    destruct (bytes_eqb m n) eqn:E. { apply bytes_eqb_spec in E. subst. destruct H. now left. }
    apply IH. intro Q. apply H. now right. }
  rewrite Q. destruct nd; destruct r; try reflexivity.
  match goal with |- ?a = _ => destruct a; reflexivity end.
Qed.

(** ** State of the extraction *)

(** The directory the extraction is in. *)
Definition in_dir (h : hst) (s : bytes) : Prop :=
  ~ In x00 s /\ h_dplen h = lenN s /\ exists junk, h_dp h = Some (s ++ x00 :: junk).

Definition same_env (o o' : os) : Prop :=
  o_cwd o' = o_cwd o /\ o_umask o' = o_umask o /\ o_priv o' = o_priv o /\ o_fds o' = o_fds o.
Lemma same_env_trans a b c : same_env a b -> same_env b c -> same_env a c.
Proof. intros (A & B & D & E) (A' & B' & D' & E'). repeat split; congruence. Qed.

(** The fields that do not change. *)
Definition same_h (h h' : hst) : Prop := h_fp h' = h_fp h /\ h_err h' = h_err h /\ h_ret h' = h_ret h.
Lemma same_h_trans a b c : same_h a b -> same_h b c -> same_h a c.
Proof. intros (A & B & D) (A' & B' & D'). repeat split; congruence. Qed.

Section Place.
Context (target : bytes) (hal : N -> bool) (stk : N).
Hypothesis Hal : forall n, hal n = true.
Hypothesis Stk : PATH_MAX + 4 <= stk.
Notation cb := (cb target hal stk).
Notation cbs := (cbs target hal stk).

Lemma exec_cbs_app a : forall b h o,
  exec (cbs (a ++ b) h) o = do (h1, o1) <- exec (cbs a h) o; exec (cbs b h1) o1.
Proof.
  induction a as [|ev a IH]; intros b h o; [reflexivity|]. cbn [app HL.cbs]. rewrite !exec_bind.
  destruct (exec (cb ev h) o) as [[h1 o1]| |]; cbn [obind]; try reflexivity. apply IH.
Qed.
Lemma exec_cbs_cons ev b h o : exec (cbs (ev :: b) h) o = do (h1, o1) <- exec (cb ev h) o; exec (cbs b h1) o1.
Proof. cbn [HL.cbs]. apply exec_bind. Qed.

(** ** Reading the events of one record *)

Lemma idle_entry evs st ft it nm rest : proto_run Idle evs = Some st -> flat evs = OEntry ft it nm :: rest ->
  exists evs', evs = EvEntry ft it nm :: evs' /\ flat evs' = rest.
Proof.
  intros P F. destruct evs as [|ev evs]; [discriminate|]. cbn [proto_run] in P. rewrite flat_cons in F.
  destruct ev; cbn in P; try discriminate.
  - cbn in F. injection F as <- <- <- <-. eauto.
Qed.
Lemma idle_end evs st rest : proto_run Idle evs = Some st -> flat evs = ODirEnd :: rest ->
  exists evs', evs = EvDirEnd :: evs' /\ flat evs' = rest /\ proto_run Idle evs' = Some st.
Proof.
  intros P F. destruct evs as [|ev evs]; [discriminate|]. cbn [proto_run] in P. rewrite flat_cons in F.
  destruct ev; cbn in P; try discriminate.
  - cbn in F. injection F as <-. eauto.
Qed.
Lemma file_reads evs : forall st k data rest, proto_run (InFile k) evs = Some st -> flat evs = map OByte data ++ OFileEnd :: rest ->
  exists ds evs', evs = map EvRead ds ++ EvFileEnd :: evs' /\ concat ds = data /\ flat evs' = rest /\ proto_run Idle evs' = Some st.
Proof.
  induction evs as [|ev evs IH]; intros st k data rest P F. { destruct data; discriminate. }
  cbn [proto_run] in P. rewrite flat_cons in F. destruct ev as [| | | | |d| | |]; cbn [proto_step] in P; try discriminate.
  - destruct (N.leb_spec (lenN d) k) as [L|L]; [|discriminate]. cbn [flat1] in F.
    assert (Q : exists data2, data = d ++ data2 /\ flat evs = map OByte data2 ++ OFileEnd :: rest).
    { clear - F. revert data F. induction d as [|b d IHd]; intros data F; [exists data; auto|].
      destruct data as [|b' data]; [discriminate|]. cbn in F. injection F as <- F. destruct (IHd _ F) as (d2 & -> & E).
      exists d2. auto. }
    destruct Q as (data2 & -> & F2). destruct (IH _ _ _ _ P F2) as (ds & evs' & -> & <- & A & B).
    exists (d :: ds), evs'. auto.
  - destruct data as [|b data]; [|discriminate]. cbn in F. injection F as <-.
    destruct (k =? 0); [|discriminate]. exists [], evs. auto.
Qed.

(** ** Effects of the callbacks *)

Lemma path_ok h s it name : in_dir h s -> it_nlen it = lenN name ->
  entry_path it (padded name) h = Ok ((s ++ x2f :: name) ++ [x00]).
Proof.
  intros (_ & L & junk & E) N. unfold entry_path. rewrite E, L, N. unfold padded.
  replace (lenN (name ++ _) <? lenN name) with false by (symmetry; apply N.ltb_ge; rewrite lenN_app; lia).
  replace (lenN (s ++ x00 :: junk) <? lenN s) with false by (symmetry; apply N.ltb_ge; rewrite lenN_app; lia).
  rewrite !takeN_app_exact by reflexivity. now rewrite <- app_assoc.
Qed.
Lemma no_nul s name : ~ In x00 s -> plain name -> ~ In x00 (s ++ x2f :: name).
Proof. intros H (_ & _ & P & _) Q. apply in_app_iff in Q. destruct Q as [Q|[Q|Q]]; [auto|discriminate|auto]. Qed.

Lemma open_file h o s t it name : in_dir h s -> it_nlen it = lenN name -> plain name -> lenN s + 1 + lenN name < PATH_MAX ->
  dir_at o s t -> o_fs o (t ++ [name]) = None -> can_w (o_priv o) (dir_mode (o_fs o) t) = true ->
  exec (cb (EvEntry FtFile it (padded name)) h) o =
    Ok (h_setfd (Some (o_next o)) (h_setname (padded name) h),
        OS (upd (o_fs o) (t ++ [name]) (IFile (file_perm (o_umask o) (it_mode it)) [])) (o_free o) (o_cwd o) (o_umask o) (o_priv o)
           ((o_next o, (t ++ [name], 0)) :: o_fds o) (o_next o + 1)).
Proof.
  intros D N Pn L Da Ab W. unfold HL.cb, cb_entry. pose proof D as (Nz & Ld & _).
  cbn [h_dplen h_setname]. rewrite Ld, N.
  replace (stk <? lenN s + 4 + lenN name) with false by (symmetry; apply N.ltb_ge; lia).
  rewrite path_ok with (s := s); [|exact D|exact N]. cbn [plift pbind]. unfold with_cstr.
  rewrite cstr_app by (now apply no_nul). rewrite exec_sys. cbn [sys].
  rewrite (open_entry o s t name _ _ Da Pn L Ab W). unfold open_at. cbn [fst snd exec].
  unfold new_file_mode, file_perm, with_fs. cbn [o_fs o_free o_cwd o_umask o_priv o_fds o_next].
  do 3 f_equal. f_equal. f_equal. f_equal. rewrite (N.land_comm 511), <- N.land_assoc. reflexivity.
Qed.

Lemma write_all ds : forall h o n p x m fds, h_fd h = Some n -> o_fds o = (n, (p, lenN x)) :: fds ->
  o_fs o p = Some (IFile m x) -> lenN (concat ds) <= o_free o ->
  exists o', exec (cbs (map EvRead ds) h) o = Ok (h, o') /\ (forall q, o_fs o' q = upd (o_fs o) p (IFile m (x ++ concat ds)) q) /\
    o_free o' = o_free o - lenN (concat ds) /\ o_cwd o' = o_cwd o /\ o_umask o' = o_umask o /\ o_priv o' = o_priv o /\
    o_fds o' = (n, (p, lenN (x ++ concat ds))) :: fds.
Proof.
  induction ds as [|d ds IH]; intros h o n p x m fds Hf E F L.
  - exists o. cbn. rewrite app_nil_r, N.sub_0_r. repeat split; auto.
    intro q. destruct (path_dec q p) as [->|Hn]; [now rewrite upd_same|now rewrite upd_other].
  - cbn [map concat] in *. rewrite lenN_app in L. rewrite exec_cbs_cons. unfold HL.cb, cb_read. rewrite exec_sys, Hf. cbn [sys].
    rewrite (write_new o n p (lenN x) m x d fds E F eq_refl) by lia. cbn [fst snd exec obind].
    match goal with |- context [exec _ ?oo] => destruct (IH h oo n p (x ++ d) m fds Hf) as (o' & X & Y & Z & A1 & A2 & A3 & A4) end.
    + cbn [o_fds]. now rewrite lenN_app.
    + cbn [o_fs]. apply upd_same.
    + cbn [o_free]. lia.
    + exists o'. split; [exact X|]. cbn [o_fs o_free o_cwd o_umask o_priv] in *. rewrite <- app_assoc in *.
      split. { intro q. rewrite Y. destruct (path_dec q p) as [->|Hn]; [now rewrite !upd_same|now rewrite !upd_other]. }
      split. { rewrite Z, lenN_app. lia. } auto.
Qed.

Lemma place_file h o s t it name ds : in_dir h s -> it_nlen it = lenN name -> plain name -> lenN s + 1 + lenN name < PATH_MAX ->
  dir_at o s t -> o_fs o (t ++ [name]) = None -> can_w (o_priv o) (dir_mode (o_fs o) t) = true -> lenN (concat ds) <= o_free o ->
  exists h' o', exec (cbs (EvEntry FtFile it (padded name) :: map EvRead ds ++ [EvFileEnd]) h) o = Ok (h', o') /\
    in_dir h' s /\ same_h h h' /\ same_env o o' /\ o_free o' = o_free o - lenN (concat ds) /\
    (forall q, o_fs o' q = upd (o_fs o) (t ++ [name]) (IFile (file_perm (o_umask o) (it_mode it)) (concat ds)) q).
Proof.
  intros D N Pn L Da Ab W Fr. rewrite exec_cbs_cons, (open_file h o s t it name D N Pn L Da Ab W). cbn [obind].
  rewrite exec_cbs_app.
  match goal with |- context [exec (cbs (map EvRead ds) ?hh) ?oo] =>
    destruct (write_all ds hh oo (o_next o) (t ++ [name]) [] (file_perm (o_umask o) (it_mode it)) (o_fds o)) as (o' & X & Y & Z & A1 & A2 & A3 & A4) end.
  - reflexivity. - reflexivity. - cbn [o_fs]. apply upd_same. - exact Fr.
  - rewrite X. cbn [obind]. rewrite exec_cbs_cons. unfold HL.cb, cb_file_end. rewrite exec_sys. cbn [h_fd h_setfd sys].
    rewrite (close_head _ _ _ _ A4). cbn [snd exec obind HL.cbs].
    eexists. eexists. split; [reflexivity|]. cbn [o_fs o_free o_cwd o_umask o_priv o_fds app] in *.
    split; [exact D|]. split; [repeat split|]. split; [repeat split; assumption|]. split; [exact Z|].
    intro q. rewrite Y. destruct (path_dec q (t ++ [name])) as [->|Hn]; [now rewrite !upd_same|now rewrite !upd_other].
Qed.

Lemma mkdir_fresh o s t c mode : dir_at o s t -> plain c -> ~ In x00 s -> lenN s + 1 + lenN c < PATH_MAX ->
  o_fs o (t ++ [c]) = None -> can_w (o_priv o) (dir_mode (o_fs o) t) = true ->
  exec (mkdir_recurse true (s ++ x2f :: c) mode) o = Ok (0%Z, with_fs (upd (o_fs o) (t ++ [c]) (IDir (dir_perm (o_umask o) mode))) o).
Proof.
  intros Da Pc Nz L Ab W. unfold mkdir_recurse, mkdir_raw. rewrite exec_bind. unfold os_create, with_cstr.
  rewrite cstr_app by (now apply no_nul). rewrite exec_sys. cbn [sys]. rewrite (mkdir_entry o s t c mode Da Pc L Ab W). reflexivity.
Qed.

Lemma enter_dir h o s t it name : in_dir h s -> it_nlen it = lenN name -> plain name -> lenN s + 1 + lenN name < PATH_MAX ->
  dir_at o s t -> o_fs o (t ++ [name]) = None -> can_w (o_priv o) (dir_mode (o_fs o) t) = true ->
  exists h', exec (cb (EvEntry FtDir it (padded name)) h) o =
      Ok (h', with_fs (upd (o_fs o) (t ++ [name]) (IDir (dir_perm (o_umask o) (it_mode it)))) o) /\
    in_dir h' (s ++ x2f :: name) /\ same_h h h'.
Proof.
  intros D N Pn L Da Ab W. unfold HL.cb, cb_entry. pose proof D as (Nz & Ld & _). rewrite Hal. cbn [negb].
  rewrite path_ok with (s := s); [|exact D|exact N]. cbn [plift pbind]. unfold with_cstr.
  rewrite cstr_app by (now apply no_nul). rewrite exec_bind, Hal, (mkdir_fresh o s t name _ Da Pn Nz L Ab W). cbn [obind exec Z.eqb].
  eexists. split; [reflexivity|]. split; [|repeat split].
  split; [now apply no_nul|]. split.
  - cbn [h_dplen h_alloc h_setdir h_setname]. rewrite Ld, N, lenN_app, lenN_cons. lia.
  - exists []. reflexivity.
Qed.

Lemma leave_dir h o s name : in_dir h (s ++ x2f :: name) -> plain name ->
  exists h', exec (cb EvDirEnd h) o = Ok (h', o) /\ in_dir h' s /\ same_h h h'.
Proof.
  intros (Nz & Ld & junk & E) (_ & P & _). unfold HL.cb, cb_dir_end. rewrite E. unfold with_cstr. rewrite cstr_app by exact Nz.
  rewrite (rindex_app x2f s name P). eexists. split; [reflexivity|]. split; [|repeat split].
  split. { intro Q. apply Nz. apply in_app_iff. now left. }
  split; [reflexivity|]. exists (name ++ x00 :: junk). cbn [h_dp h_setdir]. f_equal.
  rewrite <- app_assoc. cbn [app]. apply set_byte_app.
Qed.

(** ** Trees *)

Lemma overlay_keeps t g fs : (forall r, g r <> None -> fs (t ++ r) = None) -> forall fs',
  (forall q, fs' q = overlay t g fs q) -> keeps fs fs'.
Proof.
  intros H fs' E p. rewrite E. unfold overlay. destruct (strip t p) as [r|] eqn:S; [|destruct (fs p) as [[]|]; eauto].
  apply strip_spec in S. subst p. specialize (H r). destruct (g r); [rewrite H by discriminate; exact I|]. destruct (fs _) as [[]|]; eauto.
Qed.

Lemma app_inv_tail_cons (t : path) c r q : t ++ c :: r = t ++ q -> q = c :: r.
Proof. intro H. apply app_inv_head in H. now symmetry. Qed.

Lemma volume_app a b : volume (a ++ b) = volume a + volume b.
Proof. induction a as [|[]]; cbn [app volume]; lia. Qed.
Lemma preorder_cons n nd es : preorder ((n, nd) :: es) = preorder1 n nd ++ preorder es.
Proof. reflexivity. Qed.

Lemma tree_at_single_none um n nd r : (forall r', r = n :: r' -> dotb n = true) -> tree_at um r [(n, nd)] = None.
Proof.
  intro H. destruct r as [|c r]; [reflexivity|]. cbn [tree_at entry_of]. destruct (dotb c) eqn:D; [reflexivity|].
  destruct (bytes_eqb n c) eqn:E; [|reflexivity]. apply bytes_eqb_spec in E. subst c. rewrite (H r eq_refl) in D. discriminate.
Qed.
Lemma tree_at_none um es : forall r, (forall c r', r = c :: r' -> In c (map fst es) -> dotb c = true) -> tree_at um r es = None.
Proof.
  intros [|c r] H; [reflexivity|]. cbn [tree_at]. destruct (dotb c) eqn:D; [reflexivity|].
  assert (Q : entry_of c es = None).
  { assert (N : ~ In c (map fst es)) by (intro Q; rewrite (H c r eq_refl Q) in D; discriminate).
    clear - N. induction es as [|[m x] es IH]; [reflexivity|]. cbn [entry_of].
    destruct (bytes_eqb m c) eqn:E. { apply bytes_eqb_spec in E. subst. destruct N. now left. }
    apply IH. intro Q. apply N. now right. }
  now rewrite Q.
Qed.

Section Tree.
Context (priv : bool) (um : N).

(** Where entries can be made. *)
Definition ready (o : os) (s : bytes) (t : path) : Prop :=
  dir_at o s t /\ o_umask o = um /\ o_priv o = priv /\ can_w priv (dir_mode (o_fs o) t) = true.

Lemma ready_keeps o o' s t : ready o s t -> same_env o o' -> keeps (o_fs o) (o_fs o') -> ready o' s t.
Proof.
  intros (A & B & D & E) (F1 & F2 & F3 & F4) K. split; [|split; [congruence|split; [congruence|]]].
  - eapply dir_at_keeps; eauto.
  - destruct (dir_mode_at _ _ _ A) as (m & Em & _). unfold dir_mode in *. rewrite Em in E.
    pose proof (K t) as Kt. rewrite Em in Kt. now rewrite Kt.
Qed.

(** The events [evs1] put the inodes [g] below the directory. *)
Definition puts (evs1 : list event) (g : path -> option inode) (vol : N) (s : bytes) (t : path) (free : path -> Prop) : Prop :=
  forall h o, in_dir h s -> ready o s t -> (forall r, free r -> o_fs o (t ++ r) = None) -> vol <= o_free o ->
  exists h' o', exec (cbs evs1 h) o = Ok (h', o') /\ in_dir h' s /\ same_h h h' /\ same_env o o' /\
    o_free o' = o_free o - vol /\ keeps (o_fs o) (o_fs o') /\ forall q, o_fs o' q = overlay t g (o_fs o) q.

Definition placed (rs : list arec) (g : path -> option inode) (s : bytes) (t : path) (free : path -> Prop) : Prop :=
  forall rest evs st, shows (rs ++ rest) (flat evs) -> proto_run Idle evs = Some st ->
  exists ev1 ev2, evs = ev1 ++ ev2 /\ shows rest (flat ev2) /\ proto_run Idle ev2 = Some st /\
    puts ev1 g (volume rs) s t free.

Definition below (name : bytes) (r : path) : Prop := dotb name = false /\ exists r', r = name :: r'.

Definition node_placed (nd : snode) : Prop := forall name s t, quiet nd -> extractable priv um (lenN s) name nd -> ~ In x00 s ->
  placed (preorder1 name nd) (fun r => tree_at um r [(name, nd)]) s t (below name).

Lemma puts_nil g s t fr : (forall r, g r = None) -> puts [] g 0 s t fr.
Proof.
  intros G h o D R _ _. exists h, o. cbn. rewrite N.sub_0_r. repeat split; auto; try apply D; try apply keeps_refl.
  intro q. symmetry. apply overlay_out. auto.
Qed.

Lemma puts_app ev1 ev2 (g1 g2 g : path -> option inode) v1 v2 s t f1 f2 (f : path -> Prop) : puts ev1 g1 v1 s t f1 -> puts ev2 g2 v2 s t f2 ->
  (forall r, f1 r -> f r) -> (forall r, f2 r -> f r /\ g1 r = None) ->
  (forall r, g r = match g1 r with Some i => Some i | None => g2 r end) -> (forall r, g2 r <> None -> g1 r = None) ->
  puts (ev1 ++ ev2) g (v1 + v2) s t f.
Proof.
  intros P1 P2 F1 F2 G G2 h o D R Fr L.
  destruct (P1 h o D R) as (h1 & o1 & X1 & D1 & H1 & E1 & V1 & K1 & Y1). { auto. } { lia. }
  destruct (P2 h1 o1 D1 (ready_keeps _ _ _ _ R E1 K1)) as (h2 & o2 & X2 & D2 & H2 & E2 & V2 & K2 & Y2).
  { intros r Hr. destruct (F2 r Hr) as [A B]. rewrite Y1, overlay_at, B. auto. } { lia. }
  exists h2, o2. rewrite exec_cbs_app, X1. cbn [obind]. split; [exact X2|]. split; [exact D2|].
  split; [eapply same_h_trans; eauto|]. split; [eapply same_env_trans; eauto|]. split; [lia|].
  split; [eapply keeps_trans; eauto|]. intro q. rewrite Y2. unfold overlay. rewrite Y1. unfold overlay.
  destruct (strip t q) as [r|]; [|reflexivity]. rewrite G. specialize (G2 r).
  destruct (g2 r); [rewrite G2 by discriminate; reflexivity|]. destruct (g1 r); reflexivity.
Qed.

Lemma list_placed es : Forall (fun x => node_placed (snd x)) es -> forall s t, Forall (fun x => quiet (snd x)) es ->
  NoDup (map fst es) -> Forall (fun x => extractable priv um (lenN s) (fst x) (snd x)) es -> ~ In x00 s ->
  placed (preorder es) (fun r => tree_at um r es) s t (fun r => exists c, In c (map fst es) /\ below c r).
Proof.
  induction es as [|[n nd] es IH]; intros HP s t Q ND X Nz rest evs st S P.
  { exists [], evs. cbn in S |- *. split; [reflexivity|]. split; [exact S|]. split; [exact P|]. apply puts_nil.
    intro r. now apply tree_at_none. }
  inversion HP as [|? ? HP1 HP2]; inversion Q as [|? ? Q1 Q2]; inversion X as [|? ? X1 X2]; inversion ND as [|? ? N1 N2]; subst.
  cbn [fst snd map] in *. rewrite preorder_cons, <- app_assoc in S.
  destruct (HP1 n s t Q1 X1 Nz _ _ _ S P) as (ev1 & ev2 & -> & S2 & P2 & U1).
  destruct (IH HP2 s t Q2 N2 X2 Nz _ _ _ S2 P2) as (ev3 & ev4 & -> & S4 & P4 & U3).
  exists (ev1 ++ ev3), ev4. split; [now rewrite app_assoc|]. split; [exact S4|]. split; [exact P4|].
  rewrite preorder_cons, volume_app. eapply puts_app; [exact U1|exact U3| | | |].
  - intros r Hr. exists n. split; [now left|exact Hr].
  - intros r (c & Hc & B). split; [exists c; split; [now right|exact B]|].
    apply tree_at_single_none. intros r' ->. destruct B as (B1 & r2 & B2). injection B2 as -> ->. contradiction.
  - intro r. apply tree_at_cons. exact N1.
  - intros r Hr. apply tree_at_single_none. intros r' ->. exfalso. apply Hr. apply tree_at_none.
    intros c r2 E Hc. injection E as -> ->. contradiction.
Qed.

Lemma file_placed o st m sz d r : node_placed (SFile o st m sz d r).
Proof.
  intros name s t Q X Nz rest evs pst S P. cbn [preorder1] in *.
  destruct (dotb name) eqn:D.
  { exists [], evs. split; [reflexivity|]. split; [exact S|]. split; [exact P|]. apply puts_nil.
    intro q. apply tree_at_single_none. auto. }
  inversion Q; subst. inversion X as [? ? ? Dd| | |]; subst; [apply dotb_spec in Dd; congruence|].
  cbn [app] in S. inversion S as [| |? ? ? ? o S' E1 E2| |]; subst. symmetry in E2.
  destruct (idle_entry _ _ _ _ _ _ P E2) as (evs' & -> & F).
  cbn [proto_run proto_step it_size] in P. destruct (file_reads _ _ _ _ _ P F) as (ds & evs2 & -> & Ed & F2 & P2).
  exists (EvEntry FtFile (Item (lenN d) (norm_len64 (lenN d)) (lenN name) (norm_len32 (lenN name)) m CT_FILE) (padded name) :: map EvRead ds ++ [EvFileEnd]), evs2.
  split. { cbn [app]. now rewrite <- app_assoc. }
  split; [now rewrite F2|]. split; [exact P2|].
  intros h os D0 (Rd & Ru & Rp & Rw) Fr L. cbn [volume] in *. rewrite N.add_0_r in *.
  assert (Ab : o_fs os (t ++ [name]) = None) by (apply Fr; split; [exact D|eauto]).
  match goal with Hp : plain name |- _ => rename Hp into Pn end.
  match goal with Hp : _ + 1 + _ < PATH_MAX |- _ => rename Hp into Ln end.
  edestruct (place_file h os s t (Item (lenN d) (norm_len64 (lenN d)) (lenN name) (norm_len32 (lenN name)) m CT_FILE) name ds) as (h' & o' & X1 & D1 & H1 & E1 & V1 & Y1);
    [exact D0|reflexivity|exact Pn|exact Ln|exact Rd|exact Ab|now rewrite Rp|rewrite Ed; exact L|].
  exists h', o'. split; [exact X1|]. split; [exact D1|]. split; [exact H1|]. split; [exact E1|]. split; [rewrite <- Ed; exact V1|].
  rewrite Ed, Ru in Y1. cbn [it_mode] in Y1.
  assert (Yo : forall q, o_fs o' q = overlay t (fun q0 => tree_at um q0 [(name, SFile true true m (lenN d) d false)]) (o_fs os) q).
  { intro q. rewrite Y1. destruct (path_dec q (t ++ [name])) as [->|Hn].
    - rewrite upd_same, overlay_at. cbn [tree_at entry_of]. rewrite D, (proj2 (bytes_eqb_spec name name) eq_refl). reflexivity.
    - rewrite upd_other by exact Hn. symmetry. apply overlay_out. intros q0 ->.
      destruct q0 as [|c q0]; [reflexivity|]. cbn [tree_at entry_of]. destruct (dotb c); [reflexivity|].
      destruct (bytes_eqb name c) eqn:Ec; [|reflexivity]. apply bytes_eqb_spec in Ec. subst c. destruct q0; [congruence|reflexivity]. }
  split; [|exact Yo]. eapply overlay_keeps; [|exact Yo]. intros q Hq. apply Fr.
  split; [exact D|]. destruct q as [|c q]; [contradiction|]. exists q. f_equal.
  cbn [tree_at entry_of] in Hq. destruct (dotb c); [contradiction|]. destruct (bytes_eqb name c) eqn:Ec; [|contradiction].
  apply bytes_eqb_spec in Ec. congruence.
Qed.

Lemma dir_placed m es : Forall (fun x => node_placed (snd x)) es -> node_placed (SDir m es).
Proof.
  intros HP name s t Q X Nz rest evs pst S P. cbn [preorder1] in *.
  destruct (dotb name) eqn:D.
  { exists [], evs. split; [reflexivity|]. split; [exact S|]. split; [exact P|]. apply puts_nil.
    intro q. apply tree_at_single_none. auto. }
  inversion Q as [|? ? Qe| |]; subst. inversion X as [? ? ? Dd| | |? ? ? ? Pn Ln [Ux Uw] ND Xe]; subst; [apply dotb_spec in Dd; congruence|].
  cbn [app] in S. inversion S as [|? ? ? o it I1 I2 I3 I4 S' E1 E2| | |]; subst. symmetry in E2.
  destruct (idle_entry _ _ _ _ _ _ P E2) as (evs' & -> & <-).
  cbn [proto_run proto_step] in P. fold (preorder es) in *. rewrite <- app_assoc in S'.
  assert (Nz2 : ~ In x00 (s ++ x2f :: name)) by (now apply no_nul).
  assert (Ls : lenN (s ++ x2f :: name) = lenN s + 1 + lenN name) by (rewrite lenN_app, lenN_cons; lia).
  rewrite <- Ls in Xe.
  destruct (list_placed es HP (s ++ x2f :: name) (t ++ [name]) Qe ND Xe Nz2 _ _ _ S' P) as (ev1 & ev2 & -> & S2 & P2 & U).
  cbn [app] in S2. inversion S2 as [| | | |? o2 S3 E3 E4]; subst. symmetry in E4.
  destruct (idle_end _ _ _ P2 E4) as (ev3 & -> & <- & P3).
  exists (EvEntry FtDir it (padded name) :: ev1 ++ [EvDirEnd]), ev3.
  split. { cbn [app]. now rewrite <- app_assoc. }
  split; [exact S3|]. split; [exact P3|].
  intros h os D0 (Rd & Ru & Rp & Rw) Fr L.
  replace (volume (ADir name (it_mode it) :: preorder es ++ [AEnd])) with (volume (preorder es)) in *
    by (cbn [volume]; rewrite volume_app; cbn [volume]; lia).
  assert (Ab : o_fs os (t ++ [name]) = None) by (apply Fr; split; [exact D|eauto]).
  destruct (enter_dir h os s t it name D0 I1 Pn Ln Rd Ab ltac:(now rewrite Rp)) as (h1 & X1 & D1 & H1).
  rewrite exec_cbs_cons, X1. cbn [obind]. rewrite exec_cbs_app. rewrite Ru.
  set (o1 := with_fs (upd (o_fs os) (t ++ [name]) (IDir (dir_perm um (it_mode it)))) os).
  assert (K1 : keeps (o_fs os) (o_fs o1)) by (apply keeps_upd_new; exact Ab).
  assert (R1 : ready o1 (s ++ x2f :: name) (t ++ [name])).
  { split; [|split; [exact Ru|split; [exact Rp|]]].
    - eapply dir_at_entry; [exact Pn|eapply dir_at_keeps; [exact K1|reflexivity|reflexivity|exact Rd]|apply upd_same|].
      cbn. now rewrite Rp.
    - unfold dir_mode, o1. cbn [o_fs with_fs]. rewrite upd_same. exact Uw. }
  destruct (U h1 o1 D1 R1) as (h2 & o2 & X2 & D2 & H2 & E2' & V2 & K2 & Y2).
  { intros r (c & Hc & B1 & r' & ->). unfold o1. cbn [o_fs with_fs]. rewrite upd_other.
    - rewrite <- app_assoc. apply Fr. split; [exact D|]. eexists. reflexivity.
    - intro Q'. apply (f_equal (@length bytes)) in Q'. rewrite !app_length in Q'. cbn [length] in Q'. lia. }
  { exact L. }
  rewrite X2. cbn [obind]. rewrite exec_cbs_cons.
  destruct (leave_dir h2 o2 s name D2 Pn) as (h3 & X3 & D3 & H3). rewrite X3. cbn [obind HL.cbs exec].
  exists h3, o2. split; [reflexivity|]. split; [exact D3|].
  split. { eapply same_h_trans; [exact H1|]. eapply same_h_trans; [exact H2|exact H3]. }
  split; [exact E2'|]. split; [exact V2|].
  split; [eapply keeps_trans; eauto|].
  intro q. rewrite Y2. unfold o1. cbn [o_fs with_fs].
  destruct (strip t q) as [r|] eqn:St.
  2:{ unfold overlay at 2. rewrite St. rewrite overlay_out.
      - apply upd_other. intros ->. rewrite strip_app in St. discriminate.
      - intros r ->. rewrite <- app_assoc, strip_app in St. discriminate. }
  apply strip_spec in St. subst q. rewrite overlay_at.
  destruct r as [|c r].
  { cbn [tree_at]. rewrite app_nil_r. rewrite overlay_out.
    - apply upd_other. intro Q'. apply (f_equal (@length bytes)) in Q'. rewrite app_length in Q'. cbn in Q'. lia.
    - intros r Q'. apply (f_equal (@length bytes)) in Q'. rewrite !app_length in Q'. cbn in Q'. lia. }
  cbn [tree_at entry_of]. destruct (bytes_dec name c) as [<-|Hc].
  - rewrite D, (proj2 (bytes_eqb_spec name name) eq_refl).
    change (t ++ name :: r) with (t ++ ([name] ++ r)). rewrite app_assoc, overlay_at.
    destruct r as [|c' r]. { cbn [tree_at]. rewrite app_nil_r, upd_same. reflexivity. }
    rewrite upd_other; [reflexivity|]. intro Q'. apply (f_equal (@length bytes)) in Q'. rewrite !app_length in Q'. cbn in Q'. lia.
  - rewrite (bytes_eqb_neq _ _ Hc). rewrite overlay_out.
    + rewrite upd_other. { now destruct (dotb c). } intro Q'. apply app_inv_head in Q'. congruence.
    + intros q Q'. exfalso. rewrite <- app_assoc in Q'. apply app_inv_head in Q'. cbn in Q'. congruence.
Qed.

Lemma node_placed_all : forall nd, node_placed nd.
Proof.
  induction nd as [o st m sz d r|m es IH|m sz tg|] using snode_ind2.
  - apply file_placed.
  - now apply dir_placed.
  - intros name s t Q X Nz rest evs pst S P. inversion X as [? ? ? Dd| | |]; subst. apply dotb_spec in Dd.
    cbn [preorder1] in *. rewrite Dd in *. exists [], evs. split; [reflexivity|]. split; [exact S|]. split; [exact P|]. apply puts_nil.
    intro q. apply tree_at_single_none. auto.
  - intros name s t Q X Nz rest evs pst S P. cbn [preorder1] in *.
    exists [], evs. replace (if dotb name then [] else []) with (@nil arec) in * by (now destruct (dotb name)).
    split; [reflexivity|]. split; [exact S|]. split; [exact P|]. apply puts_nil.
    intros [|c q]; [reflexivity|]. cbn [tree_at entry_of]. destruct (dotb c); [reflexivity|]. now destruct (bytes_eqb name c).
Qed.

(** A whole archive. *)
Lemma tree_placed es s t evs st : Forall (fun x => quiet (snd x)) es -> NoDup (map fst es) ->
  Forall (fun x => extractable priv um (lenN s) (fst x) (snd x)) es -> ~ In x00 s ->
  shows (preorder es) (flat evs) -> proto_run Idle evs = Some st ->
  puts evs (fun r => tree_at um r es) (volume (preorder es)) s t (fun r => r <> []).
Proof.
  intros Q ND X Nz S P.
  assert (HP : Forall (fun x : bytes * snode => node_placed (snd x)) es) by (apply Forall_forall; intros; apply node_placed_all).
  rewrite <- (app_nil_r (preorder es)) in S.
  destruct (list_placed es HP s t Q ND X Nz _ _ _ S P) as (ev1 & ev2 & -> & S2 & P2 & U).
  inversion S2 as [Z|? ? ? ? ? ? ? ? ? ? Z1 Z2|? ? ? ? ? ? Z1 Z2|? ? ? ? ? ? Z1 Z2|]; subst.
  assert (E2 : ev2 = []).
  { destruct ev2 as [|ev ev2]; [reflexivity|]. rewrite flat_cons in *. exfalso.
    destruct ev; cbn in P2; try discriminate P2; cbn in *; discriminate. }
  rewrite E2, app_nil_r. intros h o A B D E. apply U; auto. intros r (c & _ & _ & r' & ->). apply D. discriminate.
Qed.
End Tree.
End Place.
