(** WinExtractFacts.v: extraction on Windows. *)
From Coq Require Import Lia.
From Verif Require Import Base Format Zlib Compress Parser ParserProofs ParserFacts Decompress DecompressProofs MidProofs MidFacts
  ArchiveSpec ArchiveFacts ArchiveDecode FS FSFacts HL HLSpec HLFacts HLDrive HLProps HLSafe WinTools WinFacts WinExtract WinExtractSpec.

(** ** Names *)
Lemma forallb_not c b n : wchar b = false -> forallb wchar n = true -> c = b -> ~ In c n.
Proof. intros H F -> Q. rewrite forallb_forall in F. rewrite (F _ Q) in H. discriminate. Qed.
Lemma wplain_plain n : wplain n = true -> plain n /\ ~ In x5c n.
Proof.
  unfold wplain. rewrite !andb_true_iff, !negb_true_iff. intros [[[[[A B] F] D] E] _]. apply N.leb_le in B.
  split; [|eapply forallb_not; [|exact F|reflexivity]; reflexivity].
  split; [destruct n; discriminate|]. split; [eapply forallb_not; [|exact F|reflexivity]; reflexivity|].
  split; [eapply forallb_not; [|exact F|reflexivity]; reflexivity|].
  split; [intros ->; discriminate D|]. split; [intros ->; discriminate D|exact B].
Qed.
Lemma plain_wname n : plain n -> ~ In x5c n -> wname n.
Proof. intros (A & B & D & _) E. repeat split; assumption. Qed.

Lemma bytes_eqb_false a b : a <> b -> bytes_eqb a b = false.
Proof. apply bytes_eqb_neq. Qed.
Lemma starts_app s r : s <> [] -> starts_sep (s ++ r) = starts_sep s.
Proof. destruct s; [contradiction|reflexivity]. Qed.
Lemma xkey_entry cwd s n : s <> [] -> plain n -> ~ In x5c n -> xkey cwd (s ++ x2f :: n) = xkey cwd s ++ [fold_case n].
Proof.
  intros Hs P B. unfold xkey, wcomps. rewrite starts_app by exact Hs.
  rewrite wcomps_from_app; [|reflexivity|now apply plain_wname]. rewrite fold_left_app. cbn [fold_left]. unfold xstep at 1.
  destruct P as (_ & _ & _ & D1 & D2 & _). now rewrite (bytes_eqb_neq _ _ D1), (bytes_eqb_neq _ _ D2).
Qed.

(** ** The tree *)
Lemma xupd_same fs p i : xupd fs p i p = Some i.
Proof. unfold xupd. now rewrite (proj2 (path_eqb_spec p p) eq_refl). Qed.
Lemma xupd_other fs p i q : q <> p -> xupd fs p i q = fs q.
Proof. intro H. unfold xupd. destruct (path_eqb q p) eqn:E; [apply path_eqb_spec in E; contradiction|reflexivity]. Qed.
Lemma xoverlay_at t g fs r : xoverlay t g fs (t ++ r) = match g r with Some i => Some i | None => fs (t ++ r) end.
Proof. unfold xoverlay. now rewrite strip_app. Qed.
Lemma xoverlay_out t g fs q : (forall r, q = t ++ r -> g r = None) -> xoverlay t g fs q = fs q.
Proof. intro H. unfold xoverlay. destruct (strip t q) as [r|] eqn:E; [|reflexivity]. apply strip_spec in E. now rewrite (H r E). Qed.


Definition folded (es : list (bytes * snode)) : list bytes := map (fun x => fold_case (fst x)) es.
Lemma win_entry_none c es : ~ In c (folded es) -> win_entry c es = None.
Proof.
  induction es as [|[n nd] es IH]; intro H; [reflexivity|]. cbn [win_entry folded map fst] in *.
  rewrite (bytes_eqb_neq (fold_case n) c), andb_false_r by (intro Q; apply H; now left). apply IH. intro Q. apply H. now right.
Qed.
Lemma win_at_cons n nd es r : ~ In (fold_case n) (folded es) ->
  win_at r ((n, nd) :: es) = match win_at r [(n, nd)] with Some i => Some i | None => win_at r es end.
Proof.
  intro H. destruct r as [|c r]; [reflexivity|]. cbn [win_at win_entry].
  destruct (negb (dotb n)); cbn [andb]; [|reflexivity].
  destruct (bytes_eqb (fold_case n) c) eqn:E; [|reflexivity]. apply bytes_eqb_spec in E. subst c.
  rewrite (win_entry_none _ _ H). destruct nd; destruct r; try reflexivity. destruct (win_at _ _); reflexivity.
Qed.
Lemma win_at_single_none n nd r : (forall r', r = fold_case n :: r' -> dotb n = true) -> win_at r [(n, nd)] = None.
Proof.
  intro H. destruct r as [|c r]; [reflexivity|]. cbn [win_at win_entry]. destruct (bytes_eqb (fold_case n) c) eqn:E.
  - apply bytes_eqb_spec in E. subst c. rewrite (H r eq_refl). destruct r; reflexivity.
  - rewrite andb_false_r. destruct r; reflexivity.
Qed.
Lemma win_at_none es : forall r, (forall c r', r = c :: r' -> ~ In c (folded es)) -> win_at r es = None.
Proof. intros [|c r] H; [reflexivity|]. cbn [win_at]. rewrite (win_entry_none c es (H _ _ eq_refl)). now destruct r. Qed.

Definition xkeeps (fs fs' : xtree) : Prop := forall q i, fs q = Some i -> fs' q = Some i.
Lemma xoverlay_keeps t g fs fs' : (forall r, g r <> None -> fs (t ++ r) = None) -> (forall q, fs' q = xoverlay t g fs q) -> xkeeps fs fs'.
Proof.
  intros H E q i Q. rewrite E. destruct (strip t q) as [r|] eqn:Es.
  - apply strip_spec in Es. subst q. rewrite xoverlay_at. destruct (g r) eqn:Eg; [|exact Q]. rewrite H in Q; congruence.
  - unfold xoverlay. now rewrite Es.
Qed.

(** ** Effects of the callbacks *)
Lemma wpath_ok h s it name : in_dir h s -> it_nlen it = lenN name -> entry_path it (padded name) h = Ok ((s ++ x2f :: name) ++ [x00]).
Proof. apply (path_ok (fun _ => true) (PATH_MAX + 4)); [reflexivity|apply N.le_refl]. Qed.

Lemma xwrite_head w n p x ro fds d : w_fds w = (n, (p, lenN x)) :: fds -> w_fs w p = Some (XFile ro x) ->
  xwrite (Some n) d w = WS (xupd (w_fs w) p (XFile ro (x ++ d))) (w_cwd w) ((n, (p, lenN (x ++ d))) :: fds) (w_next w) (w_dead w).
Proof.
  intros E F. unfold xwrite. rewrite E. cbn [find_fd]. rewrite N.eqb_refl, F. cbn [set_fd]. rewrite N.eqb_refl, lenN_app.
  unfold overwrite. now rewrite takeN_all, dropN_all, app_nil_r by lia.
Qed.

Section Place.
Context (maxd maxf : N) (deny : path -> bool) (target : bytes) (hal : N -> bool) (stk : N).
Hypothesis Hal : forall n, hal n = true.
Hypothesis Stk : maxf + 4 <= stk.
Hypothesis Allow : forall q, deny q = false.
Notation xcb := (xcb maxd maxf deny target hal stk).
Notation xcbs := (xcbs maxd maxf deny target hal stk).

Lemma xcbs_app a : forall b h w, w_dead w = false ->
  xcbs (a ++ b) h w = do (h1, w1) <- xcbs a h w; if w_dead w1 then Ok (h1, w1) else xcbs b h1 w1.
Proof.
  induction a as [|ev a IH]; intros b h w D. { cbn [app WinExtract.xcbs obind]. now rewrite D. }
  cbn [app WinExtract.xcbs]. destruct (xcb ev h w) as [[h1 w1]| |]; cbn [obind]; try reflexivity.
  destruct (w_dead w1) eqn:D1; cbn [obind]; [now rewrite D1|]. now apply IH.
Qed.
Lemma xcbs_cons ev b h w : xcbs (ev :: b) h w = do (h1, w1) <- xcb ev h w; if w_dead w1 then Ok (h1, w1) else xcbs b h1 w1.
Proof. reflexivity. Qed.

(** The directory [s] is the entry [t]. *)
Definition at_dir (w : wst) (s : bytes) (t : path) : Prop := s <> [] /\ xkey (w_cwd w) s = t /\ w_fs w t = Some XDir /\ w_dead w = false.
Definition same_w (w w' : wst) : Prop := w_cwd w' = w_cwd w /\ w_fds w' = w_fds w /\ w_dead w' = w_dead w.
Lemma same_w_trans a b c : same_w a b -> same_w b c -> same_w a c.
Proof. intros (A & B & D) (A' & B' & D'). repeat split; congruence. Qed.
Lemma at_dir_keeps w w' s t : at_dir w s t -> same_w w w' -> xkeeps (w_fs w) (w_fs w') -> at_dir w' s t.
Proof. intros (A & B & D & E) (F1 & F2 & F3) K. split; [exact A|]. split; [congruence|]. split; [now apply K|congruence]. Qed.

Lemma last_sep s n : plain n -> ~ In x5c n -> is_sep (last (s ++ x2f :: n) x00) = false.
Proof.
  intros (Ne & N1 & _) N2. destruct (exists_last Ne) as (n' & c & ->).
  replace (s ++ x2f :: n' ++ [c]) with ((s ++ x2f :: n') ++ [c]) by (rewrite <- app_assoc; reflexivity). rewrite last_last.
  unfold is_sep. apply orb_false_iff. split; apply not_true_iff_false; intro Q; apply byte_eqb_spec in Q; subst c; [apply N1|apply N2]; apply in_app_iff; right; now left.
Qed.

Lemma xopen_new w s t n wr : at_dir w s t -> plain n -> ~ In x5c n -> lenN s + 1 + lenN n < maxf -> w_fs w (t ++ [fold_case n]) = None ->
  xopen maxf deny false wr (s ++ x2f :: n) w =
    (Some (w_next w), WS (xupd (w_fs w) (t ++ [fold_case n]) (XFile (negb wr) [])) (w_cwd w) ((w_next w, (t ++ [fold_case n], 0)) :: w_fds w) (w_next w + 1) (w_dead w)).
Proof.
  intros (A & B & D & E) P Bs L Ab. unfold xopen. rewrite xkey_entry by assumption. rewrite B, Ab, removelast_last.
  rewrite last_sep by assumption. unfold xdir. rewrite D, Allow.
  replace (maxf <=? lenN (s ++ x2f :: n)) with false by (symmetry; apply N.leb_gt; rewrite lenN_app, lenN_cons; lia).
  destruct s; [contradiction|]. reflexivity.
Qed.

Lemma xwrite_all ds : forall h w n p x ro fds, w_dead w = false -> h_fd h = Some n -> w_fds w = (n, (p, lenN x)) :: fds -> w_fs w p = Some (XFile ro x) ->
  exists w', xcbs (map EvRead ds) h w = Ok (h, w') /\ (forall q, w_fs w' q = xupd (w_fs w) p (XFile ro (x ++ concat ds)) q) /\
    w_cwd w' = w_cwd w /\ w_dead w' = false /\ w_fds w' = (n, (p, lenN (x ++ concat ds))) :: fds.
Proof.
  induction ds as [|d ds IH]; intros h w n p x ro fds D Hf E F.
  - exists w. cbn. rewrite app_nil_r. repeat split; auto.
    intro q. destruct (path_dec q p) as [->|Hn]; [now rewrite xupd_same|now rewrite xupd_other].
  - cbn [map concat] in *. rewrite xcbs_cons. cbn [WinExtract.xcb]. rewrite Hf, (xwrite_head w n p x ro fds d E F). cbn [obind w_dead]. rewrite D.
    match goal with |- context [xcbs _ h ?ww] => destruct (IH h ww n p (x ++ d) ro fds) as (w' & X & Y & A1 & A2 & A3) end; try reflexivity.
    + exact Hf.
    + cbn [w_fs]. apply xupd_same.
    + exists w'. split; [exact X|]. cbn [w_fs w_cwd] in *. rewrite <- app_assoc in *.
      split. { intro q. rewrite Y. destruct (path_dec q p) as [->|Hn]; [now rewrite !xupd_same|now rewrite !xupd_other]. } auto.
Qed.

Lemma xplace_file h w s t it n ds : in_dir h s -> it_nlen it = lenN n -> plain n -> ~ In x5c n -> lenN s + 1 + lenN n < maxf ->
  at_dir w s t -> w_fs w (t ++ [fold_case n]) = None ->
  exists h' w', xcbs (EvEntry FtFile it (padded n) :: map EvRead ds ++ [EvFileEnd]) h w = Ok (h', w') /\ in_dir h' s /\ same_h h h' /\ same_w w w' /\
    (forall q, w_fs w' q = xupd (w_fs w) (t ++ [fold_case n]) (XFile (negb (N.testbit (it_mode it) 7)) (concat ds)) q).
Proof.
  intros D N P Bs L Da Ab. rewrite xcbs_cons. cbn [WinExtract.xcb]. unfold xcb_entry. pose proof D as (Nz & Ld & _).
  cbn [h_dplen h_setname]. rewrite Ld, N.
  replace (stk <? lenN s + 4 + lenN n) with false by (symmetry; apply N.ltb_ge; lia).
  rewrite wpath_ok with (s := s); [|exact D|exact N]. cbn [obind].
  rewrite cstr_app by (now apply no_nul). rewrite (xopen_new w s t n _ Da P Bs L Ab). cbn [obind w_dead].
  pose proof Da as (_ & _ & _ & Dd). rewrite Dd. rewrite xcbs_app by reflexivity.
  match goal with |- context [xcbs (map EvRead ds) ?hh ?ww] =>
    destruct (xwrite_all ds hh ww (w_next w) (t ++ [fold_case n]) [] (negb (N.testbit (it_mode it) 7)) (w_fds w)) as (w' & X & Y & A1 & A2 & A3) end; try reflexivity.
  - cbn [w_fs]. apply xupd_same.
  - rewrite X. cbn [obind]. rewrite A2, xcbs_cons. cbn [WinExtract.xcb h_fd h_setfd]. unfold xclose. rewrite A3. cbn [find_fd del_fd]. rewrite N.eqb_refl.
    cbn [obind w_dead]. rewrite A2. cbn [WinExtract.xcbs]. eexists _, _. split; [reflexivity|]. split; [exact D|]. split; [repeat split|].
    cbn [w_fs w_cwd w_fds w_dead] in *. split; [repeat split; cbn; congruence|].
    intro q. rewrite Y. destruct (path_dec q (t ++ [fold_case n])) as [->|Hn]; [now rewrite !xupd_same|now rewrite !xupd_other].
Qed.

Lemma xcreate_new w s t : s <> [] -> lenN s < maxd -> xkey (w_cwd w) s = t -> w_fs w t = None -> xdir (w_fs w) (removelast t) = true ->
  xcreate maxd deny s w = (CdMade, w_setfs (xupd (w_fs w) t XDir) w).
Proof.
  intros A B D E F. unfold xcreate. rewrite D, E, F, Allow. destruct s; [contradiction|]. cbn [nonempty negb].
  now rewrite (proj2 (N.leb_gt _ _) B).
Qed.
Lemma xmkdir_new w s t : ~ In x00 s -> s <> [] -> lenN s < maxd -> xkey (w_cwd w) s = t -> w_fs w t = None -> xdir (w_fs w) (removelast t) = true ->
  xmkdir maxd deny true s w = Ok (0%Z, w_setfs (xupd (w_fs w) t XDir) w).
Proof.
  intros Nz A B D E F. unfold xmkdir. cbn [negb]. unfold xos_create. change (s ++ [x00]) with (s ++ x00 :: []). rewrite cstr_app by exact Nz.
  rewrite (xcreate_new w s t A B D E F). reflexivity.
Qed.

Lemma xenter_dir h w s t it n : in_dir h s -> it_nlen it = lenN n -> plain n -> ~ In x5c n -> lenN s + 1 + lenN n < maxd ->
  at_dir w s t -> w_fs w (t ++ [fold_case n]) = None ->
  exists h', xcb (EvEntry FtDir it (padded n)) h w = Ok (h', w_setfs (xupd (w_fs w) (t ++ [fold_case n]) XDir) w) /\
    in_dir h' (s ++ x2f :: n) /\ same_h h h'.
Proof.
  intros D N P Bs L Da Ab. cbn [WinExtract.xcb]. unfold xcb_entry. pose proof D as (Nz & Ld & _). rewrite Hal. cbn [negb].
  rewrite wpath_ok with (s := s); [|exact D|exact N]. cbn [obind]. rewrite cstr_app by (now apply no_nul). rewrite Hal.
  destruct Da as (A & B & F & G).
  rewrite (xmkdir_new w (s ++ x2f :: n) (t ++ [fold_case n])).
  - cbn [obind Z.eqb]. eexists. split; [reflexivity|]. split; [|repeat split]. split; [now apply no_nul|]. split.
    + cbn [h_dplen h_alloc h_setdir h_setname]. rewrite Ld, N, lenN_app, lenN_cons. lia.
    + exists []. reflexivity.
  - now apply no_nul.
  - destruct s; discriminate.
  - rewrite lenN_app, lenN_cons. lia.
  - rewrite xkey_entry by assumption. now rewrite B.
  - exact Ab.
  - rewrite removelast_last. unfold xdir. now rewrite F.
Qed.
Lemma xleave_dir h w s n : in_dir h (s ++ x2f :: n) -> ~ In x2f n -> exists h', xcb EvDirEnd h w = Ok (h', w) /\ in_dir h' s /\ same_h h h'.
Proof.
  intros (Nz & Ld & junk & E) P. cbn [WinExtract.xcb]. unfold xcb_dir_end. rewrite E, cstr_app by exact Nz.
  rewrite (rindex_app x2f s n P). eexists. split; [reflexivity|]. split; [|repeat split].
  split. { intro Q. apply Nz. apply in_app_iff. now left. }
  split; [reflexivity|]. exists (n ++ x00 :: junk). cbn [h_dp h_setdir]. f_equal.
  rewrite <- app_assoc. cbn [app]. apply set_byte_app.
Qed.

(** ** Trees *)

Definition xputs (evs1 : list event) (g : path -> option xnode) (s : bytes) (t : path) (free : path -> Prop) : Prop :=
  forall h w, in_dir h s -> at_dir w s t -> (forall r, free r -> w_fs w (t ++ r) = None) ->
  exists h' w', xcbs evs1 h w = Ok (h', w') /\ in_dir h' s /\ same_h h h' /\ same_w w w' /\ xkeeps (w_fs w) (w_fs w') /\
    forall q, w_fs w' q = xoverlay t g (w_fs w) q.
Definition xplaced (rs : list arec) (g : path -> option xnode) (s : bytes) (t : path) (free : path -> Prop) : Prop :=
  forall rest evs st, shows (rs ++ rest) (flat evs) -> proto_run Idle evs = Some st ->
  exists ev1 ev2, evs = ev1 ++ ev2 /\ shows rest (flat ev2) /\ proto_run Idle ev2 = Some st /\ xputs ev1 g s t free.
Definition under_name (n : bytes) (r : path) : Prop := dotb n = false /\ exists r', r = fold_case n :: r'.
Definition xnode_placed (nd : snode) : Prop := forall name s t, quiet nd -> wextractable maxd maxf (lenN s) name nd -> ~ In x00 s ->
  xplaced (preorder1 name nd) (fun r => win_at r [(name, nd)]) s t (under_name name).

Lemma xputs_nil g s t fr : (forall r, g r = None) -> xputs [] g s t fr.
Proof.
  intros G h w D R _. exists h, w. cbn. repeat split; auto; try apply D. { intros q i Q. exact Q. }
  intro q. symmetry. apply xoverlay_out. auto.
Qed.
Lemma xputs_app ev1 ev2 (g1 g2 g : path -> option xnode) s t f1 f2 (f : path -> Prop) : xputs ev1 g1 s t f1 -> xputs ev2 g2 s t f2 ->
  (forall r, f1 r -> f r) -> (forall r, f2 r -> f r /\ g1 r = None) ->
  (forall r, g r = match g1 r with Some i => Some i | None => g2 r end) -> (forall r, g2 r <> None -> g1 r = None) ->
  xputs (ev1 ++ ev2) g s t f.
Proof.
  intros P1 P2 F1 F2 G G2 h w D R Fr. pose proof R as (_ & _ & _ & Dd).
  destruct (P1 h w D R) as (h1 & w1 & X1 & D1 & H1 & E1 & K1 & Y1). { auto. }
  destruct (P2 h1 w1 D1 (at_dir_keeps _ _ _ _ R E1 K1)) as (h2 & w2 & X2 & D2 & H2 & E2 & K2 & Y2).
  { intros r Hr. destruct (F2 r Hr) as [A B]. rewrite Y1, xoverlay_at, B. auto. }
  exists h2, w2. rewrite xcbs_app, X1 by exact Dd. cbn [obind]. pose proof E1 as (_ & _ & Dd1). rewrite Dd1, Dd. split; [exact X2|]. split; [exact D2|].
  split; [eapply same_h_trans; eauto|]. split; [eapply same_w_trans; eauto|].
  split. { intros q i Q. apply K2, K1, Q. } intro q. rewrite Y2. unfold xoverlay. rewrite Y1. unfold xoverlay.
  destruct (strip t q) as [r|]; [|reflexivity]. rewrite G. specialize (G2 r).
  destruct (g2 r); [rewrite G2 by discriminate; reflexivity|]. destruct (g1 r); reflexivity.
Qed.

Lemma xlist_placed es : Forall (fun x => xnode_placed (snd x)) es -> forall s t, Forall (fun x => quiet (snd x)) es ->
  NoDup (folded es) -> Forall (fun x => wextractable maxd maxf (lenN s) (fst x) (snd x)) es -> ~ In x00 s ->
  xplaced (preorder es) (fun r => win_at r es) s t (fun r => exists c, In c (map fst es) /\ under_name c r).
Proof.
  induction es as [|[n nd] es IH]; intros HP s t Q ND X Nz rest evs st S P.
  { exists [], evs. cbn in S |- *. split; [reflexivity|]. split; [exact S|]. split; [exact P|]. apply xputs_nil.
    intro r. apply win_at_none. intros c r' _ []. }
  inversion HP as [|? ? HP1 HP2]; inversion Q as [|? ? Q1 Q2]; inversion X as [|? ? X1 X2]; inversion ND as [|? ? N1 N2]; subst.
  cbn [fst snd map] in *. rewrite preorder_cons, <- app_assoc in S.
  destruct (HP1 n s t Q1 X1 Nz _ _ _ S P) as (ev1 & ev2 & -> & S2 & P2 & U1).
  destruct (IH HP2 s t Q2 N2 X2 Nz _ _ _ S2 P2) as (ev3 & ev4 & -> & S4 & P4 & U3).
  exists (ev1 ++ ev3), ev4. split; [now rewrite app_assoc|]. split; [exact S4|]. split; [exact P4|].
  eapply xputs_app; [exact U1|exact U3| | | |].
  - intros r Hr. exists n. split; [now left|exact Hr].
  - intros r (c & Hc & B). split; [exists c; split; [now right|exact B]|].
    apply win_at_single_none. intros r' ->. destruct B as (B1 & r2 & B2). injection B2 as B2 _. exfalso. apply N1.
    rewrite B2. unfold folded. apply in_map_iff in Hc. destruct Hc as (x & <- & Hx). apply in_map_iff. exists x. auto.
  - intro r. apply win_at_cons. exact N1.
  - intros r Hr. apply win_at_single_none. intros r' ->. exfalso. apply Hr. apply win_at_none.
    intros c r2 E. injection E as <- _. exact N1.
Qed.

Lemma xfile_placed o st m sz d r : xnode_placed (SFile o st m sz d r).
Proof.
  intros name s t Q X Nz rest evs pst S P. cbn [preorder1] in *.
  destruct (dotb name) eqn:D.
  { exists [], evs. split; [reflexivity|]. split; [exact S|]. split; [exact P|]. apply xputs_nil.
    intro q. apply win_at_single_none. auto. }
  inversion Q; subst. inversion X as [? ? ? Dd| | |? ? ? ? ? ? ? ? Pw Ln|]; subst; [apply dotb_spec in Dd; congruence|].
  destruct (wplain_plain _ Pw) as [Pn Bs].
  cbn [app] in S. inversion S as [| |? ? ? ? o S' E1 E2| |]; subst. symmetry in E2.
  destruct (idle_entry _ _ _ _ _ _ P E2) as (evs' & -> & F).
  cbn [proto_run proto_step it_size] in P. destruct (file_reads _ _ _ _ _ P F) as (ds & evs2 & -> & Ed & F2 & P2).
  exists (EvEntry FtFile (Item (lenN d) (norm_len64 (lenN d)) (lenN name) (norm_len32 (lenN name)) m CT_FILE) (padded name) :: map EvRead ds ++ [EvFileEnd]), evs2.
  split. { cbn [app]. now rewrite <- app_assoc. }
  split; [now rewrite F2|]. split; [exact P2|].
  intros h w D0 Rd Fr.
  assert (Ab : w_fs w (t ++ [fold_case name]) = None) by (apply Fr; split; [exact D|eauto]).
  edestruct (xplace_file h w s t (Item (lenN d) (norm_len64 (lenN d)) (lenN name) (norm_len32 (lenN name)) m CT_FILE) name ds) as (h' & w' & X1 & D1 & H1 & E1 & Y1);
    [exact D0|reflexivity|exact Pn|exact Bs|exact Ln|exact Rd|exact Ab|].
  exists h', w'. split; [exact X1|]. split; [exact D1|]. split; [exact H1|]. split; [exact E1|].
  rewrite Ed in Y1. cbn [it_mode] in Y1.
  assert (Yo : forall q, w_fs w' q = xoverlay t (fun q0 => win_at q0 [(name, SFile true true m (lenN d) d false)]) (w_fs w) q).
  { intro q. rewrite Y1. destruct (path_dec q (t ++ [fold_case name])) as [->|Hn].
    - rewrite xupd_same, xoverlay_at. cbn [win_at win_entry]. rewrite D, (proj2 (bytes_eqb_spec (fold_case name) (fold_case name)) eq_refl). reflexivity.
    - rewrite xupd_other by exact Hn. symmetry. apply xoverlay_out. intros q0 ->.
      destruct q0 as [|c q0]; [reflexivity|]. cbn [win_at win_entry]. rewrite D. cbn [negb andb].
      destruct (bytes_eqb (fold_case name) c) eqn:Ec; [|now destruct q0]. apply bytes_eqb_spec in Ec. subst c. destruct q0; [congruence|reflexivity]. }
  split; [|exact Yo]. eapply xoverlay_keeps; [|exact Yo]. intros q Hq. apply Fr.
  split; [exact D|]. destruct q as [|c q]; [contradiction|]. exists q. f_equal.
  cbn [win_at win_entry] in Hq. rewrite D in Hq. cbn [negb andb] in Hq. destruct (bytes_eqb (fold_case name) c) eqn:Ec; [|destruct q; contradiction].
  apply bytes_eqb_spec in Ec. congruence.
Qed.

Lemma xdir_placed m es : Forall (fun x => xnode_placed (snd x)) es -> xnode_placed (SDir m es).
Proof.
  intros HP name s t Q X Nz rest evs pst S P. cbn [preorder1] in *.
  destruct (dotb name) eqn:D.
  { exists [], evs. split; [reflexivity|]. split; [exact S|]. split; [exact P|]. apply xputs_nil.
    intro q. apply win_at_single_none. auto. }
  inversion Q as [|? ? Qe| |]; subst. inversion X as [? ? ? Dd| | | |? ? ? ? Pw Ln ND Xe]; subst; [apply dotb_spec in Dd; congruence|].
  destruct (wplain_plain _ Pw) as [Pn Bs].
  cbn [app] in S. inversion S as [|? ? ? o it I1 I2 I3 I4 S' E1 E2| | |]; subst. symmetry in E2.
  destruct (idle_entry _ _ _ _ _ _ P E2) as (evs' & -> & <-).
  cbn [proto_run proto_step] in P. fold (preorder es) in *. rewrite <- app_assoc in S'.
  assert (Nz2 : ~ In x00 (s ++ x2f :: name)) by (now apply no_nul).
  assert (Ls : lenN (s ++ x2f :: name) = lenN s + 1 + lenN name) by (rewrite lenN_app, lenN_cons; lia).
  rewrite <- Ls in Xe.
  destruct (xlist_placed es HP (s ++ x2f :: name) (t ++ [fold_case name]) Qe ND Xe Nz2 _ _ _ S' P) as (ev1 & ev2 & -> & S2 & P2 & U).
  cbn [app] in S2. inversion S2 as [| | | |? o2 S3 E3 E4]; subst. symmetry in E4.
  destruct (idle_end _ _ _ P2 E4) as (ev3 & -> & <- & P3).
  exists (EvEntry FtDir it (padded name) :: ev1 ++ [EvDirEnd]), ev3.
  split. { cbn [app]. now rewrite <- app_assoc. }
  split; [exact S3|]. split; [exact P3|].
  intros h w D0 Rd Fr. set (c0 := fold_case name) in *.
  assert (Ab : w_fs w (t ++ [c0]) = None) by (apply Fr; split; [exact D|eauto]).
  destruct (xenter_dir h w s t it name D0 I1 Pn Bs Ln Rd Ab) as (h1 & X1 & D1 & H1).
  pose proof Rd as (Ra & Rb & Rc & Rdd).
  rewrite xcbs_cons, X1. cbn [obind w_dead w_setfs]. rewrite Rdd. fold c0.
  set (w1 := w_setfs (xupd (w_fs w) (t ++ [c0]) XDir) w).
  assert (K1 : xkeeps (w_fs w) (w_fs w1)). { intros q i Qi. cbn. rewrite xupd_other; [exact Qi|]. intros ->. congruence. }
  assert (R1 : at_dir w1 (s ++ x2f :: name) (t ++ [c0])).
  { split; [destruct s; discriminate|]. split; [cbn [w1 w_setfs w_cwd]; rewrite xkey_entry by assumption; now rewrite Rb|]. split; [apply xupd_same|exact Rdd]. }
  rewrite xcbs_app by exact Rdd.
  destruct (U h1 w1 D1 R1) as (h2 & w2 & X2 & D2 & H2 & E2' & K2 & Y2).
  { intros r (c & Hc & B1 & r' & ->). unfold w1. cbn [w_fs w_setfs]. rewrite xupd_other.
    - rewrite <- app_assoc. apply Fr. split; [exact D|]. eexists. reflexivity.
    - intro Q'. apply (f_equal (@length bytes)) in Q'. rewrite !app_length in Q'. cbn [length] in Q'. lia. }
  change (xcbs (ev1 ++ [EvDirEnd]) h1 w1) with (xcbs (ev1 ++ [EvDirEnd]) h1 w1) in *.
  rewrite X2. cbn [obind]. pose proof E2' as (_ & _ & Dd2). rewrite Dd2. cbn [w1 w_setfs w_dead]. rewrite Rdd, xcbs_cons.
  destruct (xleave_dir h2 w2 s name D2 (proj1 (proj2 Pn))) as (h3 & X3 & D3 & H3). rewrite X3. cbn [obind]. rewrite Dd2. cbn [w1 w_setfs w_dead]. rewrite Rdd. cbn [WinExtract.xcbs].
  exists h3, w2. split; [reflexivity|]. split; [exact D3|].
  split. { eapply same_h_trans; [exact H1|]. eapply same_h_trans; [exact H2|exact H3]. }
  split; [exact E2'|]. split. { intros q i Qi. apply K2, K1, Qi. }
  intro q. rewrite Y2. unfold w1. cbn [w_fs w_setfs].
  destruct (strip t q) as [r|] eqn:St.
  2:{ unfold xoverlay at 2. rewrite St. rewrite xoverlay_out.
      - apply xupd_other. intros ->. rewrite strip_app in St. discriminate.
      - intros r ->. rewrite <- app_assoc, strip_app in St. discriminate. }
  apply strip_spec in St. subst q. rewrite xoverlay_at.
  destruct r as [|c r].
  { cbn [win_at]. rewrite app_nil_r. rewrite xoverlay_out.
    - apply xupd_other. intro Q'. apply (f_equal (@length bytes)) in Q'. rewrite app_length in Q'. cbn in Q'. lia.
    - intros r Q'. apply (f_equal (@length bytes)) in Q'. rewrite !app_length in Q'. cbn in Q'. lia. }
  cbn [win_at win_entry]. rewrite D. cbn [negb andb]. fold c0. destruct (bytes_dec c0 c) as [<-|Hc].
  - rewrite (proj2 (bytes_eqb_spec c0 c0) eq_refl).
    change (t ++ c0 :: r) with (t ++ ([c0] ++ r)). rewrite app_assoc, xoverlay_at.
    destruct r as [|c' r]. { cbn [win_at]. rewrite app_nil_r, xupd_same. reflexivity. }
    rewrite xupd_other; [reflexivity|]. intro Q'. apply (f_equal (@length bytes)) in Q'. rewrite !app_length in Q'. cbn in Q'. lia.
  - rewrite (bytes_eqb_neq _ _ Hc). rewrite xoverlay_out.
    + rewrite xupd_other. { now destruct r. } intro Q'. apply app_inv_head in Q'. congruence.
    + intros q Q'. exfalso. rewrite <- app_assoc in Q'. apply app_inv_head in Q'. cbn in Q'. congruence.
Qed.

Lemma idle_sym evs st rest : proto_run InLink evs = Some st -> flat evs = OSym :: rest ->
  exists d tl evs', evs = EvSym d tl :: evs' /\ flat evs' = rest /\ proto_run Idle evs' = Some st.
Proof.
  intros P F. destruct evs as [|ev evs]; [discriminate|]. cbn [proto_run] in P. rewrite flat_cons in F.
  destruct ev; cbn in P; try discriminate. cbn in F. injection F as <-. eauto 6.
Qed.
Lemma xnode_placed_all : forall nd, xnode_placed nd.
Proof.
  induction nd as [o st m sz d r|m es IH|m sz tg|] using snode_ind2.
  - apply xfile_placed.
  - now apply xdir_placed.
  - intros name s t Q X Nz rest evs pst S P.
    assert (G : forall r, win_at r [(name, SLink m sz tg)] = None).
    { intros [|c q]; [reflexivity|]. cbn [win_at win_entry]. now destruct (_ && _), q. }
    cbn [preorder1] in *. inversion Q as [| |? tg' |]; subst.
    destruct (dotb name) eqn:D. { exists [], evs. split; [reflexivity|]. split; [exact S|]. split; [exact P|]. now apply xputs_nil. }
    cbn [app] in S. inversion S as [| | |? ? ? ? o S' E1 E2|]; subst. symmetry in E2.
    destruct (idle_entry _ _ _ _ _ _ P E2) as (evs' & -> & F). cbn [proto_run proto_step] in P.
    destruct (idle_sym _ _ _ P F) as (d & tl & evs2 & -> & F2 & P2).
    eexists [_; EvSym d tl], evs2. split; [reflexivity|]. split; [now rewrite F2|]. split; [exact P2|].
    intros h w D0 Rd Fr. pose proof Rd as (_ & _ & _ & Dd). eexists _, w. cbn [WinExtract.xcbs WinExtract.xcb xcb_entry obind]. rewrite Dd.
    split; [reflexivity|]. split; [exact D0|]. split; [repeat split|]. split; [repeat split|]. split; [intros q i Qi; exact Qi|].
    intro q. symmetry. apply xoverlay_out. intros r _. apply G.
  - intros name s t Q X Nz rest evs pst S P. cbn [preorder1] in *.
    exists [], evs. replace (if dotb name then [] else []) with (@nil arec) in * by (now destruct (dotb name)).
    split; [reflexivity|]. split; [exact S|]. split; [exact P|]. apply xputs_nil.
    intros [|c q]; [reflexivity|]. cbn [win_at win_entry]. now destruct (_ && _), q.
Qed.

(** A whole archive. *)
Lemma xtree_placed es s t evs st : Forall (fun x => quiet (snd x)) es -> NoDup (folded es) ->
  Forall (fun x => wextractable maxd maxf (lenN s) (fst x) (snd x)) es -> ~ In x00 s ->
  shows (preorder es) (flat evs) -> proto_run Idle evs = Some st ->
  xputs evs (fun r => win_at r es) s t (fun r => r <> []).
Proof.
  intros Q ND X Nz S P.
  assert (HP : Forall (fun x : bytes * snode => xnode_placed (snd x)) es) by (apply Forall_forall; intros; apply xnode_placed_all).
  rewrite <- (app_nil_r (preorder es)) in S.
  destruct (xlist_placed es HP s t Q ND X Nz _ _ _ S P) as (ev1 & ev2 & -> & S2 & P2 & U).
  inversion S2 as [Z|? ? ? ? ? ? ? ? ? ? Z1 Z2|? ? ? ? ? ? Z1 Z2|? ? ? ? ? ? Z1 Z2|]; subst.
  assert (E2 : ev2 = []).
  { destruct ev2 as [|ev ev2]; [reflexivity|]. rewrite flat_cons in *. exfalso.
    destruct ev; cbn in P2; try discriminate P2; cbn in *; discriminate. }
  rewrite E2, app_nil_r. intros h w A B D. apply U; auto. intros r (c & _ & _ & r' & ->). apply D. discriminate.
Qed.
End Place.

(** ** The loop *)
Section Loop.
Context (maxd maxf : N) (deny : path -> bool) (target : bytes) (hal : N -> bool) (stk : N).
Context (z : zlib) (e : endian) (alloc : N -> N -> bool) (archive : N).
Notation xcbs := (xcbs maxd maxf deny target hal stk).
Notation xextract_loop := (xextract_loop maxd maxf deny target hal stk z e alloc archive).

Lemma cb_keeps_err ev h w h' w' : xcb maxd maxf deny target hal stk ev h w = Ok (h', w') -> h_err h = true -> h_err h' = true.
Proof.
  intros H He. destruct ev as [id d| | |d|ft it name|d| | |d t]; cbn [xcb] in H; try (injection H as <- <-; exact He).
  - unfold xcb_dr_start in H. destruct (xmkdir _ _ _ _ _) as [[r w1]| |]; try discriminate H. cbn [obind] in H.
    destruct (negb _). { injection H as <- <-. reflexivity. } destruct (negb _); injection H as <- <-; [reflexivity|exact He].
  - unfold xcb_fl_start in H. destruct (xopen _ _ _ _ _ _) as [[fd|] w1]; injection H as <- <-; [exact He|reflexivity].
  - unfold xcb_entry in H. destruct ft; try (injection H as <- <-; exact He).
    + destruct (negb _); [injection H as <- <-; reflexivity|]. destruct (entry_path _ _ _) as [b| |]; try discriminate H. cbn [obind] in H.
      destruct (cstr b); [|discriminate H]. destruct (xmkdir _ _ _ _ _) as [[r w1]| |]; try discriminate H. cbn [obind] in H. destruct (r =? 0)%Z; injection H as <- <-; [exact He|reflexivity].
    + destruct (_ <? _); [discriminate|]. destruct (entry_path _ _ _) as [b| |]; try discriminate H. cbn [obind] in H.
      destruct (cstr b); [|discriminate H]. destruct (xopen _ _ _ _ _ _) as [[fd|] w1]; injection H as <- <-; [exact He|reflexivity].
  - unfold xcb_dir_end in H. destruct (h_dp h) as [b|]; [|discriminate H]. destruct (cstr b) as [s|]; [|discriminate H].
    destruct (rindex _ _); [|discriminate H]. cbn [obind] in H. injection H as <- <-. exact He.
Qed.
Lemma xcbs_err evs : forall h w h' w', xcbs evs h w = Ok (h', w') -> h_err h = true -> h_err h' = true.
Proof.
  induction evs as [|ev evs IH]; intros h w h' w' H He; [cbn in H; congruence|].
  rewrite xcbs_cons in H. destruct (xcb _ _ _ _ _ _ ev h w) as [[h1 w1]| |] eqn:E; try discriminate H. cbn [obind] in H.
  pose proof (cb_keeps_err _ _ _ _ _ E He). destruct (w_dead w1); [congruence|]. eapply IH; eauto.
Qed.

(** Without errors the loop is the session on the chunks and the callbacks on the events. *)
Lemma xdrive fuel dfuel : forall inp total idx s h w rets s' evs h' w', (length inp < fuel)%nat -> w_dead w = false ->
  run_dops e alloc dfuel s (chunk_ops archive fuel inp total idx) = Ok (rets, s', evs) ->
  xcbs evs h w = Ok (h', w') -> h_err h' = false -> w_dead w' = false ->
  xextract_loop fuel dfuel inp false total idx s h w = Ok (true, s', h', limited archive total inp, w').
Proof.
  induction fuel as [|f IH]; intros inp total idx s h w rets s' evs h' w' Hf Dd R X He Dd'; [lia|].
  pose proof (chunk_ops_fed archive (S f) inp total idx Hf) as Fed.
  cbn [chunk_ops] in R, Fed. cbn [WinExtract.xextract_loop].
  destruct (N.ltb_spec (next_size archive total) 1) as [H1|H1].
  { cbn [run_dops] in R. injection R as <- <- <-. cbn in X. injection X as <- <-. rewrite <- Fed. reflexivity. }
  set (n := next_size archive total) in *. rewrite andb_false_r. cbn [run_dops] in R.
  destruct (decompress e alloc dfuel _ (takeN n inp) s) as [[[r1 s1] ev1]| |] eqn:Ed; try discriminate R. cbn [obind] in R |- *.
  match type of R with obind ?x _ = _ => destruct x as [[[rs s2] ev2]| |] eqn:E2; try discriminate R end. cbn [obind] in R.
  injection R as <- <- <-. rewrite xcbs_app in X by exact Dd.
  destruct (xcbs ev1 h w) as [[h1 w1]| |] eqn:X1; try discriminate X. cbn [obind] in X |- *.
  destruct (w_dead w1) eqn:Dd1. { injection X as <- <-. congruence. }
  assert (He1 : h_err h1 = false).
  { destruct (h_err h1) eqn:Q; [|reflexivity]. rewrite (xcbs_err _ _ _ _ _ X Q) in He. discriminate. }
  rewrite He1, orb_false_r. cbn [orb].
  match type of Fed with dfed (DFeed ?a ?b :: ?c) = _ => change (dfed (DFeed a b :: c)) with (b ++ dfed c) in Fed end.
  rewrite <- Fed. destruct (lenN (takeN n inp) <? n) eqn:Es.
  - cbn [run_dops] in E2. injection E2 as <- <- <-. cbn in X. injection X as <- <-. cbn [dfed map concat]. now rewrite app_nil_r.
  - assert (Hl : (length (dropN n inp) < f)%nat).
    { rewrite dropN_skipn, skipn_length. apply N.ltb_ge in Es. rewrite lenN_takeN in Es. unfold lenN in Es. lia. }
    rewrite (IH _ _ _ _ _ _ _ _ _ _ _ Hl Dd1 E2 X He Dd'). cbn [obind]. now rewrite (chunk_ops_fed archive _ _ _ _ Hl).
Qed.

Lemma xloop_inv fuel dfuel : forall inp rderr total idx s h w ok s' h' ds w', w_dead w = false ->
  xextract_loop fuel dfuel inp rderr total idx s h w = Ok (ok, s', h', ds, w') ->
  exists ops rets evs, Forall dop_ok ops /\ (forall b n, ~ In (DSetBuffer b n) ops) /\ dfed ops = ds /\
    run_dops e alloc dfuel s ops = Ok (rets, s', evs) /\ xcbs evs h w = Ok (h', w') /\ prefix ds (limited archive total inp) /\
    (ok = true -> h_err h' = false -> w_dead w' = false -> ds = limited archive total inp) /\ (rderr = false -> ok = true).
Proof.
  induction fuel as [|f IH]; intros inp rderr total idx s h w ok s' h' ds w' Dd H; [discriminate|]. cbn [WinExtract.xextract_loop] in H.
  destruct (N.ltb_spec (next_size archive total) 1) as [H1|H1].
  { injection H as <- <- <- <- <-. exists [], [], []. repeat split; auto using Forall_nil.
    - eexists. reflexivity.
    - intros _ _ _. symmetry. now apply limited_stop. }
  set (n := next_size archive total) in *.
  destruct ((lenN (takeN n inp) <? n) && rderr) eqn:Er.
  { injection H as <- <- <- <- <-. exists [], [], []. repeat split; auto using Forall_nil.
    - eexists. reflexivity.
    - discriminate.
    - intros ->. rewrite andb_false_r in Er. discriminate. }
  destruct (decompress e alloc dfuel _ (takeN n inp) s) as [[[r1 s1] ev1]| |] eqn:Ed; try discriminate H.
  cbn [obind] in H. destruct (xcbs ev1 h w) as [[h1 w1]| |] eqn:X1; try discriminate H. cbn [obind] in H.
  assert (Dk : dop_ok (DFeed (Z.of_N (N.shiftr (N.land (idx + 1) 16) 4)) (takeN n inp))).
  { split; [apply flush_normal|]. rewrite lenN_takeN. pose proof (next_size_le archive total). unfold DEF_CHUNK_SIZE, two32, n in *. lia. }
  pose proof (limited_step (fun _ => true) (fun _ _ => true) archive total inp) as Ls. fold n in Ls. cbn zeta in Ls.
  destruct (_ || h_err h1) eqn:Es.
  - injection H as <- <- <- <- <-.
    exists [DFeed (Z.of_N (N.shiftr (N.land (idx + 1) 16) 4)) (takeN n inp)], [r1], ev1.
    split; [constructor; [exact Dk|constructor]|]. split; [intros b k [Q|[]]; discriminate|].
    split; [unfold dfed; cbn [map concat]; apply app_nil_r|].
    split; [cbn [run_dops]; rewrite Ed; cbn [obind]; now rewrite app_nil_r|]. split; [exact X1|].
    split; [rewrite Ls; eexists; reflexivity|]. split; [|reflexivity].
    intros _ He Dd1. rewrite He, Dd1, orb_false_r in Es. cbn [orb] in Es. apply N.ltb_lt in Es. rewrite lenN_takeN in Es.
    rewrite Ls, (dropN_all _ n inp), limited_nil, app_nil_r by lia. reflexivity.
  - apply orb_false_iff in Es. destruct Es as [Es Es3]. apply orb_false_iff in Es. destruct Es as [Es1 Es2].
    match type of H with obind ?x _ = _ => destruct x as [[[[[ok2 s2] h2] ds2] w2]| |] eqn:E2; try discriminate H end.
    cbn [obind] in H. injection H as <- <- <- <- <-.
    destruct (IH _ _ _ _ _ _ _ _ _ _ _ _ Es1 E2) as (ops & rets & evs & A1 & A2 & A3 & A4 & A5 & A6 & A7 & A8).
    exists (DFeed (Z.of_N (N.shiftr (N.land (idx + 1) 16) 4)) (takeN n inp) :: ops), (r1 :: rets), (ev1 ++ evs).
    assert (Ll : lenN (takeN n inp) = n).
    { apply N.ltb_ge in Es2. rewrite lenN_takeN in *. lia. }
    rewrite Ll in *.
    split; [constructor; assumption|]. split; [intros b k [Q|Q]; [discriminate|exact (A2 _ _ Q)]|].
    split; [unfold dfed in *; cbn [map concat]; now rewrite A3|].
    split; [cbn [run_dops]; rewrite Ed; cbn [obind]; now rewrite A4|].
    split; [rewrite xcbs_app, X1 by exact Dd; cbn [obind]; rewrite Es1; exact A5|].
    split; [rewrite Ls; destruct A6 as [y ->]; exists y; now rewrite app_assoc|]. split; [|exact A8].
    intros Ok1 He De. rewrite Ls. now rewrite (A7 Ok1 He De).
Qed.

Lemma xloop_runs fuel dfuel : forall inp total idx s h w rets s' evs h' w', (length inp < fuel)%nat -> w_dead w = false ->
  run_dops e alloc dfuel s (chunk_ops archive fuel inp total idx) = Ok (rets, s', evs) ->
  xcbs evs h w = Ok (h', w') ->
  exists s1 h1 ds w1, xextract_loop fuel dfuel inp false total idx s h w = Ok (true, s1, h1, ds, w1).
Proof.
  induction fuel as [|f IH]; intros inp total idx s h w rets s' evs h' w' Hf Dd R X; [lia|].
  cbn [chunk_ops] in R. cbn [WinExtract.xextract_loop].
  destruct (N.ltb_spec (next_size archive total) 1) as [H1|H1]; [eexists _, _, _, _; reflexivity|].
  set (n := next_size archive total) in *. rewrite andb_false_r. cbn [run_dops] in R.
  destruct (decompress e alloc dfuel _ (takeN n inp) s) as [[[r1 s1] ev1]| |] eqn:Ed; try discriminate R. cbn [obind] in R |- *.
  match type of R with obind ?x _ = _ => destruct x as [[[rs s2] ev2]| |] eqn:E2; try discriminate R end. cbn [obind] in R.
  injection R as <- <- <-. rewrite xcbs_app in X by exact Dd.
  destruct (xcbs ev1 h w) as [[h1 w1]| |] eqn:X1; try discriminate X. cbn [obind] in X |- *.
  destruct (_ || h_err h1) eqn:Es; [eexists _, _, _, _; reflexivity|].
  apply orb_false_iff in Es. destruct Es as [Es Es3]. apply orb_false_iff in Es. destruct Es as [Es1 Es2]. rewrite Es2 in E2. rewrite Es1 in X.
  assert (Hl : (length (dropN n inp) < f)%nat).
  { rewrite dropN_skipn, skipn_length. apply N.ltb_ge in Es2. rewrite lenN_takeN in Es2. unfold lenN in Es2. lia. }
  destruct (IH _ _ _ _ _ _ _ _ _ _ _ Hl Es1 E2 X) as (s3 & h3 & ds3 & w3 & E3). rewrite E3. cbn [obind].
  eexists _, _, _, _. reflexivity.
Qed.
End Loop.

(** ** The whole extraction *)
Section Whole.
Context (maxd maxf : N) (deny : path -> bool).
Context (z : zlib) (C : zlib_contract z) (e : endian) (alloc : N -> N -> bool) (hal al : N -> bool) (stk : N) (obuf hjunk : bytes) (pjunk : pst).
Hypothesis Calm : calm z hal al stk obuf hjunk pjunk.
Notation xextract T archive := (xextract maxd maxf deny T hal stk z e alloc archive).
Notation xcbs T := (xcbs maxd maxf deny T hal stk).

Definition xclose_fp (h : hst) (w : wst) : wst := match h_fp h with None => w | Some fd => xclose (Some fd) w end.

Lemma xextract_did T archive fuel dfuel inp rderr w ret x w' : w_dead w = false ->
  xextract T archive fuel dfuel al obuf hjunk pjunk inp rderr w = Ok (ret, x, w') ->
  exists s0 ops rets s evs h w1 ds, x = Some (s, h, ds) /\ started z s0 /\ Forall dop_ok ops /\ dfed ops = ds /\
    run_dops e alloc dfuel s0 ops = Ok (rets, s, evs) /\ xcbs T evs HS0 w = Ok (h, w1) /\ prefix ds (limited archive 0 inp) /\
    (rderr = false -> h_err h = false -> w_dead w1 = false -> ds = limited archive 0 inp) /\
    (w_dead w1 = true -> ret = None /\ w' = w1) /\
    (w_dead w1 = false -> w' = xclose_fp h w1 /\ exists v, ret = Some v /\ (v = h_ret h \/ v = ContentNone) /\ (rderr = false -> v = h_ret h)).
Proof.
  intros Dd H. unfold WinExtract.xextract in H. rewrite !(ca_al _ _ _ _ _ _ _ Calm) in H. cbn [negb orb] in H.
  destruct (calm_started z C alloc hal al stk obuf hjunk pjunk Calm) as (s0 & Ec & St & Sf).
  rewrite (ca_al _ _ _ _ _ _ _ Calm) in Ec. rewrite Ec in H.
  match type of H with obind ?x _ = _ => destruct x as [[[[[ok s] h] ds] w1]| |] eqn:El; try discriminate H end. cbn [obind] in H.
  destruct (xloop_inv _ _ _ _ _ _ _ _ _ _ _ _ _ _ _ _ _ _ _ _ _ _ _ _ Dd El) as (ops & rets & evs & A1 & A2 & A3 & A4 & A5 & A6 & A7 & A8).
  exists s0, ops, rets, s, evs, h, w1, ds.
  destruct (w_dead w1) eqn:D1.
  - injection H as <- <- <-. split; [reflexivity|]. split; [exact St|]. split; [exact A1|]. split; [exact A3|].
    split; [exact A4|]. split; [exact A5|]. split; [exact A6|]. split; [discriminate|]. split; [auto|discriminate].
  - destruct (destroy s) as [s'| |]; try discriminate H. cbn [obind] in H. injection H as <- <- <-.
    split; [reflexivity|]. split; [exact St|]. split; [exact A1|]. split; [exact A3|].
    split; [exact A4|]. split; [exact A5|]. split; [exact A6|]. split; [auto|]. split; [discriminate|].
    intros _. split; [reflexivity|]. eexists. split; [reflexivity|]. split; [destruct ok; auto|]. intro R. now rewrite (A8 R).
Qed.

Lemma xextract_runs T archive inp w fuel : (length inp < fuel)%nat -> supported z C (limited archive 0 inp) -> w_dead w = false ->
  (forall s0 dfuel ops rets s evs, started z s0 -> Forall dop_ok ops -> dfed ops = limited archive 0 inp ->
     run_dops e alloc dfuel s0 ops = Ok (rets, s, evs) -> exists h w1, xcbs T evs HS0 w = Ok (h, w1)) ->
  exists dfuel0, forall dfuel, (dfuel0 <= dfuel)%nat -> exists ret x w',
    xextract T archive fuel dfuel al obuf hjunk pjunk inp false w = Ok (ret, x, w').
Proof.
  intros Hf Sup Dd Hc. destruct (calm_started z C alloc hal al stk obuf hjunk pjunk Calm) as (s0 & Ec & St & Sf).
  set (ops := chunk_ops archive fuel inp 0 0). pose proof (chunk_ops_ok archive fuel inp 0 0) as Ho. fold ops in Ho.
  pose proof (chunk_ops_fed archive fuel inp 0 0 Hf) as Fed. fold ops in Fed.
  destruct (session_returns_ok z C e alloc s0 ops St Ho) as (dfuel0 & [[rets s] evs] & R). { now rewrite Fed. }
  exists dfuel0. intros dfuel Hd. specialize (R dfuel Hd).
  destruct (Hc _ _ _ _ _ _ St Ho Fed R) as (h & w1 & X).
  destruct (xloop_runs maxd maxf deny T hal stk z e alloc archive fuel dfuel inp 0 0 s0 HS0 w rets s evs h w1 Hf Dd R X) as (s1 & h1 & ds & w2 & El).
  destruct (xloop_inv _ _ _ _ _ _ _ _ _ _ _ _ _ _ _ _ _ _ _ _ _ _ _ _ Dd El) as (ops' & rets' & evs' & A1 & A2 & A3 & A4 & _).
  destruct (destroy_safe z C alloc s1) as (s' & Ds).
  { eapply run_dops_safe; [exact Sf|exact A2|exact A4]. }
  unfold WinExtract.xextract. rewrite !(ca_al _ _ _ _ _ _ _ Calm) in *. cbn [negb orb]. rewrite Ec, El. cbn [obind].
  destruct (w_dead w2); [eexists _, _, _; reflexivity|]. rewrite Ds. cbn [obind]. eexists _, _, _. reflexivity.
Qed.

Hypothesis Allow : forall q, deny q = false.
Hypothesis Len : maxf <= PATH_MAX.

Lemma xbegin_dir T t w : wfree maxd w T t ->
  let w1 := w_setfs (xupd (w_fs w) t XDir) w in
  exists h, xcb maxd maxf deny T hal stk EvDirBegin HS0 w = Ok (h, w1) /\ in_dir h T /\ h_err h = false /\ h_fp h = None /\ h_ret h = ContentDirectory /\
    at_dir w1 T t.
Proof.
  intros (Nz & Ne & L & K & Pd & Fr & Dd) w1. cbn [xcb]. unfold xcb_dr_start. rewrite (ca_hal _ _ _ _ _ _ _ Calm).
  rewrite (xmkdir_new maxd deny Allow w T t Nz Ne L K); [|rewrite <- (app_nil_r t); apply Fr|exact Pd].
  cbn [obind Z.eqb negb]. rewrite (ca_hal _ _ _ _ _ _ _ Calm). cbn [negb].
  eexists. split; [reflexivity|]. split. { split; [exact Nz|]. split; [reflexivity|]. exists []. reflexivity. }
  split; [reflexivity|]. split; [reflexivity|]. split; [reflexivity|]. split; [exact Ne|]. split; [exact K|]. split; [apply xupd_same|exact Dd].
Qed.

Lemma xextract_dir T archive F es t w fuel : (forall k n, alloc k n = true) -> (length F < fuel)%nat ->
  dir_archive C (limited archive 0 F) (preorder es) -> preorder es <> [] ->
  Forall (fun x => quiet (snd x)) es -> NoDup (folded es) ->
  Forall (fun x => wextractable maxd maxf (lenN T) (fst x) (snd x)) es -> wfree maxd w T t ->
  exists dfuel0, forall dfuel, (dfuel0 <= dfuel)%nat -> exists ret s h ds w',
    xextract T archive fuel dfuel al obuf hjunk pjunk F false w = Ok (Some ret, Some (s, h, ds), w') /\
    (room_left s -> ret = ContentDirectory /\ same_w w w' /\ forall q, w_fs w' q = xoverlay t (win_tree es) (w_fs w) q).
Proof.
  intros Halloc Hf Da Ne Q ND X Fs. pose proof Fs as (Nz & NeT & L & K & Pd & Fr & Dd).
  set (w1 := w_setfs (xupd (w_fs w) t XDir) w). assert (Dw1 : w_dead w1 = false) by exact Dd.
  destruct (xbegin_dir T t w Fs) as (h1 & X1 & D1 & E1 & P1 & R1 & At1). fold w1 in X1, At1.
  assert (Stk : maxf + 4 <= stk) by (pose proof (ca_stk _ _ _ _ _ _ _ Calm); lia).
  assert (Run : forall evs' st, shows (preorder es) (flat evs') -> proto_run Idle evs' = Some st ->
    exists h' w', xcbs T evs' h1 w1 = Ok (h', w') /\ in_dir h' T /\ same_h h1 h' /\ same_w w1 w' /\ xkeeps (w_fs w1) (w_fs w') /\
      forall q, w_fs w' q = xoverlay t (fun r => win_at r es) (w_fs w1) q).
  { intros evs' st S P.
    apply (xtree_placed maxd maxf deny T hal stk (ca_hal _ _ _ _ _ _ _ Calm) Stk Allow es T t evs' st Q ND X Nz S P h1 w1 D1 At1).
    intros r Hr. unfold w1. cbn [w_fs w_setfs]. rewrite xupd_other; [apply Fr|].
    intro Q'. apply Hr. apply (f_equal (@length bytes)) in Q'. rewrite app_length in Q'. destruct r; [reflexivity|cbn in Q'; lia]. }
  assert (Part : forall s0 dfuel ops rets s evs, started z s0 -> Forall dop_ok ops -> dfed ops = limited archive 0 F ->
     run_dops e alloc dfuel s0 ops = Ok (rets, s, evs) -> exists h w2, xcbs T evs HS0 w = Ok (h, w2) /\ h_err h = false /\ w_dead w2 = false).
  { intros s0 dfuel ops rets s evs St Ho Fed R. rewrite <- Fed in Da.
    destruct (session_extends z C e alloc Halloc _ _ _ _ _ _ _ St Ho Da R) as (_ & [->|(evs' & more & st & -> & S & P)] & _).
    - exists HS0, w. split; [reflexivity|]. split; [reflexivity|exact Dd].
    - destruct (Run _ _ S P) as (h' & w' & X2 & _ & (_ & E2 & _) & (_ & _ & Dd2) & _).
      rewrite xcbs_app in X2 by exact Dd. rewrite xcbs_cons, X1. cbn [obind]. rewrite Dw1 in Dd2 |- *.
      destruct (xcbs T evs' h1 w1) as [[h2 w2]| |] eqn:E3; try discriminate X2. cbn [obind] in X2.
      destruct (w_dead w2) eqn:Dd3. { injection X2 as <- <-. congruence. }
      exists h2, w2. split; [reflexivity|]. split; [|exact Dd3]. destruct (h_err h2) eqn:E4; [|reflexivity].
      rewrite (xcbs_err _ _ _ _ _ _ _ _ _ _ _ X2 E4) in E2. congruence. }
  destruct (calm_started z C alloc hal al stk obuf hjunk pjunk Calm) as (s0 & Ec & St & Sf).
  set (ops := chunk_ops archive fuel F 0 0). pose proof (chunk_ops_ok archive fuel F 0 0) as Ho. fold ops in Ho.
  pose proof (chunk_ops_fed archive fuel F 0 0 Hf) as Fed. fold ops in Fed.
  destruct (session_returns_ok z C e alloc s0 ops St Ho) as (dfuel0 & [[rets s] evs] & R). { rewrite Fed. eapply supported_of. apply Da. }
  exists dfuel0. intros dfuel Hd. specialize (R dfuel Hd).
  destruct (Part _ _ _ _ _ _ St Ho Fed R) as (h & w2 & X2 & He & Dd2).
  pose proof (xdrive maxd maxf deny T hal stk z e alloc archive fuel dfuel F 0 0 s0 HS0 w rets s evs h w2 Hf Dd R X2 He Dd2) as Dr.
  destruct (destroy_safe z C alloc s) as (s' & Ds).
  { eapply run_dops_safe; [exact Sf| |exact R]. intros b n. apply chunk_ops_feeds. }
  exists (h_ret h), s, h, (limited archive 0 F), (xclose_fp h w2). split.
  { unfold WinExtract.xextract. rewrite !(ca_al _ _ _ _ _ _ _ Calm) in *. cbn [negb orb]. rewrite Ec, Dr. cbn [obind]. rewrite Dd2, Ds. reflexivity. }
  rewrite <- Fed in Da. destruct (session_extends z C e alloc Halloc _ _ _ _ _ _ _ St Ho Da R) as (_ & _ & S2).
  intro Rl. destruct (S2 Rl Ne) as (evs' & st & -> & S & P). rewrite xcbs_cons, X1 in X2. cbn [obind] in X2.
  rewrite Dw1 in X2. destruct (Run _ _ S P) as (h' & w3 & X3 & _ & (P3 & _ & R3) & Env3 & _ & Eq). rewrite X3 in X2. injection X2 as <- <-.
  unfold xclose_fp. rewrite P3, P1.
  split; [congruence|]. split. { destruct Env3 as (B1 & B2 & B3). repeat split; assumption. }
  intro q. rewrite Eq. unfold xoverlay. destruct (strip t q) as [r|] eqn:Es.
  - apply strip_spec in Es. subst q. unfold w1. cbn [w_fs w_setfs].
    destruct r as [|c r].
    + rewrite app_nil_r, xupd_same. cbn [win_tree]. destruct (win_at [] es) eqn:Et; [discriminate Et|reflexivity].
    + cbn [win_tree]. destruct (win_at (c :: r) es); [reflexivity|]. rewrite xupd_other; [reflexivity|].
      intro E. apply (f_equal (@length bytes)) in E. rewrite app_length in E. cbn in E. lia.
  - unfold w1. cbn [w_fs w_setfs]. rewrite xupd_other; [reflexivity|]. intro E; subst q.
    pose proof (strip_app t []) as E. rewrite app_nil_r in E. congruence.
Qed.
End Whole.
