(** CopyFacts.v: archiving a directory and extracting the archive copies it (C104). *)
From Coq Require Import Lia.
From Verif Require Import Base Format Zlib Compress Parser ParserProofs ParserFacts Decompress DecompressProofs MidProofs MidFacts
  ArchiveSpec ArchiveFacts ArchiveDecode ArchiveEntry ArchiveProps FS FSFacts HL HLSpec HLFacts HLDrive HLProps HLSafe MkdirFacts HLTame HLMore LinkFacts LinkMore CopySpec.

Lemma below_nodir fs p : sane fs -> (forall m, fs p <> Some (IDir m)) -> forall r, r <> [] -> fs (p ++ r) = None.
Proof.
  intros [Sn _] H r. induction r as [|c r IH] using rev_ind; [congruence|]. intros _. destruct (fs (p ++ r ++ [c])) as [i|] eqn:E; [|reflexivity].
  rewrite app_assoc in E. destruct (Sn _ _ _ E) as [_ [m M]]. destruct r as [|a r].
  - rewrite app_nil_r in M. now destruct (H m).
  - rewrite IH in M by discriminate. discriminate M.
Qed.
Lemma perm_file um m : file_perm um (S_IFREG + m) = N.ldiff (N.land m 511) um.
Proof.
  unfold file_perm, S_IFREG. f_equal. change 511 with (N.ones 9). rewrite !N.land_ones. change 32768 with (64 * 2 ^ 9).
  rewrite N.add_comm. apply N.mod_add. discriminate.
Qed.
Lemma perm_dir um m : dir_perm um (S_IFDIR + m) = N.ldiff (N.land m 1023) um.
Proof.
  unfold dir_perm, S_IFDIR. f_equal. change 1023 with (N.ones 10). rewrite !N.land_ones. change 16384 with (16 * 2 ^ 10).
  rewrite N.add_comm. apply N.mod_add. discriminate.
Qed.
Lemma usable_st priv um m : usable_dir priv um m -> usable_dir priv um (S_IFDIR + m).
Proof. unfold usable_dir. rewrite perm_dir. auto. Qed.
Lemma entry_in c nd es : entry_of c es = Some nd -> In (c, nd) es.
Proof.
  induction es as [|[n x] es IH]; intro H; [discriminate H|]. cbn [entry_of] in H. destruct (bytes_eqb n c) eqn:E; [|right; auto].
  injection H as ->. apply bytes_eqb_spec in E. subst. now left.
Qed.
Lemma entry_none c es : entry_of c es = None -> ~ In c (map fst es).
Proof.
  induction es as [|[n x] es IH]; intros H Hi; [destruct Hi|]. cbn [entry_of] in H. destruct (bytes_eqb n c) eqn:E; [discriminate H|].
  destruct Hi as [Hi|Hi]; [|now apply IH]. cbn in Hi. subst. rewrite (proj2 (bytes_eqb_spec c c) eq_refl) in E. discriminate E.
Qed.
Lemma plain_dot c : plain c -> ~ dotted c.
Proof. intros (_ & _ & _ & A & B & _) [H|H]; contradiction. Qed.

Section Listed.
Context (fs : fstree) (San : sane fs).

Lemma sees_tree um p nd : sees fs p nd ->
  match nd with SDir _ es => forall r, r <> [] -> ltree_at um r es = option_map (masked um) (fs (p ++ r)) | _ => True end.
Proof.
  induction 1 as [| |p m es Hp ND Do Se IH Co]; [exact I|exact I|]. intros r Hr. destruct r as [|c r]; [congruence|]. clear Hr. cbn [ltree_at].
  assert (Sp : p ++ c :: r = (p ++ [c]) ++ r) by now rewrite <- app_assoc. rewrite Sp.
  destruct (dotb c) eqn:D.
  - apply dotb_spec in D. assert (N0 : fs (p ++ [c]) = None).
    { destruct (fs (p ++ [c])) eqn:E; [|reflexivity]. destruct (proj1 San _ _ _ E) as [P _]. now apply plain_dot in P. }
    destruct r as [|b r]; [rewrite app_nil_r, N0; reflexivity|]. rewrite below_nodir; [reflexivity|exact San|congruence|discriminate].
  - assert (Nd : ~ dotted c) by (intro Q; apply dotb_spec in Q; congruence). destruct (entry_of c es) as [nd|] eqn:Ee.
    + apply entry_in in Ee. pose proof (IH _ _ Ee Nd) as Q. pose proof (Se _ _ Ee Nd) as W. inversion W as [? m1 d1 H1|? x1 H1|? m1 es1 H1 H2 H3 H4 H5]; subst.
      * destruct r as [|b r]; [rewrite app_nil_r, H1; cbn [option_map masked]; rewrite perm_file; reflexivity|].
        rewrite below_nodir; [reflexivity|exact San|congruence|discriminate].
      * destruct r as [|b r]; [rewrite app_nil_r, H1; reflexivity|].
        rewrite below_nodir; [reflexivity|exact San|congruence|discriminate].
      * destruct r as [|b r]; [rewrite app_nil_r, H1; cbn [option_map masked]; rewrite perm_dir; reflexivity|]. apply Q. discriminate.
    + apply entry_none in Ee. assert (N0 : fs (p ++ [c]) = None).
      { destruct (fs (p ++ [c])) eqn:E; [|reflexivity]. destruct Ee. apply Co. congruence. }
      destruct r as [|b r]; [rewrite app_nil_r, N0; reflexivity|]. rewrite below_nodir; [reflexivity|exact San|congruence|discriminate].
Qed.
Lemma lists_tree um s es : lists fs s es -> forall r, r <> [] -> ltree_at um r es = option_map (masked um) (fs (s ++ r)).
Proof. intros [m H]. exact (sees_tree um _ _ H). Qed.

Lemma sees_quiet p nd : sees fs p nd -> quiet nd.
Proof.
  induction 1 as [p m d|p x|p m es Hp ND Do Se IH Co].
  - apply q_file.
  - apply q_link.
  - apply q_dir. apply Forall_forall. intros [c nd] Hi. cbn [snd]. destruct (dotb c) eqn:D.
    + apply dotb_spec in D. exact (Do _ _ Hi D).
    + apply (IH c); [exact Hi|]. intro Q. apply dotb_spec in Q. congruence.
Qed.
Lemma lists_quiet s es : lists fs s es -> Forall (fun x => quiet (snd x)) es.
Proof. intros [m H]. apply sees_quiet in H. inversion H. assumption. Qed.
Lemma lists_nodup s es : lists fs s es -> NoDup (map fst es).
Proof. intros [m H]. inversion H. assumption. Qed.
Lemma lists_nonempty s es : lists fs s es -> (exists c, fs (s ++ [c]) <> None) -> preorder es <> [].
Proof.
  intros [m H] [c Hc]. inversion H as [| |? ? ? Hp ND Do Se Co]; subst. pose proof (Co c Hc) as Hi. apply in_map_iff in Hi. destruct Hi as ([c' nd] & E & Hi).
  cbn in E. subst c'. destruct (fs (s ++ [c])) as [i|] eqn:E; [|congruence]. destruct (proj1 San _ _ _ E) as [P _]. apply plain_dot in P.
  pose proof (Se _ _ Hi P) as W. unfold preorder. apply in_split in Hi. destruct Hi as (a & b & ->). rewrite map_app, concat_app. cbn [map concat fst snd].
  assert (D : dotb c = false) by (destruct (dotb c) eqn:D; [apply dotb_spec in D; contradiction|reflexivity]).
  intro Q. apply app_eq_nil in Q. destruct Q as [_ Q]. apply app_eq_nil in Q. destruct Q as [Q _].
  inversion W; subst; cbn [preorder1] in Q; rewrite D in Q; discriminate Q.
Qed.

Lemma path_string_app r c : r <> [] -> lenN (path_string (r ++ [c])) = lenN (path_string r) + 1 + lenN c.
Proof.
  intro H. destruct r as [|a r]; [congruence|]. unfold path_string. cbn [app].
  change (a :: r ++ [c]) with ((a :: r) ++ [c]). rewrite map_app, concat_app, lenN_app. cbn [map concat]. rewrite app_nil_r, lenN_cons. lia.
Qed.
(** Extractable, for the directory [s] and the part [u] below it. *)
Lemma sees_lext priv um L s p nd : sees fs p nd -> forall u c, p = s ++ u ++ [c] -> suitable priv um L fs s ->
  lextractable priv um (match u with [] => L | _ => L + lenN (path_string u) end) c nd.
Proof.
  induction 1 as [p m d H|p x H|p m es Hp ND Do Se IH Co]; intros u c -> Su;
    (assert (Pc : plain c) by (rewrite app_assoc in *; match goal with H : fs _ = Some _ |- _ => exact (proj1 (proj1 San _ _ _ H)) end));
    (assert (Ln : match u with [] => L | _ => L + lenN (path_string u) end + 1 + lenN c < PATH_MAX)
      by (assert (X : L + lenN (path_string (u ++ [c])) < PATH_MAX) by (apply (proj1 Su); [destruct u; discriminate|congruence]);
          destruct u as [|a u]; [unfold path_string in X; cbn [app map concat] in X; rewrite app_nil_r, lenN_cons in X; lia
                                |rewrite path_string_app in X by discriminate; lia])).
  - now apply lx_file.
  - destruct (proj2 San _ _ H) as (A & B & D). apply lx_link; auto. lia.
  - apply lx_dir; auto.
    + apply usable_st. apply (proj2 Su) with (u ++ [c]); [destruct u; discriminate|exact Hp].
    + apply Forall_forall. intros [b nd] Hi. cbn [fst snd]. destruct (dotb b) eqn:D; [apply lx_dot; now apply dotb_spec|].
      assert (Nd : ~ dotted b) by (intro Q; apply dotb_spec in Q; congruence).
      replace (match u with [] => L | _ => L + lenN (path_string u) end + 1 + lenN c) with (match u ++ [c] with [] => L | _ => L + lenN (path_string (u ++ [c])) end).
      * apply (IH b nd Hi Nd (u ++ [c]) b); [|exact Su]. now rewrite <- !app_assoc.
      * destruct u as [|a u]; [unfold path_string; cbn [app map concat]; rewrite app_nil_r, lenN_cons; lia|].
        change ((a :: u) ++ [c]) with (a :: (u ++ [c])) at 1. cbn iota. rewrite path_string_app by discriminate. lia.
Qed.
Lemma lists_lext priv um L s es : lists fs s es -> suitable priv um L fs s -> Forall (fun x => lextractable priv um L (fst x) (snd x)) es.
Proof.
  intros [m H] Su. inversion H as [| |? ? ? Hp ND Do Se Co]; subst. apply Forall_forall. intros [c nd] Hi. cbn [fst snd].
  destruct (dotb c) eqn:D; [apply lx_dot; now apply dotb_spec|].
  assert (Nd : ~ dotted c) by (intro Q; apply dotb_spec in Q; congruence).
  exact (sees_lext priv um L s _ _ (Se _ _ Hi Nd) [] c eq_refl Su).
Qed.

(** Without links. *)
Lemma sees_ext priv um s p nd : sees fs p nd -> no_links fs s -> (exists u, p = s ++ u) -> forall L c, lextractable priv um L c nd -> extractable priv um L c nd.
Proof.
  induction 1 as [p m d H|p x H|p m es Hp ND Do Se IH Co]; intros Nl [u ->] L c X.
  - inversion X; subst; [now apply xt_dot|now apply xt_file].
  - now destruct (Nl u x).
  - inversion X as [? ? ? Dd| | | |? ? ? ? P Ln U ND2 F]; subst; [now apply xt_dot|]. apply xt_dir; auto.
    apply Forall_forall. intros [b nd] Hi. rewrite Forall_forall in F. pose proof (F _ Hi) as Fb. cbn [fst snd] in *.
    destruct (dotb b) eqn:D; [apply xt_dot; now apply dotb_spec|].
    assert (Nd : ~ dotted b) by (intro Q; apply dotb_spec in Q; congruence).
    apply (IH b nd Hi Nd Nl); [|exact Fb]. exists (u ++ [b]). now rewrite app_assoc.
Qed.
Lemma lists_ext priv um L s es : lists fs s es -> no_links fs s -> suitable priv um L fs s ->
  Forall (fun x => extractable priv um L (fst x) (snd x)) es.
Proof.
  intros Ls Nl Su. pose proof (lists_lext priv um L s es Ls Su) as F. destruct Ls as [m H]. inversion H as [| |? ? ? Hp ND Do Se Co]; subst.
  rewrite Forall_forall in *. intros [c nd] Hi. pose proof (F _ Hi) as X. cbn [fst snd] in *.
  destruct (dotb c) eqn:D; [apply xt_dot; now apply dotb_spec|].
  assert (Nd : ~ dotted c) by (intro Q; apply dotb_spec in Q; congruence).
  apply (sees_ext priv um s _ _ (Se _ _ Hi Nd) Nl); [now exists [c]|exact X].
Qed.
Lemma sees_nolink um s p nd : sees fs p nd -> no_links fs s -> (exists u, p = s ++ u) ->
  match nd with SDir _ es => forall r, tree_at um r es = ltree_at um r es | _ => True end.
Proof.
  induction 1 as [p m d H|p x H|p m es Hp ND Do Se IH Co]; intros Nl [u ->]; [exact I|exact I|]. intros [|c r]; [reflexivity|].
  cbn [tree_at ltree_at]. destruct (dotb c) eqn:D; [reflexivity|]. destruct (entry_of c es) as [nd|] eqn:Ee; [|reflexivity]. apply entry_in in Ee.
  assert (Nd : ~ dotted c) by (intro Q; apply dotb_spec in Q; congruence).
  assert (W : exists w, (s ++ u) ++ [c] = s ++ w) by (exists (u ++ [c]); now rewrite app_assoc).
  pose proof (IH _ _ Ee Nd Nl W) as Q. pose proof (Se _ _ Ee Nd) as Sc.
  destruct nd as [? ? ? ? ? ?|? ?|? ? tg|]; try reflexivity.
  - destruct r; [reflexivity|]. apply Q.
  - destruct W as [w W]. inversion Sc as [|? ? Hl|]; subst. rewrite W in Hl. now destruct (Nl w x).
Qed.
Lemma lists_nolink um s es : lists fs s es -> no_links fs s -> forall r, tree_at um r es = ltree_at um r es.
Proof. intros [m H] Nl. apply (sees_nolink um s _ _ H Nl). exists []. now rewrite app_nil_r. Qed.
End Listed.

Lemma free_none o T t : sane (o_fs o) -> free_spot o T t -> forall r, o_fs o (t ++ r) = None.
Proof.
  intros San (Nz & d & c & -> & Hn & W) r. assert (N0 : o_fs o (d ++ [c]) = None).
  { unfold namei in Hn. destruct (nonempty T); [|discriminate]. cbn [negb] in Hn. destruct (_ <=? _); [discriminate|].
    apply (HLProps.walk_none _ _ _ _ _ _ _ _ Hn). }
  destruct r as [|a r]; [now rewrite app_nil_r|]. apply below_nodir; [exact San|congruence|discriminate].
Qed.
Lemma overlay_copy um base fs s t fs' g : (forall r, r <> [] -> g r = option_map (masked um) (fs (s ++ r))) -> g [] = Some (IDir base) ->
  (forall r, fs (t ++ r) = None) -> (forall q, fs' q = overlay t g fs q) -> copy um fs s fs' t.
Proof.
  intros G G0 Nw E. split; [|split].
  - exists base. rewrite E. rewrite <- (app_nil_r t) at 2. rewrite overlay_at, G0. reflexivity.
  - intros r Hr. rewrite E, overlay_at, G by exact Hr. destruct (fs (s ++ r)); [reflexivity|]. cbn [option_map]. apply Nw.
  - intros q Hq. rewrite E. unfold overlay. destruct (strip t q) as [r|] eqn:St; [|reflexivity]. apply strip_spec in St. now destruct (Hq r).
Qed.

(** C104 *)
Lemma copied z (C : zlib_contract z) s es F e alloc hal al stk obuf hjunk pjunk T archive inp t o fuel :
  sane (o_fs o) -> lists (o_fs o) s es -> no_links (o_fs o) s -> suitable (o_priv o) (o_umask o) (lenN T) (o_fs o) s ->
  (exists c, o_fs o (s ++ [c]) <> None) -> archives_dir z es F ->
  input_of archive F inp -> (length inp < fuel)%nat -> calm z hal al stk obuf hjunk pjunk -> (forall k n, alloc k n = true) ->
  free_spot o T t -> usable_dir (o_priv o) (o_umask o) MODE_BASE_DIR -> volume (preorder es) <= o_free o ->
  exists dfuel0, forall dfuel, (dfuel0 <= dfuel)%nat -> exists ret q h ds o',
    exec (extract T hal stk z e alloc archive fuel dfuel al obuf hjunk pjunk inp false) o = Ok ((ret, Some (q, h, ds)), o') /\
    (room_left q -> ret = ContentDirectory /\ same_env o o' /\ copy (o_umask o) (o_fs o) s (o_fs o') t).
Proof.
  intros San Ls Nl Su Ne A In Fu Ca Al Fs U V. pose proof (free_none _ _ _ San Fs) as Nw.
  destruct (disk_dir z C es F e alloc hal al stk obuf hjunk pjunk T archive inp t o fuel A In Fu Ca Al (lists_nonempty _ San _ _ Ls Ne)
    (lists_quiet _ _ _ Ls) (lists_nodup _ _ _ Ls) (lists_ext _ San _ _ _ _ _ Ls Nl Su) Fs U Nw V) as (d0 & K).
  exists d0. intros dfuel Hd. destruct (K dfuel Hd) as (ret & q & h & ds & o' & E & R). exists ret, q, h, ds, o'. split; [exact E|].
  intro Rl. destruct (R Rl) as (R1 & R2 & R3). split; [exact R1|]. split; [exact R2|].
  apply (overlay_copy _ (dir_perm (o_umask o) MODE_BASE_DIR) _ _ _ _ (dir_tree (o_umask o) es)); [|reflexivity|exact Nw|exact R3]. intros r Hr. unfold dir_tree. destruct r as [|c r]; [congruence|].
  rewrite (lists_nolink _ _ _ _ Ls Nl). now apply lists_tree.
Qed.
Lemma copied_links z (C : zlib_contract z) s es F e alloc hal al stk obuf hjunk pjunk T archive inp t o fuel :
  sane (o_fs o) -> lists (o_fs o) s es -> suitable (o_priv o) (o_umask o) (lenN T) (o_fs o) s ->
  (exists c, o_fs o (s ++ [c]) <> None) -> archives_dir z es F -> homely o -> lenN F < DEF_CHUNK_SIZE -> lenN (zc_dec C F) < 128 + DEF_CHUNK_SIZE ->
  input_of archive F inp -> (length inp < fuel)%nat -> calm z hal al stk obuf hjunk pjunk -> (forall k n, alloc k n = true) ->
  free_spot o T t -> usable_dir (o_priv o) (o_umask o) MODE_BASE_DIR -> volume (preorder es) <= o_free o ->
  exists dfuel0, forall dfuel, (dfuel0 <= dfuel)%nat -> exists ret q h ds o',
    exec (extract T hal stk z e alloc archive fuel dfuel al obuf hjunk pjunk inp false) o = Ok ((ret, Some (q, h, ds)), o') /\
    (room_left q -> ret = ContentDirectory /\ same_env o o' /\ copy (o_umask o) (o_fs o) s (o_fs o') t).
Proof.
  intros San Ls Su Ne A Ho S1 S2 In Fu Ca Al Fs U V. pose proof (free_none _ _ _ San Fs) as Nw.
  destruct (disk_links z C es F e alloc hal al stk obuf hjunk pjunk T archive inp t o fuel A In Fu Ca Al (lists_nonempty _ San _ _ Ls Ne)
    (lists_quiet _ _ _ Ls) (lists_nodup _ _ _ Ls) (lists_lext _ San _ _ _ _ _ Ls Su) Ho S1 S2 Fs U Nw V) as (d0 & K).
  exists d0. intros dfuel Hd. destruct (K dfuel Hd) as (ret & q & h & ds & o' & E & R). exists ret, q, h, ds, o'. split; [exact E|].
  intro Rl. destruct (R Rl) as (R1 & R2 & R3). split; [exact R1|]. split; [exact R2|].
  apply (overlay_copy _ (dir_perm (o_umask o) MODE_BASE_DIR) _ _ _ _ (ldir_tree (o_umask o) es)); [|reflexivity|exact Nw|exact R3]. intros r Hr. unfold ldir_tree. destruct r as [|c r]; [congruence|].
  now apply lists_tree.
Qed.
Lemma copied_links_whole z (C : zlib_contract z) s es F e alloc hal al stk obuf hjunk pjunk T archive inp t o fuel :
  sane (o_fs o) -> lists (o_fs o) s es -> suitable (o_priv o) (o_umask o) (lenN T) (o_fs o) s ->
  (exists c, o_fs o (s ++ [c]) <> None) -> archives_dir z es F -> homely o ->
  input_of archive F inp -> (length inp < fuel)%nat -> calm z hal al stk obuf hjunk pjunk -> (forall k n, alloc k n = true) ->
  free_spot o T t -> usable_dir (o_priv o) (o_umask o) MODE_BASE_DIR -> volume (preorder es) <= o_free o ->
  exists dfuel0, forall dfuel, (dfuel0 <= dfuel)%nat -> exists q evs, calls z e alloc al obuf hjunk pjunk dfuel fuel archive inp q evs /\
    (room_left q -> unsplit evs -> exists h ds o',
      exec (extract T hal stk z e alloc archive fuel dfuel al obuf hjunk pjunk inp false) o = Ok ((ContentDirectory, Some (q, h, ds)), o') /\
      same_env o o' /\ copy (o_umask o) (o_fs o) s (o_fs o') t).
Proof.
  intros San Ls Su Ne A Ho In Fu Ca Al Fs U V. pose proof (free_none _ _ _ San Fs) as Nw.
  destruct (disk_links_whole z C es F e alloc hal al stk obuf hjunk pjunk T archive inp t o fuel A In Fu Ca Al (lists_nonempty _ San _ _ Ls Ne)
    (lists_quiet _ _ _ Ls) (lists_nodup _ _ _ Ls) (lists_lext _ San _ _ _ _ _ Ls Su) Ho Fs U Nw V) as (d0 & K).
  exists d0. intros dfuel Hd. destruct (K dfuel Hd) as (q & evs & Cs & R). exists q, evs. split; [exact Cs|].
  intros Rl Un. destruct (R Rl Un) as (h & ds & o' & E & R2 & R3). exists h, ds, o'. split; [exact E|]. split; [exact R2|].
  apply (overlay_copy _ (dir_perm (o_umask o) MODE_BASE_DIR) _ _ _ _ (ldir_tree (o_umask o) es)); [|reflexivity|exact Nw|exact R3]. intros r Hr. unfold ldir_tree. destruct r as [|c r]; [congruence|].
  now apply lists_tree.
Qed.

(** A copy of a copy. *)
Lemma masked_twice um i : masked um (masked um i) = masked um i.
Proof.
  assert (X : forall m k, N.ldiff (N.land (N.ldiff (N.land m k) um) k) um = N.ldiff (N.land m k) um).
  { intros m k. apply N.bits_inj. intro n. rewrite !N.ldiff_spec, !N.land_spec, !N.ldiff_spec, !N.land_spec.
    destruct (N.testbit m n), (N.testbit k n), (N.testbit um n); reflexivity. }
  destruct i; cbn [masked]; rewrite ?X; reflexivity.
Qed.
Lemma copy_copy um fs s fs' t fs2 t2 : copy um fs s fs' t -> copy um fs' t fs2 t2 -> forall r, r <> [] -> fs2 (t2 ++ r) = fs' (t ++ r).
Proof.
  intros (_ & A & _) (_ & B & _) r Hr. rewrite B, A by exact Hr. destruct (fs (s ++ r)) as [i|]; [|reflexivity]. cbn [option_map]. now rewrite masked_twice.
Qed.

Lemma copy_sane um fs s fs' t d c m : sane fs -> copy um fs s fs' t -> t = d ++ [c] -> plain c -> fs d = Some (IDir m) -> sane fs'.
Proof.
  intros [A B] (C0 & C1 & C2) Et Pc Hd.
  assert (Out : forall p a, (forall r, p ++ [a] <> t ++ r) -> forall r, p <> t ++ r) by (intros p a H r ->; apply (H (r ++ [a])); now rewrite app_assoc).
  split.
  - intros p a i H. destruct (strip t (p ++ [a])) as [r|] eqn:St.
    + apply strip_spec in St. destruct r as [|b r] using rev_ind.
      * rewrite app_nil_r, Et in St. apply app_inj_tail in St. destruct St as [-> ->]. split; [exact Pc|]. exists m. rewrite C2; [exact Hd|].
        intros r Q. apply (f_equal (@length bytes)) in Q. rewrite Et, !app_length in Q. cbn in Q. lia.
      * clear IHr. rewrite app_assoc in St. apply app_inj_tail in St. destruct St as [-> ->]. rewrite <- app_assoc, C1 in H by (now destruct r).
        destruct (fs (s ++ r ++ [b])) as [j|] eqn:E; [|discriminate H]. rewrite app_assoc in E. destruct (A _ _ _ E) as [P [k K]]. split; [exact P|].
        destruct r as [|x r]; [rewrite app_nil_r; exact C0|]. rewrite C1, K by discriminate. eexists. reflexivity.
    + assert (Nb : forall r, p ++ [a] <> t ++ r) by (intros r Q; rewrite Q, strip_app in St; discriminate St).
      rewrite C2 in H by exact Nb. rewrite C2 by (eapply Out; exact Nb). eapply A. exact H.
  - intros p x H. destruct (strip t p) as [r|] eqn:St.
    + apply strip_spec in St. subst p. destruct r as [|b r]; [rewrite app_nil_r in H; destruct C0; congruence|].
      rewrite C1 in H by discriminate. destruct (fs (s ++ b :: r)) as [j|] eqn:E; [|discriminate H]. cbn in H. destruct j; try discriminate H. injection H as <-. eapply B. exact E.
    + rewrite C2 in H; [eapply B; exact H|]. intros r ->. rewrite strip_app in St. discriminate St.
Qed.
Lemma copy_suitable priv um L fs s fs' t : copy um fs s fs' t -> suitable priv um L fs s -> suitable priv um L fs' t.
Proof.
  intros (_ & B & _) [X Y]. split.
  - intros r Hr H. apply X; [exact Hr|]. intro Q. apply H. rewrite B, Q by exact Hr. reflexivity.
  - intros r m Hr H. rewrite B in H by exact Hr. destruct (fs (s ++ r)) as [i|] eqn:E; [|discriminate H]. cbn [option_map] in H.
    destruct i as [k| |]; try discriminate H. apply Y in E; [|exact Hr]. cbn [masked] in H. injection H as <-.
    unfold usable_dir in *. assert (Q : dir_perm um (N.ldiff (N.land k 1023) um) = dir_perm um k) by (pose proof (masked_twice um (IDir k)) as Q; cbn in Q; now injection Q).
    now rewrite Q.
Qed.
Lemma copied_again z (C : zlib_contract z) fs0 s t es F e alloc hal al stk obuf hjunk pjunk T archive inp t2 o fuel d c m :
  sane fs0 -> no_links fs0 s -> suitable (o_priv o) (o_umask o) (lenN T) fs0 s -> (exists c, fs0 (s ++ [c]) <> None) ->
  copy (o_umask o) fs0 s (o_fs o) t -> t = d ++ [c] -> plain c -> fs0 d = Some (IDir m) ->
  lists (o_fs o) t es -> archives_dir z es F ->
  input_of archive F inp -> (length inp < fuel)%nat -> calm z hal al stk obuf hjunk pjunk -> (forall k n, alloc k n = true) ->
  free_spot o T t2 -> usable_dir (o_priv o) (o_umask o) MODE_BASE_DIR -> volume (preorder es) <= o_free o ->
  exists dfuel0, forall dfuel, (dfuel0 <= dfuel)%nat -> exists ret q h ds o',
    exec (extract T hal stk z e alloc archive fuel dfuel al obuf hjunk pjunk inp false) o = Ok ((ret, Some (q, h, ds)), o') /\
    (room_left q -> forall r, r <> [] -> o_fs o' (t2 ++ r) = o_fs o (t ++ r)).
Proof.
  intros San0 Nl Su0 Ne Cp Et Pc Hd Ls A In Fu Ca Al Fs U V. pose proof (copy_sane _ _ _ _ _ _ _ _ San0 Cp Et Pc Hd) as San.
  pose proof (copy_suitable _ _ _ _ _ _ _ Cp Su0) as Su.
  assert (Ne' : exists c, o_fs o (t ++ [c]) <> None).
  { destruct Ne as [b Hb]. exists b. destruct Cp as (_ & B & _). rewrite B by discriminate. destruct (fs0 (s ++ [b])); [discriminate|congruence]. }
  assert (Nt : no_links (o_fs o) t).
  { intros r x H. destruct r as [|b r].
    - destruct Cp as ([k M] & _). rewrite app_nil_r in H. congruence.
    - destruct Cp as (_ & B & _). rewrite B in H by discriminate. destruct (fs0 (s ++ b :: r)) as [i|] eqn:E; [|discriminate H].
      cbn [option_map] in H. destruct i; try discriminate H. now destruct (Nl (b :: r) target). }
  destruct (copied z C t es F e alloc hal al stk obuf hjunk pjunk T archive inp t2 o fuel San Ls Nt Su Ne' A In Fu Ca Al Fs U V) as (d0 & K).
  exists d0. intros dfuel Hf. destruct (K dfuel Hf) as (ret & q & h & ds & o' & E & R). exists ret, q, h, ds, o'. split; [exact E|].
  intro Rl. destruct (R Rl) as (_ & _ & R3). eapply copy_copy; eauto.
Qed.
