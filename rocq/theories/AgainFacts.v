(** AgainFacts.v: archiving the directory that was extracted. *)
From Coq Require Import Lia.
From Verif Require Import Base Format Zlib LLCompress CompressFacts Compress Parser ArchiveSpec ArchiveFacts ArchiveDecode ArchiveEntry ArchiveProps
  FS FSFacts Decompress DecompressProofs MidProofs MidFacts HL HLSpec HLFacts HLDrive HLProps HLSafe HLMore LinkFacts LinkMore CutSpec CopySpec CopyFacts PathWalk PathFacts FuelFacts.

(** Specification: a copy of the directory [s] has the same permissions. *)
Definition settled (um : N) (fs : fstree) (s : path) : Prop := forall r i, r <> [] -> fs (s ++ r) = Some i -> masked um i = i.

(** ** Names in a path *)
Definition named (c : bytes) : Prop := c <> [] /\ ~ In x2f c /\ ~ In x00 c.
Lemma split_on_named s : ~ In x00 s -> Forall (fun c => ~ In x2f c /\ ~ In x00 c) (split_on s).
Proof.
  induction s as [|b s IH]; intro H; cbn [split_on]; [repeat constructor; intros []|].
  assert (H' : ~ In x00 s) by (intro Q; apply H; now right). specialize (IH H').
  destruct (byte_eqb b x2f) eqn:E; [constructor; [split; intros []|exact IH]|].
  assert (Hb : ~ (b = x2f) /\ ~ (b = x00)).
  { split; [intros ->; discriminate E|intros ->; apply H; now left]. }
  destruct (split_on s) as [|h t]; constructor; try constructor; try now inversion IH.
  - intros [Q|[]]; tauto.
  - intros [Q|[]]; tauto.
  - inversion IH as [|? ? [A B] _]; subst. intros [Q|Q]; tauto.
  - inversion IH as [|? ? [A B] _]; subst. intros [Q|Q]; tauto.
Qed.
Lemma comps_named s : ~ In x00 s -> Forall named (comps s).
Proof.
  intro H. apply split_on_named in H. unfold comps. apply Forall_forall. intros c Hc. apply filter_In in Hc. destruct Hc as [Hc Ne].
  rewrite Forall_forall in H. destruct (H _ Hc) as [A B]. split; [intros ->; discriminate Ne|]. now split.
Qed.
Lemma walk_plain fs priv follow : sane fs -> forall links d cs d' c' i, Forall named cs -> walk_path fs priv follow links d cs = WAt d' c' i -> plain c'.
Proof.
  intro Sn. induction links as [links IHl] using (well_founded_induction Wf_nat.lt_wf).
  intros d cs. revert d. induction cs as [|c1 r IH]; intros d d' c' i Hn Hw; rewrite walk_eq in Hw; [discriminate Hw|].
  inversion Hn as [|? ? (N1 & N2 & N3) Hr]; subst.
  destruct (fs d) as [[m1|m1 x|x]|]; try discriminate Hw. destruct (negb _); [discriminate Hw|].
  destruct (bytes_eqb c1 [x2e]) eqn:E1; [exact (IH _ _ _ _ Hr Hw)|]. destruct (bytes_eqb c1 [x2e; x2e]) eqn:E2; [exact (IH _ _ _ _ Hr Hw)|].
  destruct (NAME_MAX <? lenN c1) eqn:El; [discriminate Hw|].
  assert (P : plain c1).
  { repeat split; auto; try (intros ->; discriminate). now apply N.ltb_ge. }
  destruct (fs (d ++ [c1])) as [[m2|m2 x1|x1]|] eqn:Ef.
  - destruct r; [injection Hw as <- <- <-; exact P|exact (IH _ _ _ _ Hr Hw)].
  - destruct r; [injection Hw as <- <- <-; exact P|discriminate Hw].
  - destruct (proj2 Sn _ _ Ef) as (_ & Nz & _).
    assert (Q : match links with O => WErr ELOOP | S l => if nonempty x1 then walk_path fs priv follow l (start x1 d) (comps x1 ++ r) else WErr ENOENT end = WAt d' c' i -> plain c').
    { destruct links as [|l]; [discriminate|]. destruct (nonempty x1); [|discriminate]. apply (IHl l); [constructor|]. apply Forall_app. split; [now apply comps_named|exact Hr]. }
    destruct r; [destruct follow; [exact (Q Hw)|injection Hw as <- <- <-; exact P]|exact (Q Hw)].
  - destruct r; [injection Hw as <- <- <-; exact P|discriminate Hw].
Qed.
Lemma spot_plain o T t : sane (o_fs o) -> free_spot o T t -> exists d c m, t = d ++ [c] /\ plain c /\ o_fs o d = Some (IDir m) /\ lenN T < PATH_MAX.
Proof.
  intros Sn (Nz & d & c & -> & Hn & _). unfold namei in Hn. destruct (nonempty T); [|discriminate Hn]. cbn [negb] in Hn.
  destruct (PATH_MAX <=? lenN T) eqn:El; [discriminate Hn|]. exists d, c. destruct (walk_none _ _ _ _ _ _ _ _ Hn) as [_ (m & E & _)]. exists m.
  split; [reflexivity|]. split; [exact (walk_plain _ _ _ Sn _ _ _ _ _ _ (comps_named _ Nz) Hn)|]. split; [exact E|now apply N.leb_gt].
Qed.

(** ** The same tree *)
Lemma tree_same fs ls fs' ls' n : forall s t, (forall r, r <> [] -> fs' (t ++ r) = fs (s ++ r)) -> (forall r, ls' (t ++ r) = ls (s ++ r)) -> tree fs' ls' n t = tree fs ls n s.
Proof.
  induction n as [|n IH]; intros s t A B; cbn [tree]; pose proof (B []) as B0; rewrite !app_nil_r in B0; rewrite B0; [reflexivity|].
  apply map_ext. intro c. unfold leaf_at. rewrite A by discriminate. f_equal. destruct (fs (s ++ [c])) as [[m|m x|x]|]; try reflexivity.
  f_equal. apply IH; intros r; [intros Hr|]; rewrite <- !app_assoc; [apply A; discriminate|apply B].
Qed.

Lemma copy_same um fs s fs' t : copy um fs s fs' t -> settled um fs s -> forall r, r <> [] -> fs' (t ++ r) = fs (s ++ r).
Proof.
  intros (_ & B & _) St r Hr. rewrite B by exact Hr. destruct (fs (s ++ r)) as [i|] eqn:E; [|reflexivity]. cbn [option_map]. now rewrite (St r i Hr E).
Qed.
Lemma copy_settled um fs s fs' t : copy um fs s fs' t -> settled um fs' t.
Proof.
  intros (_ & B & _) r i Hr E. rewrite B in E by exact Hr. destruct (fs (s ++ r)) as [j|]; [|discriminate E]. cbn [option_map] in E. injection E as <-. apply masked_twice.
Qed.

(** A listing of the new tree in which the copy is listed as the original was. *)
Definition again_ls (ls : path -> list bytes) (s t p : path) : list bytes :=
  match strip t p with Some r => ls (s ++ r) | None => if path_eqb p (removelast t) then last t [] :: ls p else ls p end.
Lemma again_ls_copy ls s t r : again_ls ls s t (t ++ r) = ls (s ++ r).
Proof. unfold again_ls. now rewrite strip_app. Qed.
Lemma copy_reports um fs s fs' d c m ls : sane fs -> copy um fs s fs' (d ++ [c]) -> reports fs ls -> (exists m, fs s = Some (IDir m)) -> plain c -> fs d = Some (IDir m) ->
  fs (d ++ [c]) = None -> reports fs' (again_ls ls s (d ++ [c])).
Proof.
  intros Sn ((mt & Et) & B & K) R (ms & Es) Pc Ed Nw p mp Ep.
  assert (M : forall r, r <> [] -> fs' ((d ++ [c]) ++ r) <> None <-> fs (s ++ r) <> None).
  { intros r Hr. rewrite B by exact Hr. destruct (fs (s ++ r)); cbn [option_map]; split; congruence. }
  unfold again_ls. destruct (strip (d ++ [c]) p) as [r|] eqn:Sp.
  - apply strip_spec in Sp. subst p. assert (exists m2, fs (s ++ r) = Some (IDir m2)) as (m2 & E2).
    { destruct r as [|a r]; [rewrite app_nil_r; eauto|]. rewrite B in Ep by discriminate. destruct (fs (s ++ a :: r)) as [[m2|m2 x|x]|]; try discriminate Ep. eauto. }
    destruct (R _ _ E2) as (R1 & R2 & R3). split; [exact R1|]. split.
    + intros a Ha. apply R2. rewrite <- (app_assoc s). apply M; [now destruct r|]. now rewrite (app_assoc (d ++ [c])).
    + intros a Ha. destruct (R3 a Ha) as [Q|Q]; [left|now right]. rewrite <- (app_assoc s) in Q. apply M in Q; [|now destruct r]. now rewrite (app_assoc (d ++ [c])) in Q.
  - assert (Ec : forall r, p <> (d ++ [c]) ++ r) by (intros r ->; rewrite strip_app in Sp; discriminate Sp).
    rewrite K in Ep by exact Ec. destruct (R _ _ Ep) as (R1 & R2 & R3). rewrite removelast_last, last_last.
    assert (O : forall a, p ++ [a] <> d ++ [c] -> fs' (p ++ [a]) = fs (p ++ [a])).
    { intros a Ha. apply K. intros r Q. destruct r as [|b r] using rev_ind; [rewrite app_nil_r in Q; contradiction|].
      rewrite app_assoc in Q. apply app_inj_tail in Q. destruct Q as [Q _]. exact (Ec _ Q). }
    destruct (path_eqb p d) eqn:Epd.
    + apply path_eqb_spec in Epd. subst p. split; [|split].
      * constructor; [|exact R1]. intro Q. destruct (R3 _ Q) as [Q'|Q']; [congruence|]. destruct Pc as (_ & _ & _ & P4 & P5 & _). destruct Q'; congruence.
      * intros a Ha. destruct (list_eq_dec Byte.byte_eq_dec c a) as [->|Ne]; [now left|]. right. apply R2. rewrite <- O; [exact Ha|].
        intro Q. apply app_inj_tail in Q. destruct Q; congruence.
      * intros a [<-|Ha].
        -- left. rewrite Et. discriminate.
        -- destruct (R3 a Ha) as [Q|Q]; [left|now right]. rewrite O; [exact Q|]. intro Q'. rewrite Q' in Q. congruence.
    + assert (Ne : forall a, p ++ [a] <> d ++ [c]).
      { intros a Q. apply app_inj_tail in Q. destruct Q as [-> _]. now rewrite path_eqb_refl in Epd. }
      split; [exact R1|]. split; intros a Ha; [apply R2; rewrite <- O by apply Ne; exact Ha|]. destruct (R3 a Ha) as [Q|Q]; [left|now right]. now rewrite O by apply Ne.
Qed.

(** The string of the target leads to the copy. *)
Lemma copy_dir_at o T t o' s : free_spot o T t -> sane (o_fs o) -> copy (o_umask o) (o_fs o) s (o_fs o') t -> same_env o o' ->
  (exists m, o_fs o' t = Some (IDir m) /\ can_x (o_priv o) m = true) -> dir_at o' T t.
Proof.
  intros Fs Sn (_ & _ & Cp) (E1 & _ & E3 & _) (m & Em & Xm). pose proof (free_none _ _ _ Sn Fs) as Nw.
  destruct Fs as (Nz & d & c & Et & Hn & W). subst t. unfold namei in Hn.
  destruct (nonempty T) eqn:En; [|discriminate Hn]. cbn [negb] in Hn.
  destruct (_ <=? _); [discriminate Hn|]. destruct (walk_none _ _ _ _ _ _ _ _ Hn) as [Hno _].
  assert (L : leads (upd (o_fs o) (d ++ [c]) (IDir m)) (o_priv o) MAX_LINKS (start T (o_cwd o)) (comps T) (d ++ [c])) by exact (walk_made _ _ _ _ _ _ Xm Hno _ _ _ Hn).
  split; [intros ->; discriminate En|]. rewrite E1, E3. refine (leads_keeps _ _ _ _ _ _ _ _ L). intro p. unfold upd. destruct (path_eqb p (d ++ [c])) eqn:Ep.
  - apply path_eqb_spec in Ep. now subst p.
  - destruct (o_fs o p) as [i|] eqn:Ei; [|exact Logic.I].
    assert (o_fs o' p = Some i) as -> by (rewrite Cp; [exact Ei|]; intros r ->; rewrite Nw in Ei; discriminate Ei).
    destruct i; eauto.
Qed.

Lemma masked_small um k m : k < 4096 -> N.ldiff (N.land m k) um < 4096.
Proof.
  intro H. apply N.le_lt_trans with k; [apply N.ldiff_le|exact H]. apply N.bits_inj. intro i. rewrite !N.ldiff_spec, N.land_spec, N.bits_0.
  destruct (N.testbit k i); [apply andb_false_r|]. now rewrite andb_false_r.
Qed.

Lemma copy_archivable o ls src s n T t o' ls' : archivable o ls src s n -> free_spot o T t -> copy (o_umask o) (o_fs o) s (o_fs o') t -> same_env o o' ->
  (forall r, r <> [] -> match option_map (masked (o_umask o)) (o_fs o (s ++ r)) with
     | Some (IDir m) => can_r (o_priv o) m = true /\ can_x (o_priv o) m = true | Some (IFile m _) => can_r (o_priv o) m = true | _ => True end) ->
  reports (o_fs o') ls' ->
  (exists m, o_fs o' t = Some (IDir m) /\ m < 4096 /\ can_x (o_priv o) m = true /\ can_r (o_priv o) m = true) ->
  (forall r c, o_fs o (s ++ r ++ [c]) <> None -> lenN (below T (r ++ [c])) <= 4094) -> archivable o' ls' T t n.
Proof.
  intros (Sn & Rp & Md & Da & Rd & Uc & Dp) Fs Cp En St Rp' (m & Em & Lm & Xm & Rm) Ul. pose proof (proj1 (proj2 Cp)) as Sm.
  assert (Ex : forall r, r <> [] -> o_fs o' (t ++ r) <> None -> o_fs o (s ++ r) <> None).
  { intros r Hr H Q. rewrite Sm, Q in H by exact Hr. now destruct H. }
  destruct (spot_plain _ _ _ Sn Fs) as (d & c & md & Et & Pc & Ed & Lt).
  split; [exact (copy_sane _ _ _ _ _ _ _ _ Sn Cp Et Pc Ed)|]. split; [exact Rp'|]. split.
  { intro p. destruct (strip t p) as [r|] eqn:Sp.
    - apply strip_spec in Sp. subst p. destruct r as [|a r]; [rewrite app_nil_r, Em; exact Lm|]. rewrite Sm by discriminate. pose proof (Md (s ++ a :: r)) as M.
      destruct (o_fs o (s ++ a :: r)) as [[mm|mm x|x]|]; cbn [option_map masked]; [| |exact Logic.I|exact Logic.I].
      + apply masked_small. reflexivity.
      + split; [|exact (proj2 M)]. apply masked_small. reflexivity.
    - assert (o_fs o' p = o_fs o p) as ->; [|apply Md]. destruct Cp as (_ & _ & Cp). apply Cp. intros r ->. rewrite strip_app in Sp. discriminate Sp. }
  split; [apply (copy_dir_at o T t o' s Fs Sn Cp En); exists m; auto|]. destruct En as (_ & _ & E3 & _). split.
  { intro r. rewrite E3. destruct r as [|a r]; [rewrite app_nil_r, Em; auto|]. rewrite Sm by discriminate. apply St. discriminate. }
  split.
  { split; [exact Lt|]. intros r a Ha. apply Ul. apply Ex; [now destruct r|exact Ha]. }
  intros r Hr. destruct r as [|a r]; [cbn; lia|]. apply Ex in Hr; [|discriminate]. now apply Dp.
Qed.

Section Copied.
Context (z : zlib) (C : zlib_contract z).
(** The copy that an extraction makes, with the permissions of its root. *)
Lemma copied_root s es F' e' alloc hal al' stk obuf hjunk' pjunk T archive inp t o fuel :
  sane (o_fs o) -> lists (o_fs o) s es -> suitable (o_priv o) (o_umask o) (lenN T) (o_fs o) s ->
  (exists c, o_fs o (s ++ [c]) <> None) -> archives_dir z es F' -> homely o ->
  input_of archive F' inp -> (length inp < fuel)%nat -> calm z hal al' stk obuf hjunk' pjunk -> (forall k n, alloc k n = true) ->
  free_spot o T t -> usable_dir (o_priv o) (o_umask o) MODE_BASE_DIR -> volume (preorder es) <= o_free o ->
  exists dfuel0, forall dfuel, (dfuel0 <= dfuel)%nat -> exists q evs, calls z e' alloc al' obuf hjunk' pjunk dfuel fuel archive inp q evs /\
    (room_left q -> unsplit evs -> exists h ds o',
      exec (extract T hal stk z e' alloc archive fuel dfuel al' obuf hjunk' pjunk inp false) o = Ok ((ContentDirectory, Some (q, h, ds)), o') /\
      same_env o o' /\ copy (o_umask o) (o_fs o) s (o_fs o') t /\ o_fs o' t = Some (IDir (dir_perm (o_umask o) MODE_BASE_DIR))).
Proof.
  intros San Ls Su Ne A Ho In Fu Ca Al Fs U V. pose proof (free_none _ _ _ San Fs) as Nw.
  destruct (disk_links_whole z C es F' e' alloc hal al' stk obuf hjunk' pjunk T archive inp t o fuel A In Fu Ca Al (lists_nonempty _ San _ _ Ls Ne)
    (lists_quiet _ _ _ Ls) (lists_nodup _ _ _ Ls) (lists_lext _ San _ _ _ _ _ Ls Su) Ho Fs U Nw V) as (d0 & K).
  exists d0. intros dfuel Hd. destruct (K dfuel Hd) as (q & evs & Cs & R). exists q, evs. split; [exact Cs|].
  intros Rl Un. destruct (R Rl Un) as (h & ds & o' & E & R2 & R3). exists h, ds, o'. split; [exact E|]. split; [exact R2|]. split.
  - apply (overlay_copy _ (dir_perm (o_umask o) MODE_BASE_DIR) _ _ _ _ (ldir_tree (o_umask o) es)); [|reflexivity|exact Nw|exact R3]. intros r Hr.
    unfold ldir_tree. destruct r as [|c r]; [congruence|]. now apply lists_tree.
  - rewrite R3. rewrite <- (app_nil_r t) at 2. rewrite overlay_at. reflexivity.
Qed.

(** The same for a run that is known to end. *)
Lemma copied_ended s es F' e' alloc hal al' stk obuf hjunk' pjunk T archive inp t o fuel dfuel q evs fuel0 dfuel0 x o' :
  sane (o_fs o) -> lists (o_fs o) s es -> suitable (o_priv o) (o_umask o) (lenN T) (o_fs o) s ->
  (exists c, o_fs o (s ++ [c]) <> None) -> archives_dir z es F' -> homely o ->
  input_of archive F' inp -> (length inp < fuel)%nat -> calm z hal al' stk obuf hjunk' pjunk -> (forall k n, alloc k n = true) ->
  free_spot o T t -> usable_dir (o_priv o) (o_umask o) MODE_BASE_DIR -> volume (preorder es) <= o_free o ->
  calls z e' alloc al' obuf hjunk' pjunk dfuel fuel archive inp q evs -> room_left q -> unsplit evs ->
  exec (extract T hal stk z e' alloc archive fuel0 dfuel0 al' obuf hjunk' pjunk inp false) o = Ok (x, o') -> (fuel0 <= fuel)%nat ->
  same_env o o' /\ copy (o_umask o) (o_fs o) s (o_fs o') t /\ o_fs o' t = Some (IDir (dir_perm (o_umask o) MODE_BASE_DIR)).
Proof.
  intros San Ls Su Ne A Ho In Fu Ca Al Fs U V K Rl Un X Hf.
  destruct (copied_root s es F' e' alloc hal al' stk obuf hjunk' pjunk T archive inp t o fuel San Ls Su Ne A Ho In Fu Ca Al Fs U V) as (d0 & Co).
  destruct (Co (d0 + dfuel + dfuel0)%nat ltac:(lia)) as (q2 & evs2 & K2 & R2).
  pose proof (calls_more e' alloc al' obuf hjunk' pjunk dfuel (d0 + dfuel + dfuel0)%nat fuel archive inp q evs ltac:(lia) K) as K'.
  destruct K2 as (s0 & rets & C1 & C2). destruct K' as (s0' & rets' & C1' & C2'). rewrite C1 in C1'. injection C1' as <-. rewrite C2 in C2'. injection C2' as _ -> ->.
  destruct (R2 Rl Un) as (h & ds & o2 & X2 & En & Cp & Em).
  rewrite (extract_ended T hal stk z e' alloc archive fuel0 fuel dfuel0 (d0 + dfuel + dfuel0) al' obuf hjunk' pjunk inp false o _ X Hf ltac:(lia)) in X2.
  injection X2 as -> ->. auto.
Qed.
End Copied.

(** ** Archiving again *)
Section Again.
Context (z : zlib) (C : zlib_contract z) {F : Type} (e : endian) (g : F -> bytes -> skind -> Z * F)
  (jk : N -> bytes) (hj : N -> N -> bytes) (xjk : N -> N -> bytes) (hjunk : bytes) (al : N -> bool).
(** A filter that does not look at the directory. *)
Notation filt := (fun f (_ : bytes) c k => g f c k).

Lemma again_path o ls dsize sj o' ls' dsize' sj' fuel pfuel level clbk nested xs src src' f0 s t n : archivable o ls src s n -> archivable o' ls' src' t n -> (n < pfuel)%nat ->
  (forall r, r <> [] -> o_fs o' (t ++ r) = o_fs o (s ++ r)) -> (forall r, ls' (t ++ r) = ls (s ++ r)) ->
  compress_path z e filt jk hj xjk hjunk al o' ls' dsize' sj' fuel pfuel level clbk nested xs src' f0 =
  compress_path z e filt jk hj xjk hjunk al o ls dsize sj fuel pfuel level clbk nested xs src f0.
Proof.
  intros Ar Ar' Hf A B. rewrite (path_is_dir z e filt jk hj xjk hjunk al o' ls' dsize' sj' fuel pfuel level clbk nested xs src' f0 t n Ar' Hf).
  rewrite (path_is_dir z e filt jk hj xjk hjunk al o ls dsize sj fuel pfuel level clbk nested xs src f0 s n Ar Hf).
  rewrite (tree_same (o_fs o) ls (o_fs o') ls' n s t A B). reflexivity.
Qed.

Lemma archived_again o ls dsize sj fuel pfuel level clbk src f0 s n r cevs ws wx led e' alloc hal al' stk obuf hjunk' pjunk T archive inp t fuel' :
  junk_ok jk hj xjk hjunk -> accepts_path filt -> archivable o ls src s n -> (n < pfuel)%nat -> created z al level ->
  compress_path z e filt jk hj xjk hjunk al o ls dsize sj fuel pfuel level clbk false [] src f0 = Ok (r, cevs, ws, wx, led) -> last_not_full cevs ->
  homely o -> suitable (o_priv o) (o_umask o) (lenN T) (o_fs o) s -> (exists c, o_fs o (s ++ [c]) <> None) ->
  input_of archive (cev_bytes cevs) inp -> (length inp < fuel')%nat -> calm z hal al' stk obuf hjunk' pjunk -> (forall k n, alloc k n = true) ->
  free_spot o T t -> usable_dir (o_priv o) (o_umask o) MODE_BASE_DIR -> volume (preorder (tree (o_fs o) ls n s)) <= o_free o ->
  settled (o_umask o) (o_fs o) s -> can_r (o_priv o) (dir_perm (o_umask o) MODE_BASE_DIR) = true ->
  (forall p c, o_fs o (s ++ p ++ [c]) <> None -> lenN (below T (p ++ [c])) <= 4094) ->
  exists dfuel0, forall dfuel, (dfuel0 <= dfuel)%nat -> exists q evs, calls z e' alloc al' obuf hjunk' pjunk dfuel fuel' archive inp q evs /\
    (room_left q -> unsplit evs -> exists h ds o',
      exec (extract T hal stk z e' alloc archive fuel' dfuel al' obuf hjunk' pjunk inp false) o = Ok ((ContentDirectory, Some (q, h, ds)), o') /\
      forall ls' dsize' sj', reports (o_fs o') ls' -> (forall p, ls' (t ++ p) = ls (s ++ p)) ->
        compress_path z e filt jk hj xjk hjunk al o' ls' dsize' sj' fuel pfuel level clbk false [] T f0 = Ok (r, cevs, ws, wx, led)).
Proof.
  intros J Ha Ar Hf Cr H L Ho Su Ne In Hi Ca Al Fs Us Vo St Rm Ul.
  destruct (path_archived_tree z e filt jk hj xjk hjunk al o ls dsize sj C _ _ _ _ _ _ _ _ _ _ _ _ _ J Ha Ar Hf Cr H) as [Hr Q].
  destruct (copied_root z C s _ (cev_bytes cevs) e' alloc hal al' stk obuf hjunk' pjunk T archive inp t o fuel' (proj1 Ar)
    (path_lists o ls src s n Ar) Su Ne (Q L) Ho In Hi Ca Al Fs Us Vo) as (d0 & K).
  exists d0. intros dfuel Hd. destruct (K dfuel Hd) as (q & evs & Cs & R). exists q, evs. split; [exact Cs|].
  intros Rl Un. destruct (R Rl Un) as (h & ds & o' & E & En & Cp & Em). exists h, ds, o'. split; [exact E|]. intros ls' dsize' sj' Rp' Hls.
  rewrite <- H. apply again_path with (n := n) (s := s) (t := t); [exact Ar| |exact Hf|exact (copy_same _ _ _ _ _ Cp St)|exact Hls].
  assert (Rd : readable o s) by (exact (proj1 (proj2 (proj2 (proj2 (proj2 Ar)))))).
  apply (copy_archivable o ls src s n T t o' ls' Ar Fs Cp En); [|exact Rp'| |exact Ul].
  - intros p Hp. specialize (Rd p). destruct (o_fs o (s ++ p)) as [i|] eqn:Ei; [|exact Logic.I]. cbn [option_map]. rewrite (St p i Hp Ei). exact Rd.
  - eexists. split; [exact Em|]. split; [apply masked_small; reflexivity|exact (conj (proj1 Us) Rm)].
Qed.
End Again.
