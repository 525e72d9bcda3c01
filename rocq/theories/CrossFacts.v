(** CrossFacts.v: directories taken from Windows to Unix and from Unix to Windows (C148, C149). *)
From Coq Require Import Lia.
From Verif Require Import Base Format Zlib LLCompress Compress Parser ParserProofs ParserFacts Decompress DecompressProofs MidProofs MidFacts
  ArchiveSpec ArchiveFacts ArchiveDecode ArchiveEntry ArchiveProps FS FSFacts HL HLSpec HLFacts HLDrive HLProps HLTame LinkFacts CopySpec CopyFacts
  WinArchive WinArchiveSpec WinArchiveFacts WinArchiveProps WinTools WinExtract WinExtractSpec WinExtractFacts WinExtractTame WinCopy BothFacts.

(** ** Specification *)

(** The permissions stat reports for the directories at or below a node satisfy [P]. *)
Inductive dir_modes (P : N -> Prop) : snode -> Prop :=
| dm_dir m es : P m -> (forall c nd, In (c, nd) es -> ~ dotted c -> dir_modes P nd) -> dir_modes P (SDir m es)
| dm_file o s m size data r : dir_modes P (SFile o s m size data r)
| dm_link m size target : dir_modes P (SLink m size target)
| dm_other : dir_modes P SOther.

(** Below [s] the names mean the same on Windows, no two in a directory differ only in case, and paths are within the limits
    ([L]: length of the path of the target). *)
Definition win_ready (maxd maxf L : N) (fs : fstree) (s : path) : Prop :=
  (forall r c i, fs (s ++ r ++ [c]) = Some i -> wplain c = true /\
     L + lenN (path_string (r ++ [c])) < match i with IDir _ => maxd | _ => maxf end) /\
  (forall r c c', fs (s ++ r ++ [c]) <> None -> fs (s ++ r ++ [c']) <> None -> fold_case c = fold_case c' -> c = c').

(** ** From Windows to Unix *)

Lemma dir_modes_unlinked P nd : dir_modes P nd -> dir_modes P (unlinked nd).
Proof.
  induction 1 as [m es Hm H IH| | |]; cbn [unlinked]; try constructor; [exact Hm|].
  intros c nd Hi D. apply in_map_iff in Hi. destruct Hi as ([c' nd'] & E & Hi). injection E as <- <-. exact (IH _ _ Hi D).
Qed.

Section WinToUnix.
Context (fs : xtree) (San : wsane fs) (priv : bool) (um : N).

Lemma wsees_uext L s p nd : wsees fs p nd -> forall u c, p = s ++ u ++ [fold_case c] -> wplain c = true -> wsuitable PATH_MAX PATH_MAX L fs s ->
  dir_modes (usable_dir priv um) nd -> extractable priv um (match u with [] => L | _ => L + lenN (path_string u) end) c nd.
Proof.
  induction 1 as [p ro m d H Hm Hd|p m es Hp Hm ND Do Pl Se IH Co]; intros u c -> Pc Su Dm.
  - apply xt_file; [now apply wplain_plain|]. assert (X : L + lenN (path_string (u ++ [fold_case c])) < PATH_MAX) by exact (Su _ _ (nonnil u _) H).
    destruct u as [|a u]; [unfold path_string in X; cbn [app map concat] in X; rewrite app_nil_r, lenN_cons, fold_len in X; lia
                          |rewrite path_string_app, fold_len in X by discriminate; lia].
  - inversion Dm as [? ? U Dc| | |]; subst.
    assert (Ln : match u with [] => L | _ => L + lenN (path_string u) end + 1 + lenN c < PATH_MAX).
    { assert (X : L + lenN (path_string (u ++ [fold_case c])) < PATH_MAX) by exact (Su _ _ (nonnil u _) Hp).
      destruct u as [|a u]; [unfold path_string in X; cbn [app map concat] in X; rewrite app_nil_r, lenN_cons, fold_len in X; lia
                            |rewrite path_string_app, fold_len in X by discriminate; lia]. }
    apply xt_dir; auto; [now apply wplain_plain|now apply nodup_fold|]. apply Forall_forall. intros [b nd] Hi. cbn [fst snd].
    destruct (dotb b) eqn:D; [apply xt_dot; now apply dotb_spec|].
    assert (Nd : ~ dotted b) by (intro Q; apply dotb_spec in Q; congruence).
    replace (match u with [] => L | _ => L + lenN (path_string u) end + 1 + lenN c)
      with (match u ++ [fold_case c] with [] => L | _ => L + lenN (path_string (u ++ [fold_case c])) end).
    + apply (IH b nd Hi Nd (u ++ [fold_case c]) b); [|exact (Pl _ _ Hi Nd)|exact Su|exact (Dc _ _ Hi Nd)]. now rewrite <- !app_assoc.
    + destruct u as [|a u]; [unfold path_string; cbn [app map concat]; rewrite app_nil_r, lenN_cons, fold_len; lia|].
      change ((a :: u) ++ [fold_case c]) with (a :: (u ++ [fold_case c])) at 1. cbn iota. rewrite path_string_app, fold_len by discriminate. lia.
Qed.
Lemma wlists_uext L s es : wlists fs s es -> wsuitable PATH_MAX PATH_MAX L fs s ->
  (forall c nd, In (c, nd) es -> ~ dotted c -> dir_modes (usable_dir priv um) nd) -> Forall (fun x => extractable priv um L (fst x) (snd x)) es.
Proof.
  intros [m H] Su Dm. inversion H as [|? ? ? Hp Hm ND Do Pl Se Co]; subst. apply Forall_forall. intros [c nd] Hi. cbn [fst snd].
  destruct (dotb c) eqn:D; [apply xt_dot; now apply dotb_spec|].
  assert (Nd : ~ dotted c) by (intro Q; apply dotb_spec in Q; congruence).
  exact (wsees_uext L s _ _ (Se _ _ Hi Nd) [] c eq_refl (Pl _ _ Hi Nd) Su (Dm _ _ Hi Nd)).
Qed.
End WinToUnix.

Lemma to_unix z (C : zlib_contract z) ws s es F e alloc hal al stk obuf hjunk pjunk T archive inp t o fuel :
  wsane ws -> wlists ws s es -> wsuitable PATH_MAX PATH_MAX (lenN T) ws s -> (exists c, ws (s ++ [c]) <> None) ->
  (forall c nd, In (c, nd) es -> ~ dotted c -> dir_modes (usable_dir (o_priv o) (o_umask o)) nd) -> warchives_dir z es F ->
  input_of archive F inp -> (length inp < fuel)%nat -> calm z hal al stk obuf hjunk pjunk -> (forall k n, alloc k n = true) ->
  free_spot o T t -> usable_dir (o_priv o) (o_umask o) MODE_BASE_DIR -> (forall r, o_fs o (t ++ r) = None) ->
  volume (preorder (unlinked_all es)) <= o_free o -> N.testbit (o_umask o) 7 = false ->
  exists dfuel0, forall dfuel, (dfuel0 <= dfuel)%nat -> exists ret q h ds o',
    exec (extract T hal stk z e alloc archive fuel dfuel al obuf hjunk pjunk inp false) o = Ok ((ret, Some (q, h, ds)), o') /\
    (room_left q -> ret = ContentDirectory /\ same_env o o' /\ same_tree (o_fs o') t ws s).
Proof.
  intros San Ls Su Ne Dm A I Hf Ca Ha Fs U Em V Um. apply (windows_archive z C) in A.
  assert (Du : forall c nd, In (c, nd) (unlinked_all es) -> ~ dotted c -> dir_modes (usable_dir (o_priv o) (o_umask o)) nd).
  { intros c nd Hi D. apply in_map_iff in Hi. destruct Hi as ([c' nd'] & E & Hi). injection E as <- <-. apply dir_modes_unlinked, (Dm _ _ Hi D). }
  apply wlists_unlinked in Ls. clear Dm. revert A V Ls Du. generalize (unlinked_all es). clear es. intros es A V Ls Du.
  assert (ND : NoDup (map (fun x => fold_case (fst x)) es)) by (destruct Ls as [m H]; inversion H; assumption).
  assert (WX : Forall (fun x => wextractable PATH_MAX PATH_MAX (lenN T) (fst x) (snd x)) es) by exact (wlists_ext _ _ _ _ s _ Ls Su).
  destruct (disk_dir z C es F e alloc hal al stk obuf hjunk pjunk T archive inp t o fuel A I Hf Ca Ha) as (d0 & K); auto.
  - exact (wlists_nonempty _ San s _ Ls Ne).
  - destruct Ls as [m H]. apply wsees_quiet in H. inversion H. assumption.
  - now apply nodup_fold.
  - apply (wlists_uext ws) with (s := s); auto.
  - exists d0. intros d Hd. destruct (K d Hd) as (ret & q & h & ds & o' & E & R). exists ret, q, h, ds, o'. split; [exact E|].
    intro Rl. destruct (R Rl) as (R1 & R2 & R3). split; [exact R1|]. split; [exact R2|].
    destruct Ls as [m H]. pose proof (wsees_tree _ San _ _ H) as W. cbv beta iota in W.
    assert (Ws : ws s = Some XDir) by (inversion H; assumption). split.
    + intros r i Hr. rewrite R3 in Hr. unfold overlay in Hr. rewrite strip_app, Em in Hr. destruct r as [|c r]; cbn [dir_tree] in Hr.
      * injection Hr as <-. exists XDir. cbn [map]. rewrite app_nil_r. split; [exact Ws|exact Logic.I].
      * destruct (tree_at (o_umask o) (c :: r) es) as [j|] eqn:Ej; [|discriminate Hr]. injection Hr as ->.
        destruct (tree_up _ _ _ Um _ _ _ _ ND WX Ej) as (x & Hx & Al). exists x. split; [|exact Al]. rewrite <- W; [exact Hx|discriminate].
    + intros p x Hp. destruct p as [|c p].
      * rewrite app_nil_r, Ws in Hp. injection Hp as <-. exists [], (IDir (dir_perm (o_umask o) MODE_BASE_DIR)). split; [reflexivity|].
        rewrite R3. unfold overlay. rewrite strip_app. split; [reflexivity|exact Logic.I].
      * rewrite <- W in Hp by discriminate. destruct (tree_down _ _ _ Um _ _ _ _ ND WX Hp) as (r & i & Fr & Tr & Al).
        exists r, i. split; [exact Fr|]. split; [|exact Al]. rewrite R3. unfold overlay. rewrite strip_app. destruct r as [|c0 r]; [discriminate Fr|].
        cbn [dir_tree]. now rewrite Tr.
Qed.

(** ** From Unix to Windows *)

Lemma lower_dot b : lower b = x2e -> b = x2e.
Proof. destruct b; vm_compute; congruence. Qed.
Lemma fold_dotted_inv n : dotted (fold_case n) -> fold_case n = n.
Proof.
  intros [H|H]; destruct n as [|a [|b [|c n]]]; try discriminate H; unfold fold_case in *; cbn [map] in *.
  - injection H as Ha. apply lower_dot in Ha. now subst a.
  - injection H as Ha Hb. apply lower_dot in Ha. apply lower_dot in Hb. now subst a b.
Qed.
Lemma nodup_map_on {A B} (f : A -> B) l : NoDup l -> (forall x y, In x l -> In y l -> f x = f y -> x = y) -> NoDup (map f l).
Proof.
  induction l as [|a l IH]; intros ND H; [constructor|]. apply NoDup_cons_iff in ND. destruct ND as [Na ND]. cbn [map]. constructor.
  - intro Hi. apply in_map_iff in Hi. destruct Hi as (x & E & Hx). apply Na. rewrite (H a x); auto; [now left|now right].
  - apply IH; [exact ND|]. intros x y Hx Hy. apply H; now right.
Qed.

Section UnixToWin.
Context (fs : fstree) (San : sane fs) (s : path) (Nl : no_links fs s).
Context (maxd maxf L : N) (Rd : win_ready maxd maxf L fs s).

Lemma sees_there p nd : sees fs p nd -> fs p <> None.
Proof. inversion 1; congruence. Qed.

Lemma names_fold u es m : sees fs (s ++ u) (SDir m es) -> NoDup (map (fun x => fold_case (fst x)) es).
Proof.
  intro H. inversion H as [| |? ? ? Hp ND Do Se Co]; subst. rewrite <- (map_map fst fold_case). apply nodup_map_on; [exact ND|].
  intros c c' Hc Hc' E. apply in_map_iff in Hc. destruct Hc as ([c1 nd] & E1 & Hi). apply in_map_iff in Hc'. destruct Hc' as ([c2 nd'] & E2 & Hi').
  cbn in E1, E2. subst c1 c2.
  assert (K : forall a b, fold_case a = fold_case b -> dotted a -> b = a).
  { intros a b Q Da. pose proof (fold_dotted _ Da) as D1. assert (D2 : dotted (fold_case b)) by (rewrite <- Q; exact D1).
    apply fold_dotted_inv in D2. rewrite <- D2, <- Q. apply fold_dotted_inv. exact D1. }
  destruct (dotb c) eqn:D; [apply dotb_spec in D; symmetry; exact (K _ _ E D)|].
  destruct (dotb c') eqn:D'; [apply dotb_spec in D'; exact (K _ _ (eq_sym E) D')|].
  apply (proj2 Rd u); [| |exact E].
  - rewrite app_assoc. apply (sees_there _ nd), (Se _ _ Hi). intro Q. apply dotb_spec in Q. congruence.
  - rewrite app_assoc. apply (sees_there _ nd'), (Se _ _ Hi'). intro Q. apply dotb_spec in Q. congruence.
Qed.

Lemma sees_wext p nd : sees fs p nd -> forall u c, p = s ++ u ++ [c] ->
  wextractable maxd maxf (match u with [] => L | _ => L + lenN (path_string u) end) c nd.
Proof.
  induction 1 as [p m d H|p x H|p m es Hp ND Do Se IH Co]; intros u c ->.
  - destruct (proj1 Rd _ _ _ H) as [Pc X]. apply wx_file; [exact Pc|].
    destruct u as [|a u]; [unfold path_string in X; cbn [app map concat] in X; rewrite app_nil_r, lenN_cons in X; lia
                          |rewrite path_string_app in X by discriminate; lia].
  - apply wx_link.
  - destruct (proj1 Rd _ _ _ Hp) as [Pc X].
    assert (Ln : match u with [] => L | _ => L + lenN (path_string u) end + 1 + lenN c < maxd).
    { destruct u as [|a u]; [unfold path_string in X; cbn [app map concat] in X; rewrite app_nil_r, lenN_cons in X; lia
                            |rewrite path_string_app in X by discriminate; lia]. }
    apply wx_dir; auto; [apply (names_fold (u ++ [c]) es (S_IFDIR + m)); now apply se_dir|].
    apply Forall_forall. intros [b nd] Hi. cbn [fst snd]. destruct (dotb b) eqn:D; [apply wx_dot; now apply dotb_spec|].
    assert (Nd : ~ dotted b) by (intro Q; apply dotb_spec in Q; congruence).
    replace (match u with [] => L | _ => L + lenN (path_string u) end + 1 + lenN c)
      with (match u ++ [c] with [] => L | _ => L + lenN (path_string (u ++ [c])) end).
    + apply (IH b nd Hi Nd (u ++ [c]) b). now rewrite <- !app_assoc.
    + destruct u as [|a u]; [unfold path_string; cbn [app map concat]; rewrite app_nil_r, lenN_cons; lia|].
      change ((a :: u) ++ [c]) with (a :: (u ++ [c])) at 1. cbn iota. rewrite path_string_app by discriminate. lia.
Qed.
Lemma lists_wext es : lists fs s es -> Forall (fun x => wextractable maxd maxf L (fst x) (snd x)) es.
Proof.
  intros [m H]. inversion H as [| |? ? ? Hp ND Do Se Co]; subst. apply Forall_forall. intros [c nd] Hi. cbn [fst snd].
  destruct (dotb c) eqn:D; [apply wx_dot; now apply dotb_spec|].
  assert (Nd : ~ dotted c) by (intro Q; apply dotb_spec in Q; congruence).
  exact (sees_wext _ _ (Se _ _ Hi Nd) [] c eq_refl).
Qed.
Lemma lists_fold es : lists fs s es -> NoDup (map (fun x => fold_case (fst x)) es).
Proof. intros [m H]. apply (names_fold [] es m). now rewrite app_nil_r. Qed.

Lemma masked_alike i x : (forall l, i <> ILink l) -> alike (masked 0 i) x <-> alike i x.
Proof.
  destruct i as [m|m d|l], x as [|ro d']; cbn [masked alike]; intro H; try tauto.
  rewrite N.ldiff_spec, N.land_spec. change (N.testbit 511 7) with true. change (N.testbit 0 7) with false. rewrite !andb_true_r. tauto.
Qed.
End UnixToWin.

Lemma to_windows maxd maxf deny z (C : zlib_contract z) fs s es F e alloc hal al stk obuf hjunk pjunk T archive inp t w fuel :
  sane fs -> lists fs s es -> no_links fs s -> win_ready maxd maxf (lenN T) fs s -> (exists c, fs (s ++ [c]) <> None) -> archives_dir z es F ->
  input_of archive F inp -> (length inp < fuel)%nat -> calm z hal al stk obuf hjunk pjunk -> (forall k n, alloc k n = true) -> (forall q, deny q = false) ->
  maxf <= PATH_MAX -> wfree maxd w T t ->
  exists dfuel0, forall dfuel, (dfuel0 <= dfuel)%nat -> exists ret q h ds w',
    xextract maxd maxf deny T hal stk z e alloc archive fuel dfuel al obuf hjunk pjunk inp false w = Ok (Some ret, Some (q, h, ds), w') /\
    (room_left q -> ret = ContentDirectory /\ same_w w w' /\ same_tree fs s (w_fs w') t).
Proof.
  intros San Ls Nl Rd Ne A I Hf Ca Ha De Ln Fs.
  pose proof (lists_fold _ _ _ _ _ Rd _ Ls) as ND. pose proof (lists_wext _ _ _ _ _ Rd _ Ls) as WX.
  destruct (wdisk_dir maxd maxf deny z C es F e alloc hal al stk obuf hjunk pjunk T archive inp t w fuel A I Hf Ca Ha De Ln) as (d0 & K); auto.
  - exact (lists_nonempty _ San _ _ Ls Ne).
  - exact (lists_quiet _ _ _ Ls).
  - exists d0. intros d Hd. destruct (K d Hd) as (ret & q & h & ds & w' & E & R). exists ret, q, h, ds, w'. split; [exact E|].
    intro Rl. destruct (R Rl) as (R1 & R2 & R3). split; [exact R1|]. split; [exact R2|].
    destruct Fs as (_ & _ & _ & _ & _ & Fr & _).
    assert (Tr : forall r, r <> [] -> tree_at 0 r es = option_map (masked 0) (fs (s ++ r))).
    { intros r Hr. rewrite (lists_nolink _ 0 _ _ Ls Nl). exact (lists_tree _ San 0 _ _ Ls r Hr). }
    assert (Rs : exists m, fs s = Some (IDir m)) by (destruct Ls as [m H]; inversion H; eauto). split.
    + intros r i Hr. rewrite R3. unfold xoverlay. rewrite strip_app. destruct r as [|c r].
      * destruct Rs as [m Rs]. rewrite app_nil_r, Rs in Hr. injection Hr as <-. exists XDir. split; [reflexivity|exact Logic.I].
      * assert (Ti : tree_at 0 (c :: r) es = Some (masked 0 i)) by (rewrite Tr by discriminate; now rewrite Hr).
        destruct (tree_up maxd maxf 0 eq_refl _ _ _ _ ND WX Ti) as (x & Hx & Al). exists x. cbn [map win_tree]. cbn [map] in Hx. rewrite Hx. split; [reflexivity|].
        apply masked_alike; [|exact Al]. intros l ->. exact (Nl _ _ Hr).
    + intros p x Hp. rewrite R3 in Hp. unfold xoverlay in Hp. rewrite strip_app, Fr in Hp. destruct p as [|c p]; cbn [win_tree] in Hp.
      * injection Hp as <-. destruct Rs as [m Rs]. exists [], (IDir m). rewrite app_nil_r. split; [reflexivity|]. split; [exact Rs|exact Logic.I].
      * destruct (win_at (c :: p) es) as [j|] eqn:Ej; [|discriminate Hp]. injection Hp as ->.
        destruct (tree_down maxd maxf 0 eq_refl _ _ _ _ ND WX Ej) as (r & i & Fr' & Ti & Al).
        assert (Hr : r <> []) by (destruct r; [discriminate Fr'|discriminate]). rewrite (Tr r Hr) in Ti.
        destruct (fs (s ++ r)) as [i0|] eqn:E0; [|discriminate Ti]. injection Ti as <-. exists r, i0. split; [exact Fr'|]. split; [exact E0|].
        apply masked_alike; [|exact Al]. intros l ->. exact (Nl _ _ E0).
Qed.

Lemma alike_one i x y : alike i x -> alike i y -> x = y.
Proof. destruct i, x, y; cbn [alike]; try tauto. intros [-> ->] [-> ->]. reflexivity. Qed.
Lemma there_and_back fs t ws s ws' v : same_tree fs t ws s -> same_tree fs t ws' v -> forall p, ws (s ++ p) = ws' (v ++ p).
Proof.
  intros [A1 A2] [B1 B2] p. destruct (ws (s ++ p)) as [x|] eqn:E.
  - destruct (A2 p x E) as (r & i & Fr & Hi & Al). destruct (B1 r i Hi) as (y & Hy & Bl). rewrite Fr in Hy. rewrite Hy. f_equal. exact (alike_one i x y Al Bl).
  - destruct (ws' (v ++ p)) as [y|] eqn:E'; [|reflexivity]. destruct (B2 p y E') as (r & i & Fr & Hi & Bl). destruct (A1 r i Hi) as (x & Hx & _).
    rewrite Fr, E in Hx. discriminate Hx.
Qed.
