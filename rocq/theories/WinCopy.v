(** WinCopy.v: archiving a directory on Windows and extracting the archive there copies it (C137). *)
From Coq Require Import Lia.
From Verif Require Import Base Format Zlib LLCompress Compress Parser ParserProofs ParserFacts Decompress DecompressProofs MidProofs MidFacts
  ArchiveSpec ArchiveFacts ArchiveDecode ArchiveEntry ArchiveProps FS FSFacts HL HLSpec HLFacts HLDrive HLProps HLTame LinkFacts CopyFacts
  WinArchive WinArchiveSpec WinArchiveFacts WinArchiveProps WinTools WinExtract WinExtractSpec WinExtractFacts WinExtractTame.

Lemma win_entry_in c nd es : win_entry c es = Some nd -> exists n, In (n, nd) es /\ fold_case n = c /\ ~ dotted n.
Proof.
  induction es as [|[n x] es IH]; intro H; [discriminate H|]. cbn [win_entry] in H. destruct (negb (dotb n) && bytes_eqb (fold_case n) c) eqn:E.
  - injection H as ->. apply andb_prop in E. destruct E as [A B]. apply bytes_eqb_spec in B. exists n. split; [now left|]. split; [exact B|].
    intro Q. apply dotb_spec in Q. rewrite Q in A. discriminate A.
  - destruct (IH H) as (n' & A & B). exists n'. split; [now right|exact B].
Qed.
Lemma win_entry_none c es n : win_entry c es = None -> In n (map fst es) -> fold_case n = c -> dotted n.
Proof.
  induction es as [|[n' x] es IH]; intros H Hi E; [destruct Hi|]. cbn [win_entry] in H. destruct (negb (dotb n') && bytes_eqb (fold_case n') c) eqn:Q; [discriminate H|].
  destruct Hi as [Hi|Hi]; [|now apply IH]. cbn in Hi. subst n'. rewrite E, (proj2 (bytes_eqb_spec c c) eq_refl), Bool.andb_true_r in Q.
  apply Bool.negb_false_iff in Q. now apply dotb_spec.
Qed.
Lemma fold_dotted n : dotted n -> dotted (fold_case n).
Proof. intros [->| ->]; [left|right]; reflexivity. Qed.
Lemma fold_len n : lenN (fold_case n) = lenN n.
Proof. unfold lenN, fold_case. now rewrite map_length. Qed.

Lemma nonnil (u : path) c : u ++ [c] <> [].
Proof. destruct u; discriminate. Qed.

Section Listed.
Context (fs : xtree) (San : wsane fs).

Lemma wbelow p : fs p <> Some XDir -> p <> [] -> forall r, r <> [] -> fs (p ++ r) = None.
Proof.
  intros H Hp r. induction r as [|c r IH] using rev_ind; [congruence|]. intros _. destruct (fs (p ++ r ++ [c])) as [i|] eqn:E; [|reflexivity].
  rewrite app_assoc in E. destruct (San _ _ _ E) as (_ & _ & [M|M]); [apply app_eq_nil in M; destruct M; contradiction|]. destruct r as [|a r].
  - rewrite app_nil_r in M. contradiction.
  - rewrite IH in M by discriminate. discriminate M.
Qed.

Lemma wsees_tree p nd : wsees fs p nd -> match nd with SDir _ es => forall r, r <> [] -> win_at r es = fs (p ++ r) | _ => True end.
Proof.
  induction 1 as [|p m es Hp Hm ND Do Pl Se IH Co]; [exact I|]. intros r Hr. destruct r as [|c r]; [congruence|]. clear Hr. cbn [win_at].
  assert (Sp : p ++ c :: r = (p ++ [c]) ++ r) by now rewrite <- app_assoc. rewrite Sp.
  assert (Np : p ++ [c] <> []) by (destruct p; discriminate).
  destruct (win_entry c es) as [nd|] eqn:Ee.
  - apply win_entry_in in Ee. destruct Ee as (n & Hi & <- & Nd). pose proof (Se _ _ Hi Nd) as W. pose proof (IH _ _ Hi Nd) as Q.
    inversion W as [? ro m1 d1 H1 H2 H3|? m1 es1 H1 H2 H3 H4 H5 H6 H7]; subst.
    + destruct r as [|b r]; [rewrite app_nil_r, H1; destruct H2 as [_ H2]; rewrite H2, Bool.negb_involutive; reflexivity|].
      rewrite wbelow; [reflexivity|congruence|exact Np|discriminate].
    + destruct r as [|b r]; [rewrite app_nil_r, H1; reflexivity|]. apply Q. discriminate.
  - assert (N0 : fs (p ++ [c]) = None).
    { destruct (fs (p ++ [c])) eqn:E; [|reflexivity]. destruct (Co c) as (c' & Hi & Ec); [congruence|].
      pose proof (win_entry_none c es c' Ee Hi Ec) as Dd. apply fold_dotted in Dd. rewrite Ec in Dd. destruct (San _ _ _ E) as (_ & Q & _). contradiction. }
    destruct r as [|b r]; [rewrite app_nil_r, N0; reflexivity|]. rewrite wbelow; [reflexivity|congruence|exact Np|discriminate].
Qed.
Lemma wsees_quiet p nd : wsees fs p nd -> quiet nd.
Proof.
  induction 1 as [p ro m d|p m es Hp Hm ND Do Pl Se IH Co]; [apply q_file|].
  apply q_dir. apply Forall_forall. intros [c nd] Hi. cbn [snd]. destruct (dotb c) eqn:D.
  - apply dotb_spec in D. exact (Do _ _ Hi D).
  - apply (IH c); [exact Hi|]. intro Q. apply dotb_spec in Q. congruence.
Qed.
Lemma wsees_unlinked p nd : wsees fs p nd -> wsees fs p (unlinked nd).
Proof.
  induction 1 as [p ro m d A B D|p m es Hp Hm ND Do Pl Se IH Co]; [now apply ws_file with ro|]. cbn [unlinked]. apply ws_dir; auto.
  - rewrite map_map. exact ND.
  - intros c nd Hi D. apply in_map_iff in Hi. destruct Hi as ([c' nd'] & E & Hi). injection E as <- <-. apply unlinked_quiet, (Do _ _ Hi D).
  - intros c nd Hi D. apply in_map_iff in Hi. destruct Hi as ([c' nd'] & E & Hi). injection E as <- <-. exact (Pl _ _ Hi D).
  - intros c nd Hi D. apply in_map_iff in Hi. destruct Hi as ([c' nd'] & E & Hi). injection E as <- <-. exact (IH _ _ Hi D).
  - intros c Hc. destruct (Co c Hc) as (c' & A & B). exists c'. split; [|exact B]. rewrite map_map. exact A.
Qed.
Lemma wlists_unlinked s es : wlists fs s es -> wlists fs s (unlinked_all es).
Proof. intros [m H]. exists m. exact (wsees_unlinked _ _ H). Qed.

Lemma wlists_nonempty s es : wlists fs s es -> (exists c, fs (s ++ [c]) <> None) -> preorder es <> [].
Proof.
  intros [m H] [c Hc]. inversion H as [|? ? ? Hp Hm ND Do Pl Se Co]; subst. destruct (Co c Hc) as (n & Hi & E). apply in_map_iff in Hi. destruct Hi as ([n' nd] & E' & Hi).
  cbn in E'. subst n'. assert (Nd : ~ dotted n).
  { intro Q. apply fold_dotted in Q. rewrite E in Q. destruct (fs (s ++ [c])) eqn:Ec; [|congruence]. destruct (San _ _ _ Ec) as (_ & K & _). contradiction. }
  pose proof (Se _ _ Hi Nd) as W. unfold preorder. apply in_split in Hi. destruct Hi as (a & b & ->). rewrite map_app, concat_app. cbn [map concat fst snd].
  assert (D : dotb n = false) by (destruct (dotb n) eqn:D; [apply dotb_spec in D; contradiction|reflexivity]).
  intro Q. apply app_eq_nil in Q. destruct Q as [_ Q]. apply app_eq_nil in Q. destruct Q as [Q _].
  inversion W; subst; cbn [preorder1] in Q; rewrite D in Q; discriminate Q.
Qed.

Lemma wsees_ext maxd maxf L s p nd : wsees fs p nd -> forall u c, p = s ++ u ++ [fold_case c] -> wplain c = true -> wsuitable maxd maxf L fs s ->
  wextractable maxd maxf (match u with [] => L | _ => L + lenN (path_string u) end) c nd.
Proof.
  induction 1 as [p ro m d H Hm Hd|p m es Hp Hm ND Do Pl Se IH Co]; intros u c -> Pc Su.
  - apply wx_file; [exact Pc|]. assert (X : L + lenN (path_string (u ++ [fold_case c])) < maxf) by exact (Su _ _ (nonnil u _) H).
    destruct u as [|a u]; [unfold path_string in X; cbn [app map concat] in X; rewrite app_nil_r, lenN_cons, fold_len in X; lia
                          |rewrite path_string_app, fold_len in X by discriminate; lia].
  - assert (Ln : match u with [] => L | _ => L + lenN (path_string u) end + 1 + lenN c < maxd).
    { assert (X : L + lenN (path_string (u ++ [fold_case c])) < maxd) by exact (Su _ _ (nonnil u _) Hp).
      destruct u as [|a u]; [unfold path_string in X; cbn [app map concat] in X; rewrite app_nil_r, lenN_cons, fold_len in X; lia
                            |rewrite path_string_app, fold_len in X by discriminate; lia]. }
    apply wx_dir; auto. apply Forall_forall. intros [b nd] Hi. cbn [fst snd]. destruct (dotb b) eqn:D; [apply wx_dot; now apply dotb_spec|].
    assert (Nd : ~ dotted b) by (intro Q; apply dotb_spec in Q; congruence).
    replace (match u with [] => L | _ => L + lenN (path_string u) end + 1 + lenN c)
      with (match u ++ [fold_case c] with [] => L | _ => L + lenN (path_string (u ++ [fold_case c])) end).
    + apply (IH b nd Hi Nd (u ++ [fold_case c]) b); [|exact (Pl _ _ Hi Nd)|exact Su]. now rewrite <- !app_assoc.
    + destruct u as [|a u]; [unfold path_string; cbn [app map concat]; rewrite app_nil_r, lenN_cons, fold_len; lia|].
      change ((a :: u) ++ [fold_case c]) with (a :: (u ++ [fold_case c])) at 1. cbn iota. rewrite path_string_app, fold_len by discriminate. lia.
Qed.
Lemma wlists_ext maxd maxf L s es : wlists fs s es -> wsuitable maxd maxf L fs s -> Forall (fun x => wextractable maxd maxf L (fst x) (snd x)) es.
Proof.
  intros [m H] Su. inversion H as [|? ? ? Hp Hm ND Do Pl Se Co]; subst. apply Forall_forall. intros [c nd] Hi. cbn [fst snd].
  destruct (dotb c) eqn:D; [apply wx_dot; now apply dotb_spec|].
  assert (Nd : ~ dotted c) by (intro Q; apply dotb_spec in Q; congruence). pose proof (Se _ _ Hi Nd) as W. pose proof (Pl _ _ Hi Nd) as P.
  exact (wsees_ext maxd maxf L s _ _ W [] c eq_refl P Su).
Qed.
End Listed.

Lemma wcopied maxd maxf deny z (C : zlib_contract z) s es F e alloc hal al stk obuf hjunk pjunk T archive inp t w fuel :
  wsane (w_fs w) -> wlists (w_fs w) s es -> wsuitable maxd maxf (lenN T) (w_fs w) s -> (exists c, w_fs w (s ++ [c]) <> None) -> warchives_dir z es F ->
  input_of archive F inp -> (length inp < fuel)%nat -> calm z hal al stk obuf hjunk pjunk -> (forall k n, alloc k n = true) -> (forall q, deny q = false) ->
  maxf <= PATH_MAX -> wfree maxd w T t ->
  exists dfuel0, forall dfuel, (dfuel0 <= dfuel)%nat -> exists ret q h ds w',
    xextract maxd maxf deny T hal stk z e alloc archive fuel dfuel al obuf hjunk pjunk inp false w = Ok (Some ret, Some (q, h, ds), w') /\
    (room_left q -> ret = ContentDirectory /\ same_w w w' /\ wcopy (w_fs w) s (w_fs w') t).
Proof.
  intros San Ls Su Ne A I Hf Ca Ha De Ln Fs. apply (windows_archive z C) in A. apply wlists_unlinked in Ls.
  destruct (wdisk_dir maxd maxf deny z C (unlinked_all es) F e alloc hal al stk obuf hjunk pjunk T archive inp t w fuel A I Hf Ca Ha De Ln) as (d0 & K); auto.
  - exact (wlists_nonempty _ San s _ Ls Ne).
  - destruct Ls as [m H]. apply wsees_quiet in H. inversion H. assumption.
  - destruct Ls as [m H]. inversion H. assumption.
  - exact (wlists_ext _ _ _ _ s _ Ls Su).
  - exists d0. intros d Hd. destruct (K d Hd) as (ret & q & h & ds & w' & E & R). exists ret, q, h, ds, w'. split; [exact E|].
    intro Rl. destruct (R Rl) as (R1 & R2 & R3). split; [exact R1|]. split; [exact R2|].
    destruct Fs as (_ & _ & _ & _ & _ & Fr & _). split; [|split].
    + rewrite R3. unfold xoverlay. rewrite <- (app_nil_r t) at 2. rewrite strip_app. reflexivity.
    + intros r Hr. rewrite R3. unfold xoverlay. rewrite strip_app. destruct r as [|c r]; [congruence|]. cbn [win_tree].
      destruct Ls as [m H]. rewrite (wsees_tree _ San _ _ H) by discriminate. destruct (w_fs w (s ++ c :: r)); [reflexivity|apply Fr].
    + intros q0 Hq. rewrite R3. unfold xoverlay. destruct (strip t q0) as [r|] eqn:E0; [|reflexivity]. apply strip_spec in E0. now destruct (Hq r).
Qed.
