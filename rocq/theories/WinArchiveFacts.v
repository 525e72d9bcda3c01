(** WinArchiveFacts.v: facts about WinArchive.v (C135-C137). *)
From Coq Require Import Lia.
From Verif Require Import Base Format Zlib LLCompress Compress Parser ParserProofs ParserFacts Decompress DecompressProofs MidProofs MidFacts
  ArchiveSpec ArchiveFacts ArchiveDecode ArchiveEntry ArchiveProps FS FSFacts HL HLSpec HLFacts HLDrive HLProps WinArchive WinArchiveSpec.

(** What the Unix code would have to find in order to do the same: no links, files in use cannot be opened. *)
Fixpoint on_win (locked : list bytes -> bool) (dir : list bytes) (name : bytes) (nd : snode) : snode :=
  if dotb name then unlinked nd
  else match nd with
  | SFile o s m z d r => SFile (o && negb (locked (dir ++ [name]))) s m z d r
  | SDir m es => SDir m (map (fun x => (fst x, on_win locked (dir ++ [name]) (fst x) (snd x))) es)
  | SLink _ _ _ => SOther
  | SOther => SOther
  end.
Definition on_win_all locked dir (es : list (bytes * snode)) := map (fun x => (fst x, on_win locked dir (fst x) (snd x))) es.

(** The filter's calls, with other entries for links. *)
Definition nolink (k : skind) : skind := match k with KLink => KOther | _ => k end.
Definition relabel (ev : wev) : wev := match ev with WFilter d n k a => WFilter d n (nolink k) a | x => x end.

Section Walks.
(** Two filters that answer alike if the second one takes links for other entries. *)
Context {F G : Type} (e : endian) (filt : F -> list bytes -> bytes -> skind -> Z * F) (filt' : G -> list bytes -> bytes -> skind -> Z * G) (R : F -> G -> Prop).
Context (jk : N -> bytes) (hj : N -> N -> bytes) (locked : list bytes -> bool).
Context (Al : forall f g d n k, R f g -> fst (filt f d n k) = fst (filt' g d n (nolink k)) /\ R (snd (filt f d n k)) (snd (filt' g d n (nolink k)))).

Definition wrel (s : wst (F := F)) (s' : wst (F := G)) : Prop :=
  w_err s' = w_err s /\ w_exit s' = w_exit s /\ w_dead s = false /\ w_dead s' = false /\ w_n s' = w_n s /\ R (w_f s) (w_f s').

Lemma relabel_data ds : map relabel (map WData ds) = map WData ds.
Proof. induction ds as [|d ds IH]; [reflexivity|]. cbn [map relabel]. now rewrite IH. Qed.

Lemma kind_win dir name nd : kind_of (on_win locked dir name nd) = nolink (kind_of nd).
Proof. destruct nd; cbn [on_win]; destruct (dotb name); reflexivity. Qed.

Definition node_rel (dir : list bytes) (name : bytes) (nd : snode) : Prop := forall s s', wrel s s' ->
  let '(r, s1, ev) := wwalk_node e filt jk locked dir name nd s in exists s1',
    walk_node e filt' jk hj dir name (on_win locked dir name nd) s' = (r, s1', map relabel ev) /\ wrel s1 s1'.

Lemma iter_win dir : forall es, Forall (fun x => node_rel dir (fst x) (snd x)) es -> forall s s', wrel s s' ->
  let '(s1, ev) := iter_with (wwalk_node e filt jk locked dir) es s in exists s1',
    iter_with (walk_node e filt' jk hj dir) (on_win_all locked dir es) s' = (s1', map relabel ev) /\ wrel s1 s1'.
Proof.
  induction es as [|[n x] es IH]; intros Fa s s' D; [cbn; eauto|]. inversion Fa as [|? ? H1 H2]; subst. specialize (H1 s s' D). cbn [fst snd] in H1.
  unfold on_win_all. cbn [map fst snd]. rewrite !iter_cons.
  destruct (wwalk_node e filt jk locked dir n x s) as [[r s1] ev1]. destruct H1 as (s1' & E1 & D1). rewrite E1.
  destruct (r =? DIRITER_EXIT_ALL)%Z; [eauto|]. specialize (IH H2 s1 s1' D1). unfold on_win_all in IH.
  destruct (iter_with (wwalk_node e filt jk locked dir) es s1) as [s2 ev2]. destruct IH as (s2' & E2 & D2). rewrite E2, map_app. eauto.
Qed.

Lemma wrel_setf s s' f g : wrel s s' -> R f g -> wrel (w_setf f s) (w_setf g s').
Proof. intros (A & B & C & D & E & _) H. unfold wrel. cbn. auto 8. Qed.
Lemma wrel_next s s' : wrel s s' -> wrel (w_next s) (w_next s').
Proof. intros (A & B & C & D & E & H). unfold wrel. cbn. rewrite E. auto 8. Qed.
Lemma wrel_fail s s' : wrel s s' -> wrel (w_fail s) (w_fail s').
Proof. intros (A & B & C & D & E & H). unfold wrel. cbn. auto 8. Qed.
Lemma wrel_stop s s' : wrel s s' -> wrel (w_stop s) (w_stop s').
Proof. intros (A & B & C & D & E & H). unfold wrel. cbn. auto 8. Qed.

Lemma node_win nd : forall dir name, node_rel dir name nd.
Proof.
  induction nd as [o st m sz d r|m es IH|m sz t|] using snode_ind2; intros dir name s s' D;
    cbn [wwalk_node on_win kind_of]; (destruct (dotb name) eqn:Dn;
      [apply dotb_spec, is_dot_spec in Dn; cbn [unlinked walk_node]; rewrite Dn;
       (assert (Ef : w_dead s' || w_err s' || w_exit s' = w_dead s || w_err s || w_exit s)
         by (destruct D as (A & B & C & C' & _); rewrite A, B, C, C'; reflexivity)); rewrite Ef;
       destruct (w_dead s || w_err s || w_exit s); eauto|]);
    (assert (Di : is_dot name = false) by (destruct (is_dot name) eqn:Q; [apply is_dot_spec, dotb_spec in Q; congruence|reflexivity]));
    cbn [walk_node kind_of]; rewrite Di;
    (assert (Ef : w_dead s' || w_err s' || w_exit s' = w_dead s || w_err s || w_exit s)
       by (destruct D as (A & B & C & C' & _); rewrite A, B, C, C'; reflexivity)); rewrite Ef;
    (destruct (w_dead s || w_err s || w_exit s); [eauto|]); 
    (assert (Nn : w_n s' = w_n s) by apply D); cbn [w_n w_setf]; try rewrite Nn.
  - destruct (Al (w_f s) (w_f s') dir name KFile) as [A1 A2]; [apply D|]. cbn [nolink] in A1, A2.
    destruct (filt (w_f s) dir name KFile) as [a f]. destruct (filt' (w_f s') dir name KFile) as [a' g]. cbn [fst snd] in A1, A2. subst a'.
    pose proof (wrel_setf s s' f g D A2) as D0. 
    destruct (a =? DIRITER_EXIT_ALL)%Z; [eexists; split; [reflexivity|now apply wrel_stop]|]. destruct (negb (a =? 0)%Z); [eexists; split; [reflexivity|assumption]|].
    destruct (negb (o && negb (locked (dir ++ [name]))) || negb st); [eexists; split; [reflexivity|now apply wrel_fail]|]. destruct (read_file d r) as [c b].
    eexists. cbn [map relabel nolink]. rewrite relabel_data. split; [reflexivity|]. destruct b; [apply wrel_fail|]; now apply wrel_next.
  - destruct (Al (w_f s) (w_f s') dir name KDir) as [A1 A2]; [apply D|]. cbn [nolink] in A1, A2.
    destruct (filt (w_f s) dir name KDir) as [a f]. destruct (filt' (w_f s') dir name KDir) as [a' g]. cbn [fst snd] in A1, A2. subst a'.
    pose proof (wrel_setf s s' f g D A2) as D0. 
    destruct (a =? DIRITER_EXIT_ALL)%Z; [eexists; split; [reflexivity|now apply wrel_stop]|]. destruct (negb (a =? 0)%Z); [eexists; split; [reflexivity|assumption]|].
    assert (Fa : Forall (fun x => node_rel (dir ++ [name]) (fst x) (snd x)) es) by (rewrite Forall_forall in *; intros x Hx; apply IH, Hx).
    pose proof (iter_win (dir ++ [name]) es Fa _ _ (wrel_next _ _ D0)) as Q. unfold on_win_all in Q.
    destruct (iter_with (wwalk_node e filt jk locked (dir ++ [name])) es (w_next (w_setf f s))) as [s1 evs]. destruct Q as (s1' & Q & D1).
    rewrite Q. assert (Dd : w_dead s1' = false) by apply D1. rewrite Dd. eexists. split; [|exact D1].
    cbn [map relabel nolink app]. rewrite !map_app, relabel_data. reflexivity.
  - destruct (Al (w_f s) (w_f s') dir name KLink) as [A1 A2]; [apply D|]. cbn [nolink] in A1, A2.
    destruct (filt (w_f s) dir name KLink) as [a f]. destruct (filt' (w_f s') dir name KOther) as [a' g]. cbn [fst snd] in A1, A2. subst a'.
    pose proof (wrel_setf s s' f g D A2) as D0. 
    destruct (a =? DIRITER_EXIT_ALL)%Z; [eexists; split; [reflexivity|now apply wrel_stop]|]. destruct (negb (a =? 0)%Z); eexists; (split; [reflexivity|assumption]).
  - destruct (Al (w_f s) (w_f s') dir name KOther) as [A1 A2]; [apply D|]. cbn [nolink] in A1, A2.
    destruct (filt (w_f s) dir name KOther) as [a f]. destruct (filt' (w_f s') dir name KOther) as [a' g]. cbn [fst snd] in A1, A2. subst a'.
    pose proof (wrel_setf s s' f g D A2) as D0. 
    destruct (a =? DIRITER_EXIT_ALL)%Z; [eexists; split; [reflexivity|now apply wrel_stop]|]. destruct (negb (a =? 0)%Z); eexists; (split; [reflexivity|assumption]).
Qed.

Lemma walk_win dir es s s' : wrel s s' -> let '(s1, ev) := wwalk e filt jk locked dir es s in exists s1',
  walk e filt' jk hj dir (on_win_all locked dir es) s' = (s1', map relabel ev) /\ wrel s1 s1'.
Proof. intro D. unfold walk, wwalk. apply iter_win; [|exact D]. apply Forall_forall. intros x _. apply node_win. Qed.

Lemma datas_relabel wx : datas (map relabel wx) = datas wx.
Proof. unfold datas. induction wx as [|[d n k a|d] wx IH]; [reflexivity| |]; cbn [map relabel concat]; rewrite IH; [destruct k|]; reflexivity. Qed.

(** The whole: the same result, output and use of memory. *)
Lemma compress_win z xjk hjunk al fuel level clbk nested xs root f0 g0 : R f0 g0 ->
  match wcompress_dir z e filt jk xjk hjunk al locked fuel level clbk nested xs root f0 with
  | Ok (r, cevs, ws, wx, led) => exists ws', w_err ws' = w_err ws /\ compress_dir z e filt' jk hj xjk hjunk al fuel level clbk nested xs (option_map (on_win_all locked []) root) g0 =
      Ok (r, cevs, ws', map relabel wx, led)
  | UB => compress_dir z e filt' jk hj xjk hjunk al fuel level clbk nested xs (option_map (on_win_all locked []) root) g0 = UB
  | NoFuel => compress_dir z e filt' jk hj xjk hjunk al fuel level clbk nested xs (option_map (on_win_all locked []) root) g0 = NoFuel
  end.
Proof.
  intro R0. unfold compress_dir, wcompress_dir. destruct (al 1); [|eexists; split; [|reflexivity]; reflexivity].
  destruct (al 2); [|eexists; split; [|reflexivity]; reflexivity]. cbn [negb].
  destruct (create_csession z fuel e (al 3) ContentDirectory level clbk false DEF_CHUNK_SIZE hjunk) as [[so ev0]| |]; [|reflexivity|reflexivity]. cbn [obind].
  destruct so as [cs|]; [|eexists; split; [|reflexivity]; reflexivity].
  replace (match option_map (on_win_all locked []) root with Some es => es | None => [] end)
    with (on_win_all locked [] (match root with Some es => es | None => [] end)) by now destruct root.
  assert (W0 : wrel (WS false false false f0 0) (WS false false false g0 0)) by (unfold wrel; cbn; auto 8).
  pose proof (walk_win [] (match root with Some es => es | None => [] end) _ _ W0) as Q.
  destruct (wwalk e filt jk locked [] (match root with Some es => es | None => [] end) (WS false false false f0 0)) as [s1 wevs]. destruct Q as (s1' & Q & D).
  rewrite Q, !wcops, !datas_app, datas_relabel. destruct (run_cops _ _ _) as [[[rets cs'] evs]| |]; [|reflexivity|reflexivity]. cbn [obind].
  destruct D as (A & _ & _ & D & _). rewrite D, A, map_app, relabel_data. eexists. split; [exact A|reflexivity].
Qed.
End Walks.
