(** LiveFacts.v: lemmas on LiveWalk.v. *)
From Coq Require Import Lia.
From Verif Require Import Base Format Zlib LLCompress CompressFacts Compress ArchiveSpec ArchiveFacts ArchiveEntry ArchiveProps HLProps LiveWalk.

(** What the archive holds in place of the output file: [P] what was read of it. *)
Inductive snap (P : bytes -> Prop) : lnode -> snode -> Prop :=
| sn_node x : snap P (LNode x) x
| sn_dir m es es' : snaps P es es' -> snap P (LDir m es) (SDir m es')
| sn_out m x : P x -> snap P (LOut m) (SFile true true m (lenN x) x false)
with snaps (P : bytes -> Prop) : list (bytes * lnode) -> list (bytes * snode) -> Prop :=
| sns_nil : snaps P [] []
| sns_cons n a b es es' : snap P a b -> snaps P es es' -> snaps P ((n, a) :: es) ((n, b) :: es').
Scheme snap_mut := Induction for snap Sort Prop with snaps_mut := Induction for snaps Sort Prop.

Lemma snap_mono (P Q : bytes -> Prop) a b : (forall x, P x -> Q x) -> snap P a b -> snap Q a b.
Proof.
  intro H. revert a b. apply (snap_mut P (fun a b _ => snap Q a b) (fun a b _ => snaps Q a b)); intros; constructor; auto.
Qed.
Lemma snaps_mono (P Q : bytes -> Prop) a b : (forall x, P x -> Q x) -> snaps P a b -> snaps Q a b.
Proof. intros H S. induction S; constructor; [eapply snap_mono; eauto|assumption]. Qed.

Section LNodeInd.
Variable P : lnode -> Prop.
Hypothesis Hx : forall x, P (LNode x).
Hypothesis Hd : forall m es, Forall (fun x => P (snd x)) es -> P (LDir m es).
Hypothesis Ho : forall m, P (LOut m).
Fixpoint lnode_ind2 (nd : lnode) : P nd :=
  match nd with
  | LNode x => Hx x
  | LDir m es => Hd m es ((fix go es : Forall (fun x => P (snd x)) es :=
      match es with [] => Forall_nil _ | x :: r => Forall_cons x (lnode_ind2 (snd x)) (go r) end) es)
  | LOut m => Ho m
  end.
End LNodeInd.

Lemma snaps_any (P : bytes -> Prop) : P [] -> forall es, exists es', snaps P es es'.
Proof.
  intro H0.
  assert (A : forall nd, exists x, snap P nd x).
  { induction nd as [x|m es IH|m] using lnode_ind2; [exists x; apply sn_node| |exists (SFile true true m (lenN (@nil byte)) [] false); now apply sn_out].
    assert (exists es', snaps P es es') as [es' S]; [|exists (SDir m es'); now constructor].
    induction IH as [|[n a] es [x Hx] _ [es' S]]; [exists []; constructor|]. exists ((n, x) :: es'). now constructor. }
  induction es as [|[n a] es [es' S]]; [exists []; constructor|]. destruct (A a) as [x Hx]. exists ((n, x) :: es'). now constructor.
Qed.
Lemma snap_any (P : bytes -> Prop) nd : P [] -> exists x, snap P nd x.
Proof.
  intro H0. destruct (snaps_any P H0 [([], nd)]) as [es' S]. inversion S; subst. eexists; eassumption.
Qed.

Lemma snap_kind P nd x : snap P nd x -> kind_of x = lkind nd.
Proof. intro S. destruct S; reflexivity. Qed.

Lemma run_cops_app {z} fuel : forall a (s : csess z) b,
  run_cops fuel s (a ++ b) =
  match run_cops fuel s a with
  | Ok (r1, s1, e1) => match run_cops fuel s1 b with Ok (r2, s2, e2) => Ok (r1 ++ r2, s2, e1 ++ e2) | UB => UB | NoFuel => NoFuel end
  | UB => UB | NoFuel => NoFuel
  end.
Proof.
  induction a as [|op a IH]; intros s b; cbn [app run_cops].
  - destruct (run_cops fuel s b) as [[[r2 s2] e2]| |]; reflexivity.
  - destruct op as [d|n sz|i]; [|apply IH|apply IH].
    destruct (compress_call fuel s d) as [[[r1 s1] e1]| |]; cbn [obind]; [|reflexivity|reflexivity].
    rewrite IH. destruct (run_cops fuel s1 a) as [[[r2 s2] e2]| |]; cbn [obind]; [|reflexivity|reflexivity].
    destruct (run_cops fuel s2 b) as [[[r3 s3] e3]| |]; cbn [obind]; [|reflexivity|reflexivity]. now rewrite app_assoc.
Qed.

(** The chunks in which a file is read. *)
Lemma read_loop_chunks : forall chunks last, Forall (fun c => lenN c = DEF_CHUNK_SIZE) chunks -> lenN last < DEF_CHUNK_SIZE ->
  read_loop (length chunks) (concat chunks ++ last) false = (chunks ++ [last], false).
Proof.
  induction chunks as [|c chunks IH]; intros last Hc Hl; cbn [length read_loop concat app]; [reflexivity|].
  inversion Hc as [|? ? Hc1 Hc2]; subst. rewrite <- app_assoc.
  rewrite (dropN_app_exact _ _ c), (takeN_app_exact _ _ c), IH by (assumption || congruence). reflexivity.
Qed.
Lemma chunks_len : forall chunks, Forall (fun c : bytes => lenN c = DEF_CHUNK_SIZE) chunks -> lenN (concat chunks) = N.of_nat (length chunks) * DEF_CHUNK_SIZE.
Proof.
  induction chunks as [|c chunks IH]; intro H; [reflexivity|]. inversion H as [|? ? H1 H2]; subst. cbn [concat length]. rewrite lenN_app, H1, IH by assumption.
  unfold DEF_CHUNK_SIZE. lia.
Qed.
Lemma read_file_chunks chunks last : Forall (fun c => lenN c = DEF_CHUNK_SIZE) chunks -> lenN last < DEF_CHUNK_SIZE ->
  read_file (concat chunks ++ last) false = (chunks ++ [last], false).
Proof.
  intros Hc Hl. unfold read_file. rewrite lenN_app, (chunks_len _ Hc).
  replace ((N.of_nat (length chunks) * DEF_CHUNK_SIZE + lenN last) / DEF_CHUNK_SIZE) with (N.of_nat (length chunks)).
  - rewrite Nat2N.id. now apply read_loop_chunks.
  - rewrite N.div_add_l, (N.div_small (lenN last)) by (unfold DEF_CHUNK_SIZE in *; lia). lia.
Qed.

Section Static.
Context {z : zlib} {F : Type} (e : endian) (filt : F -> list bytes -> bytes -> skind -> Z * F) (jk : N -> bytes) (hj : N -> N -> bytes) (fl : list cev -> N).
Notation lstate := (@lst z F).

(** From [s] to [s'] the calls with the data [ds] were made. *)
Definition goes (fuel : nat) (ds : list bytes) (s s' : lstate) : Prop :=
  exists rets evs, run_cops fuel (l_cs s) (map CWrite ds) = Ok (rets, l_cs s', evs) /\ l_evs s' = l_evs s ++ evs.

Lemma goes_nil fuel (s s' : lstate) : l_cs s' = l_cs s -> l_evs s' = l_evs s -> goes fuel [] s s'.
Proof. intros E1 E2. exists [], []. rewrite E1, E2, app_nil_r. split; reflexivity. Qed.
Lemma goes_app fuel a b (s1 s2 s3 : lstate) : goes fuel a s1 s2 -> goes fuel b s2 s3 -> goes fuel (a ++ b) s1 s3.
Proof.
  intros (r1 & e1 & H1 & E1) (r2 & e2 & H2 & E2). exists (r1 ++ r2), (e1 ++ e2).
  rewrite map_app, run_cops_app, H1, H2, E2, E1, app_assoc. split; reflexivity.
Qed.
Lemma goes_same fuel a (s1 s2 s1' s2' : lstate) : goes fuel a s1 s2 -> l_cs s1' = l_cs s1 -> l_evs s1' = l_evs s1 -> l_cs s2' = l_cs s2 -> l_evs s2' = l_evs s2 -> goes fuel a s1' s2'.
Proof. intros (r & ev & H & E) A1 A2 A3 A4. exists r, ev. rewrite A1, A2, A3, A4. split; assumption. Qed.

Lemma emit_goes fuel ds (s s' : lstate) : emit fuel ds s = Ok s' -> goes fuel ds s s' /\ l_w s' = l_w s /\ l_log s' = l_log s.
Proof.
  unfold emit. intro H. destruct (run_cops fuel (l_cs s) (map CWrite ds)) as [[[rets cs] evs]| |] eqn:E; try discriminate H.
  cbn [obind] in H. injection H as <-. cbn [l_w l_log]. split; [|split; reflexivity]. exists rets, evs. cbn [l_cs l_evs]. split; [exact E|reflexivity].
Qed.

Lemma goes_prefix fuel ds (s s' : lstate) : goes fuel ds s s' -> prefix (cev_bytes (l_evs s)) (cev_bytes (l_evs s')).
Proof. intros (r & ev & _ & ->). rewrite cev_bytes_app. apply prefix_app. Qed.


Lemma read_own_goes rf fuel : forall got (s : lstate) all s', read_own fl rf fuel got s = Ok (all, s') -> prefix got (cev_bytes (l_evs s)) ->
  exists chunks last, all = got ++ concat chunks ++ last /\ Forall (fun c => lenN c = DEF_CHUNK_SIZE) chunks /\ lenN last < DEF_CHUNK_SIZE /\
    goes fuel (chunks ++ [last]) s s' /\ l_w s' = l_w s /\ l_log s' = l_log s /\ prefix all (cev_bytes (l_evs s')).
Proof.
  induction rf as [|rf IH]; intros got s all s' H Hp; [discriminate H|]. cbn [read_own] in H.
  set (chunk := takeN DEF_CHUNK_SIZE (dropN (lenN got) (on_disk fl s))) in *.
  assert (Hp1 : prefix (got ++ chunk) (cev_bytes (l_evs s))).
  { destruct Hp as [t Ht]. unfold chunk, on_disk. rewrite Ht.
    destruct (N.le_gt_cases (lenN got) (fl (l_evs s))) as [L|L].
    - rewrite takeN_app, (takeN_all _ _ got) by exact L. rewrite dropN_app_exact by reflexivity. apply prefix_app_l.
      eapply prefix_trans; apply prefix_takeN.
    - rewrite (dropN_all _ (lenN got)) by (rewrite lenN_takeN; lia). rewrite takeN_nil, app_nil_r. apply prefix_app. }
  destruct (emit fuel [chunk] s) as [s1| |] eqn:E; try discriminate H. cbn [obind] in H. apply emit_goes in E. destruct E as (G & W & L).
  destruct (N.ltb_spec (lenN chunk) DEF_CHUNK_SIZE) as [Hl|Hl].
  - injection H as <- <-. exists [], chunk. cbn [concat app]. split; [reflexivity|]. split; [constructor|]. split; [exact Hl|]. split; [exact G|]. split; [exact W|].
    split; [exact L|]. exact (prefix_trans _ _ _ _ Hp1 (goes_prefix _ _ _ _ G)).
  - apply IH in H; [|exact (prefix_trans _ _ _ _ Hp1 (goes_prefix _ _ _ _ G))]. destruct H as (chunks & last & H1 & H2 & H3 & H4 & H5 & H6 & H7).
    exists (chunk :: chunks), last. split; [rewrite H1; cbn [concat]; now rewrite <- !app_assoc|].
    split; [constructor; [|exact H2]; apply N.le_antisymm; [unfold chunk; rewrite lenN_takeN; lia|exact Hl]|]. split; [exact H3|].
    split; [exact (goes_app _ [chunk] _ _ _ _ G H4)|]. split; [congruence|]. split; [congruence|exact H7].
Qed.

(** Every time the output file was read it had the size that was recorded. *)
Definition fair (log : list (N * bytes)) : Prop := Forall (fun x => lenN (snd x) = fst x) log.
Definition seen (s : lstate) (x : bytes) : Prop := prefix x (cev_bytes (l_evs s)).

Definition node_static (rf fuel : nat) (nd : lnode) : Prop := forall dir name (s s' : lstate) ret,
  live_node e filt jk hj fl rf fuel dir name nd s = Ok (ret, s') -> fair (l_log s') ->
  fair (l_log s) /\ exists x evs, snap (seen s') nd x /\ walk_node e filt jk hj dir name x (l_w s) = (ret, l_w s', evs) /\ goes fuel (datas evs) s s'.

Lemma seen_goes fuel ds (s s' : lstate) x : goes fuel ds s s' -> seen s x -> seen s' x.
Proof. intros G H. exact (prefix_trans _ _ _ _ H (goes_prefix _ _ _ _ G)). Qed.
Lemma seen_nil (s : lstate) : seen s []. Proof. apply prefix_nil. Qed.

Lemma iter_static rf fuel dir : forall es, Forall (fun x => node_static rf fuel (snd x)) es -> forall (s s' : lstate),
  live_iter (live_node e filt jk hj fl rf fuel dir) es s = Ok s' -> fair (l_log s') ->
  fair (l_log s) /\ exists es' evs, snaps (seen s') es es' /\ iter_with (walk_node e filt jk hj dir) es' (l_w s) = (l_w s', evs) /\ goes fuel (datas evs) s s'.
Proof.
  induction es as [|[n a] es IH]; intros Fn s s' H Hf.
  - injection H as <-. split; [exact Hf|]. exists [], []. split; [constructor|]. split; [reflexivity|]. now apply goes_nil.
  - inversion Fn as [|? ? F1 F2]; subst. cbn [live_iter] in H.
    destruct (live_node e filt jk hj fl rf fuel dir n a s) as [[ret s1]| |] eqn:E; try discriminate H. cbn [obind] in H.
    destruct (ret =? DIRITER_EXIT_ALL)%Z eqn:Er.
    + injection H as <-. destruct (F1 _ _ _ _ _ E Hf) as (Hs & x & evs & Sx & Wx & Gx). split; [exact Hs|].
      destruct (snaps_any (seen s1) (seen_nil s1) es) as [es' S']. exists ((n, x) :: es'), evs. split; [now constructor|].
      split; [|exact Gx]. cbn [iter_with]. rewrite Wx, Er. reflexivity.
    + destruct (IH F2 _ _ H Hf) as (Hs1 & es' & evs2 & S2 & W2 & G2). destruct (F1 _ _ _ _ _ E Hs1) as (Hs & x & evs & Sx & Wx & Gx). split; [exact Hs|].
      exists ((n, x) :: es'), (evs ++ evs2). split; [constructor; [|exact S2]; eapply snap_mono; [|exact Sx]; intro y; exact (seen_goes _ _ _ _ y G2)|].
      split; [|rewrite datas_app; exact (goes_app _ _ _ _ _ _ Gx G2)].
      cbn [iter_with]. rewrite Wx, Er. rewrite W2. reflexivity.
Qed.

Lemma live_static rf fuel : forall nd, node_static rf fuel nd.
Proof.
  induction nd as [x|m es IH|m] using lnode_ind2; intros dir name s s' ret H Hf; cbn [live_node] in H.
  - destruct (walk_node e filt jk hj dir name x (l_w s)) as [[ret0 w] evs] eqn:Ew.
    change (concat (map (fun v => match v with WData d => [d] | _ => [] end) evs)) with (concat (map (fun v => match v with WData d => [d] | WFilter _ _ _ _ => [] end) evs)) in H.
    replace (concat (map (fun v => match v with WData d => [d] | WFilter _ _ _ _ => [] end) evs)) with (datas evs) in H
      by (unfold datas; f_equal; apply map_ext; intros [? ? ? ?|?]; reflexivity).
    destruct (emit fuel (datas evs) s) as [s1| |] eqn:E; try discriminate H. cbn [obind] in H. injection H as <- <-.
    apply emit_goes in E. destruct E as (G & W & L). cbn [l_set l_log l_w] in *. split; [now rewrite <- L|].
    exists x, evs. split; [apply sn_node|]. split; [exact Ew|]. eapply goes_same; [exact G|reflexivity..].
  - cbn [lkind] in H.
    destruct (w_dead (l_w s) || w_err (l_w s) || w_exit (l_w s)) eqn:E1.
    { injection H as <- <-. split; [exact Hf|]. destruct (snap_any (seen s) (LDir m es) (seen_nil s)) as [x Sx]. exists x, [].
      split; [exact Sx|]. split; [|now apply goes_nil]. inversion Sx; subst. cbn [walk_node]. rewrite E1. reflexivity. }
    destruct (is_dot name) eqn:E2.
    { injection H as <- <-. split; [exact Hf|]. destruct (snap_any (seen s) (LDir m es) (seen_nil s)) as [x Sx]. exists x, [].
      split; [exact Sx|]. split; [|now apply goes_nil]. inversion Sx; subst. cbn [walk_node]. rewrite E1, E2. reflexivity. }
    destruct (filt (w_f (l_w s)) dir name KDir) as [a f] eqn:Ef.
    destruct (a =? DIRITER_EXIT_ALL)%Z eqn:E3.
    { injection H as <- <-. split; [exact Hf|]. destruct (snap_any (seen s) (LDir m es) (seen_nil s)) as [x Sx]. exists x, [WFilter dir name KDir a].
      split; [exact Sx|]. split; [|now apply goes_nil]. inversion Sx; subst. cbn [walk_node kind_of]. rewrite E1, E2, Ef, E3. reflexivity. }
    destruct (negb (a =? 0)%Z) eqn:E4.
    { injection H as <- <-. split; [exact Hf|]. destruct (snap_any (seen s) (LDir m es) (seen_nil s)) as [x Sx]. exists x, [WFilter dir name KDir a].
      split; [exact Sx|]. split; [|now apply goes_nil]. inversion Sx; subst. cbn [walk_node kind_of]. rewrite E1, E2, Ef, E3, E4. reflexivity. }
    set (j := jk (w_n (w_setf f (l_w s)))) in *.
    destruct (emit fuel (dir_item e (u32 (lenN name)) m j :: name_writes name) (l_set (w_next (w_setf f (l_w s))) s)) as [s1| |] eqn:A1; try discriminate H.
    cbn [obind] in H. apply emit_goes in A1. destruct A1 as (G1 & W1 & L1).
    destruct (live_iter (live_node e filt jk hj fl rf fuel (dir ++ [name])) es s1) as [s2| |] eqn:A2; try discriminate H. cbn [obind] in H.
    destruct (emit fuel (if w_dead (l_w s2) then [] else [dir_end_item e (u32 (lenN name)) m j]) s2) as [s3| |] eqn:A3; try discriminate H.
    cbn [obind] in H. injection H as <- <-. apply emit_goes in A3. destruct A3 as (G3 & W3 & L3).
    rewrite L3 in Hf. destruct (iter_static rf fuel (dir ++ [name]) es IH _ _ A2 Hf) as (Hs1 & es' & evs & S2 & W2 & G2).
    rewrite L1 in Hs1. split; [exact Hs1|]. exists (SDir m es').
    exists (WFilter dir name KDir a :: map WData (dir_item e (u32 (lenN name)) m j :: name_writes name) ++ evs ++
            (if w_dead (l_w s2) then [] else [WData (dir_end_item e (u32 (lenN name)) m j)])).
    split; [constructor; eapply snaps_mono; [|exact S2]; intro y; exact (seen_goes _ _ _ _ y G3)|].
    split.
    + cbn [walk_node kind_of]. rewrite E1, E2, Ef, E3, E4. fold j.
      rewrite W1 in W2. cbn [l_set l_w] in W2. rewrite W2, W3. reflexivity.
    + change (datas (WFilter dir name KDir a :: ?l)) with (datas l). rewrite !datas_app, datas_data.
      replace (datas (if w_dead (l_w s2) then [] else [WData (dir_end_item e (u32 (lenN name)) m j)]))
        with (if w_dead (l_w s2) then [] else [dir_end_item e (u32 (lenN name)) m j]) by (destruct (w_dead (l_w s2)); reflexivity).
      eapply goes_app; [|eapply goes_app; [exact G2|exact G3]]. eapply goes_same; [exact G1|reflexivity..].
  - cbn [lkind] in H.
    destruct (w_dead (l_w s) || w_err (l_w s) || w_exit (l_w s)) eqn:E1.
    { injection H as <- <-. split; [exact Hf|]. exists (SFile true true m (lenN (@nil byte)) [] false), [].
      split; [apply sn_out, seen_nil|]. split; [|now apply goes_nil]. cbn [walk_node]. rewrite E1. reflexivity. }
    destruct (is_dot name) eqn:E2.
    { injection H as <- <-. split; [exact Hf|]. exists (SFile true true m (lenN (@nil byte)) [] false), [].
      split; [apply sn_out, seen_nil|]. split; [|now apply goes_nil]. cbn [walk_node]. rewrite E1, E2. reflexivity. }
    destruct (filt (w_f (l_w s)) dir name KFile) as [a f] eqn:Ef.
    destruct (a =? DIRITER_EXIT_ALL)%Z eqn:E3.
    { injection H as <- <-. split; [exact Hf|]. exists (SFile true true m (lenN (@nil byte)) [] false), [WFilter dir name KFile a].
      split; [apply sn_out, seen_nil|]. split; [|now apply goes_nil]. cbn [walk_node kind_of]. rewrite E1, E2, Ef, E3. reflexivity. }
    destruct (negb (a =? 0)%Z) eqn:E4.
    { injection H as <- <-. split; [exact Hf|]. exists (SFile true true m (lenN (@nil byte)) [] false), [WFilter dir name KFile a].
      split; [apply sn_out, seen_nil|]. split; [|now apply goes_nil]. cbn [walk_node kind_of]. rewrite E1, E2, Ef, E3, E4. reflexivity. }
    set (j := jk (w_n (w_setf f (l_w s)))) in *. set (size := lenN (on_disk fl s)) in *.
    destruct (emit fuel (file_item e (u32 (lenN name)) m size j :: name_writes name) (l_set (w_next (w_setf f (l_w s))) s)) as [s1| |] eqn:A1; try discriminate H.
    cbn [obind] in H. apply emit_goes in A1. destruct A1 as (G1 & W1 & L1).
    destruct (read_own fl rf fuel [] s1) as [[got s2]| |] eqn:A2; try discriminate H. cbn [obind] in H.
    destruct (emit fuel [zeros (sub64 (norm_len64 size) size)] s2) as [s3| |] eqn:A3; try discriminate H.
    cbn [obind] in H. injection H as <- <-. apply emit_goes in A3. destruct A3 as (G3 & W3 & L3).
    destruct (read_own_goes _ _ _ _ _ _ A2 (prefix_nil _ _)) as (chunks & last & R1 & R2 & R3 & R4 & R5 & R6 & R7). cbn [app] in R1.
    cbn [l_log l_w l_evs] in *. apply Forall_app in Hf. destruct Hf as [Hf1 Hf2]. inversion Hf2 as [|? ? Hg _]; subst x l. cbn [fst snd] in Hg.
    split; [rewrite L3, R6, L1 in Hf1; exact Hf1|].
    exists (SFile true true m (lenN got) got false).
    exists (WFilter dir name KFile a :: map WData (file_writes e name m size j (chunks ++ [last]) false)).
    split; [apply sn_out; exact (prefix_trans _ _ _ _ R7 (goes_prefix _ _ _ _ G3))|].
    split.
    + cbn [walk_node kind_of]. rewrite E1, E2, Ef, E3, E4. cbn [negb orb]. fold j. rewrite Hg, R1, (read_file_chunks _ _ R2 R3). cbn [w_f].
      rewrite W3, R5, W1. reflexivity.
    + change (datas (WFilter dir name KFile a :: ?l)) with (datas l). rewrite datas_data. unfold file_writes.
      change (file_item e (u32 (lenN name)) m size j :: name_writes name ++ ?r) with ((file_item e (u32 (lenN name)) m size j :: name_writes name) ++ r).
      eapply goes_same with (s1 := l_set (w_next (w_setf f (l_w s))) s) (s2 := s3); try reflexivity.
      eapply goes_app; [exact G1|]. eapply goes_app; [exact R4|exact G3].
Qed.
End Static.
