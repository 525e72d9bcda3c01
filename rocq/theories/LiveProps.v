(** LiveProps.v: archives whose file lies in the archived folder. *)
From Coq Require Import Lia.
From Verif Require Import Base Format Zlib LLCompress CompressFacts Compress ArchiveSpec ArchiveFacts ArchiveEntry ArchiveProps HLProps LiveWalk LiveFacts.

(** Names, modes and sizes fit into the fields of the records. *)
Inductive lfits : bytes -> lnode -> Prop :=
| lf_node n x : fits n x -> lfits n (LNode x)
| lf_dir n m es : lenN n + 8 < two32 -> m < two32 -> Forall (fun x => lfits (fst x) (snd x)) es -> lfits n (LDir m es)
| lf_out n m : lenN n + 8 < two32 -> m < two32 -> lfits n (LOut m).

Lemma snap_fits (P : bytes -> Prop) : (forall x, P x -> lenN x + 8 < two64) -> forall nd n x, lfits n nd -> snap P nd x -> fits n x.
Proof.
  intro HP. induction nd as [x|m es IH|m] using lnode_ind2; intros n y Hl S; inversion S as [?|? ? es' S1|? ? Px]; subst; inversion Hl as [? ? L1|? ? ? L1 L2 L3|? ? L1 L2]; subst.
  - assumption.
  - constructor; [exact L1|exact L2|]. clear S Hl. revert IH L3. induction S1 as [|c a b r r' Q1 Q2 IHQ]; intros IH L; constructor; inversion IH; subst; inversion L; subst; cbn [fst snd] in *; eauto.
  - constructor; [exact L1|exact L2|]. now apply HP.
Qed.
Lemma snaps_fit (P : bytes -> Prop) es es' : (forall x, P x -> lenN x + 8 < two64) -> Forall (fun x => lfits (fst x) (snd x)) es -> snaps P es es' ->
  Forall (fun x => fits (fst x) (snd x)) es'.
Proof.
  intros HP L S. induction S as [|c a b r r' Q1 Q2 IHQ]; constructor; inversion L; subst; cbn [fst snd] in *; [eapply snap_fits; eassumption|auto].
Qed.

Lemma create_more z e alloc typ level clbk null size junk f f' r : (f <= f')%nat ->
  create_csession z f e alloc typ level clbk null size junk = Ok r -> create_csession z f' e alloc typ level clbk null size junk = Ok r.
Proof.
  intros Hle H. unfold create_csession in *. destruct alloc; cbn [negb] in *; [|exact H]. destruct (deflateInit z level) as [d|]; [|exact H].
  unfold compress_call in *. destruct (compress_loop f _ _) as [[[ret s1] ev1]| |] eqn:E; try discriminate H.
  rewrite (compress_loop_more _ _ f' _ _ _ Hle E). exact H.
Qed.

Section Live.
Context (z : zlib) {F : Type} (e : endian) (filt : F -> list bytes -> bytes -> skind -> Z * F).
Context (jk : N -> bytes) (hj : N -> N -> bytes) (hjunk : bytes) (al : N -> bool) (fl : list cev -> N).

(** The run is that of Compress.v on the folder as it was read. *)
Lemma live_is_dir xjk rf fuel level clbk es f0 r cevs ws log :
  live_compress z e filt jk hj hjunk al fl rf fuel level clbk es f0 = Ok (r, cevs, ws, log) -> fair log ->
  exists es' wx led, snaps (fun x => prefix x (cev_bytes cevs)) es es' /\
    compress_dir z e filt jk hj xjk hjunk al fuel level clbk false [] (Some es') f0 = Ok (r, cevs, ws, wx, led).
Proof.
  unfold live_compress. intros H Hf. assert (A : exists es', snaps (fun x => prefix x (cev_bytes cevs)) es es') by (apply snaps_any, prefix_nil).
  destruct A as [any Sa]. unfold compress_dir.
  destruct (al 1); cbn [negb orb] in *.
  2:{ injection H as <- <- <- <-. exists any, [], []. split; [exact Sa|reflexivity]. }
  destruct (al 2); cbn [negb orb] in *.
  2:{ injection H as <- <- <- <-. exists any, [], [LMalloc 1; LFree 1]. split; [exact Sa|reflexivity]. }
  destruct (create_csession z fuel e (al 3) ContentDirectory level clbk false DEF_CHUNK_SIZE hjunk) as [[[cs|] ev0]| |] eqn:Ec; try discriminate H; cbn [obind] in *.
  2:{ injection H as <- <- <- <-. eexists any, [], _. split; [exact Sa|reflexivity]. }
  destruct (live_iter (live_node e filt jk hj fl rf fuel []) es (LS (WS false false false f0 0) cs ev0 [])) as [s| |] eqn:El; try discriminate H.
  cbn [obind] in H. injection H as <- <- <- <-.
  destruct (iter_static (z:=z) e filt jk hj fl rf fuel [] es) with (s := LS (WS false false false f0 0) cs ev0 (@nil (N * bytes))) (s' := s)
    as (_ & es' & evs & Sn & W & (rets & ev & G1 & G2)); [|exact El|exact Hf|].
  { apply Forall_forall. intros x _. apply live_static. }
  cbn [l_w l_cs l_evs] in *. exists es', evs. 
  exists (if w_dead (l_w s) then [LMalloc 1; LMalloc 2; LMalloc 3] else [LMalloc 1; LMalloc 2; LMalloc 3; LFree 3; LFree 2; LFree 1]).
  split; [exact Sn|]. unfold walk. rewrite W. cbn [extra_writes map app]. rewrite wcops, G1. cbn [obind]. rewrite G2.
  destruct (w_dead (l_w s)); reflexivity.
Qed.

Lemma live_archived xjk rf fuel level clbk es f0 cevs ws log :
  junk_ok jk hj xjk hjunk -> accepts filt -> created z al level -> Forall (fun x => lfits (fst x) (snd x)) es ->
  live_compress z e filt jk hj hjunk al fl rf fuel level clbk es f0 = Ok (CRet 0%Z, cevs, ws, log) -> fair log ->
  last_not_full cevs -> lenN (cev_bytes cevs) + 8 < two64 ->
  exists es', snaps (fun x => prefix x (cev_bytes cevs)) es es' /\ archives_dir z es' (cev_bytes cevs).
Proof.
  intros J Ha Cr Lf H Hf L B. destruct (live_is_dir xjk _ _ _ _ _ _ _ _ _ _ H Hf) as (es' & wx & led & S & Q).
  exists es'. split; [exact S|].
  exists F, filt, e, jk, hj, xjk, hjunk, al, fuel, level, clbk, f0, cevs, ws, wx, led.
  split; [exact J|]. split. { unfold tree_fits. cbn [listing]. eapply snaps_fit; [|exact Lf|exact S]. intros x [t Hx]. rewrite Hx, lenN_app in B. lia. }
  split; [exact Ha|]. split; [exact Q|]. split; [exact Cr|]. split; [exact L|reflexivity].
Qed.

(** ** Termination *)
Context (C : zlib_contract z).
Notation lstate := (@lst z F).
Definition good (s : lstate) : Prop := exists i, zc_dinv C (cs_z (l_cs s)) i (cev_bytes (l_evs s)) /\ cs_null (l_cs s) = false /\ cs_bufsz (l_cs s) = DEF_CHUNK_SIZE.

Lemma run_cops_more fuel fuel' : (fuel <= fuel')%nat -> forall ops (s : csess z) r, run_cops fuel s ops = Ok r -> run_cops fuel' s ops = Ok r.
Proof.
  intro Hle. induction ops as [|op ops IH]; intros s r H; cbn [run_cops] in *; [exact H|].
  destruct op as [d|null sz|id]; [|apply IH; exact H|apply IH; exact H]. unfold compress_call in *.
  destruct (compress_loop fuel s _) as [[[ret s1] ev1]| |] eqn:E; try discriminate H. rewrite (compress_loop_more _ _ fuel' _ _ _ Hle E). cbn [obind] in *.
  destruct (run_cops fuel s1 ops) as [r2| |] eqn:E2; try discriminate H. rewrite (IH _ _ E2). exact H.
Qed.

Lemma compress_loop_same fuel : forall (s : csess z) inp r s' evs, compress_loop fuel s inp = Ok (r, s', evs) -> cs_null s' = cs_null s /\ cs_bufsz s' = cs_bufsz s.
Proof.
  induction fuel as [|fuel IH]; intros s inp r s' evs H; destruct inp as [|b t].
  - injection H as <- <- <-. split; reflexivity.
  - discriminate H.
  - injection H as <- <- <-. split; reflexivity.
  - cbn [compress_loop] in H. destruct (cs_null s) eqn:En; [injection H as <- <- <-; split; congruence|]. cbn zeta in H.
    destruct (_ =? _)%Z; [injection H as <- <- <-; cbn [cs_null cs_bufsz]; split; congruence|].
    destruct (compress_loop fuel _ _) as [[[ret s2] ev]| |] eqn:E; try discriminate H. cbn [obind] in H. injection H as <- <- <-.
    apply IH in E. cbn [cs_null cs_bufsz] in E. destruct E. split; congruence.
Qed.
Lemma writes_same fuel : forall ds (s : csess z) r s' evs, run_cops fuel s (map CWrite ds) = Ok (r, s', evs) -> cs_null s' = cs_null s /\ cs_bufsz s' = cs_bufsz s.
Proof.
  induction ds as [|d ds IH]; intros s r s' evs H; cbn [map run_cops] in H; [injection H as <- <- <-; split; reflexivity|].
  destruct (compress_call fuel s d) as [[[ret s1] ev1]| |] eqn:E; try discriminate H. cbn [obind] in H.
  destruct (run_cops fuel s1 (map CWrite ds)) as [[[rets s2] ev2]| |] eqn:E2; try discriminate H. cbn [obind] in H. injection H as <- <- <-.
  apply IH in E2. apply compress_loop_same in E. destruct E, E2. split; congruence.
Qed.

Lemma emit_good fuel ds (s s' : lstate) : small_writes ds -> good s -> emit fuel ds s = Ok s' -> good s'.
Proof.
  intros Hs (i & I & Nn & Bz) H. unfold emit in H. destruct (run_cops fuel (l_cs s) (map CWrite ds)) as [[[rets cs] evs]| |] eqn:E; try discriminate H.
  cbn [obind] in H. injection H as <-.
  assert (0 < cs_bufsz (l_cs s)) by (rewrite Bz; reflexivity).
  destruct (run_cops_spec _ C _ _ _ _ _ _ _ _ E (cops_writes _ Hs) I Nn) as (_ & I2 & _); [assumption|].
  apply writes_same in E. destruct E as [E1 E2].
  exists (i ++ ops_bytes (map CWrite ds)). cbn [l_cs l_evs]. rewrite cev_bytes_app. split; [exact I2|]. split; congruence.
Qed.
Lemma emit_total ds (s : lstate) : small_writes ds -> good s -> exists f0 s', good s' /\ l_w s' = l_w s /\ l_log s' = l_log s /\ forall fuel, (f0 <= fuel)%nat -> emit fuel ds s = Ok s'.
Proof.
  intros Hs G. pose proof G as (i & I & Nn & Bz). assert (0 < cs_bufsz (l_cs s)) by (rewrite Bz; reflexivity).
  destruct (run_cops_terminates _ C (map CWrite ds) (l_cs s) _ _ (cops_writes _ Hs) I Nn) as (f0 & [[rets cs] evs] & E); [assumption|].
  exists f0, (LS (l_w s) cs (l_evs s ++ evs) (l_log s)).
  assert (Q : forall fuel, (f0 <= fuel)%nat -> emit fuel ds s = Ok (LS (l_w s) cs (l_evs s ++ evs) (l_log s))).
  { intros fuel Hf. unfold emit. rewrite (run_cops_more _ _ Hf _ _ _ E). reflexivity. }
  split; [exact (emit_good f0 ds _ _ Hs G (Q f0 (Nat.le_refl _)))|]. split; [reflexivity|]. split; [reflexivity|exact Q].
Qed.
Lemma good_set w (s : lstate) : good s -> good (l_set w s). Proof. exact (fun H => H). Qed.

Lemma chunk_small (b : bytes) : small_writes [takeN DEF_CHUNK_SIZE b].
Proof. constructor; [|constructor]. rewrite lenN_takeN. unfold DEF_CHUNK_SIZE, two32. lia. Qed.

(** The file does not get longer than [R]. *)
Context (R : N) (HR : R + 8 < two64) (Hfl : forall evs, fl evs <= R).

Lemma on_disk_le (s : lstate) : lenN (on_disk fl s) <= R.
Proof. unfold on_disk. rewrite lenN_takeN. specialize (Hfl (l_evs s)). lia. Qed.


Lemma read_own_total : forall rf got (s : lstate), good s -> lenN got <= R -> R < lenN got + N.of_nat rf * DEF_CHUNK_SIZE ->
  exists f0 all s', good s' /\ forall fuel, (f0 <= fuel)%nat -> read_own fl rf fuel got s = Ok (all, s').
Proof.
  induction rf as [|rf IH]; intros got s G L1 L2; [cbn in L2; lia|].
  set (chunk := takeN DEF_CHUNK_SIZE (dropN (lenN got) (on_disk fl s))).
  destruct (emit_total [chunk] s (chunk_small _) G) as (f1 & s1 & G1 & _ & _ & E1).
  destruct (N.ltb_spec (lenN chunk) DEF_CHUNK_SIZE) as [Hc|Hc].
  - exists f1, (got ++ chunk), s1. split; [exact G1|]. intros fuel Hf. cbn [read_own]. fold chunk. rewrite (E1 _ Hf). cbn [obind].
    rewrite (proj2 (N.ltb_lt _ _) Hc). reflexivity.
  - pose proof (on_disk_le s) as Ld. assert (Lc : lenN chunk = N.min DEF_CHUNK_SIZE (lenN (on_disk fl s) - lenN got)) by (unfold chunk; now rewrite lenN_takeN, lenN_dropN).
    assert (0 < DEF_CHUNK_SIZE) by reflexivity.
    destruct (IH (got ++ chunk) s1 G1) as (f2 & all & s' & G2 & E2); [rewrite lenN_app; lia|rewrite lenN_app; rewrite Nat2N.inj_succ in L2; nia|].
    exists (Nat.max f1 f2), all, s'. split; [exact G2|]. intros fuel Hf. cbn [read_own]. fold chunk. rewrite E1 by lia. cbn [obind].
    rewrite (proj2 (N.ltb_ge _ _) Hc). apply E2. lia.
Qed.

Context (rf : nat) (Hrf : R < N.of_nat rf * DEF_CHUNK_SIZE) (Hjk : forall n, lenN (jk n) = 40) (Hhj : forall n k, lenN (hj n k) = k).

Definition node_total (nd : lnode) : Prop := forall dir name (s : lstate), lfits name nd -> good s ->
  exists f0 ret s', good s' /\ forall fuel, (f0 <= fuel)%nat -> live_node e filt jk hj fl rf fuel dir name nd s = Ok (ret, s').

Lemma iter_total dir : forall es, Forall (fun x => node_total (snd x)) es -> Forall (fun x => lfits (fst x) (snd x)) es -> forall s : lstate, good s ->
  exists f0 s', good s' /\ forall fuel, (f0 <= fuel)%nat -> live_iter (live_node e filt jk hj fl rf fuel dir) es s = Ok s'.
Proof.
  induction es as [|[n a] es IH]; intros Ft Fl s G; [exists O, s; split; [exact G|reflexivity]|].
  inversion Ft as [|? ? T1 T2]; subst. inversion Fl as [|? ? L1 L2]; subst. cbn [fst snd] in *.
  destruct (T1 dir n s L1 G) as (f1 & ret & s1 & G1 & E1). destruct (ret =? DIRITER_EXIT_ALL)%Z eqn:Er.
  - exists f1, s1. split; [exact G1|]. intros fuel Hf. cbn [live_iter]. rewrite (E1 _ Hf). cbn [obind]. now rewrite Er.
  - destruct (IH T2 L2 s1 G1) as (f2 & s2 & G2 & E2). exists (Nat.max f1 f2), s2. split; [exact G2|]. intros fuel Hf. cbn [live_iter].
    rewrite E1 by lia. cbn [obind]. rewrite Er. apply E2. lia.
Qed.

Lemma wdatas evs : concat (map (fun v => match v with WData d => [d] | WFilter _ _ _ _ => [] end) evs) = datas evs.
Proof. reflexivity. Qed.

Lemma live_total : forall nd, node_total nd.
Proof.
  induction nd as [x|m es IH|m] using lnode_ind2; intros dir name s Lf G; inversion Lf as [? ? L1|? ? ? L1 L2 L3|? ? L1 L2]; subst; cbn [live_node lkind].
  - destruct (walk_node e filt jk hj dir name x (l_w s)) as [[ret w] evs] eqn:Ew.
    assert (Sm : small_writes (datas evs)).
    { destruct (w_dead (l_w s) || w_err (l_w s) || w_exit (l_w s)) eqn:E1.
      - assert (tend_of (l_w s) <> Done) by (unfold tend_of; destruct (w_dead (l_w s)), (w_err (l_w s)), (w_exit (l_w s)); discriminate).
        rewrite walk_flagged in Ew by assumption. injection Ew as <- <- <-. constructor.
      - assert (D : tend_of (l_w s) = Done) by (unfold tend_of; destruct (w_dead (l_w s)), (w_err (l_w s)), (w_exit (l_w s)); (reflexivity || discriminate E1)).
        destruct (walk_node_ok e filt jk hj Hjk Hhj _ _ _ _ _ _ _ L1 D Ew) as ((recs & _ & Sm & _) & _). exact Sm. }
    destruct (emit_total _ s Sm G) as (f1 & s1 & G1 & _ & _ & E1). exists f1, ret, (l_set w s1). split; [exact G1|].
    intros fuel Hf. rewrite wdatas, (E1 _ Hf). reflexivity.
  - destruct (w_dead (l_w s) || w_err (l_w s) || w_exit (l_w s)); [exists O; do 2 eexists; split; [exact G|reflexivity]|].
    destruct (is_dot name); [exists O; do 2 eexists; split; [exact G|reflexivity]|].
    destruct (filt (w_f (l_w s)) dir name KDir) as [a f].
    destruct (a =? DIRITER_EXIT_ALL)%Z; [exists O; do 2 eexists; split; [|reflexivity]; exact G|].
    destruct (negb (a =? 0)%Z); [exists O; do 2 eexists; split; [|reflexivity]; exact G|].
    destruct (name_writes_padded name L1) as [_ P2].
    destruct (emit_total (dir_item e (u32 (lenN name)) m (jk (w_n (w_setf f (l_w s)))) :: name_writes name) (l_set (w_next (w_setf f (l_w s))) s)) as (f1 & s1 & G1 & _ & _ & E1).
    { constructor; [|exact P2]. rewrite lenN_dir_item by apply Hjk. unfold two32. lia. }
    { exact G. }
    destruct (iter_total (dir ++ [name]) es IH L3 s1 G1) as (f2 & s2 & G2 & E2).
    destruct (emit_total (if w_dead (l_w s2) then [] else [dir_end_item e (u32 (lenN name)) m (jk (w_n (w_setf f (l_w s))))]) s2) as (f3 & s3 & G3 & _ & _ & E3).
    { destruct (w_dead (l_w s2)); constructor; [|constructor]. rewrite lenN_dir_end_item by apply Hjk. unfold two32. lia. }
    { exact G2. }
    exists (Nat.max f1 (Nat.max f2 f3)), 0%Z, s3. split; [exact G3|]. intros fuel Hf. rewrite E1 by lia. cbn [obind]. rewrite E2 by lia. cbn [obind].
    rewrite E3 by lia. reflexivity.
  - destruct (w_dead (l_w s) || w_err (l_w s) || w_exit (l_w s)); [exists O; do 2 eexists; split; [exact G|reflexivity]|].
    destruct (is_dot name); [exists O; do 2 eexists; split; [exact G|reflexivity]|].
    destruct (filt (w_f (l_w s)) dir name KFile) as [a f].
    destruct (a =? DIRITER_EXIT_ALL)%Z; [exists O; do 2 eexists; split; [|reflexivity]; exact G|].
    destruct (negb (a =? 0)%Z); [exists O; do 2 eexists; split; [|reflexivity]; exact G|].
    destruct (name_writes_padded name L1) as [_ P2]. pose proof (on_disk_le s) as Ld. set (size := lenN (on_disk fl s)) in *.
    destruct (emit_total (file_item e (u32 (lenN name)) m size (jk (w_n (w_setf f (l_w s)))) :: name_writes name) (l_set (w_next (w_setf f (l_w s))) s)) as (f1 & s1 & G1 & _ & _ & E1).
    { constructor; [|exact P2]. rewrite lenN_file_item by apply Hjk. unfold two32. lia. }
    { exact G. }
    destruct (read_own_total rf [] s1 G1) as (f2 & got & s2 & G2 & E2); [cbn; lia|cbn; lia|].
    destruct (emit_total [zeros (sub64 (norm_len64 size) size)] s2) as (f3 & s3 & G3 & _ & _ & E3).
    { constructor; [|constructor]. rewrite lenN_zeros. destruct (sub64_pad size ltac:(lia)) as [S1 S2]. rewrite S1. exact S2. }
    { exact G2. }
    exists (Nat.max f1 (Nat.max f2 f3)), 0%Z. eexists. split; [|intros fuel Hf; rewrite E1 by lia; cbn [obind]; rewrite E2 by lia; cbn [obind]; rewrite E3 by lia; reflexivity].
    exact G3.
Qed.

Lemma live_returns level clbk es f0 : lenN hjunk = 128 -> Forall (fun x => lfits (fst x) (snd x)) es ->
  exists fuel r, live_compress z e filt jk hj hjunk al fl rf fuel level clbk es f0 = Ok r.
Proof.
  intros J Lf. unfold live_compress. destruct (negb (al 1) || negb (al 2)); [exists O; eexists; reflexivity|].
  destruct (create_csession_terminates _ C e (al 3) ContentDirectory level clbk DEF_CHUNK_SIZE hjunk J eq_refl) as (f1 & [[cs|] ev0] & E1);
    [|exists f1; rewrite E1; eexists; reflexivity].
  assert (G : good (LS (WS false false false f0 0) cs ev0 [])).
  { destruct (al 3); [|discriminate E1]. pose proof (create_csession_spec _ C _ _ _ _ _ _ _ _ _ _ E1 J) as [_ H0].
    destruct (H0 eq_refl) as (I & N0 & B0 & _). exists (header_image e ContentDirectory hjunk). cbn [l_cs l_evs]. split; [exact I|]. split; [exact N0|exact B0]. }
  destruct (iter_total [] es) with (s := LS (WS false false false f0 0) cs ev0 (@nil (N * bytes))) as (f2 & s2 & _ & E2); [|exact Lf|exact G|].
  { apply Forall_forall. intros x _. apply live_total. }
  exists (Nat.max f1 f2). eexists.
  rewrite (create_more z e (al 3) ContentDirectory level clbk false DEF_CHUNK_SIZE hjunk f1 (Nat.max f1 f2) _ ltac:(lia) E1). cbn [obind].
  rewrite E2 by lia. reflexivity.
Qed.
End Live.
