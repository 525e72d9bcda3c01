(** DecompressFacts.v: histories of low level decompression sessions. *)
From Verif Require Import Base Format Zlib Parser ParserProofs Decompress DecompressProofs.

(** Buffer size and callback in force after a history. *)
Definition cur_size (n : N) (ops : list llop) : N :=
  fold_left (fun n op => match op with LSetBuffer _ k => k | _ => n end) ops n.
Definition cur_id (id : N) (ops : list llop) : N :=
  fold_left (fun i op => match op with LSetCallback k => k | _ => i end) ops id.
(** The data of the decompress calls of a history. *)
Definition feeds (ops : list llop) : list bytes :=
  concat (map (fun op => match op with LFeed _ d => [d] | _ => [] end) ops).
(** Calls with usable buffers; any data, any flush value. *)
Definition llop_buf_ok (op : llop) : Prop :=
  match op with LSetBuffer b n => usable b n | _ => True end.

Section LL.
Context (z : zlib) (C : zlib_contract z) (e : endian) (alloc : N -> N -> bool).

Lemma ll_create_inv ok id buf size hjunk pjunk s :
  ll_create z ok id buf size hjunk pjunk = Some s -> usable buf size ->
  ll_inv z C s [] [] true /\ d_cb s = CbUser id /\ d_bsz s = size.
Proof.
  unfold ll_create. intros H Hu. destruct ok; [|discriminate].
  destruct (inflateInit z) as [i|] eqn:Ei; [|discriminate]. injection H as <-.
  pose proof (zc_iinit _ C _ Ei) as I.
  assert (E : u32 size = size). { destruct Hu as (m & _ & _ & _ & H). unfold u32, two32 in *. lia. }
  split; [|split; [reflexivity|exact E]].
  split; [reflexivity|]. split; [cbn; now rewrite E|]. split; [exists id; reflexivity|].
  split; [apply prefix_nil|]. split; [eauto|exact I].
Qed.

Lemma run_llops_app fuel : forall a b (s : dsess z),
  run_llops e alloc fuel s (a ++ b) =
  do (r1, s1, ev1) <- run_llops e alloc fuel s a;
  do (r2, s2, ev2) <- run_llops e alloc fuel s1 b;
  Ok (r1 ++ r2, s2, ev1 ++ ev2).
Proof.
  induction a as [|op a IH]; intros b s; cbn [app run_llops obind].
  - destruct (run_llops e alloc fuel s b) as [[[r s2] ev]| |]; reflexivity.
  - destruct op as [f d|bb n|i]; [|apply IH|apply IH].
    destruct (ll_decompress e alloc fuel f d s) as [[[r s1] ev1]| |]; cbn [obind]; try reflexivity.
    rewrite IH. destruct (run_llops e alloc fuel s1 a) as [[[ra s2] ev2]| |]; cbn [obind]; try reflexivity.
    destruct (run_llops e alloc fuel s2 b) as [[[rb s3] ev3]| |]; cbn [obind]; try reflexivity.
    now rewrite app_assoc.
Qed.

(** Invariant, callback and buffer size after a history. *)
Lemma run_llops_state fuel : forall ops s F D w rets s' evs id,
  run_llops e alloc fuel s ops = Ok (rets, s', evs) -> ll_inv z C s F D w -> d_cb s = CbUser id -> Forall llop_ok ops ->
  d_cb s' = CbUser (cur_id id ops) /\ d_bsz s' = cur_size (d_bsz s) ops /\
  exists w', ll_inv z C s' (F ++ fed ops) (D ++ raw_bytes evs) w' /\
    (w = true -> Forall (fun r => r = 0%Z) rets -> w' = true) /\
    (Exists (fun r => r <> 0%Z) rets -> w' = false) /\ (w = false -> w' = false).
Proof.
  induction ops as [|op ops IH]; intros s F D w rets s' evs id H I Hid Ho.
  - cbn in H. injection H as <- <- <-. cbn. rewrite !app_nil_r. split; [exact Hid|]. split; [reflexivity|].
    exists w. split; [exact I|]. split; [auto|]. split; [|auto]. intro Q. inversion Q.
  - inversion Ho as [|? ? O1 O2]; subst.
    destruct op as [f d|b n|i]; cbn [run_llops] in H.
    + destruct (ll_decompress e alloc fuel f d s) as [[[r1 s1] ev1]| |] eqn:E; try discriminate H. cbn [obind] in H.
      destruct (run_llops e alloc fuel s1 ops) as [[[rs s2] ev2]| |] eqn:E2; try discriminate H. cbn [obind] in H.
      injection H as <- <- <-. destruct O1 as [Hf Hd].
      destruct (ll_decompress_spec z C e alloc _ _ _ _ _ _ _ _ _ _ E I Hf Hd _ Hid) as (C1 & B1 & Ob & I1 & _).
      destruct (IH _ _ _ _ _ _ _ _ E2 I1 C1 O2) as (G1 & G2 & w' & I2 & W1 & W2 & W3).
      split; [exact G1|]. split; [rewrite G2, B1; reflexivity|].
      exists w'. change (fed (LFeed f d :: ops)) with (d ++ fed ops). rewrite raw_bytes_app, !app_assoc.
      split; [exact I2|]. split.
      { intros -> Q. inversion Q as [|? ? Q1 Q2]; subst. now apply W1. }
      split.
      { intro Q. inversion Q as [? ? Q1|? ? Q1]; subst; [|auto].
        apply W3. destruct (Z.eqb_spec r1 0); [contradiction|]. apply andb_false_r. }
      intros ->. now apply W3.
    + destruct (IH _ _ _ _ _ _ _ _ H (ll_set_buffer_inv z C alloc _ _ _ _ _ _ I O1) Hid O2) as (Q1 & Q2 & Q3).
      split; [exact Q1|]. split; [|exact Q3]. rewrite Q2.
      assert (En : d_bsz (ll_set_buffer b n s) = n).
      { cbn. destruct O1 as (m & _ & _ & _ & H3). unfold u32, two32 in *. lia. }
      rewrite En. reflexivity.
    + assert (I1 : ll_inv z C (ll_set_callback i s) F D w).
      { destruct I as (B & U & _ & Pf & Iv & W). split; [exact B|]. split; [exact U|]. split; [exists i; reflexivity|]. auto. }
      exact (IH _ _ _ _ _ _ _ _ H I1 eq_refl O2).
Qed.

(** C12: prefix, callback and buffer sizes; valid input is accepted. *)
Lemma ll_prefix fuel ok id buf size hjunk pjunk s0 ops rets s evs :
  usable buf size -> ll_create z ok id buf size hjunk pjunk = Some s0 -> Forall llop_ok ops ->
  run_llops e alloc fuel s0 ops = Ok (rets, s, evs) ->
  prefix (raw_bytes evs) (zc_dec C (fed ops)) /\
  (exists evss, evs = concat evss /\ Forall2 ll_obeys (ll_settings id size ops) evss) /\
  (zc_bad C (fed ops) = false -> zc_fin C (fed ops) = false -> Forall (fun r => r = 0%Z) rets).
Proof.
  intros Hu Hc Ho H. destruct (ll_create_inv _ _ _ _ _ _ _ Hc Hu) as (I & Hid & Hs).
  destruct (run_llops_spec z C e alloc fuel _ _ _ _ _ _ _ _ _ H I Hid Ho) as ((w' & I' & _) & V & _ & Ob).
  rewrite Hs in Ob. split; [apply I'|]. split; [exact Ob|]. exact (V eq_refl).
Qed.

(** C12, C15: the last call left room in its last callback. *)
Lemma ll_last fuel ok id buf size hjunk pjunk s0 ops f d rets s evs :
  usable buf size -> ll_create z ok id buf size hjunk pjunk = Some s0 -> Forall llop_ok (ops ++ [LFeed f d]) -> d <> [] ->
  run_llops e alloc fuel s0 (ops ++ [LFeed f d]) = Ok (rets, s, evs) -> Forall (fun r => r = 0%Z) rets ->
  exists evs1 x, evs = evs1 ++ [EvRaw (cur_id id ops) x] /\
    (lenN x < cur_size size ops ->
     raw_bytes evs = zc_dec C (fed (ops ++ [LFeed f d])) /\ zc_bad C (fed (ops ++ [LFeed f d])) = false).
Proof.
  intros Hu Hc Ho Hd H Hr. destruct (ll_create_inv _ _ _ _ _ _ _ Hc Hu) as (I & Hid & Hs).
  rewrite run_llops_app in H. apply Forall_app in Ho. destruct Ho as [Ho1 Ho2].
  destruct (run_llops e alloc fuel s0 ops) as [[[r1 s1] ev1]| |] eqn:E1; try discriminate H. cbn [obind run_llops] in H.
  destruct (ll_decompress e alloc fuel f d s1) as [[[r2 s2] ev2]| |] eqn:E2; try discriminate H. cbn [obind] in H.
  injection H as <- <- <-. apply Forall_app in Hr. destruct Hr as [Hr1 Hr2].
  destruct (run_llops_state fuel _ _ _ _ _ _ _ _ _ E1 I Hid Ho1) as (G1 & G2 & w & I1 & W1 & _).
  rewrite (W1 eq_refl Hr1) in I1. inversion Ho2 as [|? ? Hfl _]; subst. destruct Hfl as [Hf Hl]. inversion Hr2; subst.
  destruct (ll_decompress_spec z C e alloc _ _ _ _ _ _ _ _ _ _ E2 I1 Hf Hl _ G1) as (_ & _ & _ & _ & _ & _ & _ & L & _).
  destruct (L eq_refl eq_refl Hd) as (evs1 & x & -> & Hx).
  exists (ev1 ++ evs1), x. rewrite app_nil_r, app_assoc. split; [reflexivity|]. intro Hl2. rewrite <- G2 in Hl2.
  destruct (Hx Hl2) as [X1 X2]. rewrite fed_app. change (fed [LFeed f d]) with (d ++ []). rewrite app_nil_r.
  cbn [app] in X1, X2. split; [|exact X2]. rewrite <- X1, !raw_bytes_app, app_assoc. reflexivity.
Qed.

(** C14: at most the last buffer's worth is missing when the end of the stream is reported. *)
Lemma ll_end fuel ok id buf size hjunk pjunk s0 ops f d rets s evs :
  usable buf size -> ll_create z ok id buf size hjunk pjunk = Some s0 -> Forall llop_ok (ops ++ [LFeed f d]) ->
  run_llops e alloc fuel s0 (ops ++ [LFeed f d]) = Ok (rets ++ [Z_STREAM_END], s, evs) ->
  Forall (fun r => r = 0%Z) rets ->
  exists lost, lenN lost <= cur_size size ops /\ raw_bytes evs ++ lost = zc_dec C (fed (ops ++ [LFeed f d])).
Proof.
  intros Hu Hc Ho H Hr. destruct (ll_create_inv _ _ _ _ _ _ _ Hc Hu) as (I & Hid & Hs).
  rewrite run_llops_app in H. apply Forall_app in Ho. destruct Ho as [Ho1 Ho2].
  destruct (run_llops e alloc fuel s0 ops) as [[[r1 s1] ev1]| |] eqn:E1; try discriminate H. cbn [obind run_llops] in H.
  destruct (ll_decompress e alloc fuel f d s1) as [[[r2 s2] ev2]| |] eqn:E2; try discriminate H. cbn [obind] in H.
  rewrite app_nil_r in H. assert (Er : r1 ++ [r2] = rets ++ [Z_STREAM_END]) by congruence.
  apply app_inj_tail in Er. destruct Er as [-> ->].
  assert (Ee : evs = ev1 ++ ev2) by congruence. subst evs.
  destruct (run_llops_state fuel _ _ _ _ _ _ _ _ _ E1 I Hid Ho1) as (G1 & G2 & w & I1 & W1 & _).
  rewrite (W1 eq_refl Hr) in I1. inversion Ho2 as [|? ? Hfl _]; subst. destruct Hfl as [Hf Hl].
  destruct (ll_decompress_spec z C e alloc _ _ _ _ _ _ _ _ _ _ E2 I1 Hf Hl _ G1) as (_ & _ & _ & _ & _ & _ & _ & _ & L).
  destruct (L eq_refl eq_refl) as (lost & L1 & L2). exists lost. rewrite G2 in L1. split; [exact L1|].
  rewrite fed_app. change (fed [LFeed f d]) with (d ++ []). rewrite app_nil_r, raw_bytes_app. cbn [app] in L2.
  now rewrite <- app_assoc.
Qed.

(** C15: after an error or the end of the stream nothing is delivered and every call with data fails. *)
Lemma stuck_history fuel : forall ops s F D rets s' evs id,
  run_llops e alloc fuel s ops = Ok (rets, s', evs) -> ll_inv z C s F D false -> d_cb s = CbUser id -> Forall llop_ok ops ->
  evs = [] /\ Forall2 (fun d r => d <> [] -> r <> 0%Z) (feeds ops) rets.
Proof.
  induction ops as [|op ops IH]; intros s F D rets s' evs id H I Hid Ho.
  - cbn in H. injection H as <- <- <-. split; [reflexivity|constructor].
  - inversion Ho as [|? ? O1 O2]; subst.
    destruct op as [f d|b n|i]; cbn [run_llops] in H.
    + destruct (ll_decompress e alloc fuel f d s) as [[[r1 s1] ev1]| |] eqn:E; try discriminate H. cbn [obind] in H.
      destruct (run_llops e alloc fuel s1 ops) as [[[rs s2] ev2]| |] eqn:E2; try discriminate H. cbn [obind] in H.
      injection H as <- <- <-. destruct O1 as [Hf Hd].
      destruct (ll_decompress_spec z C e alloc _ _ _ _ _ _ _ _ _ _ E I Hf Hd _ Hid) as (C1 & B1 & Ob & I1 & _ & St & _).
      destruct (St eq_refl) as [-> Hr]. cbn [andb] in I1.
      destruct (IH _ _ _ _ _ _ _ E2 I1 C1 O2) as [-> Fr].
      split; [reflexivity|]. change (feeds (LFeed f d :: ops)) with (d :: feeds ops). constructor; assumption.
    + exact (IH _ _ _ _ _ _ _ H (ll_set_buffer_inv z C alloc _ _ _ _ _ _ I O1) Hid O2).
    + assert (I1 : ll_inv z C (ll_set_callback i s) F D false).
      { destruct I as (B & U & _ & Pf & Iv & W). split; [exact B|]. split; [exact U|]. split; [exists i; reflexivity|]. auto. }
      exact (IH _ _ _ _ _ _ _ H I1 eq_refl O2).
Qed.

Lemma ll_after_error fuel ok id buf size hjunk pjunk s0 ops1 ops2 rets1 s1 ev1 rets2 s2 ev2 :
  usable buf size -> ll_create z ok id buf size hjunk pjunk = Some s0 -> Forall llop_ok ops1 -> Forall llop_ok ops2 ->
  run_llops e alloc fuel s0 ops1 = Ok (rets1, s1, ev1) -> Exists (fun r => r <> 0%Z) rets1 ->
  run_llops e alloc fuel s1 ops2 = Ok (rets2, s2, ev2) ->
  ev2 = [] /\ Forall2 (fun d r => d <> [] -> r <> 0%Z) (feeds ops2) rets2.
Proof.
  intros Hu Hc Ho1 Ho2 H1 Hx H2. destruct (ll_create_inv _ _ _ _ _ _ _ Hc Hu) as (I & Hid & Hs).
  destruct (run_llops_state fuel _ _ _ _ _ _ _ _ _ H1 I Hid Ho1) as (G1 & G2 & w & I1 & _ & W2 & _).
  rewrite (W2 Hx) in I1. exact (stuck_history fuel _ _ _ _ _ _ _ _ H2 I1 G1 Ho2).
Qed.

(** C16: every call returns. *)
Definition ll_safe (s : dsess z) : Prop :=
  content z s /\ (exists id, d_cb s = CbUser id) /\ (exists c p, zc_iinv C (z_st (d_zs s)) c p).

Lemma run_user_cb fuel : forall m fl (s : dsess z) ret s' evs id, d_cb s = CbUser id ->
  run e alloc fuel m fl s = Ok (ret, s', evs) -> d_cb s' = CbUser id.
Proof.
  induction fuel as [|fuel IH]; intros m fl s ret s' evs id Hid H; [discriminate|]. cbn [run] in H.
  destruct (_ || _). { injection H as <- <- <-. exact Hid. }
  set (s0 := match m with Reset => setup s | NoTouch => s end) in *.
  destruct (do_inflate fl s0) as [[r1 s1]| |] eqn:E; try discriminate H. cbn [obind] in H.
  assert (H1 : d_cb s1 = CbUser id).
  { assert (H0 : d_cb s0 = CbUser id) by (subst s0; destruct m; exact Hid).
    destruct (do_inflate_frame z C _ _ _ _ E) as (Q & _). congruence. }
  destruct (negb _). { injection H as <- <- <-. exact H1. }
  rewrite H1 in H. destruct (cb_data s1) as [dd tt]. cbn [content_cb leaf_cb obind] in H.
  destruct (run e alloc fuel m Z_NO_FLUSH _) as [[[r3 s4] ev2]| |] eqn:E2; try discriminate H. cbn [obind] in H.
  injection H as <- <- <-. refine (IH _ _ _ _ _ _ _ _ E2). reflexivity.
Qed.

Lemma ll_call_returns f d s : ll_safe s ->
  exists fuel0 ret s' evs, (forall fuel, (fuel0 <= fuel)%nat -> ll_decompress e alloc fuel f d s = Ok (ret, s', evs)) /\ ll_safe s'.
Proof.
  intros (Hc & (id & Hid) & (c & p & I)).
  assert (W : cwf e (d_cb (feed d s)) (d_p (feed d s))) by (cbn; rewrite Hid; exact Logic.I).
  destruct (run_content_total z C e alloc _ _ f (feed d s) c p (le_n _) (le_n _) Hc W I) as (fuel0 & ret & s' & evs & R & _ & C' & I').
  exists fuel0, ret, s', evs. split.
  - intros fuel Hf. unfold ll_decompress. exact (run_more z e alloc _ _ _ _ _ _ Hf R).
  - split; [exact C'|]. split; [|exact I']. exists id. refine (run_user_cb _ _ _ _ _ _ _ _ _ R). exact Hid.
Qed.

Lemma ll_history_returns : forall ops s, ll_safe s -> Forall llop_buf_ok ops ->
  exists fuel0 r, forall fuel, (fuel0 <= fuel)%nat -> run_llops e alloc fuel s ops = Ok r.
Proof.
  induction ops as [|op ops IH]; intros s Hs Ho.
  - exists O. eexists. reflexivity.
  - inversion Ho as [|? ? O1 O2]; subst. destruct op as [f d|b n|i]; cbn [run_llops].
    + destruct (ll_call_returns f d s Hs) as (f1 & r1 & s1 & ev1 & R1 & Hs1).
      destruct (IH s1 Hs1 O2) as (f2 & [[rs s2] ev2] & R2).
      exists (f1 + f2)%nat. eexists. intros fuel Hf. rewrite R1 by lia. cbn [obind]. rewrite R2 by lia. reflexivity.
    + apply IH; [|exact O2]. destruct Hs as ((H1 & H2 & H3) & H4 & H5).
      split; [|split; [exact H4|exact H5]]. split; [exact H1|]. split; [reflexivity|]. cbn.
      destruct O1 as (m & -> & A & B). exists m. split; [reflexivity|]. unfold u32, two32 in *. lia.
    + apply IH; [|exact O2]. destruct Hs as ((H1 & H2 & H3) & H4 & H5).
      split; [|split; [exists i; reflexivity|exact H5]]. split; [discriminate|]. split; assumption.
Qed.

Lemma ll_returns ok id buf size hjunk pjunk s0 ops :
  usable buf size -> ll_create z ok id buf size hjunk pjunk = Some s0 -> Forall llop_buf_ok ops ->
  exists fuel0 r, forall fuel, (fuel0 <= fuel)%nat -> run_llops e alloc fuel s0 ops = Ok r.
Proof.
  intros Hu Hc Ho. destruct (ll_create_inv _ _ _ _ _ _ _ Hc Hu) as ((B & U & Hid & _ & I & _) & E & _).
  apply ll_history_returns; [|exact Ho]. split; [|split; assumption].
  split; [rewrite E; discriminate|]. split; assumption.
Qed.

End LL.
