(** LiveEndless.v: when archiving the output file does not end; a codec that stores every byte. *)
From Verif Require Import Base Format Zlib LLCompress Compress RleZlib ArchiveSpec ArchiveFacts ArchiveEntry ArchiveProps LiveWalk LiveFacts LiveProps.

(** Compressing [DEF_CHUNK_SIZE] bytes of its own earlier output gives at least as many bytes. *)
Definition grows {z} (C : zlib_contract z) : Prop := forall fuel (s : csess z) i a chunk b r s' evs,
  zc_dinv C (cs_z s) i (a ++ chunk ++ b) -> cs_null s = false -> cs_bufsz s = DEF_CHUNK_SIZE -> lenN chunk = DEF_CHUNK_SIZE ->
  compress_call fuel s chunk = Ok (r, s', evs) -> DEF_CHUNK_SIZE <= lenN (cev_bytes evs).

(** At most [B] bytes are in the buffer of fpOut. *)
Definition lags (fl : list cev -> N) (B : N) : Prop := forall evs, lenN (cev_bytes evs) <= fl evs + B.

Section Endless.
Context (z : zlib) {F : Type} (e : endian) (filt : F -> list bytes -> bytes -> skind -> Z * F).
Context (jk : N -> bytes) (hj : N -> N -> bytes) (hjunk : bytes) (al : N -> bool) (fl : list cev -> N).
Context (C : zlib_contract z) (G : grows C) (B : N) (Hfl : lags fl B).
Notation lstate := (@lst z F).

Lemma emit_longer fuel ds (s s' : lstate) : emit fuel ds s = Ok s' -> lenN (cev_bytes (l_evs s)) <= lenN (cev_bytes (l_evs s')) /\ l_w s' = l_w s.
Proof.
  intro H. unfold emit in H. destruct (run_cops fuel (l_cs s) (map CWrite ds)) as [[[rets cs] evs]| |]; try discriminate H.
  cbn [obind] in H. injection H as <-. cbn [l_evs l_w]. rewrite cev_bytes_app, lenN_app. split; [lia|reflexivity].
Qed.

Lemma emit_one_call fuel d (s s' : lstate) : emit fuel [d] s = Ok s' -> exists r cs evs, compress_call fuel (l_cs s) d = Ok (r, cs, evs) /\ l_evs s' = l_evs s ++ evs.
Proof.
  unfold emit. cbn [map run_cops]. destruct (compress_call fuel (l_cs s) d) as [[[r cs] evs]| |]; intro H; try discriminate H. cbn [obind] in H.
  injection H as <-. cbn [l_evs]. rewrite app_nil_r. exists r, cs, evs. split; reflexivity.
Qed.

Lemma read_own_endless fuel : forall rf got (s : lstate) r, good z C s -> lenN got + DEF_CHUNK_SIZE + B <= lenN (cev_bytes (l_evs s)) ->
  read_own fl rf fuel got s <> Ok r.
Proof.
  induction rf as [|rf IH]; intros got s r Gs L H; [discriminate H|]. cbn [read_own] in H.
  set (d := on_disk fl s) in *. set (chunk := takeN DEF_CHUNK_SIZE (dropN (lenN got) d)) in *.
  assert (Ld : lenN got + DEF_CHUNK_SIZE <= lenN d).
  { unfold d, on_disk. rewrite lenN_takeN. specialize (Hfl (l_evs s)). lia. }
  assert (Lc : lenN chunk = DEF_CHUNK_SIZE) by (unfold chunk; rewrite lenN_takeN, lenN_dropN; lia).
  destruct (emit fuel [chunk] s) as [s1| |] eqn:E; try discriminate H. cbn [obind] in H. rewrite Lc, N.ltb_irrefl in H.
  assert (G1 : good z C s1) by (refine (emit_good z C _ _ _ _ _ Gs E); apply chunk_small).
  revert H. apply IH; [exact G1|].
  destruct (emit_one_call _ _ _ _ E) as (ret & cs & evs & Ec & ->). destruct Gs as (i & I & Nn & Bz).
  assert (Sp : cev_bytes (l_evs s) = takeN (lenN got) d ++ chunk ++ (dropN DEF_CHUNK_SIZE (dropN (lenN got) d) ++ dropN (fl (l_evs s)) (cev_bytes (l_evs s)))).
  { rewrite (app_assoc chunk). unfold chunk. rewrite takeN_dropN, app_assoc, takeN_dropN. unfold d, on_disk. now rewrite takeN_dropN. }
  rewrite Sp in I. pose proof (G _ _ _ _ _ _ _ _ _ I Nn Bz Lc Ec). rewrite cev_bytes_app, !lenN_app. lia.
Qed.

Context (Hjk : forall n, lenN (jk n) = 40) (Hhj : forall n k, lenN (hj n k) = k).

Definition plainly (es : list (bytes * snode)) : list (bytes * lnode) := map (fun x => (fst x, LNode (snd x))) es.

Lemma node_good rf fuel dir name x (s s' : lstate) ret : fits name x -> good z C s -> live_node e filt jk hj fl rf fuel dir name (LNode x) s = Ok (ret, s') ->
  good z C s' /\ (ret = DIRITER_EXIT_ALL -> tend_of (l_w s') <> Done).
Proof.
  intros Ft Gs H. cbn [live_node] in H. destruct (walk_node e filt jk hj dir name x (l_w s)) as [[ret0 w] evs] eqn:Ew.
  assert (Sm : small_writes (datas evs) /\ (ret0 = DIRITER_EXIT_ALL -> tend_of w <> Done)).
  { destruct (w_dead (l_w s) || w_err (l_w s) || w_exit (l_w s)) eqn:E1.
    - assert (T : tend_of (l_w s) <> Done) by (unfold tend_of; destruct (w_dead (l_w s)), (w_err (l_w s)), (w_exit (l_w s)); discriminate).
      rewrite walk_flagged in Ew by assumption. injection Ew as <- <- <-. split; [constructor|]. intros _. exact T.
    - assert (D : tend_of (l_w s) = Done) by (unfold tend_of; destruct (w_dead (l_w s)), (w_err (l_w s)), (w_exit (l_w s)); (reflexivity || discriminate E1)).
      destruct (walk_node_ok e filt jk hj Hjk Hhj _ _ _ _ _ _ _ Ft D Ew) as ((recs & _ & Sm & _) & Ex). split; assumption. }
  destruct Sm as [Sm Ex]. rewrite wdatas in H.
  destruct (emit fuel (datas evs) s) as [s1| |] eqn:E; try discriminate H. cbn [obind] in H. injection H as <- <-.
  split; [exact (emit_good z C _ _ _ _ Sm Gs E)|exact Ex].
Qed.

Lemma iter_before rf fuel dir es post : Forall (fun x => fits (fst x) (snd x)) es -> forall (s s' : lstate), good z C s ->
  live_iter (live_node e filt jk hj fl rf fuel dir) (plainly es ++ post) s = Ok s' ->
  exists s1, live_iter (live_node e filt jk hj fl rf fuel dir) (plainly es) s = Ok s1 /\ good z C s1 /\
    (tend_of (l_w s1) = Done -> live_iter (live_node e filt jk hj fl rf fuel dir) post s1 = Ok s').
Proof.
  induction 1 as [|[n x] es Fx Fes IH]; intros s s' Gs H.
  - exists s. split; [reflexivity|]. split; [exact Gs|]. intros _. exact H.
  - cbn [plainly map app fst snd] in *. cbn [live_iter] in H |- *.
    destruct (live_node e filt jk hj fl rf fuel dir n (LNode x) s) as [[ret s1]| |] eqn:E; try discriminate H. cbn [obind] in H |- *.
    destruct (node_good _ _ _ _ _ _ _ _ Fx Gs E) as [G1 Ex]. destruct (ret =? DIRITER_EXIT_ALL)%Z eqn:Er.
    + exists s1. split; [reflexivity|]. split; [exact G1|]. intro D. apply Z.eqb_eq in Er. destruct (Ex Er D).
    + exact (IH _ _ G1 H).
Qed.

(** If more than a chunk of the output is in the file when its turn comes, the run does not end. *)
Lemma live_endless rf fuel level clbk es n m rest f0 : lenN hjunk = 128 -> accepts filt -> Forall (fun x => fits (fst x) (snd x)) es ->
  lenN n + 8 < two32 -> is_dot n = false -> al 1 = true -> al 2 = true ->
  (forall r cevs ws log, live_compress z e filt jk hj hjunk al fl rf fuel level clbk (plainly es) f0 = Ok (r, cevs, ws, log) ->
    tend_of ws = Done /\ DEF_CHUNK_SIZE + B <= lenN (cev_bytes cevs)) ->
  forall r, live_compress z e filt jk hj hjunk al fl rf fuel level clbk (plainly es ++ (n, LOut m) :: rest) f0 <> Ok r.
Proof.
  intros J Ha Fes Fn Dn A1 A2 Hyp r H. unfold live_compress in *. rewrite A1, A2 in *. cbn [negb orb] in *.
  destruct (create_csession z fuel e (al 3) ContentDirectory level clbk false DEF_CHUNK_SIZE hjunk) as [[[cs|] ev0]| |] eqn:Ec; try discriminate H; cbn [obind] in *.
  2:{ assert (D : al 3 = true -> lenN (cev_bytes ev0) < DEF_CHUNK_SIZE).
      { intro A3. rewrite A3 in Ec. pose proof (create_csession_spec _ C _ _ _ _ _ _ _ _ _ _ Ec J) as [[_ ->]|[[E0 _]|E0]]; [reflexivity|discriminate E0|discriminate E0]. }
      destruct (Hyp _ _ _ _ eq_refl) as [_ L]. destruct (al 3); [specialize (D eq_refl); lia|].
      injection Ec as <-. change (lenN (cev_bytes [])) with 0 in L. assert (0 < DEF_CHUNK_SIZE) by reflexivity. lia. }
  assert (A3 : al 3 = true) by (destruct (al 3); [reflexivity|discriminate Ec]). rewrite A3 in Ec.
  assert (G0 : good z C (LS (WS false false false f0 0) cs ev0 (@nil (N * bytes)))).
  { pose proof (create_csession_spec _ C _ _ _ _ _ _ _ _ _ _ Ec J) as [_ H0].
    destruct (H0 eq_refl) as (I & N0 & B0 & _). exists (header_image e ContentDirectory hjunk). cbn [l_cs l_evs]. split; [exact I|]. split; [exact N0|exact B0]. }
  destruct (live_iter (live_node e filt jk hj fl rf fuel []) (plainly es ++ (n, LOut m) :: rest) (LS (WS false false false f0 0) cs ev0 [])) as [s2| |] eqn:E2; try discriminate H.
  destruct (iter_before _ _ _ _ _ Fes _ _ G0 E2) as (s1 & E1 & G1 & K). rewrite E1 in Hyp. cbn [obind] in Hyp.
  destruct (Hyp _ _ _ _ eq_refl) as [D L]. specialize (K D). clear H E2 Hyp. cbn [live_iter live_node lkind] in K.
  pose proof (proj2 (clean_done (l_w s1)) D) as (D1 & D2 & D3). rewrite D1, D2, D3, Dn in K. cbn [orb] in K.
  specialize (Ha (w_f (l_w s1)) [] n KFile). destruct (filt (w_f (l_w s1)) [] n KFile) as [a f]. cbn [fst] in Ha. subst a.
  change (0 =? DIRITER_EXIT_ALL)%Z with false in K. change (negb (0 =? 0)%Z) with false in K. cbn iota in K.
  set (size := lenN (on_disk fl s1)) in *.
  destruct (emit fuel (file_item e (u32 (lenN n)) m size (jk (w_n (w_setf f (l_w s1)))) :: name_writes n) (l_set (w_next (w_setf f (l_w s1))) s1)) as [s3| |] eqn:E3;
    try discriminate K. cbn [obind] in K.
  destruct (name_writes_padded n Fn) as [_ P2].
  assert (G3 : good z C s3).
  { refine (emit_good z C _ _ (l_set (w_next (w_setf f (l_w s1))) s1) _ _ G1 E3). constructor; [|exact P2]. rewrite lenN_file_item by apply Hjk. unfold two32. lia. }
  destruct (emit_longer _ _ _ _ E3) as [L3 _]. cbn [l_set l_evs] in L3.
  destruct (read_own fl rf fuel [] s3) as [[got s4]| |] eqn:E4; try discriminate K.
  apply (read_own_endless fuel rf [] s3 _ G3) in E4; [exact E4|]. change (lenN []) with 0. lia.
Qed.
End Endless.

(** ** A codec that stores every byte: the pair (1, byte) of RleZlib.v *)
Fixpoint sto_enc (l : bytes) : bytes := match l with [] => [] | b :: r => x01 :: b :: sto_enc r end.
Definition sto_deflate (q : bytes) (f : Z) (inp : bytes) (room : N) : zres bytes :=
  if room =? 0 then ZR Z_BUF_ERROR 0 [] q
  else let q' := q ++ sto_enc inp in ZR Z_OK (lenN inp) (takeN room q') (dropN room q').
Definition sto_zlib : zlib := {|
  dst := bytes; ist := rist;
  deflateInit := fun l => if ((-1 <=? l) && (l <=? 9))%Z then Some [] else None;
  deflate := sto_deflate; inflateInit := Some (RIST r0 []); inflate := rle_inflate |}.

Lemma sto_enc_wf l : wf_pairs (sto_enc l).
Proof. induction l as [|b l IH]; cbn [sto_enc wf_pairs]; [exact I|]. split; [reflexivity|exact IH]. Qed.
Lemma sto_dec_enc l : snd (rrun r0 (sto_enc l)) = l.
Proof. induction l as [|b l IH]; cbn [sto_enc]; [reflexivity|]. rewrite rrun_pair by reflexivity. cbn [snd]. now rewrite IH. Qed.
Lemma lenN_sto_enc l : lenN (sto_enc l) = 2 * lenN l.
Proof. induction l as [|b l IH]; [reflexivity|]. cbn [sto_enc]. rewrite !lenN_cons, IH. lia. Qed.

Definition sto_contract : zlib_contract sto_zlib.
Proof.
  refine {|
    zc_dec := rle_dec; zc_bad := rle_bad; zc_fin := rle_fin;
    zc_dinv := rle_dinv : dst sto_zlib -> bytes -> bytes -> Prop;
    zc_iinv := rle_iinv : ist sto_zlib -> bytes -> bytes -> Prop;
    zc_dpend := (fun _ => 0%nat) : dst sto_zlib -> nat;
    zc_ipend := (fun s => length (ri_pend s)) : ist sto_zlib -> nat;
    zc_stuck := rle_stuck : ist sto_zlib -> Prop
  |}.
  1-5: (reflexivity || apply rle_dec_mono || apply rle_bad_mono || apply rle_fin_mono || apply rle_fin_dec).
  - cbn. intros l H. destruct ((-1 <=? l) && (l <=? 9))%Z eqn:E; [lia|reflexivity].
  - cbn. intros l d H. destruct ((-1 <=? l) && (l <=? 9))%Z; [|discriminate].
    injection H as <-. split; reflexivity.
  - cbn. intros d i o inp room r [H1 H2] <-. unfold sto_deflate.
    destruct (N.eqb_spec room 0) as [->|Hr]; cbn.
    + rewrite takeN_0, !app_nil_r. repeat split; auto; lia.
    + rewrite lenN_takeN, (takeN_all _ (lenN inp)) by lia.
      split; [lia|]. split; [lia|].
      split.
      * rewrite <- app_assoc, takeN_dropN, app_assoc, rrun_app. cbn. rewrite H1.
        apply wf_pairs_run, sto_enc_wf.
      * rewrite <- app_assoc, takeN_dropN, app_assoc, rrun_app. cbn. rewrite H1, H2.
        now rewrite sto_dec_enc.
  - cbn. intros d i o inp H Hi. reflexivity.
  - cbn. intros d i o inp room r H Hi Hr <-. unfold sto_deflate.
    destruct (N.eqb_spec room 0); [lia|]. cbn. split; [reflexivity|]. left.
    destruct inp; [congruence|rewrite lenN_cons; lia].
  - exact (zc_dvalid _ rle_contract).
  - cbn. intros d i o inp room r [H1 H2] Hi <-. unfold sto_deflate.
    destruct (N.eqb_spec room 0) as [->|Hr]; cbn; [lia|].
    rewrite lenN_takeN. intro Hl. split; [reflexivity|].
    rewrite takeN_all by lia. unfold rle_dec.
    rewrite app_assoc, rrun_app. cbn. rewrite H1, H2. now rewrite sto_dec_enc.
  - exact (zc_iinit _ rle_contract).
  - exact (zc_istep _ rle_contract).
  - exact (zc_iprefix _ rle_contract).
  - exact (zc_icomplete _ rle_contract).
  - exact (zc_iprogress _ rle_contract).
  - exact (zc_ivalid _ rle_contract).
  - exact (zc_iend _ rle_contract).
  - exact (zc_istop _ rle_contract).
  - exact (zc_istuck _ rle_contract).
  - exact (zc_ifinish _ rle_contract).
Defined.
