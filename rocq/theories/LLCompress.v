(** LLCompress.v: model of src/core/zlibwt_ll_compression_routines.c. *)
From Verif Require Import Base Format Zlib.

Section LLCompress.
Context (z : zlib).

(** struct ZlibWtCompressSession (zlibwt_ll_compression_routines.c:21-28).
    [cs_null]: bufferForCompressedData is NULL; [cs_bufsz]: sizeForBufferForCompressedData;
    [cs_clbk]: identifies the pair (clbk, userData) set last.
    z_str.next_in/avail_in are the argument of the loop below, next_out/avail_out are reset
    before every use. *)
Record csess : Type := CS {
  cs_z : dst z;
  cs_null : bool;
  cs_bufsz : N;
  cs_clbk : N
}.

(** One invocation of the user's callback: which callback, the size of the output buffer at that
    time, the bytes passed. *)
Record cev : Type := CEV { ce_clbk : N; ce_room : N; ce_data : bytes }.

(** while loop of ZlibWtCompressBufferToCallback, zlibwt_ll_compression_routines.c:95-105.
    deflate returns Z_STREAM_ERROR for a NULL next_out (zlib.h). *)
Fixpoint compress_loop (fuel : nat) (s : csess) (inp : bytes) : outcome (Z * csess * list cev) :=
  match inp with
  | [] => Ok (0%Z, s, [])
  | _ :: _ =>
    match fuel with
    | O => NoFuel
    | S fuel' =>
      if cs_null s then Ok (Z_STREAM_ERROR, s, [])
      else
        let r := deflate z (cs_z s) Z_PARTIAL_FLUSH inp (cs_bufsz s) in
        let s1 := CS (zr_st r) (cs_null s) (cs_bufsz s) (cs_clbk s) in
        if (zr_ret r =? Z_STREAM_ERROR)%Z then Ok (Z_STREAM_ERROR, s1, [])
        else
          do (ret, s2, evs) <- compress_loop fuel' s1 (dropN (zr_used r) inp);
          Ok (ret, s2, CEV (cs_clbk s) (cs_bufsz s) (zr_out r) :: evs)
    end
  end.

(** ZlibWtCompressBufferToCallback, zlibwt_ll_compression_routines.c:81-108: avail_in is the
    length cast to uInt (line 93); a_flush is ignored (line 90). *)
Definition compress_call (fuel : nat) (s : csess) (data : bytes) : outcome (Z * csess * list cev) :=
  compress_loop fuel s (takeN (u32 (lenN data)) data).

(** ZlibWtSetBufferForCompressSession, zlibwt_ll_compression_routines.c:111-118. *)
Definition set_cbuffer (s : csess) (null : bool) (size : N) : csess :=
  CS (cs_z s) null (u32 size) (cs_clbk s).

(** ZlibWtSetCallbackForCompressSession, zlibwt_ll_compression_routines.c:121-128. *)
Definition set_ccallback (s : csess) (id : N) : csess :=
  CS (cs_z s) (cs_null s) (cs_bufsz s) id.

(** ZlibWtCreateTypedCompressSession, zlibwt_ll_compression_routines.c:32-67.  [junk]: the 128
    uninitialised bytes of aHeader.  [None]: NULL is returned.  [alloc]: malloc succeeded.
    ZlibWtDestroyCompressSession (70-78) only frees: it produces no output. *)
Definition create_csession (fuel : nat) (e : endian) (alloc : bool) (typ : N) (level : Z) (clbk : N)
    (null : bool) (size : N) (junk : bytes) : outcome (option csess * list cev) :=
  if negb alloc then Ok (None, [])
  else
    match deflateInit z level with
    | None => Ok (None, [])
    | Some d =>
      let s := set_cbuffer (set_ccallback (CS d true 0 0) clbk) null size in
      do (ret, s1, evs) <- compress_call fuel s (header_image e typ junk);
      if (ret =? 0)%Z then Ok (Some s1, evs) else Ok (None, evs)
    end.

(** A history of calls on one session. *)
Inductive cop : Type :=
| CWrite (data : bytes)
| CSetBuffer (null : bool) (size : N)
| CSetCallback (id : N).

(** The caller issues the calls whatever the earlier ones returned. *)
Fixpoint run_cops (fuel : nat) (s : csess) (ops : list cop) : outcome (list Z * csess * list cev) :=
  match ops with
  | [] => Ok ([], s, [])
  | CWrite d :: ops' =>
    do (ret, s1, ev1) <- compress_call fuel s d;
    do (rets, s2, ev2) <- run_cops fuel s1 ops';
    Ok (ret :: rets, s2, ev1 ++ ev2)
  | CSetBuffer n sz :: ops' => run_cops fuel (set_cbuffer s n sz) ops'
  | CSetCallback i :: ops' => run_cops fuel (set_ccallback s i) ops'
  end.

(** ** Specification vocabulary *)

Definition cev_bytes (evs : list cev) : bytes := concat (map ce_data evs).

(** All bytes the caller passed in. *)
Fixpoint ops_bytes (ops : list cop) : bytes :=
  match ops with
  | [] => []
  | CWrite d :: r => d ++ ops_bytes r
  | _ :: r => ops_bytes r
  end.

(** Buffers are usable (not NULL, at least one byte after the cast to uInt). *)
Definition cop_ok (o : cop) : Prop :=
  match o with
  | CWrite d => lenN d < two32
  | CSetBuffer null size => null = false /\ 0 < u32 size
  | CSetCallback _ => True
  end.

(** The last callback invocation received fewer bytes than the output buffer can hold. *)
Definition last_not_full (evs : list cev) : Prop :=
  forall evs' e, evs = evs' ++ [e] -> lenN (ce_data e) < ce_room e.

(** ** Lemmas *)

Lemma cev_bytes_app a b : cev_bytes (a ++ b) = cev_bytes a ++ cev_bytes b.
Proof. unfold cev_bytes. now rewrite map_app, concat_app. Qed.
Lemma cev_bytes_cons e b : cev_bytes (e :: b) = ce_data e ++ cev_bytes b.
Proof. reflexivity. Qed.

Lemma compress_loop_more fuel : forall fuel' s inp r,
  (fuel <= fuel')%nat -> compress_loop fuel s inp = Ok r -> compress_loop fuel' s inp = Ok r.
Proof.
  induction fuel as [|fuel IH]; intros fuel' s inp r Hle H; destruct inp as [|b t];
    try (destruct fuel'; exact H); [discriminate H|].
  destruct fuel' as [|fuel']; [lia|]. cbn [compress_loop] in *.
  destruct (cs_null s); [exact H|].
  destruct (zr_ret _ =? _)%Z; [exact H|].
  destruct (compress_loop fuel _ _) as [[[ret s2] evs]| |] eqn:E; try discriminate H.
  rewrite (IH fuel' _ _ _ ltac:(lia) E). exact H.
Qed.

Lemma compress_loop_no_ub fuel : forall s inp, compress_loop fuel s inp <> UB.
Proof.
  induction fuel as [|fuel IH]; intros s inp; destruct inp as [|b t]; cbn; try discriminate.
  destruct (cs_null s); [discriminate|].
  destruct (zr_ret _ =? _)%Z; [discriminate|].
  destruct (compress_loop fuel _ _) as [[[ret s2] evs]| |] eqn:E; cbn; try discriminate.
  intros _. exact (IH _ _ E).
Qed.

Section WithContract.
Context (C : zlib_contract z).

(** Main invariant of the loop. *)
Lemma compress_loop_spec fuel : forall s inp i o ret s' evs,
  compress_loop fuel s inp = Ok (ret, s', evs) ->
  zc_dinv C (cs_z s) i o -> cs_null s = false -> 0 < cs_bufsz s ->
  ret = 0%Z /\
  zc_dinv C (cs_z s') (i ++ inp) (o ++ cev_bytes evs) /\
  cs_null s' = false /\ cs_bufsz s' = cs_bufsz s /\ cs_clbk s' = cs_clbk s /\
  (forall e, In e evs -> ce_clbk e = cs_clbk s /\ ce_room e = cs_bufsz s /\
                         lenN (ce_data e) <= cs_bufsz s) /\
  (inp <> [] -> evs <> []) /\ (inp = [] -> evs = []) /\
  (inp <> [] -> last_not_full evs -> zc_dec C (o ++ cev_bytes evs) = i ++ inp).
Proof.
  induction fuel as [|fuel IH]; intros s inp i o ret s' evs H I Hn Hb;
    destruct inp as [|b t].
  - cbn in H. injection H as <- <- <-. cbn. rewrite !app_nil_r.
    repeat split; auto; try congruence; try easy.
  - discriminate H.
  - cbn in H. injection H as <- <- <-. cbn. rewrite !app_nil_r.
    repeat split; auto; try congruence; try easy.
  - remember (b :: t) as inp eqn:Hinp.
    assert (Hne : inp <> []) by (subst; discriminate).
    assert (H' : compress_loop (S fuel) s inp =
        if cs_null s then Ok (Z_STREAM_ERROR, s, [])
        else
        let r := deflate z (cs_z s) Z_PARTIAL_FLUSH inp (cs_bufsz s) in
        let s1 := CS (zr_st r) (cs_null s) (cs_bufsz s) (cs_clbk s) in
        if (zr_ret r =? Z_STREAM_ERROR)%Z then Ok (Z_STREAM_ERROR, s1, [])
        else
          do (ret, s2, evs) <- compress_loop fuel s1 (dropN (zr_used r) inp);
          Ok (ret, s2, CEV (cs_clbk s) (cs_bufsz s) (zr_out r) :: evs)) by (subst inp; reflexivity).
    rewrite H' in H; clear H'. rewrite Hn in H. cbn zeta in H.
    set (r := deflate z (cs_z s) Z_PARTIAL_FLUSH inp (cs_bufsz s)) in *.
    destruct (zc_dstep _ C _ _ _ _ _ r I eq_refl) as (B1 & B2 & B3).
    destruct (zc_dprogress _ C _ _ _ _ _ r I Hne Hb eq_refl) as [Hok _].
    rewrite Hok in H. change (Z_OK =? Z_STREAM_ERROR)%Z with false in H. cbv iota in H.
    destruct (compress_loop fuel _ _) as [[[ret1 s2] ev2]| |] eqn:E; try discriminate H.
    cbn [obind] in H. injection H as <- <- <-.
    specialize (IH _ _ _ _ _ _ _ E B3 eq_refl Hb).
    cbn [cs_z cs_null cs_bufsz cs_clbk] in IH.
    destruct IH as (R & I' & N' & Bs & Cb & Ev & Ne & Em & Fl).
    rewrite cev_bytes_cons. cbn [ce_data].
    assert (Hi : (i ++ takeN (zr_used r) inp) ++ dropN (zr_used r) inp = i ++ inp).
    { now rewrite <- app_assoc, takeN_dropN. }
    rewrite Hi in I', Fl. rewrite <- app_assoc in I', Fl.
    split; [exact R|]. split; [exact I'|]. split; [exact N'|]. split; [exact Bs|].
    split; [exact Cb|].
    split. { intros e [<-|He]; [cbn; auto|apply Ev; exact He]. }
    split; [discriminate|]. split; [intro; congruence|].
    intros _ L.
    destruct (dropN (zr_used r) inp) as [|b' t'] eqn:Ed.
    + specialize (Em eq_refl). subst ev2. cbn [cev_bytes map concat]. rewrite app_nil_r.
      assert (Hl : lenN (zr_out r) < cs_bufsz s).
      { exact (L [] (CEV (cs_clbk s) (cs_bufsz s) (zr_out r)) eq_refl). }
      destruct (zc_dflush _ C _ _ _ _ _ r I Hne eq_refl Hl) as [_ Hd]. exact Hd.
    + apply Fl; [discriminate|].
      intros evs' e He. subst ev2. apply (L (CEV (cs_clbk s) (cs_bufsz s) (zr_out r) :: evs') e). reflexivity.
Qed.

(** The loop terminates. *)
Lemma compress_loop_terminates_aux : forall n m s inp i o,
  (length inp <= n)%nat -> (zc_dpend C (cs_z s) <= m)%nat ->
  zc_dinv C (cs_z s) i o -> cs_null s = false -> 0 < cs_bufsz s ->
  exists fuel r, compress_loop fuel s inp = Ok r.
Proof.
  induction n as [|n IHn].
  - intros m s inp i o Hl _ _ _ _. destruct inp; [|cbn in Hl; lia]. exists O. eexists. reflexivity.
  - induction m as [m IHm] using (well_founded_induction lt_wf).
    intros s inp i o Hl Hp I Hn Hb.
    destruct inp as [|b t]; [exists O; eexists; reflexivity|].
    remember (b :: t) as inp eqn:Hinp.
    assert (Hne : inp <> []) by (subst; discriminate).
    set (r := deflate z (cs_z s) Z_PARTIAL_FLUSH inp (cs_bufsz s)).
    destruct (zc_dstep _ C _ _ _ _ _ r I eq_refl) as (B1 & B2 & B3).
    destruct (zc_dprogress _ C _ _ _ _ _ r I Hne Hb eq_refl) as [Hok Hprog].
    assert (X : exists fuel r', compress_loop fuel (CS (zr_st r) false (cs_bufsz s) (cs_clbk s))
                     (dropN (zr_used r) inp) = Ok r').
    { assert (Hld : lenN (dropN (zr_used r) inp) = lenN inp - zr_used r) by apply lenN_dropN.
      unfold lenN in *.
      destruct Hprog as [Hu|Hd].
      - eapply IHn with (m := zc_dpend C (zr_st r)); cbn; eauto; lia.
      - destruct (N.eq_dec (zr_used r) 0) as [Hz|Hz].
        + eapply (IHm (zc_dpend C (zr_st r))); cbn; eauto; lia.
        + eapply IHn with (m := zc_dpend C (zr_st r)); cbn; eauto; lia. }
    destruct X as (fuel & [[ret s2] evs] & X).
    exists (S fuel). eexists.
    rewrite Hinp. cbn [compress_loop]. rewrite <- Hinp. rewrite Hn. fold r. rewrite Hok. change (Z_OK =? Z_STREAM_ERROR)%Z with false. cbv iota.
    rewrite X. reflexivity.
Qed.

Lemma compress_loop_terminates s inp i o :
  zc_dinv C (cs_z s) i o -> cs_null s = false -> 0 < cs_bufsz s ->
  exists fuel s' evs, compress_loop fuel s inp = Ok (0%Z, s', evs).
Proof.
  intros I Hn Hb.
  destruct (compress_loop_terminates_aux _ _ s inp i o (le_n _) (le_n _) I Hn Hb)
    as (fuel & [[ret s'] evs] & H).
  exists fuel, s', evs. rewrite H.
  destruct (compress_loop_spec _ _ _ _ _ _ _ _ H I Hn Hb) as [-> _]. reflexivity.
Qed.

Lemma u32_small n : n < two32 -> u32 n = n.
Proof. apply N.mod_small. Qed.

Lemma compress_call_spec fuel s data i o ret s' evs :
  compress_call fuel s data = Ok (ret, s', evs) -> lenN data < two32 ->
  zc_dinv C (cs_z s) i o -> cs_null s = false -> 0 < cs_bufsz s ->
  ret = 0%Z /\
  zc_dinv C (cs_z s') (i ++ data) (o ++ cev_bytes evs) /\
  cs_null s' = false /\ cs_bufsz s' = cs_bufsz s /\ cs_clbk s' = cs_clbk s /\
  (forall e, In e evs -> ce_clbk e = cs_clbk s /\ ce_room e = cs_bufsz s /\
                         lenN (ce_data e) <= cs_bufsz s) /\
  (data <> [] -> evs <> []) /\ (data = [] -> evs = []) /\
  (data <> [] -> last_not_full evs -> zc_dec C (o ++ cev_bytes evs) = i ++ data).
Proof.
  unfold compress_call. intros H Hl. rewrite u32_small, takeN_all in H by lia.
  now apply compress_loop_spec with (1 := H).
Qed.

Lemma last_not_full_app a b : b <> [] -> last_not_full (a ++ b) -> last_not_full b.
Proof.
  intros Hb L evs' e ->. apply (L (a ++ evs') e). now rewrite app_assoc.
Qed.

(** Histories. *)
Lemma run_cops_spec fuel : forall ops s i o rets s' evs,
  run_cops fuel s ops = Ok (rets, s', evs) -> Forall cop_ok ops ->
  zc_dinv C (cs_z s) i o -> cs_null s = false -> 0 < cs_bufsz s ->
  Forall (fun r => r = 0%Z) rets /\
  zc_dinv C (cs_z s') (i ++ ops_bytes ops) (o ++ cev_bytes evs) /\
  cs_null s' = false /\ 0 < cs_bufsz s' /\
  (ops_bytes ops <> [] -> evs <> []) /\ (ops_bytes ops = [] -> evs = []) /\
  (ops_bytes ops <> [] -> last_not_full evs ->
   zc_dec C (o ++ cev_bytes evs) = i ++ ops_bytes ops).
Proof.
  induction ops as [|op ops IH]; intros s i o rets s' evs H F I Hn Hb; cbn [run_cops ops_bytes] in *.
  - injection H as <- <- <-. cbn. rewrite !app_nil_r. repeat split; auto; congruence.
  - inversion F as [|x y F1 F2]; subst.
    destruct op as [d|null sz|id].
    + destruct (compress_call fuel s d) as [[[ret s1] ev1]| |] eqn:E; try discriminate H.
      cbn [obind] in H.
      destruct (run_cops fuel s1 ops) as [[[rets2 s2] ev2]| |] eqn:E2; try discriminate H.
      cbn [obind] in H. injection H as <- <- <-.
      destruct (compress_call_spec _ _ _ _ _ _ _ _ E F1 I Hn Hb)
        as (R & I1 & N1 & B1 & C1 & Ev & Ne & Em & Fl).
      rewrite <- B1 in Hb.
      destruct (IH _ _ _ _ _ _ E2 F2 I1 N1 Hb) as (R2 & I2 & N2 & B2 & Ne2 & Em2 & Fl2).
      rewrite cev_bytes_app, !app_assoc in *.
      rewrite <- !app_assoc in I2, Fl2. rewrite <- !app_assoc.
      repeat split; auto.
      * intro Hd. destruct d as [|x d]; cbn in Hd.
        -- specialize (Ne2 Hd). destruct ev1; cbn; congruence.
        -- specialize (Ne ltac:(discriminate)). destruct ev1; cbn; congruence.
      * intro Hd. apply app_eq_nil in Hd as [-> Hd].
        now rewrite Em, Em2.
      * intros Hd L.
        destruct (ops_bytes ops) as [|y q] eqn:Eq.
        -- rewrite Em2 in * by reflexivity. rewrite app_nil_r in *. cbn [cev_bytes map concat] in *.
           rewrite app_nil_r. apply Fl; assumption.
        -- apply Fl2; [discriminate|]. eapply last_not_full_app; [|exact L]. apply Ne2. discriminate.
    + destruct F1 as [-> F1].
      apply (IH _ _ _ _ _ _ H F2); cbn; auto.
    + apply (IH _ _ _ _ _ _ H F2); cbn; auto.
Qed.

Lemma run_cops_terminates : forall ops s i o,
  Forall cop_ok ops ->
  zc_dinv C (cs_z s) i o -> cs_null s = false -> 0 < cs_bufsz s ->
  exists fuel r, run_cops fuel s ops = Ok r.
Proof.
  induction ops as [|op ops IH]; intros s i o F I Hn Hb.
  - exists O. eexists. reflexivity.
  - inversion F as [|x y F1 F2]; subst.
    destruct op as [d|null sz|id].
    + change (lenN d < two32) in F1. destruct (compress_loop_terminates s d i o I Hn Hb) as (f1 & s1 & ev1 & H1).
      assert (H1' : compress_call f1 s d = Ok (0%Z, s1, ev1)).
      { unfold compress_call. now rewrite u32_small, takeN_all by lia. }
      destruct (compress_call_spec _ _ _ _ _ _ _ _ H1' F1 I Hn Hb)
        as (_ & I1 & N1 & B1 & _).
      rewrite <- B1 in Hb.
      destruct (IH _ _ _ F2 I1 N1 Hb) as (f2 & [[rets s2] ev2] & H2).
      exists (Nat.max f1 f2). eexists. cbn [run_cops].
      unfold compress_call in *.
      rewrite (compress_loop_more f1 (Nat.max f1 f2) _ _ _ ltac:(lia) H1'). cbn [obind].
      assert (M : forall ops fuel fuel' s r, (fuel <= fuel')%nat ->
                 run_cops fuel s ops = Ok r -> run_cops fuel' s ops = Ok r).
      { clear. induction ops as [|op ops IH]; intros fuel fuel' s r Hle H; cbn [run_cops] in *; [exact H|].
        destruct op as [d|null sz|id]; [|eapply IH; eauto|eapply IH; eauto].
        unfold compress_call in *.
        destruct (compress_loop fuel s _) as [[[ret s1] ev1]| |] eqn:E; try discriminate H.
        rewrite (compress_loop_more _ fuel' _ _ _ Hle E). cbn [obind] in *.
        destruct (run_cops fuel s1 ops) as [[[rets2 s2] ev2]| |] eqn:E2; try discriminate H.
        rewrite (IH _ _ _ _ Hle E2). exact H. }
      rewrite (M _ f2 (Nat.max f1 f2) _ _ ltac:(lia) H2). reflexivity.
    + destruct F1 as [-> F1]. destruct (IH (set_cbuffer s false sz) i o F2 I eq_refl F1) as (f & r & H).
      exists f, r. exact H.
    + destruct (IH (set_ccallback s id) i o F2 I Hn Hb) as (f & r & H).
      exists f, r. exact H.
Qed.

(** Creation. *)
Lemma lenN_header_image e typ junk : lenN junk = 128 -> lenN (header_image e typ junk) = 128.
Proof. intro H. unfold header_image. rewrite !lenN_put; rewrite ?lenN_put; cbn; lia. Qed.

Lemma create_csession_spec fuel e typ level clbk null size junk os evs :
  create_csession fuel e true typ level clbk null size junk = Ok (os, evs) ->
  lenN junk = 128 ->
  match os with
  | None => deflateInit z level = None /\ evs = [] \/ null = true /\ evs = [] 
            \/ u32 size = 0
  | Some s =>
    null = false /\ (0 < u32 size ->
    zc_dinv C (cs_z s) (header_image e typ junk) (cev_bytes evs) /\
    cs_null s = false /\ cs_bufsz s = u32 size /\ cs_clbk s = clbk /\ evs <> [] /\
    (forall e, In e evs -> ce_clbk e = clbk /\ ce_room e = u32 size /\
                         lenN (ce_data e) <= u32 size) /\
    (last_not_full evs -> zc_dec C (cev_bytes evs) = header_image e typ junk))
  end.
Proof.
  intros H Hj. unfold create_csession in H. cbn [negb] in H. cbv iota in H.
  pose proof (lenN_header_image e typ junk Hj) as Hh.
  destruct (deflateInit z level) as [d|] eqn:Ed.
  2:{ injection H as <- <-. left; auto. }
  pose proof (zc_dinit _ C _ _ Ed) as I.
  destruct (compress_call fuel _ _) as [[[ret s1] ev1]| |] eqn:E; try discriminate H.
  cbn [obind] in H.
  destruct null.
  - unfold compress_call in E. rewrite u32_small, takeN_all in E by (rewrite ?Hh; unfold two32; lia).
    destruct (header_image e typ junk) as [|b t] eqn:Eh; [cbn in Hh; lia|].
    destruct fuel; cbn in E; [discriminate|]. injection E as <- <- <-. cbn in H.
    injection H as <- <-. right; left; auto.
  - destruct (N.eq_dec (u32 size) 0) as [Hz|Hz].
    + destruct (ret =? 0)%Z.
      * injection H as <- <-. split; [reflexivity|lia].
      * injection H as <- <-. auto.
    + assert (Hpos : 0 < u32 size) by lia.
      assert (Hd : lenN (header_image e typ junk) < two32) by (rewrite Hh; unfold two32; lia).
      destruct (compress_call_spec _ _ _ _ _ _ _ _ E Hd I eq_refl Hpos)
        as (R & I1 & N1 & B1 & C1 & Ev & Ne & Em & Fl).
      cbn in I1, B1, C1, Ev, Fl. subst ret. cbn in H. injection H as <- <-.
      assert (Hne : header_image e typ junk <> []).
      { intro Hc. rewrite Hc in Hh. cbn in Hh. lia. }
      repeat split; auto; apply Ev; auto.
Qed.

Lemma create_csession_terminates e alloc typ level clbk size junk :
  lenN junk = 128 -> 0 < u32 size ->
  exists fuel r, create_csession fuel e alloc typ level clbk false size junk = Ok r.
Proof.
  intros Hj Hs. unfold create_csession. destruct alloc; cbn [negb]; [|exists O; eexists; reflexivity].
  destruct (deflateInit z level) as [d|] eqn:Ed; [|exists O; eexists; reflexivity].
  pose proof (zc_dinit _ C _ _ Ed) as I.
  pose proof (lenN_header_image e typ junk Hj) as Hh.
  destruct (compress_loop_terminates
    (set_cbuffer (set_ccallback (CS d true 0 0) clbk) false size)
    (header_image e typ junk) [] [] I eq_refl Hs) as (f & s' & evs & H).
  exists f. eexists. unfold compress_call. rewrite u32_small, takeN_all by (rewrite ?Hh; unfold two32; lia).
  rewrite H. cbn. reflexivity.
Qed.

End WithContract.
End LLCompress.
Arguments CS {z}. Arguments cs_z {z}. Arguments cs_null {z}. Arguments cs_bufsz {z}. Arguments cs_clbk {z}.
Arguments compress_loop {z}. Arguments compress_call {z}. Arguments set_cbuffer {z}. Arguments set_ccallback {z}.
Arguments run_cops {z}.
