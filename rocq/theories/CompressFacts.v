(** CompressFacts.v: facts about compression sessions in the form used by the property files. *)
From Verif Require Import Base Format Zlib RleZlib LLCompress.

(** ** C01-C03: the format *)

Lemma header_round_trip e e' typ junk : lenN junk = 128 -> typ < two32 ->
  get e' 0 4 (header_image e typ junk) = 0 /\ get e' 4 4 (header_image e typ junk) = typ.
Proof.
  intros Hj Ht. unfold header_image.
  assert (Hu : u32 typ = typ) by (now apply N.mod_small). rewrite Hu.
  assert (L : lenN (put e 0 4 ZLIBWT_VERSION junk) = 128) by (rewrite lenN_put; [assumption|rewrite Hj; cbn; lia]).
  split.
  - rewrite get_put_other; rewrite ?L; try (cbn; lia).
    rewrite get_put_same; [reflexivity|rewrite Hj; cbn; lia|reflexivity].
  - apply get_put_same; [rewrite L; cbn; lia|exact Ht].
Qed.

Lemma padding_writes l pad : l < pad -> pad <= l + 8 -> 1 <= pad - l <= 8.
Proof. lia. Qed.

(** ** Instrumented zlib: the same functions, the state also records every byte deflate produced. *)
Definition log_zlib (z : zlib) : zlib := {|
  dst := dst z * bytes;
  ist := ist z;
  deflateInit := fun l => match deflateInit z l with Some d => Some (d, []) | None => None end;
  deflate := fun d f inp room =>
    let r := deflate z (fst d) f inp room in
    ZR (zr_ret r) (zr_used r) (zr_out r) (zr_st r, snd d ++ zr_out r);
  inflateInit := inflateInit z;
  inflate := inflate z
|}.

Definition log_contract z (C : zlib_contract z) : zlib_contract (log_zlib z).
Proof.
  refine {|
    zc_dec := zc_dec C; zc_bad := zc_bad C; zc_fin := zc_fin C;
    zc_dinv := (fun d i o => zc_dinv C (fst d) i o /\ snd d = o) : dst (log_zlib z) -> bytes -> bytes -> Prop;
    zc_iinv := zc_iinv C : ist (log_zlib z) -> bytes -> bytes -> Prop;
    zc_dpend := (fun d => zc_dpend C (fst d)) : dst (log_zlib z) -> nat;
    zc_ipend := zc_ipend C : ist (log_zlib z) -> nat;
    zc_stuck := zc_stuck C : ist (log_zlib z) -> Prop
  |}; cbn.
  - apply (zc_dec_nil _ C).
  - apply (zc_dec_mono _ C).
  - apply (zc_bad_mono _ C).
  - apply (zc_fin_mono _ C).
  - apply (zc_fin_dec _ C).
  - intros l H. now rewrite (zc_level _ C l H).
  - intros l d H. destruct (deflateInit z l) eqn:E; [|discriminate]. injection H as <-.
    split; [exact (zc_dinit _ C _ _ E)|reflexivity].
  - intros [d l] i o inp room r [H1 H2] <-. cbn in *. subst l.
    destruct (zc_dstep _ C _ _ _ inp room _ H1 eq_refl) as (A & B & D). repeat split; eassumption.
  - intros [d l] i o inp [H1 H2] Hi. cbn in *.
    rewrite (zc_droom0 _ C _ _ _ inp H1 Hi). cbn. now rewrite app_nil_r.
  - intros [d l] i o inp room r [H1 H2] Hi Hr <-. cbn.
    exact (zc_dprogress _ C _ _ _ _ _ _ H1 Hi Hr eq_refl).
  - intros [d l] i o [H1 H2]. exact (zc_dvalid _ C _ _ _ H1).
  - intros [d l] i o inp room r [H1 H2] Hi <-. cbn. exact (zc_dflush _ C _ _ _ _ _ _ H1 Hi eq_refl).
  - apply (zc_iinit _ C).
  - apply (zc_istep _ C).
  - apply (zc_iprefix _ C).
  - apply (zc_icomplete _ C).
  - apply (zc_iprogress _ C).
  - apply (zc_ivalid _ C).
  - apply (zc_iend _ C).
  - apply (zc_istop _ C).
  - apply (zc_istuck _ C).
  - apply (zc_ifinish _ C).
Defined.

(** ** C05 *)
Lemma session_lossless z (C : zlib_contract z) fuel e typ level clbk size junk s0 ev0 ops rets s evs :
  lenN junk = 128 -> 0 < u32 size ->
  create_csession z fuel e true typ level clbk false size junk = Ok (Some s0, ev0) ->
  Forall cop_ok ops -> run_cops fuel s0 ops = Ok (rets, s, evs) ->
  Forall (fun r => r = 0%Z) rets /\
  prefix (zc_dec C (cev_bytes (ev0 ++ evs))) (header_image e typ junk ++ ops_bytes ops) /\
  zc_bad C (cev_bytes (ev0 ++ evs)) = false /\ zc_fin C (cev_bytes (ev0 ++ evs)) = false /\
  (last_not_full (ev0 ++ evs) ->
   zc_dec C (cev_bytes (ev0 ++ evs)) = header_image e typ junk ++ ops_bytes ops).
Proof.
  intros Hj Hs Hc Ho Hr.
  pose proof (create_csession_spec _ C _ _ _ _ _ _ _ _ _ _ Hc Hj) as [_ H0].
  destruct (H0 Hs) as (I & N0 & B0 & _ & Ne & Ev & Fl). clear H0.
  rewrite <- B0 in Hs.
  destruct (run_cops_spec _ C _ _ _ _ _ _ _ _ Hr Ho I N0 Hs) as (R & I2 & _ & _ & Ne2 & Em2 & Fl2).
  rewrite <- cev_bytes_app in *.
  destruct (zc_dvalid _ C _ _ _ I2) as (V1 & V2 & V3).
  repeat split; auto.
  intro L. destruct (ops_bytes ops) as [|b t] eqn:E.
  - rewrite (Em2 eq_refl), !app_nil_r in *. apply Fl; assumption.
  - apply Fl2; [discriminate|]. eapply last_not_full_app; [|exact L]. apply Ne2; discriminate.
Qed.

(** ** C07 *)

(** The callback and buffer size in force at each write of a history. *)
Fixpoint settings (cl sz : N) (ops : list cop) : list (N * N) :=
  match ops with
  | [] => []
  | CWrite _ :: r => (cl, sz) :: settings cl sz r
  | CSetBuffer _ n :: r => settings cl (n mod 2 ^ 32) r
  | CSetCallback i :: r => settings i sz r
  end.

Definition obeys (st : N * N) (evs : list cev) : Prop :=
  forall ev, In ev evs -> ce_clbk ev = fst st /\ lenN (ce_data ev) <= snd st.

Lemma run_cops_settings z (C : zlib_contract z) fuel : forall ops s i o rets s' evs,
  run_cops fuel s ops = Ok (rets, s', evs) -> Forall cop_ok ops ->
  zc_dinv C (cs_z s) i o -> cs_null s = false -> 0 < cs_bufsz s ->
  exists evss, evs = concat evss /\ Forall2 obeys (settings (cs_clbk s) (cs_bufsz s) ops) evss.
Proof.
  induction ops as [|op ops IH]; intros s i o rets s' evs H F I Hn Hb; cbn [run_cops settings] in *.
  - injection H as <- <- <-. exists []. split; [reflexivity|constructor].
  - inversion F as [|x y F1 F2]; subst.
    destruct op as [d|null sz|id].
    + destruct (compress_call fuel s d) as [[[ret s1] ev1]| |] eqn:E; try discriminate H.
      cbn [obind] in H.
      destruct (run_cops fuel s1 ops) as [[[rets2 s2] ev2]| |] eqn:E2; try discriminate H.
      cbn [obind] in H. injection H as <- <- <-.
      destruct (compress_call_spec _ C _ _ _ _ _ _ _ _ E F1 I Hn Hb)
        as (R & I1 & N1 & B1 & C1 & Ev & _).
      rewrite <- B1 in Hb.
      destruct (IH _ _ _ _ _ _ E2 F2 I1 N1 Hb) as (evss & -> & F3).
      exists (ev1 :: evss). split; [reflexivity|]. constructor.
      * intros ev Hev. destruct (Ev ev Hev) as (? & ? & ?). cbn. split; congruence.
      * rewrite B1, C1 in F3. exact F3.
    + destruct F1 as [-> F1]. exact (IH (set_cbuffer s false sz) _ _ _ _ _ H F2 I eq_refl F1).
    + exact (IH (set_ccallback s id) _ _ _ _ _ H F2 I Hn Hb).
Qed.

Lemma callback_contract z (C : zlib_contract z) fuel e typ level clbk size junk s0 ev0 ops rets s evs :
  lenN junk = 128 -> 0 < u32 size ->
  create_csession (log_zlib z) fuel e true typ level clbk false size junk = Ok (Some s0, ev0) ->
  Forall cop_ok ops -> run_cops fuel s0 ops = Ok (rets, s, evs) ->
  concat (map ce_data (ev0 ++ evs)) = snd (cs_z s) /\
  obeys (clbk, u32 size) ev0 /\
  exists evss, evs = concat evss /\ Forall2 obeys (settings clbk (u32 size) ops) evss.
Proof.
  intros Hj Hs Hc Ho Hr.
  pose proof (create_csession_spec _ (log_contract z C) _ _ _ _ _ _ _ _ _ _ Hc Hj) as [_ H0].
  destruct (H0 Hs) as (I & N0 & B0 & C0 & Ne & Ev & Fl). clear H0.
  split.
  - assert (Hs0 : 0 < cs_bufsz s0) by (now rewrite B0).
    destruct (run_cops_spec _ (log_contract z C) _ _ _ _ _ _ _ _ Hr Ho I N0 Hs0) as (_ & [_ I2] & _).
    fold (cev_bytes (ev0 ++ evs)). rewrite cev_bytes_app. symmetry. exact I2.
  - split.
    + intros ev Hev. destruct (Ev ev Hev) as (? & ? & ?). cbn. auto.
    + rewrite <- B0, <- C0. eapply run_cops_settings; eauto. now rewrite B0.
Qed.

(** ** C08 *)
Lemma compress_returns z (C : zlib_contract z) s data i o :
  zc_dinv C (cs_z s) i o -> cs_null s = false -> 0 < cs_bufsz s ->
  exists fuel0 s' evs, forall fuel, (fuel0 <= fuel)%nat -> compress_call fuel s data = Ok (0%Z, s', evs).
Proof.
  intros I Hn Hb. unfold compress_call.
  destruct (compress_loop_terminates _ C s (takeN (u32 (lenN data)) data) i o I Hn Hb) as (f & s' & evs & H).
  exists f, s', evs. intros fuel Hf. eapply compress_loop_more; eauto.
Qed.

(** Every history of calls on a session finishes. *)
Lemma session_returns z (C : zlib_contract z) e alloc typ level clbk size junk ops :
  lenN junk = 128 -> 0 < u32 size -> Forall cop_ok ops ->
  exists fuel os ev, create_csession z fuel e alloc typ level clbk false size junk = Ok (os, ev) /\
    match os with
    | None => True
    | Some s => exists r, run_cops fuel s ops = Ok r
    end.
Proof.
  intros Hj Hs Ho.
  destruct (create_csession_terminates _ C e alloc typ level clbk size junk Hj Hs) as (f1 & [os ev] & H1).
  destruct os as [s|].
  2:{ exists f1, None, ev. auto. }
  destruct alloc; [|cbn in H1; discriminate].
  pose proof (create_csession_spec _ C _ _ _ _ _ _ _ _ _ _ H1 Hj) as [_ H0].
  destruct (H0 Hs) as (I & N0 & B0 & _). rewrite <- B0 in Hs.
  destruct (run_cops_terminates _ C ops s _ _ Ho I N0 Hs) as (f2 & r & H2).
  exists (Nat.max f1 f2), (Some s), ev. split.
  - unfold create_csession in *. cbn [negb] in *. destruct (deflateInit z level); [|discriminate].
    unfold compress_call in *.
    destruct (compress_loop f1 _ _) as [[[ret s1] ev1]| |] eqn:E; try discriminate H1.
    rewrite (compress_loop_more _ f1 (Nat.max f1 f2) _ _ _ ltac:(lia) E). exact H1.
  - exists r. revert H2. generalize s. clear. revert r.
    induction ops as [|op ops IH]; intros r s H; cbn [run_cops] in *; [exact H|].
    destruct op as [d|null sz|id]; [|apply IH; exact H|apply IH; exact H].
    unfold compress_call in *.
    destruct (compress_loop f2 s _) as [[[ret s1] ev1]| |] eqn:E; try discriminate H.
    rewrite (compress_loop_more _ f2 (Nat.max f1 f2) _ _ _ ltac:(lia) E). cbn [obind] in *.
    destruct (run_cops f2 s1 ops) as [r2| |] eqn:E2; try discriminate H.
    rewrite (IH _ _ E2). exact H.
Qed.

(** ** C09 *)
Lemma compress_zero_buffer z (C : zlib_contract z) s data i o :
  zc_dinv C (cs_z s) i o -> cs_null s = false -> cs_bufsz s = 0 -> data <> [] ->
  forall fuel, compress_loop fuel s data = NoFuel.
Proof.
  intros I Hn Hb Hd fuel. induction fuel as [|fuel IH]; destruct data as [|b t]; try congruence; [reflexivity|].
  cbn [compress_loop]. rewrite Hn, Hb.
  rewrite (zc_droom0 _ C _ _ _ (b :: t) I Hd). cbn [zr_ret zr_st zr_used zr_out].
  change (Z_BUF_ERROR =? Z_STREAM_ERROR)%Z with false. cbv iota.
  rewrite dropN_0. destruct s as [d nl bs cl]; cbn in *. subst. now rewrite IH.
Qed.

Lemma compress_call_zero_buffer z (C : zlib_contract z) s data i o :
  zc_dinv C (cs_z s) i o -> cs_null s = false -> data <> [] -> lenN data < two32 ->
  forall size fuel, u32 size = 0 -> compress_call fuel (set_cbuffer s false size) data = NoFuel.
Proof.
  intros I Hn Hd Hl size fuel Hs. unfold compress_call. rewrite u32_small, takeN_all by lia.
  eapply compress_zero_buffer; eauto.
Qed.

(** ** C10 *)
Lemma compress_call_consumes z (C : zlib_contract z) fuel s data ret s' evs i o :
  compress_call fuel s data = Ok (ret, s', evs) -> lenN data < two32 ->
  zc_dinv C (cs_z s) i o -> cs_null s = false -> 0 < cs_bufsz s ->
  ret = 0%Z /\ zc_dinv C (cs_z s') (i ++ data) (o ++ cev_bytes evs).
Proof.
  intros H Hl I Hn Hb. destruct (compress_call_spec _ C _ _ _ _ _ _ _ _ H Hl I Hn Hb) as (? & ? & _). auto.
Qed.

Lemma compress_call_4g z s data fuel : lenN data = two32 ->
  @compress_call z fuel s data = Ok (0%Z, s, []).
Proof.
  intro H. unfold compress_call. rewrite H.
  assert (E : u32 two32 = 0) by reflexivity. rewrite E, takeN_0. now destruct fuel.
Qed.

(** ** C11 *)
Lemma creation_null_buffer z fuel e alloc typ level clbk size junk os evs :
  lenN junk = 128 ->
  create_csession z fuel e alloc typ level clbk true size junk = Ok (os, evs) -> os = None /\ evs = [].
Proof.
  intros Hj H. unfold create_csession in H. destruct alloc; cbn in H; [|injection H as <- <-; auto].
  destruct (deflateInit z level); [|injection H as <- <-; auto].
  pose proof (lenN_header_image e typ junk Hj) as Hh.
  unfold compress_call in H. rewrite u32_small, takeN_all in H by (rewrite ?Hh; unfold two32; lia).
  destruct (header_image e typ junk) as [|b t] eqn:Eh; [cbn in Hh; lia|].
  destruct fuel; cbn in H; [discriminate|]. injection H as <- <-. auto.
Qed.

Lemma creation_fails z (C : zlib_contract z) fuel e alloc typ level clbk null size junk :
  (level < -1 \/ 9 < level)%Z ->
  create_csession z fuel e alloc typ level clbk null size junk = Ok (None, []).
Proof.
  intros Hl. unfold create_csession. destruct alloc; [|reflexivity]. cbn [negb].
  now rewrite (zc_level _ C _ Hl).
Qed.

Lemma creation_succeeds z (C : zlib_contract z) e typ level clbk size junk :
  lenN junk = 128 -> 0 < u32 size -> deflateInit z level <> None ->
  exists fuel s evs, create_csession z fuel e true typ level clbk false size junk = Ok (Some s, evs) /\
    zc_dinv C (cs_z s) (header_image e typ junk) (cev_bytes evs) /\ cs_null s = false /\ cs_bufsz s = u32 size.
Proof.
  intros Hj Hs Hd.
  destruct (create_csession_terminates _ C e true typ level clbk size junk Hj Hs) as (f & [os evs] & H).
  pose proof (create_csession_spec _ C _ _ _ _ _ _ _ _ _ _ H Hj) as X.
  destruct os as [s|].
  - exists f, s, evs. split; [exact H|]. destruct X as [_ X]. destruct (X Hs) as (? & ? & ? & _). auto.
  - destruct X as [[X _]|[[X _]|X]]; [contradiction|discriminate|lia].
Qed.

(** ** Statements of C01-C03 *)
Lemma padding_facts : forall l,
  (l + 8 < 2 ^ 32 -> norm_len32 l mod 8 = 0 /\ l + 1 <= norm_len32 l <= l + 8) /\
  (l + 8 < 2 ^ 64 -> norm_len64 l mod 8 = 0 /\ l + 1 <= norm_len64 l <= l + 8).
Proof.
  intro l. split; intro H.
  - destruct (norm_len32_spec l H) as (? & ? & ?). repeat split; lia.
  - destruct (norm_len64_spec l H) as (? & ? & ?). repeat split; lia.
Qed.

Lemma records_round_trip : forall e e' nlen mode size junk,
  lenN junk = 40 -> nlen < 2 ^ 32 -> mode < 2 ^ 32 -> size < 2 ^ 64 ->
  (let m := file_item e nlen mode size junk in
   get_size e' m = size /\ get_sizeN e' m = norm_len64 size /\ get_nlen e' m = nlen /\
   get_nlenN e' m = norm_len32 nlen /\ get_mode e' m = mode /\ get_ctype m = CT_FILE) /\
  (let m := link_item e nlen mode size junk in
   get_size e' m = size /\ get_sizeN e' m = norm_len64 size /\ get_nlen e' m = nlen /\
   get_nlenN e' m = norm_len32 nlen /\ get_mode e' m = mode /\ get_ctype m = CT_SYM_LINK) /\
  (let m := dir_item e nlen mode junk in
   get_nlen e' m = nlen /\ get_nlenN e' m = norm_len32 nlen /\ get_mode e' m = mode /\
   get_ctype m = CT_DIR_START) /\
  get_ctype (dir_end_item e nlen mode junk) = CT_DIR_END.
Proof.
  intros e e' nlen mode size junk Hj H1 H2 H3.
  split; [now apply file_item_fields|]. split; [now apply link_item_fields|].
  split; [now apply dir_item_fields|]. now apply dir_end_item_ctype.
Qed.

Lemma images_host_independent : forall e e' typ nlen mode size hjunk ijunk,
  nlen < 2 ^ 32 -> mode < 2 ^ 32 -> size < 2 ^ 64 ->
  header_image e typ hjunk = header_image e' typ hjunk /\
  file_item e nlen mode size ijunk = file_item e' nlen mode size ijunk /\
  link_item e nlen mode size ijunk = link_item e' nlen mode size ijunk /\
  dir_item e nlen mode ijunk = dir_item e' nlen mode ijunk /\
  dir_end_item e nlen mode ijunk = dir_end_item e' nlen mode ijunk.
Proof.
  intros. repeat split.
  - apply header_image_endian.
  - now apply file_item_endian.
  - now apply link_item_endian.
  - now apply dir_item_endian.
  - unfold dir_end_item. now rewrite (dir_item_endian e e').
Qed.
