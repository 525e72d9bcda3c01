(** HLDrive.v: the extraction loop. *)
From Coq Require Import Lia.
From Verif Require Import Base Format Zlib Parser ParserProofs Decompress DecompressProofs MidProofs MidFacts FS FSFacts HL HLFacts.

(** ** Destroying the session stays inside the buffers *)
Section Safe.
Context (z : zlib) (C : zlib_contract z) (e : endian) (alloc : N -> N -> bool).

Definition inside (b : option bytes) (n : N) : Prop := match b with Some m => n <= lenN m | None => True end.
Definition safe (s : dsess z) : Prop :=
  (exists c p, zc_iinv C (z_st (d_zs s)) c p) /\ inside (mem (z_sel (d_zs s)) s) (z_pos (d_zs s) + z_aout (d_zs s)) /\
  inside (mem (d_bsel s) s) (d_bsz s) /\ inside (d_tmp s) (d_tmpsz s) /\ lenN (d_hdr s) = 128 /\
  (d_cb s = CbHeader -> z_sel (d_zs s) = BHdr /\ d_bsel s = BHdr).

Lemma setup_safe s : safe s -> safe (setup s).
Proof.
  intros (A & B & D & E & F & G). split; [exact A|]. split; [exact D|]. split; [exact D|]. split; [exact E|]. split; [exact F|].
  intro H. split; apply (G H).
Qed.

Lemma inflate_safe fl s : safe s -> exists r s', do_inflate fl s = Ok (r, s') /\ safe s'.
Proof.
  intros ((c & p & I) & B & D & E & F & G). unfold do_inflate.
  destruct (mem (z_sel (d_zs s)) s) as [m|] eqn:Em.
  2:{ eexists _, _. split; [reflexivity|]. split; [eauto|]. rewrite Em. repeat split; auto; now apply G. }
  set (r := inflate z (z_st (d_zs s)) fl _ _). destruct (zc_istep _ C _ _ _ _ _ _ r I eq_refl) as (S1 & S2 & S3).
  cbn [inside] in B.
  destruct (checked_write_ok alloc (z_pos (d_zs s)) (zr_out r) m) as [Ew L]; [lia|]. rewrite Ew. cbn [obind].
  eexists _, _. split; [reflexivity|].
  assert (Lm : lenN (write_at (z_pos (d_zs s)) (zr_out r) m) = lenN m) by (exact L).
  split; [eauto|].
  destruct (z_sel (d_zs s)) eqn:Es; cbn [mem set_mem d_hdr d_ubuf with_zs d_zs z_sel z_pos z_aout d_bsel d_bsz d_tmp d_tmpsz inside] in *.
  - injection Em as <-. split; [lia|]. split. { destruct (d_bsel s); cbn in *; [lia|exact D]. } split; [exact E|]. split; [lia|exact G].
  - split; [lia|]. split. { destruct (d_bsel s); cbn in *; [exact D|]. rewrite Em in D. cbn in D. lia. } split; [exact E|]. split; [exact F|exact G].
Qed.

Lemma destroy_safe s : safe s -> exists s', destroy s = Ok s'.
Proof.
  intro H. unfold destroy. destruct (inflate_safe Z_FULL_FLUSH s H) as (r1 & s1 & -> & H1). cbn [obind].
  destruct (inflate_safe Z_FINISH s1 H1) as (r2 & s2 & -> & _). cbn [obind]. eauto.
Qed.

Lemma hdr_convert_len h : lenN h = 128 -> lenN (hdr_convert e h) = 128.
Proof. intro H. unfold hdr_convert. rewrite !lenN_write_at; rewrite ?lenN_store, ?lenN_write_at; rewrite ?lenN_store; lia. Qed.

Lemma header_safe s b s' : safe s -> d_cb s = CbHeader -> header_begin e s = Ok (b, s') -> safe s'.
Proof.
  intros (A & B & D & E & F & G) Hc H. destruct (G Hc) as [G1 G2]. rewrite G1 in B. rewrite G2 in D. cbn [mem inside] in B, D.
  pose proof (hdr_convert_len _ F) as Lh. unfold header_begin in H.
  destruct (_ <? _). { injection H as <- <-. split; [exact A|]. rewrite G1, G2. cbn [mem inside]. repeat split; assumption. }
  destruct (_ =? 0).
  - destruct (_ <? _); [discriminate|]. injection H as <- <-.
    split; [exact A|]. cbn [d_zs d_bsel d_bsz mem d_hdr d_ubuf d_tmp d_tmpsz d_cb]. rewrite G1. cbn [mem d_hdr inside].
    split; [lia|]. split; [exact E|]. split; [exact E|]. split; [exact Lh|]. discriminate.
  - injection H as <- <-. split; [exact A|]. cbn [d_zs d_bsel d_bsz mem d_hdr d_ubuf d_tmp d_tmpsz d_cb]. rewrite G1, G2. cbn [mem d_hdr inside].
    split; [lia|]. split; [lia|]. split; [exact E|]. split; [exact Lh|]. auto.
Qed.

Lemma run_safe fuel : forall m fl s r s' evs, safe s -> run e alloc fuel m fl s = Ok (r, s', evs) -> safe s'.
Proof.
  induction fuel as [|fuel IH]; intros m fl s r s' evs S H; [discriminate|]. cbn [Decompress.run] in H.
  destruct (_ || _). { injection H as <- <- <-. exact S. }
  set (s0 := match m with Reset => setup s | NoTouch => s end) in *.
  assert (S0 : safe s0) by (subst s0; destruct m; [now apply setup_safe|exact S]).
  destruct (inflate_safe fl s0 S0) as (r1 & s1 & E & S1). rewrite E in H. cbn [obind] in H.
  destruct (negb _). { injection H as <- <- <-. exact S1. }
  match type of H with obind ?x _ = _ => destruct x as [[s3 ev1]| |] eqn:E3; try discriminate H end. cbn [obind] in H.
  destruct (run e alloc fuel m Z_NO_FLUSH s3) as [[[r4 s4] ev2]| |] eqn:E4; try discriminate H. cbn [obind] in H. injection H as <- <- <-.
  refine (IH _ _ _ _ _ _ _ E4). clear E4.
  destruct (d_cb s1) eqn:Ec.
  2:{ destruct (header_begin e s1) as [[again s2]| |] eqn:Eh; try discriminate E3. cbn [obind] in E3.
      pose proof (header_safe _ _ _ S1 Ec Eh) as S2. destruct again.
      - destruct (run e alloc fuel Reset Z_NO_FLUSH s2) as [[[r5 s5] ev5]| |] eqn:E5; try discriminate E3. cbn [obind] in E3.
        injection E3 as <- <-. exact (IH _ _ _ _ _ _ S2 E5).
      - injection E3 as <- <-. exact S2. }
  all: destruct (cb_data s1) as [data tail];
    match type of E3 with obind ?x _ = _ => destruct x as [[[c' p'] ev']| |] eqn:E5; try discriminate E3 end; cbn [obind] in E3;
    injection E3 as <- <-;
    (assert (Hn : c' <> CbHeader) by (eapply content_cb_not_header; [|exact E5]; congruence));
    destruct S1 as (A & B & D & E' & F & G); (split; [exact A|]); (split; [exact B|]); (split; [exact D|]); (split; [exact E'|]);
    (split; [exact F|]); cbn; intro Q; contradiction.
Qed.

Lemma decompress_safe fuel fl d s r s' evs : safe s -> decompress e alloc fuel fl d s = Ok (r, s', evs) -> safe s'.
Proof.
  intros S H. assert (S' : safe (feed d s)) by exact S. unfold decompress in H.
  destruct (d_inited s); exact (run_safe _ _ _ _ _ _ _ S' H).
Qed.

Lemma create_safe ok obuf size hjunk pjunk s : size < two32 -> size <= lenN obuf -> lenN hjunk = 128 ->
  create z ok (Some obuf) size hjunk pjunk = Some s -> safe s.
Proof.
  intros H1 H2 H3 H. unfold create in H. destruct ok; [|discriminate]. destruct (inflateInit z) as [i|] eqn:E; [|discriminate].
  injection H as <-. split. { exists [], []. exact (zc_iinit _ C _ E). }
  cbn [d_zs d_bsel d_bsz mem d_hdr d_ubuf d_tmp d_tmpsz d_cb z_sel z_pos z_aout inside]. unfold MAIN_HEADER_SIZE.
  split; [lia|]. split; [lia|]. split. { unfold u32. rewrite N.mod_small by exact H1. exact H2. } split; [exact H3|]. auto.
Qed.
End Safe.

(** ** The chunks *)
Section Drive.
Context (target : bytes) (hal : N -> bool) (stk : N).
Context (z : zlib) (e : endian) (alloc : N -> N -> bool) (archive : N).
Notation cbs := (cbs target hal stk).
Notation extract_loop := (extract_loop target hal stk z e alloc archive).

Fixpoint chunk_ops (fuel : nat) (inp : bytes) (total idx : N) : list dop :=
  match fuel with
  | O => []
  | S f =>
    let n := next_size archive total in
    if n <? 1 then []
    else
      let d := takeN n inp in
      DFeed (Z.of_N (N.shiftr (N.land (idx + 1) 16) 4)) d ::
      (if lenN d <? n then [] else chunk_ops f (dropN n inp) (total + lenN d) (idx + 1))
  end.

Lemma flush_normal idx : normal_flush (Z.of_N (N.shiftr (N.land (idx + 1) 16) 4)).
Proof using. clear hal alloc.
  assert (H : N.shiftr (N.land (idx + 1) 16) 4 <= 1).
  { rewrite N.shiftr_land. change (N.shiftr 16 4) with (N.ones 1). rewrite N.land_ones. change (2 ^ 1) with 2. lia. }
  unfold normal_flush. lia.
Qed.
Lemma next_size_le total : next_size archive total <= DEF_CHUNK_SIZE.
Proof using. clear hal alloc. unfold next_size. destruct (_ <? _); [destruct (_ <? _)|]; lia. Qed.

Lemma chunk_ops_ok fuel : forall inp total idx, Forall dop_ok (chunk_ops fuel inp total idx).
Proof using. clear hal alloc.
  induction fuel as [|f IH]; intros inp total idx; cbn [chunk_ops]; [constructor|].
  destruct (_ <? 1); [constructor|]. constructor.
  - split; [apply flush_normal|]. rewrite lenN_takeN. pose proof (next_size_le total). unfold DEF_CHUNK_SIZE, two32 in *. lia.
  - destruct (_ <? _); [constructor|apply IH].
Qed.

(** Everything up to the announced size is passed on. *)
Definition limited (total : N) (inp : bytes) : bytes := if 0 <? archive then takeN (archive - total) inp else inp.

Lemma chunk_ops_fed fuel : forall inp total idx, (length inp < fuel)%nat ->
  dfed (chunk_ops fuel inp total idx) = limited total inp.
Proof using. clear hal alloc.
  induction fuel as [|f IH]; intros inp total idx H; [lia|]. cbn [chunk_ops].
  destruct (N.ltb_spec (next_size archive total) 1) as [H1|H1].
  - unfold next_size in H1. unfold limited. destruct (0 <? archive) eqn:E0; [|unfold DEF_CHUNK_SIZE in H1; lia].
    replace (archive - total) with 0; [now rewrite takeN_0|]. destruct (N.ltb_spec total archive); [unfold DEF_CHUNK_SIZE in H1; lia|lia].
  - set (n := next_size archive total) in *.
    change (dfed (DFeed ?a ?b :: ?c)) with (b ++ dfed c).
    rewrite lenN_takeN.
    assert (Hl : limited total inp = takeN n inp ++ limited (total + n) (dropN n inp)).
    { unfold limited. unfold n, next_size in *. destruct (0 <? archive); [|now rewrite takeN_dropN].
      destruct (N.ltb_spec total archive); [|lia].
      set (k := N.min (archive - total) DEF_CHUNK_SIZE) in *.
      replace (archive - total) with (k + (archive - (total + k))) by lia. apply takeN_plus. }
    destruct (N.ltb_spec (N.min n (lenN inp)) n) as [H2|H2].
    + cbn [dfed map concat]. rewrite app_nil_r, Hl. rewrite dropN_all by lia. unfold limited. destruct (0 <? archive); now rewrite ?takeN_nil, app_nil_r.
    + replace (N.min n (lenN inp)) with n by lia. rewrite IH; [now rewrite <- Hl|].
      rewrite dropN_skipn, skipn_length. unfold lenN in H2. lia.
Qed.

(** Errors stay. *)
Lemma exec_psys {B} c (f : resp -> prog B) o x : exec (pbind (psys c) f) o = Ok x -> exists r o1, sys c o = (r, o1) /\ exec (f r) o1 = Ok x.
Proof. intro H. rewrite exec_sys in H. exists (fst (sys c o)), (snd (sys c o)). split; [now destruct (sys c o)|exact H]. Qed.

Lemma with_cstr_ok {A} b (f : bytes -> prog A) o x : exec (with_cstr b f) o = Ok x -> exists s, cstr b = Some s /\ exec (f s) o = Ok x.
Proof. unfold with_cstr. destruct (cstr b) as [s|]; [eauto|discriminate]. Qed.

Lemma cb_err ev h o h' o' : exec (cb target hal stk ev h) o = Ok (h', o') -> h_err h = true -> h_err h' = true.
Proof.
  intros H He. destruct ev as [id d| | |d|ft it name|d| | |d t]; cbn [cb] in H.
  - cbn in H. congruence.
  - unfold cb_dr_start in H. rewrite exec_bind in H. destruct (exec (mkdir_recurse _ _ _) o) as [[r o1]| |]; try discriminate H. cbn [obind] in H.
    destruct (negb _). { cbn in H. injection H as <- <-. reflexivity. }
    destruct (negb _); cbn in H; injection H as <- <-; [reflexivity|exact He].
  - unfold cb_fl_start in H. apply exec_psys in H. destruct H as (r & o1 & _ & H). destruct r; cbn in H; injection H as <- <-; auto.
  - unfold cb_fl_read in H. destruct (h_fp h); [|discriminate]. apply exec_psys in H. destruct H as (r & o1 & _ & H). cbn in H. congruence.
  - unfold cb_entry in H. destruct ft; try (cbn in H; injection H as <- <-; exact He).
    + destruct (negb _); [cbn in H; injection H as <- <-; reflexivity|].
      rewrite exec_bind in H. destruct (entry_path _ _ _) as [b| |]; try discriminate H. cbn [plift exec obind] in H.
      apply with_cstr_ok in H. destruct H as (s & _ & H). rewrite exec_bind in H.
      destruct (exec (mkdir_recurse _ _ _) o) as [[r o1]| |]; try discriminate H. cbn [obind exec] in H.
      destruct (r =? 0)%Z; injection H as <- <-; [exact He|reflexivity].
    + destruct (_ <? _); [discriminate|].
      rewrite exec_bind in H. destruct (entry_path _ _ _) as [b| |]; try discriminate H. cbn [plift exec obind] in H.
      apply with_cstr_ok in H. destruct H as (s & _ & H). apply exec_psys in H. destruct H as (r & o1 & _ & H).
      destruct r; cbn in H; injection H as <- <-; auto.
  - unfold cb_read in H. apply exec_psys in H. destruct H as (r & o1 & _ & H). cbn in H. congruence.
  - unfold cb_file_end in H. apply exec_psys in H. destruct H as (r & o1 & _ & H). cbn in H. congruence.
  - unfold cb_dir_end in H. destruct (h_dp h); [|discriminate]. apply with_cstr_ok in H. destruct H as (s & _ & H).
    destruct (rindex _ _); [|discriminate]. cbn in H. injection H as <- <-. exact He.
  - unfold cb_sym in H. apply exec_psys in H. destruct H as (r & o1 & _ & H). destruct r as [| | |cwd|]; try (cbn in H; congruence).
    destruct (h_dp h); [|cbn in H; congruence]. apply with_cstr_ok in H. destruct H as (s1 & _ & H).
    apply exec_psys in H. destruct H as (r & o2 & _ & H). destruct r; try (cbn in H; congruence).
    apply with_cstr_ok in H. destruct H as (s2 & _ & H). apply with_cstr_ok in H. destruct H as (s3 & _ & H).
    apply exec_psys in H. destruct H as (r & o3 & _ & H). apply exec_psys in H. destruct H as (r' & o4 & _ & H). cbn in H. congruence.
Qed.
Lemma cbs_err evs : forall h o h' o', exec (cbs evs h) o = Ok (h', o') -> h_err h = true -> h_err h' = true.
Proof.
  induction evs as [|ev evs IH]; intros h o h' o' H He; [cbn in H; congruence|].
  rewrite exec_cbs_cons in H. destruct (exec (cb _ _ _ ev h) o) as [[h1 o1]| |] eqn:E; try discriminate H. cbn [obind] in H.
  eapply IH; [exact H|]. eapply cb_err; eauto.
Qed.

(** Without errors the loop is the session on the chunks and the callbacks on the events. *)
Lemma drive fuel dfuel : forall inp total idx s h o rets s' evs h' o', (length inp < fuel)%nat ->
  run_dops e alloc dfuel s (chunk_ops fuel inp total idx) = Ok (rets, s', evs) ->
  exec (cbs evs h) o = Ok (h', o') -> h_err h' = false ->
  exec (extract_loop fuel dfuel inp false total idx s h) o = Ok ((true, s', h', limited total inp), o').
Proof.
  induction fuel as [|f IH]; intros inp total idx s h o rets s' evs h' o' Hf R X He; [lia|].
  pose proof (chunk_ops_fed (S f) inp total idx Hf) as Fed.
  cbn [chunk_ops] in R, Fed. cbn [HL.extract_loop].
  destruct (N.ltb_spec (next_size archive total) 1) as [H1|H1].
  { cbn [run_dops] in R. injection R as <- <- <-. cbn in X. injection X as <- <-. rewrite <- Fed. reflexivity. }
  set (n := next_size archive total) in *. rewrite andb_false_r. cbn [run_dops] in R.
  destruct (decompress e alloc dfuel _ (takeN n inp) s) as [[[r1 s1] ev1]| |] eqn:Ed; try discriminate R. cbn [obind] in R.
  cbn [plift pbind]. rewrite exec_bind.
  match type of R with obind ?x _ = _ => destruct x as [[[rs s2] ev2]| |] eqn:E2; try discriminate R end. cbn [obind] in R.
  injection R as <- <- <-. rewrite exec_cbs_app in X.
  destruct (exec (cbs ev1 h) o) as [[h1 o1]| |] eqn:X1; try discriminate X. cbn [obind] in X |- *.
  assert (He1 : h_err h1 = false).
  { destruct (h_err h1) eqn:Q; [|reflexivity]. rewrite (cbs_err _ _ _ _ _ X Q) in He. discriminate. }
  rewrite He1, orb_false_r.
  match type of Fed with dfed (DFeed ?a ?b :: ?c) = _ => change (dfed (DFeed a b :: c)) with (b ++ dfed c) in Fed end.
  rewrite <- Fed. destruct (lenN (takeN n inp) <? n) eqn:Es.
  - cbn [run_dops] in E2. injection E2 as <- <- <-. cbn in X. injection X as <- <-. cbn [dfed map concat exec]. now rewrite app_nil_r.
  - rewrite exec_bind.
    assert (Hl : (length (dropN n inp) < f)%nat).
    { rewrite dropN_skipn, skipn_length. apply N.ltb_ge in Es. rewrite lenN_takeN in Es. unfold lenN in Es. lia. }
    rewrite (IH _ _ _ _ _ _ _ _ _ _ _ Hl E2 X He). cbn [obind exec]. now rewrite (chunk_ops_fed _ _ _ _ Hl).
Qed.

End Drive.
