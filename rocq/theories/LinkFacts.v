(** LinkFacts.v: extraction of trees with symbolic links (C83). *)
From Coq Require Import Lia.
From Verif Require Import Base Format Zlib LLCompress CompressFacts Compress Parser ParserProofs ParserFacts Decompress DecompressProofs
  MidProofs MidFacts ArchiveSpec ArchiveFacts ArchiveDecode ArchiveEntry ArchiveProps FS FSFacts HL HLSpec HLFacts HLDrive HLProps HLSafe HLMore.

(** ** Specification *)

(** As [tree_at] (HLSpec.v), with the symbolic links. *)
Fixpoint ltree_at (um : N) (q : path) (es : list (bytes * snode)) : option inode :=
  match q with
  | [] => None
  | c :: r =>
    if dotb c then None
    else
      match entry_of c es, r with
      | Some (SFile _ _ mode _ data _), [] => Some (IFile (file_perm um mode) data)
      | Some (SDir mode _), [] => Some (IDir (dir_perm um mode))
      | Some (SDir _ es'), _ => ltree_at um r es'
      | Some (SLink _ _ (Some target)), [] => Some (ILink target)
      | _, _ => None
      end
  end.
Definition ldir_tree (um : N) (es : list (bytes * snode)) (r : path) : option inode :=
  match r with [] => Some (IDir (dir_perm um MODE_BASE_DIR)) | _ => ltree_at um r es end.

(** As [extractable] (HLSpec.v), with links whose target is a path the system accepts. *)
Inductive lextractable (priv : bool) (um : N) : N -> bytes -> snode -> Prop :=
| lx_dot L name nd : dotted name -> lextractable priv um L name nd
| lx_other L name : lextractable priv um L name SOther
| lx_file L name o s mode size data r : plain name -> L + 1 + lenN name < PATH_MAX ->
    lextractable priv um L name (SFile o s mode size data r)
| lx_link L name mode size target : plain name -> L < PATH_MAX -> target <> [] -> ~ In x00 target -> lenN target < PATH_MAX ->
    lextractable priv um L name (SLink mode size (Some target))
| lx_dir L name mode es : plain name -> L + 1 + lenN name < PATH_MAX -> usable_dir priv um mode ->
    NoDup (map fst es) -> Forall (fun x => lextractable priv um (L + 1 + lenN name) (fst x) (snd x)) es ->
    lextractable priv um L name (SDir mode es).

(** The process can return to its working directory after getcwd(buffer, 1023). *)
Definition homely (o : os) : Prop := reachable o /\ lenN (path_string (o_cwd o)) < 1023.

(** ** Targets *)

(** The targets of the links among the records. *)
Definition targets (rs : list arec) : list bytes := concat (map (fun r => match r with ALink _ _ tg => [tg] | _ => [] end) rs).
(** The strings the link callback reads. *)
Definition told (evs : list event) : list (option bytes) :=
  concat (map (fun ev => match ev with EvSym d t => [cstr (d ++ t)] | _ => [] end) evs).

Lemma told_app a b : told (a ++ b) = told a ++ told b.
Proof. unfold told. now rewrite map_app, concat_app. Qed.
Lemma targets_app a b : targets (a ++ b) = targets a ++ targets b.
Proof. unfold targets. now rewrite map_app, concat_app. Qed.

Lemma zeros_cons n : 0 < n -> zeros n = x00 :: zeros (n - 1).
Proof.
  intro H. unfold zeros. destruct (N.to_nat n) eqn:E; [lia|]. replace (N.to_nat (n - 1)) with n0 by lia. reflexivity.
Qed.

Section Decode.
Context (e : endian) (alloc : N -> N -> bool).
Hypothesis Halloc : forall k n, alloc k n = true.
Notation parse := (parse e alloc).
Notation at_hdr := (at_hdr e).

Lemma decode_told recs b : encodes recs b -> Forall rec_ok recs -> Forall (fun tg => ~ In x00 tg) (targets recs) -> forall s, at_hdr s ->
  exists s1, at_hdr s1 /\ forall t rest, exists evs, told evs = map Some (targets recs) /\
    parse t s (b ++ rest) = do (s2, ev2) <- parse t s1 rest; Ok (s2, evs ++ ev2).
Proof.
  induction 1 as [|name mode rs b e' junk Hj En IH|name mode size data rs b e' junk Hj En IH|
    name mode target rs b e' junk Hj En IH|rs b e' nlen mode junk Hj En IH|name mode size data rs b e' junk Hj En IH];
    intros Ok0 Nz s Hs.
  - exists s. split; [exact Hs|]. intros t rest. exists []. split; [reflexivity|]. cbn [app].
    destruct (parse t s rest) as [[s2 ev2]| |]; reflexivity.
  - inversion Ok0 as [|? ? Hr Hrs]; subst. destruct Hr as [H1 H2].
    destruct (dir_record e alloc Halloc s e' name mode junk (zeros (norm_len32 (lenN name) - lenN name))) as (s1 & it & A1 & I1 & I2 & I3 & I4 & P);
      auto; [apply lenN_zeros|].
    destruct (IH Hrs Nz s1 A1) as (s2 & A2 & Q). exists s2. split; [exact A2|]. intros t rest.
    destruct (Q t rest) as (evs & Sh & E). exists (EvEntry FtDir it (padded name) :: evs). split; [exact Sh|].
    rewrite <- !app_assoc. specialize (P t (b ++ rest)). unfold padded. rewrite P, E.
    destruct (parse t s2 rest) as [[s3 ev3]| |]; reflexivity.
  - inversion Ok0 as [|? ? Hr Hrs]; subst. destruct Hr as (H1 & H2 & -> & H3).
    destruct (file_record e alloc Halloc s e' name mode data junk (zeros (norm_len32 (lenN name) - lenN name))
      (zeros (norm_len64 (lenN data) - lenN data))) as (s1 & A1 & P); auto; [apply lenN_zeros|apply lenN_zeros|].
    destruct (IH Hrs Nz s1 A1) as (s2 & A2 & Q). exists s2. split; [exact A2|]. intros t rest.
    destruct (Q t rest) as (evs & Sh & E).
    exists ([EvEntry FtFile (rec_item (lenN name) (lenN data) mode CT_FILE) (padded name); EvRead data; EvFileEnd] ++ evs). split; [exact Sh|].
    rewrite <- !app_assoc. specialize (P t (b ++ rest)). unfold padded. rewrite P, E.
    destruct (parse t s2 rest) as [[s3 ev3]| |]; reflexivity.
  - inversion Ok0 as [|? ? Hr Hrs]; subst. destruct Hr as (H1 & H2 & H3).
    change (targets (ALink name mode target :: rs)) with (target :: targets rs) in *. inversion Nz as [|? ? Nz1 Nz2]; subst.
    destruct (link_record e alloc Halloc s e' name mode target junk (zeros (norm_len32 (lenN name) - lenN name))
      (zeros (norm_len64 (lenN target) - lenN target))) as (s1 & A1 & P); auto; [apply lenN_zeros|apply lenN_zeros|].
    destruct (IH Hrs Nz2 s1 A1) as (s2 & A2 & Q). exists s2. split; [exact A2|]. intros t rest.
    destruct (Q t rest) as (evs & Sh & E).
    specialize (P t (b ++ rest)). rewrite E in P.
    eexists ([EvEntry FtSymLink (rec_item (lenN name) (lenN target) mode CT_SYM_LINK) (padded name); EvSym target _] ++ evs). split.
    + rewrite told_app, Sh. cbn [map]. unfold told at 1. cbn [map concat app]. f_equal.
      instantiate (1 := (zeros (norm_len64 (lenN target) - lenN target) ++ b ++ rest) ++ t).
      destruct (norm_len64_spec (lenN target) H3) as (_ & M1 & _). rewrite zeros_cons by lia. rewrite <- !app_assoc. cbn [app].
      now apply cstr_app.
    + rewrite <- !app_assoc. unfold padded. rewrite P. rewrite <- !app_assoc. destruct (parse t s2 rest) as [[s3 ev3]| |]; reflexivity.
  - inversion Ok0 as [|? ? Hr Hrs]; subst.
    destruct (dir_end_record e alloc Halloc s e' nlen mode junk Hs Hj) as (s1 & A1 & P).
    destruct (IH Hrs Nz s1 A1) as (s2 & A2 & Q). exists s2. split; [exact A2|]. intros t rest.
    destruct (Q t rest) as (evs & Sh & E). exists (EvDirEnd :: evs). split; [exact Sh|].
    rewrite <- !app_assoc. rewrite P, E. destruct (parse t s2 rest) as [[s3 ev3]| |]; reflexivity.
  - inversion Ok0 as [|? ? Hr Hrs]; subst. destruct Hr.
Qed.

Lemma decode_one recs b t s s' evs : at_hdr s -> encodes recs b -> Forall rec_ok recs -> Forall (fun tg => ~ In x00 tg) (targets recs) ->
  parse t s b = Ok (s', evs) -> told evs = map Some (targets recs).
Proof.
  intros Hs En Ok0 Nz H. destruct (decode_told _ _ En Ok0 Nz s Hs) as (s1 & A1 & P).
  destruct (P t []) as (ev1 & T1 & E). rewrite (parse_at_hdr_nil e alloc t s1 A1) in E. cbn [obind] in E. rewrite !app_nil_r in E.
  rewrite E in H. injection H as <- <-. exact T1.
Qed.
End Decode.

(** ** One feed, one output *)
Section One.
Context (z : zlib) (C : zlib_contract z) (e : endian) (alloc : N -> N -> bool).
Notation run := (@Decompress.run z e alloc).

(** The content is delivered by one inflate call if it is smaller than the buffer. *)
Lemma one_content fuel fl s c p ret s' evs : run fuel Reset fl s = Ok (ret, s', evs) -> content z s -> normal_flush fl ->
  zc_iinv C (z_st (d_zs s)) c p -> z_inp (d_zs s) <> [] ->
  zc_bad C (c ++ z_inp (d_zs s)) = false -> zc_fin C (c ++ z_inp (d_zs s)) = false ->
  lenN (zc_dec C (c ++ z_inp (d_zs s))) < lenN p + d_bsz s ->
  z_inp (d_zs s') = [] /\ exists x t c' p', p ++ x = zc_dec C (c ++ z_inp (d_zs s)) /\
    content_cb e alloc (hdr_type e (d_hdr s)) (d_cb s) (d_p s) x t = Ok (c', p', evs).
Proof.
  intros H Hc Hf I Hi B Fi L. destruct fuel as [|fuel]; [discriminate|].
  destruct (run_content_step z C e alloc fl s c p Hc I Hi) as (s1 & m & Z1 & C1 & F1 & B1 & P1 & E).
  rewrite E in H; clear E. set (r := inflate z (z_st (d_zs s)) fl (z_inp (d_zs s)) (d_bsz s)) in *.
  assert (Hb : 0 < d_bsz s) by (destruct Hc as (_ & _ & (m0 & _ & _ & ? & _)); assumption).
  pose proof (zc_ivalid _ C _ _ _ _ _ _ r I Hf Hi Hb B Fi eq_refl) as Hok.
  rewrite Hok in H. cbn [Z.eqb negb Z_OK] in H.
  destruct (zc_istep _ C _ _ _ _ _ _ r I eq_refl) as (S1 & S2 & S3).
  assert (Lr : lenN (zr_out r) < d_bsz s).
  { destruct (zc_iprefix _ C _ _ _ S3) as [y Ey].
    destruct (zc_dec_mono _ C (c ++ takeN (zr_used r) (z_inp (d_zs s))) (dropN (zr_used r) (z_inp (d_zs s)))) as [w Ew].
    rewrite <- app_assoc, takeN_dropN in Ew. rewrite Ew, Ey, !lenN_app in L. lia. }
  destruct (zc_icomplete _ C _ _ _ _ _ _ r I Hf eq_refl Hok Lr) as (K0 & K1 & _).
  destruct (content_cb _ _ _ _ _ _ _) as [[[c' p'] ev]| |] eqn:Ec; try discriminate H. cbn [obind] in H.
  assert (Z2 : z_inp (d_zs (with_cb c' (with_p p' s1))) = []).
  { cbn [d_zs with_cb with_p]. rewrite Z1. cbn [z_inp]. apply dropN_all. lia. }
  destruct fuel as [|fuel]; [discriminate|]. rewrite run_inp_nil in H by exact Z2.
  cbn [obind] in H. injection H as <- <- <-. rewrite app_nil_r. split; [exact Z2|].
  exists (zr_out r), m, c', p'. split; [exact K1|exact Ec].
Qed.

(** One decompress call of a fresh session. *)
Lemma one_output fuel s0 fl F ret s evs : started z s0 -> normal_flush fl ->
  zc_bad C F = false -> zc_fin C F = false -> archive_of ContentDirectory (zc_dec C F) ->
  lenN (zc_dec C F) < 128 + d_tmpsz s0 -> lenN F < two32 ->
  decompress e alloc fuel fl F s0 = Ok (ret, s, evs) ->
  evs = [] \/ exists t s' ev', evs = EvDirBegin :: ev' /\
    parse e alloc t (dir_fresh (set_err false (d_p s0))) (dropN 128 (zc_dec C F)) = Ok (s', ev').
Proof.
  intros St Hf B Fi (L1 & Ver & Typ) Lt LF H.
  pose proof (started_leftovers z s0 St) as Lo.
  destruct (started_inv z C e alloc s0 St) as [(P & Hp & _ & _ & (I & HP & EP))|(H0 & p0 & ch & (Q & Qi & _))].
  2:{ destruct St as (buf & size & hj & pj & Hc & _). unfold create in Hc. destruct (inflateInit z); [|discriminate]. injection Hc as <-. discriminate. }
  rewrite zc_dec_nil in EP. subst P.
  unfold decompress in H. assert (Di : d_inited s0 = false) by apply Hp. rewrite Di in H.
  assert (Hp' : hphase z (d_p s0) (feed F s0) []).
  { destruct Hp as (A1 & A2 & A3 & A4 & A5 & A6 & A7 & A8 & A9 & A10 & A11 & A12). repeat split; auto; apply A12. }
  set (s1 := feed F s0) in *. assert (I1 : zc_iinv C (z_st (d_zs s1)) [] []) by exact I.
  assert (Ein : z_inp (d_zs s1) = F).
  { cbn [s1 feed d_zs with_zs z_inp]. apply takeN_all. unfold u32, two32 in *. lia. }
  assert (Ne : F <> []). { intros ->. rewrite (zc_dec_nil _ C) in L1. change (lenN []) with 0 in L1. lia. }
  destruct fuel as [|fuel]; [discriminate|].
  destruct (run_hdr_step z C e alloc (d_p s0) s1 [] fl [] [] Hp' I1 ltac:(now rewrite Ein) ltac:(reflexivity)) as (s2 & Hp2 & A1 & A2 & A3 & A4 & A5 & E).
  rewrite E in H; clear E. rewrite Ein in *. change (128 - lenN []) with 128 in *. cbn [app] in Hp2.
  set (r := inflate z (z_st (d_zs s1)) fl F 128) in *.
  assert (H0 : 0 < 128) by reflexivity.
  pose proof (zc_ivalid _ C _ _ _ _ _ _ r I1 Hf Ne H0 B Fi eq_refl) as Hok.
  rewrite Hok in H. cbn [Z.eqb negb Z_OK] in H.
  destruct (zc_istep _ C _ _ _ _ _ _ r I1 eq_refl) as (S1 & S2 & S3). cbn [app] in S3.
  assert (H128 : lenN (zr_out r) = 128).
  { destruct (N.ltb_spec (lenN (zr_out r)) 128) as [Q|Q]; [|lia].
    destruct (zc_icomplete _ C _ _ _ _ _ _ r I1 Hf eq_refl Hok Q) as (_ & K1 & _). cbn [app] in K1. rewrite <- K1 in L1. lia. }
  assert (Pre : takeN 128 (zc_dec C F) = zr_out r).
  { destruct (zc_iprefix _ C _ _ _ S3) as [y Ey].
    destruct (zc_dec_mono _ C (takeN (zr_used r) F) (dropN (zr_used r) F)) as [w Ew].
    rewrite takeN_dropN in Ew. rewrite Ew, Ey, <- app_assoc. now apply takeN_app_exact. }
  rewrite (header_begin_full z e _ _ _ Hp2 H128) in H.
  assert (V1 : version_of (zr_out r) = 0).
  { rewrite <- Ver, <- Pre. unfold version_of. now rewrite slice_takeN by lia. }
  rewrite V1 in H. cbn [N.eqb obind] in H.
  set (s3 := DS (d_zs s2) CbV0 BUser (d_tmpsz s2) (hdr_convert e (zr_out r)) (d_tmp s2) (d_tmp s2) (d_tmpsz s2) true
                       (set_err false (d_p s2))) in *.
  destruct (run fuel Reset Z_NO_FLUSH s3) as [[[r2 s4] ev1]| |] eqn:E2; try discriminate H. cbn [obind] in H.
  destruct (run fuel NoTouch Z_NO_FLUSH s4) as [[[r3 s5] ev2]| |] eqn:E3; try discriminate H. cbn [obind] in H. injection H as <- <- <-.
  destruct fuel as [|fuel]; [discriminate|].
  destruct (z_inp (d_zs s3)) eqn:Ei.
  - left. rewrite run_inp_nil in E2 by exact Ei. injection E2 as <- <- <-.
    rewrite run_inp_nil in E3 by exact Ei. injection E3 as <- <- <-. reflexivity.
  - assert (Ei' : z_inp (d_zs s3) <> []) by (rewrite Ei; discriminate).
    assert (Cn : content z s3). { split; [discriminate|]. split; [reflexivity|]. cbn. apply Hp2. }
    assert (Ex : takeN (zr_used r) F ++ z_inp (d_zs s3) = F).
    { change (z_inp (d_zs s3)) with (z_inp (d_zs s2)). rewrite A2. apply takeN_dropN. }
    assert (I3 : zc_iinv C (z_st (d_zs s3)) (takeN (zr_used r) F) (zr_out r)).
    { change (z_st (d_zs s3)) with (z_st (d_zs s2)). rewrite A1. exact S3. }
    destruct (one_content _ _ _ _ _ _ _ _ E2 Cn ltac:(unfold normal_flush, Z_NO_FLUSH; lia) I3 Ei') as (Z4 & x & t & c' & p' & Dx & Cb).
    { now rewrite Ex. } { now rewrite Ex. } { rewrite Ex, H128. change (d_bsz s3) with (d_tmpsz s2). rewrite A5. exact Lt. }
    rewrite run_inp_nil in E3 by exact Z4. injection E3 as <- <- <-. rewrite app_nil_r. right.
    rewrite Ex in Dx.
    assert (Ty : hdr_type e (d_hdr s3) = ContentDirectory).
    { cbn [d_hdr s3]. destruct (hdr_convert_fields e (zr_out r)) as [_ ->]; [lia|].
      rewrite <- Typ, <- Pre. unfold type_of. now rewrite slice_takeN by lia. }
    rewrite Ty in Cb. change (d_cb s3) with CbV0 in Cb. change (d_p s3) with (set_err false (d_p s2)) in Cb. rewrite A3 in Cb.
    change (d_p s1) with (d_p s0) in Cb.
    destruct (content_run_dir0 e alloc (set_err false (d_p s0)) x t [] Lo) as (sx & ex & Px & Cx).
    cbn [content_run] in Cx. rewrite Cb in Cx. cbn [obind] in Cx. rewrite app_nil_r in Cx. injection Cx as _ _ Cx.
    cbn [parse_chunks] in Px. destruct (parse e alloc t _ x) as [[sy ey]| |] eqn:Ep; try discriminate Px. cbn [obind] in Px. rewrite app_nil_r in Px.
    injection Px as <- <-. exists t, sy, ey. split; [exact Cx|].
    rewrite <- Dx, dropN_app_exact by (symmetry; exact H128). exact Ep.
Qed.
End One.

Lemma one_chunk archive inp fuel : (length inp < fuel)%nat -> lenN (limited archive 0 inp) < DEF_CHUNK_SIZE -> limited archive 0 inp <> [] ->
  archive = 0 \/ archive <= lenN inp -> chunk_ops archive fuel inp 0 0 = [DFeed 0 (limited archive 0 inp)].
Proof.
  intros Hf L Ne Hl. destruct fuel as [|fuel]; [lia|]. cbn [chunk_ops].
  change (Z.of_N (N.shiftr (N.land (0 + 1) 16) 4)) with 0%Z. unfold next_size, limited in *.
  destruct (N.ltb_spec 0 archive) as [Ha|Ha].
  - rewrite N.sub_0_r in *. destruct Hl as [->|Hl]; [lia|]. rewrite lenN_takeN in L.
    replace (N.min archive DEF_CHUNK_SIZE) with archive by lia.
    destruct (N.ltb_spec archive 1); [lia|]. rewrite lenN_takeN. destruct (N.ltb_spec (N.min archive (lenN inp)) archive); [reflexivity|].
    destruct fuel as [|fuel]; [reflexivity|]. cbn [chunk_ops]. unfold next_size.
    destruct (N.ltb_spec 0 archive); [|lia]. replace (0 + N.min archive (lenN inp)) with archive by lia.
    rewrite N.ltb_irrefl. reflexivity.
  - rewrite takeN_all by lia. destruct (N.ltb_spec DEF_CHUNK_SIZE 1); [unfold DEF_CHUNK_SIZE in *; lia|].
    destruct (N.ltb_spec (lenN inp) DEF_CHUNK_SIZE); [reflexivity|lia].
Qed.

(** ** Trees with links *)

(** The callbacks [evs] present the records [rs] and the link callbacks read their targets. *)
Definition lshows (rs : list arec) (evs : list event) : Prop := shows rs (flat evs) /\ told evs = map Some (targets rs).

Lemma told_cons ev evs : told (ev :: evs) = match ev with EvSym d t => [cstr (d ++ t)] | _ => [] end ++ told evs.
Proof. reflexivity. Qed.
Lemma told_reads ds : told (map EvRead ds) = [].
Proof. induction ds; [reflexivity|]. exact IHds. Qed.

(** Splitting off the first entry. *)
Lemma ltree_at_cons um n nd es : forall r, ~ In n (map fst es) ->
  ltree_at um r ((n, nd) :: es) = match ltree_at um r [(n, nd)] with Some i => Some i | None => ltree_at um r es end.
Proof.
  intros [|c r] H; [reflexivity|]. cbn [ltree_at entry_of]. destruct (dotb c); [reflexivity|].
  destruct (bytes_eqb n c) eqn:E; [|reflexivity].
  apply bytes_eqb_spec in E. subst c.
  assert (Q : entry_of n es = None).
  { clear - H. induction es as [|[m x] es IH]; [reflexivity|]. cbn [entry_of].
    destruct (bytes_eqb m n) eqn:E. { apply bytes_eqb_spec in E. subst. destruct H. now left. }
    apply IH. intro Q. apply H. now right. }
  rewrite Q. destruct nd as [| |? ? []|]; destruct r; try reflexivity.
  match goal with |- ?a = _ => destruct a; reflexivity end.
Qed.

Lemma ltree_at_single_none um n nd r : (forall r', r = n :: r' -> dotb n = true) -> ltree_at um r [(n, nd)] = None.
Proof.
  intro H. destruct r as [|c r]; [reflexivity|]. cbn [ltree_at entry_of]. destruct (dotb c) eqn:D; [reflexivity|].
  destruct (bytes_eqb n c) eqn:E; [|reflexivity]. apply bytes_eqb_spec in E. subst c. rewrite (H r eq_refl) in D. discriminate.
Qed.
Lemma ltree_at_none um es : forall r, (forall c r', r = c :: r' -> In c (map fst es) -> dotb c = true) -> ltree_at um r es = None.
Proof.
  intros [|c r] H; [reflexivity|]. cbn [ltree_at]. destruct (dotb c) eqn:D; [reflexivity|].
  assert (Q : entry_of c es = None).
  { assert (N : ~ In c (map fst es)) by (intro Q; rewrite (H c r eq_refl Q) in D; discriminate).
    clear - N. induction es as [|[m x] es IH]; [reflexivity|]. cbn [entry_of].
    destruct (bytes_eqb m c) eqn:E. { apply bytes_eqb_spec in E. subst. destruct N. now left. }
    apply IH. intro Q. apply N. now right. }
  now rewrite Q.
Qed.

Section Place.
Context (target : bytes) (hal : N -> bool) (stk : N).
Hypothesis Hal : forall n, hal n = true.
Hypothesis Stk : PATH_MAX + 4 <= stk.
Notation cb := (cb target hal stk).
Notation cbs := (cbs target hal stk).

(** A link record. *)
Lemma place_link h o s t it name tg d tl : in_dir h s -> plain name -> lenN s < PATH_MAX -> tg <> [] -> lenN tg < PATH_MAX ->
  cstr (d ++ tl) = Some tg -> dir_at o s t -> o_fs o (t ++ [name]) = None -> can_w (o_priv o) (dir_mode (o_fs o) t) = true ->
  dir_at o (path_string (o_cwd o)) (o_cwd o) -> lenN (path_string (o_cwd o)) < 1023 ->
  exists h', exec (cbs [EvEntry FtSymLink it (padded name); EvSym d tl] h) o =
      Ok (h', with_fs (upd (o_fs o) (t ++ [name]) (ILink tg)) o) /\ in_dir h' s /\ same_h h h'.
Proof.
  intros (Nz & Ld & junk & Ed) Pn Ls Tn Lt Tc Da Ab W Dc Lc.
  exists (h_setname (padded name) h). split; [|split; [split; [exact Nz|split; [exact Ld|eauto]]|repeat split]].
  rewrite exec_cbs_cons. unfold HL.cb at 1, cb_entry. cbn [exec obind]. rewrite exec_cbs_cons. cbn [HL.cb HL.cbs exec obind]. unfold cb_sym.
  set (c := o_cwd o) in *.
  rewrite exec_sys. cbn [sys]. unfold sys_getcwd. fold c.
  destruct Dc as [Dn Dl]. destruct (proj1 Dl) as (mc & Ec & Xc). rewrite Ec.
  replace (1023 <=? lenN (path_string c)) with false by (symmetry; apply N.leb_gt; exact Lc). cbn [fst snd].
  cbn [h_dp h_setname]. rewrite Ed. unfold with_cstr at 1. rewrite cstr_app by exact Nz.
  rewrite exec_sys. cbn [sys]. rewrite (chdir_dir o s t Da Ls). cbn [fst snd].
  unfold with_cstr at 1. rewrite Tc. unfold with_cstr at 1. cbn [h_name h_setname].
  pose proof Pn as (P1 & P2 & P3 & P4 & P5 & P6).
  assert (Ln : lenN name + 8 < two32) by (unfold NAME_MAX, two32 in *; lia).
  destruct (norm_len32_spec (lenN name) Ln) as (_ & M1 & _).
  assert (Cn : cstr (padded name) = Some name) by (unfold padded; rewrite zeros_cons by lia; now apply cstr_app).
  rewrite Cn, exec_sys. cbn [sys].
  assert (Sy : sys_symlink tg name (with_cwd t o) = (ROk, with_fs (upd (o_fs o) (t ++ [name]) (ILink tg)) (with_cwd t o))).
  { unfold sys_symlink. destruct tg as [|b tg]; [contradiction|]. cbn [nonempty negb].
    replace (PATH_MAX <=? lenN (b :: tg)) with false by (symmetry; apply N.leb_gt; exact Lt).
    unfold namei. destruct name as [|b0 name0] eqn:En0; [contradiction|]. rewrite <- En0 in *. 
    replace (nonempty name) with true by (now rewrite En0). cbn [negb].
    replace (PATH_MAX <=? lenN name) with false by (symmetry; apply N.leb_gt; unfold NAME_MAX, PATH_MAX in *; lia).
    rewrite (comps_plain name Pn). cbn [o_fs o_priv o_cwd with_cwd].
    assert (Es : start name t = t).
    { unfold start, absolute. rewrite En0 in P2 |- *. destruct (byte_eqb b0 x2f) eqn:Eb; [|reflexivity].
      apply byte_eqb_spec in Eb. subst b0. destruct P2. now left. }
    rewrite Es.
    destruct (dir_mode_at _ _ _ Da) as (mt & Et & _ & Xt).
    assert (Le : leads (o_fs o) (o_priv o) MAX_LINKS t [] t).
    { split; [exists mt; split; [exact Et|exact Xt]|]. left. apply walk_eq. }
    change [name] with ([] ++ [name]). rewrite (walk_snoc (o_fs o) (o_priv o) false name Pn MAX_LINKS t [] t Le) by (intro x; rewrite Ab; discriminate).
    rewrite Ab.
    assert (Sl : slash_end name = false).
    { destruct (slash_end name) eqn:Q; [|reflexivity]. exfalso. pose proof (slash_end_entry [] name Pn) as Q2. unfold slash_end in Q, Q2.
      rewrite En0 in Q, Q2. cbn [app last] in Q, Q2. congruence. }
    rewrite Sl, W. reflexivity. }
  rewrite Sy. cbn [fst snd]. rewrite exec_sys. cbn [sys].
  rewrite (chdir_dir _ (path_string c) c); [cbn [fst snd exec]|..].
  - destruct o as [fs fr cw um pr fds nx]. reflexivity.
  - apply (home_keeps c o).
    + split; [reflexivity|]. split; assumption.
    + cbn [o_fs with_fs with_cwd]. apply keeps_upd_new. exact Ab.
    + reflexivity.
  - unfold PATH_MAX. lia.
Qed.

Section Tree.
Context (priv : bool) (um : N).

(** Where entries can be made. *)
Definition lready (o : os) (s : bytes) (t : path) : Prop :=
  ready priv um o s t /\ dir_at o (path_string (o_cwd o)) (o_cwd o) /\ lenN (path_string (o_cwd o)) < 1023.

Lemma lready_keeps o o' s t : lready o s t -> same_env o o' -> keeps (o_fs o) (o_fs o') -> lready o' s t.
Proof.
  intros (A & B & D) E K. split; [eapply ready_keeps; eauto|]. destruct E as (F1 & F2 & F3 & F4). rewrite F1. split; [|exact D].
  eapply dir_at_keeps; eauto.
Qed.

(** The events [evs1] put the inodes [g] below the directory. *)
Definition lputs (evs1 : list event) (g : path -> option inode) (vol : N) (s : bytes) (t : path) (free : path -> Prop) : Prop :=
  forall h o, in_dir h s -> lready o s t -> (forall r, free r -> o_fs o (t ++ r) = None) -> vol <= o_free o ->
  exists h' o', exec (cbs evs1 h) o = Ok (h', o') /\ in_dir h' s /\ same_h h h' /\ same_env o o' /\
    o_free o' = o_free o - vol /\ keeps (o_fs o) (o_fs o') /\ forall q, o_fs o' q = overlay t g (o_fs o) q.

Definition lplaced (rs : list arec) (g : path -> option inode) (s : bytes) (t : path) (free : path -> Prop) : Prop :=
  forall rest evs st, lshows (rs ++ rest) evs -> proto_run Idle evs = Some st ->
  exists ev1 ev2, evs = ev1 ++ ev2 /\ lshows rest ev2 /\ proto_run Idle ev2 = Some st /\
    lputs ev1 g (volume rs) s t free.

Definition lnode_placed (nd : snode) : Prop := forall name s t, quiet nd -> lextractable priv um (lenN s) name nd -> ~ In x00 s ->
  lplaced (preorder1 name nd) (fun r => ltree_at um r [(name, nd)]) s t (below name).

Lemma lputs_nil g s t fr : (forall r, g r = None) -> lputs [] g 0 s t fr.
Proof.
  intros G h o D R _ _. exists h, o. cbn. rewrite N.sub_0_r. repeat split; auto; try apply D; try apply keeps_refl.
  intro q. symmetry. apply overlay_out. auto.
Qed.

Lemma lputs_app ev1 ev2 (g1 g2 g : path -> option inode) v1 v2 s t f1 f2 (f : path -> Prop) : lputs ev1 g1 v1 s t f1 -> lputs ev2 g2 v2 s t f2 ->
  (forall r, f1 r -> f r) -> (forall r, f2 r -> f r /\ g1 r = None) ->
  (forall r, g r = match g1 r with Some i => Some i | None => g2 r end) -> (forall r, g2 r <> None -> g1 r = None) ->
  lputs (ev1 ++ ev2) g (v1 + v2) s t f.
Proof.
  intros P1 P2 F1 F2 G G2 h o D R Fr L.
  destruct (P1 h o D R) as (h1 & o1 & X1 & D1 & H1 & E1 & V1 & K1 & Y1). { auto. } { lia. }
  destruct (P2 h1 o1 D1 (lready_keeps _ _ _ _ R E1 K1)) as (h2 & o2 & X2 & D2 & H2 & E2 & V2 & K2 & Y2).
  { intros r Hr. destruct (F2 r Hr) as [A B]. rewrite Y1, overlay_at, B. auto. } { lia. }
  exists h2, o2. rewrite exec_cbs_app, X1. cbn [obind]. split; [exact X2|]. split; [exact D2|].
  split; [eapply same_h_trans; eauto|]. split; [eapply same_env_trans; eauto|]. split; [lia|].
  split; [eapply keeps_trans; eauto|]. intro q. rewrite Y2. unfold overlay. rewrite Y1. unfold overlay.
  destruct (strip t q) as [r|]; [|reflexivity]. rewrite G. specialize (G2 r).
  destruct (g2 r); [rewrite G2 by discriminate; reflexivity|]. destruct (g1 r); reflexivity.
Qed.

Lemma llist_placed es : Forall (fun x => lnode_placed (snd x)) es -> forall s t, Forall (fun x => quiet (snd x)) es ->
  NoDup (map fst es) -> Forall (fun x => lextractable priv um (lenN s) (fst x) (snd x)) es -> ~ In x00 s ->
  lplaced (preorder es) (fun r => ltree_at um r es) s t (fun r => exists c, In c (map fst es) /\ below c r).
Proof.
  induction es as [|[n nd] es IH]; intros HP s t Q ND X Nz rest evs st S P.
  { exists [], evs. cbn in S |- *. split; [reflexivity|]. split; [exact S|]. split; [exact P|]. apply lputs_nil.
    intro r. now apply ltree_at_none. }
  inversion HP as [|? ? HP1 HP2]; inversion Q as [|? ? Q1 Q2]; inversion X as [|? ? X1 X2]; inversion ND as [|? ? N1 N2]; subst.
  cbn [fst snd map] in *. rewrite preorder_cons, <- app_assoc in S.
  destruct (HP1 n s t Q1 X1 Nz _ _ _ S P) as (ev1 & ev2 & -> & S2 & P2 & U1).
  destruct (IH HP2 s t Q2 N2 X2 Nz _ _ _ S2 P2) as (ev3 & ev4 & -> & S4 & P4 & U3).
  exists (ev1 ++ ev3), ev4. split; [now rewrite app_assoc|]. split; [exact S4|]. split; [exact P4|].
  rewrite preorder_cons, (volume_app hal stk Hal Stk). eapply lputs_app; [exact U1|exact U3| | | |].
  - intros r Hr. exists n. split; [now left|exact Hr].
  - intros r (c & Hc & B). split; [exists c; split; [now right|exact B]|].
    apply ltree_at_single_none. intros r' ->. destruct B as (B1 & r2 & B2). injection B2 as -> ->. contradiction.
  - intro r. apply ltree_at_cons. exact N1.
  - intros r Hr. apply ltree_at_single_none. intros r' ->. exfalso. apply Hr. apply ltree_at_none.
    intros c r2 E Hc. injection E as -> ->. contradiction.
Qed.

Lemma lfile_placed o st m sz d r : lnode_placed (SFile o st m sz d r).
Proof.
  intros name s t Q X Nz rest evs pst S P. cbn [preorder1] in *.
  destruct (dotb name) eqn:D.
  { exists [], evs. split; [reflexivity|]. split; [exact S|]. split; [exact P|]. apply lputs_nil.
    intro q. apply ltree_at_single_none. auto. }
  inversion Q; subst. inversion X as [? ? ? Dd| | | |]; subst; [apply dotb_spec in Dd; congruence|].
  cbn [app] in S. destruct S as [S Tl]. inversion S as [| |? ? ? ? o S' E1 E2| |]; subst. symmetry in E2.
  destruct (idle_entry _ _ _ _ _ _ P E2) as (evs' & -> & F).
  cbn [proto_run proto_step it_size] in P. destruct (file_reads _ _ _ _ _ P F) as (ds & evs2 & -> & Ed & F2 & P2).
  exists (EvEntry FtFile (Item (lenN d) (norm_len64 (lenN d)) (lenN name) (norm_len32 (lenN name)) m CT_FILE) (padded name) :: map EvRead ds ++ [EvFileEnd]), evs2.
  split. { cbn [app]. now rewrite <- app_assoc. }
  split. { split; [now rewrite F2|]. rewrite (told_cons (EvEntry _ _ _)), told_app, told_reads in Tl. exact Tl. }
  split; [exact P2|].
  intros h os D0 ((Rd & Ru & Rp & Rw) & Rc) Fr L. cbn [volume] in *. rewrite N.add_0_r in *.
  assert (Ab : o_fs os (t ++ [name]) = None) by (apply Fr; split; [exact D|eauto]).
  match goal with Hp : plain name |- _ => rename Hp into Pn end.
  match goal with Hp : _ + 1 + _ < PATH_MAX |- _ => rename Hp into Ln end.
  edestruct (place_file target hal stk Hal Stk h os s t (Item (lenN d) (norm_len64 (lenN d)) (lenN name) (norm_len32 (lenN name)) m CT_FILE) name ds) as (h' & o' & X1 & D1 & H1 & E1 & V1 & Y1);
    [exact D0|reflexivity|exact Pn|exact Ln|exact Rd|exact Ab|now rewrite Rp|rewrite Ed; exact L|].
  exists h', o'. split; [exact X1|]. split; [exact D1|]. split; [exact H1|]. split; [exact E1|]. split; [rewrite <- Ed; exact V1|].
  rewrite Ed, Ru in Y1. cbn [it_mode] in Y1.
  assert (Yo : forall q, o_fs o' q = overlay t (fun q0 => ltree_at um q0 [(name, SFile true true m (lenN d) d false)]) (o_fs os) q).
  { intro q. rewrite Y1. destruct (path_dec q (t ++ [name])) as [->|Hn].
    - rewrite upd_same, overlay_at. cbn [ltree_at entry_of]. rewrite D, (proj2 (bytes_eqb_spec name name) eq_refl). reflexivity.
    - rewrite upd_other by exact Hn. symmetry. apply overlay_out. intros q0 ->.
      destruct q0 as [|c q0]; [reflexivity|]. cbn [ltree_at entry_of]. destruct (dotb c); [reflexivity|].
      destruct (bytes_eqb name c) eqn:Ec; [|reflexivity]. apply bytes_eqb_spec in Ec. subst c. destruct q0; [congruence|reflexivity]. }
  split; [|exact Yo]. eapply overlay_keeps; [|exact Yo]. intros q Hq. apply Fr.
  split; [exact D|]. destruct q as [|c q]; [contradiction|]. exists q. f_equal.
  cbn [ltree_at entry_of] in Hq. destruct (dotb c); [contradiction|]. destruct (bytes_eqb name c) eqn:Ec; [|contradiction].
  apply bytes_eqb_spec in Ec. congruence.
Qed.

Lemma ldir_placed m es : Forall (fun x => lnode_placed (snd x)) es -> lnode_placed (SDir m es).
Proof.
  intros HP name s t Q X Nz rest evs pst S P. cbn [preorder1] in *.
  destruct (dotb name) eqn:D.
  { exists [], evs. split; [reflexivity|]. split; [exact S|]. split; [exact P|]. apply lputs_nil.
    intro q. apply ltree_at_single_none. auto. }
  inversion Q as [|? ? Qe| |]; subst. inversion X as [? ? ? Dd| | | |? ? ? ? Pn Ln [Ux Uw] ND Xe]; subst; [apply dotb_spec in Dd; congruence|].
  cbn [app] in S. destruct S as [S Tl]. inversion S as [|? ? ? o it I1 I2 I3 I4 S' E1 E2| | |]; subst. symmetry in E2.
  destruct (idle_entry _ _ _ _ _ _ P E2) as (evs' & -> & <-).
  cbn [proto_run proto_step] in P. fold (preorder es) in *. rewrite <- app_assoc in S'.
  assert (S0 : lshows (preorder es ++ [AEnd] ++ rest) evs').
  { split; [exact S'|]. rewrite <- app_assoc in Tl. exact Tl. }
  assert (Nz2 : ~ In x00 (s ++ x2f :: name)) by (now apply no_nul).
  assert (Ls : lenN (s ++ x2f :: name) = lenN s + 1 + lenN name) by (rewrite lenN_app, lenN_cons; lia).
  rewrite <- Ls in Xe.
  destruct (llist_placed es HP (s ++ x2f :: name) (t ++ [name]) Qe ND Xe Nz2 _ _ _ S0 P) as (ev1 & ev2 & -> & S2 & P2 & U).
  cbn [app] in S2. destruct S2 as [S2 Tl2]. inversion S2 as [| | | |? o2 S3 E3 E4]; subst. symmetry in E4.
  destruct (idle_end _ _ _ P2 E4) as (ev3 & -> & <- & P3).
  exists (EvEntry FtDir it (padded name) :: ev1 ++ [EvDirEnd]), ev3.
  split. { cbn [app]. now rewrite <- app_assoc. }
  split; [split; [exact S3|exact Tl2]|]. split; [exact P3|].
  intros h os D0 ((Rd & Ru & Rp & Rw) & Rc & Rl) Fr L.
  replace (volume (ADir name (it_mode it) :: preorder es ++ [AEnd])) with (volume (preorder es)) in *
    by (cbn [volume]; rewrite (volume_app hal stk Hal Stk); cbn [volume]; lia).
  assert (Ab : o_fs os (t ++ [name]) = None) by (apply Fr; split; [exact D|eauto]).
  destruct (enter_dir target hal stk Hal Stk h os s t it name D0 I1 Pn Ln Rd Ab ltac:(now rewrite Rp)) as (h1 & X1 & D1 & H1).
  rewrite exec_cbs_cons, X1. cbn [obind]. rewrite exec_cbs_app. rewrite Ru.
  set (o1 := with_fs (upd (o_fs os) (t ++ [name]) (IDir (dir_perm um (it_mode it)))) os).
  assert (K1 : keeps (o_fs os) (o_fs o1)) by (apply keeps_upd_new; exact Ab).
  assert (R1 : lready o1 (s ++ x2f :: name) (t ++ [name])).
  { split; [|split; [eapply dir_at_keeps; [exact K1|reflexivity|reflexivity|exact Rc]|exact Rl]].
    split; [|split; [exact Ru|split; [exact Rp|]]].
    - eapply dir_at_entry; [exact Pn|eapply dir_at_keeps; [exact K1|reflexivity|reflexivity|exact Rd]|apply upd_same|].
      cbn. now rewrite Rp.
    - unfold dir_mode, o1. cbn [o_fs with_fs]. rewrite upd_same. exact Uw. }
  destruct (U h1 o1 D1 R1) as (h2 & o2 & X2 & D2 & H2 & E2' & V2 & K2 & Y2).
  { intros r (c & Hc & B1 & r' & ->). unfold o1. cbn [o_fs with_fs]. rewrite upd_other.
    - rewrite <- app_assoc. apply Fr. split; [exact D|]. eexists. reflexivity.
    - intro Q'. apply (f_equal (@length bytes)) in Q'. rewrite !app_length in Q'. cbn [length] in Q'. lia. }
  { exact L. }
  rewrite X2. cbn [obind]. rewrite exec_cbs_cons.
  destruct (leave_dir target hal stk h2 o2 s name D2 Pn) as (h3 & X3 & D3 & H3). rewrite X3. cbn [obind HL.cbs exec].
  exists h3, o2. split; [reflexivity|]. split; [exact D3|].
  split. { eapply same_h_trans; [exact H1|]. eapply same_h_trans; [exact H2|exact H3]. }
  split; [exact E2'|]. split; [exact V2|].
  split; [eapply keeps_trans; eauto|].
  intro q. rewrite Y2. unfold o1. cbn [o_fs with_fs].
  destruct (strip t q) as [r|] eqn:St.
  2:{ unfold overlay at 2. rewrite St. rewrite overlay_out.
      - apply upd_other. intros ->. rewrite strip_app in St. discriminate.
      - intros r ->. rewrite <- app_assoc, strip_app in St. discriminate. }
  apply strip_spec in St. subst q. rewrite overlay_at.
  destruct r as [|c r].
  { cbn [ltree_at]. rewrite app_nil_r. rewrite overlay_out.
    - apply upd_other. intro Q'. apply (f_equal (@length bytes)) in Q'. rewrite app_length in Q'. cbn in Q'. lia.
    - intros r Q'. apply (f_equal (@length bytes)) in Q'. rewrite !app_length in Q'. cbn in Q'. lia. }
  cbn [ltree_at entry_of]. destruct (bytes_dec name c) as [<-|Hc].
  - rewrite D, (proj2 (bytes_eqb_spec name name) eq_refl).
    change (t ++ name :: r) with (t ++ ([name] ++ r)). rewrite app_assoc, overlay_at.
    destruct r as [|c' r]. { cbn [ltree_at]. rewrite app_nil_r, upd_same. reflexivity. }
    rewrite upd_other; [reflexivity|]. intro Q'. apply (f_equal (@length bytes)) in Q'. rewrite !app_length in Q'. cbn in Q'. lia.
  - rewrite (bytes_eqb_neq _ _ Hc). rewrite overlay_out.
    + rewrite upd_other. { now destruct (dotb c). } intro Q'. apply app_inv_head in Q'. congruence.
    + intros q Q'. exfalso. rewrite <- app_assoc in Q'. apply app_inv_head in Q'. cbn in Q'. congruence.
Qed.

Lemma llink_placed m sz tg : lnode_placed (SLink m sz tg).
Proof.
  intros name s t Q X Nz rest evs pst S P. cbn [preorder1] in *.
  destruct (dotb name) eqn:D.
  { exists [], evs. split; [reflexivity|]. split; [exact S|]. split; [exact P|]. apply lputs_nil.
    intro q. apply ltree_at_single_none. auto. }
  inversion Q as [| |? tgt|]; subst. inversion X as [? ? ? Dd| | |? ? ? ? ? Pn Ls Tn Tz Tl0|]; subst; [apply dotb_spec in Dd; congruence|].
  cbn [app] in S. destruct S as [S Tl]. inversion S as [| | |? ? ? ? o S' E1 E2|]; subst. symmetry in E2.
  destruct (idle_entry _ _ _ _ _ _ P E2) as (evs' & -> & F).
  cbn [proto_run proto_step] in P. destruct evs' as [|ev evs2]; [discriminate|]. destruct ev; try discriminate P.
  cbn [proto_run proto_step] in P. rewrite flat_cons in F. cbn [flat1 app] in F. injection F as F.
  rewrite !told_cons in Tl. change (targets (ALink name m tgt :: rest)) with (tgt :: targets rest) in Tl. cbn [map app] in Tl.
  injection Tl as Tc Tl.
  eexists [_; EvSym _ _], evs2. split; [reflexivity|].
  split; [split; [now rewrite F|exact Tl]|]. split; [exact P|].
  intros h os D0 ((Rd & Ru & Rp & Rw) & Rc & Rl) Fr L. cbn [volume] in *.
  assert (Ab : o_fs os (t ++ [name]) = None) by (apply Fr; split; [exact D|eauto]).
  match goal with |- context [EvEntry FtSymLink ?it _] =>
  destruct (place_link h os s t it name tgt data tail D0 Pn Ls Tn Tl0 Tc Rd Ab ltac:(now rewrite Rp) Rc Rl) as (h' & X1 & D1 & H1) end.
  eexists h', _. split; [exact X1|]. split; [exact D1|]. split; [exact H1|]. split; [repeat split|]. split; [cbn; lia|].
  split; [apply keeps_upd_new; exact Ab|].
  intro q. cbn [o_fs with_fs]. destruct (path_dec q (t ++ [name])) as [->|Hn].
  - rewrite upd_same, overlay_at. cbn [ltree_at entry_of]. rewrite D, (proj2 (bytes_eqb_spec name name) eq_refl). reflexivity.
  - rewrite upd_other by exact Hn. symmetry. apply overlay_out. intros q0 ->.
    destruct q0 as [|c q0]; [reflexivity|]. cbn [ltree_at entry_of]. destruct (dotb c); [reflexivity|].
    destruct (bytes_eqb name c) eqn:Ec; [|reflexivity]. apply bytes_eqb_spec in Ec. subst c. destruct q0; [congruence|reflexivity].
Qed.

Lemma lnode_placed_all : forall nd, lnode_placed nd.
Proof.
  induction nd as [o st m sz d r|m es IH|m sz tg|] using snode_ind2.
  - apply lfile_placed.
  - now apply ldir_placed.
  - apply llink_placed.
  - intros name s t Q X Nz rest evs pst S P. cbn [preorder1] in *.
    exists [], evs. replace (if dotb name then [] else []) with (@nil arec) in * by (now destruct (dotb name)).
    split; [reflexivity|]. split; [exact S|]. split; [exact P|]. apply lputs_nil.
    intros [|c q]; [reflexivity|]. cbn [ltree_at entry_of]. destruct (dotb c); [reflexivity|]. now destruct (bytes_eqb name c).
Qed.

(** A whole archive. *)
Lemma ltree_placed es s t evs st : Forall (fun x => quiet (snd x)) es -> NoDup (map fst es) ->
  Forall (fun x => lextractable priv um (lenN s) (fst x) (snd x)) es -> ~ In x00 s ->
  lshows (preorder es) evs -> proto_run Idle evs = Some st ->
  lputs evs (fun r => ltree_at um r es) (volume (preorder es)) s t (fun r => r <> []).
Proof.
  intros Q ND X Nz S P.
  assert (HP : Forall (fun x : bytes * snode => lnode_placed (snd x)) es) by (apply Forall_forall; intros; apply lnode_placed_all).
  rewrite <- (app_nil_r (preorder es)) in S.
  destruct (llist_placed es HP s t Q ND X Nz _ _ _ S P) as (ev1 & ev2 & -> & S2 & P2 & U).
  destruct S2 as [S2 _]. inversion S2 as [Z|? ? ? ? ? ? ? ? ? ? Z1 Z2|? ? ? ? ? ? Z1 Z2|? ? ? ? ? ? Z1 Z2|]; subst.
  assert (E2 : ev2 = []).
  { destruct ev2 as [|ev ev2]; [reflexivity|]. rewrite flat_cons in *. exfalso.
    destruct ev; cbn in P2; try discriminate P2; cbn in *; discriminate. }
  rewrite E2, app_nil_r. intros h o A B D E. apply U; auto. intros r (c & _ & _ & r' & ->). apply D. discriminate.
Qed.
End Tree.
End Place.

(** ** Whole extractions *)

Lemma targets_clean priv um : forall nd L name, lextractable priv um L name nd -> Forall (fun tg => ~ In x00 tg) (targets (preorder1 name nd)).
Proof.
  induction nd as [o st m sz d r|m es IH|m sz tg|] using snode_ind2; intros L name X; cbn [preorder1].
  - destruct (dotb name); constructor.
  - destruct (dotb name) eqn:D; [constructor|]. inversion X as [? ? ? Dd| | | |? ? ? ? Pn Ln [Ux Uw] ND Xe]; subst; [apply dotb_spec in Dd; congruence|].
    change (targets (ADir name m :: ?a)) with (targets a). rewrite targets_app. apply Forall_app. split; [|constructor].
    clear - IH Xe. induction es as [|[n nd] es IHe]; [constructor|]. cbn [map concat fst snd]. rewrite targets_app.
    inversion IH; inversion Xe; subst. cbn [fst snd] in *. apply Forall_app. split; [eauto|auto].
  - destruct (dotb name) eqn:D; [constructor|]. inversion X as [? ? ? Dd| | |? ? ? ? ? Pn Ls Tn Tz Tl0|]; subst; [apply dotb_spec in Dd; congruence|].
    constructor; [exact Tz|constructor].
  - destruct (dotb name); constructor.
Qed.
Lemma targets_clean_all priv um L es : Forall (fun x => lextractable priv um L (fst x) (snd x)) es -> Forall (fun tg => ~ In x00 tg) (targets (preorder es)).
Proof.
  induction 1 as [|[n nd] es X _ IH]; [constructor|]. rewrite preorder_cons, targets_app. apply Forall_app. split; [|exact IH].
  eapply targets_clean. exact X.
Qed.

Section Extraction.
Context (z : zlib) (C : zlib_contract z) (e : endian) (alloc : N -> N -> bool) (hal al : N -> bool) (stk : N) (obuf hjunk : bytes) (pjunk : pst).
Hypothesis Calm : calm z hal al stk obuf hjunk pjunk.

(** As [extract_ok] (HLProps.v) with the calls on the session in view. *)
Lemma extract_calls T archive inp o fuel : (length inp < fuel)%nat -> supported z C (limited archive 0 inp) ->
  let ops := chunk_ops archive fuel inp 0 0 in
  (forall s0 dfuel rets s evs, started z s0 -> d_tmpsz s0 = DEF_CHUNK_SIZE ->
     run_dops e alloc dfuel s0 ops = Ok (rets, s, evs) ->
     exists h o1, exec (cbs T hal stk evs HS0) o = Ok (h, o1) /\ h_err h = false) ->
  exists dfuel0, forall dfuel, (dfuel0 <= dfuel)%nat -> exists s0 rets s evs h o1 o',
    started z s0 /\ d_tmpsz s0 = DEF_CHUNK_SIZE /\
    run_dops e alloc dfuel s0 ops = Ok (rets, s, evs) /\ exec (cbs T hal stk evs HS0) o = Ok (h, o1) /\ h_err h = false /\
    exec (close_fp h) o1 = Ok (tt, o') /\
    exec (extract T hal stk z e alloc archive fuel dfuel al obuf hjunk pjunk inp false) o = Ok ((h_ret h, Some (s, h, limited archive 0 inp)), o').
Proof.
  intros Hf Sup ops Hc. destruct (calm_started z C alloc hal al stk obuf hjunk pjunk Calm) as (s0 & Ec & St & Sf).
  pose proof (chunk_ops_ok archive fuel inp 0 0) as Ho. fold ops in Ho.
  pose proof (chunk_ops_fed archive fuel inp 0 0 Hf) as Fed. fold ops in Fed.
  assert (Ts : d_tmpsz s0 = DEF_CHUNK_SIZE).
  { unfold create in Ec. destruct (al 3); [|discriminate]. destruct (inflateInit z); [|discriminate]. injection Ec as <-. reflexivity. }
  destruct (session_returns_ok z C e alloc s0 ops St Ho) as (dfuel0 & [[rets s] evs] & R). { now rewrite Fed. }
  exists dfuel0. intros dfuel Hd. specialize (R dfuel Hd).
  destruct (Hc _ _ _ _ _ St Ts R) as (h & o1 & X & He).
  pose proof (drive T hal stk z e alloc archive fuel dfuel inp 0 0 s0 HS0 o rets s evs h o1 Hf R X He) as Dr.
  destruct (destroy_safe z C alloc s) as (s' & Ds).
  { eapply (run_dops_safe z C e alloc); [exact Sf| |exact R]. intros b n. apply chunk_ops_feeds. }
  assert (Cl : exists o', exec (close_fp h) o1 = Ok (tt, o')).
  { unfold close_fp. destruct (h_fp h); [|eexists; reflexivity]. rewrite exec_sys. cbn [exec]. eauto. }
  destruct Cl as (o' & Cl).
  exists s0, rets, s, evs, h, o1, o'.
  split; [exact St|]. split; [exact Ts|]. split; [exact R|]. split; [exact X|]. split; [exact He|]. split; [exact Cl|].
  unfold extract. rewrite !(ca_al _ _ _ _ _ _ _ Calm) in *. cbn [negb orb]. rewrite Ec, exec_bind, Dr. cbn [obind].
  rewrite exec_bind, Cl. cbn [obind]. rewrite Ds. reflexivity.
Qed.

Lemma extract_ldir T archive F es t o fuel : (forall k n, alloc k n = true) -> (length F < fuel)%nat ->
  archive = 0 \/ archive <= lenN F ->
  dir_archive C (limited archive 0 F) (preorder es) -> preorder es <> [] ->
  lenN (limited archive 0 F) < DEF_CHUNK_SIZE -> lenN (zc_dec C (limited archive 0 F)) < 128 + DEF_CHUNK_SIZE ->
  Forall (fun x => quiet (snd x)) es -> NoDup (map fst es) ->
  Forall (fun x => lextractable (o_priv o) (o_umask o) (lenN T) (fst x) (snd x)) es -> homely o ->
  free_spot o T t -> usable_dir (o_priv o) (o_umask o) MODE_BASE_DIR -> (forall r, o_fs o (t ++ r) = None) ->
  volume (preorder es) <= o_free o ->
  exists dfuel0, forall dfuel, (dfuel0 <= dfuel)%nat -> exists ret s h ds o',
    exec (extract T hal stk z e alloc archive fuel dfuel al obuf hjunk pjunk F false) o = Ok ((ret, Some (s, h, ds)), o') /\
    (room_left s -> ret = ContentDirectory /\ same_env o o' /\ o_free o' = o_free o - volume (preorder es) /\
       forall q, o_fs o' q = overlay t (ldir_tree (o_umask o) es) (o_fs o) q).
Proof.
  intros Halloc Hf Ha Da Ne L1 L2 Q ND X [Hr Hl] Fs U Fr V.
  set (o1 := with_fs (upd (o_fs o) t (IDir (dir_perm (o_umask o) MODE_BASE_DIR))) o).
  destruct (begin_dir z hal al stk obuf hjunk pjunk Calm T t o Fs U) as (h1 & X1 & D1 & E1 & P1 & R1 & At1 & Nw). fold o1 in X1, At1.
  assert (Rd : lready (o_priv o) (o_umask o) o1 T t).
  { split; [|split].
    - split; [exact At1|]. split; [reflexivity|]. split; [reflexivity|]. unfold dir_mode, o1. cbn [o_fs with_fs]. rewrite upd_same. apply U.
    - change (o_cwd o1) with (o_cwd o). apply (dir_at_keeps o o1); [apply keeps_upd_new; exact Nw|reflexivity|reflexivity|]. exact (reachable_dir o Hr).
    - exact Hl. }
  assert (Nz : ~ In x00 T) by apply Fs.
  assert (Run : forall evs' st, lshows (preorder es) evs' -> proto_run Idle evs' = Some st ->
    exists h' o', exec (cbs T hal stk evs' h1) o1 = Ok (h', o') /\ in_dir h' T /\ same_h h1 h' /\ same_env o1 o' /\
      o_free o' = o_free o1 - volume (preorder es) /\ keeps (o_fs o1) (o_fs o') /\
      forall q, o_fs o' q = overlay t (fun r => ltree_at (o_umask o) r es) (o_fs o1) q).
  { intros evs' st S P.
    apply (ltree_placed T hal stk (ca_hal _ _ _ _ _ _ _ Calm) (ca_stk _ _ _ _ _ _ _ Calm) (o_priv o) (o_umask o) es T t evs' st Q ND X Nz S P h1 o1 D1 Rd).
    - intros r Hr'. unfold o1. cbn [o_fs with_fs]. rewrite upd_other; [apply Fr|].
      intro Q'. apply Hr'. apply (f_equal (@length bytes)) in Q'. rewrite app_length in Q'. destruct r; [reflexivity|cbn in Q'; lia].
    - exact V. }
  assert (Env1 : same_env o o1) by (repeat split).
  set (ops := chunk_ops archive fuel F 0 0).
  pose proof Da as (B & Fi & Ar & En & Rk).
  assert (Fne : limited archive 0 F <> []).
  { intro Q'. destruct Ar as [Q2 _]. rewrite Q', (zc_dec_nil _ C) in Q2. change (lenN []) with 0 in Q2. lia. }
  assert (Eops : ops = [DFeed 0 (limited archive 0 F)]) by (apply one_chunk; assumption).
  assert (Sess : forall s0 dfuel rets s evs, started z s0 -> d_tmpsz s0 = DEF_CHUNK_SIZE -> run_dops e alloc dfuel s0 ops = Ok (rets, s, evs) ->
    evs = [] \/ exists evs' st, evs = EvDirBegin :: evs' /\ lshows (preorder es) evs' /\ proto_run Idle evs' = Some st).
  { intros s0 dfuel rets s evs St Ts R. rewrite Eops in R. cbn [run_dops] in R.
    destruct (decompress e alloc dfuel 0 (limited archive 0 F) s0) as [[[r2 s2] ev2]| |] eqn:Ed; try discriminate R. cbn [obind] in R.
    injection R as <- <- <-. rewrite app_nil_r.
    destruct (one_output z C e alloc dfuel s0 0 (limited archive 0 F) r2 s2 ev2 St) as [->|(tl & s' & ev' & -> & Pa)]; auto.
    - unfold normal_flush. lia.
    - rewrite Ts. exact L2.
    - unfold DEF_CHUNK_SIZE, two32 in *. lia.
    - right.
      assert (At : at_hdr e (dir_fresh (set_err false (d_p s0)))) by (apply fresh_at_hdr, started_leftovers, St).
      assert (Pc : parse_chunks e alloc (dir_fresh (set_err false (d_p s0))) [(dropN 128 (zc_dec C (limited archive 0 F)), tl)] = Ok (s', ev')).
      { cbn [parse_chunks]. rewrite Pa. cbn [obind]. now rewrite app_nil_r. }
      destruct (parse_chunks_ok e alloc [(dropN 128 (zc_dec C (limited archive 0 F)), tl)] _ (fresh_pwf e _ (started_leftovers z s0 St))) as (sx & ex & Ex & _ & Px).
      rewrite Pc in Ex. injection Ex as <- <-.
      exists ev', (proto_of s'). split; [reflexivity|]. split; [|exact Px]. split.
      + eapply (decode_chunks e alloc Halloc); [exact At| |exact Rk|exact Pc]. unfold ctext. cbn [map concat fst]. now rewrite app_nil_r.
      + eapply (decode_one e alloc Halloc); [exact At|exact En|exact Rk| |exact Pa]. eapply targets_clean_all. exact X. }
  destruct (extract_calls T archive F o fuel Hf) as (dfuel0 & K).
  { eapply supported_of. apply Da. }
  { intros s0 dfuel rets s evs St Ts R. fold ops in R.
    destruct (Sess _ _ _ _ _ St Ts R) as [->|(evs' & st & -> & S & P)].
    - exists HS0, o. split; reflexivity.
    - destruct (Run _ _ S P) as (h' & o' & X2 & _ & (_ & E2 & _) & _).
      rewrite exec_cbs_cons, X1. cbn [obind]. exists h', o'. split; [exact X2|]. congruence. }
  exists dfuel0. intros dfuel Hd. destruct (K dfuel Hd) as (s0 & rets & s & evs & h & o2 & o' & St & Ts & R & X2 & E2 & Cl & Ex). fold ops in R.
  exists (h_ret h), s, h, (limited archive 0 F), o'. split; [exact Ex|].
  assert (Ho : Forall dop_ok ops) by apply chunk_ops_ok.
  assert (Fed : dfed ops = limited archive 0 F) by (apply chunk_ops_fed; exact Hf).
  rewrite <- Fed in Da.
  destruct (session_extends z C e alloc Halloc _ _ _ _ _ _ _ St Ho Da R) as (_ & _ & S2).
  intro Rl. destruct (S2 Rl Ne) as (evs1 & st1 & Ee & _).
  destruct (Sess _ _ _ _ _ St Ts R) as [->|(evs' & st & -> & S & P)]; [discriminate|]. rewrite exec_cbs_cons, X1 in X2. cbn [obind] in X2.
  destruct (Run _ _ S P) as (h' & o3 & X3 & _ & (P3 & _ & R3) & Env3 & Fr3 & _ & Eq). rewrite X3 in X2. injection X2 as <- <-.
  unfold close_fp in Cl. rewrite P3, P1 in Cl. cbn [exec] in Cl. injection Cl as <-.
  split; [congruence|]. split; [exact (same_env_trans _ _ _ Env1 Env3)|]. split; [exact Fr3|].
  intro q. rewrite Eq. unfold overlay. destruct (strip t q) as [r|] eqn:Es.
  - apply strip_spec in Es. subst q. unfold o1. cbn [o_fs with_fs].
    destruct r as [|c r].
    + rewrite app_nil_r, upd_same. cbn [ldir_tree]. destruct (ltree_at (o_umask o) [] es) eqn:Et; [|reflexivity].
      discriminate Et.
    + cbn [ldir_tree]. destruct (ltree_at (o_umask o) (c :: r) es); [reflexivity|]. rewrite upd_other; [reflexivity|].
      intro E. apply (f_equal (@length bytes)) in E. rewrite app_length in E. cbn in E. lia.
  - unfold o1. cbn [o_fs with_fs]. rewrite upd_other; [reflexivity|]. intro E; subst q.
    pose proof (strip_app t []) as E. rewrite app_nil_r in E. congruence.
Qed.
End Extraction.

Lemma disk_links z (C : zlib_contract z) es F e alloc hal al stk obuf hjunk pjunk T archive inp t o fuel :
  archives_dir z es F -> input_of archive F inp -> (length inp < fuel)%nat ->
  calm z hal al stk obuf hjunk pjunk -> (forall k n, alloc k n = true) ->
  preorder es <> [] -> Forall (fun x => quiet (snd x)) es -> NoDup (map fst es) ->
  Forall (fun x => lextractable (o_priv o) (o_umask o) (lenN T) (fst x) (snd x)) es -> homely o ->
  lenN F < DEF_CHUNK_SIZE -> lenN (zc_dec C F) < 128 + DEF_CHUNK_SIZE ->
  free_spot o T t -> usable_dir (o_priv o) (o_umask o) MODE_BASE_DIR -> (forall r, o_fs o (t ++ r) = None) ->
  volume (preorder es) <= o_free o ->
  exists dfuel0, forall dfuel, (dfuel0 <= dfuel)%nat -> exists ret s h ds o',
    exec (extract T hal stk z e alloc archive fuel dfuel al obuf hjunk pjunk inp false) o = Ok ((ret, Some (s, h, ds)), o') /\
    (room_left s -> ret = ContentDirectory /\ same_env o o' /\ forall q, o_fs o' q = overlay t (ldir_tree (o_umask o) es) (o_fs o) q).
Proof.
  intros A I Hf Ca Ha Ne Q ND X Hm L1 L2 Fs U Fr V. pose proof (dir_archived z C es F A Q) as D.
  assert (Hl : archive = 0 \/ archive <= lenN inp).
  { destruct I as [[-> _]|(_ & -> & rest & ->)]; [now left|right]. rewrite lenN_app. lia. }
  rewrite <- (input_limited _ _ _ I) in D, L1, L2.
  destruct (extract_ldir z C e alloc hal al stk obuf hjunk pjunk Ca T archive inp es t o fuel Ha Hf Hl D Ne L1 L2 Q ND X Hm Fs U Fr V) as (n & K).
  exists n. intros m Hm'. destruct (K m Hm') as (ret & s & h & ds & o' & E & R). exists ret, s, h, ds, o'. split; [exact E|].
  intro Rl. destruct (R Rl) as (R1 & R2 & _ & R3). auto.
Qed.
