(** FormatFacts.v: the archives written and read by the model follow the layout of FormatSpec.v. *)
From Verif Require Import Base Format Zlib LLCompress Compress CompressFacts Parser ParserProofs ParserFacts Decompress DecompressProofs MidProofs MidFacts
  ArchiveSpec ArchiveFacts ArchiveDecode ArchiveEntry ArchiveProps FS FSFacts HL HLSpec HLFacts HLDrive HLProps HLMore FormatSpec.

Lemma fill_32 n : n + 8 < two32 -> zeros (norm_len32 n - n) = fill n.
Proof.
  intro H. unfold zeros, fill, norm_len32. do 2 f_equal.
  pose proof (N.div_mod n 8 ltac:(lia)) as D. pose proof (N.mod_lt n 8 ltac:(lia)).
  rewrite N.mod_small; unfold two32 in *; lia.
Qed.
Lemma fill_64 n : n + 8 < two64 -> zeros (norm_len64 n - n) = fill n.
Proof.
  intro H. unfold zeros, fill, norm_len64. do 2 f_equal.
  pose proof (N.div_mod n 8 ltac:(lia)) as D. pose proof (N.mod_lt n 8 ltac:(lia)).
  rewrite N.mod_small; unfold two64 in *; lia.
Qed.
Lemma filled_eq n : (n / 8 + 1) * 8 = filled n.
Proof. unfold filled. pose proof (N.div_mod n 8 ltac:(lia)). pose proof (N.mod_lt n 8 ltac:(lia)). lia. Qed.

Lemma le_enc_mod k : forall v, le_enc k (v mod 256 ^ N.of_nat k) = le_enc k v.
Proof.
  intro v. rewrite <- (le_dec_enc k v). replace k with (length (le_enc k v)) at 1 by apply length_le_enc. apply le_enc_dec.
Qed.

Lemma store_le e k v : store e k (htole e k v) = num k v.
Proof.
  destruct e; cbn; [reflexivity|]. unfold bswap, num.
  assert (Hl : length (rev (le_enc k v)) = k) by (rewrite rev_length; apply length_le_enc).
  rewrite <- Hl at 1. rewrite le_enc_dec. apply rev_involutive.
Qed.

(** Writing into the middle. *)
Lemma write_mid (a d b c : bytes) : lenN d = lenN b -> write_at (lenN a) d (a ++ b ++ c) = a ++ d ++ c.
Proof.
  intro H. unfold write_at. rewrite takeN_app_exact by reflexivity. f_equal. f_equal.
  rewrite app_assoc. apply dropN_app_exact. rewrite lenN_app. lia.
Qed.

(** A record in memory: nine pieces. *)
Lemma pieces (junk : bytes) : lenN junk = 40 -> exists a b c d f g r, junk = a ++ b ++ c ++ d ++ f ++ [g] ++ r /\
  lenN a = 8 /\ lenN b = 8 /\ lenN c = 4 /\ lenN d = 4 /\ lenN f = 4 /\ lenN r = 11.
Proof.
  intro H. do 40 (destruct junk as [|? junk]; [discriminate H|]). destruct junk; [|exfalso; unfold lenN in H; cbn [length] in H; lia].
  eexists [_;_;_;_;_;_;_;_], [_;_;_;_;_;_;_;_], [_;_;_;_], [_;_;_;_], [_;_;_;_], _, [_;_;_;_;_;_;_;_;_;_;_].
  split; [reflexivity|]. repeat split.
Qed.

Lemma put_at e (a b c : bytes) k v n : n = lenN a -> lenN b = N.of_nat k -> put e n k v (a ++ b ++ c) = a ++ num k v ++ c.
Proof. intros -> H. unfold put. rewrite store_le. apply write_mid. unfold num. now rewrite lenN_le_enc. Qed.
Lemma num_norm32 n : num 4 (norm_len32 n) = num 4 (filled n).
Proof. unfold num, norm_len32. change two32 with (256 ^ N.of_nat 4). now rewrite le_enc_mod, filled_eq. Qed.
Lemma num_norm64 n : num 8 (norm_len64 n) = num 8 (filled n).
Proof. unfold num, norm_len64. change two64 with (256 ^ N.of_nat 8). now rewrite le_enc_mod, filled_eq. Qed.
Lemma lenN_num k v : lenN (num k v) = N.of_nat k.
Proof. apply lenN_le_enc. Qed.

(** The setters on the pieces. *)
Section Setters.
Context (a b c d f : bytes) (g : byte) (r : bytes) (e : endian).
Hypotheses (La : lenN a = 8) (Lb : lenN b = 8) (Lc : lenN c = 4) (Ld : lenN d = 4) (Lf : lenN f = 4).
Let m := a ++ b ++ c ++ d ++ f ++ [g] ++ r.
Lemma set_size v : put_size e v m = num 8 v ++ b ++ c ++ d ++ f ++ [g] ++ r.
Proof. exact (put_at e [] a _ 8 v 0 eq_refl La). Qed.
Lemma set_sizeN v : put_sizeN e v m = a ++ num 8 v ++ c ++ d ++ f ++ [g] ++ r.
Proof. exact (put_at e a b _ 8 v 8 (eq_sym La) Lb). Qed.
Lemma set_nlen v : put_nlen e v m = a ++ b ++ num 4 v ++ d ++ f ++ [g] ++ r.
Proof. subst m. unfold put_nlen. rewrite (app_assoc a). rewrite put_at by (rewrite ?lenN_app, ?La, ?Lb, ?Lc; reflexivity). now rewrite <- app_assoc. Qed.
Lemma set_nlenN v : put_nlenN e v m = a ++ b ++ c ++ num 4 v ++ f ++ [g] ++ r.
Proof.
  subst m. unfold put_nlenN. rewrite (app_assoc b), (app_assoc a).
  rewrite put_at by (rewrite ?lenN_app, ?La, ?Lb, ?Lc, ?Ld; reflexivity). now rewrite <- !app_assoc.
Qed.
Lemma set_mode v : put_mode e v m = a ++ b ++ c ++ d ++ num 4 v ++ [g] ++ r.
Proof.
  subst m. unfold put_mode. rewrite (app_assoc c), (app_assoc b), (app_assoc a).
  rewrite put_at by (rewrite ?lenN_app, ?La, ?Lb, ?Lc, ?Ld, ?Lf; reflexivity). now rewrite <- !app_assoc.
Qed.
Lemma set_ctype v : put_ctype v m = a ++ b ++ c ++ d ++ f ++ [v] ++ r.
Proof.
  subst m. unfold put_ctype. rewrite (app_assoc d), (app_assoc c), (app_assoc b), (app_assoc a).
  replace 28 with (lenN (a ++ b ++ c ++ d ++ f)) by (rewrite ?lenN_app, ?La, ?Lb, ?Lc, ?Ld, ?Lf; reflexivity).
  rewrite write_mid by reflexivity. now rewrite <- !app_assoc.
Qed.
End Setters.

Ltac setters := repeat first
  [ rewrite set_nlen by (rewrite ?lenN_num; (reflexivity || assumption))
  | rewrite set_nlenN by (rewrite ?lenN_num; (reflexivity || assumption))
  | rewrite set_ctype by (rewrite ?lenN_num; (reflexivity || assumption))
  | rewrite set_mode by (rewrite ?lenN_num; (reflexivity || assumption))
  | rewrite set_size by (rewrite ?lenN_num; (reflexivity || assumption))
  | rewrite set_sizeN by (rewrite ?lenN_num; (reflexivity || assumption)) ].

(** The four kinds of records. *)
Lemma file_bytes e nlen mode size u r : lenN u = 29 -> lenN r = 11 ->
  file_item e nlen mode size (u ++ r) = num 8 size ++ num 8 (filled size) ++ num 4 nlen ++ num 4 (filled nlen) ++ num 4 mode ++ [x00] ++ r.
Proof.
  intros Hu Hr. destruct (pieces (u ++ r)) as (a & b & c & d & f & g & r' & E & La & Lb & Lc & Ld & Lf & Lr); [rewrite lenN_app; lia|].
  assert (r' = r) as ->.
  { apply (f_equal (dropN 29)) in E. rewrite dropN_app_exact in E by now symmetry.
    rewrite !app_assoc in E. rewrite dropN_app_exact in E by (rewrite !lenN_app, La, Lb, Lc, Ld, Lf; reflexivity). now symmetry. }
  rewrite E. unfold file_item, item_name. setters. now rewrite num_norm32, num_norm64.
Qed.
Lemma link_bytes e nlen mode size u r : lenN u = 29 -> lenN r = 11 ->
  link_item e nlen mode size (u ++ r) = num 8 size ++ num 8 (filled size) ++ num 4 nlen ++ num 4 (filled nlen) ++ num 4 mode ++ [x04] ++ r.
Proof.
  intros Hu Hr. destruct (pieces (u ++ r)) as (a & b & c & d & f & g & r' & E & La & Lb & Lc & Ld & Lf & Lr); [rewrite lenN_app; lia|].
  assert (r' = r) as ->.
  { apply (f_equal (dropN 29)) in E. rewrite dropN_app_exact in E by now symmetry.
    rewrite !app_assoc in E. rewrite dropN_app_exact in E by (rewrite !lenN_app, La, Lb, Lc, Ld, Lf; reflexivity). now symmetry. }
  rewrite E. unfold link_item, item_name. setters. now rewrite num_norm32, num_norm64.
Qed.
Lemma split16 (junk : bytes) : lenN junk = 40 -> exists u x r, junk = u ++ x ++ r /\ lenN u = 16 /\ lenN x = 13 /\ lenN r = 11.
Proof.
  intro H. exists (takeN 16 junk), (takeN 13 (dropN 16 junk)), (dropN 13 (dropN 16 junk)). rewrite takeN_dropN, takeN_dropN.
  rewrite !lenN_takeN, !lenN_dropN, H. repeat split.
Qed.
Lemma dir_pieces (u x r : bytes) : lenN u = 16 -> lenN x = 13 -> lenN r = 11 -> exists a b c d f g, u ++ x ++ r = a ++ b ++ c ++ d ++ f ++ [g] ++ r /\ u = a ++ b /\
  lenN a = 8 /\ lenN b = 8 /\ lenN c = 4 /\ lenN d = 4 /\ lenN f = 4.
Proof.
  intros Hu Hx Hr. destruct (pieces (u ++ x ++ r)) as (a & b & c & d & f & g & r' & E & La & Lb & Lc & Ld & Lf & Lr); [rewrite !lenN_app; lia|].
  assert (r' = r /\ u = a ++ b) as [-> Eu].
  { split.
    - apply (f_equal (dropN 29)) in E. rewrite (app_assoc u) in E. rewrite dropN_app_exact in E by (rewrite lenN_app; lia).
      rewrite !app_assoc in E. rewrite dropN_app_exact in E by (rewrite !lenN_app, La, Lb, Lc, Ld, Lf; reflexivity). now symmetry.
    - apply (f_equal (takeN 16)) in E. rewrite takeN_app_exact in E by lia. rewrite (app_assoc a) in E.
      rewrite takeN_app_exact in E by (rewrite lenN_app; lia). exact E. }
  exists a, b, c, d, f, g. repeat split; assumption.
Qed.
Lemma dir_bytes e nlen mode (u x r : bytes) : lenN u = 16 -> lenN x = 13 -> lenN r = 11 ->
  dir_item e nlen mode (u ++ x ++ r) = u ++ num 4 nlen ++ num 4 (filled nlen) ++ num 4 mode ++ [x01] ++ r.
Proof.
  intros Hu Hx Hr. destruct (dir_pieces u x r Hu Hx Hr) as (a & b & c & d & f & g & E & -> & La & Lb & Lc & Ld & Lf).
  rewrite E. unfold dir_item, item_name. setters. now rewrite num_norm32, <- app_assoc.
Qed.
Lemma end_bytes e nlen mode (u x r : bytes) : lenN u = 16 -> lenN x = 13 -> lenN r = 11 ->
  dir_end_item e nlen mode (u ++ x ++ r) = u ++ num 4 nlen ++ num 4 (filled nlen) ++ num 4 mode ++ [x02] ++ r.
Proof.
  intros Hu Hx Hr. destruct (dir_pieces u x r Hu Hx Hr) as (a & b & c & d & f & g & E & -> & La & Lb & Lc & Ld & Lf).
  rewrite E. unfold dir_end_item, dir_item, item_name. setters. now rewrite num_norm32, <- app_assoc.
Qed.

(** Archives of records are exactly the layouts. *)
Lemma laid_written rs b : encodes rs b -> Forall rec_ok rs -> laid rs b.
Proof.
  induction 1 as [|name mode rs b e junk Hj En IH|name mode size data rs b e junk Hj En IH|
    name mode target rs b e junk Hj En IH|rs b e nlen mode junk Hj En IH|name mode size data rs b e junk Hj En IH];
    intro Ok0; [constructor|..]; inversion Ok0 as [|? ? R Ok1]; subst; specialize (IH Ok1); unfold padded.
  - destruct R as (R1 & R2). destruct (split16 junk Hj) as (u & x & r & -> & Hu & Hx & Hr). rewrite dir_bytes by assumption.
    rewrite fill_32 by exact R1. rewrite <- !app_assoc. now apply laid_dir.
  - destruct R as (R1 & R2 & -> & R4). destruct (split16 junk Hj) as (u & x & r & -> & Hu & Hx & Hr). rewrite (app_assoc u).
    rewrite file_bytes by (rewrite ?lenN_app; lia). rewrite fill_32 by exact R1. rewrite fill_64 by exact R4. rewrite <- !app_assoc. now apply laid_file.
  - destruct R as (R1 & R2 & R4). destruct (split16 junk Hj) as (u & x & r & -> & Hu & Hx & Hr). rewrite (app_assoc u).
    rewrite link_bytes by (rewrite ?lenN_app; lia). rewrite fill_32 by exact R1. rewrite fill_64 by exact R4. rewrite <- !app_assoc. now apply laid_link.
  - destruct (split16 junk Hj) as (u & x & r & -> & Hu & Hx & Hr). rewrite end_bytes by assumption. rewrite <- !app_assoc. now apply laid_end.
  - destruct R.
Qed.

Lemma laid_readable rs b : laid rs b -> Forall rec_ok rs -> encodes rs b.
Proof.
  induction 1 as [|name mode data r rs b Hr La IH|name mode target r rs b Hr La IH|name mode u r rs b Hu Hr La IH|n mode u r rs b Hu Hr La IH];
    intro Ok0; [constructor|..]; inversion Ok0 as [|? ? R Ok1]; subst; specialize (IH Ok1).
  - destruct R as (R1 & R2 & _ & R4).
    pose proof (en_file name mode (lenN data) data rs b LE (zeros 29 ++ r) ltac:(rewrite lenN_app, Hr; reflexivity) IH) as E.
    rewrite file_bytes in E by (assumption || reflexivity). unfold padded in E. rewrite fill_32 in E by exact R1.
    rewrite fill_64 in E by exact R4. rewrite <- !app_assoc in E. exact E.
  - destruct R as (R1 & R2 & R4).
    pose proof (en_link name mode target rs b LE (zeros 29 ++ r) ltac:(rewrite lenN_app, Hr; reflexivity) IH) as E.
    rewrite link_bytes in E by (assumption || reflexivity). unfold padded in E. rewrite fill_32 in E by exact R1.
    rewrite fill_64 in E by exact R4. rewrite <- !app_assoc in E. exact E.
  - destruct R as (R1 & R2).
    pose proof (en_dir name mode rs b LE (u ++ zeros 13 ++ r) ltac:(rewrite !lenN_app, Hu, Hr; reflexivity) IH) as E.
    rewrite dir_bytes in E by (assumption || reflexivity). unfold padded in E. rewrite fill_32 in E by exact R1.
    rewrite <- !app_assoc in E. exact E.
  - pose proof (en_end rs b LE n mode (u ++ zeros 13 ++ r) ltac:(rewrite !lenN_app, Hu, Hr; reflexivity) IH) as E.
    rewrite end_bytes in E by (assumption || reflexivity). rewrite <- !app_assoc in E. exact E.
Qed.

(** The header. *)
Lemma header_bytes e typ junk : lenN junk = 128 -> exists u, lenN u = 120 /\ header_image e typ junk = num 4 0 ++ num 4 (u32 typ) ++ u.
Proof.
  intro H. exists (dropN 8 junk). split; [rewrite lenN_dropN, H; reflexivity|].
  assert (E : junk = takeN 4 junk ++ takeN 4 (dropN 4 junk) ++ dropN 8 junk).
  { change 8 with (4 + 4). rewrite <- dropN_dropN, takeN_dropN, takeN_dropN. reflexivity. }
  unfold header_image. rewrite E at 1.
  pose proof (put_at e [] (takeN 4 junk) (takeN 4 (dropN 4 junk) ++ dropN 8 junk) 4 ZLIBWT_VERSION 0 eq_refl) as Q. cbn [app] in Q.
  rewrite Q by (rewrite lenN_takeN, H; reflexivity). clear Q.
  apply (put_at e (num 4 ZLIBWT_VERSION)); [reflexivity|]. rewrite lenN_takeN, lenN_dropN, H. reflexivity.
Qed.

Lemma layout_archive typ (t u b : bytes) : num 4 0 ++ num 4 typ = t -> typ < two32 -> lenN u = 120 ->
  archive_of typ (t ++ u ++ b) /\ dropN 128 (t ++ u ++ b) = b.
Proof.
  intros <- Ht Hu. assert (L : lenN (num 4 0 ++ num 4 typ) = 8) by (rewrite lenN_app, !lenN_num; reflexivity).
  rewrite app_assoc.
  split; [|apply dropN_app_exact; rewrite lenN_app, L, Hu; reflexivity].
  unfold archive_of, version_of, type_of, slice. split; [rewrite lenN_app, (lenN_app _ (num 4 0 ++ num 4 typ)), L, Hu; lia|].
  rewrite <- !app_assoc. split.
  - rewrite dropN_0, takeN_app_exact by reflexivity. reflexivity.
  - rewrite dropN_app_exact by reflexivity. rewrite takeN_app_exact by reflexivity. unfold num. rewrite le_dec_enc. now apply N.mod_small.
Qed.

Lemma archive_layout typ p : archive_of typ p -> exists u, lenN u = 120 /\ p = (num 4 0 ++ num 4 typ) ++ u ++ dropN 128 p.
Proof.
  intros (L & V & T). exists (takeN 120 (dropN 8 p)). split; [rewrite lenN_takeN, lenN_dropN; lia|].
  assert (W : forall off, off + 4 <= 128 -> num 4 (le_dec (slice off 4 p)) = slice off 4 p).
  { intros off Ho. unfold num. assert (Q : lenN (slice off 4 p) = 4) by (rewrite lenN_slice; lia).
    replace 4%nat with (length (slice off 4 p)) by (unfold lenN in Q; lia). apply le_enc_dec. }
  unfold version_of in V. unfold type_of in T. pose proof (W 0 ltac:(lia)) as W0. pose proof (W 4 ltac:(lia)) as W4.
  rewrite V in W0. rewrite T in W4. rewrite W0, W4. unfold slice. rewrite dropN_0, <- app_assoc.
  change 128 with (8 + 120). rewrite <- dropN_dropN, takeN_dropN. change 8 with (4 + 4). rewrite <- dropN_dropN, takeN_dropN, takeN_dropN. reflexivity.
Qed.

(** The records of a tree fit their fields. *)
Lemma preorder1_ok nd : forall name, fits name nd -> quiet nd -> Forall rec_ok (preorder1 name nd).
Proof.
  induction nd as [o st m sz d r|m es IH|m sz t|] using snode_ind2; intros name Ft Q; inversion Ft; inversion Q; subst; cbn [preorder1];
    destruct (dotb name); try exact (Forall_nil _).
  - constructor; [|constructor]. cbn [rec_ok]. auto.
  - constructor; [cbn [rec_ok]; auto|]. apply Forall_app. split; [|repeat constructor].
    match goal with F1 : Forall (fun x => fits _ _) es, F2 : Forall (fun x => quiet _) es |- _ => clear Ft Q; revert IH F1 F2 end.
    induction es as [|x es IHe]; intros IH F1 F2; [constructor|]. inversion IH; inversion F1; inversion F2; subst. cbn [map concat].
    apply Forall_app. split; auto.
  - constructor; [|constructor]. cbn [rec_ok]. repeat split; try assumption. unfold two32, two64 in *. lia.
Qed.
Lemma preorder_ok es : tree_fits (Some es) -> Forall (fun x => quiet (snd x)) es -> Forall rec_ok (preorder es).
Proof.
  unfold tree_fits, preorder. cbn [listing]. intros Ft Q. induction es as [|x es IH]; [constructor|]. inversion Ft; inversion Q; subst. cbn [map concat].
  apply Forall_app. split; [now apply preorder1_ok|auto].
Qed.

(** C116: what is written. *)
Lemma dir_archive_layout z (C : zlib_contract z) F rs : dir_archive C F rs -> dir_layout rs (zc_dec C F).
Proof.
  intros (_ & _ & Ar & En & Rk). destruct (archive_layout _ _ Ar) as (u & Hu & E). exists u, (dropN 128 (zc_dec C F)).
  split; [exact Hu|]. split; [exact E|]. now apply laid_written.
Qed.
Lemma layout_dir_archive z (C : zlib_contract z) F rs : zc_bad C F = false -> zc_fin C F = false -> dir_layout rs (zc_dec C F) -> Forall rec_ok rs ->
  dir_archive C F rs.
Proof.
  intros B Fi (u & b & Hu & E & La) Rk. destruct (layout_archive ContentDirectory _ u b eq_refl eq_refl Hu) as [Ar D].
  unfold dir_archive. rewrite E. split; [exact B|]. split; [exact Fi|]. split; [exact Ar|]. split; [|exact Rk].
  change ([x00; x00; x00; x00; x01; x00; x00; x00] ++ u ++ b) with ((num 4 0 ++ num 4 ContentDirectory) ++ u ++ b). rewrite D. now apply laid_readable.
Qed.

Lemma layout_written : forall z (C : zlib_contract z),
  (forall xs es F, archives_with z xs es F -> Forall (fun x => quiet (snd x)) es ->
     dir_layout (map (fun x => AFile (xb_path x) (xb_mode x) (lenN (xb_data x)) (xb_data x)) xs ++ preorder es) (zc_dec C F)) /\
  (forall data F, archives_file z data F -> file_layout data (zc_dec C F)).
Proof.
  intros z C. split.
  - intros xs es F A Q. apply dir_archive_layout. exact (dir_archived_with z C xs es F A Q).
  - intros data F A. destruct (file_archived z C data F A) as (_ & _ & Ar & D). destruct (archive_layout _ _ Ar) as (u & Hu & E).
    exists u. split; [exact Hu|]. rewrite D in E. exact E.
Qed.

(** What is read. *)
Lemma layout_read : forall z (C : zlib_contract z) e alloc fuel s0 ops rets s evs, started z s0 -> Forall dop_ok ops ->
  zc_bad C (dfed ops) = false -> zc_fin C (dfed ops) = false -> run_dops e alloc fuel s0 ops = Ok (rets, s, evs) ->
  (forall rs, (forall k n, alloc k n = true) -> dir_layout rs (zc_dec C (dfed ops)) -> Forall rec_ok rs ->
     Forall (fun r => r = 0%Z) rets /\ (room_left s -> presents rs evs)) /\
  (forall data, file_layout data (zc_dec C (dfed ops)) \/ blob_layout data (zc_dec C (dfed ops)) ->
     Forall (fun r => r = 0%Z) rets /\ (room_left s -> data <> [] -> exists ds, evs = reads ds /\ concat ds = data)).
Proof.
  intros z C e alloc fuel s0 ops rets s evs Hs Ho B Fi H. split.
  - intros rs Ha La Rk. pose proof (layout_dir_archive z C _ _ B Fi La Rk) as D.
    destruct (session_extends z C e alloc Ha _ _ _ _ _ _ _ Hs Ho D H) as (R & E1 & E2). split; [exact R|]. intro Rl.
    destruct rs as [|r0 rs].
    + destruct E1 as [->|(evs' & more & st & -> & Sh & P)]; [left; auto|]. right. exists evs'. split; [reflexivity|].
      assert (Q : flat (evs' ++ more) = []) by (inversion Sh; reflexivity).
      rewrite flat_app in Q. apply app_eq_nil in Q. destruct Q as [-> _]. constructor.
    + right. destruct (E2 Rl ltac:(discriminate)) as (evs' & st & E & Sh & _). exists evs'. auto.
  - intros data La.
    assert (Q : exists typ, (typ = ContentFile \/ typ = ContentBlob) /\ archive_of typ (zc_dec C (dfed ops)) /\ dropN 128 (zc_dec C (dfed ops)) = data).
    { destruct La as [(u & Hu & E)|(u & Hu & E)]; rewrite E.
      - exists ContentFile. split; [auto|]. exact (layout_archive ContentFile _ u data eq_refl eq_refl Hu).
      - exists ContentBlob. split; [auto|]. exact (layout_archive ContentBlob _ u data eq_refl eq_refl Hu). }
    destruct Q as (typ & Ht & Ar & D). destruct (file_session z C e alloc _ _ _ _ _ _ typ Hs Ho Ar Ht H) as [_ S2].
    destruct (S2 B Fi) as [S3 S4]. split; [exact S3|]. intros Rl Ne. destruct (S4 Rl) as (ds & E1 & E2).
    + destruct Ar as (L & _). assert (lenN (dropN 128 (zc_dec C (dfed ops))) <> 0).
      { rewrite D. destruct data; [contradiction|]. rewrite lenN_cons. lia. } rewrite lenN_dropN in *. lia.
    + exists ds. split; [exact E1|congruence].
Qed.

(** Extraction of an archive that some program laid out. *)
Lemma layout_extracted : forall z (C : zlib_contract z) es F e alloc hal al stk obuf hjunk pjunk T archive inp t o fuel,
  zc_bad C F = false -> zc_fin C F = false -> dir_layout (preorder es) (zc_dec C F) -> tree_fits (Some es) ->
  input_of archive F inp -> (length inp < fuel)%nat -> calm z hal al stk obuf hjunk pjunk ->
  (forall k n, alloc k n = true) -> preorder es <> [] -> Forall (fun x => quiet (snd x)) es -> NoDup (map fst es) ->
  Forall (fun x => extractable (o_priv o) (o_umask o) (lenN T) (fst x) (snd x)) es ->
  free_spot o T t -> usable_dir (o_priv o) (o_umask o) MODE_BASE_DIR -> (forall r, o_fs o (t ++ r) = None) ->
  volume (preorder es) <= o_free o ->
  exists dfuel0, forall dfuel, (dfuel0 <= dfuel)%nat -> exists ret s h ds o',
    exec (extract T hal stk z e alloc archive fuel dfuel al obuf hjunk pjunk inp false) o = Ok ((ret, Some (s, h, ds)), o') /\
    (room_left s -> ret = ContentDirectory /\ forall q, o_fs o' q = overlay t (dir_tree (o_umask o) es) (o_fs o) q).
Proof.
  intros z C es F e alloc hal al stk obuf hjunk pjunk T archive inp t o fuel B Fi La Ft I Hf Ca Ha Ne Q ND X Fs U Fr V.
  assert (Rk : Forall rec_ok (preorder es)).
  { apply preorder_ok; [exact Ft|exact Q]. }
  pose proof (layout_dir_archive z C _ _ B Fi La Rk) as D. rewrite <- (input_limited _ _ _ I) in D.
  destruct (extract_dir z C e alloc hal al stk obuf hjunk pjunk Ca T archive inp es t o fuel Ha Hf D Ne Q ND X Fs U Fr V) as (d0 & G).
  exists d0. intros d Hd. destruct (G d Hd) as (ret & s & h & ds & o' & E & R). exists ret, s, h, ds, o'. split; [exact E|].
  intro Rl. destruct (R Rl) as (R1 & _ & _ & R3). auto.
Qed.
