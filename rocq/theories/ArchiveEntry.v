(** ArchiveEntry.v: the entry points of zlibwt_compression_routines.c and the round trip. *)
From Coq Require Import Lia.
From Verif Require Import Base Format Zlib LLCompress CompressFacts Compress Parser ParserProofs ParserFacts
  Decompress DecompressProofs MidProofs MidFacts ArchiveSpec ArchiveFacts ArchiveDecode.

(** ** Extra buffers *)
Definition xb_ok (x : xbuf) : Prop := lenN (xb_path x) + 8 < two32 /\ xb_mode x < two32 /\ lenN (xb_data x) < two32.
Definition root_rec (x : xbuf) : arec := AFile (xb_path x) (xb_mode x) (lenN (xb_data x)) (xb_data x).

(** The path d1/d2/.../f. *)
Definition slashed (ds : list bytes) (f : bytes) : bytes := concat (map (fun d => d ++ [x2f]) ds) ++ f.
Definition no_slash (d : bytes) : Prop := ~ In x2f d.
Definition nested_recs (ds : list bytes) (f data : bytes) : list arec :=
  map (fun d => ADir d 0) ds ++ [AFile f 420 (lenN data) data] ++ repeat AEnd (length ds).

Lemma split_slash_none p : no_slash p -> split_slash p = None.
Proof.
  unfold no_slash. induction p as [|b p IH]; intro H; [reflexivity|]. cbn [split_slash].
  destruct (byte_eqb b x2f) eqn:E; [apply byte_eqb_spec in E; subst; destruct H; now left|].
  rewrite IH; [reflexivity|]. intro Q. apply H. now right.
Qed.
Lemma split_slash_some d r : no_slash d -> split_slash (d ++ x2f :: r) = Some (d, r).
Proof.
  unfold no_slash. induction d as [|b p IH]; intro H; [reflexivity|]. cbn [app split_slash].
  destruct (byte_eqb b x2f) eqn:E; [apply byte_eqb_spec in E; subst; destruct H; now left|].
  rewrite IH; [reflexivity|]. intro Q. apply H. now right.
Qed.

Lemma path_split p : exists ds f, p = slashed ds f /\ Forall no_slash ds /\ no_slash f.
Proof.
  induction p as [|b p (ds & f & -> & H1 & H2)].
  - exists [], []. split; [reflexivity|]. split; [constructor|]. intros [].
  - destruct (byte_eqb b x2f) eqn:E.
    + apply byte_eqb_spec in E. subst b. exists ([] :: ds), f. split; [reflexivity|]. split; [|exact H2]. constructor; [intros []|exact H1].
    + assert (Hb : b <> x2f) by (intro Q; apply byte_eqb_spec in Q; congruence).
      destruct ds as [|d ds].
      * exists [], (b :: f). split; [reflexivity|]. split; [constructor|]. intros [Q|Q]; [congruence|contradiction].
      * inversion H1; subst. exists ((b :: d) :: ds), f. split; [reflexivity|]. split; [|exact H2].
        constructor; [|assumption]. intros [Q|Q]; [congruence|contradiction].
Qed.

Lemma slashed_cons d ds f : slashed (d :: ds) f = d ++ x2f :: slashed ds f.
Proof. unfold slashed. cbn [map concat]. rewrite <- !app_assoc. reflexivity. Qed.

Lemma root_writes_ok e x junk : lenN junk = 40 -> xb_ok x ->
  encodes [root_rec x] (concat (root_writes e x junk)) /\ small_writes (root_writes e x junk).
Proof.
  intros Hj (H1 & H2 & H3). unfold root_writes.
  destruct (file_writes_ok e (xb_path x) (xb_mode x) (lenN (xb_data x)) junk [xb_data x]) as (A & _ & _ & B); auto.
  - unfold two32, two64 in *; lia.
  - constructor; [exact H3|constructor].
  - cbn [concat] in A. rewrite app_nil_r in A. split; assumption.
Qed.

Lemma nested_writes_ok e data jk : (forall n, lenN (jk n) = 40) -> lenN data < two32 -> forall ds f fuel n,
  Forall no_slash ds -> no_slash f -> (length (slashed ds f) < fuel)%nat -> lenN (slashed ds f) + 8 < two32 ->
  encodes (nested_recs ds f data) (concat (nested_writes fuel e (slashed ds f) data jk n)) /\
  small_writes (nested_writes fuel e (slashed ds f) data jk n).
Proof.
  intros Hj Hd. induction ds as [|d ds IH]; intros f fuel n Hds Hf Hl Hn.
  - change (slashed [] f) with f in *. destruct fuel as [|fuel]; [lia|]. cbn [nested_writes]. rewrite split_slash_none by exact Hf.
    apply (root_writes_ok e (XB f data MODE_0644) (jk n) (Hj n)). split; [exact Hn|]. split; [reflexivity|exact Hd].
  - inversion Hds; subst. rewrite slashed_cons in *. destruct fuel as [|fuel]; [lia|]. cbn [nested_writes].
    rewrite split_slash_some by assumption. rewrite app_length in Hl. cbn [length] in Hl. rewrite lenN_app, lenN_cons in Hn.
    destruct (IH f fuel (n + 1)) as [E W]; auto; [lia|lia|].
    destruct (name_writes_padded d) as [P1 P2]; [lia|]. rewrite u32_small by lia.
    cbn [concat]. rewrite !concat_app, P1. cbn [concat]. rewrite app_nil_r. split.
    + unfold nested_recs. cbn [map app length]. constructor; [apply Hj|].
      replace (repeat AEnd (S (length ds))) with (repeat AEnd (length ds) ++ [AEnd]) by (symmetry; apply repeat_cons).
      rewrite app_comm_cons, app_assoc. apply encodes_app; [exact E|].
      rewrite <- (app_nil_r (dir_end_item _ _ _ _)). constructor; [apply Hj|constructor].
    + constructor; [rewrite lenN_dir_item by apply Hj; unfold two32; lia|]. apply small_app; [exact P2|].
      apply small_app; [exact W|]. constructor; [|constructor]. rewrite lenN_dir_end_item by apply Hj. unfold two32; lia.
Qed.

(** The records of the extra buffers. *)
Definition nested_of (x : xbuf) (rs : list arec) : Prop :=
  exists ds f, xb_path x = slashed ds f /\ Forall no_slash ds /\ no_slash f /\ rs = nested_recs ds f (xb_data x).
Definition xrecs (nested : bool) (xs : list xbuf) (rs : list arec) : Prop :=
  if nested then exists rss, Forall2 nested_of xs rss /\ rs = concat rss else rs = map root_rec xs.

Lemma extra_writes_ok e nested jk : (forall i n, lenN (jk i n) = 40) -> forall xs i, Forall xb_ok xs ->
  exists rs, xrecs nested xs rs /\ encodes rs (concat (extra_writes e nested xs jk i)) /\ small_writes (extra_writes e nested xs jk i).
Proof.
  intros Hj. induction xs as [|x xs IH]; intros i Hx.
  - exists []. split; [destruct nested; [exists []; split; [constructor|reflexivity]|reflexivity]|]. split; constructor.
  - inversion Hx as [|? ? X1 X2]; subst. destruct (IH (i + 1) X2) as (rs & R & E & W). cbn [extra_writes]. rewrite concat_app.
    destruct nested.
    + destruct X1 as (Y1 & Y2 & Y3). destruct (path_split (xb_path x)) as (ds & f & Ep & D1 & D2).
      destruct (nested_writes_ok e (xb_data x) (jk i) (Hj i) Y3 ds f (S (length (xb_path x))) 0 D1 D2) as [E0 W0].
      { rewrite <- Ep. lia. } { rewrite <- Ep. exact Y1. }
      rewrite <- Ep in E0, W0. destruct R as (rss & R1 & ->).
      exists (nested_recs ds f (xb_data x) ++ concat rss). split; [|split; [now apply encodes_app|now apply small_app]].
      exists (nested_recs ds f (xb_data x) :: rss). split; [|reflexivity]. constructor; [|exact R1]. exists ds, f. auto.
    + destruct (root_writes_ok e x (jk i 0) (Hj i 0) X1) as [E0 W0]. cbn in R. subst rs. exists (root_rec x :: map root_rec xs).
      split; [reflexivity|]. split; [|now apply small_app]. apply (encodes_app [root_rec x] _ E0 (map root_rec xs) _ E).
Qed.

Lemma xrecs_ok nested xs rs : Forall xb_ok xs -> xrecs nested xs rs -> Forall rec_ok rs.
Proof.
  intros Hx. destruct nested.
  - intros (rss & R & ->). induction R as [|x r xs rss (ds & f & Ep & D1 & D2 & ->) R IH]; [constructor|].
    inversion Hx as [|? ? (X1 & X2 & X3) X4]; subst. cbn [concat]. apply Forall_app. split; [|auto].
    rewrite Ep in X1. clear - X1 X3. unfold nested_recs. assert (L : forall ds f, Forall (fun d => lenN d <= lenN (slashed ds f)) ds /\ lenN f <= lenN (slashed ds f)).
    { induction ds0 as [|d ds0 IH]; intro f0; [split; [constructor|apply N.le_refl]|]. rewrite slashed_cons. destruct (IH f0) as [A B].
      rewrite lenN_app, lenN_cons. split; [|lia]. constructor; [lia|]. eapply Forall_impl; [|exact A]. intros a Ha. cbv beta in Ha |- *. lia. }
    destruct (L ds f) as [L1 L2]. apply Forall_app. split.
    + apply Forall_map. eapply Forall_impl; [|exact L1]. intros a Ha. cbv beta in Ha |- *. split; [lia|reflexivity].
    + apply Forall_cons; [unfold rec_ok; split; [|split; [|split]]; [|reflexivity|reflexivity|]; unfold two32, two64 in *; lia|]. apply Forall_forall. intros q Hq. apply repeat_spec in Hq. subst q. exact I.
  - intros ->. apply Forall_map. eapply Forall_impl; [|exact Hx]. intros x (X1 & X2 & X3). unfold rec_ok, root_rec, two32, two64 in *. repeat split; lia.
Qed.

Lemma balanced_app a : forall d n b, balanced d a -> balanced n b -> balanced (d + n) (a ++ b).
Proof.
  induction a as [|r a IH]; intros d n b Ha Hb; cbn [app balanced] in *.
  - subst d. exact Hb.
  - destruct r; cbn [balanced] in *; try (apply IH; assumption).
    + apply (IH (S d)); assumption.
    + destruct d; [destruct Ha|]. cbn [Nat.add]. now apply IH.
Qed.

Lemma xrecs_balanced nested xs rs : xrecs nested xs rs -> balanced 0 rs.
Proof.
  destruct nested.
  - intros (rss & R & ->). induction R as [|x r xs rss (ds & f & _ & _ & _ & ->) R IH]; [reflexivity|]. cbn [concat].
    apply (balanced_app _ 0 0); [|exact IH]. unfold nested_recs.
    assert (G : forall ds k, balanced k (map (fun d => ADir d 0) ds ++ [AFile f 420 (lenN (xb_data x)) (xb_data x)] ++ repeat AEnd (k + length ds))).
    { induction ds0 as [|d ds0 IHd]; intro k.
      - cbn. rewrite Nat.add_0_r. induction k; cbn; auto.
      - cbn [map app balanced length]. specialize (IHd (S k)). rewrite <- plus_n_Sm. exact IHd. }
    apply (G ds O).
  - intros ->. induction xs; cbn; auto.
Qed.

(** ** Headers *)
Lemma header_archive e typ junk c : lenN junk = 128 -> typ < two32 -> archive_of typ (header_image e typ junk ++ c) /\
  dropN 128 (header_image e typ junk ++ c) = c.
Proof.
  intros Hj Ht. pose proof (lenN_header_image e typ junk Hj) as L.
  destruct (header_round_trip e LE typ junk Hj Ht) as [A B].
  split; [|apply dropN_app_exact; now symmetry].
  split; [rewrite lenN_app; lia|].
  assert (Sl : forall off n, off + n <= 128 -> slice off n (header_image e typ junk ++ c) = slice off n (header_image e typ junk)).
  { intros off n Hn. unfold slice. rewrite dropN_app, takeN_app.
    replace (n - lenN (dropN off (header_image e typ junk))) with 0 by (rewrite lenN_dropN; lia).
    rewrite takeN_0, app_nil_r. reflexivity. }
  unfold version_of, type_of. rewrite !Sl by lia.
  rewrite get_le in A, B by (rewrite L; vm_compute; discriminate). split; assumption.
Qed.

(** ** ZlibWtCompressDirectoryEx and variants *)
Section Dir.
Context (z : zlib) (C : zlib_contract z) {F : Type} (e : endian) (filt : F -> list bytes -> bytes -> skind -> Z * F).
Context (jk : N -> bytes) (hj : N -> N -> bytes) (xjk : N -> N -> bytes) (hjunk : bytes) (al : N -> bool).

(** Uninitialised memory has the size of the objects. *)
Definition junk_ok : Prop :=
  (forall n, lenN (jk n) = 40) /\ (forall n k, lenN (hj n k) = k) /\ (forall i n, lenN (xjk i n) = 40) /\ lenN hjunk = 128.

Definition listing (root : option (list (bytes * snode))) := match root with Some es => es | None => [] end.
Definition tree_fits (root : option (list (bytes * snode))) : Prop := Forall (fun x => fits (fst x) (snd x)) (listing root).
Definition tree_steady (root : option (list (bytes * snode))) : Prop := Forall (fun x => steady (snd x)) (listing root).

Lemma wcops wx : concat (map (fun w => match w with WData d => [CWrite d] | _ => [] end) wx) = map CWrite (datas wx).
Proof. induction wx as [|[d n k a|d] wx IH]; [reflexivity|exact IH|]. cbn. f_equal. exact IH. Qed.
Lemma ops_bytes_writes ds : ops_bytes (map CWrite ds) = concat ds.
Proof. induction ds as [|d ds IH]; [reflexivity|]. cbn. now rewrite IH. Qed.
Lemma cops_writes ds : small_writes ds -> Forall cop_ok (map CWrite ds).
Proof. intro H. apply Forall_map. exact H. Qed.

Definition ret_of (t : tend) : cres := match t with Died => CExit | Failed => CRet 2 | _ => CRet 0 end.

(** The session was created. *)
Definition created (level : Z) : Prop := al 1 = true /\ al 2 = true /\ al 3 = true /\ deflateInit z level <> None.

Lemma compress_dir_spec fuel level clbk nested xs root f0 r cevs ws wx led : junk_ok -> tree_fits root -> Forall xb_ok xs ->
  compress_dir z e filt jk hj xjk hjunk al fuel level clbk nested xs root f0 = Ok (r, cevs, ws, wx, led) ->
  (~ created level /\ r = CRet 1 /\ cevs = [] /\ wx = []) \/
  (created level /\ exists xr recs content,
    xrecs nested xs xr /\ trav filt f0 (jobs [] (listing root)) (w_f ws) (visits wx) recs (tend_of ws) /\
    encodes (xr ++ recs) content /\ r = ret_of (tend_of ws) /\
    prefix (zc_dec C (cev_bytes cevs)) (header_image e ContentDirectory hjunk ++ content) /\
    zc_bad C (cev_bytes cevs) = false /\ zc_fin C (cev_bytes cevs) = false /\
    (last_not_full cevs -> zc_dec C (cev_bytes cevs) = header_image e ContentDirectory hjunk ++ content)).
Proof.
  intros (J1 & J2 & J3 & J4) Ft Fx H. unfold compress_dir in H. fold (listing root) in H.
  destruct (al 1) eqn:A1; cbn [negb] in H; [|left; injection H as <- <- <- <- <-; split; [intros (Q & _); congruence|auto]].
  destruct (al 2) eqn:A2; cbn [negb] in H; [|left; injection H as <- <- <- <- <-; split; [intros (_ & Q & _); congruence|auto]].
  destruct (create_csession z fuel e (al 3) ContentDirectory level clbk false DEF_CHUNK_SIZE hjunk) as [[so ev0]| |] eqn:Ec;
    try discriminate H. cbn [obind] in H. destruct so as [cs|].
  2:{ left. destruct (al 3) eqn:A3.
      - pose proof (create_csession_spec _ C _ _ _ _ _ _ _ _ _ _ Ec J4) as X. cbn in X.
        destruct X as [[X ->]|[[X _]|X]]; [|discriminate|discriminate].
        injection H as <- <- <- <- <-. split; [intros (_ & _ & _ & Q); contradiction|auto].
      - cbn in Ec. injection Ec as <-. injection H as <- <- <- <- <-. split; [intros (_ & _ & Q & _); congruence|auto]. }
  right. assert (A3 : al 3 = true) by (destruct (al 3); [reflexivity|discriminate Ec]). rewrite A3 in Ec.
  split.
  { split; [assumption|]. split; [assumption|]. split; [assumption|]. unfold create_csession in Ec. cbn [negb] in Ec. destruct (deflateInit z level); [discriminate|discriminate Ec]. }
  destruct (walk e filt jk hj [] (listing root) (WS false false false f0 0)) as [s1 wevs] eqn:Ew.
  destruct (walk_ok e filt jk hj J1 J2 [] (listing root) (WS false false false f0 0) s1 wevs Ft eq_refl Ew) as (recs & R1 & R2 & R3).
  destruct (extra_writes_ok e nested xjk J3 xs 0 Fx) as (xr & X1 & X2 & X3).
  set (W := extra_writes e nested xs xjk 0) in *.
  rewrite wcops, datas_app, datas_data in H.
  destruct (run_cops fuel cs (map CWrite (W ++ datas wevs))) as [[[rets cs'] evs]| |] eqn:Er; try discriminate H. cbn [obind] in H.
  assert (Hs : 0 < u32 DEF_CHUNK_SIZE) by reflexivity.
  assert (Hw : Forall cop_ok (map CWrite (W ++ datas wevs))) by (apply cops_writes, small_app; assumption).
  destruct (session_lossless z C _ _ _ _ _ _ _ _ _ _ _ _ _ J4 Hs Ec Hw Er) as (_ & L1 & L2 & L3 & L4).
  rewrite ops_bytes_writes, concat_app in L1, L4.
  exists xr, recs, (concat W ++ concat (datas wevs)). split; [exact X1|].
  assert (G : s1 = ws /\ ret_of (tend_of s1) = r /\ map WData W ++ wevs = wx /\ ev0 ++ evs = cevs).
  { unfold tend_of. destruct (w_dead s1), (w_err s1), (w_exit s1); cbn [ret_of]; injection H as <- <- <- <- <-; auto. }
  destruct G as (-> & <- & <- & <-). rewrite visits_app, visits_data. cbn [app].
  split; [exact R3|]. split; [now apply encodes_app|]. auto 6.
Qed.

(** Balance of the whole archive. *)
Lemma compress_dir_returns fuel level clbk nested xs root f0 r cevs ws wx led :
  compress_dir z e filt jk hj xjk hjunk al fuel level clbk nested xs root f0 = Ok (r, cevs, ws, wx, led) ->
  r = CRet 0 \/ r = CRet 1 \/ r = CRet 2 \/ r = CExit.
Proof.
  intro H. unfold compress_dir in H.
  destruct (al 1); cbn [negb] in H; [|injection H as <- <- <- <- <-; auto].
  destruct (al 2); cbn [negb] in H; [|injection H as <- <- <- <- <-; auto].
  destruct (create_csession _ _ _ _ _ _ _ _ _ _) as [[so ev0]| |]; try discriminate H. cbn [obind] in H.
  destruct so as [cs|]; [|injection H as <- <- <- <- <-; auto].
  destruct (walk _ _ _ _ _ _ _) as [s1 wevs]. destruct (run_cops _ _ _) as [[[? ?] ?]| |]; try discriminate H. cbn [obind] in H.
  destruct (w_dead s1); injection H as <- <- <- <- <-; auto. destruct (w_err s1); auto.
Qed.

(** It always returns. *)
Lemma compress_dir_total level clbk nested xs root f0 : junk_ok -> tree_fits root -> Forall xb_ok xs ->
  exists fuel r, compress_dir z e filt jk hj xjk hjunk al fuel level clbk nested xs root f0 = Ok r.
Proof.
  intros (J1 & J2 & J3 & J4) Ft Fx.
  destruct (walk e filt jk hj [] (listing root) (WS false false false f0 0)) as [s1 wevs] eqn:Ew.
  destruct (walk_ok e filt jk hj J1 J2 [] (listing root) (WS false false false f0 0) s1 wevs Ft eq_refl Ew) as (recs & R1 & R2 & R3).
  destruct (extra_writes_ok e nested xjk J3 xs 0 Fx) as (xr & X1 & X2 & X3).
  set (W := extra_writes e nested xs xjk 0) in *.
  assert (Hw : Forall cop_ok (map CWrite (W ++ datas wevs))) by (apply cops_writes, small_app; assumption).
  destruct (session_returns z C e (al 3) ContentDirectory level clbk DEF_CHUNK_SIZE hjunk _ J4 eq_refl Hw) as (fuel & os & ev & E & Q).
  exists fuel. unfold compress_dir. fold (listing root).
  destruct (al 1); cbn [negb]; [|eexists; reflexivity]. destruct (al 2); cbn [negb]; [|eexists; reflexivity].
  rewrite E. cbn [obind]. destruct os as [cs|]; [|eexists; reflexivity]. rewrite Ew.
  destruct Q as [[[rets cs'] evs] Q]. fold W. rewrite wcops, datas_app, datas_data, Q. cbn [obind].
  destruct (w_dead s1); eexists; reflexivity.
Qed.

(** Round trip: [e'], [alloc]: the decoding machine. *)
Lemma dir_round_trip fuel level clbk nested xs root f0 r cevs ws wx led
    e' alloc fuel' (s0 : dsess z) ops rets s evs :
  junk_ok -> tree_fits root -> tree_steady root -> Forall xb_ok xs ->
  compress_dir z e filt jk hj xjk hjunk al fuel level clbk nested xs root f0 = Ok (r, cevs, ws, wx, led) ->
  created level -> last_not_full cevs ->
  (forall k n, alloc k n = true) -> started z s0 -> Forall dop_ok ops -> dfed ops = cev_bytes cevs ->
  run_dops e' alloc fuel' s0 ops = Ok (rets, s, evs) -> room_left s ->
  Forall (fun q => q = 0%Z) rets /\
  exists xr recs f1 t, xrecs nested xs xr /\ trav filt f0 (jobs [] (listing root)) f1 (visits wx) recs t /\
    r = ret_of t /\ (t = Failed \/ presents (xr ++ recs) evs).
Proof.
  intros J Ft Fs Fx H Cr L Ha Hs Ho Hd Hr Rl.
  destruct (compress_dir_spec _ _ _ _ _ _ _ _ _ _ _ _ J Ft Fx H) as [(Q & _)|(_ & xr & recs & content & X1 & T & En & R & P & B & Fi & Q)]; [contradiction|].
  specialize (Q L). destruct J as (_ & _ & _ & J4).
  destruct (header_archive e ContentDirectory hjunk content J4 eq_refl) as [Ar Dr]. rewrite <- Q in Ar, Dr. rewrite <- Hd in Ar, Dr, B, Fi, Q.
  destruct (dir_session z C e' alloc _ _ _ _ _ _ Hs Ho Ar Hr) as [D1 D2]. destruct (D2 B Fi) as [D3 D4].
  split; [exact D3|]. exists xr, recs, (w_f ws), (tend_of ws). split; [exact X1|]. split; [exact T|]. split; [exact R|].
  destruct (trav_rec_ok filt _ _ _ _ _ _ T) as [Q1|Q1].
  { apply jobs_all. unfold tree_fits, tree_steady in *. rewrite Forall_forall in *. intros x Hx. split; auto. }
  { left; exact Q1. } right.
  assert (Ok1 : Forall rec_ok (xr ++ recs)) by (apply Forall_app; split; [eapply xrecs_ok; eauto|exact Q1]).
  assert (At : at_hdr e' (dir_fresh (set_err false (d_p s0)))) by (apply fresh_at_hdr, started_leftovers, Hs).
  assert (Dec : forall chunks ev', dir_events z e' alloc s0 chunks ev' -> ctext chunks = content -> shows (xr ++ recs) (flat ev')).
  { intros chunks ev' [s' Es] Ec. eapply decode_chunks; eauto. rewrite Ec. exact En. }
  destruct (xr ++ recs) as [|r0 rs0] eqn:Er.
  - assert (E0 : content = []) by now inversion En. rewrite Dr, E0 in D1. destruct D1 as [->|(ch & ev' & -> & De & Pf)]; [left; auto|].
    right. exists ev'. split; [reflexivity|]. apply (Dec ch); [exact De|]. rewrite E0. destruct Pf as [y Py]. symmetry in Py. apply app_eq_nil in Py. apply Py.
  - assert (Hc : content <> []) by (eapply encodes_nonempty; [exact En|discriminate]).
    assert (L1 : 128 < lenN (zc_dec C (dfed ops))).
    { rewrite Q, lenN_app, lenN_header_image by exact J4. destruct content; [contradiction|]. rewrite lenN_cons. lia. }
    destruct (D4 Rl L1) as (ch & ev' & -> & De & Ec). right. exists ev'. split; [reflexivity|]. apply (Dec ch); [exact De|congruence].
Qed.
End Dir.

(** ** ZlibWtCompressFileEx *)
Section File.
Context (z : zlib) (C : zlib_contract z) (e : endian) (hjunk : bytes) (al : N -> bool).

Lemma compress_file_spec fuel level clbk data rderr r cevs led : lenN hjunk = 128 ->
  compress_file z e hjunk al fuel level clbk data rderr = Ok (r, cevs, led) ->
  (r = 1%Z /\ cevs = [] /\ (al 1 = false \/ al 2 = false)) \/
  (r = (if rderr then 1 else 0)%Z /\ exists stored,
    prefix stored data /\ (rderr = false -> stored = data) /\
    prefix (zc_dec C (cev_bytes cevs)) (header_image e ContentFile hjunk ++ stored) /\
    zc_bad C (cev_bytes cevs) = false /\ zc_fin C (cev_bytes cevs) = false /\
    (last_not_full cevs -> zc_dec C (cev_bytes cevs) = header_image e ContentFile hjunk ++ stored)).
Proof.
  intros J4 H. unfold compress_file in H.
  destruct (al 1) eqn:A1; cbn [negb] in H; [|left; injection H as <- <- <-; auto].
  destruct (al 2) eqn:A2; cbn [negb] in H; [|left; injection H as <- <- <-; auto].
  destruct (create_csession z fuel e (al 3) ContentFile level clbk false DEF_CHUNK_SIZE hjunk) as [[so ev0]| |] eqn:Ec;
    try discriminate H. cbn [obind] in H. destruct so as [cs|]; [|discriminate].
  right. assert (A3 : al 3 = true) by (destruct (al 3); [reflexivity|discriminate Ec]). rewrite A3 in Ec.
  destruct (read_file data rderr) as [content failed] eqn:Er.
  destruct (read_file_spec _ _ _ _ Er) as (-> & P & D & W).
  destruct (run_cops fuel cs (map CWrite content)) as [[[rets cs'] evs]| |] eqn:Eo; try discriminate H. cbn [obind] in H.
  injection H as <- <- <-. split; [reflexivity|]. exists (concat content). split; [exact P|]. split; [exact D|].
  destruct (session_lossless z C _ _ _ _ _ _ _ _ _ _ _ _ _ J4 (eq_refl : 0 < u32 DEF_CHUNK_SIZE) Ec (cops_writes content W) Eo) as (_ & L1 & L2 & L3 & L4).
  rewrite ops_bytes_writes in L1, L4. auto.
Qed.

Lemma file_round_trip fuel level clbk data cevs led e' alloc fuel' (s0 : dsess z) ops rets s evs :
  lenN hjunk = 128 -> compress_file z e hjunk al fuel level clbk data false = Ok (0%Z, cevs, led) -> last_not_full cevs ->
  started z s0 -> Forall dop_ok ops -> dfed ops = cev_bytes cevs ->
  run_dops e' alloc fuel' s0 ops = Ok (rets, s, evs) -> room_left s ->
  Forall (fun q => q = 0%Z) rets /\
  ((data = [] /\ evs = []) \/ exists ds, evs = EvFlBegin :: map EvFlRead ds /\ concat ds = data).
Proof.
  intros J H L Hs Ho Hd Hr Rl.
  destruct (compress_file_spec _ _ _ _ _ _ _ _ J H) as [(Q & _)|(_ & st & _ & St & P & B & Fi & Q)]; [discriminate|].
  rewrite (St eq_refl) in *. specialize (Q L). clear St.
  destruct (header_archive e ContentFile hjunk data J eq_refl) as [Ar Dr]. rewrite <- Q in Ar, Dr. rewrite <- Hd in Ar, Dr, B, Fi, Q.
  destruct (file_session z C e' alloc _ _ _ _ _ _ _ Hs Ho Ar (or_introl eq_refl) Hr) as [D1 D2]. destruct (D2 B Fi) as [D3 D4].
  split; [exact D3|]. rewrite Dr in *. destruct data as [|b d].
  - destruct D1 as [->|(ds & -> & [y Py])]; [left; auto|]. right. exists ds. split; [reflexivity|]. symmetry in Py. apply app_eq_nil in Py. apply Py.
  - right. apply D4; [exact Rl|]. rewrite Q, lenN_app, lenN_header_image by exact J. rewrite lenN_cons. lia.
Qed.

Lemma compress_file_fails fuel level clbk data rderr : al 1 = true -> al 2 = true -> (level < -1 \/ 9 < level)%Z ->
  compress_file z e hjunk al fuel level clbk data rderr = UB.
Proof.
  intros A1 A2 Hl. unfold compress_file. rewrite A1, A2. cbn [negb]. rewrite (creation_fails z C) by exact Hl. reflexivity.
Qed.

(** No session: an error or undefined behaviour. *)
Lemma compress_file_no_session fuel level clbk data rderr r cevs led : (level < -1 \/ 9 < level)%Z ->
  compress_file z e hjunk al fuel level clbk data rderr = Ok (r, cevs, led) -> r <> 0%Z /\ cevs = [].
Proof.
  intros Hl H. destruct (al 1) eqn:A1; [destruct (al 2) eqn:A2|].
  - rewrite compress_file_fails in H by assumption. discriminate.
  - unfold compress_file in H. rewrite A1, A2 in H. injection H as <- <- <-. split; [discriminate|reflexivity].
  - unfold compress_file in H. rewrite A1 in H. injection H as <- <- <-. split; [discriminate|reflexivity].
Qed.

Lemma compress_file_total level clbk data rderr : lenN hjunk = 128 -> (al 3 = true -> al 2 = true -> al 1 = true -> deflateInit z level <> None) ->
  al 3 = true ->
  exists fuel r, compress_file z e hjunk al fuel level clbk data rderr = Ok r.
Proof.
  intros J Hi A3. unfold compress_file. destruct (al 1) eqn:A1; cbn [negb]; [|exists O; eexists; reflexivity].
  destruct (al 2) eqn:A2; cbn [negb]; [|exists O; eexists; reflexivity].
  destruct (read_file data rderr) as [content failed] eqn:Er.
  destruct (read_file_spec _ _ _ _ Er) as (-> & P & D & W).
  destruct (session_returns z C e (al 3) ContentFile level clbk DEF_CHUNK_SIZE hjunk _ J eq_refl (cops_writes content W)) as (fuel & os & ev & E & Q).
  exists fuel. rewrite E. cbn [obind]. destruct os as [cs|].
  - destruct Q as [[[rets cs'] evs] Q]. rewrite Q. cbn [obind]. eexists; reflexivity.
  - rewrite A3 in E. pose proof (create_csession_spec _ C _ _ _ _ _ _ _ _ _ _ E J) as X.
    destruct X as [[X _]|[[X _]|X]]; [|discriminate|discriminate]. now apply Hi in X.
Qed.
End File.
