(** LinkMore.v: symbolic links in archives of any size (C83). *)
From Coq Require Import Lia Wf_nat.
From Verif Require Import Base Format Zlib LLCompress CompressFacts Compress Parser ParserProofs ParserFacts Decompress DecompressProofs
  MidProofs MidFacts ArchiveSpec ArchiveFacts ArchiveDecode ArchiveEntry ArchiveProps FS FSFacts HL HLSpec HLFacts HLDrive HLProps HLSafe HLMore
  LinkFacts.

(** ** Specification *)

(** The data of the link callbacks, each with the memory behind it; the sizes announced by the entries of links before. *)
Definition payloads (evs : list event) : list (bytes * bytes) :=
  concat (map (fun ev => match ev with EvSym d t => [(d, t)] | _ => [] end) evs).
Definition link_sizes (evs : list event) : list N :=
  concat (map (fun ev => match ev with EvEntry FtSymLink it _ => [it_size it] | _ => [] end) evs).
(** Every target was handed over in one piece and with its padding behind it. *)
Definition unsplit (evs : list event) : Prop :=
  Forall2 (fun p n => lenN (fst p) = n /\ exists t, snd p = x00 :: t) (payloads evs) (link_sizes evs).

(** ** Payloads of split targets *)
Definition syms (evs : list event) : list bytes := map fst (payloads evs).
Definition sfx (a b : bytes) : Prop := exists pre, b = pre ++ a.

Lemma payloads_app a b : payloads (a ++ b) = payloads a ++ payloads b.
Proof. unfold payloads. now rewrite map_app, concat_app. Qed.
Lemma syms_app a b : syms (a ++ b) = syms a ++ syms b.
Proof. unfold syms. now rewrite payloads_app, map_app. Qed.
Lemma sfx_refl a : sfx a a.
Proof. exists []. reflexivity. Qed.
Lemma sfxs_refl l : Forall2 sfx l l.
Proof. induction l; constructor; auto using sfx_refl. Qed.
Lemma sfxs_trans a b c : Forall2 sfx a b -> Forall2 sfx b c -> Forall2 sfx a c.
Proof.
  intro H. revert c. induction H as [|x y a b [p ->] H IH]; intros c K; inversion K as [|? z ? c' [q ->] K']; subst; constructor; auto.
  exists (q ++ p). now rewrite <- app_assoc.
Qed.

Ltac ifin H := match type of H with context [if ?c then _ else _] => destruct c end.

Section Syms.
Context (e : endian) (alloc : N -> N -> bool).
Notation parse := (parse e alloc).
Notation pwf := (pwf e).
Notation sec_end := (sec_end e alloc).
Notation parse_chunks := (parse_chunks e alloc).
Notation at_hdr := (at_hdr e).

Lemma sec_part_syms s a s1 ev : sec_part s a = Ok (s1, ev) -> syms ev = [].
Proof.
  unfold sec_part. intro H. destruct (p_stage s).
  - destruct (checked_write _ _ _); try discriminate H. injection H as <- <-. reflexivity.
  - destruct (write_name _ _ _); try discriminate H. injection H as <- <-. reflexivity.
  - injection H as <- <-. reflexivity.
  - injection H as <- <-. reflexivity.
  - injection H as <- <-. reflexivity.
  - injection H as <- <-. reflexivity.
Qed.

Lemma sec_end_tail_syms t t' s d s1 ev1 s2 ev2 : sec_end t s d = Ok (s1, ev1) -> sec_end t' s d = Ok (s2, ev2) -> syms ev1 = syms ev2.
Proof.
  unfold ParserProofs.sec_end. intros H K. destruct (p_stage s); try (rewrite K in H; injection H as <- <-; reflexivity).
  destruct (byte_eqb _ _); [|discriminate]. injection H as <- <-. injection K as <- <-. reflexivity.
Qed.

Lemma sec_end_split_syms t t' s a d s1 ev1 s2 ev2 s3 ev3 : pwf s -> p_err s = false -> lenN a < prem s -> lenN d = prem s - lenN a ->
  sec_part s a = Ok (s1, ev1) -> sec_end t s (a ++ d) = Ok (s2, ev2) -> sec_end t' s1 d = Ok (s3, ev3) ->
  Forall2 sfx (syms ev3) (syms ev2).
Proof.
  intros W He Ha Hd P E2 E3.
  destruct (sec_end_split e alloc t t' s a d s1 ev1 W He Ha Hd P) as (x & y & v & F1 & F2 & F3).
  rewrite E2 in F1. injection F1 as <- <-. rewrite E3 in F2. injection F2 as -> <-.
  unfold sec_part in P. unfold ParserProofs.sec_end in E2, E3.
  assert (No : forall X, (X = ev2 \/ X = ev3) -> p_stage s <> StSymLink -> syms X = []).
  { intros X HX Hs. 
    assert (Hs1 : p_stage s1 = p_stage s).
    { destruct (sec_part_ok e alloc s a W He Ha) as (q1 & q2 & Q & _ & _ & Q2 & _). unfold sec_part in Q. rewrite P in Q. injection Q as <- <-. exact Q2. }
    rewrite Hs1 in E3.
    destruct (p_stage s); try contradiction; destruct HX as [->| ->]; clear F3 P.
    - destruct (checked_write _ _ (p_img s)); try discriminate E2. cbn [obind] in E2.
      repeat (ifin E2; [injection E2 as <- <-; reflexivity|]). injection E2 as <- <-; reflexivity.
    - destruct (checked_write _ _ (p_img s1)); try discriminate E3. cbn [obind] in E3.
      repeat (ifin E3; [injection E3 as <- <-; reflexivity|]). injection E3 as <- <-; reflexivity.
    - destruct (write_name _ _ (p_name s)); try discriminate E2. cbn [obind] in E2.
      repeat (ifin E2; [injection E2 as <- <-; reflexivity|]). discriminate E2.
    - destruct (write_name _ _ (p_name s1)); try discriminate E3. cbn [obind] in E3.
      repeat (ifin E3; [injection E3 as <- <-; reflexivity|]). discriminate E3.
    - ifin E2; [|discriminate E2]. injection E2 as <- <-; reflexivity.
    - ifin E3; [|discriminate E3]. injection E3 as <- <-; reflexivity.
    - ifin E2; [|discriminate E2]. injection E2 as <- <-; reflexivity.
    - ifin E3; [|discriminate E3]. injection E3 as <- <-; reflexivity.
    - ifin E2; [|discriminate E2]. injection E2 as <- <-; reflexivity.
    - ifin E3; [|discriminate E3]. injection E3 as <- <-; reflexivity. }
  destruct (p_stage s) eqn:Es;
    try (rewrite (No ev2), (No ev3) by (try discriminate; auto); constructor).
  injection P as <- <-. cbn [p_stage set_off p_img] in E3. rewrite Es in E3.
  ifin E2; [|discriminate E2].
  injection E2 as E2a <-. injection E3 as E3a <-. constructor; [exists a; reflexivity|constructor].
Qed.

Lemma parse_tail_syms_aux : forall m t t' s b, (4 * length b + rank s <= m)%nat -> pwf s -> forall s2 ev2 s3 ev3,
  parse t s b = Ok (s2, ev2) -> parse t' s b = Ok (s3, ev3) -> syms ev2 = syms ev3.
Proof.
  induction m as [m IH] using (well_founded_induction lt_wf).
  intros t t' s b Hm W s2 ev2 s3 ev3 H K.
  rewrite parse_eq in H, K by assumption.
  destruct (p_err s) eqn:He; [congruence|].
  destruct (N.leb_spec (prem s) (lenN b)) as [Hl|Hl]; [|congruence].
  destruct (sec_end_ok e alloc (dropN (prem s) b ++ t) s (takeN (prem s) b) W He) as (s1 & ev1 & E1 & W1 & R).
  { rewrite lenN_takeN. lia. }
  destruct (sec_end_tail e alloc _ (dropN (prem s) b ++ t') _ _ _ _ E1) as (ev1' & E1' & _).
  pose proof (sec_end_tail_syms _ _ _ _ _ _ _ _ E1 E1') as Sy.
  rewrite E1 in H. rewrite E1' in K. cbn [obind] in *.
  destruct (N.ltb_spec (prem s) (lenN b)) as [Hl2|Hl2].
  2:{ injection H as <- <-. injection K as <- <-. exact Sy. }
  destruct (parse t s1 _) as [[u v]| |] eqn:E3; try discriminate H. cbn [obind] in H. injection H as <- <-.
  destruct (parse t' s1 _) as [[u' v']| |] eqn:E4; try discriminate K. cbn [obind] in K. injection K as <- <-.
  assert (Hlen : (length (dropN (prem s) b) + N.to_nat (prem s) = length b)%nat).
  { pose proof (lenN_dropN _ (prem s) b) as L. unfold lenN in *. lia. }
  rewrite !syms_app, Sy. f_equal.
  eapply (IH (4 * length (dropN (prem s) b) + rank s1)%nat); [|reflexivity|exact W1|exact E3|exact E4].
  pose proof (rank_le s1). destruct R as [R|[R1 R2]]; lia.
Qed.
Lemma parse_tail_syms t t' s b s2 ev2 s3 ev3 : pwf s -> parse t s b = Ok (s2, ev2) -> parse t' s b = Ok (s3, ev3) -> syms ev2 = syms ev3.
Proof. intros W. exact (parse_tail_syms_aux _ t t' s b (le_n _) W s2 ev2 s3 ev3). Qed.

(** Splitting a buffer at most cuts off the beginnings of targets. *)
Lemma parse_app_syms : forall n a b t1 t2 t3 s, (4 * length a + rank s <= n)%nat -> pwf s -> b <> [] -> forall s1 ev1 s2 ev2 s3 ev3,
  parse t1 s a = Ok (s1, ev1) -> parse t2 s1 b = Ok (s2, ev2) -> parse t3 s (a ++ b) = Ok (s3, ev3) ->
  Forall2 sfx (syms ev1 ++ syms ev2) (syms ev3).
Proof.
  induction n as [n IH] using (well_founded_induction lt_wf).
  intros a b t1 t2 t3 s Hn W Hb s1 ev1 s2 ev2 s3 ev3 H1 H2 H3.
  destruct (p_err s) eqn:He.
  { rewrite parse_err in H1, H3 by assumption. injection H1 as <- <-. injection H3 as <- <-.
    rewrite parse_err in H2 by assumption. injection H2 as <- <-. constructor. }
  assert (Lb : 0 < lenN b) by (destruct b; [congruence|rewrite lenN_cons; lia]).
  rewrite parse_eq in H1, H3 by assumption. rewrite He in H1, H3.
  destruct (N.leb_spec (prem s) (lenN a)) as [Ha|Ha].
  - destruct (N.leb_spec (prem s) (lenN (a ++ b))) as [Hab|Hab]; [|rewrite lenN_app in Hab; lia].
    destruct (N.ltb_spec (prem s) (lenN (a ++ b))) as [Hab2|Hab2]; [|rewrite lenN_app in Hab2; lia].
    rewrite takeN_app, dropN_app in H3.
    replace (prem s - lenN a) with 0 in H3 by lia. rewrite takeN_0, dropN_0, app_nil_r in H3.
    destruct (sec_end_ok e alloc (dropN (prem s) a ++ t1) s (takeN (prem s) a) W He) as (u1 & w1 & E1 & W1 & R).
    { rewrite lenN_takeN. lia. }
    destruct (sec_end_tail e alloc _ ((dropN (prem s) a ++ b) ++ t3) _ _ _ _ E1) as (w1' & E1' & _).
    pose proof (sec_end_tail_syms _ _ _ _ _ _ _ _ E1 E1') as Sy.
    rewrite E1 in H1. rewrite E1' in H3. cbn [obind] in H1, H3.
    destruct (parse t3 u1 (dropN (prem s) a ++ b)) as [[x3 y3]| |] eqn:E3; try discriminate H3. cbn [obind] in H3. injection H3 as <- <-.
    destruct (N.ltb_spec (prem s) (lenN a)) as [Ha2|Ha2].
    + assert (Hlen : (length (dropN (prem s) a) + N.to_nat (prem s) = length a)%nat).
      { pose proof (lenN_dropN _ (prem s) a) as L. unfold lenN in *. lia. }
      destruct (parse t1 u1 (dropN (prem s) a)) as [[x1 y1]| |] eqn:E4; try discriminate H1. cbn [obind] in H1. injection H1 as <- <-.
      rewrite !syms_app, <- app_assoc, Sy. apply Forall2_app; [apply sfxs_refl|].
      eapply (IH (4 * length (dropN (prem s) a) + rank u1)%nat); [|reflexivity|exact W1|exact Hb|exact E4|exact H2|exact E3].
      pose proof (rank_le u1). destruct R as [R|[R1 R2]]; lia.
    + injection H1 as <- <-. assert (Q : prem s = lenN a) by lia.
      rewrite (dropN_all _ (prem s) a), app_nil_l in E3 by lia.
      rewrite syms_app, Sy, (parse_tail_syms _ _ _ _ _ _ _ _ W1 H2 E3). apply sfxs_refl.
  - pose proof (sec_part_syms _ _ _ _ H1) as S1. rewrite S1. cbn [app].
    destruct (sec_part_ok e alloc s a W He Ha) as (x1 & y1 & E1 & W1 & He1 & Hst & Hp). rewrite E1 in H1. injection H1 as -> ->.
    rewrite parse_eq in H2 by assumption. rewrite He1 in H2.
    destruct (N.leb_spec (prem s) (lenN (a ++ b))) as [Hab|Hab]; rewrite lenN_app in Hab.
    + destruct (N.leb_spec (prem s1) (lenN b)) as [Hb1|Hb1]; [|lia].
      assert (Hd : lenN (takeN (prem s1) b) = prem s - lenN a) by (rewrite lenN_takeN; lia).
      assert (Ht : takeN (prem s) (a ++ b) = a ++ takeN (prem s1) b).
      { rewrite takeN_app, takeN_all by lia. now rewrite Hp. }
      assert (Hdr : dropN (prem s) (a ++ b) = dropN (prem s1) b).
      { rewrite dropN_app, dropN_all by lia. now rewrite Hp. }
      destruct (sec_end_split e alloc (dropN (prem s) (a ++ b) ++ t3) (dropN (prem s1) b ++ t2)
                  s a (takeN (prem s1) b) s1 ev1 W He Ha Hd E1) as (u2 & v2 & v3 & F1 & F2 & _).
      pose proof (sec_end_split_syms _ _ _ _ _ _ _ _ _ _ _ W He Ha Hd E1 F1 F2) as Sf.
      rewrite Ht, F1 in H3. rewrite F2 in H2. cbn [obind] in H2, H3. rewrite Hdr, lenN_app in H3.
      assert (Hb' : (prem s <? lenN a + lenN b) = (prem s1 <? lenN b)).
      { rewrite Hp. destruct (N.ltb_spec (prem s) (lenN a + lenN b)); destruct (N.ltb_spec (prem s - lenN a) (lenN b)); try reflexivity; lia. }
      rewrite Hb' in H3.
      destruct (prem s1 <? lenN b) eqn:El.
      * assert (W2 : pwf u2).
        { destruct (sec_end_ok e alloc (dropN (prem s1) b ++ t2) s1 (takeN (prem s1) b) W1 He1) as (x & y & Ex & Wx & _).
          - rewrite Hd. lia.
          - rewrite F2 in Ex. injection Ex as <- <-. exact Wx. }
        destruct (parse t2 u2 _) as [[x2 y2]| |] eqn:E4; try discriminate H2. cbn [obind] in H2. injection H2 as <- <-.
        destruct (parse t3 u2 _) as [[x3 y3]| |] eqn:E5; try discriminate H3. cbn [obind] in H3. injection H3 as <- <-.
        rewrite !syms_app. apply Forall2_app; [exact Sf|]. rewrite (parse_tail_syms _ _ _ _ _ _ _ _ W2 E4 E5). apply sfxs_refl.
      * injection H2 as <- <-. injection H3 as <- <-. exact Sf.
    + destruct (N.leb_spec (prem s1) (lenN b)); [lia|].
      rewrite (sec_part_syms _ _ _ _ H2), (sec_part_syms _ _ _ _ H3). constructor.
Qed.

Lemma parse_chunks_syms : forall chunks d t t' s, pwf s -> d <> [] -> forall s1 ev1 s2 ev2,
  parse_chunks s (chunks ++ [(d, t)]) = Ok (s1, ev1) -> parse t' s (ctext chunks ++ d) = Ok (s2, ev2) -> Forall2 sfx (syms ev1) (syms ev2).
Proof.
  induction chunks as [|[a ta] r IH]; intros d t t' s W Hd s1 ev1 s2 ev2 H K; cbn [app ParserFacts.parse_chunks ctext map concat] in H, K.
  - destruct (parse t s d) as [[x y]| |] eqn:E; try discriminate H. cbn [obind] in H. injection H as <- <-.
    rewrite app_nil_r, (parse_tail_syms _ _ _ _ _ _ _ _ W E K). apply sfxs_refl.
  - fold (ctext r) in K. cbn [fst] in K. rewrite <- app_assoc in K.
    destruct (parse_ok e alloc ta s a W) as (x1 & y1 & E & W1). rewrite E in H. cbn [obind] in H.
    destruct (parse_chunks x1 _) as [[x2 y2]| |] eqn:E2; try discriminate H. cbn [obind] in H. injection H as <- <-.
    assert (Hb : ctext r ++ d <> []) by (destruct (ctext r); [exact Hd|discriminate]).
    destruct (parse_ok e alloc t' x1 (ctext r ++ d) W1) as (x3 & y3 & E3 & _).
    pose proof (IH d t t' x1 W1 Hd _ _ _ _ E2 E3) as S2.
    pose proof (parse_app_syms _ a (ctext r ++ d) ta t' t' s (le_n _) W Hb _ _ _ _ _ _ E E3 K) as S3.
    rewrite syms_app. eapply sfxs_trans; [|exact S3]. apply Forall2_app; [apply sfxs_refl|exact S2].
Qed.

Hypothesis Halloc : forall k n, alloc k n = true.

Lemma decode_syms recs b : encodes recs b -> Forall rec_ok recs -> forall s, at_hdr s ->
  exists s1, at_hdr s1 /\ forall t rest, exists evs, syms evs = targets recs /\
    parse t s (b ++ rest) = do (s2, ev2) <- parse t s1 rest; Ok (s2, evs ++ ev2).
Proof.
  induction 1 as [|name mode rs b e' junk Hj En IH|name mode size data rs b e' junk Hj En IH|
    name mode target rs b e' junk Hj En IH|rs b e' nlen mode junk Hj En IH|name mode size data rs b e' junk Hj En IH];
    intros Ok0 s Hs.
  - exists s. split; [exact Hs|]. intros t rest. exists []. split; [reflexivity|]. cbn [app].
    destruct (parse t s rest) as [[s2 ev2]| |]; reflexivity.
  - inversion Ok0 as [|? ? Hr Hrs]; subst. destruct Hr as [H1 H2].
    destruct (dir_record e alloc Halloc s e' name mode junk (zeros (norm_len32 (lenN name) - lenN name))) as (s1 & it & A1 & I1 & I2 & I3 & I4 & P);
      auto; [apply lenN_zeros|].
    destruct (IH Hrs s1 A1) as (s2 & A2 & Q). exists s2. split; [exact A2|]. intros t rest.
    destruct (Q t rest) as (evs & Sh & E). exists (EvEntry FtDir it (padded name) :: evs). split; [exact Sh|].
    rewrite <- !app_assoc. specialize (P t (b ++ rest)). unfold padded. rewrite P, E.
    destruct (parse t s2 rest) as [[s3 ev3]| |]; reflexivity.
  - inversion Ok0 as [|? ? Hr Hrs]; subst. destruct Hr as (H1 & H2 & -> & H3).
    destruct (file_record e alloc Halloc s e' name mode data junk (zeros (norm_len32 (lenN name) - lenN name))
      (zeros (norm_len64 (lenN data) - lenN data))) as (s1 & A1 & P); auto; [apply lenN_zeros|apply lenN_zeros|].
    destruct (IH Hrs s1 A1) as (s2 & A2 & Q). exists s2. split; [exact A2|]. intros t rest.
    destruct (Q t rest) as (evs & Sh & E).
    exists ([EvEntry FtFile (rec_item (lenN name) (lenN data) mode CT_FILE) (padded name); EvRead data; EvFileEnd] ++ evs). split; [exact Sh|].
    rewrite <- !app_assoc. specialize (P t (b ++ rest)). unfold padded. rewrite P, E.
    destruct (parse t s2 rest) as [[s3 ev3]| |]; reflexivity.
  - inversion Ok0 as [|? ? Hr Hrs]; subst. destruct Hr as (H1 & H2 & H3).
    destruct (link_record e alloc Halloc s e' name mode target junk (zeros (norm_len32 (lenN name) - lenN name))
      (zeros (norm_len64 (lenN target) - lenN target))) as (s1 & A1 & P); auto; [apply lenN_zeros|apply lenN_zeros|].
    destruct (IH Hrs s1 A1) as (s2 & A2 & Q). exists s2. split; [exact A2|]. intros t rest.
    destruct (Q t rest) as (evs & Sh & E).
    specialize (P t (b ++ rest)). rewrite E in P.
    eexists ([EvEntry FtSymLink (rec_item (lenN name) (lenN target) mode CT_SYM_LINK) (padded name); EvSym target _] ++ evs). split.
    + rewrite syms_app, Sh. reflexivity.
    + rewrite <- !app_assoc. unfold padded. rewrite P. destruct (parse t s2 rest) as [[s3 ev3]| |]; reflexivity.
  - inversion Ok0 as [|? ? Hr Hrs]; subst.
    destruct (dir_end_record e alloc Halloc s e' nlen mode junk Hs Hj) as (s1 & A1 & P).
    destruct (IH Hrs s1 A1) as (s2 & A2 & Q). exists s2. split; [exact A2|]. intros t rest.
    destruct (Q t rest) as (evs & Sh & E). exists (EvDirEnd :: evs). split; [exact Sh|].
    rewrite <- !app_assoc. rewrite P, E. destruct (parse t s2 rest) as [[s3 ev3]| |]; reflexivity.
  - inversion Ok0 as [|? ? Hr Hrs]; subst. destruct Hr.
Qed.

Lemma chunks_targets recs chunks s s' evs : at_hdr s -> encodes recs (ctext chunks) -> Forall rec_ok recs ->
  parse_chunks s chunks = Ok (s', evs) -> Forall2 sfx (syms evs) (targets recs).
Proof.
  intros Hs En Ok0 H. destruct recs as [|r0 recs].
  - inversion En. rewrite (parse_chunks_nils e alloc s) in H; [|intro; now apply parse_at_hdr_nil|congruence].
    injection H as <- <-. constructor.
  - assert (Hne : ctext chunks <> []) by (eapply encodes_nonempty; [exact En|discriminate]).
    destruct (ctext_last chunks Hne) as (c1 & d & t & c2 & -> & Hd & E2).
    assert (Ec : ctext (c1 ++ [(d, t)] ++ c2) = ctext c1 ++ d).
    { rewrite !ctext_app, E2. change (ctext [(d, t)]) with (d ++ []). now rewrite !app_nil_r. }
    rewrite Ec in En. destruct (decode_syms _ _ En Ok0 s Hs) as (s1 & A1 & P).
    destruct (P [] []) as (ev1 & Sy & E). rewrite (parse_at_hdr_nil e alloc [] s1 A1) in E. cbn [obind] in E.
    rewrite !app_nil_r in E.
    destruct (parse_chunks_whole e alloc c1 d t [] s (proj1 Hs) Hd) as (s2 & ea & eb & Ea & Eb & Fl).
    pose proof (parse_chunks_syms c1 d t [] s (proj1 Hs) Hd _ _ _ _ Ea Eb) as Sf.
    rewrite E in Eb. injection Eb as <- <-.
    rewrite app_assoc, (parse_chunks_app e alloc), Ea in H. cbn [obind] in H.
    rewrite (parse_chunks_nils e alloc s1) in H; [|intro; now apply parse_at_hdr_nil|exact E2].
    cbn [obind] in H. injection H as <- <-. rewrite app_nil_r, <- Sy. exact Sf.
Qed.
End Syms.

(** ** Unsplit targets are told completely *)
Definition osizes (os : list obs) : list N :=
  concat (map (fun ob => match ob with OEntry FtSymLink it _ => [it_size it] | _ => [] end) os).
Lemma osizes_app a b : osizes (a ++ b) = osizes a ++ osizes b.
Proof. unfold osizes. now rewrite map_app, concat_app. Qed.
Lemma osizes_flat evs : osizes (flat evs) = link_sizes evs.
Proof.
  induction evs as [|ev evs IH]; [reflexivity|]. rewrite flat_cons, osizes_app, IH. unfold link_sizes. cbn [map concat]. f_equal.
  assert (M : forall f (d : bytes), (forall x, osizes [f x] = []) -> osizes (map f d) = []).
  { intros f d Hf. induction d as [|x d IHd]; [reflexivity|]. cbn [map]. change (f x :: map f d) with ([f x] ++ map f d). now rewrite osizes_app, Hf. }
  destruct ev; try reflexivity; try (apply M; reflexivity). cbn. destruct ft; reflexivity.
Qed.
Lemma shows_sizes rs os : shows rs os -> osizes os = map lenN (targets rs).
Proof.
  induction 1 as [|name mode rs o it _ _ _ _ _ IH|name mode data rs o _ IH|name mode tg rs o _ IH|rs o _ IH]; [reflexivity|exact IH| | |exact IH].
  - change (osizes (?x :: ?y)) with (osizes y). rewrite osizes_app. change (osizes (OFileEnd :: o)) with (osizes o).
    replace (osizes (map OByte data)) with (@nil N); [exact IH|]. clear. induction data; [reflexivity|exact IHdata].
  - unfold osizes in *. cbn [map concat app it_size]. rewrite IH. reflexivity.
Qed.

Lemma unsplit_told rs evs : shows rs (flat evs) -> Forall2 sfx (syms evs) (targets rs) -> unsplit evs ->
  Forall (fun tg => ~ In x00 tg) (targets rs) -> lshows rs evs.
Proof.
  intros Sh Sf Un Nz. split; [exact Sh|]. apply shows_sizes in Sh. rewrite osizes_flat in Sh. unfold unsplit in Un. rewrite Sh in Un.
  assert (T : told evs = map (fun p => cstr (fst p ++ snd p)) (payloads evs)).
  { unfold told, payloads. clear. induction evs as [|ev evs IH]; [reflexivity|]. cbn [map concat]. rewrite map_app, IH. f_equal. destruct ev; reflexivity. }
  rewrite T. unfold syms in Sf. clear Sh T. revert Sf Un Nz. generalize (targets rs) as ts, (payloads evs) as ps.
  induction ts as [|tg ts IH]; intros ps Sf Un Nz; inversion Un as [|p n ps' ns [L [t Et]] Un']; subst; [reflexivity|].
  cbn [map] in Sf. inversion Sf as [|? ? ? ? [pre Ep] Sf']; subst. inversion Nz as [|? ? Nz1 Nz2]; subst. cbn [map].
  rewrite (IH ps') by assumption. f_equal. rewrite Et.
  assert (pre = []) as ->. { destruct pre; [reflexivity|]. rewrite lenN_app, lenN_cons in L. lia. }
  cbn [app] in *. now apply cstr_app.
Qed.

(** ** Extraction *)
Section Extraction.
Context (z : zlib) (C : zlib_contract z) (e : endian) (alloc : N -> N -> bool) (hal al : N -> bool) (stk : N) (obuf hjunk : bytes) (pjunk : pst).
Hypothesis Calm : calm z hal al stk obuf hjunk pjunk.

(** The callbacks [evs] of the session that reads [inp], and its state [s] at the end. *)
Definition calls (dfuel fuel : nat) (archive : N) (inp : bytes) (s : dsess z) (evs : list event) : Prop :=
  exists s0 rets, create z (al 3) (Some obuf) DEF_CHUNK_SIZE hjunk pjunk = Some s0 /\
    run_dops e alloc dfuel s0 (chunk_ops archive fuel inp 0 0) = Ok (rets, s, evs).

Lemma session_links fuel s0 ops rets s evs recs : (forall k n, alloc k n = true) -> started z s0 -> Forall dop_ok ops ->
  dir_archive C (dfed ops) recs -> run_dops e alloc fuel s0 ops = Ok (rets, s, evs) -> room_left s -> recs <> [] ->
  exists evs' st, evs = EvDirBegin :: evs' /\ shows recs (flat evs') /\ proto_run Idle evs' = Some st /\ Forall2 sfx (syms evs') (targets recs).
Proof.
  intros Halloc Hs Ho (B & Fi & Ar & En & Rk) H Rl Hr.
  assert (At : at_hdr e (dir_fresh (set_err false (d_p s0)))) by (apply fresh_at_hdr, started_leftovers, Hs).
  destruct (dir_session z C e alloc _ _ _ _ _ _ Hs Ho Ar H) as [D1 D2]. destruct (D2 B Fi) as [D3 D4].
  assert (L1 : 128 < lenN (zc_dec C (dfed ops))).
  { pose proof (encodes_nonempty _ _ En Hr) as Q. destruct (dropN 128 (zc_dec C (dfed ops))) eqn:Ed; [contradiction|].
    assert (lenN (dropN 128 (zc_dec C (dfed ops))) <> 0) by (rewrite Ed, lenN_cons; lia). rewrite lenN_dropN in *. lia. }
  destruct (D4 Rl L1) as (ch & ev' & -> & (s' & E) & Ec).
  destruct (parse_chunks_ok e alloc ch _ (fresh_pwf e _ (started_leftovers z s0 Hs))) as (s1 & ev1 & E1 & _ & P).
  rewrite E in E1. injection E1 as <- <-. exists ev', (proto_of s'). split; [reflexivity|]. rewrite <- Ec in En.
  split; [|split; [exact P|]].
  - eapply (decode_chunks e alloc Halloc); [exact At|exact En|exact Rk|exact E].
  - eapply (chunks_targets e alloc Halloc); [exact At|exact En|exact Rk|exact E].
Qed.

Lemma extract_whole T archive F es t o fuel : (forall k n, alloc k n = true) -> (length F < fuel)%nat ->
  archive = 0 \/ archive <= lenN F ->
  dir_archive C (limited archive 0 F) (preorder es) -> preorder es <> [] ->
  Forall (fun x => quiet (snd x)) es -> NoDup (map fst es) ->
  Forall (fun x => lextractable (o_priv o) (o_umask o) (lenN T) (fst x) (snd x)) es -> homely o ->
  free_spot o T t -> usable_dir (o_priv o) (o_umask o) MODE_BASE_DIR -> (forall r, o_fs o (t ++ r) = None) ->
  volume (preorder es) <= o_free o ->
  exists dfuel0, forall dfuel, (dfuel0 <= dfuel)%nat -> exists s evs, calls dfuel fuel archive F s evs /\
    (room_left s -> unsplit evs -> exists h ds o',
      exec (extract T hal stk z e alloc archive fuel dfuel al obuf hjunk pjunk F false) o = Ok ((ContentDirectory, Some (s, h, ds)), o') /\
      same_env o o' /\ o_free o' = o_free o - volume (preorder es) /\
      forall q, o_fs o' q = overlay t (ldir_tree (o_umask o) es) (o_fs o) q).
Proof.
  intros Halloc Hf Ha Da Ne Q ND X [Hr Hl] Fs U Fr V.
  set (o1 := with_fs (upd (o_fs o) t (IDir (dir_perm (o_umask o) MODE_BASE_DIR))) o).
  destruct (begin_dir z hal al stk obuf hjunk pjunk Calm T t o Fs U) as (h1 & X1 & D1 & E1 & P1 & R1 & At1 & Nw). fold o1 in X1, At1.
  assert (Rd : lready (o_priv o) (o_umask o) o1 T t).
  { split; [|split].
    - split; [exact At1|]. split; [reflexivity|]. split; [reflexivity|]. unfold dir_mode, o1. cbn [o_fs with_fs]. rewrite upd_same. apply U.
    - change (o_cwd o1) with (o_cwd o). apply (dir_at_keeps o o1); [apply keeps_upd_new; exact Nw|reflexivity|reflexivity|]. exact (reachable_dir o Hr).
    - exact Hl. }
  assert (Nz : ~ In x00 T) by apply Fs.
  assert (Run : forall evs' st, lshows (preorder es) evs' -> proto_run Idle evs' = Some st ->
    exists h' o', exec (cbs T hal stk evs' h1) o1 = Ok (h', o') /\ in_dir h' T /\ same_h h1 h' /\ same_env o1 o' /\
      o_free o' = o_free o1 - volume (preorder es) /\ keeps (o_fs o1) (o_fs o') /\
      forall q, o_fs o' q = overlay t (fun r => ltree_at (o_umask o) r es) (o_fs o1) q).
  { intros evs' st S P.
    apply (ltree_placed T hal stk (ca_hal _ _ _ _ _ _ _ Calm) (ca_stk _ _ _ _ _ _ _ Calm) (o_priv o) (o_umask o) es T t evs' st Q ND X Nz S P h1 o1 D1 Rd).
    - intros r Hr'. unfold o1. cbn [o_fs with_fs]. rewrite upd_other; [apply Fr|].
      intro Q'. apply Hr'. apply (f_equal (@length bytes)) in Q'. rewrite app_length in Q'. destruct r; [reflexivity|cbn in Q'; lia].
    - exact V. }
  assert (Env1 : same_env o o1) by (repeat split).
  set (ops := chunk_ops archive fuel F 0 0).
  destruct (calm_started z C alloc hal al stk obuf hjunk pjunk Calm) as (s0 & Ec & St & Sf).
  assert (Ho : Forall dop_ok ops) by apply chunk_ops_ok.
  assert (Fed : dfed ops = limited archive 0 F) by (apply chunk_ops_fed; exact Hf).
  rewrite <- Fed in Da.
  destruct (session_returns_ok z C e alloc s0 ops St Ho) as (dfuel0 & [[rets s] evs] & R). { eapply supported_of. apply Da. }
  exists dfuel0. intros dfuel Hd. specialize (R dfuel Hd). exists s, evs.
  split; [exists s0, rets; split; [exact Ec|exact R]|]. intros Rl Un.
  destruct (session_links _ _ _ _ _ _ _ Halloc St Ho Da R Rl Ne) as (evs' & st & -> & Sh & Pr & Sy).
  assert (S : lshows (preorder es) evs').
  { apply unsplit_told; [exact Sh|exact Sy|exact Un|]. eapply targets_clean_all. exact X. }
  destruct (Run _ _ S Pr) as (h' & o3 & X3 & _ & (P3 & E3 & R3) & Env3 & Fr3 & _ & Eq).
  assert (X2 : exec (cbs T hal stk (EvDirBegin :: evs') HS0) o = Ok (h', o3)).
  { rewrite exec_cbs_cons, X1. cbn [obind]. exact X3. }
  assert (He : h_err h' = false) by congruence.
  pose proof (drive T hal stk z e alloc archive fuel dfuel F 0 0 s0 HS0 o rets s _ h' o3 Hf R X2 He) as Dr.
  destruct (destroy_safe z C alloc s) as (s' & Ds).
  { eapply (run_dops_safe z C e alloc); [exact Sf| |exact R]. intros b n. apply chunk_ops_feeds. }
  exists h', (limited archive 0 F), o3. split.
  { unfold extract. rewrite !(ca_al _ _ _ _ _ _ _ Calm) in *. cbn [negb orb]. rewrite Ec, exec_bind, Dr. cbn [obind].
    unfold close_fp. rewrite P3, P1. rewrite exec_bind. cbn [exec obind]. rewrite Ds. replace (h_ret h') with ContentDirectory by congruence. reflexivity. }
  split; [exact (same_env_trans _ _ _ Env1 Env3)|]. split; [exact Fr3|].
  intro q. rewrite Eq. unfold overlay. destruct (strip t q) as [r|] eqn:Es.
  - apply strip_spec in Es. subst q. unfold o1. cbn [o_fs with_fs].
    destruct r as [|c r].
    + rewrite app_nil_r, upd_same. cbn [ldir_tree]. destruct (ltree_at (o_umask o) [] es) eqn:Et; [|reflexivity].
      discriminate Et.
    + cbn [ldir_tree]. destruct (ltree_at (o_umask o) (c :: r) es); [reflexivity|]. rewrite upd_other; [reflexivity|].
      intro E. apply (f_equal (@length bytes)) in E. rewrite app_length in E. cbn in E. lia.
  - unfold o1. cbn [o_fs with_fs]. rewrite upd_other; [reflexivity|]. intro E; subst q.
    pose proof (strip_app t []) as E. rewrite app_nil_r in E. congruence.
Qed.
End Extraction.

Lemma disk_links_whole z (C : zlib_contract z) es F e alloc hal al stk obuf hjunk pjunk T archive inp t o fuel :
  archives_dir z es F -> input_of archive F inp -> (length inp < fuel)%nat ->
  calm z hal al stk obuf hjunk pjunk -> (forall k n, alloc k n = true) ->
  preorder es <> [] -> Forall (fun x => quiet (snd x)) es -> NoDup (map fst es) ->
  Forall (fun x => lextractable (o_priv o) (o_umask o) (lenN T) (fst x) (snd x)) es -> homely o ->
  free_spot o T t -> usable_dir (o_priv o) (o_umask o) MODE_BASE_DIR -> (forall r, o_fs o (t ++ r) = None) ->
  volume (preorder es) <= o_free o ->
  exists dfuel0, forall dfuel, (dfuel0 <= dfuel)%nat -> exists s evs, calls z e alloc al obuf hjunk pjunk dfuel fuel archive inp s evs /\
    (room_left s -> unsplit evs -> exists h ds o',
      exec (extract T hal stk z e alloc archive fuel dfuel al obuf hjunk pjunk inp false) o = Ok ((ContentDirectory, Some (s, h, ds)), o') /\
      same_env o o' /\ forall q, o_fs o' q = overlay t (ldir_tree (o_umask o) es) (o_fs o) q).
Proof.
  intros A I Hf Ca Ha Ne Q ND X Hm Fs U Fr V. pose proof (dir_archived z C es F A Q) as D.
  assert (Hl : archive = 0 \/ archive <= lenN inp).
  { destruct I as [[-> _]|(_ & -> & rest & ->)]; [now left|right]. rewrite lenN_app. lia. }
  rewrite <- (input_limited _ _ _ I) in D.
  destruct (extract_whole z C e alloc hal al stk obuf hjunk pjunk Ca T archive inp es t o fuel Ha Hf Hl D Ne Q ND X Hm Fs U Fr V) as (n & K).
  exists n. intros m Hm'. destruct (K m Hm') as (s & evs & Cs & R). exists s, evs. split; [exact Cs|].
  intros Rl Un. destruct (R Rl Un) as (h & ds & o' & E & R2 & _ & R3). exists h, ds, o'. auto.
Qed.
