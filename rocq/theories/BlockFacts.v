(** BlockFacts.v: the memory the directory decoder asks for. *)
From Verif Require Import Base Format Zlib Parser ParserProofs ParserFacts Decompress MidFacts ArchiveSpec ArchiveFacts ArchiveDecode.

(** The name of a record. *)
Definition rec_name (r : arec) : bytes :=
  match r with ADir n _ | AFile n _ _ _ | ALink n _ _ | ABroken n _ _ _ => n | AEnd => [] end.

Section Block.
Context (e : endian) (alloc : N -> N -> bool).
Notation parse := (parse e alloc).
Notation parse_chunks := (parse_chunks e alloc).
Notation sec_end := (sec_end e alloc).
Notation pwf := (pwf e).
Notation at_hdr := (at_hdr e).

Definition block_le (M : N) (s : pst) : Prop := forall blk, p_name s = Some blk -> lenN blk <= M.
Definition entry_le (M : N) (ev : event) : Prop := match ev with EvEntry _ _ nm => lenN nm <= M | _ => True end.
Definition inv (M : N) (s : pst) : Prop := (p_err s = false /\ p_stage s = StFilename) \/ block_le M s.

Lemma sec_end_inv M t s d s1 evs : pwf s -> p_err s = false -> lenN d = prem s ->
  sec_end t s d = Ok (s1, evs) -> inv M s -> Forall (entry_le M) evs -> inv M s1.
Proof.
  intros [Wi [W|(W1 & W2 & W3)]] He Hd H Hi Hv; [congruence|]. unfold ParserProofs.sec_end in H.
  destruct (p_stage s) eqn:Es.
  - assert (Hb : block_le M s) by (destruct Hi as [[_ Q]|Q]; [congruence|exact Q]).
    destruct (checked_write _ _ _) as [img| |]; try discriminate H. cbn [obind] in H.
    assert (X : forall ft, inv M (set_off 0 (set_ft ft (close_header e alloc (set_img img s))))).
    { intro ft. unfold inv, block_le, close_header. cbn. destruct (alloc (p_allocs s) (get_nlenN e img)); [left; auto|].
      right. intros blk Q. discriminate Q. }
    repeat (match type of H with (if ?b then _ else _) = _ => destruct b end; [injection H as <- <-; first [apply X | right; exact Hb]|]).
    injection H as <- <-. right; exact Hb.
  - destruct W3 as (_ & _ & (blk & Hb & Lb) & _). rewrite Hb in H. unfold write_name, checked_write in H.
    destruct (N.leb_spec (p_off s + lenN d) (lenN blk)) as [L|L]; [|discriminate H]. cbn [obind] in H.
    assert (X : forall it ft, Forall (entry_le M) [EvEntry ft it (write_at (p_off s) d blk)] -> lenN (write_at (p_off s) d blk) <= M).
    { intros it ft Q. apply Forall_cons_iff in Q. apply Q. }
    repeat (match type of H with (if ?b then _ else _) = _ => destruct b end;
      [injection H as <- <-; right; intros b' Q; injection Q as <-; eapply X; exact Hv|]).
    discriminate H.
  - assert (Hb : block_le M s) by (destruct Hi as [[_ Q]|Q]; [congruence|exact Q]).
    destruct (byte_eqb _ _); [|discriminate H]. injection H as <- <-. right; exact Hb.
  - assert (Hb : block_le M s) by (destruct Hi as [[_ Q]|Q]; [congruence|exact Q]).
    destruct (_ || _); [|discriminate H]. injection H as <- <-. right; exact Hb.
  - assert (Hb : block_le M s) by (destruct Hi as [[_ Q]|Q]; [congruence|exact Q]).
    destruct (byte_eqb _ _); [|discriminate H]. injection H as <- <-. right; exact Hb.
  - assert (Hb : block_le M s) by (destruct Hi as [[_ Q]|Q]; [congruence|exact Q]).
    destruct (_ || _); [|discriminate H]. injection H as <- <-. right; exact Hb.
Qed.

Lemma sec_part_inv M s d s1 evs : p_err s = false -> sec_part s d = Ok (s1, evs) -> inv M s -> inv M s1.
Proof.
  intros He H Hi. unfold sec_part in H. unfold inv in *. destruct (p_stage s) eqn:Es.
  - destruct (checked_write _ _ _) as [img| |]; try discriminate H. injection H as <- <-. cbn. rewrite Es.
    destruct Hi as [[_ Q]|Q]; [discriminate Q|]. right. exact Q.
  - destruct (write_name _ _ _) as [nm| |]; try discriminate H. injection H as <- <-. cbn. left. auto.
  - injection H as <- <-. cbn. rewrite Es. destruct Hi as [[_ Q]|Q]; [discriminate Q|]. right. exact Q.
  - injection H as <- <-. cbn. rewrite Es. destruct Hi as [[_ Q]|Q]; [discriminate Q|]. right. exact Q.
  - injection H as <- <-. cbn. rewrite Es. destruct Hi as [[_ Q]|Q]; [discriminate Q|]. right. exact Q.
  - injection H as <- <-. cbn. rewrite Es. destruct Hi as [[_ Q]|Q]; [discriminate Q|]. right. exact Q.
Qed.

Lemma parse_inv M : forall n t s b s1 evs, (4 * length b + rank s <= n)%nat -> pwf s ->
  parse t s b = Ok (s1, evs) -> inv M s -> Forall (entry_le M) evs -> inv M s1.
Proof.
  induction n as [n IH] using (well_founded_induction Wf_nat.lt_wf). intros t s b s1 evs Hn W H Hi Hv.
  rewrite parse_eq in H by assumption.
  destruct (p_err s) eqn:He. { injection H as <- <-. exact Hi. }
  destruct (N.leb_spec (prem s) (lenN b)) as [Hl|Hl].
  - assert (Ld : lenN (takeN (prem s) b) = prem s) by (rewrite lenN_takeN; lia).
    destruct (sec_end_ok e alloc (dropN (prem s) b ++ t) s (takeN (prem s) b) W He Ld) as (s2 & ev & E & W1 & R).
    rewrite E in H. cbn [obind] in H.
    pose proof (fun X => sec_end_inv M _ _ _ _ _ W He Ld E Hi X) as P1.
    destruct (N.ltb_spec (prem s) (lenN b)) as [Hl2|Hl2].
    + destruct (parse t s2 (dropN (prem s) b)) as [[s3 ev3]| |] eqn:E3; try discriminate H. cbn [obind] in H.
      injection H as <- <-. apply Forall_app in Hv. destruct Hv as [Hv1 Hv2].
      assert (Hlen : (length (dropN (prem s) b) + N.to_nat (prem s) = length b)%nat).
      { pose proof (lenN_dropN _ (prem s) b) as L. unfold lenN in *. lia. }
      pose proof (rank_le s2). pose proof (rank_le s).
      apply (IH (4 * length (dropN (prem s) b) + rank s2)%nat) with (2 := le_n _) (4 := E3); auto.
      destruct R as [R|[R1 R2]]; lia.
    + injection H as <- <-. auto.
  - eapply sec_part_inv; eauto.
Qed.

Lemma chunks_inv M : forall c s s1 evs, pwf s -> parse_chunks s c = Ok (s1, evs) -> inv M s -> Forall (entry_le M) evs -> inv M s1.
Proof.
  induction c as [|[d t] r IH]; intros s s1 evs W H Hi Hv; cbn [ParserFacts.parse_chunks] in H.
  - injection H as <- <-. exact Hi.
  - destruct (parse_ok e alloc t s d W) as (s2 & ev2 & E & W2). rewrite E in H. cbn [obind] in H.
    destruct (parse_chunks s2 r) as [[s3 ev3]| |] eqn:E3; try discriminate H. cbn [obind] in H. injection H as <- <-.
    apply Forall_app in Hv. destruct Hv as [Hv1 Hv2].
    apply (IH s2 s3 ev3 W2 E3); [|exact Hv2]. exact (parse_inv M _ _ _ _ _ _ (le_n _) W E Hi Hv1).
Qed.

(** A name that has been begun is reported before the next record begins. *)
Lemma name_reported M t s y s2 evs : pwf s -> p_err s = false -> p_stage s = StFilename ->
  parse t s y = Ok (s2, evs) -> at_hdr s2 -> Forall (entry_le M) evs -> p_size s <= M.
Proof.
  intros W He Hs H A Hv. rewrite parse_eq in H by assumption. rewrite He in H.
  destruct (N.leb_spec (prem s) (lenN y)) as [Hl|Hl].
  - assert (Ld : lenN (takeN (prem s) y) = prem s) by (rewrite lenN_takeN; lia).
    destruct W as [_ [W|(W1 & W2 & W3)]]; [congruence|]. rewrite Hs in W3.
    destruct W3 as (_ & _ & (blk & Hb & Lb) & Hc).
    assert (Q : exists s3 ft it nm, sec_end (dropN (prem s) y ++ t) s (takeN (prem s) y) = Ok (s3, [EvEntry ft it nm]) /\ lenN nm = p_size s).
    { unfold ParserProofs.sec_end. rewrite Hs, Hb. unfold write_name, checked_write.
      destruct (N.leb_spec (p_off s + lenN (takeN (prem s) y)) (lenN blk)) as [L|L]; [|unfold prem in *; lia].
      cbn [obind].
      assert (Ln : lenN (write_at (p_off s) (takeN (prem s) y) blk) = p_size s) by (rewrite lenN_write_at by exact L; exact Lb).
      destruct Hc as [[-> _]|[[-> _]|[-> _]]]; cbn; eauto 10. }
    destruct Q as (s3 & ft & it & nm & E & Ln). rewrite E in H. cbn [obind] in H.
    destruct (prem s <? lenN y).
    + destruct (parse t s3 (dropN (prem s) y)) as [[s4 ev4]| |]; try discriminate H. cbn [obind app] in H. injection H as <- <-.
      apply Forall_cons_iff in Hv. destruct Hv as [Hv _]. cbn in Hv. lia.
    + injection H as <- <-. apply Forall_cons_iff in Hv. destruct Hv as [Hv _]. cbn in Hv. lia.
  - destruct (sec_part_ok e alloc s y W He Hl) as (s3 & ev & E & _ & _ & St & _). rewrite E in H. injection H as <- <-.
    destruct A as (_ & _ & A & _). congruence.
Qed.

Lemma block_size s blk : pwf s -> p_err s = false -> p_stage s = StFilename -> p_name s = Some blk -> lenN blk = p_size s.
Proof.
  intros [_ [W|(_ & _ & W3)]] He Hs Hb; [congruence|]. rewrite Hs in W3. destruct W3 as (_ & _ & (b' & Hb' & L) & _). congruence.
Qed.

(** ** Any input *)
Lemma name_small s : pwf s -> p_err s = false -> p_stage s = StFilename -> p_size s <= two32 - 1.
Proof.
  intros [Wi [W|(_ & _ & W3)]] He Hs; [congruence|]. rewrite Hs in W3. destruct W3 as (Hit & -> & _). rewrite Hit. cbn [item_of it_nlenN].
  unfold get_nlenN. pose proof (get_lt e 20 4 (p_img s)) as G. unfold ITEM_SIZE in Wi. rewrite Wi in G. cbn in G. unfold two32. lia.
Qed.

Lemma sec_end_small t s d s1 evs : pwf s -> p_err s = false -> sec_end t s d = Ok (s1, evs) -> Forall (entry_le (two32 - 1)) evs.
Proof.
  intros W He H. unfold ParserProofs.sec_end in H. destruct (p_stage s) eqn:Es.
  - destruct (checked_write _ _ _) as [img| |]; try discriminate H. cbn [obind] in H.
    repeat (match type of H with (if ?b then _ else _) = _ => destruct b end; [injection H as <- <-; repeat constructor|]).
    injection H as <- <-. constructor.
  - pose proof (name_small s W He Es) as Sm. destruct W as [Wi [W|(W1 & W2 & W3)]]; [congruence|]. rewrite Es in W3.
    destruct W3 as (_ & _ & (blk & Hb & Lb) & _). rewrite Hb in H. unfold write_name, checked_write in H.
    destruct (N.leb_spec (p_off s + lenN d) (lenN blk)) as [L|L]; [|discriminate H]. cbn [obind] in H.
    assert (X : forall ft it, Forall (entry_le (two32 - 1)) [EvEntry ft it (write_at (p_off s) d blk)]).
    { intros ft it. constructor; [|constructor]. cbn [entry_le]. rewrite lenN_write_at by exact L. lia. }
    repeat (match type of H with (if ?b then _ else _) = _ => destruct b end; [injection H as <- <-; apply X|]).
    discriminate H.
  - destruct (byte_eqb _ _); [|discriminate H]. injection H as <- <-. repeat constructor.
  - destruct (_ || _); [|discriminate H]. injection H as <- <-. constructor.
  - destruct (byte_eqb _ _); [|discriminate H]. injection H as <- <-. repeat constructor.
  - destruct (_ || _); [|discriminate H]. injection H as <- <-. constructor.
Qed.

Lemma parse_small : forall n t s b s1 evs, (4 * length b + rank s <= n)%nat -> pwf s ->
  parse t s b = Ok (s1, evs) -> Forall (entry_le (two32 - 1)) evs.
Proof.
  induction n as [n IH] using (well_founded_induction Wf_nat.lt_wf). intros t s b s1 evs Hn W H.
  rewrite parse_eq in H by assumption.
  destruct (p_err s) eqn:He. { injection H as <- <-. constructor. }
  destruct (N.leb_spec (prem s) (lenN b)) as [Hl|Hl].
  - assert (Ld : lenN (takeN (prem s) b) = prem s) by (rewrite lenN_takeN; lia).
    destruct (sec_end_ok e alloc (dropN (prem s) b ++ t) s (takeN (prem s) b) W He Ld) as (s2 & ev & E & W1 & R).
    rewrite E in H. cbn [obind] in H. pose proof (sec_end_small _ _ _ _ _ W He E) as P1.
    destruct (N.ltb_spec (prem s) (lenN b)) as [Hl2|Hl2].
    + destruct (parse t s2 (dropN (prem s) b)) as [[s3 ev3]| |] eqn:E3; try discriminate H. cbn [obind] in H.
      injection H as <- <-. apply Forall_app. split; [exact P1|].
      assert (Hlen : (length (dropN (prem s) b) + N.to_nat (prem s) = length b)%nat).
      { pose proof (lenN_dropN _ (prem s) b) as L. unfold lenN in *. lia. }
      pose proof (rank_le s2). pose proof (rank_le s).
      apply (IH (4 * length (dropN (prem s) b) + rank s2)%nat) with (2 := le_n _) (4 := E3); auto.
      destruct R as [R|[R1 R2]]; lia.
    + injection H as <- <-. exact P1.
  - unfold sec_part in H. destruct (p_stage s).
    + destruct (checked_write _ _ _) as [img| |]; try discriminate H. injection H as <- <-. constructor.
    + destruct (write_name _ _ _) as [nm| |]; try discriminate H. injection H as <- <-. constructor.
    + injection H as <- <-. repeat constructor.
    + injection H as <- <-. constructor.
    + injection H as <- <-. constructor.
    + injection H as <- <-. constructor.
Qed.

Lemma chunks_small : forall c s s1 evs, pwf s -> parse_chunks s c = Ok (s1, evs) -> Forall (entry_le (two32 - 1)) evs.
Proof.
  induction c as [|[d t] r IH]; intros s s1 evs W H; cbn [ParserFacts.parse_chunks] in H.
  - injection H as <- <-. constructor.
  - destruct (parse_ok e alloc t s d W) as (s2 & ev2 & E & W2). rewrite E in H. cbn [obind] in H.
    destruct (parse_chunks s2 r) as [[s3 ev3]| |] eqn:E3; try discriminate H. cbn [obind] in H. injection H as <- <-.
    apply Forall_app. split; [exact (parse_small _ _ _ _ _ _ (le_n _) W E)|exact (IH _ _ _ W2 E3)].
Qed.

Lemma block_32 chunks s s' evs blk : pwf s -> p_name s = None -> parse_chunks s chunks = Ok (s', evs) -> p_name s' = Some blk ->
  lenN blk < two32.
Proof.
  intros W Hn H Hb. assert (I0 : inv (two32 - 1) s) by (right; intros b Q; congruence).
  destruct (parse_chunks_ok e alloc chunks s W) as (x & xv & Ex & Wx & _). rewrite H in Ex. injection Ex as <- <-.
  assert (Q : lenN blk <= two32 - 1).
  { pose proof (chunks_inv _ _ _ _ _ W H I0 (chunks_small _ _ _ _ W H)) as [[He St]|B]; [|exact (B blk Hb)].
    rewrite (block_size _ _ Wx He St Hb). now apply name_small. }
  unfold two32 in *. lia.
Qed.

Context (Halloc : forall k n, alloc k n = true).

Lemma decode_end recs chunks s s' evs : at_hdr s -> encodes recs (ctext chunks) -> Forall rec_ok recs ->
  parse_chunks s chunks = Ok (s', evs) -> at_hdr s'.
Proof.
  intros Hs En Ok0 H. destruct recs as [|r0 recs].
  - inversion En. rewrite (parse_chunks_nils e alloc s) in H; [|intro; now apply parse_at_hdr_nil|congruence].
    injection H as <- <-. exact Hs.
  - assert (Hne : ctext chunks <> []) by (eapply encodes_nonempty; [exact En|discriminate]).
    destruct (ctext_last chunks Hne) as (c1 & d & t & c2 & -> & Hd & E2).
    assert (Ec : ctext (c1 ++ [(d, t)] ++ c2) = ctext c1 ++ d).
    { rewrite !ctext_app, E2. change (ctext [(d, t)]) with (d ++ []). now rewrite !app_nil_r. }
    rewrite Ec in En. destruct (decode_recs e alloc Halloc _ _ En Ok0 s Hs) as (s1 & A1 & P).
    destruct (P [] []) as (ev1 & Sh & E). rewrite (parse_at_hdr_nil e alloc [] s1 A1) in E. cbn [obind] in E.
    rewrite !app_nil_r in E.
    destruct (parse_chunks_whole e alloc c1 d t [] s (proj1 Hs) Hd) as (s2 & ea & eb & Ea & Eb & Fl).
    rewrite E in Eb. injection Eb as <- <-.
    rewrite app_assoc, parse_chunks_app, Ea in H. cbn [obind] in H.
    rewrite (parse_chunks_nils e alloc s1) in H; [|intro; now apply parse_at_hdr_nil|exact E2].
    cbn [obind] in H. injection H as <- <-. exact A1.
Qed.

Definition names_le (M : N) (r : arec) : Prop := lenN (rec_name r) + 8 <= M.

Lemma shows_le M recs o : shows recs o -> Forall rec_ok recs -> Forall (names_le M) recs ->
  forall ft it nm, In (OEntry ft it nm) o -> lenN nm <= M.
Proof.
  assert (P : forall n, lenN n + 8 < two32 -> lenN n + 8 <= M -> lenN (padded n) <= M).
  { intros n H1 H2. unfold padded. rewrite lenN_app, lenN_zeros. destruct (norm_len32_spec _ H1) as (_ & _ & L). lia. }
  induction 1 as [|name mode rs o it I1 I2 I3 I4 S0 IH|name mode data rs o S0 IH|name mode target rs o S0 IH|rs o S0 IH];
    intros Hr Hn ft' it' nm' Hi; [destruct Hi|..];
    apply Forall_cons_iff in Hr; destruct Hr as [Hr1 Hr]; apply Forall_cons_iff in Hn; destruct Hn as [Hn1 Hn].
  - destruct Hi as [Q|Q]; [injection Q as _ _ <-; apply P; [apply Hr1|exact Hn1]|eauto].
  - destruct Hi as [Q|Q]; [injection Q as _ _ <-; apply P; [apply Hr1|exact Hn1]|].
    apply in_app_or in Q. destruct Q as [Q|Q].
    + apply in_map_iff in Q. destruct Q as (x & Q & _). discriminate Q.
    + destruct Q as [Q|Q]; [discriminate Q|eauto].
  - destruct Hi as [Q|Q]; [injection Q as _ _ <-; apply P; [apply Hr1|exact Hn1]|].
    destruct Q as [Q|Q]; [discriminate Q|eauto].
  - destruct Hi as [Q|Q]; [discriminate Q|eauto].
Qed.

Lemma flat_entries M evs : (forall ft it nm, In (OEntry ft it nm) (flat evs) -> lenN nm <= M) -> Forall (entry_le M) evs.
Proof.
  induction evs as [|ev evs IH]; intro H; [constructor|]. constructor.
  - destruct ev; try exact I. cbn. apply (H ft it name). rewrite flat_cons. left. reflexivity.
  - apply IH. intros ft it nm Q. apply (H ft it nm). rewrite flat_cons. apply in_or_app. now right.
Qed.

(** Whatever part of the archive has been decoded, the block is no longer than the longest name and its padding. *)
Lemma block_bounded M recs chunks y s s' evs blk : at_hdr s -> p_name s = None ->
  encodes recs (ctext chunks ++ y) -> Forall rec_ok recs -> Forall (names_le M) recs ->
  parse_chunks s chunks = Ok (s', evs) -> p_name s' = Some blk -> lenN blk <= M.
Proof.
  intros Hs Hn En Ro Na H Hb.
  assert (I0 : inv M s) by (right; intros b Q; congruence).
  destruct (parse_chunks_ok e alloc chunks s (proj1 Hs)) as (x & xv & Ex & Wx & _). rewrite H in Ex. injection Ex as <- <-.
  destruct (parse_ok e alloc [] s' y Wx) as (s2 & ev2 & E2 & W2).
  assert (Hc : parse_chunks s (chunks ++ [(y, [])]) = Ok (s2, evs ++ ev2)).
  { rewrite parse_chunks_app, H. cbn [obind ParserFacts.parse_chunks]. rewrite E2. cbn [obind]. now rewrite app_nil_r. }
  assert (Ec : ctext (chunks ++ [(y, [])]) = ctext chunks ++ y).
  { rewrite ctext_app. unfold ctext at 2. cbn. now rewrite app_nil_r. }
  rewrite <- Ec in En.
  pose proof (decode_chunks e alloc Halloc _ _ _ _ _ Hs En Ro Hc) as Sh.
  pose proof (decode_end _ _ _ _ _ Hs En Ro Hc) as A2.
  pose proof (flat_entries M _ (shows_le M _ _ Sh Ro Na)) as F. apply Forall_app in F. destruct F as [F1 F2].
  pose proof (chunks_inv M _ _ _ _ (proj1 Hs) H I0 F1) as [[He St]|B]; [|exact (B blk Hb)].
  rewrite (block_size _ _ Wx He St Hb). exact (name_reported M [] s' y s2 ev2 Wx He St E2 A2 F2).
Qed.

(** ** Hostile archives *)

(** One record header makes the decoder ask for almost 4 GiB. *)
Lemma block_huge s e' mode junk t : at_hdr s -> lenN junk = 40 -> mode < two32 ->
  exists s' blk, parse_chunks s [(dir_item e' 4294967280 mode junk, t)] = Ok (s', []) /\
    p_name s' = Some blk /\ lenN blk = 4294967288.
Proof.
  intros H Hj Hm.
  pose proof (lenN_dir_item e' 4294967280 mode junk Hj) as Lh.
  assert (Hn : 4294967280 < two32) by reflexivity.
  destruct (dir_item_fields e' e 4294967280 mode junk Hj Hn Hm) as (F3 & F4 & F5 & F6).
  set (hdr := dir_item e' 4294967280 mode junk) in *.
  pose proof (at_hdr_prem e s H) as Hp. pose proof H as (W & He & _).
  assert (Hc : get_ctype hdr = CT_DIR_START /\ FtDir = FtDir \/ get_ctype hdr = CT_FILE /\ FtDir = FtFile \/
               get_ctype hdr = CT_SYM_LINK /\ FtDir = FtSymLink) by (left; auto).
  destruct (header_section e alloc Halloc s hdr FtDir H Lh Hc) as (s1 & E1 & W1 & He1 & Hs1 & Ho1 & Hi1 & Hit1 & Hsz1 & Hf1).
  assert (Hb : exists blk, p_name s1 = Some blk).
  { destruct W1 as [_ [W1|(_ & _ & W3)]]; [congruence|]. rewrite Hs1 in W3. destruct W3 as (_ & _ & (b & B & _) & _). eauto. }
  destruct Hb as [blk Hb]. exists s1, blk.
  split; [|split; [exact Hb|]].
  - cbn [ParserFacts.parse_chunks]. rewrite parse_eq by exact W. rewrite He.
    assert (L : lenN hdr = prem s) by lia. rewrite <- L, N.leb_refl, N.ltb_irrefl.
    rewrite takeN_all by lia. rewrite E1. reflexivity.
  - rewrite (block_size _ _ W1 He1 Hs1 Hb), Hsz1, F4. reflexivity.
Qed.
End Block.
