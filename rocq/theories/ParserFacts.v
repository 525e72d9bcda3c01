(** ParserFacts.v: splittings, protocol and records of the directory decoder. *)
From Verif Require Import Base Format Parser ParserProofs.

(** ** The callback protocol (specification of C21) *)

(** Between callbacks: nothing open; a file with [k] announced bytes still to come; a link
    whose target is still to come. *)
Inductive proto := Idle | InFile (k : N) | InLink.

(** One callback; [None]: not allowed. *)
Definition proto_step (st : proto) (ev : event) : option proto :=
  match st, ev with
  | Idle, EvEntry FtDir _ _ => Some Idle
  | Idle, EvEntry FtFile it _ => Some (InFile (it_size it))
  | Idle, EvEntry FtSymLink _ _ => Some InLink
  | Idle, EvDirEnd => Some Idle
  | InFile k, EvRead d => if lenN d <=? k then Some (InFile (k - lenN d)) else None
  | InFile k, EvFileEnd => if k =? 0 then Some Idle else None
  | InLink, EvSym _ _ => Some Idle
  | _, _ => None
  end.
Fixpoint proto_run (st : proto) (evs : list event) : option proto :=
  match evs with
  | [] => Some st
  | ev :: r => match proto_step st ev with Some st1 => proto_run st1 r | None => None end
  end.

Lemma proto_run_app : forall a b st,
  proto_run st (a ++ b) = match proto_run st a with Some st1 => proto_run st1 b | None => None end.
Proof.
  induction a as [|ev a IH]; intros b st; [reflexivity|]. cbn.
  destruct (proto_step st ev); [apply IH|reflexivity].
Qed.

Section Facts.
Context (e : endian) (alloc : N -> N -> bool).
Notation parse := (parse e alloc).
Notation pwf := (pwf e).
Notation sec_end := (sec_end e alloc).

Definition proto_of (s : pst) : proto :=
  match p_stage s with
  | StReadFile => InFile (prem s)
  | StSymLink => InLink
  | _ => Idle
  end.

Lemma sec_end_proto t s d s1 evs : pwf s -> p_err s = false -> lenN d = prem s ->
  sec_end t s d = Ok (s1, evs) -> proto_run (proto_of s) evs = Some (proto_of s1).
Proof.
  intros [Wi [W|(W1 & W2 & W3)]] He Hd H; [congruence|]. unfold ParserProofs.sec_end in H. unfold proto_of.
  destruct (p_stage s) eqn:Es.
  - destruct (checked_write _ _ _) as [img| |]; try discriminate H. cbn [obind] in H.
    repeat (match type of H with (if ?b then _ else _) = _ => destruct b end;
            [injection H as <- <-; cbn; rewrite ?Es; reflexivity|]).
    injection H as <- <-. cbn. rewrite Es. reflexivity.
  - destruct (write_name _ _ _) as [name| |]; try discriminate H. cbn [obind] in H.
    destruct W3 as (_ & _ & _ & [[Hc Hf]|[[Hc Hf]|[Hc Hf]]]); rewrite Hc in H; cbn in H; injection H as <- <-;
      cbn; rewrite Hf; cbn; [reflexivity| |reflexivity].
    unfold prem. cbn. now rewrite N.sub_0_r.
  - destruct (byte_eqb _ _); [|discriminate]. injection H as <- <-. cbn.
    destruct (N.leb_spec (lenN d) (prem s)); [|lia]. rewrite Hd, N.sub_diag. reflexivity.
  - destruct (_ || _); [|discriminate]. injection H as <- <-. reflexivity.
  - destruct (byte_eqb _ _); [|discriminate]. injection H as <- <-. reflexivity.
  - destruct (_ || _); [|discriminate]. injection H as <- <-. reflexivity.
Qed.

Lemma sec_part_proto s d s1 evs : p_off s <= p_size s -> lenN d < prem s ->
  sec_part s d = Ok (s1, evs) -> proto_run (proto_of s) evs = Some (proto_of s1).
Proof.
  intros Ho Hd H. unfold sec_part in H. unfold proto_of.
  destruct (p_stage s) eqn:Es.
  - destruct (checked_write _ _ _) as [img| |]; try discriminate H. injection H as <- <-. cbn. now rewrite Es.
  - destruct (write_name _ _ _) as [name| |]; try discriminate H. injection H as <- <-. cbn. now rewrite Es.
  - injection H as <- <-. cbn. rewrite Es. destruct (N.leb_spec (lenN d) (prem s)); [|lia].
    unfold prem in *. cbn. do 2 f_equal. lia.
  - injection H as <- <-. cbn. now rewrite Es.
  - injection H as <- <-. cbn. now rewrite Es.
  - injection H as <- <-. cbn. now rewrite Es.
Qed.

Lemma parse_proto : forall n t s b s1 evs, (4 * length b + rank s <= n)%nat -> pwf s ->
  parse t s b = Ok (s1, evs) -> proto_run (proto_of s) evs = Some (proto_of s1).
Proof.
  induction n as [n IH] using (well_founded_induction Wf_nat.lt_wf). intros t s b s1 evs Hn W H.
  rewrite parse_eq in H by assumption.
  destruct (p_err s) eqn:He. { injection H as <- <-. reflexivity. }
  destruct (N.leb_spec (prem s) (lenN b)) as [Hl|Hl].
  - assert (Ld : lenN (takeN (prem s) b) = prem s) by (rewrite lenN_takeN; lia).
    destruct (sec_end_ok e alloc (dropN (prem s) b ++ t) s (takeN (prem s) b) W He Ld) as (s2 & ev & E & W1 & R).
    rewrite E in H. cbn [obind] in H.
    pose proof (sec_end_proto _ _ _ _ _ W He Ld E) as P1.
    destruct (N.ltb_spec (prem s) (lenN b)) as [Hl2|Hl2].
    + destruct (parse t s2 (dropN (prem s) b)) as [[s3 ev3]| |] eqn:E3; try discriminate H. cbn [obind] in H.
      injection H as <- <-. rewrite proto_run_app, P1.
      assert (Hlen : (length (dropN (prem s) b) + N.to_nat (prem s) = length b)%nat).
      { pose proof (lenN_dropN _ (prem s) b) as L. unfold lenN in *. lia. }
      pose proof (rank_le s2). pose proof (rank_le s).
      apply (IH (4 * length (dropN (prem s) b) + rank s2)%nat) with (2 := le_n _) (4 := E3); [|exact W1].
      destruct R as [R|[R1 R2]]; lia.
    + injection H as <- <-. exact P1.
  - destruct W as [Wi [W|(W1 & _)]]; [congruence|]. eapply sec_part_proto; eauto.
Qed.

(** ** Sequences of inflate outputs *)

Fixpoint parse_chunks (s : pst) (chunks : list (bytes * bytes)) : outcome (pst * list event) :=
  match chunks with
  | [] => Ok (s, [])
  | (d, t) :: r =>
    do (s1, ev1) <- parse t s d;
    do (s2, ev2) <- parse_chunks s1 r;
    Ok (s2, ev1 ++ ev2)
  end.
Definition ctext (chunks : list (bytes * bytes)) : bytes := concat (map fst chunks).

Lemma ctext_app a b : ctext (a ++ b) = ctext a ++ ctext b.
Proof. unfold ctext. now rewrite map_app, concat_app. Qed.

Lemma parse_chunks_app : forall a b s,
  parse_chunks s (a ++ b) =
  do (s1, ev1) <- parse_chunks s a; do (s2, ev2) <- parse_chunks s1 b; Ok (s2, ev1 ++ ev2).
Proof.
  induction a as [|[d t] a IH]; intros b s; cbn [app parse_chunks obind].
  - destruct (parse_chunks s b) as [[s2 ev2]| |]; reflexivity.
  - destruct (parse t s d) as [[s1 ev1]| |]; cbn [obind]; try reflexivity.
    rewrite IH. destruct (parse_chunks s1 a) as [[s2 ev2]| |]; cbn [obind]; try reflexivity.
    destruct (parse_chunks s2 b) as [[s3 ev3]| |]; cbn [obind]; try reflexivity.
    now rewrite app_assoc.
Qed.

Lemma parse_chunks_ok : forall chunks s, pwf s ->
  exists s1 evs, parse_chunks s chunks = Ok (s1, evs) /\ pwf s1 /\ proto_run (proto_of s) evs = Some (proto_of s1).
Proof.
  induction chunks as [|[d t] r IH]; intros s W; cbn [parse_chunks].
  - exists s, []. auto.
  - destruct (parse_ok e alloc t s d W) as (s1 & ev1 & E & W1). rewrite E. cbn [obind].
    destruct (IH s1 W1) as (s2 & ev2 & E2 & W2 & P2). rewrite E2. cbn [obind].
    eexists _, _. split; [reflexivity|]. split; [exact W2|].
    rewrite proto_run_app, (parse_proto _ _ _ _ _ _ (le_n _) W E). exact P2.
Qed.

Lemma parse_chunks_nils s : (forall t, parse t s [] = Ok (s, [])) ->
  forall c, ctext c = [] -> parse_chunks s c = Ok (s, []).
Proof.
  intros Hs. induction c as [|[d t] r IH]; intro H; [reflexivity|].
  cbn in H. apply app_eq_nil in H. destruct H as [-> H]. cbn [parse_chunks]. rewrite Hs. cbn [obind].
  rewrite IH by exact H. reflexivity.
Qed.

(** If the last output is not empty, the splitting does not matter. *)
Lemma parse_chunks_whole : forall chunks d t t' s, pwf s -> d <> [] ->
  exists s1 ev1 ev2, parse_chunks s (chunks ++ [(d, t)]) = Ok (s1, ev1) /\
    parse t' s (ctext chunks ++ d) = Ok (s1, ev2) /\ flat ev1 = flat ev2.
Proof.
  induction chunks as [|[a ta] r IH]; intros d t t' s W Hd; cbn [app parse_chunks ctext map concat].
  - destruct (parse_ok e alloc t s d W) as (s1 & ev1 & E & W1). rewrite E. cbn [obind].
    destruct (parse_tail e alloc t t' s d s1 ev1 W E) as (ev2 & E2 & F).
    exists s1, ev1, ev2. rewrite app_nil_r. auto.
  - fold (ctext r). destruct (parse_ok e alloc ta s a W) as (s1 & ev1 & E & W1). rewrite E. cbn [obind].
    destruct (IH d t t' s1 W1 Hd) as (s2 & ev2 & ev3 & E2 & E3 & F2). rewrite E2. cbn [obind].
    assert (Hb : ctext r ++ d <> []) by (destruct (ctext r); [exact Hd|discriminate]).
    destruct (parse_app e alloc _ a (ctext r ++ d) ta t' t' s (le_n _) W Hb) as (x1 & y1 & x2 & y2 & y3 & G1 & G2 & G3 & G4).
    rewrite E in G1. injection G1 as <- <-. rewrite E3 in G2. injection G2 as <- <-.
    exists s2, (ev1 ++ ev2), y3. split; [reflexivity|]. cbn [fst]. rewrite <- app_assoc. split; [exact G3|].
    rewrite flat_app, F2. now rewrite G4.
Qed.

(** Two splittings of the same plaintext whose last outputs are not empty. *)
Lemma parse_chunks_same c1 d1 t1 c2 d2 t2 s : pwf s -> d1 <> [] -> d2 <> [] ->
  ctext c1 ++ d1 = ctext c2 ++ d2 ->
  exists s1 ev1 ev2, parse_chunks s (c1 ++ [(d1, t1)]) = Ok (s1, ev1) /\
    parse_chunks s (c2 ++ [(d2, t2)]) = Ok (s1, ev2) /\ flat ev1 = flat ev2.
Proof.
  intros W H1 H2 Eq.
  destruct (parse_chunks_whole c1 d1 t1 [] s W H1) as (s1 & a & b & E1 & E2 & F1).
  destruct (parse_chunks_whole c2 d2 t2 [] s W H2) as (s2 & a' & b' & E3 & E4 & F2).
  rewrite Eq, E4 in E2. injection E2 as <- <-.
  exists s2, a, a'. split; [exact E1|]. split; [exact E3|]. congruence.
Qed.

Lemma ctext_last chunks : ctext chunks <> [] ->
  exists c1 d t c2, chunks = c1 ++ [(d, t)] ++ c2 /\ d <> [] /\ ctext c2 = [].
Proof.
  induction chunks as [|x r IH] using rev_ind; [now destruct 1|]. destruct x as [d t].
  intro H. rewrite ctext_app in H. destruct d as [|b d].
  - destruct IH as (c1 & d & t' & c2 & -> & Hd & E).
    { intro Q. apply H. rewrite Q. reflexivity. }
    exists c1, d, t', (c2 ++ [([], t)]). split; [now rewrite <- !app_assoc|]. split; [exact Hd|].
    rewrite ctext_app, E. reflexivity.
  - exists r, (b :: d), t, []. split; [reflexivity|]. split; [discriminate|reflexivity].
Qed.

(** A proper prefix of the plaintext gives a prefix of the callbacks. *)
Lemma parse_chunks_prefix ca cb y s : pwf s -> y <> [] -> ctext cb = ctext ca ++ y ->
  exists s1 ev1 s2 ev2, parse_chunks s ca = Ok (s1, ev1) /\ parse_chunks s cb = Ok (s2, ev2) /\
    prefix (flat ev1) (flat ev2).
Proof.
  intros W Hy Eq.
  destruct (ctext_last cb) as (c1 & d & t & c2 & -> & Hd & Ec2).
  { rewrite Eq. destruct (ctext ca); [exact Hy|discriminate]. }
  rewrite !ctext_app, Ec2, app_nil_r in Eq. change (ctext [(d, t)]) with (d ++ []) in Eq. rewrite app_nil_r in Eq.
  destruct (parse_chunks_same c1 d t ca y [] s W Hd Hy Eq) as (s1 & ev1 & ev2 & E1 & E2 & F).
  rewrite parse_chunks_app in E2.
  destruct (parse_chunks s ca) as [[sa eva]| |] eqn:Ea; try discriminate E2. cbn [obind] in E2.
  destruct (parse_chunks sa [(y, [])]) as [[sb evb]| |]; try discriminate E2. cbn [obind] in E2.
  injection E2 as <- <-.
  assert (W1 : pwf sb).
  { destruct (parse_chunks_ok (c1 ++ [(d, t)]) s W) as (q & qe & Q & Qw & _). congruence. }
  destruct (parse_chunks_ok c2 sb W1) as (s3 & ev3 & E3 & _).
  exists sa, eva, s3, (ev1 ++ ev3). split; [reflexivity|]. split.
  { rewrite app_assoc, parse_chunks_app, E1. cbn [obind]. rewrite E3. reflexivity. }
  rewrite flat_app, F, flat_app, <- app_assoc. apply prefix_app.
Qed.

(** Trailing empty outputs can complete empty sections; otherwise equal plaintexts give equal callbacks. *)
Lemma parse_nils_cmp : forall c1 c2 s, pwf s -> ctext c1 = [] -> ctext c2 = [] ->
  exists s1 ev1 s2 ev2, parse_chunks s c1 = Ok (s1, ev1) /\ parse_chunks s c2 = Ok (s2, ev2) /\
    (prefix (flat ev1) (flat ev2) \/ prefix (flat ev2) (flat ev1)).
Proof.
  induction c1 as [|[d t] r IH]; intros c2 s W H1 H2.
  - destruct (parse_chunks_ok c2 s W) as (s2 & ev2 & E & _). exists s, [], s2, ev2.
    split; [reflexivity|]. split; [exact E|]. left. apply prefix_nil.
  - destruct c2 as [|[d2 t2] r2].
    + destruct (parse_chunks_ok ((d, t) :: r) s W) as (s2 & ev2 & E & _). exists s2, ev2, s, [].
      split; [exact E|]. split; [reflexivity|]. right. apply prefix_nil.
    + cbn in H1, H2. apply app_eq_nil in H1, H2. destruct H1 as [-> H1]. destruct H2 as [-> H2].
      destruct (parse_ok e alloc t s [] W) as (s1 & ev1 & E & W1).
      destruct (parse_tail e alloc t t2 s [] s1 ev1 W E) as (ev2 & E2 & F).
      destruct (IH r2 s1 W1 H1 H2) as (sa & ea & sb & eb & Ea & Eb & P).
      exists sa, (ev1 ++ ea), sb, (ev2 ++ eb). cbn [parse_chunks]. rewrite E, E2. cbn [obind]. rewrite Ea, Eb. cbn [obind].
      split; [reflexivity|]. split; [reflexivity|]. rewrite !flat_app, F.
      destruct P as [[x ->]|[x ->]]; [left|right]; exists x; now rewrite app_assoc.
Qed.

Lemma parse_chunks_cmp ca cb s : pwf s -> prefix (ctext ca) (ctext cb) ->
  exists s1 ev1 s2 ev2, parse_chunks s ca = Ok (s1, ev1) /\ parse_chunks s cb = Ok (s2, ev2) /\
    (prefix (flat ev1) (flat ev2) \/ prefix (flat ev2) (flat ev1)).
Proof.
  intros W [y Ey]. destruct y as [|y0 yr].
  2:{ destruct (parse_chunks_prefix ca cb (y0 :: yr) s W) as (s1 & ev1 & s2 & ev2 & A & B & P); [discriminate|exact Ey|].
      exists s1, ev1, s2, ev2. auto. }
  rewrite app_nil_r in Ey.
  destruct (ctext ca) as [|b0 br] eqn:Eca.
  { apply parse_nils_cmp; assumption. }
  destruct (ctext_last ca) as (c1 & d1 & t1 & c2 & -> & Hd1 & Ec2); [congruence|].
  destruct (ctext_last cb) as (c3 & d3 & t3 & c4 & -> & Hd3 & Ec4); [congruence|].
  rewrite !ctext_app, Ec2, app_nil_r in Eca. rewrite !ctext_app, Ec4, app_nil_r in Ey.
  change (ctext [(d1, t1)]) with (d1 ++ []) in Eca. change (ctext [(d3, t3)]) with (d3 ++ []) in Ey.
  rewrite app_nil_r in Eca, Ey.
  destruct (parse_chunks_same c1 d1 t1 c3 d3 t3 s W Hd1 Hd3) as (s1 & ev1 & ev2 & E1 & E2 & F); [congruence|].
  assert (W1 : pwf s1).
  { destruct (parse_chunks_ok (c1 ++ [(d1, t1)]) s W) as (q & qe & Q & Qw & _). congruence. }
  destruct (parse_nils_cmp c2 c4 s1 W1 Ec2 Ec4) as (sa & ea & sb & eb & Ea & Eb & P).
  exists sa, (ev1 ++ ea), sb, (ev2 ++ eb).
  rewrite !app_assoc, !(parse_chunks_app (_ ++ _)), E1, E2. cbn [obind]. rewrite Ea, Eb. cbn [obind].
  split; [reflexivity|]. split; [reflexivity|]. rewrite !flat_app, F.
  destruct P as [[x ->]|[x ->]]; [left|right]; exists x; now rewrite app_assoc.
Qed.

(** ** Records *)

(** The decoder expects a record. *)
Definition at_hdr (s : pst) : Prop :=
  pwf s /\ p_err s = false /\ p_stage s = StHeader /\ p_off s = 0.

Lemma at_hdr_prem s : at_hdr s -> prem s = 40.
Proof.
  intros ([_ [W|(_ & _ & W)]] & He & Hs & Ho); [congruence|]. rewrite Hs in W. unfold prem, ITEM_SIZE in *. lia.
Qed.

Lemma parse_at_hdr_nil t s : at_hdr s -> parse t s [] = Ok (s, []).
Proof.
  intros H. pose proof (at_hdr_prem s H) as Hp. destruct H as (W & He & Hs & Ho).
  rewrite parse_eq by assumption. rewrite He, Hp. cbn. unfold sec_part. rewrite Hs, Ho.
  destruct (checked_write_ok alloc 0 [] (p_img s)) as [E _]; [cbn; lia|]. rewrite E. cbn [obind].
  rewrite write_at_nil. cbn. destruct s; cbn in *; subst. reflexivity.
Qed.

(** A whole section. *)
Lemma parse_section t s d rest : pwf s -> p_err s = false -> lenN d = prem s ->
  parse t s (d ++ rest) =
  do (s1, evs) <- sec_end (rest ++ t) s d;
  match rest with
  | [] => Ok (s1, evs)
  | _ => do (s2, evs2) <- parse t s1 rest; Ok (s2, evs ++ evs2)
  end.
Proof.
  intros W He Hd. rewrite parse_eq by assumption. rewrite He, lenN_app.
  destruct (N.leb_spec (prem s) (lenN d + lenN rest)); [|lia].
  rewrite takeN_app_exact, dropN_app_exact by lia.
  destruct (sec_end _ _ _) as [[s1 evs]| |]; cbn [obind]; try reflexivity.
  destruct rest as [|b r].
  - rewrite lenN_nil. destruct (N.ltb_spec (prem s) (lenN d + 0)); [lia|reflexivity].
  - rewrite lenN_cons. destruct (N.ltb_spec (prem s) (lenN d + (1 + lenN r))); [reflexivity|lia].
Qed.

(** A section that is followed by something. *)
Lemma parse_section_more t s d rest : pwf s -> p_err s = false -> lenN d = prem s -> rest <> [] ->
  parse t s (d ++ rest) =
  do (s1, evs) <- sec_end (rest ++ t) s d; do (s2, evs2) <- parse t s1 rest; Ok (s2, evs ++ evs2).
Proof.
  intros W He Hd Hr. rewrite parse_section by assumption. destruct rest; [congruence|reflexivity].
Qed.

(** ** Section boundaries *)

(** Output cut exactly at the end of a section. *)
Lemma parse_boundary : forall n t t' s a y s1 ev1, (4 * length a + rank s <= n)%nat -> pwf s -> y <> [] ->
  parse t' s a = Ok (s1, ev1) -> p_off s1 = 0 ->
  exists ev1', flat ev1' = flat ev1 /\
    parse t s (a ++ y) = do (s2, ev2) <- parse t s1 y; Ok (s2, ev1' ++ ev2).
Proof.
  induction n as [n IH] using (well_founded_induction Wf_nat.lt_wf). intros t t' s a y s1 ev1 Hn W Hy H Ho.
  rewrite parse_eq in H by assumption.
  destruct (p_err s) eqn:He.
  { injection H as <- <-. exists []. split; [reflexivity|]. rewrite !parse_err by assumption. reflexivity. }
  destruct (N.leb_spec (prem s) (lenN a)) as [Hl|Hl].
  - assert (Ld : lenN (takeN (prem s) a) = prem s) by (rewrite lenN_takeN; lia).
    destruct (sec_end_ok e alloc (dropN (prem s) a ++ t') s (takeN (prem s) a) W He Ld) as (s2 & ev & E & W1 & R).
    rewrite E in H. cbn [obind] in H.
    assert (E' : exists ev', sec_end ((dropN (prem s) a ++ y) ++ t) s (takeN (prem s) a) = Ok (s2, ev') /\ flat ev' = flat ev).
    { eapply sec_end_tail; eauto. }
    destruct E' as (ev' & E' & Fl).
    destruct (N.ltb_spec (prem s) (lenN a)) as [Hl2|Hl2].
    + destruct (parse t' s2 (dropN (prem s) a)) as [[s3 ev3]| |] eqn:E3; try discriminate H. cbn [obind] in H.
      injection H as <- <-.
      assert (Hlen : (length (dropN (prem s) a) + N.to_nat (prem s) = length a)%nat).
      { pose proof (lenN_dropN _ (prem s) a) as L. unfold lenN in *. lia. }
      pose proof (rank_le s2). pose proof (rank_le s).
      assert (Hm : (4 * length (dropN (prem s) a) + rank s2 < n)%nat) by (destruct R as [R|[R1 R2]]; lia).
      destruct (IH _ Hm t t' s2 (dropN (prem s) a) y s3 ev3 (le_n _) W1 Hy E3 Ho) as (ev3' & F3 & G).
      exists (ev' ++ ev3'). split; [rewrite !flat_app; congruence|].
      rewrite <- (takeN_dropN _ (prem s) a) at 1. rewrite <- app_assoc.
      assert (Hne : dropN (prem s) a ++ y <> []) by (destruct (dropN (prem s) a); [exact Hy|discriminate]).
      rewrite parse_section_more by assumption. rewrite E'. cbn [obind]. rewrite G.
      destruct (parse t s3 y) as [[s4 ev4]| |]; cbn [obind]; [|reflexivity|reflexivity]. now rewrite app_assoc.
    + injection H as <- <-. exists ev'. split; [exact Fl|].
      assert (Ea : takeN (prem s) a = a) by (apply takeN_all; lia).
      assert (Ed : dropN (prem s) a = []) by (apply dropN_all; lia).
      rewrite Ea, Ed in *. cbn [app] in E'.
      rewrite parse_section_more by (try assumption; lia). rewrite E'. reflexivity.
  - unfold sec_part in H.
    assert (Ha : a = [] /\ s1 = s /\ flat ev1 = []).
    { destruct (p_stage s) eqn:Es.
      - destruct (checked_write _ _ _) as [img| |] eqn:Ew; try discriminate H. injection H as <- <-. cbn in Ho.
        assert (a = []) by (destruct a; [reflexivity|rewrite lenN_cons in Ho; lia]). subst a.
        split; [reflexivity|]. unfold checked_write in Ew. destruct (_ <=? _); [|discriminate]. injection Ew as <-.
        rewrite write_at_nil. split; [|reflexivity]. rewrite lenN_nil, N.add_0_r; destruct s; reflexivity.
      - destruct (write_name _ _ _) as [nm| |] eqn:Ew; try discriminate H. injection H as <- <-. cbn in Ho.
        assert (a = []) by (destruct a; [reflexivity|rewrite lenN_cons in Ho; lia]). subst a.
        split; [reflexivity|]. unfold write_name, checked_write in Ew. destruct (p_name s) eqn:Enm; [|discriminate].
        destruct (_ <=? _); [|discriminate]. cbn in Ew. injection Ew as <-.
        rewrite write_at_nil. split; [|reflexivity]. rewrite lenN_nil, N.add_0_r, <- Enm; destruct s; reflexivity.
      - injection H as <- <-. cbn in Ho.
        assert (a = []) by (destruct a; [reflexivity|rewrite lenN_cons in Ho; lia]). subst a.
        split; [reflexivity|]. split; [|reflexivity]. rewrite lenN_nil, N.add_0_r; destruct s; reflexivity.
      - injection H as <- <-. cbn in Ho.
        assert (a = []) by (destruct a; [reflexivity|rewrite lenN_cons in Ho; lia]). subst a.
        split; [reflexivity|]. split; [|reflexivity]. rewrite lenN_nil, N.add_0_r; destruct s; reflexivity.
      - injection H as <- <-. cbn in Ho.
        assert (a = []) by (destruct a; [reflexivity|rewrite lenN_cons in Ho; lia]). subst a.
        split; [reflexivity|]. split; [|reflexivity]. rewrite lenN_nil, N.add_0_r; destruct s; reflexivity.
      - injection H as <- <-. cbn in Ho.
        assert (a = []) by (destruct a; [reflexivity|rewrite lenN_cons in Ho; lia]). subst a.
        split; [reflexivity|]. split; [|reflexivity]. rewrite lenN_nil, N.add_0_r; destruct s; reflexivity. }
    destruct Ha as (-> & -> & F). exists []. split; [now rewrite F|]. cbn [app].
    destruct (parse t s y) as [[s4 ev4]| |]; reflexivity.
Qed.

Context (Halloc : forall k n, alloc k n = true).

Definition rec_item (nlen size mode : N) (c : byte) : item :=
  Item size (norm_len64 size) nlen (norm_len32 nlen) mode c.

(** The 40 bytes of a record with a name. *)
Lemma header_section s hdr ft : at_hdr s -> lenN hdr = 40 ->
  (get_ctype hdr = CT_DIR_START /\ ft = FtDir \/ get_ctype hdr = CT_FILE /\ ft = FtFile \/
   get_ctype hdr = CT_SYM_LINK /\ ft = FtSymLink) ->
  exists s1, (forall t, sec_end t s hdr = Ok (s1, [])) /\ pwf s1 /\ p_err s1 = false /\ p_stage s1 = StFilename /\
    p_off s1 = 0 /\ p_img s1 = hdr /\ p_item s1 = item_of e hdr /\ p_size s1 = get_nlenN e hdr /\ p_ft s1 = ft.
Proof.
  intros H Hl Hc. pose proof (at_hdr_prem s H) as Hp. destruct H as (W & He & Hs & Ho).
  pose proof (proj1 W) as Wi. unfold ITEM_SIZE in Wi.
  exists (set_off 0 (set_ft ft (close_header e alloc (set_img hdr s)))).
  assert (Ew : checked_write (p_off s) hdr (p_img s) = Ok hdr).
  { rewrite Ho. destruct (checked_write_ok alloc 0 hdr (p_img s)) as [E _]; [lia|].
    rewrite E, write_at_whole by lia. reflexivity. }
  assert (E : forall t, sec_end t s hdr = Ok (set_off 0 (set_ft ft (close_header e alloc (set_img hdr s))), [])).
  { intro t. unfold ParserProofs.sec_end. rewrite Hs, Ew. cbn [obind].
    destruct Hc as [[-> ->]|[[-> ->]|[-> ->]]]; reflexivity. }
  split; [exact E|].
  assert (Ld : lenN hdr = prem s) by lia.
  destruct (sec_end_ok e alloc [] s hdr W He Ld) as (s1 & ev & E1 & W1 & _).
  rewrite E in E1. injection E1 as <- <-.
  split; [exact W1|]. cbn. rewrite Halloc. auto 10.
Qed.

(** The name of a record. *)
Lemma name_section s nm : pwf s -> p_err s = false -> p_stage s = StFilename -> p_off s = 0 ->
  lenN nm = p_size s ->
  exists s1, (forall t, sec_end t s nm = Ok (s1, [EvEntry (p_ft s) (p_item s) nm])) /\ pwf s1 /\ p_err s1 = false /\ p_off s1 = 0 /\
    p_img s1 = p_img s /\ p_item s1 = p_item s /\
    (get_ctype (p_img s) = CT_FILE -> p_stage s1 = StReadFile /\ p_size s1 = it_size (p_item s)) /\
    (get_ctype (p_img s) = CT_DIR_START -> p_stage s1 = StHeader) /\
    (get_ctype (p_img s) = CT_SYM_LINK -> p_stage s1 = StSymLink /\ p_size s1 = it_size (p_item s)).
Proof.
  intros W He Hs Ho Hn.
  assert (Ld : lenN nm = prem s) by (unfold prem; lia).
  destruct (sec_end_ok e alloc [] s nm W He Ld) as (s1 & ev & E1 & W1 & _).
  pose proof W as [Wi [W'|(V1 & V2 & V3)]]; [congruence|]. rewrite Hs in V3.
  destruct V3 as (Hit & Hsz & (blk & Hb & Lb) & Hc).
  assert (Ew : write_name (p_off s) nm (p_name s) = Ok (Some nm)).
  { rewrite Hb, Ho. cbn. destruct (checked_write_ok alloc 0 nm blk) as [E _]; [lia|].
    rewrite E. cbn. rewrite write_at_whole by lia. reflexivity. }
  unfold ParserProofs.sec_end in *. rewrite Hs, Ew in *. cbn [obind] in *.
  destruct Hc as [[Hc Hf]|[[Hc Hf]|[Hc Hf]]]; rewrite Hc in *; cbn in E1 |- *; injection E1 as <- <-;
    (eexists; split; [intro; reflexivity|]; split; [exact W1|]); cbn; repeat split; auto; intros; discriminate.
Qed.

(** The section after the padding of a file or link is a record again. *)
Lemma gap_section s g : pwf s -> p_err s = false -> p_stage s = StFileGap \/ p_stage s = StSymLinkGap -> p_off s = 0 ->
  lenN g = prem s -> exists s1, (forall t, sec_end t s g = Ok (s1, [])) /\ at_hdr s1.
Proof.
  intros W He Hs Ho Hg.
  destruct (sec_end_ok e alloc [] s g W He Hg) as (s1 & ev & E1 & W1 & _).
  pose proof W as [Wi [W'|(V1 & V2 & V3)]]; [congruence|].
  unfold ParserProofs.sec_end in *.
  destruct Hs as [Hs|Hs]; rewrite Hs in *; destruct V3 as (_ & _ & Hc);
    (assert (Hb : byte_eqb (get_ctype (p_img s)) CT_FILE || byte_eqb (get_ctype (p_img s)) CT_SYM_LINK = true)
      by (destruct Hc as [->| ->]; reflexivity)); rewrite Hb in *; injection E1 as <- <-;
    (eexists; split; [intro; reflexivity|]); split; [exact W1| |exact W1|]; cbn; auto.
Qed.

Lemma nonempty_app_l {A} (a b : list A) : a <> [] -> a ++ b <> [].
Proof. destruct a; [congruence|discriminate]. Qed.
Lemma nonempty_len {A} (a : list A) : 0 < lenN a -> a <> [].
Proof. intros H ->. cbn in H. lia. Qed.

(** The content of a file or link. *)
Lemma data_section s d : pwf s -> p_err s = false -> p_stage s = StReadFile \/ p_stage s = StSymLink -> p_off s = 0 ->
  lenN d = p_size s ->
  exists s1, (forall t, sec_end t s d =
      Ok (s1, match p_stage s with StReadFile => [EvRead d; EvFileEnd] | _ => [EvSym d t] end)) /\
    pwf s1 /\ p_err s1 = false /\ (p_stage s1 = StFileGap \/ p_stage s1 = StSymLinkGap) /\ p_off s1 = 0 /\
    prem s1 = sub64 (it_sizeN (p_item s)) (it_size (p_item s)).
Proof.
  intros W He Hs Ho Hd.
  assert (Ld : lenN d = prem s) by (unfold prem; lia).
  destruct (sec_end_ok e alloc [] s d W He Ld) as (s1 & ev & E1 & W1 & _).
  pose proof W as [Wi [W'|(V1 & V2 & V3)]]; [congruence|].
  unfold ParserProofs.sec_end in *.
  destruct Hs as [Hs|Hs]; rewrite Hs in *; destruct V3 as (_ & _ & Hc); rewrite Hc in *; cbn in E1 |- *;
    injection E1 as <- <-; (eexists; split; [intro; reflexivity|]); (split; [exact W1|]); unfold prem; cbn;
    rewrite N.sub_0_r; auto.
Qed.

(** A file record.  [pn], [pc]: the padding after name and content (any bytes). *)
Lemma file_record s e' name mode content junk pn pc :
  at_hdr s -> lenN junk = 40 -> lenN name + 8 < two32 -> mode < two32 -> lenN content + 8 < two64 ->
  lenN pn = norm_len32 (lenN name) - lenN name -> lenN pc = norm_len64 (lenN content) - lenN content ->
  exists s1, at_hdr s1 /\ forall t rest,
    parse t s (file_item e' (lenN name) mode (lenN content) junk ++ (name ++ pn) ++ content ++ pc ++ rest) =
    do (s2, ev2) <- parse t s1 rest;
    Ok (s2, [EvEntry FtFile (rec_item (lenN name) (lenN content) mode CT_FILE) (name ++ pn);
             EvRead content; EvFileEnd] ++ ev2).
Proof.
  intros H Hj Hn Hm Hc Hpn Hpc.
  destruct (norm_len32_spec (lenN name) Hn) as (_ & N1 & N2).
  destruct (norm_len64_spec (lenN content) Hc) as (_ & M1 & M2).
  assert (Hn' : lenN name < two32) by lia. assert (Hc' : lenN content < two64) by lia.
  set (hdr := file_item e' (lenN name) mode (lenN content) junk).
  pose proof (lenN_file_item e' (lenN name) mode (lenN content) junk Hj) as Lh. fold hdr in Lh.
  destruct (file_item_fields e' e (lenN name) mode (lenN content) junk Hj Hn' Hm Hc') as (F1 & F2 & F3 & F4 & F5 & F6).
  fold hdr in F1, F2, F3, F4, F5, F6.
  pose proof (at_hdr_prem s H) as Hp. pose proof H as (W & He & _).
  destruct (header_section s hdr FtFile H Lh) as (s1 & E1 & W1 & He1 & Hs1 & Ho1 & Hi1 & Hit1 & Hsz1 & Hf1).
  { right; left; auto. }
  rewrite F4 in Hsz1.
  assert (Ln : lenN (name ++ pn) = p_size s1) by (rewrite lenN_app; lia).
  destruct (name_section s1 (name ++ pn) W1 He1 Hs1 Ho1 Ln)
    as (s2 & E2 & W2 & He2 & Ho2 & Hi2 & Hit2 & Hst2 & _).
  rewrite Hi1 in Hst2. destruct (Hst2 F6) as [Hs2 Hsz2].
  assert (Eit : p_item s1 = rec_item (lenN name) (lenN content) mode CT_FILE).
  { rewrite Hit1. unfold item_of, rec_item. now rewrite F1, F2, F3, F4, F5, F6. }
  rewrite Hf1, Eit in E2. rewrite Eit in Hsz2. cbn [rec_item it_size] in Hsz2.
  destruct (data_section s2 content W2 He2 (or_introl Hs2) Ho2 (eq_sym Hsz2))
    as (s3 & E3 & W3 & He3 & Hs3 & Ho3 & Hp3).
  rewrite Hs2 in E3. rewrite Hit2, Eit in Hp3. cbn [rec_item it_size it_sizeN] in Hp3.
  assert (Lg : lenN pc = prem s3) by (rewrite Hp3, Hpc; unfold sub64, two64 in *; lia).
  destruct (gap_section s3 pc W3 He3 Hs3 Ho3 Lg) as (s4 & E4 & H4).
  exists s4. split; [exact H4|]. intros t rest.
  assert (Ne1 : pc ++ rest <> []) by (apply nonempty_app_l, nonempty_len; lia).
  assert (Ne2 : content ++ pc ++ rest <> []) by (destruct content; [exact Ne1|discriminate]).
  assert (Ne3 : (name ++ pn) ++ content ++ pc ++ rest <> []).
  { apply nonempty_app_l, nonempty_len. rewrite lenN_app. lia. }
  rewrite parse_section_more by (try assumption; lia). rewrite E1. cbn [obind].
  rewrite parse_section_more by (try assumption; unfold prem; lia). rewrite E2. cbn [obind].
  rewrite parse_section_more by (try assumption; unfold prem; lia). rewrite E3. cbn [obind].
  rewrite parse_section by assumption. rewrite E4. cbn [obind].
  destruct rest as [|b r].
  - rewrite parse_at_hdr_nil by assumption. reflexivity.
  - destruct (parse t s4 (b :: r)) as [[s5 ev5]| |]; reflexivity.
Qed.

(** A link record: the target arrives whole, followed in memory by its padding, the rest of the
    output and whatever lies behind it. *)
Lemma link_record s e' name mode target junk pn pc :
  at_hdr s -> lenN junk = 40 -> lenN name + 8 < two32 -> mode < two32 -> lenN target + 8 < two64 ->
  lenN pn = norm_len32 (lenN name) - lenN name -> lenN pc = norm_len64 (lenN target) - lenN target ->
  exists s1, at_hdr s1 /\ forall t rest,
    parse t s (link_item e' (lenN name) mode (lenN target) junk ++ (name ++ pn) ++ target ++ pc ++ rest) =
    do (s2, ev2) <- parse t s1 rest;
    Ok (s2, [EvEntry FtSymLink (rec_item (lenN name) (lenN target) mode CT_SYM_LINK) (name ++ pn);
             EvSym target ((pc ++ rest) ++ t)] ++ ev2).
Proof.
  intros H Hj Hn Hm Hc Hpn Hpc.
  destruct (norm_len32_spec (lenN name) Hn) as (_ & N1 & N2).
  destruct (norm_len64_spec (lenN target) Hc) as (_ & M1 & M2).
  assert (Hn' : lenN name < two32) by lia. assert (Hc' : lenN target < two64) by lia.
  set (hdr := link_item e' (lenN name) mode (lenN target) junk).
  pose proof (lenN_link_item e' (lenN name) mode (lenN target) junk Hj) as Lh. fold hdr in Lh.
  destruct (link_item_fields e' e (lenN name) mode (lenN target) junk Hj Hn' Hm Hc') as (F1 & F2 & F3 & F4 & F5 & F6).
  fold hdr in F1, F2, F3, F4, F5, F6.
  pose proof (at_hdr_prem s H) as Hp. pose proof H as (W & He & _).
  destruct (header_section s hdr FtSymLink H Lh) as (s1 & E1 & W1 & He1 & Hs1 & Ho1 & Hi1 & Hit1 & Hsz1 & Hf1).
  { right; right; auto. }
  rewrite F4 in Hsz1.
  assert (Ln : lenN (name ++ pn) = p_size s1) by (rewrite lenN_app; lia).
  destruct (name_section s1 (name ++ pn) W1 He1 Hs1 Ho1 Ln)
    as (s2 & E2 & W2 & He2 & Ho2 & Hi2 & Hit2 & _ & _ & Hst2).
  rewrite Hi1 in Hst2. destruct (Hst2 F6) as [Hs2 Hsz2].
  assert (Eit : p_item s1 = rec_item (lenN name) (lenN target) mode CT_SYM_LINK).
  { rewrite Hit1. unfold item_of, rec_item. now rewrite F1, F2, F3, F4, F5, F6. }
  rewrite Hf1, Eit in E2. rewrite Eit in Hsz2. cbn [rec_item it_size] in Hsz2.
  destruct (data_section s2 target W2 He2 (or_intror Hs2) Ho2 (eq_sym Hsz2))
    as (s3 & E3 & W3 & He3 & Hs3 & Ho3 & Hp3).
  rewrite Hs2 in E3. rewrite Hit2, Eit in Hp3. cbn [rec_item it_size it_sizeN] in Hp3.
  assert (Lg : lenN pc = prem s3) by (rewrite Hp3, Hpc; unfold sub64, two64 in *; lia).
  destruct (gap_section s3 pc W3 He3 Hs3 Ho3 Lg) as (s4 & E4 & H4).
  exists s4. split; [exact H4|]. intros t rest.
  assert (Ne1 : pc ++ rest <> []) by (apply nonempty_app_l, nonempty_len; lia).
  assert (Ne2 : target ++ pc ++ rest <> []) by (destruct target; [exact Ne1|discriminate]).
  assert (Ne3 : (name ++ pn) ++ target ++ pc ++ rest <> []).
  { apply nonempty_app_l, nonempty_len. rewrite lenN_app. lia. }
  rewrite parse_section_more by (try assumption; lia). rewrite E1. cbn [obind].
  rewrite parse_section_more by (try assumption; unfold prem; lia). rewrite E2. cbn [obind].
  rewrite parse_section_more by (try assumption; unfold prem; lia). rewrite E3. cbn [obind].
  rewrite parse_section by assumption. rewrite E4. cbn [obind].
  destruct rest as [|b r].
  - rewrite parse_at_hdr_nil by assumption. reflexivity.
  - destruct (parse t s4 (b :: r)) as [[s5 ev5]| |]; reflexivity.
Qed.

(** A directory record.  Its size fields are not written, so they are whatever the stack contained. *)
Lemma dir_record s e' name mode junk pn :
  at_hdr s -> lenN junk = 40 -> lenN name + 8 < two32 -> mode < two32 ->
  lenN pn = norm_len32 (lenN name) - lenN name ->
  exists s1 it, at_hdr s1 /\ it_nlen it = lenN name /\ it_nlenN it = norm_len32 (lenN name) /\ it_mode it = mode /\
    it_ctype it = CT_DIR_START /\ forall t rest,
    parse t s (dir_item e' (lenN name) mode junk ++ (name ++ pn) ++ rest) =
    do (s2, ev2) <- parse t s1 rest; Ok (s2, EvEntry FtDir it (name ++ pn) :: ev2).
Proof.
  intros H Hj Hn Hm Hpn.
  destruct (norm_len32_spec (lenN name) Hn) as (_ & N1 & N2).
  assert (Hn' : lenN name < two32) by lia.
  set (hdr := dir_item e' (lenN name) mode junk).
  pose proof (lenN_dir_item e' (lenN name) mode junk Hj) as Lh. fold hdr in Lh.
  destruct (dir_item_fields e' e (lenN name) mode junk Hj Hn' Hm) as (F3 & F4 & F5 & F6).
  fold hdr in F3, F4, F5, F6.
  pose proof (at_hdr_prem s H) as Hp. pose proof H as (W & He & _).
  destruct (header_section s hdr FtDir H Lh) as (s1 & E1 & W1 & He1 & Hs1 & Ho1 & Hi1 & Hit1 & Hsz1 & Hf1).
  { left; auto. }
  rewrite F4 in Hsz1.
  assert (Ln : lenN (name ++ pn) = p_size s1) by (rewrite lenN_app; lia).
  destruct (name_section s1 (name ++ pn) W1 He1 Hs1 Ho1 Ln)
    as (s2 & E2 & W2 & He2 & Ho2 & Hi2 & Hit2 & _ & Hst2 & _).
  rewrite Hi1 in Hst2. specialize (Hst2 F6).
  assert (H2 : at_hdr s2) by (split; [exact W2|]; auto).
  exists s2, (p_item s1). split; [exact H2|]. rewrite Hit1. cbn [item_of it_nlen it_nlenN it_mode it_ctype].
  do 4 (split; [assumption|]). intros t rest.
  assert (Ne3 : (name ++ pn) ++ rest <> []).
  { apply nonempty_app_l, nonempty_len. rewrite lenN_app. lia. }
  rewrite parse_section_more by (try assumption; lia). rewrite E1. cbn [obind].
  rewrite parse_section by (try assumption; unfold prem; lia). rewrite E2. cbn [obind].
  rewrite Hf1, Hit1.
  destruct rest as [|b r].
  - rewrite parse_at_hdr_nil by assumption. reflexivity.
  - destruct (parse t s2 (b :: r)) as [[s5 ev5]| |]; reflexivity.
Qed.

(** A directory end record. *)
Lemma dir_end_record s e' nlen mode junk : at_hdr s -> lenN junk = 40 ->
  exists s1, at_hdr s1 /\ forall t rest,
    parse t s (dir_end_item e' nlen mode junk ++ rest) = do (s2, ev2) <- parse t s1 rest; Ok (s2, EvDirEnd :: ev2).
Proof.
  intros H Hj. pose proof (lenN_dir_end_item e' nlen mode junk Hj) as Lh.
  pose proof (dir_end_item_ctype e' nlen mode junk Hj) as Fc.
  set (hdr := dir_end_item e' nlen mode junk) in *.
  pose proof (at_hdr_prem s H) as Hp. pose proof H as (W & He & Hs & Ho).
  assert (Ld : lenN hdr = prem s) by lia.
  destruct (sec_end_ok e alloc [] s hdr W He Ld) as (s1 & ev & E1 & W1 & _).
  pose proof (proj1 W) as Wi. unfold ITEM_SIZE in Wi.
  assert (Ew : checked_write (p_off s) hdr (p_img s) = Ok hdr).
  { rewrite Ho. destruct (checked_write_ok alloc 0 hdr (p_img s)) as [E _]; [lia|].
    rewrite E, write_at_whole by lia. reflexivity. }
  assert (E : forall t, sec_end t s hdr = Ok (set_off 0 (set_ft FtDir (set_img hdr s)), [EvDirEnd])).
  { intro t. unfold ParserProofs.sec_end. rewrite Hs, Ew. cbn [obind]. rewrite Fc. reflexivity. }
  rewrite E in E1. injection E1 as <- <-.
  assert (H2 : at_hdr (set_off 0 (set_ft FtDir (set_img hdr s)))) by (split; [exact W1|]; cbn; auto).
  eexists. split; [exact H2|]. intros t rest.
  rewrite parse_section by assumption. rewrite E. cbn [obind].
  destruct rest as [|b r].
  - rewrite parse_at_hdr_nil by assumption. reflexivity.
  - match goal with |- context [parse t ?x (b :: r)] => destruct (parse t x (b :: r)) as [[s5 ev5]| |] end; reflexivity.
Qed.

(** A link record whose target lies inside one inflate output ([a ++ target ++ b]). *)
Lemma link_split s e' name mode target junk pn c1 a b t :
  at_hdr s -> lenN junk = 40 -> lenN name + 8 < two32 -> mode < two32 -> lenN target + 8 < two64 ->
  lenN pn = norm_len32 (lenN name) - lenN name -> target <> [] ->
  ctext c1 ++ a = link_item e' (lenN name) mode (lenN target) junk ++ name ++ pn ->
  exists s1 ev1 s2 evx ev3, parse_chunks s c1 = Ok (s1, ev1) /\
    parse t s1 (a ++ target ++ b) = Ok (s2, evx ++ EvSym target (b ++ t) :: ev3) /\
    flat (ev1 ++ evx) =
    flat [EvEntry FtSymLink (rec_item (lenN name) (lenN target) mode CT_SYM_LINK) (name ++ pn)].
Proof.
  intros H Hj Hn Hm Hc Hpn Ht Hcut.
  destruct (norm_len32_spec (lenN name) Hn) as (_ & N1 & N2).
  assert (Hn' : lenN name < two32) by lia. assert (Hc' : lenN target < two64) by lia.
  set (hdr := link_item e' (lenN name) mode (lenN target) junk) in *.
  pose proof (lenN_link_item e' (lenN name) mode (lenN target) junk Hj) as Lh. fold hdr in Lh.
  destruct (link_item_fields e' e (lenN name) mode (lenN target) junk Hj Hn' Hm Hc') as (F1 & F2 & F3 & F4 & F5 & F6).
  fold hdr in F1, F2, F3, F4, F5, F6.
  pose proof (at_hdr_prem s H) as Hp. pose proof H as (W & He & _).
  destruct (header_section s hdr FtSymLink H Lh) as (s1 & E1 & W1 & He1 & Hs1 & Ho1 & Hi1 & Hit1 & Hsz1 & Hf1).
  { right; right; auto. }
  rewrite F4 in Hsz1.
  assert (Ln : lenN (name ++ pn) = p_size s1) by (rewrite lenN_app; lia).
  destruct (name_section s1 (name ++ pn) W1 He1 Hs1 Ho1 Ln)
    as (s2 & E2 & W2 & He2 & Ho2 & Hi2 & Hit2 & _ & _ & Hst2).
  rewrite Hi1 in Hst2. destruct (Hst2 F6) as [Hs2 Hsz2].
  assert (Eit : p_item s1 = rec_item (lenN name) (lenN target) mode CT_SYM_LINK).
  { rewrite Hit1. unfold item_of, rec_item. now rewrite F1, F2, F3, F4, F5, F6. }
  rewrite Hf1, Eit in E2. rewrite Eit in Hsz2. cbn [rec_item it_size] in Hsz2.
  destruct (data_section s2 target W2 He2 (or_intror Hs2) Ho2 (eq_sym Hsz2)) as (s3 & E3 & W3 & _).
  rewrite Hs2 in E3.
  assert (Ne : name ++ pn <> []) by (apply nonempty_len; rewrite lenN_app; lia).
  assert (PX : forall t', parse t' s (hdr ++ name ++ pn) =
    Ok (s2, [EvEntry FtSymLink (rec_item (lenN name) (lenN target) mode CT_SYM_LINK) (name ++ pn)])).
  { intro t'. rewrite parse_section_more by (try assumption; lia). rewrite E1. cbn [obind].
    rewrite <- (app_nil_r (name ++ pn)) at 1.
    rewrite parse_section by (try assumption; unfold prem; lia). rewrite E2. reflexivity. }
  assert (Ltg : 0 < lenN target) by (destruct target; [congruence|rewrite lenN_cons; lia]).
  assert (Hp2 : prem s2 = lenN target) by (unfold prem; lia).
  assert (Nil2 : forall t', parse t' s2 [] = Ok (s2, [])).
  { intro t'. rewrite parse_eq by assumption. rewrite He2, Hp2, lenN_nil.
    destruct (N.leb_spec (lenN target) 0); [lia|]. unfold sec_part. rewrite Hs2, lenN_nil, N.add_0_r.
    destruct s2; reflexivity. }
  (* the state after [c1] and [a] is [s2] *)
  assert (St : exists s1' ev1' eva, parse_chunks s c1 = Ok (s1', ev1') /\ pwf s1' /\ parse t s1' a = Ok (s2, eva) /\
    flat (ev1' ++ eva) = flat [EvEntry FtSymLink (rec_item (lenN name) (lenN target) mode CT_SYM_LINK) (name ++ pn)]).
  { destruct a as [|a0 ar] eqn:Ea.
    - rewrite app_nil_r in Hcut.
      destruct (ctext_last c1) as (c0 & d & td & c2 & -> & Hd & Hc2).
      { rewrite Hcut. apply nonempty_app_l, nonempty_len. lia. }
      rewrite !ctext_app, Hc2, app_nil_r in Hcut. change (ctext [(d, td)]) with (d ++ []) in Hcut. rewrite app_nil_r in Hcut.
      destruct (parse_chunks_whole c0 d td [] s W Hd) as (sx & e1 & e2 & P1 & P2 & Fl).
      rewrite Hcut, PX in P2. injection P2 as <- <-.
      assert (Em : parse_chunks s2 c2 = Ok (s2, [])) by (apply parse_chunks_nils; assumption).
      exists s2, e1, []. split.
      { rewrite app_assoc, parse_chunks_app, P1. cbn [obind]. rewrite Em. cbn [obind]. now rewrite app_nil_r. }
      split; [exact W2|]. split; [apply Nil2|]. now rewrite app_nil_r.
    - rewrite <- Ea in *.
      destruct (parse_chunks_whole c1 a t [] s W) as (sx & e1 & e2 & P1 & P2 & Fl); [congruence|].
      rewrite Hcut, PX in P2. injection P2 as <- <-.
      destruct (parse_chunks_ok c1 s W) as (s1' & ev1' & Q & Wq & _). rewrite parse_chunks_app, Q in P1. cbn [obind] in P1.
      cbn [parse_chunks] in P1. destruct (parse t s1' a) as [[sy ey]| |] eqn:Ep; try discriminate P1. cbn [obind] in P1.
      injection P1 as -> <-. exists s1', ev1', ey. split; [exact Q|]. split; [exact Wq|]. split; [first [exact Ep|rewrite <- Ea; exact Ep]|].
      rewrite app_nil_r in Fl. exact Fl. }
  destruct St as (s1' & ev1' & eva & Q & Wq & Pa & Fl).
  assert (Hy : target ++ b <> []) by (now apply nonempty_app_l).
  destruct (parse_boundary _ t t s1' a (target ++ b) s2 eva (le_n _) Wq Hy Pa Ho2) as (evx & Fx & PB).
  rewrite (parse_section t s2 target b) in PB by (try assumption; lia). rewrite E3 in PB. cbn [obind] in PB.
  assert (Fe : flat (ev1' ++ evx) = flat (ev1' ++ eva)) by (rewrite !flat_app; congruence).
  destruct b as [|b0 br].
  - cbn [obind] in PB. exists s1', ev1', s3, evx, []. rewrite Fe. auto.
  - destruct (parse_ok e alloc t s3 (b0 :: br) W3) as (s4 & ev4 & P4 & _). rewrite P4 in PB. cbn [obind] in PB.
    exists s1', ev1', s4, evx, ev4. rewrite Fe. auto.
Qed.


End Facts.
