(** ParserProofs.v: lemmas on the directory decoder. *)
From Verif Require Import Base Format Parser.

(** Observations: callbacks with adjacent fileRead calls merged (a fileRead of n bytes is n single
    byte observations) and link payloads left out. *)
Inductive obs : Type :=
| OByte (b : byte)
| OEntry (ft : ftype) (it : item) (name : bytes)
| OFileEnd
| ODirEnd
| OSym
| ODirBegin
| OFlBegin
| OFlByte (b : byte)
| ORaw (id : N) (b : byte).

Definition flat1 (ev : event) : list obs :=
  match ev with
  | EvRaw id d => map (ORaw id) d
  | EvDirBegin => [ODirBegin]
  | EvFlBegin => [OFlBegin]
  | EvFlRead d => map OFlByte d
  | EvEntry ft it name => [OEntry ft it name]
  | EvRead d => map OByte d
  | EvFileEnd => [OFileEnd]
  | EvDirEnd => [ODirEnd]
  | EvSym _ _ => [OSym]
  end.
Definition flat (evs : list event) : list obs := concat (map flat1 evs).

Lemma flat_app a b : flat (a ++ b) = flat a ++ flat b.
Proof. unfold flat. now rewrite map_app, concat_app. Qed.
Lemma flat_cons a b : flat (a :: b) = flat1 a ++ flat b.
Proof. reflexivity. Qed.

Section Proofs.
Context (e : endian) (alloc : N -> N -> bool).

Notation close_header := (close_header e alloc).
Notation dir_body := (dir_body e alloc).
Notation dir_parse := (dir_parse e alloc).
Notation parse := (parse e alloc).
Notation pwf := (pwf e).

Definition prem (s : pst) : N := p_size s - p_off s.

(** Effect of completing the current section with its last bytes [d]; [t]: memory behind them. *)
Definition sec_end (t : bytes) (s : pst) (d : bytes) : outcome (pst * list event) :=
  match p_stage s with
  | StHeader =>
    do img <- checked_write (p_off s) d (p_img s);
    let s1 := set_img img s in
    let c := get_ctype img in
    if byte_eqb c CT_DIR_START then Ok (set_off 0 (set_ft FtDir (close_header s1)), [])
    else if byte_eqb c CT_FILE then Ok (set_off 0 (set_ft FtFile (close_header s1)), [])
    else if byte_eqb c CT_SYM_LINK then Ok (set_off 0 (set_ft FtSymLink (close_header s1)), [])
    else if byte_eqb c CT_DIR_END then Ok (set_off 0 (set_ft FtDir s1), [EvDirEnd])
    else Ok (set_off 0 s1, [])
  | StFilename =>
    do name <- write_name (p_off s) d (p_name s);
    let s1 := set_name name s in
    let c := get_ctype (p_img s) in
    let ev := EvEntry (p_ft s) (p_item s) (match name with Some b => b | None => [] end) in
    if byte_eqb c CT_FILE then Ok (set_sec StReadFile 0 (it_size (p_item s)) s1, [ev])
    else if byte_eqb c CT_DIR_START then Ok (set_sec StHeader 0 ITEM_SIZE s1, [ev])
    else if byte_eqb c CT_SYM_LINK then Ok (set_sec StSymLink 0 (it_size (p_item s)) s1, [ev])
    else UB
  | StReadFile =>
    if byte_eqb (get_ctype (p_img s)) CT_FILE then
      Ok (set_sec StFileGap 0 (sub64 (it_sizeN (p_item s)) (it_size (p_item s))) s, [EvRead d; EvFileEnd])
    else UB
  | StFileGap | StSymLinkGap =>
    if byte_eqb (get_ctype (p_img s)) CT_FILE || byte_eqb (get_ctype (p_img s)) CT_SYM_LINK then
      Ok (set_sec StHeader 0 ITEM_SIZE s, [])
    else UB
  | StSymLink =>
    if byte_eqb (get_ctype (p_img s)) CT_SYM_LINK then
      Ok (set_sec StSymLinkGap 0 (sub64 (it_sizeN (p_item s)) (it_size (p_item s))) s, [EvSym d t])
    else UB
  end.

(** Effect of bytes that do not complete the section. *)
Definition sec_part (s : pst) (d : bytes) : outcome (pst * list event) :=
  match p_stage s with
  | StHeader => do img <- checked_write (p_off s) d (p_img s); Ok (set_off (p_off s + lenN d) (set_img img s), [])
  | StFilename => do name <- write_name (p_off s) d (p_name s); Ok (set_off (p_off s + lenN d) (set_name name s), [])
  | StReadFile => Ok (set_off (p_off s + lenN d) s, [EvRead d])
  | _ => Ok (set_off (p_off s + lenN d) s, [])
  end.

Lemma byte_eqb_refl b : byte_eqb b b = true.
Proof. now apply byte_eqb_spec. Qed.

Lemma prem_sub s : p_off s <= p_size s -> p_size s < two64 -> sub64 (p_size s) (p_off s) = prem s.
Proof. unfold sub64, prem, two64. intros. lia. Qed.

(** The body of the callback in terms of the two effects. *)
Lemma dir_body_eq rec tail s buf : pwf s -> p_err s = false ->
  dir_body rec tail s buf =
  if prem s <=? lenN buf then
    do (s1, evs) <- sec_end (dropN (prem s) buf ++ tail) s (takeN (prem s) buf);
    if prem s <? lenN buf then do (s2, evs2) <- rec s1 (dropN (prem s) buf); Ok (s2, evs ++ evs2)
    else Ok (s1, evs)
  else sec_part s buf.
Proof.
  intros [Wi [W|(W1 & W2 & W3)]] He; [congruence|].
  unfold Parser.dir_body. rewrite prem_sub by assumption. rewrite He.
  unfold sec_end, sec_part.
  destruct (p_stage s) eqn:Es; destruct (prem s <=? lenN buf) eqn:El; cbn [obind]; try reflexivity.
  - destruct (checked_write _ _ _); cbn [obind]; try reflexivity.
    repeat (match goal with |- context [if byte_eqb ?a ?b then _ else _] => destruct (byte_eqb a b) end; try reflexivity).
  - destruct (write_name _ _ _); cbn [obind]; try reflexivity.
    destruct W3 as (_ & _ & _ & [[H _]|[[H _]|[H _]]]); rewrite H; reflexivity.
  - destruct W3 as (_ & _ & H); rewrite H; reflexivity.
  - destruct W3 as (_ & _ & [H|H]); rewrite H; reflexivity.
  - destruct W3 as (_ & _ & H); rewrite H; reflexivity.
  - destruct W3 as (_ & _ & [H|H]); rewrite H; reflexivity.
Qed.

Lemma lenN_realloc n old : lenN (takeN n old ++ zeros (n - lenN old)) = n.
Proof. rewrite lenN_app, lenN_takeN, lenN_zeros. lia. Qed.

Lemma get_nlenN_lt img : lenN img = ITEM_SIZE -> get_nlenN e img < two64.
Proof.
  intro H. unfold get_nlenN. pose proof (get_lt e 20 4 img). unfold ITEM_SIZE in H.
  rewrite H in *. cbn in H0. unfold two64. lia.
Qed.
Lemma get_size_lt img : lenN img = ITEM_SIZE -> get_size e img < two64.
Proof.
  intro H. unfold get_size. pose proof (get_lt e 0 8 img). unfold ITEM_SIZE in H.
  rewrite H in *. apply H0. cbn. lia.
Qed.
Lemma sub64_lt a b : sub64 a b < two64.
Proof. unfold sub64, two64. lia. Qed.

Lemma checked_write_ok off d mem : off + lenN d <= lenN mem ->
  checked_write off d mem = Ok (write_at off d mem) /\ lenN (write_at off d mem) = lenN mem.
Proof.
  intro H. unfold checked_write. split; [|now apply lenN_write_at].
  destruct (N.leb_spec (off + lenN d) (lenN mem)); [reflexivity|lia].
Qed.

(** Completing a section never fails, keeps the invariant, and moves on. *)
Lemma sec_end_ok t s d : pwf s -> p_err s = false -> lenN d = prem s ->
  exists s1 evs, sec_end t s d = Ok (s1, evs) /\ pwf s1 /\
    (rank s1 < rank s \/ (0 < prem s)%N /\ rank s = 0)%nat.
Proof.
  intros [Wi [W|(W1 & W2 & W3)]] He Hd; [congruence|]. unfold prem in *. unfold sec_end.
  destruct (p_stage s) eqn:Es.
  - destruct W3 as [Hs Ho].
    destruct (checked_write_ok (p_off s) d (p_img s)) as [E L]; [rewrite Wi; unfold ITEM_SIZE in *; lia|].
    rewrite E. cbn [obind]. set (img := write_at (p_off s) d (p_img s)) in *.
    rewrite Wi in L.
    assert (Hc : forall ft, (get_ctype img = CT_DIR_START /\ ft = FtDir \/ get_ctype img = CT_FILE /\ ft = FtFile \/
                 get_ctype img = CT_SYM_LINK /\ ft = FtSymLink) ->
                 pwf (set_off 0 (set_ft ft (close_header (set_img img s))))).
    { intros ft Hf. split; [exact L|]. cbn. destruct (alloc _ _); [right|left; reflexivity].
      split; [lia|]. split; [now apply get_nlenN_lt|]. split; [reflexivity|]. split; [reflexivity|].
      split; [|exact Hf]. eexists; split; [reflexivity|]. apply lenN_realloc. }
    assert (Hn : forall ft, pwf (set_off 0 (set_ft ft (set_img img s)))).
    { intro ft. split; [exact L|]. right. cbn. rewrite Es. rewrite Hs. unfold ITEM_SIZE, two64. lia. }
    assert (R : rank s = 0%nat) by (unfold rank; now rewrite Es).
    destruct (byte_eqb (get_ctype img) CT_DIR_START) eqn:E1.
    { apply byte_eqb_spec in E1. eexists _, _. split; [reflexivity|]. split; [apply Hc; auto|]. right; lia. }
    destruct (byte_eqb (get_ctype img) CT_FILE) eqn:E2.
    { apply byte_eqb_spec in E2. eexists _, _. split; [reflexivity|]. split; [apply Hc; auto|]. right; lia. }
    destruct (byte_eqb (get_ctype img) CT_SYM_LINK) eqn:E3.
    { apply byte_eqb_spec in E3. eexists _, _. split; [reflexivity|]. split; [apply Hc; auto|]. right; lia. }
    destruct (byte_eqb (get_ctype img) CT_DIR_END) eqn:E4.
    { eexists _, _. split; [reflexivity|]. split; [apply Hn|]. right; lia. }
    eexists _, _. split; [reflexivity|]. split; [|right; lia].
    specialize (Hn (p_ft s)). exact Hn.
  - destruct W3 as (Hit & Hs & (blk & Hb & Lb) & Hc).
    rewrite Hb. unfold write_name.
    destruct (checked_write_ok (p_off s) d blk) as [E L]; [lia|]. rewrite E. cbn [obind].
    assert (R : rank s = 3%nat) by (unfold rank; now rewrite Es).
    assert (Zs : it_size (p_item s) < two64) by (rewrite Hit; cbn; now apply get_size_lt).
    destruct Hc as [[Hc Hf]|[[Hc Hf]|[Hc Hf]]]; rewrite Hc.
    + change (byte_eqb CT_DIR_START CT_FILE) with false. rewrite byte_eqb_refl. cbv iota.
      eexists _, _. split; [reflexivity|]. split; [|left; cbn; lia].
      split; [exact Wi|]. right. cbn. unfold ITEM_SIZE, two64. lia.
    + rewrite byte_eqb_refl.
      eexists _, _. split; [reflexivity|]. split; [|left; cbn; lia].
      split; [exact Wi|]. right. cbn. repeat split; auto. lia.
    + change (byte_eqb CT_SYM_LINK CT_FILE) with false. change (byte_eqb CT_SYM_LINK CT_DIR_START) with false.
      rewrite byte_eqb_refl. cbv iota.
      eexists _, _. split; [reflexivity|]. split; [|left; cbn; lia].
      split; [exact Wi|]. right. cbn. repeat split; auto. lia.
  - destruct W3 as (Hit & Hs & Hc). rewrite Hc, byte_eqb_refl.
    eexists _, _. split; [reflexivity|]. split; [|left; unfold rank; rewrite Es; cbn; lia].
    split; [exact Wi|]. right. cbn. repeat split; auto. lia. apply sub64_lt.
  - destruct W3 as (Hit & Hs & Hc).
    assert (Hb : byte_eqb (get_ctype (p_img s)) CT_FILE || byte_eqb (get_ctype (p_img s)) CT_SYM_LINK = true).
    { destruct Hc as [->| ->]; reflexivity. }
    rewrite Hb. eexists _, _. split; [reflexivity|]. split; [|left; unfold rank; rewrite Es; cbn; lia].
    split; [exact Wi|]. right. cbn. unfold ITEM_SIZE, two64. lia.
  - destruct W3 as (Hit & Hs & Hc). rewrite Hc, byte_eqb_refl.
    eexists _, _. split; [reflexivity|]. split; [|left; unfold rank; rewrite Es; cbn; lia].
    split; [exact Wi|]. right. cbn. repeat split; auto. lia. apply sub64_lt.
  - destruct W3 as (Hit & Hs & Hc).
    assert (Hb : byte_eqb (get_ctype (p_img s)) CT_FILE || byte_eqb (get_ctype (p_img s)) CT_SYM_LINK = true).
    { destruct Hc as [->| ->]; reflexivity. }
    rewrite Hb. eexists _, _. split; [reflexivity|]. split; [|left; unfold rank; rewrite Es; cbn; lia].
    split; [exact Wi|]. right. cbn. unfold ITEM_SIZE, two64. lia.
Qed.

Lemma sec_part_ok s d : pwf s -> p_err s = false -> lenN d < prem s ->
  exists s1 evs, sec_part s d = Ok (s1, evs) /\ pwf s1 /\ p_err s1 = false /\
    p_stage s1 = p_stage s /\ prem s1 = prem s - lenN d.
Proof.
  intros [Wi [W|(W1 & W2 & W3)]] He Hd; [congruence|]. unfold prem in *. unfold sec_part.
  destruct (p_stage s) eqn:Es.
  - destruct W3 as [Hs Ho].
    destruct (checked_write_ok (p_off s) d (p_img s)) as [E L]; [rewrite Wi; unfold ITEM_SIZE in *; lia|].
    rewrite E. cbn [obind]. eexists _, _. split; [reflexivity|]. cbn. rewrite Es, He.
    split; [|repeat split; lia].
    split; [cbn; now rewrite L|]. right. cbn. rewrite Es. repeat split; auto; lia.
  - destruct W3 as (Hit & Hs & (blk & Hb & Lb) & Hc).
    rewrite Hb. unfold write_name.
    destruct (checked_write_ok (p_off s) d blk) as [E L]; [lia|]. rewrite E. cbn [obind].
    eexists _, _. split; [reflexivity|]. cbn. rewrite Es, He. split; [|repeat split; lia].
    split; [exact Wi|]. right. cbn. rewrite Es. split; [lia|]. split; [lia|].
    split; [exact Hit|]. split; [exact Hs|]. split; [|exact Hc].
    eexists. split; [reflexivity|]. now rewrite L.
  - eexists _, _. split; [reflexivity|]. cbn. rewrite Es, He. split; [|repeat split; lia].
    split; [exact Wi|]. right. cbn. rewrite Es. repeat split; try tauto; lia.
  - eexists _, _. split; [reflexivity|]. cbn. rewrite Es, He. split; [|repeat split; lia].
    split; [exact Wi|]. right. cbn. rewrite Es. repeat split; try tauto; lia.
  - eexists _, _. split; [reflexivity|]. cbn. rewrite Es, He. split; [|repeat split; lia].
    split; [exact Wi|]. right. cbn. rewrite Es. repeat split; try tauto; lia.
  - eexists _, _. split; [reflexivity|]. cbn. rewrite Es, He. split; [|repeat split; lia].
    split; [exact Wi|]. right. cbn. rewrite Es. repeat split; try tauto; lia.
Qed.

(** Enough fuel: a result, no UB, invariant kept (C20, C26). *)
Lemma dir_parse_ok fuel : forall tail s buf, pwf s -> (4 * length buf + rank s + 1 <= fuel)%nat ->
  exists s1 evs, dir_parse fuel tail s buf = Ok (s1, evs) /\ pwf s1.
Proof.
  induction fuel as [|fuel IH]; intros tail s buf W Hf; [lia|].
  cbn [Parser.dir_parse].
  destruct (p_err s) eqn:He.
  { exists s, []. split; [|exact W]. unfold Parser.dir_body. rewrite He. reflexivity. }
  rewrite dir_body_eq by assumption.
  destruct (N.leb_spec (prem s) (lenN buf)) as [Hl|Hl].
  - destruct (sec_end_ok (dropN (prem s) buf ++ tail) s (takeN (prem s) buf) W He) as (s1 & ev & E & W1 & R).
    { rewrite lenN_takeN. lia. }
    rewrite E. cbn [obind].
    destruct (N.ltb_spec (prem s) (lenN buf)) as [Hl2|Hl2]; [|eauto].
    assert (Hlen : (length (dropN (prem s) buf) + N.to_nat (prem s) = length buf)%nat).
    { pose proof (lenN_dropN _ (prem s) buf) as L. unfold lenN in *. lia. }
    assert (Hr : (rank s1 <= 3)%nat) by (unfold rank; destruct (p_stage s1); lia).
    destruct (IH tail s1 (dropN (prem s) buf) W1) as (s2 & ev2 & E2 & W2).
    { destruct R as [R|[R1 R2]]; lia. }
    rewrite E2. cbn [obind]. eauto.
  - destruct (sec_part_ok s buf W He Hl) as (s1 & ev & E & W1 & _). rewrite E. eauto.
Qed.

Lemma rank_le s : (rank s <= 3)%nat.
Proof. unfold rank; destruct (p_stage s); lia. Qed.

Lemma parse_ok tail s buf : pwf s -> exists s1 evs, parse tail s buf = Ok (s1, evs) /\ pwf s1.
Proof.
  intro W. apply dir_parse_ok; [exact W|]. unfold parse_fuel. pose proof (rank_le s). lia.
Qed.

Lemma dir_parse_more f : forall f' tail s buf r, (f <= f')%nat ->
  dir_parse f tail s buf = Ok r -> dir_parse f' tail s buf = Ok r.
Proof.
  induction f as [|f IH]; intros f' tail s buf r Hf H; [discriminate|].
  destruct f' as [|f']; [lia|]. cbn [Parser.dir_parse] in *.
  assert (X : forall s1 evs,
    (if sub64 (p_size s) (p_off s) <? lenN buf
     then do (s2, evs2) <- dir_parse f tail s1 (dropN (sub64 (p_size s) (p_off s)) buf); Ok (s2, evs ++ evs2)
     else Ok (s1, evs)) = Ok r ->
    (if sub64 (p_size s) (p_off s) <? lenN buf
     then do (s2, evs2) <- dir_parse f' tail s1 (dropN (sub64 (p_size s) (p_off s)) buf); Ok (s2, evs ++ evs2)
     else Ok (s1, evs)) = Ok r).
  { intros s1 evs H1. destruct (_ <? _); [|exact H1].
    destruct (dir_parse f _ _ _) as [[s2 e2]| |] eqn:E; try discriminate H1.
    assert (Q : (f <= f')%nat) by lia. rewrite (IH _ _ _ _ _ Q E). exact H1. }
  unfold Parser.dir_body in *. destruct (p_err s); [exact H|].
  destruct (p_stage s).
  - destruct (_ <=? _); [|exact H]. destruct (checked_write _ _ _); cbn [obind] in *; try exact H.
    repeat (destruct (byte_eqb _ _); try (apply X; exact H)).
  - destruct (_ <=? _); [|exact H]. destruct (write_name _ _ _); cbn [obind] in *; try exact H.
    repeat (destruct (byte_eqb _ _); try (apply X; exact H)). exact H.
  - destruct (_ <=? _); [|exact H]. destruct (byte_eqb _ _); [|exact H]. apply X; exact H.
  - destruct (_ <=? _); [|exact H]. destruct (byte_eqb _ _ || byte_eqb _ _); [|exact H]. apply X; exact H.
  - destruct (_ <=? _); [|exact H]. destruct (byte_eqb _ _); [|exact H]. apply X; exact H.
  - destruct (_ <=? _); [|exact H]. destruct (byte_eqb _ _ || byte_eqb _ _); [|exact H]. apply X; exact H.
Qed.

(** Unfolding equation of [parse]. *)
Lemma parse_eq tail s buf : pwf s ->
  parse tail s buf =
  if p_err s then Ok (s, []) else
  if prem s <=? lenN buf then
    do (s1, evs) <- sec_end (dropN (prem s) buf ++ tail) s (takeN (prem s) buf);
    if prem s <? lenN buf then do (s2, evs2) <- parse tail s1 (dropN (prem s) buf); Ok (s2, evs ++ evs2)
    else Ok (s1, evs)
  else sec_part s buf.
Proof.
  intro W. unfold Parser.parse at 1.
  destruct (p_err s) eqn:He.
  { unfold parse_fuel. rewrite Nat.add_comm. cbn [Nat.add Parser.dir_parse].
    unfold Parser.dir_body. now rewrite He. }
  assert (F : exists f, parse_fuel buf = S f /\ (4 * length buf + 3 = f)%nat).
  { unfold parse_fuel. exists (4 * length buf + 3)%nat. lia. }
  destruct F as (f & F & Ff). rewrite F. cbn [Parser.dir_parse]. rewrite dir_body_eq by assumption.
  destruct (N.leb_spec (prem s) (lenN buf)) as [Hl|Hl]; [|reflexivity].
  destruct (sec_end_ok (dropN (prem s) buf ++ tail) s (takeN (prem s) buf) W He) as (s1 & ev & E & W1 & R).
  { rewrite lenN_takeN. lia. }
  rewrite E. cbn [obind].
  destruct (N.ltb_spec (prem s) (lenN buf)) as [Hl2|Hl2]; [|reflexivity].
  assert (Hlen : (length (dropN (prem s) buf) + N.to_nat (prem s) = length buf)%nat).
  { pose proof (lenN_dropN _ (prem s) buf) as L. unfold lenN in *. lia. }
  pose proof (rank_le s1). pose proof (rank_le s).
  destruct (dir_parse_ok (4 * length (dropN (prem s) buf) + rank s1 + 1) tail s1 (dropN (prem s) buf) W1 (le_n _))
    as (s2 & ev2 & E2 & W2).
  assert (Q1 : (4 * length (dropN (prem s) buf) + rank s1 + 1 <= f)%nat) by (destruct R as [R|[R1 R2]]; lia).
  assert (Q2 : (4 * length (dropN (prem s) buf) + rank s1 + 1 <= parse_fuel (dropN (prem s) buf))%nat) by (unfold parse_fuel; lia).
  rewrite (dir_parse_more _ _ _ _ _ _ Q1 E2).
  unfold Parser.parse. rewrite (dir_parse_more _ _ _ _ _ _ Q2 E2).
  reflexivity.
Qed.

(** ** Splitting *)

Lemma checked_write_split off a d mem :
  off + lenN a + lenN d <= lenN mem ->
  checked_write (off + lenN a) d (write_at off a mem) = checked_write off (a ++ d) mem.
Proof.
  intro H. unfold checked_write. rewrite lenN_write_at by lia. rewrite lenN_app, N.add_assoc.
  destruct (_ <=? _); [|reflexivity]. now rewrite write_at_app by lia.
Qed.

(** Completing a section in two parts. *)
Lemma sec_end_split t t' s a d s1 ev1 :
  pwf s -> p_err s = false -> lenN a < prem s -> lenN d = prem s - lenN a ->
  sec_part s a = Ok (s1, ev1) ->
  exists s2 ev2 ev3, sec_end t s (a ++ d) = Ok (s2, ev2) /\ sec_end t' s1 d = Ok (s2, ev3) /\
    flat ev2 = flat ev1 ++ flat ev3.
Proof.
  intros W He Ha Hd H.
  destruct (sec_end_ok t s (a ++ d) W He) as (s2 & ev2 & E2 & _).
  { rewrite lenN_app. lia. }
  destruct W as [Wi [W|(W1 & W2 & W3)]]; [congruence|].
  unfold prem in *. unfold sec_part in H. unfold sec_end in *.
  destruct (p_stage s) eqn:Es.
  - destruct W3 as [Hs Ho].
    destruct (checked_write_ok (p_off s) a (p_img s)) as [E L]; [rewrite Wi; unfold ITEM_SIZE in *; lia|].
    rewrite E in H. cbn [obind] in H. injection H as <- <-.
    cbn [p_stage set_off set_img p_off p_img]. rewrite Es.
    rewrite checked_write_split by (rewrite Wi; unfold ITEM_SIZE in *; lia).
    destruct (checked_write (p_off s) (a ++ d) (p_img s)) as [img| |]; cbn [obind] in *; try discriminate E2.
    exists s2, ev2, ev2. split; [exact E2|]. split; [|reflexivity].
    rewrite <- E2.
    repeat (destruct (byte_eqb _ _); [reflexivity|]). reflexivity.
  - destruct W3 as (Hit & Hs & (blk & Hb & Lb) & Hc).
    rewrite Hb in H. unfold write_name in H at 1.
    destruct (checked_write_ok (p_off s) a blk) as [E L]; [lia|]. rewrite E in H. cbn [obind] in H.
    injection H as <- <-. cbn [p_stage set_off set_name p_off p_name p_img p_ft p_item]. rewrite Es.
    rewrite Hb in E2 |- *. unfold write_name in *.
    rewrite checked_write_split by lia.
    destruct (checked_write (p_off s) (a ++ d) blk) as [b| |]; cbn [obind] in *; try discriminate E2.
    exists s2, ev2, ev2. split; [exact E2|]. split; [|reflexivity].
    rewrite <- E2.
    repeat (destruct (byte_eqb _ _); [reflexivity|]). reflexivity.
  - injection H as <- <-. cbn [p_stage set_off p_img p_item]. rewrite Es.
    destruct (byte_eqb _ _); [|discriminate]. injection E2 as <- <-.
    eexists _, _, _. split; [reflexivity|]. split; [reflexivity|].
    cbn. rewrite map_app, <- !app_assoc. reflexivity.
  - injection H as <- <-. cbn [p_stage set_off p_img p_item]. rewrite Es.
    destruct (_ || _); [|discriminate]. injection E2 as <- <-.
    eexists _, _, _. split; [reflexivity|]. split; reflexivity.
  - injection H as <- <-. cbn [p_stage set_off p_img p_item]. rewrite Es.
    destruct (byte_eqb _ _); [|discriminate]. injection E2 as <- <-.
    eexists _, _, _. split; [reflexivity|]. split; reflexivity.
  - injection H as <- <-. cbn [p_stage set_off p_img p_item]. rewrite Es.
    destruct (_ || _); [|discriminate]. injection E2 as <- <-.
    eexists _, _, _. split; [reflexivity|]. split; reflexivity.
Qed.

Lemma sec_part_split s a d s1 ev1 :
  pwf s -> p_err s = false -> lenN a + lenN d < prem s ->
  sec_part s a = Ok (s1, ev1) ->
  exists s2 ev2 ev3, sec_part s (a ++ d) = Ok (s2, ev2) /\ sec_part s1 d = Ok (s2, ev3) /\
    flat ev2 = flat ev1 ++ flat ev3.
Proof.
  intros W He Ha H.
  destruct (sec_part_ok s (a ++ d) W He) as (s2 & ev2 & E2 & _).
  { rewrite lenN_app. lia. }
  destruct W as [Wi [W|(W1 & W2 & W3)]]; [congruence|].
  unfold prem in *. unfold sec_part in *.
  destruct (p_stage s) eqn:Es.
  - destruct W3 as [Hs Ho].
    destruct (checked_write_ok (p_off s) a (p_img s)) as [E L]; [rewrite Wi; unfold ITEM_SIZE in *; lia|].
    rewrite E in H. cbn [obind] in H. injection H as <- <-.
    cbn [p_stage set_off set_img p_off p_img]. rewrite Es.
    rewrite checked_write_split by (rewrite Wi; unfold ITEM_SIZE in *; lia).
    destruct (checked_write (p_off s) (a ++ d) (p_img s)) as [img| |]; cbn [obind] in *; try discriminate E2.
    injection E2 as <- <-. rewrite lenN_app, N.add_assoc.
    eexists _, _, _. split; [reflexivity|]. split; reflexivity.
  - destruct W3 as (Hit & Hs & (blk & Hb & Lb) & Hc).
    rewrite Hb in H. unfold write_name in H at 1.
    destruct (checked_write_ok (p_off s) a blk) as [E L]; [lia|]. rewrite E in H. cbn [obind] in H.
    injection H as <- <-. cbn [p_stage set_off set_name p_off p_name p_img p_ft p_item]. rewrite Es.
    rewrite Hb in E2 |- *. unfold write_name in *.
    rewrite checked_write_split by lia.
    destruct (checked_write (p_off s) (a ++ d) blk) as [b| |]; cbn [obind] in *; try discriminate E2.
    injection E2 as <- <-. rewrite lenN_app, N.add_assoc.
    eexists _, _, _. split; [reflexivity|]. split; reflexivity.
  - injection H as <- <-. cbn [p_stage set_off p_off]. rewrite Es.
    rewrite lenN_app, N.add_assoc.
    eexists _, _, _. split; [reflexivity|]. split; [reflexivity|]. cbn. now rewrite map_app, !app_nil_r.
  - injection H as <- <-. cbn [p_stage set_off p_off]. rewrite Es.
    rewrite lenN_app, N.add_assoc. eexists _, _, _. split; [reflexivity|]. split; reflexivity.
  - injection H as <- <-. cbn [p_stage set_off p_off]. rewrite Es.
    rewrite lenN_app, N.add_assoc. eexists _, _, _. split; [reflexivity|]. split; reflexivity.
  - injection H as <- <-. cbn [p_stage set_off p_off]. rewrite Es.
    rewrite lenN_app, N.add_assoc. eexists _, _, _. split; [reflexivity|]. split; reflexivity.
Qed.

(** The memory behind the data only shows up in link payloads. *)
Lemma sec_end_tail t t' s d s1 ev1 : sec_end t s d = Ok (s1, ev1) ->
  exists ev2, sec_end t' s d = Ok (s1, ev2) /\ flat ev2 = flat ev1.
Proof.
  unfold sec_end. intro H.
  destruct (p_stage s); try (eexists; split; [exact H|reflexivity]).
  destruct (byte_eqb _ _); [|discriminate]. injection H as <- <-. eexists; split; reflexivity.
Qed.

Lemma parse_err tail s buf : pwf s -> p_err s = true -> parse tail s buf = Ok (s, []).
Proof. intros W He. rewrite parse_eq by assumption. now rewrite He. Qed.

(** The memory behind the buffer only shows up in link payloads. *)
Lemma parse_tail_aux : forall m t t' s b, (4 * length b + rank s <= m)%nat -> pwf s -> forall s2 ev2,
  parse t s b = Ok (s2, ev2) -> exists ev3, parse t' s b = Ok (s2, ev3) /\ flat ev3 = flat ev2.
Proof.
  induction m as [m IH] using (well_founded_induction lt_wf).
          intros t t' s b Hm W s2 ev2 H.
          rewrite parse_eq in H |- * by assumption.
          destruct (p_err s) eqn:He; [eauto|].
          destruct (N.leb_spec (prem s) (lenN b)) as [Hl|Hl]; [|eauto].
          destruct (sec_end_ok (dropN (prem s) b ++ t) s (takeN (prem s) b) W He) as (s1 & ev1 & E1 & W1 & R).
          { rewrite lenN_takeN. lia. }
          destruct (sec_end_tail _ (dropN (prem s) b ++ t') _ _ _ _ E1) as (ev1' & E1' & Fl).
          rewrite E1 in H. rewrite E1'. cbn [obind] in *.
          destruct (N.ltb_spec (prem s) (lenN b)) as [Hl2|Hl2].
          2:{ injection H as <- <-. eauto. }
          destruct (parse t s1 _) as [[s3 ev3]| |] eqn:E3; try discriminate H.
          cbn [obind] in H. injection H as <- <-.
          assert (Hlen : (length (dropN (prem s) b) + N.to_nat (prem s) = length b)%nat).
          { pose proof (lenN_dropN _ (prem s) b) as L. unfold lenN in *. lia. }
          destruct (IH (4 * length (dropN (prem s) b) + rank s1)%nat) with (t := t) (t' := t') (s := s1)
            (b := dropN (prem s) b) (s2 := s3) (ev2 := ev3) as (ev4 & E4 & Fl4); try assumption.
          { pose proof (rank_le s1). destruct R as [R|[R1 R2]]; lia. }
          { lia. }
          rewrite E4. cbn [obind]. eexists; split; [reflexivity|]. now rewrite !flat_app, Fl, Fl4.
Qed.
Lemma parse_tail t t' s b s2 ev2 : pwf s ->
  parse t s b = Ok (s2, ev2) -> exists ev3, parse t' s b = Ok (s2, ev3) /\ flat ev3 = flat ev2.
Proof. intros W H. exact (parse_tail_aux _ t t' s b (le_n _) W s2 ev2 H). Qed.

(** Central splitting lemma: two invocations on [a] and a non-empty [b] are one on [a ++ b]. *)
Lemma parse_app : forall n a b t1 t2 t3 s, (4 * length a + rank s <= n)%nat -> pwf s -> b <> [] ->
  exists s1 ev1 s2 ev2 ev3,
    parse t1 s a = Ok (s1, ev1) /\ parse t2 s1 b = Ok (s2, ev2) /\
    parse t3 s (a ++ b) = Ok (s2, ev3) /\ flat ev3 = flat ev1 ++ flat ev2.
Proof.
  induction n as [n IH] using (well_founded_induction lt_wf).
  intros a b t1 t2 t3 s Hn W Hb.
  destruct (p_err s) eqn:He.
  { exists s, [], s, [], []. now rewrite !parse_err. }
  assert (Lb : 0 < lenN b) by (destruct b; [congruence|rewrite lenN_cons; lia]).
  rewrite (parse_eq t1), (parse_eq t3) by assumption. rewrite He.
  destruct (N.leb_spec (prem s) (lenN a)) as [Ha|Ha].
  - destruct (N.leb_spec (prem s) (lenN (a ++ b))) as [Hab|Hab]; [|rewrite lenN_app in Hab; lia].
    destruct (N.ltb_spec (prem s) (lenN (a ++ b))) as [Hab2|Hab2]; [|rewrite lenN_app in Hab2; lia].
    rewrite takeN_app, dropN_app.
    replace (prem s - lenN a) with 0 by lia. rewrite takeN_0, dropN_0, app_nil_r.
    destruct (sec_end_ok (dropN (prem s) a ++ t1) s (takeN (prem s) a) W He) as (s1 & ev1 & E1 & W1 & R).
    { rewrite lenN_takeN. lia. }
    destruct (sec_end_tail _ ((dropN (prem s) a ++ b) ++ t3) _ _ _ _ E1) as (ev1' & E1' & Fl).
    rewrite E1, E1'. cbn [obind].
    destruct (N.ltb_spec (prem s) (lenN a)) as [Ha2|Ha2].
    + assert (Hlen : (length (dropN (prem s) a) + N.to_nat (prem s) = length a)%nat).
      { pose proof (lenN_dropN _ (prem s) a) as L. unfold lenN in *. lia. }
      destruct (IH (4 * length (dropN (prem s) a) + rank s1)%nat) with (a := dropN (prem s) a) (b := b)
        (t1 := t1) (t2 := t2) (t3 := t3) (s := s1) as (s2 & ev2 & s3 & ev3 & ev4 & E2 & E3 & E4 & Fl2);
        try assumption.
      { pose proof (rank_le s1). destruct R as [R|[R1 R2]]; lia. }
      { lia. }
      rewrite E2, E4. cbn [obind]. eexists _, _, _, _, _. split; [reflexivity|]. split; [exact E3|].
      split; [reflexivity|]. rewrite !flat_app, Fl, Fl2, app_assoc. reflexivity.
    + assert (prem s = lenN a) as -> by lia.
      rewrite (dropN_all _ (lenN a) a), app_nil_l by lia.
      destruct (parse_ok t2 s1 b W1) as (s2 & ev2 & E2 & W2).
      assert (X : exists ev3, parse t3 s1 b = Ok (s2, ev3) /\ flat ev3 = flat ev2).
      { eapply parse_tail; eauto. }
      destruct X as (ev3 & E3 & Fl3). rewrite E3. cbn [obind].
      eexists _, _, _, _, _. split; [reflexivity|]. split; [exact E2|]. split; [reflexivity|].
      now rewrite flat_app, Fl, Fl3.
  - destruct (sec_part_ok s a W He Ha) as (s1 & ev1 & E1 & W1 & He1 & Hst & Hp).
    rewrite E1.
    destruct (N.leb_spec (prem s) (lenN (a ++ b))) as [Hab|Hab]; rewrite lenN_app in Hab.
    + assert (Hd : lenN (takeN (prem s1) b) = prem s - lenN a) by (rewrite lenN_takeN; lia).
      destruct (sec_end_split (dropN (prem s) (a ++ b) ++ t3) (dropN (prem s1) b ++ t2)
                  s a (takeN (prem s1) b) s1 ev1 W He Ha Hd E1) as (s2 & ev2 & ev3 & F1 & F2 & F3).
      assert (Ht : takeN (prem s) (a ++ b) = a ++ takeN (prem s1) b).
      { rewrite takeN_app, takeN_all by lia. now rewrite Hp. }
      assert (Hdr : dropN (prem s) (a ++ b) = dropN (prem s1) b).
      { rewrite dropN_app, dropN_all by lia. now rewrite Hp. }
      rewrite Ht, F1. cbn [obind].
      assert (P1 : parse t2 s1 b = do (s1', evs) <- Ok (s2, ev3);
          if prem s1 <? lenN b then do (s3, evs2) <- parse t2 s1' (dropN (prem s1) b); Ok (s3, evs ++ evs2)
          else Ok (s1', evs)).
      { rewrite parse_eq by assumption. rewrite He1.
        destruct (N.leb_spec (prem s1) (lenN b)); [|lia]. now rewrite F2. }
      cbn [obind] in P1. rewrite lenN_app. rewrite Hdr.
      assert (Hb' : (prem s <? lenN a + lenN b) = (prem s1 <? lenN b)).
      { rewrite Hp. destruct (N.ltb_spec (prem s) (lenN a + lenN b)); destruct (N.ltb_spec (prem s - lenN a) (lenN b)); try reflexivity; lia. }
      rewrite Hb'.
      destruct (prem s1 <? lenN b) eqn:El.
      * assert (W2 : pwf s2).
        { destruct (sec_end_ok (dropN (prem s1) b ++ t2) s1 (takeN (prem s1) b) W1 He1) as (x & y & Ex & Wx & _).
          - rewrite Hd. lia.
          - rewrite F2 in Ex. injection Ex as <- <-. exact Wx. }
        destruct (parse_ok t2 s2 (dropN (prem s1) b) W2) as (s3 & ev4 & E4 & W3).
        assert (X : exists ev5, parse t3 s2 (dropN (prem s1) b) = Ok (s3, ev5) /\ flat ev5 = flat ev4).
        { eapply parse_tail; eauto. }
        destruct X as (ev5 & E5 & Fl5). rewrite E5. cbn [obind].
        rewrite E4 in P1. cbn [obind] in P1.
        eexists _, _, _, _, _. split; [reflexivity|]. split; [exact P1|]. split; [reflexivity|].
        now rewrite !flat_app, F3, Fl5, app_assoc.
      * eexists _, _, _, _, _. split; [reflexivity|]. split; [exact P1|]. split; [reflexivity|]. exact F3.
    + destruct (sec_part_split s a b s1 ev1 W He ltac:(lia) E1) as (s2 & ev2 & ev3 & F1 & F2 & F3).
      exists s1, ev1, s2, ev3, ev2. split; [reflexivity|]. split.
      { rewrite parse_eq by assumption. rewrite He1. destruct (N.leb_spec (prem s1) (lenN b)); [lia|exact F2]. }
      split; [exact F1|exact F3].
Qed.
End Proofs.
