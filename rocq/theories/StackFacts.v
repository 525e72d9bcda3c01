(** StackFacts.v: how deep the invocations of the directory decoder nest. *)
From Verif Require Import Base Format Parser ParserProofs ParserFacts ArchiveSpec.

Section Stack.
Context (e : endian) (alloc : N -> N -> bool).
Notation dir_parse := (dir_parse e alloc).
Notation sec_end := (sec_end e alloc).
Notation pwf := (pwf e).

(** Bytes of the current record header that have been read. *)
Definition head_part (s : pst) : N := match p_stage s with StHeader => p_off s | _ => 0 end.

Definition depth_bound (s : pst) (n : N) : nat := (rank s + 1 + 4 * N.to_nat ((n + head_part s) / 40))%nat.

Lemma sec_end_off t s d s1 evs : sec_end t s d = Ok (s1, evs) -> p_off s1 = 0.
Proof.
  unfold ParserProofs.sec_end. destruct (p_stage s); intro H.
  - destruct (checked_write _ _ _); try discriminate H. cbn [obind] in H.
    repeat (match type of H with (if ?b then _ else _) = _ => destruct b end; [injection H as <- <-; reflexivity|]).
    injection H as <- <-. reflexivity.
  - destruct (write_name _ _ _); try discriminate H. cbn [obind] in H.
    repeat (match type of H with (if ?b then _ else _) = _ => destruct b end; [injection H as <- <-; reflexivity|]).
    discriminate H.
  - destruct (byte_eqb _ _); [|discriminate H]. injection H as <- <-. reflexivity.
  - destruct (_ || _); [|discriminate H]. injection H as <- <-. reflexivity.
  - destruct (byte_eqb _ _); [|discriminate H]. injection H as <- <-. reflexivity.
  - destruct (_ || _); [|discriminate H]. injection H as <- <-. reflexivity.
Qed.

Lemma depth_enough fuel : forall tail s buf, pwf s -> (depth_bound s (lenN buf) <= fuel)%nat ->
  exists r, dir_parse fuel tail s buf = Ok r.
Proof.
  induction fuel as [|fuel IH]; intros tail s buf W Hf; [unfold depth_bound in Hf; lia|].
  cbn [Parser.dir_parse].
  destruct (p_err s) eqn:He.
  { unfold Parser.dir_body. rewrite He. eauto. }
  rewrite dir_body_eq by assumption.
  destruct (N.leb_spec (prem s) (lenN buf)) as [Hl|Hl].
  - assert (Ld : lenN (takeN (prem s) buf) = prem s) by (rewrite lenN_takeN; lia).
    destruct (sec_end_ok e alloc (dropN (prem s) buf ++ tail) s (takeN (prem s) buf) W He Ld) as (s1 & ev & E & W1 & R).
    rewrite E. cbn [obind].
    destruct (N.ltb_spec (prem s) (lenN buf)) as [Hl2|Hl2]; [|eauto].
    destruct (IH tail s1 (dropN (prem s) buf) W1) as ([s2 ev2] & E2).
    { apply sec_end_off in E. unfold depth_bound in *. rewrite lenN_dropN.
      assert (Z : head_part s1 = 0) by (unfold head_part; destruct (p_stage s1); first [exact E|reflexivity]). rewrite Z, N.add_0_r.
      pose proof (rank_le s1).
      destruct W as [_ [W|(_ & _ & W3)]]; [congruence|]. unfold head_part, prem in *.
      destruct R as [R|[R1 R2]].
      - assert (Q : ((lenN buf - (p_size s - p_off s)) / 40 <= (lenN buf + match p_stage s with StHeader => p_off s | _ => 0 end) / 40)%N)
          by (apply N.div_le_mono; lia).
        lia.
      - assert (Es : p_stage s = StHeader) by (clear -R2; unfold rank in R2; destruct (p_stage s); congruence).
        rewrite Es in *. destruct W3 as [Hz Ho]. rewrite Hz in *. unfold ITEM_SIZE in *.
        assert (Q : ((lenN buf + p_off s) / 40 = (lenN buf - (40 - p_off s)) / 40 + 1)%N).
        { replace (lenN buf + p_off s) with ((lenN buf - (40 - p_off s)) + 1 * 40) by lia. apply N.div_add. lia. }
        lia. }
    rewrite E2. cbn [obind]. eauto.
  - destruct (sec_part_ok e alloc s buf W He Hl) as (s1 & ev & E & _). rewrite E. eauto.
Qed.

Lemma depth_bound_le s n : pwf s -> p_err s = false -> (depth_bound s n <= 4 * N.to_nat (n / 40) + 5)%nat.
Proof.
  intros W He. unfold depth_bound, head_part.
  destruct W as [_ [W|(_ & _ & W3)]]; [congruence|]. unfold rank.
  destruct (p_stage s); rewrite ?N.add_0_r; try lia.
  destruct W3 as [_ Ho]. unfold ITEM_SIZE in Ho.
  assert (Q : ((n + p_off s) / 40 <= n / 40 + 1)%N).
  { rewrite <- (N.div_add n 1 40) by lia. apply N.div_le_mono; lia. }
  lia.
Qed.

Lemma depth_at_most tail s buf : pwf s -> exists r, dir_parse (4 * N.to_nat (lenN buf / 40) + 5) tail s buf = Ok r.
Proof.
  intro W. destruct (p_err s) eqn:He.
  - replace (4 * N.to_nat (lenN buf / 40) + 5)%nat with (S (4 * N.to_nat (lenN buf / 40) + 4)) by lia.
    cbn [Parser.dir_parse]. unfold Parser.dir_body at 1. rewrite He. eauto.
  - apply depth_enough; [exact W|]. now apply depth_bound_le.
Qed.

(** ** A directory with many empty files *)

Lemma step_more f tail s d rest : pwf s -> p_err s = false -> lenN d = prem s -> rest <> [] ->
  dir_parse (S f) tail s (d ++ rest) =
  do (s1, evs) <- sec_end (rest ++ tail) s d;
  do (s2, evs2) <- dir_parse f tail s1 rest; Ok (s2, evs ++ evs2).
Proof.
  intros W He Hd Hr. cbn [Parser.dir_parse]. rewrite dir_body_eq by assumption.
  assert (Q : (0 < lenN rest)%N) by (destruct rest; [congruence|rewrite lenN_cons; lia]).
  rewrite <- Hd, lenN_app.
  destruct (N.leb_spec (lenN d) (lenN d + lenN rest)); [|lia].
  destruct (N.ltb_spec (lenN d) (lenN d + lenN rest)); [|lia].
  rewrite takeN_app_exact, dropN_app_exact by reflexivity. reflexivity.
Qed.

Definition nests (tail : bytes) (s : pst) (buf : bytes) (d : nat) : Prop :=
  (exists r, dir_parse d tail s buf = Ok r) /\ forall f, (f < d)%nat -> dir_parse f tail s buf = NoFuel.

Lemma step_last f tail s d : pwf s -> p_err s = false -> lenN d = prem s ->
  dir_parse (S f) tail s d = sec_end tail s d.
Proof.
  intros W He Hd. cbn [Parser.dir_parse]. rewrite dir_body_eq by assumption. rewrite <- Hd.
  rewrite N.leb_refl, N.ltb_irrefl. rewrite takeN_all, dropN_all by lia.
  change ([] ++ tail) with tail. destruct (sec_end tail s d) as [[s1 ev]| |]; reflexivity.
Qed.

Definition empty_files (mode : N) (names : list bytes) : list arec := map (fun n => AFile n mode 0 []) names.

Context (Halloc : forall k n, alloc k n = true).

Lemma empty_file s e' name mode junk : at_hdr e s -> lenN junk = 40 -> lenN name + 8 < two32 -> mode < two32 ->
  exists s1, at_hdr e s1 /\ forall t rest,
    let rec := file_item e' (lenN name) mode 0 junk ++ padded name ++ [] ++ zeros (norm_len64 0 - 0) ++ rest in
    (forall f, (f < 4)%nat -> dir_parse f t s rec = NoFuel) /\
    (forall f, (rest = [] -> exists r, dir_parse (4 + f) t s rec = Ok r) /\
       (rest <> [] -> dir_parse f t s1 rest = NoFuel -> dir_parse (4 + f) t s rec = NoFuel) /\
       (rest <> [] -> (exists r, dir_parse f t s1 rest = Ok r) -> exists r, dir_parse (4 + f) t s rec = Ok r)).
Proof.
  intros H Hj Hn Hm.
  destruct (norm_len32_spec (lenN name) Hn) as (_ & N1 & N2).
  assert (Hn' : lenN name < two32) by lia. assert (Hc' : 0 < two64) by reflexivity.
  set (hdr := file_item e' (lenN name) mode 0 junk).
  pose proof (lenN_file_item e' (lenN name) mode 0 junk Hj) as Lh. fold hdr in Lh.
  destruct (file_item_fields e' e (lenN name) mode 0 junk Hj Hn' Hm Hc') as (F1 & F2 & F3 & F4 & F5 & F6).
  fold hdr in F1, F2, F3, F4, F5, F6.
  pose proof (at_hdr_prem e s H) as Hp. pose proof H as (W & He & _).
  destruct (header_section e alloc Halloc s hdr FtFile H Lh) as (s1 & E1 & W1 & He1 & Hs1 & Ho1 & Hi1 & Hit1 & Hsz1 & Hf1).
  { right; left; auto. }
  rewrite F4 in Hsz1.
  assert (Ln : lenN (padded name) = p_size s1) by (unfold padded; rewrite lenN_app, lenN_zeros; lia).
  destruct (name_section e alloc s1 (padded name) W1 He1 Hs1 Ho1 Ln)
    as (s2 & E2 & W2 & He2 & Ho2 & Hi2 & Hit2 & Hst2 & _).
  rewrite Hi1 in Hst2. destruct (Hst2 F6) as [Hs2 Hsz2].
  rewrite Hit1 in Hsz2. cbn [item_of it_size] in Hsz2. rewrite F1 in Hsz2.
  destruct (data_section e alloc s2 [] W2 He2 (or_introl Hs2) Ho2 (eq_sym Hsz2))
    as (s3 & E3 & W3 & He3 & Hs3 & Ho3 & Hp3).
  rewrite Hs2 in E3. rewrite Hit2, Hit1 in Hp3. cbn [item_of it_size it_sizeN] in Hp3. rewrite F1, F2 in Hp3.
  set (pc := zeros (norm_len64 0 - 0)).
  assert (Lg : lenN pc = prem s3) by (rewrite Hp3; reflexivity).
  destruct (gap_section e alloc s3 pc W3 He3 Hs3 Ho3 Lg) as (s4 & E4 & H4).
  exists s4. split; [exact H4|]. intros t rest.
  assert (Ne1 : pc ++ rest <> []) by discriminate.
  assert (Ne3 : padded name ++ [] ++ pc ++ rest <> []).
  { apply nonempty_app_l, nonempty_len. lia. }
  assert (Lp2 : lenN (padded name) = prem s1) by (unfold prem; lia).
  assert (Lp3 : lenN (@nil byte) = prem s2) by (unfold prem; rewrite Hsz2, Ho2; reflexivity).
  assert (Lp1 : lenN hdr = prem s) by lia.
  cbv zeta. split.
  - intros f Hf. destruct f as [|[|[|[|f]]]]; [reflexivity| | | |lia].
    + rewrite step_more by assumption. rewrite E1. reflexivity.
    + rewrite step_more by assumption. rewrite E1. cbn [obind]. rewrite step_more by assumption. rewrite E2. reflexivity.
    + rewrite step_more by assumption. rewrite E1. cbn [obind]. rewrite step_more by assumption. rewrite E2. cbn [obind].
      rewrite step_more by assumption. rewrite E3. reflexivity.
  - intro f. change (4 + f)%nat with (S (S (S (S f)))).
    rewrite step_more by assumption. rewrite E1. cbn [obind]. rewrite step_more by assumption. rewrite E2. cbn [obind].
    rewrite step_more by assumption. rewrite E3. cbn [obind].
    split; [|split].
    + intros ->. rewrite app_nil_r. rewrite step_last by assumption. rewrite E4. cbn [obind]. eauto.
    + intros Hr Q. rewrite step_more by assumption. rewrite E4. cbn [obind]. rewrite Q. reflexivity.
    + intros Hr ([s5 ev5] & Q). rewrite step_more by assumption. rewrite E4. cbn [obind]. rewrite Q. cbn [obind]. eauto.
Qed.

Lemma empty_files_nest mode : forall names b, Forall (fun n => lenN n + 8 < two32) names -> mode < two32 -> names <> [] ->
  encodes (empty_files mode names) b ->
  forall s t, at_hdr e s -> nests t s b (4 * length names).
Proof.
  induction names as [|n names IH]; intros b Hn Hm Hne Hb s t Hs; [congruence|].
  cbn [empty_files map] in Hb. inversion Hb as [| |a1 a2 a3 a4 a5 b' e' junk Hj Hb'| | |]; subst.
  apply Forall_cons_iff in Hn. destruct Hn as [Hn1 Hn].
  destruct (empty_file s e' n mode junk Hs Hj Hn1 Hm) as (s1 & Hs1 & Q). specialize (Q t b'). cbv zeta in Q.
  destruct Q as [Q1 Q2].
  cbn [length].
  destruct names as [|m names].
  - inversion Hb'; subst. split.
    + destruct (Q2 0%nat) as (X & _). exact (X eq_refl).
    + intros f Hf. apply Q1. cbn [length] in Hf. lia.
  - assert (Hr : b' <> []).
    { cbn [map] in Hb'. inversion Hb'; subst.
      apply nonempty_app_l, nonempty_len. rewrite lenN_file_item by assumption. reflexivity. }
    assert (Hne' : m :: names <> []) by discriminate.
    destruct (IH b' Hn Hm Hne' Hb' s1 t Hs1) as [I1 I2].
    replace (4 * S (length (m :: names)))%nat with (4 + 4 * length (m :: names))%nat by lia.
    split.
    + destruct (Q2 (4 * length (m :: names))%nat) as (_ & _ & X). exact (X Hr I1).
    + intros f Hf. destruct (Nat.lt_ge_cases f 4) as [L|L]; [apply Q1; exact L|].
      replace f with (4 + (f - 4))%nat by lia. destruct (Q2 (f - 4)%nat) as (_ & X & _).
      apply (X Hr). apply I2. lia.
Qed.
End Stack.
