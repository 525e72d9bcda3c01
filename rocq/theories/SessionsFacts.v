(** SessionsFacts.v: what is in the caller's buffers before a call does not matter (Sessions.v). *)
From Verif Require Import Base Format Zlib LLCompress Parser Decompress Sessions.

(** Both outcomes are of the same kind, and results are related. *)
Definition orel {A B} (R : A -> B -> Prop) (a : outcome A) (b : outcome B) : Prop :=
  match a, b with
  | Ok x, Ok y => R x y
  | UB, UB => True
  | NoFuel, NoFuel => True
  | _, _ => False
  end.

Lemma orel_bind {A B C D} (R : A -> B -> Prop) (S : C -> D -> Prop) a b f g :
  orel R a b -> (forall x y, R x y -> orel S (f x) (g y)) -> orel S (obind a f) (obind b g).
Proof. destruct a, b; cbn; intros H K; try contradiction; auto. Qed.

Lemma orel_mono {A B} (R S : A -> B -> Prop) a b :
  (forall x y, R x y -> S x y) -> orel R a b -> orel S a b.
Proof. destruct a, b; cbn; auto. Qed.

Lemma orel_same {A} (R : A -> A -> Prop) a : (forall x, R x x) -> orel R a a.
Proof. destruct a; cbn; auto. Qed.

(** Events up to the memory behind the bytes passed. *)
Definition vis (x : event) : event := match x with EvSym d _ => EvSym d [] | _ => x end.

Definition same_ev (a b : pst * list event) : Prop := fst a = fst b /\ map vis (snd a) = map vis (snd b).

Section Facts.
Context (z : zlib) (e : endian) (alloc : N -> N -> bool).

Lemma dir_body_tail rec rec' t t' s b :
  (forall s1 b1, orel same_ev (rec s1 b1) (rec' s1 b1)) ->
  orel same_ev (dir_body e alloc rec t s b) (dir_body e alloc rec' t' s b).
Proof.
  intros Hr. unfold dir_body. cbv zeta.
  assert (K : forall s1 ev ev', map vis ev = map vis ev' ->
    orel same_ev
      (if sub64 (p_size s) (p_off s) <? lenN b
       then do (s2, evs2) <- rec s1 (dropN (sub64 (p_size s) (p_off s)) b); Ok (s2, ev ++ evs2) else Ok (s1, ev))
      (if sub64 (p_size s) (p_off s) <? lenN b
       then do (s2, evs2) <- rec' s1 (dropN (sub64 (p_size s) (p_off s)) b); Ok (s2, ev' ++ evs2) else Ok (s1, ev'))).
  { intros s1 ev ev' E. destruct (_ <? _); [|cbn; split; auto].
    eapply orel_bind; [apply Hr|]. intros [x1 x2] [y1 y2] [E1 E2]. cbn in E1, E2. subst y1. cbn.
    split; [reflexivity|]. cbn. rewrite !map_app. congruence. }
  destruct (p_err s); [cbn; split; auto|].
  destruct (p_stage s);
    (destruct (_ <=? _);
     [|first [ apply orel_same; intros; split; reflexivity
             | eapply orel_bind; [apply (orel_same eq); reflexivity|];
               intros x y <-; apply orel_same; intros; split; reflexivity ]]).
  - eapply orel_bind; [apply (orel_same eq); reflexivity|]. intros x y <-. cbv zeta.
    repeat (match goal with |- context [byte_eqb ?a ?b] => destruct (byte_eqb a b) end; try (apply K; reflexivity)).
  - eapply orel_bind; [apply (orel_same eq); reflexivity|]. intros x y <-. cbv zeta.
    repeat (match goal with |- context [byte_eqb ?a ?b] => destruct (byte_eqb a b) end; try (apply K; reflexivity)).
    cbn; split; reflexivity.
  - destruct (byte_eqb _ _); [apply K; reflexivity|exact I].
  - destruct (_ || _); [apply K; reflexivity|exact I].
  - destruct (byte_eqb _ _); [apply K; reflexivity|exact I].
  - destruct (_ || _); [apply K; reflexivity|exact I].
Qed.

Lemma parse_any_tail t t' s b : orel same_ev (parse e alloc t s b) (parse e alloc t' s b).
Proof.
  unfold parse. generalize (parse_fuel b) as f. intro f. revert s b.
  induction f as [|f IH]; intros s b; [exact I|].
  cbn [dir_parse]. apply dir_body_tail. exact IH.
Qed.

Definition same_cb (a b : cbk * pst * list event) : Prop :=
  fst a = fst b /\ map vis (snd a) = map vis (snd b).

Lemma leaf_any_tail c p d t t' : orel same_ev (leaf_cb e alloc c p d t) (leaf_cb e alloc c p d t').
Proof. destruct c; cbn [leaf_cb]; try apply parse_any_tail; cbn; try exact I; split; reflexivity. Qed.

Lemma content_any_tail typ c p d t t' :
  orel same_cb (content_cb e alloc typ c p d t) (content_cb e alloc typ c p d t').
Proof.
  unfold content_cb.
  assert (K : forall c0 p0 ev, orel same_cb
     (do (p2, evs2) <- leaf_cb e alloc c0 p0 d t; Ok (c0, p2, ev ++ evs2))
     (do (p2, evs2) <- leaf_cb e alloc c0 p0 d t'; Ok (c0, p2, ev ++ evs2))).
  { intros c0 p0 ev. eapply orel_bind; [apply leaf_any_tail|].
    intros [x1 x2] [y1 y2] [E1 E2]. cbn in E1, E2. subst y1. cbn. split; [reflexivity|].
    cbn. rewrite !map_app. congruence. }
  destruct c; try apply (K _ _ []).
  destruct (v0_begin typ p) as [[[c'|] p1] evs]; [apply K|]. cbn. split; reflexivity.
Qed.

(** Buffers with the same size. *)
Definition alike (a b : option bytes) : Prop :=
  match a, b with
  | Some x, Some y => lenN x = lenN y
  | None, None => True
  | _, _ => False
  end.

Lemma alike_refl a : alike a a.
Proof. destruct a; cbn; auto. Qed.

(** Sessions that differ in the contents of the caller's buffers only. *)
Definition rel (s s' : dsess z) : Prop :=
  d_zs s' = d_zs s /\ d_cb s' = d_cb s /\ d_bsel s' = d_bsel s /\ d_bsz s' = d_bsz s /\
  d_hdr s' = d_hdr s /\ alike (d_ubuf s) (d_ubuf s') /\ alike (d_tmp s) (d_tmp s') /\
  d_tmpsz s' = d_tmpsz s /\ d_inited s' = d_inited s /\ d_p s' = d_p s.

(** Sizes fit into uInt. *)
Definition sized (s : dsess z) : Prop := d_bsz s < two32 /\ d_tmpsz s < two32.

(** What has been written since next_out was set is the same. *)
Definition written (s s' : dsess z) : Prop :=
  z_sel (d_zs s) = d_bsel s /\ z_aout (d_zs s) <= d_bsz s /\ d_bsz s - z_aout (d_zs s) <= z_pos (d_zs s) /\
  match mem (z_sel (d_zs s)) s, mem (z_sel (d_zs s)) s' with
  | Some a, Some b => takeN (z_pos (d_zs s)) a = takeN (z_pos (d_zs s)) b
  | _, _ => True
  end.

Lemma rel_mem s s' b : rel s s' -> alike (mem b s) (mem b s').
Proof.
  intros (E1 & E2 & E3 & E4 & E5 & A1 & A2 & E6 & E7 & E8). destruct b; cbn [mem]; [|exact A1].
  rewrite E5. cbn. reflexivity.
Qed.

Lemma rel_setup s s' : rel s s' -> rel (setup s) (setup s').
Proof.
  intros (E1 & E2 & E3 & E4 & E5 & A1 & A2 & E6 & E7 & E8).
  unfold setup, with_zs, rel. cbn. rewrite E1, E3, E4. auto 20.
Qed.

Lemma mem_setup b (s : dsess z) : mem b (setup s) = mem b s.
Proof. destruct b; reflexivity. Qed.

Lemma written_setup s s' : rel s s' -> written (setup s) (setup s').
Proof.
  intro H. unfold written. rewrite (mem_setup _ s), (mem_setup _ s').
  unfold setup, with_zs. cbn [d_zs z_sel z_aout z_pos d_bsz d_bsel].
  split; [reflexivity|]. split; [lia|]. split; [lia|].
  destruct (mem _ s); [|exact I]. destruct (mem _ s'); [|exact I]. now rewrite !takeN_0.
Qed.

Lemma takeN_write off d m : off + lenN d <= lenN m ->
  takeN (off + lenN d) (write_at off d m) = takeN off m ++ d.
Proof.
  intro H. unfold write_at. rewrite takeN_plus. f_equal.
  - apply takeN_app_exact. rewrite lenN_takeN. lia.
  - rewrite dropN_app_exact by (rewrite lenN_takeN; lia). now apply takeN_app_exact.
Qed.

Lemma inflate_rel flush s s' : rel s s' -> sized s ->
  orel (fun a b => fst a = fst b /\ rel (snd a) (snd b) /\ sized (snd a) /\
                   d_cb (snd a) = d_cb s /\ d_inited (snd a) = d_inited s /\
                   (written s s' -> written (snd a) (snd b)))
       (do_inflate flush s) (do_inflate flush s').
Proof.
  intros R Sz. unfold do_inflate.
  pose proof (rel_mem s s' (z_sel (d_zs s)) R) as A.
  destruct R as (E1 & E2 & E3 & E4 & E5 & A1 & A2 & E6 & E7 & E8). rewrite E1.
  destruct (mem (z_sel (d_zs s)) s) as [a|] eqn:Ma, (mem (z_sel (d_zs s)) s') as [b|] eqn:Mb; cbn in A; try contradiction.
  2:{ cbn. split; [reflexivity|]. split; [unfold rel; auto 20|]. auto. }
  cbv zeta.
  set (r := inflate z (z_st (d_zs s)) flush (z_inp (d_zs s)) (z_aout (d_zs s))).
  unfold checked_write. rewrite <- A.
  destruct (N.leb_spec (z_pos (d_zs s) + lenN (zr_out r)) (lenN a)) as [L|L]; [|exact I].
  cbn. split; [reflexivity|].
  assert (La : lenN (write_at (z_pos (d_zs s)) (zr_out r) a) = lenN a).
  { rewrite lenN_write_at; lia. }
  assert (Lb : lenN (write_at (z_pos (d_zs s)) (zr_out r) b) = lenN b).
  { rewrite lenN_write_at; lia. }
  split.
  { unfold rel. destruct (z_sel (d_zs s)) eqn:Es; cbn in *.
    - injection Ma as <-. injection Mb as <-. rewrite E2, E3, E4, E5, E6, E7, E8. auto 20.
    - rewrite E2, E3, E4, E5, E6, E7, E8. repeat (split; auto). now rewrite La, Lb. }
  split.
  { unfold sized. destruct (z_sel (d_zs s)); exact Sz. }
  split. { destruct (z_sel (d_zs s)); reflexivity. }
  split. { destruct (z_sel (d_zs s)); reflexivity. }
  intros (W1 & W2 & W3 & W4). rewrite Ma, Mb in W4. unfold written.
  destruct (z_sel (d_zs s)) eqn:Es; cbn in *.
  all: split; [assumption|]; split; [lia|]; split; [lia|].
  all: rewrite !takeN_write by lia; congruence.
Qed.

(** The content callbacks are installed together with the flag. *)
Definition flagged (s : dsess z) : Prop := d_inited s = false -> d_cb s = CbHeader.

(** What a call gives: same result, sessions still related, same callbacks. *)
Definition same_run (s0 : dsess z) (a b : Z * dsess z * list event) : Prop :=
  fst (fst a) = fst (fst b) /\
  rel (snd (fst a)) (snd (fst b)) /\ sized (snd (fst a)) /\
  (flagged s0 -> flagged (snd (fst a))) /\
  (d_cb (snd (fst a)) <> CbHeader -> z_inp (d_zs (snd (fst a))) <> [] -> written (snd (fst a)) (snd (fst b))) /\
  map vis (snd a) = map vis (snd b).

Lemma content_not_header typ c p d t c' p' evs : c <> CbHeader ->
  content_cb e alloc typ c p d t = Ok (c', p', evs) -> c' <> CbHeader.
Proof.
  intros Hc. unfold content_cb.
  assert (K : forall c0 p0 ev, c0 <> CbHeader ->
    (do (p2, evs2) <- leaf_cb e alloc c0 p0 d t; Ok (c0, p2, ev ++ evs2)) = Ok (c', p', evs) -> c' <> CbHeader).
  { intros c0 p0 ev H0 H. destruct (leaf_cb e alloc c0 p0 d t) as [[p2 ev2]| |]; cbn in H; try discriminate.
    now injection H as <- _ _. }
  destruct c; try apply (K _ _ []); try easy.
  unfold v0_begin.
  destruct (typ =? ContentDirectory); [apply K; discriminate|].
  destruct (_ || _); [apply K; discriminate|].
  intro H. now injection H as <- _ _.
Qed.

Lemma header_rel s s' : rel s s' -> sized s ->
  orel (fun a b => fst a = fst b /\ rel (snd a) (snd b) /\ sized (snd a) /\ (flagged s -> flagged (snd a)) /\
                   (fst a = false -> d_cb (snd a) = d_cb s))
       (header_begin e s) (header_begin e s').
Proof.
  intros R Sz. pose proof R as (E1 & E2 & E3 & E4 & E5 & A1 & A2 & E6 & E7 & E8).
  unfold header_begin. rewrite E1, E5, E8.
  destruct (_ <? _); [cbn; auto 10|]. cbv zeta.
  destruct (_ =? _).
  - destruct (_ <? _); [exact I|]. cbn. split; [reflexivity|]. split.
    { unfold rel; cbn. rewrite E6. auto 20. }
    split. { unfold sized in *; cbn; split; apply Sz. }
    split; [|discriminate]. intros _ H; discriminate H.
  - cbn. split; [reflexivity|]. split.
    { unfold rel; cbn. rewrite E2, E3, E4, E6. auto 20. }
    split. { exact Sz. }
    split; [|reflexivity]. intros _ H; discriminate H.
Qed.

Lemma data_rel s s' : rel s s' -> sized s -> written s s' -> fst (cb_data s) = fst (cb_data s').
Proof.
  intros R [Sz _] (W1 & W2 & W3 & W4).
  unfold cb_data. pose proof (rel_mem s s' (d_bsel s) R) as A.
  destruct R as (E1 & E2 & E3 & E4 & E5 & A1 & A2 & E6 & E7 & E8). rewrite E1, E3, E4.
  rewrite W1 in W4.
  destruct (mem (d_bsel s) s) as [a|], (mem (d_bsel s) s') as [b|]; cbn in A; try contradiction; [|reflexivity].
  cbn [fst].
  assert (Hs : sub32 (d_bsz s) (z_aout (d_zs s)) = d_bsz s - z_aout (d_zs s)).
  { unfold sub32.
    replace (d_bsz s + two32 - z_aout (d_zs s)) with ((d_bsz s - z_aout (d_zs s)) + 1 * two32) by lia.
    rewrite N.mod_add by (unfold two32; lia). apply N.mod_small. lia. }
  rewrite Hs.
  replace (d_bsz s - z_aout (d_zs s)) with (N.min (d_bsz s - z_aout (d_zs s)) (z_pos (d_zs s))) by lia.
  rewrite <- !takeN_takeN. congruence.
Qed.

Lemma run_rel fuel : forall m flush s s', rel s s' -> sized s ->
  (m = NoTouch -> d_cb s <> CbHeader -> z_inp (d_zs s) <> [] -> written s s') ->
  orel (same_run s) (run e alloc fuel m flush s) (run e alloc fuel m flush s').
Proof.
  induction fuel as [|f IH]; intros m flush s s' R Sz W; [exact I|].
  cbn [run].
  assert (Ez : d_zs s' = d_zs s) by apply R. rewrite Ez.
  destruct (_ || _) eqn:Ex.
  { cbn. unfold same_run; cbn. split; [reflexivity|]. split; [exact R|]. split; [exact Sz|]. split; [auto|].
    split; [|reflexivity]. destruct m.
    - intros _ H. rewrite orb_false_r in Ex. apply N.eqb_eq in Ex.
      destruct (z_inp (d_zs s)); [congruence|]. rewrite lenN_cons in Ex. lia.
    - intros H1 H2. now apply W. }
  assert (Hin : z_inp (d_zs s) <> []).
  { intro H. rewrite H in Ex. discriminate Ex. }
  cbv zeta.
  set (s0 := match m with Reset => setup s | NoTouch => s end).
  set (s0' := match m with Reset => setup s' | NoTouch => s' end).
  assert (R0 : rel s0 s0') by (destruct m; [now apply rel_setup|exact R]).
  assert (Sz0 : sized s0) by (destruct m; exact Sz).
  assert (C0 : d_cb s0 = d_cb s) by (destruct m; reflexivity).
  assert (I0 : d_inited s0 = d_inited s) by (destruct m; reflexivity).
  assert (W0 : d_cb s <> CbHeader -> written s0 s0').
  { intro H. destruct m; [now apply written_setup|now apply W]. }
  eapply orel_bind; [apply (inflate_rel flush s0 s0' R0 Sz0)|].
  intros [ret s1] [ret' s1'] (Er & R1 & Sz1 & C1 & I1 & W1). cbn [fst snd] in *. subst ret'.
  rewrite C0 in C1. rewrite I0 in I1.
  assert (F1 : flagged s -> flagged s1) by (unfold flagged; rewrite C1, I1; auto).
  destruct (negb _).
  { cbn. unfold same_run; cbn. split; [reflexivity|]. split; [exact R1|]. split; [exact Sz1|]. split; [exact F1|].
    split; [|reflexivity]. intros H1 _. rewrite C1 in H1. auto. }
  eapply (orel_bind (fun a b => rel (fst a) (fst b) /\ sized (fst a) /\ (flagged s -> flagged (fst a)) /\
     (d_cb (fst a) <> CbHeader -> z_inp (d_zs (fst a)) <> [] -> m = NoTouch -> written (fst a) (fst b)) /\
     map vis (snd a) = map vis (snd b))).
  2:{ intros [s3 evs] [s3' evs'] (R3 & Sz3 & F3 & W3 & V3). cbn [fst snd] in *.
      eapply orel_bind; [apply (IH m Z_NO_FLUSH s3 s3' R3 Sz3)|].
      { intros; apply W3; assumption. }
      intros [[ret3 s4] ev4] [[ret3' s4'] ev4'] (Er & R4 & Sz4 & F4 & W4 & V4). cbn [fst snd] in *.
      cbn. unfold same_run; cbn. split; [exact Er|]. split; [exact R4|]. split; [exact Sz4|]. split; [auto|].
      split; [exact W4|]. rewrite !map_app. congruence. }
  assert (Ec : d_cb s1' = d_cb s1) by apply R1. rewrite Ec.
  assert (K : d_cb s1 <> CbHeader ->
    orel (fun a b => rel (fst a) (fst b) /\ sized (fst a) /\ (flagged s -> flagged (fst a)) /\
     (d_cb (fst a) <> CbHeader -> z_inp (d_zs (fst a)) <> [] -> m = NoTouch -> written (fst a) (fst b)) /\
     map vis (snd a) = map vis (snd b))
     (let '(data, tail) := cb_data s1 in
      do (c', p', evs) <- content_cb e alloc (hdr_type e (d_hdr s1)) (d_cb s1) (d_p s1) data tail;
      Ok (with_cb c' (with_p p' s1), evs))
     (let '(data, tail) := cb_data s1' in
      do (c', p', evs) <- content_cb e alloc (hdr_type e (d_hdr s1')) (d_cb s1) (d_p s1') data tail;
      Ok (with_cb c' (with_p p' s1'), evs))).
  { intro Hc. pose proof Hc as Hc1. rewrite C1 in Hc. specialize (W1 (W0 Hc)).
    pose proof (data_rel s1 s1' R1 Sz1 W1) as D.
    destruct (cb_data s1) as [d t], (cb_data s1') as [d' t']. cbn [fst] in D. subst d'.
    pose proof R1 as (E1 & E2 & E3 & E4 & E5 & A1 & A2 & E6 & E7 & E8). rewrite E5, E8.
    pose proof (content_any_tail (hdr_type e (d_hdr s1)) (d_cb s1) (d_p s1) d t t') as T.
    destruct (content_cb e alloc _ _ _ d t) as [[[c' p'] ev]| |], (content_cb e alloc _ _ _ d t') as [[[c2 p2] ev2]| |];
      cbn in T; try contradiction; try exact I.
    destruct T as [T1 T2]. cbn in T1, T2. injection T1 as <- <-.
    cbn. split. { unfold rel; cbn. auto 20. }
    split; [exact Sz1|]. split.
    { intros F. specialize (F1 F). unfold flagged in *; cbn. intro H. specialize (F1 H). congruence. }
    split; [|exact T2]. intros _ _ _. exact W1. }
  destruct (d_cb s1) eqn:Ecb; try (apply K; discriminate). clear K.
  eapply orel_bind; [apply (header_rel s1 s1' R1 Sz1)|].
  intros [again s2] [again' s2'] (Ea & R2 & Sz2 & F2 & Cf). cbn [fst snd] in *. subst again'.
  destruct again.
  - eapply orel_bind; [apply (IH Reset Z_NO_FLUSH s2 s2' R2 Sz2); discriminate|].
    intros [[ret3 s4] ev4] [[ret3' s4'] ev4'] (Er & R4 & Sz4 & F4 & W4 & V4). cbn [fst snd] in *.
    cbn. split; [exact R4|]. split; [exact Sz4|]. split; [auto|]. split; [|exact V4]. intros H1 H2 _. auto.
  - cbn. split; [exact R2|]. split; [exact Sz2|]. split; [auto|]. split; [|reflexivity].
    intros H. rewrite (Cf eq_refl), Ecb in H. now destruct H.
Qed.

End Facts.

(** ** One call *)
Section Calls.
Context (z : zlib) (e : endian).

Definition srel (a b : slot z) : Prop :=
  match a, b with
  | Empty, Empty | Gone, Gone | Null, Null => True
  | Comp s, Comp s' => s = s'
  | Low al s, Low al' s' => al = al' /\ rel z s s' /\ sized z s
  | Mid al s, Mid al' s' => al = al' /\ rel z s s' /\ sized z s /\ flagged z s
  | _, _ => False
  end.

Lemma u32_lt n : u32 n < two32.
Proof. apply N.mod_lt. discriminate. Qed.

Lemma rel_refl (s : dsess z) : rel z s s.
Proof. unfold rel. auto 20 using alike_refl. Qed.

Lemma rel_feed d (s s' : dsess z) : rel z s s' -> rel z (feed d s) (feed d s').
Proof.
  intros (E1 & E2 & E3 & E4 & E5 & A1 & A2 & E6 & E7 & E8).
  unfold feed, with_zs, rel. cbn. rewrite E1. auto 20.
Qed.

Lemma vis_passed a b : map vis a = map vis b -> map passed (map SDec a) = map passed (map SDec b).
Proof.
  intro H. rewrite !map_map.
  assert (K : forall l, map (fun x => passed (SDec x)) l = map SDec (map vis l)).
  { intro l. rewrite map_map. apply map_ext. intros []; reflexivity. }
  now rewrite !K, H.
Qed.

(** Result of a session call: see [same_run], without the part about next_out. *)
Definition same_res (keep : dsess z -> Prop) (a b : list Z * dsess z * list event) : Prop :=
  fst (fst a) = fst (fst b) /\ rel z (snd (fst a)) (snd (fst b)) /\ sized z (snd (fst a)) /\
  keep (snd (fst a)) /\ map vis (snd a) = map vis (snd b).

Lemma low_rel al fuel o (s s' : dsess z) : rel z s s' -> sized z s ->
  orel (same_res (fun _ => True)) (run_llops e al fuel s [o]) (run_llops e al fuel s' [o]).
Proof.
  intros R Sz. destruct o as [fl d|b n|i]; cbn [run_llops].
  - eapply orel_bind.
    + unfold ll_decompress. apply run_rel; [now apply rel_feed|exact Sz|discriminate].
    + intros [[r1 x1] v1] [[r2 x2] v2] (E & R' & Sz' & _ & _ & V). cbn [fst snd] in *. subst r2.
      cbn. unfold same_res; cbn. rewrite !app_nil_r. auto.
  - cbn. unfold same_res; cbn. split; [reflexivity|].
    destruct R as (E1 & E2 & E3 & E4 & E5 & A1 & A2 & E6 & E7 & E8).
    split. { unfold rel; cbn. auto 20 using alike_refl. }
    split; [|auto]. split; [apply u32_lt|apply Sz].
  - cbn. unfold same_res; cbn. split; [reflexivity|].
    destruct R as (E1 & E2 & E3 & E4 & E5 & A1 & A2 & E6 & E7 & E8).
    split. { unfold rel; cbn. auto 20. }
    split; [exact Sz|auto].
Qed.

Lemma mid_rel al fuel o (s s' : dsess z) : rel z s s' -> sized z s -> flagged z s ->
  orel (same_res (flagged z)) (run_dops e al fuel s [o]) (run_dops e al fuel s' [o]).
Proof.
  intros R Sz F. destruct o as [fl d|b n]; cbn [run_dops].
  - eapply orel_bind.
    + unfold decompress. assert (Ei : d_inited s' = d_inited s) by apply R. rewrite Ei.
      destruct (d_inited s) eqn:Es.
      * apply run_rel; [now apply rel_feed|exact Sz|discriminate].
      * apply run_rel; [now apply rel_feed|exact Sz|].
        intros _ H. elim H. exact (F Es).
    + intros [[r1 x1] v1] [[r2 x2] v2] (E & R' & Sz' & F' & _ & V). cbn [fst snd] in *. subst r2.
      cbn. unfold same_res; cbn. rewrite !app_nil_r. repeat (split; auto).
  - cbn. unfold same_res; cbn. split; [reflexivity|].
    destruct R as (E1 & E2 & E3 & E4 & E5 & A1 & A2 & E6 & E7 & E8).
    unfold set_buffer. rewrite E7. destruct (d_inited s) eqn:Es.
    + split. { unfold rel; cbn. rewrite E7, Es. auto 20 using alike_refl. }
      split; [split; [apply u32_lt|apply Sz]|]. split; [|reflexivity].
      unfold flagged; cbn. congruence.
    + split. { unfold rel; cbn. rewrite ?E7, ?Es. auto 20 using alike_refl. }
      split; [split; [apply Sz|apply u32_lt]|]. split; [|reflexivity].
      unfold flagged; cbn. intros _. exact (F Es).
Qed.

Lemma destroy_rel (s s' : dsess z) : rel z s s' -> sized z s ->
  orel (fun _ _ => True) (destroy s) (destroy s').
Proof.
  intros R Sz. unfold destroy.
  eapply orel_bind; [apply (inflate_rel z (fun _ _ => true) _ s s' R Sz)|].
  intros [r1 s1] [r1' s1'] (_ & R1 & Sz1 & _). cbn [fst snd] in *.
  eapply orel_bind; [apply (inflate_rel z (fun _ _ => true) _ s1 s1' R1 Sz1)|].
  intros [r2 s2] [r2' s2'] _. exact I.
Qed.

Definition same_call (a b : slot z * list seen_ev) : Prop :=
  srel (fst a) (fst b) /\ map passed (snd a) = map passed (snd b).

Lemma do_call_rel fuel c a b : srel a b -> orel same_call (do_call e fuel c a) (do_call e fuel c b).
Proof.
  intro H. destruct a as [|s|al s|al s| |], b as [|s'|al' s'|al' s'| |]; cbn [srel] in H; try contradiction.
  - destruct c; cbn [do_call]; try exact I.
    + destruct (create_csession _ _ _ _ _ _ _ _ _ _) as [[[ss|] x]| |]; cbn; try exact I; split; cbn; auto.
    + destruct (ll_create _ _ _ _ _ _ _) as [ss|] eqn:E; cbn; [|split; cbn; auto].
      split; cbn; [|reflexivity]. split; [reflexivity|]. split; [apply rel_refl|].
      unfold ll_create in E. destruct ok; [|discriminate]. destruct (inflateInit z); [|discriminate].
      injection E as <-. split; cbn; [apply u32_lt|reflexivity].
    + destruct (create _ _ _ _ _ _) as [ss|] eqn:E; cbn; [|split; cbn; auto].
      split; cbn; [|reflexivity]. split; [reflexivity|]. split; [apply rel_refl|].
      unfold create in E. destruct ok; [|discriminate]. destruct (inflateInit z); [|discriminate].
      injection E as <-. split; [split; cbn; [reflexivity|apply u32_lt]|]. intros _. reflexivity.
  - subst s'. destruct c; cbn [do_call]; try exact I.
    + destruct (run_cops _ _ _) as [[[r s1] ev]| |]; cbn; try exact I. split; cbn; auto.
    + split; cbn; auto.
  - destruct H as (<- & R & Sz). destruct c; cbn [do_call]; try exact I.
    + eapply orel_bind; [apply low_rel; assumption|].
      intros [[r1 x1] v1] [[r2 x2] v2] (E & R' & Sz' & _ & V). cbn [fst snd] in *. subst r2.
      cbn. split; cbn; [auto|]. rewrite !map_app. f_equal. now apply vis_passed.
    + eapply orel_bind; [apply destroy_rel; assumption|]. intros x y _. split; cbn; auto.
  - destruct H as (<- & R & Sz & F). destruct c; cbn [do_call]; try exact I.
    + eapply orel_bind; [apply mid_rel; assumption|].
      intros [[r1 x1] v1] [[r2 x2] v2] (E & R' & Sz' & F' & V). cbn [fst snd] in *. subst r2.
      cbn. split; cbn; [auto|]. rewrite !map_app. f_equal. now apply vis_passed.
    + eapply orel_bind; [apply destroy_rel; assumption|]. intros x y _. split; cbn; auto.
  - destruct c; exact I.
  - destruct c; exact I.
Qed.

(** ** Histories *)
Lemma lenN_smeared j m : lenN (smeared j m) = lenN m.
Proof. unfold smeared. rewrite lenN_takeN, lenN_app, lenN_dropN. lia. Qed.

Lemma alike_smear a b j : alike a b -> alike a (smear_buf j b).
Proof. destruct a, b; cbn; auto. now rewrite lenN_smeared. Qed.

Lemma srel_smear a b j : srel a b -> srel a (smear j b).
Proof.
  destruct a as [|s|al s|al s| |], b as [|s'|al' s'|al' s'| |]; cbn [srel smear]; auto.
  - intros (<- & R & Sz). split; [reflexivity|]. split; [|exact Sz].
    destruct R as (E1 & E2 & E3 & E4 & E5 & A1 & A2 & E6 & E7 & E8). unfold rel; cbn.
    auto 20 using alike_smear.
  - intros (<- & R & Sz & F). split; [reflexivity|]. split; [|split; [exact Sz|exact F]].
    destruct R as (E1 & E2 & E3 & E4 & E5 & A1 & A2 & E6 & E7 & E8). unfold rel; cbn.
    auto 20 using alike_smear.
Qed.

Lemma shown_app i a b : shown_by i (a ++ b) = shown_by i a ++ shown_by i b.
Proof. unfold shown_by. apply flat_map_app. Qed.
Lemma shown_own i evs : shown_by i (map (pair i) evs) = evs.
Proof.
  induction evs as [|x r IH]; [reflexivity|]. unfold shown_by in *. cbn [map flat_map fst snd].
  rewrite N.eqb_refl. cbn. now rewrite IH.
Qed.
Lemma shown_other i k evs : k <> i -> shown_by i (map (pair k) evs) = [].
Proof.
  intro H. induction evs as [|x r IH]; [reflexivity|]. unfold shown_by in *. cbn [map flat_map fst snd].
  rewrite (proj2 (N.eqb_neq k i) H). exact IH.
Qed.

Lemma together_alone fuel : forall ms a w w' evs,
  (forall i, srel (a i) (w i)) -> run_all e fuel w ms = Ok (w', evs) ->
  forall i, exists s ev, run_alone e fuel (a i) (calls_on i ms) = Ok (s, ev) /\ srel s (w' i) /\
    map passed (shown_by i evs) = map passed ev.
Proof.
  induction ms as [|m ms IH]; intros a w w' evs R H i; cbn [run_all] in H.
  - injection H as <- <-. exists (a i), []. split; [reflexivity|]. split; [apply R|reflexivity].
  - destruct m as [k c|j].
    + pose proof (do_call_rel fuel c (a k) (w k) (R k)) as D.
      destruct (do_call e fuel c (w k)) as [[s ev]| |]; cbn [obind] in H; try discriminate.
      destruct (do_call e fuel c (a k)) as [[s' ev']| |] eqn:Ea; cbn in D; try contradiction.
      destruct D as [D1 D2]. cbn [fst snd] in D1, D2.
      destruct (run_all e fuel (upd k s w) ms) as [[w2 ev2]| |] eqn:E2; cbn [obind] in H; try discriminate.
      injection H as <- <-.
      assert (R' : forall i, srel (upd k s' a i) (upd k s w i)).
      { intro n. unfold upd. destruct (n =? k); auto. }
      destruct (IH _ _ _ _ R' E2 i) as (s3 & ev3 & E3 & R3 & V3).
      rewrite shown_app, map_app, V3.
      change (calls_on i (Call k c :: ms)) with ((if k =? i then [c] else []) ++ calls_on i ms).
      unfold upd in E3. rewrite N.eqb_sym in E3.
      destruct (N.eqb_spec k i) as [->|Hk]; cbn [app].
      * exists s3, (ev' ++ ev3). cbn [run_alone]. rewrite Ea. cbn [obind]. rewrite E3. cbn [obind].
        split; [reflexivity|]. split; [exact R3|]. rewrite shown_own, map_app. congruence.
      * exists s3, ev3. rewrite shown_other by assumption. auto.
    + apply (IH a (fun k => smear (j k) (w k)) w' evs); [|exact H]. intro n. apply srel_smear. apply R.
Qed.

Lemma alone_together fuel : forall ms a w,
  (forall i, srel (a i) (w i)) ->
  (forall i, exists r, run_alone e fuel (a i) (calls_on i ms) = Ok r) ->
  exists r, run_all e fuel w ms = Ok r.
Proof.
  induction ms as [|m ms IH]; intros a w R H; cbn [run_all].
  - eexists; reflexivity.
  - destruct m as [k c|j].
    + pose proof (do_call_rel fuel c (a k) (w k) (R k)) as D.
      assert (Hk : exists s' ev', do_call e fuel c (a k) = Ok (s', ev') /\
                    exists r, run_alone e fuel s' (calls_on k ms) = Ok r).
      { destruct (H k) as [r Hr].
        change (calls_on k (Call k c :: ms)) with ((if k =? k then [c] else []) ++ calls_on k ms) in Hr.
        rewrite N.eqb_refl in Hr. cbn [app run_alone] in Hr.
        destruct (do_call e fuel c (a k)) as [[s' ev']| |]; cbn [obind] in Hr; try discriminate.
        exists s', ev'. split; [reflexivity|].
        destruct (run_alone e fuel s' _) as [x| |]; cbn [obind] in Hr; try discriminate. eauto. }
      destruct Hk as (s' & ev' & Ek & Hk). rewrite Ek in D.
      destruct (do_call e fuel c (w k)) as [[s ev]| |]; cbn in D; try contradiction. destruct D as [D1 D2]. cbn [fst] in D1.
      cbn [obind].
      destruct (IH (upd k s' a) (upd k s w)) as [[w2 ev2] E2].
      { intro n. unfold upd. destruct (n =? k); auto. }
      { intro n. unfold upd. destruct (N.eqb_spec n k) as [->|Hn]; [exact Hk|].
        destruct (H n) as [r Hr].
        change (calls_on n (Call k c :: ms)) with ((if k =? n then [c] else []) ++ calls_on n ms) in Hr.
        destruct (N.eqb_spec k n); [congruence|]. exists r. exact Hr. }
      rewrite E2. cbn. eauto.
    + apply (IH a); [|exact H]. intro n. apply srel_smear. apply R.
Qed.

(** Sessions are independent of each other, even if they share buffers. *)
Lemma sessions_independent fuel ms w evs :
  run_all e fuel (fun _ => @Empty z) ms = Ok (w, evs) ->
  forall i, exists s ev, run_alone e fuel (@Empty z) (calls_on i ms) = Ok (s, ev) /\
    map passed (shown_by i evs) = map passed ev.
Proof.
  intros H i.
  destruct (together_alone fuel ms (fun _ => Empty) (fun _ => Empty) w evs (fun _ => I) H i)
    as (s & ev & E & _ & V). eauto.
Qed.

Lemma sessions_undisturbed fuel ms :
  (forall i, exists r, run_alone e fuel (@Empty z) (calls_on i ms) = Ok r) ->
  exists r, run_all e fuel (fun _ => @Empty z) ms = Ok r.
Proof. exact (alone_together fuel ms (fun _ => Empty) (fun _ => Empty) (fun _ => I)). Qed.

End Calls.
