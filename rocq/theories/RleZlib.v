(** RleZlib.v: a concrete codec meeting [zlib_contract] (run length encoding).
    It is not a model of zlib's algorithms; it shows that the contract is satisfiable and is the
    witness for the refuted statements.  It has the two features of real zlib that matter here:
    output buffered inside deflate, and output buffered inside inflate. *)
From Verif Require Import Base Zlib.

(** Compressed form: pairs (count, byte) with count >= 1; (0,0) ends the stream; (0,x) is invalid. *)
Fixpoint rle_enc (l : bytes) : bytes :=
  match l with
  | [] => []
  | x :: r =>
    match rle_enc r with
    | n :: y :: t =>
      if byte_eqb x y && (byte_val n <? 255) then val_byte (byte_val n + 1) :: y :: t
      else x01 :: x :: n :: y :: t
    | t => x01 :: x :: t
    end
  end.

Inductive rstatus := Running | Finished | Broken.
Record rst := RST { r_hold : option byte; r_status : rstatus }.

(** One compressed byte: new state and the run it completes. *)
Definition rfeed (s : rst) (b : byte) : rst * bytes :=
  match r_status s with
  | Running =>
    match r_hold s with
    | None => (RST (Some b) Running, [])
    | Some n =>
      if byte_val n =? 0 then
        (RST None (if byte_val b =? 0 then Finished else Broken), [])
      else (RST None Running, repeat b (N.to_nat (byte_val n)))
    end
  | _ => (s, [])
  end.

Fixpoint rrun (s : rst) (c : bytes) : rst * bytes :=
  match c with
  | [] => (s, [])
  | b :: r => let '(s1, o1) := rfeed s b in let '(s2, o2) := rrun s1 r in (s2, o1 ++ o2)
  end.

Definition r0 : rst := RST None Running.
Definition rle_dec (c : bytes) : bytes := snd (rrun r0 c).
Definition rle_bad (c : bytes) : bool :=
  match r_status (fst (rrun r0 c)) with Broken => true | _ => false end.
Definition rle_fin (c : bytes) : bool :=
  match r_status (fst (rrun r0 c)) with Finished => true | _ => false end.

(** deflate: everything consumed is encoded at once into a queue that is emptied as room allows. *)
Definition rle_deflate (q : bytes) (f : Z) (inp : bytes) (room : N) : zres bytes :=
  if room =? 0 then ZR Z_BUF_ERROR 0 [] q
  else let q' := q ++ rle_enc inp in ZR Z_OK (lenN inp) (takeN room q') (dropN room q').

(** inflate: [ri_pend] is decoded output that did not fit. *)
Record rist := RIST { ri_st : rst; ri_pend : bytes }.

Fixpoint rle_inf_go (inp : bytes) (room : N) (s : rist) : N * bytes * rist :=
  let o1 := takeN room (ri_pend s) in
  let pend1 := dropN room (ri_pend s) in
  let room1 := room - lenN o1 in
  match inp with
  | [] => (0, o1, RIST (ri_st s) pend1)
  | b :: r =>
    if (room1 =? 0) || match r_status (ri_st s) with Running => false | _ => true end
    then (0, o1, RIST (ri_st s) pend1)
    else let '(st2, run) := rfeed (ri_st s) b in
         let '(u, o2, s3) := rle_inf_go r room1 (RIST st2 run) in
         (1 + u, o1 ++ o2, s3)
  end.

Definition rle_inflate (s : rist) (f : Z) (inp : bytes) (room : N) : zres rist :=
  let '(u, o, s') := rle_inf_go inp room s in
  let ret :=
    match r_status (ri_st s') with
    | Broken => Z_DATA_ERROR
    | Finished => match ri_pend s' with [] => Z_STREAM_END
                  | _ => if (f =? Z_FINISH)%Z || (lenN o =? 0) && (u =? 0) then Z_BUF_ERROR else Z_OK end
    | Running => if (f =? Z_FINISH)%Z || (lenN o =? 0) && (u =? 0) then Z_BUF_ERROR else Z_OK
    end in
  ZR ret u o s'.

Definition rle_zlib : zlib := {|
  dst := bytes;
  ist := rist;
  deflateInit := fun l => if ((-1 <=? l) && (l <=? 9))%Z then Some [] else None;
  deflate := rle_deflate;
  inflateInit := Some (RIST r0 []);
  inflate := rle_inflate
|}.

(** ** The contract holds *)

Lemma rrun_app s c d :
  rrun s (c ++ d) = (fst (rrun (fst (rrun s c)) d), snd (rrun s c) ++ snd (rrun (fst (rrun s c)) d)).
Proof.
  revert s; induction c as [|b c IH]; intro s; cbn [app rrun].
  - cbn. now destruct (rrun s d).
  - destruct (rfeed s b) as [s1 o1]. rewrite IH.
    destruct (rrun s1 c) as [s2 o2]. cbn. now rewrite app_assoc.
Qed.

Lemma rrun_stuck s c : r_status s <> Running -> rrun s c = (s, []).
Proof.
  intro H. induction c as [|b c IH]; cbn [rrun]; [reflexivity|].
  unfold rfeed. destruct s as [h t]; cbn in *. destruct t; [congruence| |]; now rewrite IH.
Qed.

Lemma rle_dec_mono c d : prefix (rle_dec c) (rle_dec (c ++ d)).
Proof. unfold rle_dec. rewrite rrun_app. cbn. apply prefix_app. Qed.

Lemma rle_bad_mono c d : rle_bad c = true -> rle_bad (c ++ d) = true.
Proof.
  unfold rle_bad. rewrite rrun_app. cbn.
  destruct (r_status (fst (rrun r0 c))) eqn:E; try discriminate.
  rewrite rrun_stuck by congruence. cbn. now rewrite E.
Qed.

Lemma rle_fin_mono c d : rle_fin c = true -> rle_fin (c ++ d) = true.
Proof.
  unfold rle_fin. rewrite rrun_app. cbn.
  destruct (r_status (fst (rrun r0 c))) eqn:E; try discriminate.
  rewrite rrun_stuck by congruence. cbn. now rewrite E.
Qed.

Lemma rle_fin_dec c d : rle_fin c = true -> rle_dec (c ++ d) = rle_dec c.
Proof.
  unfold rle_fin, rle_dec. rewrite rrun_app. cbn.
  destruct (r_status (fst (rrun r0 c))) eqn:E; try discriminate.
  rewrite (rrun_stuck (fst (rrun r0 c)) d) by congruence. cbn. now rewrite app_nil_r.
Qed.

(** Invariant of encoded strings: a sequence of pairs with positive counts. *)
Fixpoint wf_pairs (l : bytes) : Prop :=
  match l with
  | [] => True
  | [_] => False
  | n :: y :: t => 0 < byte_val n /\ wf_pairs t
  end.

Lemma list2_ind (P : bytes -> Prop) :
  P [] -> (forall a, P [a]) -> (forall a b l, P l -> P (a :: b :: l)) -> forall l, P l.
Proof.
  intros H0 H1 H2. fix F 1. intros [|a [|b l]]; [apply H0|apply H1|apply H2, F].
Qed.

Lemma rle_enc_wf l : wf_pairs (rle_enc l).
Proof.
  induction l as [|x r IH]; cbn [rle_enc]; [exact I|].
  destruct (rle_enc r) as [|n [|y t]]; cbn in IH |- *; [split; [reflexivity|exact I]|tauto|].
  destruct IH as [H1 H2].
  destruct (byte_eqb x y && (byte_val n <? 255)) eqn:E.
  - split; [|assumption]. rewrite byte_val_val_byte. pose proof (byte_val_lt n). lia.
  - repeat split; auto.
Qed.

Lemma rrun_pair n y t : 0 < byte_val n ->
  rrun r0 (n :: y :: t) = (fst (rrun r0 t), repeat y (N.to_nat (byte_val n)) ++ snd (rrun r0 t)).
Proof.
  intro H. cbn [rrun rfeed r0 r_status r_hold]. 
  destruct (N.eqb_spec (byte_val n) 0); [lia|].
  change (RST None Running) with r0. now destruct (rrun r0 t).
Qed.

Lemma wf_pairs_run l : wf_pairs l -> fst (rrun r0 l) = r0.
Proof.
  revert l. apply (list2_ind (fun l => wf_pairs l -> fst (rrun r0 l) = r0)).
  - reflexivity.
  - intros a H. destruct H.
  - intros a b l IH [H1 H2]. rewrite rrun_pair by assumption. cbn. now apply IH.
Qed.

Lemma rle_dec_enc l : snd (rrun r0 (rle_enc l)) = l.
Proof.
  induction l as [|x r IH]; cbn [rle_enc]; [reflexivity|].
  pose proof (rle_enc_wf r) as W.
  destruct (rle_enc r) as [|n [|y t]]; [| destruct W |].
  - cbn in IH. subst r. reflexivity.
  - destruct W as [W1 W2]. pose proof (byte_val_lt n) as Hn.
    destruct (byte_eqb x y && (byte_val n <? 255)) eqn:E.
    + apply andb_true_iff in E as [E1 E2]. apply byte_eqb_spec in E1. subst y.
      rewrite rrun_pair in IH by assumption. cbn in IH.
      assert (Hv : byte_val (val_byte (byte_val n + 1)) = byte_val n + 1).
      { rewrite byte_val_val_byte. lia. }
      rewrite rrun_pair by lia. rewrite Hv. cbn [snd fst].
      replace (N.to_nat (byte_val n + 1)) with (S (N.to_nat (byte_val n))) by lia.
      cbn [repeat app]. now rewrite IH.
    + rewrite rrun_pair by (cbn; lia). cbn [snd]. rewrite IH. reflexivity.
Qed.

Definition rle_dinv (q i o : bytes) : Prop :=
  fst (rrun r0 (o ++ q)) = r0 /\ snd (rrun r0 (o ++ q)) = i.

Definition rle_iinv (s : rist) (c p : bytes) : Prop :=
  ri_st s = fst (rrun r0 c) /\ snd (rrun r0 c) = p ++ ri_pend s.

Lemma rle_inf_go_spec inp : forall room s u o s' c p,
  rle_inf_go inp room s = (u, o, s') -> rle_iinv s c p ->
  u <= lenN inp /\ lenN o <= room /\ rle_iinv s' (c ++ takeN u inp) (p ++ o) /\
  (lenN o < room -> r_status (ri_st s') = Running \/ inp = [] -> u = lenN inp) /\
  (lenN o < room -> ri_pend s' = []) /\
  (0 < room -> inp <> [] -> r_status (ri_st s) = Running -> 0 < u \/ 0 < lenN o) /\
  (u = 0 -> lenN (ri_pend s) = lenN o + lenN (ri_pend s')).
Proof.
  induction inp as [|b r IH]; intros room s u o s' c p H [I1 I2]; cbn [rle_inf_go] in H.
  - injection H as <- <- <-. cbn [ri_st ri_pend].
    rewrite lenN_nil, takeN_nil, app_nil_r, lenN_takeN.
    repeat split; cbn [ri_st ri_pend]; try lia; auto.
    + rewrite I2, <- app_assoc, takeN_dropN. reflexivity.
    + intro Hl. apply dropN_all. lia.
    + intros _ Hn; congruence.
    + intros _. rewrite lenN_dropN. lia.
  - destruct ((room - lenN (takeN room (ri_pend s)) =? 0) ||
              match r_status (ri_st s) with Running => false | _ => true end) eqn:E.
    + injection H as <- <- <-. cbn [ri_st ri_pend].
      rewrite lenN_takeN in *. rewrite takeN_0, app_nil_r, lenN_cons.
      repeat split; cbn [ri_st ri_pend]; try lia; auto.
      * rewrite I2, <- app_assoc, takeN_dropN. reflexivity.
      * intros Hl [Hr|Hr]; [|discriminate]. rewrite Hr in E. lia.
      * intro Hl. apply dropN_all. lia.
      * intros Hr _ Hs. rewrite Hs in E. lia.
      * intros _. rewrite lenN_dropN. lia.
    + apply orb_false_iff in E as [E1 E2].
      destruct (r_status (ri_st s)) eqn:Es; try discriminate.
      destruct (rfeed (ri_st s) b) as [st2 run] eqn:Ef.
      destruct (rle_inf_go r (room - lenN (takeN room (ri_pend s))) (RIST st2 run))
        as [[u2 o2] s3] eqn:Eg.
      assert (u = 1 + u2) by congruence.
      assert (o = takeN room (ri_pend s) ++ o2) by congruence.
      assert (s' = s3) by congruence. clear H. subst u o s'.
      rewrite lenN_takeN in *.
      assert (Hp : lenN (ri_pend s) < room) by lia.
      rewrite (takeN_all _ room (ri_pend s)) in * by lia.
      assert (I' : rle_iinv (RIST st2 run) (c ++ [b]) (p ++ ri_pend s)).
      { split; cbn [ri_st ri_pend]; rewrite rrun_app; cbn [rrun]; rewrite <- I1, Ef; cbn.
        - reflexivity.
        - rewrite I2, app_nil_r. reflexivity. }
      destruct (IH _ _ _ _ _ _ _ Eg I') as (B1 & B2 & B3 & B4 & B5 & B6 & B7).
      rewrite lenN_cons, lenN_app.
      assert (Htk : takeN (1 + u2) (b :: r) = b :: takeN u2 r).
      { cbn [takeN]. destruct (N.eqb_spec (1 + u2) 0); [lia|]. do 2 f_equal. lia. }
      rewrite Htk.
      replace (c ++ b :: takeN u2 r) with ((c ++ [b]) ++ takeN u2 r) by (now rewrite <- app_assoc).
      rewrite app_assoc.
      split; [lia|]. split; [lia|]. split; [exact B3|].
      split.
      { intros Hl [Hr|Hr]; [|discriminate].
        rewrite B4; [lia|lia|left; assumption]. }
      split; [intro Hl; apply B5; lia|].
      split; [intros; left; lia|].
      lia.
Qed.

Definition rle_stuck (s : rist) : Prop :=
  r_status (ri_st s) = Broken \/ (r_status (ri_st s) = Finished /\ ri_pend s = []).

Lemma rle_inf_go_stuck inp room s : rle_stuck s ->
  exists o, rle_inf_go inp room s = (0, o, RIST (ri_st s) (dropN room (ri_pend s))).
Proof.
  intro H. destruct inp as [|b r]; cbn [rle_inf_go]; [eexists; reflexivity|].
  assert (E : match r_status (ri_st s) with Running => false | _ => true end = true).
  { destruct H as [->|[-> _]]; reflexivity. }
  rewrite E, orb_true_r. eexists; reflexivity.
Qed.

Definition rle_contract : zlib_contract rle_zlib.
Proof.
  refine {|
    zc_dec := rle_dec; zc_bad := rle_bad; zc_fin := rle_fin;
    zc_dinv := rle_dinv : dst rle_zlib -> bytes -> bytes -> Prop;
    zc_iinv := rle_iinv : ist rle_zlib -> bytes -> bytes -> Prop;
    zc_dpend := (fun _ => 0%nat) : dst rle_zlib -> nat;
    zc_ipend := (fun s => length (ri_pend s)) : ist rle_zlib -> nat;
    zc_stuck := rle_stuck : ist rle_zlib -> Prop
  |}.
  - reflexivity.
  - apply rle_dec_mono.
  - apply rle_bad_mono.
  - apply rle_fin_mono.
  - apply rle_fin_dec.
  - cbn. intros l H. destruct ((-1 <=? l) && (l <=? 9))%Z eqn:E; [lia|reflexivity].
  - cbn. intros l d H. destruct ((-1 <=? l) && (l <=? 9))%Z; [|discriminate].
    injection H as <-. split; reflexivity.
  - cbn. intros d i o inp room r [H1 H2] <-. unfold rle_deflate.
    destruct (N.eqb_spec room 0) as [->|Hr]; cbn.
    + rewrite takeN_0, !app_nil_r. repeat split; auto; lia.
    + rewrite lenN_takeN, (takeN_all _ (lenN inp)) by lia.
      split; [lia|]. split; [lia|].
      split.
      * rewrite <- app_assoc, takeN_dropN, app_assoc, rrun_app. cbn. rewrite H1.
        apply wf_pairs_run, rle_enc_wf.
      * rewrite <- app_assoc, takeN_dropN, app_assoc, rrun_app. cbn. rewrite H1, H2.
        now rewrite rle_dec_enc.
  - cbn. intros d i o inp H Hi. reflexivity.
  - cbn. intros d i o inp room r H Hi Hr <-. unfold rle_deflate.
    destruct (N.eqb_spec room 0); [lia|]. cbn. split; [reflexivity|]. left.
    destruct inp; [congruence|rewrite lenN_cons; lia].
  - cbn. intros d i o [H1 H2]. unfold rle_bad, rle_fin, rle_dec.
    rewrite rrun_app in H1, H2. cbn in H1, H2.
    destruct (r_status (fst (rrun r0 o))) eqn:E.
    + repeat split; auto. eexists. symmetry; exact H2.
    + rewrite rrun_stuck in H1 by congruence. cbn in H1. rewrite H1 in E. discriminate.
    + rewrite rrun_stuck in H1 by congruence. cbn in H1. rewrite H1 in E. discriminate.
  - cbn. intros d i o inp room r [H1 H2] Hi <-. unfold rle_deflate.
    destruct (N.eqb_spec room 0) as [->|Hr]; cbn; [lia|].
    rewrite lenN_takeN. intro Hl. split; [reflexivity|].
    rewrite takeN_all by lia. unfold rle_dec.
    rewrite app_assoc, rrun_app. cbn. rewrite H1, H2. now rewrite rle_dec_enc.
  - cbn. intros s H. injection H as <-. split; reflexivity.
  - cbn. intros s c p f inp room r H <-. unfold rle_inflate.
    destruct (rle_inf_go inp room s) as [[u o] s'] eqn:E. cbn.
    destruct (rle_inf_go_spec _ _ _ _ _ _ _ _ E H) as (B1 & B2 & B3 & _). auto.
  - cbn. intros s c p [H1 H2]. unfold rle_dec. rewrite H2. apply prefix_app.
  - cbn. intros s c p f inp room r H Hf <- Hr Hl. unfold rle_inflate in *.
    destruct (rle_inf_go inp room s) as [[u o] s'] eqn:E. cbn in *.
    destruct (rle_inf_go_spec _ _ _ _ _ _ _ _ E H) as (B1 & B2 & [B3 B3'] & B4 & B5 & _).
    specialize (B5 Hl). rewrite B5 in *.
    destruct (r_status (ri_st s')) eqn:Es; [|discriminate|discriminate].
    rewrite (B4 Hl (or_introl eq_refl)) in *.
    rewrite (takeN_all _ (lenN inp)) in * by lia.
    split; [reflexivity|]. unfold rle_dec, rle_bad. rewrite B3', app_nil_r.
    split; [reflexivity|]. rewrite <- B3, Es. reflexivity.
  - cbn. intros s c p f inp room r H <- Hr. unfold rle_inflate in *.
    destruct (rle_inf_go inp room s) as [[u o] s'] eqn:E. cbn in *.
    destruct (rle_inf_go_spec _ _ _ _ _ _ _ _ E H) as (_ & _ & _ & _ & _ & _ & B7).
    unfold lenN in *.
    destruct (r_status (ri_st s')); [| |discriminate].
    + destruct ((f =? Z_FINISH)%Z || _) eqn:E2; [discriminate|]. lia.
    + destruct (ri_pend s') as [|y t] eqn:Ep; [discriminate|].
      destruct ((f =? Z_FINISH)%Z || _) eqn:E2; [discriminate|]. cbn in *. lia.
  - cbn. intros s c p f inp room r H Hf Hi Hroom Hb Hfin <-. unfold rle_inflate in *.
    destruct (rle_inf_go inp room s) as [[u o] s'] eqn:E. cbn in *.
    destruct (rle_inf_go_spec _ _ _ _ _ _ _ _ E H) as (B1 & B2 & [B3 B3'] & B4 & B5 & B6 & B7).
    assert (Hrun : r_status (ri_st s') = Running).
    { rewrite B3. rewrite <- (takeN_dropN _ u inp), app_assoc in Hb, Hfin.
      pose proof (rle_bad_mono (c ++ takeN u inp) (dropN u inp)) as M1.
      pose proof (rle_fin_mono (c ++ takeN u inp) (dropN u inp)) as M2.
      unfold rle_bad, rle_fin in *.
      destruct (r_status (fst (rrun r0 (c ++ takeN u inp)))); [reflexivity| |].
      - rewrite M2 in Hfin by reflexivity. discriminate.
      - rewrite M1 in Hb by reflexivity. discriminate. }
    assert (Hrun0 : r_status (ri_st s) = Running).
    { destruct H as [H _]. rewrite H.
      pose proof (rle_bad_mono c inp) as M1.
      pose proof (rle_fin_mono c inp) as M2.
      unfold rle_bad, rle_fin in *.
      destruct (r_status (fst (rrun r0 c))); [reflexivity| |].
      - rewrite M2 in Hfin by reflexivity. discriminate.
      - rewrite M1 in Hb by reflexivity. discriminate. }
    rewrite Hrun. specialize (B6 Hroom Hi Hrun0).
    unfold normal_flush, Z_FINISH in *.
    destruct ((f =? 4)%Z || _) eqn:E2; [lia|reflexivity].
  - cbn. intros s c p f inp room r H <- Hr. unfold rle_inflate in *.
    destruct (rle_inf_go inp room s) as [[u o] s'] eqn:E. cbn in *.
    destruct (rle_inf_go_spec _ _ _ _ _ _ _ _ E H) as (B1 & B2 & [B3 B3'] & _).
    unfold rle_fin, rle_dec. rewrite <- B3.
    destruct (r_status (ri_st s')).
    + destruct (_ || _); discriminate.
    + split; [reflexivity|]. destruct (ri_pend s'); [now rewrite B3', app_nil_r|].
      destruct (_ || _); discriminate.
    + discriminate.
  - cbn. intros s c p f inp room r H Hf Hi Hroom <-. unfold rle_inflate.
    destruct (rle_inf_go inp room s) as [[u o] s'] eqn:E. cbn.
    destruct (rle_inf_go_spec _ _ _ _ _ _ _ _ E H) as (B1 & B2 & [B3 B3'] & B4 & B5 & B6 & B7).
    unfold rle_stuck, normal_flush, Z_FINISH in *.
    assert (Hst : r_status (ri_st s) <> Running ->
                  o = takeN room (ri_pend s) /\ u = 0 /\ s' = RIST (ri_st s) (dropN room (ri_pend s))).
    { intro Hs. destruct inp as [|b t]; [congruence|]. cbn [rle_inf_go] in E.
      assert (E' : match r_status (ri_st s) with Running => false | _ => true end = true).
      { destruct (r_status (ri_st s)); [congruence| |]; reflexivity. }
      rewrite E', orb_true_r in E. repeat split; congruence. }
    destruct (r_status (ri_st s')) eqn:Es; intro Hr.
    + exfalso. destruct (r_status (ri_st s)) eqn:Es0.
      * specialize (B6 Hroom Hi eq_refl). destruct ((f =? 4)%Z || _) eqn:E2; [lia|congruence].
      * destruct Hst as (_ & _ & ->); [discriminate|]. cbn in Es. congruence.
      * destruct Hst as (_ & _ & ->); [discriminate|]. cbn in Es. congruence.
    + right. split; [reflexivity|]. destruct (ri_pend s') eqn:Ep; [reflexivity|]. exfalso.
      destruct ((f =? 4)%Z || _) eqn:E2; [|congruence].
      assert (lenN o = 0 /\ u = 0) as [Ho Hu] by lia.
      rewrite Ho in *. assert (0 < room) by lia. specialize (B5 ltac:(lia)). congruence.
    + left; reflexivity.
  - cbn. intros s f inp room r H <-. unfold rle_inflate.
    destruct (rle_inf_go_stuck inp room s H) as [o E]. rewrite E. cbn.
    destruct H as [H|[H Hp]].
    + rewrite H. split; [discriminate|left; exact H].
    + rewrite H, Hp. cbn. split; [discriminate|]. right; auto.
  - cbn. intros s c p inp room r H <-. unfold rle_inflate.
    destruct (rle_inf_go inp room s) as [[u o] s'] eqn:E. cbn.
    destruct (r_status (ri_st s')); cbn; try discriminate.
    destruct (ri_pend s'); discriminate.
Defined.
