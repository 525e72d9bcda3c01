(** FlushFacts.v: decompress calls with Z_FINISH (C90). *)
From Coq Require Import Lia.
From Verif Require Import Base Format Zlib RleZlib Parser ParserProofs ParserFacts Decompress DecompressProofs DecompressFacts
  MidProofs MidFacts DecompressExamples.

Section Flush.
Context (z : zlib) (C : zlib_contract z) (e : endian) (alloc : N -> N -> bool).

Lemma finish_stops fuel d s ret s' evs : ll_safe z C s -> d <> [] -> lenN d < two32 ->
  ll_decompress e alloc fuel Z_FINISH d s = Ok (ret, s', evs) -> ret <> 0%Z /\ evs = [].
Proof.
  intros (Hc & (id & Hid) & (c & p & I)) Nd Ld H. unfold ll_decompress in H. destruct fuel as [|fuel]; [discriminate H|].
  cbn [run] in H.
  assert (Hl : lenN (z_inp (d_zs (feed d s))) = lenN d).
  { cbn. unfold u32. rewrite N.mod_small by exact Ld. now rewrite takeN_all by lia. }
  assert (Hn : lenN d <> 0) by (intro E; apply Nd, lenN_0, E).
  rewrite Hl, (proj2 (N.eqb_neq _ 0) Hn) in H. cbn [orb] in H. unfold do_inflate in H.
  destruct (mem (z_sel (d_zs (setup (feed d s)))) (setup (feed d s))) as [m|].
  - set (r := inflate z _ Z_FINISH _ _) in H.
    assert (Hr : zr_ret r <> Z_OK) by (apply (zc_ifinish _ C _ c p _ _ _ I eq_refl)).
    destruct (checked_write _ (zr_out r) m) as [m'| |]; cbn [obind] in H; try discriminate H.
    rewrite (proj2 (Z.eqb_neq _ _) Hr) in H. cbn [negb] in H. injection H as <- _ <-. split; [exact Hr|reflexivity].
  - cbn [obind] in H. change (Z_STREAM_ERROR =? Z_OK)%Z with false in H. cbn [negb] in H. injection H as <- _ <-. split; [discriminate|reflexivity].
Qed.

Lemma ll_safe_after fuel : forall ops s rets s' evs, ll_safe z C s -> Forall llop_buf_ok ops ->
  run_llops e alloc fuel s ops = Ok (rets, s', evs) -> ll_safe z C s'.
Proof.
  induction ops as [|op ops IH]; intros s rets s' evs Hs Ho H; cbn [run_llops] in H.
  - injection H as _ <- _. exact Hs.
  - inversion Ho as [|? ? O1 O2]; subst. destruct op as [f d|b n|i].
    + destruct (ll_decompress e alloc fuel f d s) as [[[r1 s1] ev1]| |] eqn:E1; try discriminate H. cbn [obind] in H.
      destruct (run_llops e alloc fuel s1 ops) as [[[rs s2] ev2]| |] eqn:E2; try discriminate H. cbn [obind] in H. injection H as _ <- _.
      destruct (ll_call_returns z C e alloc f d s Hs) as (f1 & r & s1' & ev & R & Hs1).
      specialize (R (Nat.max f1 fuel) (Nat.le_max_l _ _)). unfold ll_decompress in E1, R.
      rewrite (run_more z e alloc _ _ _ _ _ _ (Nat.le_max_r f1 fuel) E1) in R. injection R as _ -> _.
      exact (IH _ _ _ _ Hs1 O2 E2).
    + refine (IH _ _ _ _ _ O2 H). destruct Hs as ((H1 & H2 & H3) & H4 & H5).
      split; [|split; [exact H4|exact H5]]. split; [exact H1|]. split; [reflexivity|]. cbn.
      destruct O1 as (m & -> & A & B). exists m. split; [reflexivity|]. unfold u32, two32 in *. lia.
    + refine (IH _ _ _ _ _ O2 H). destruct Hs as ((H1 & H2 & H3) & H4 & H5).
      split; [|split; [exists i; reflexivity|exact H5]]. split; [discriminate|]. split; assumption.
Qed.

Lemma run_llops_app fuel : forall ops s rets s' evs ops2, run_llops e alloc fuel s (ops ++ ops2) = Ok (rets, s', evs) ->
  exists rets1 s1 ev1 rets2 ev2, run_llops e alloc fuel s ops = Ok (rets1, s1, ev1) /\
    run_llops (z:=z) e alloc fuel s1 ops2 = Ok (rets2, s', ev2) /\ rets = rets1 ++ rets2 /\ evs = ev1 ++ ev2.
Proof.
  induction ops as [|op ops IH]; intros s rets s' evs ops2 H; cbn [app run_llops] in *.
  - exists [], s, [], rets, evs. auto.
  - destruct op as [f d|b n|i].
    + destruct (ll_decompress e alloc fuel f d s) as [[[r1 s1] ev1]| |]; try discriminate H. cbn [obind] in *.
      destruct (run_llops e alloc fuel s1 (ops ++ ops2)) as [[[rs s2] ev2]| |] eqn:E2; try discriminate H. cbn [obind] in H. injection H as <- <- <-.
      destruct (IH _ _ _ _ _ E2) as (ra & sa & ea & rb & eb & Ra & Rb & -> & ->). rewrite Ra. cbn [obind].
      exists (r1 :: ra), sa, (ev1 ++ ea), rb, eb. rewrite <- app_assoc. auto.
    + exact (IH _ _ _ _ _ H).
    + exact (IH _ _ _ _ _ H).
Qed.

Lemma finish_never fuel ok id buf size hjunk pjunk s0 ops d rets s evs : usable buf size ->
  ll_create z ok id buf size hjunk pjunk = Some s0 -> Forall llop_buf_ok ops -> d <> [] -> lenN d < two32 ->
  run_llops e alloc fuel s0 (ops ++ [LFeed Z_FINISH d]) = Ok (rets, s, evs) ->
  exists rets1 r s1, rets = rets1 ++ [r] /\ r <> 0%Z /\ run_llops e alloc fuel s0 ops = Ok (rets1, s1, evs).
Proof.
  intros Hu Hc Ho Nd Ld H. destruct (ll_create_inv z C alloc _ _ _ _ _ _ _ Hc Hu) as ((B & U & Hid & _ & I & _) & E & _).
  assert (S0 : ll_safe z C s0). { split; [|split; assumption]. split; [rewrite E; discriminate|]. split; assumption. }
  destruct (run_llops_app _ _ _ _ _ _ _ H) as (rets1 & s1 & ev1 & rets2 & ev2 & R1 & R2 & -> & ->).
  pose proof (ll_safe_after _ _ _ _ _ _ S0 Ho R1) as S1. cbn [run_llops] in R2.
  destruct (ll_decompress e alloc fuel Z_FINISH d s1) as [[[r s2] ev]| |] eqn:E1; try discriminate R2. cbn [obind] in R2.
  injection R2 as <- <- <-. destruct (finish_stops _ _ _ _ _ _ S1 Nd Ld E1) as (Nr & ->).
  exists rets1, r, s1. split; [reflexivity|]. split; [exact Nr|]. cbn [app]. rewrite app_nil_r. exact R1.
Qed.
End Flush.

(** The same stream with Z_NO_FLUSH and with Z_FINISH. *)
Lemma ex_c90 : exists s0 s1 s2, usable (Some (zeros 100)) 100 /\
  ll_create rle_zlib true 7 (Some (zeros 100)) 100 [] ex_pj = Some s0 /\
  zc_bad rle_contract [x01;x61] = false /\ zc_dec rle_contract [x01;x61] = [x61] /\
  run_llops LE ex_alloc 9 s0 [LFeed Z_NO_FLUSH [x01;x61]] = Ok ([0%Z], s1, [EvRaw 7 [x61]]) /\
  run_llops LE ex_alloc 9 s0 [LFeed Z_FINISH [x01;x61]] = Ok ([Z_BUF_ERROR], s2, []).
Proof.
  do 3 eexists. split; [apply usable_zeros; split; reflexivity|]. split; [reflexivity|]. split; [reflexivity|]. split; [reflexivity|].
  split; vm_compute; reflexivity.
Qed.

(** Once the header has been read the flush value of ZlibWtDecompressBufferToCallback is not used. *)
Lemma flush_unused z e alloc fuel f f' d (s : dsess z) : d_inited s = true ->
  decompress e alloc fuel f d s = decompress e alloc fuel f' d s.
Proof. intro H. unfold decompress. now rewrite H. Qed.
