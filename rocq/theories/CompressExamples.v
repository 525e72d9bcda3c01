(** CompressExamples.v: concrete runs with the run length codec. *)
From Verif Require Import Base Format Zlib RleZlib LLCompress CompressFacts.

Definition ex_ops : list cop :=
  [CWrite [x61;x61;x61;x62]; CSetBuffer false 5; CSetCallback 8; CWrite (repeat x63 40)].

Lemma last_not_full_iff evs : last_not_full evs <->
  match rev evs with [] => True | e :: _ => lenN (ce_data e) < ce_room e end.
Proof.
  unfold last_not_full. split.
  - intro H. destruct (rev evs) as [|e r] eqn:E; [exact I|].
    apply (H (rev r) e). rewrite <- (rev_involutive evs), E. reflexivity.
  - intros H evs' e ->. rewrite rev_app_distr in H. exact H.
Qed.

Lemma ex_ops_ok : Forall cop_ok ex_ops.
Proof. repeat constructor. Qed.

Lemma ex_c05 : exists s0 ev0 s evs,
  create_csession rle_zlib 9 BE true 2 6 7 false 300 (zeros 128) = Ok (Some s0, ev0) /\
  Forall cop_ok ex_ops /\ run_cops 9 s0 ex_ops = Ok ([0%Z; 0%Z], s, evs) /\ last_not_full (ev0 ++ evs).
Proof.
  eexists _, _, _, _. split; [vm_compute; reflexivity|]. split; [exact ex_ops_ok|].
  split; [vm_compute; reflexivity|]. apply last_not_full_iff. vm_compute. reflexivity.
Qed.

Lemma ex_c07 : exists s0 ev0 s evs,
  create_csession (log_zlib rle_zlib) 9 BE true 2 6 7 false 300 (zeros 128) = Ok (Some s0, ev0) /\
  Forall cop_ok ex_ops /\ run_cops 9 s0 ex_ops = Ok ([0%Z; 0%Z], s, evs) /\ length evs = 2%nat.
Proof.
  eexists _, _, _, _. split; [vm_compute; reflexivity|]. split; [exact ex_ops_ok|].
  split; [vm_compute; reflexivity|]. vm_compute. reflexivity.
Qed.

Lemma ex_c06 : exists z (C : zlib_contract z) fuel e typ level clbk size junk s0 ev0 ops rets s evs,
  lenN junk = 128 /\ 0 < u32 size /\
  create_csession z fuel e true typ level clbk false size junk = Ok (Some s0, ev0) /\
  Forall cop_ok ops /\ run_cops fuel s0 ops = Ok (rets, s, evs) /\
  Forall (fun r => r = 0%Z) rets /\
  zc_dec C (cev_bytes (ev0 ++ evs)) <> header_image e typ junk ++ ops_bytes ops.
Proof.
  exists rle_zlib, rle_contract, 9%nat, LE, 2, 6%Z, 7, 64, (zeros 128).
  eexists _, _, [CSetBuffer false 4; CWrite [x61;x62;x63]], _, _, _.
  split; [reflexivity|]. split; [reflexivity|].
  split; [vm_compute; reflexivity|]. split; [repeat constructor|].
  split; [vm_compute; reflexivity|]. split; [repeat constructor|].
  vm_compute. discriminate.
Qed.

Lemma ex_c08 : zc_dinv rle_contract (cs_z (CS ([] : dst rle_zlib) false 1 0)) [] [] /\
  exists s', compress_call 5 (CS ([] : dst rle_zlib) false 1 0) [x61;x61;x62] = Ok (0%Z, s', [CEV 0 1 [x02]]).
Proof. split; [split; reflexivity|]. eexists. vm_compute. reflexivity. Qed.

Lemma ex_c09 : exists z (C : zlib_contract z) s i o data size,
  zc_dinv C (cs_z s) i o /\ data <> [] /\ size = 2 ^ 32 /\
  forall fuel, compress_call fuel (set_cbuffer s false size) data = NoFuel.
Proof.
  exists rle_zlib, rle_contract, (CS ([] : dst rle_zlib) false 1 0), [], [], [x61], (2 ^ 32).
  split; [split; reflexivity|]. split; [discriminate|]. split; [reflexivity|].
  intro fuel. apply (compress_call_zero_buffer rle_zlib rle_contract) with (i := []) (o := []).
  - split; reflexivity.
  - reflexivity.
  - discriminate.
  - reflexivity.
  - reflexivity.
Qed.

Lemma ex_c10 : exists z (C : zlib_contract z) s data fuel s' evs,
  zc_dinv C (cs_z s) [] [] /\ cs_null s = false /\ 0 < cs_bufsz s /\ lenN data = 2 ^ 32 /\
  compress_call fuel s data = Ok (0%Z, s', evs) /\ s' = s /\ evs = [].
Proof.
  exists rle_zlib, rle_contract, (CS ([] : dst rle_zlib) false 1 0), (zeros two32), O.
  eexists _, _.
  split; [split; reflexivity|]. split; [reflexivity|]. split; [reflexivity|].
  split; [apply lenN_zeros|]. split; [apply compress_call_4g; apply lenN_zeros|]. auto.
Qed.

Lemma session_lossless_flushed z (C : zlib_contract z) fuel e typ level clbk size junk s0 ev0 ops rets s evs :
  lenN junk = 128 -> 0 < u32 size ->
  create_csession z fuel e true typ level clbk false size junk = Ok (Some s0, ev0) ->
  Forall cop_ok ops -> run_cops fuel s0 ops = Ok (rets, s, evs) ->
  last_not_full (ev0 ++ evs) ->
  zc_dec C (cev_bytes (ev0 ++ evs)) = header_image e typ junk ++ ops_bytes ops.
Proof. intros. eapply session_lossless; eauto. Qed.

Lemma creation_succeeds_header z (C : zlib_contract z) e typ level clbk size junk :
  lenN junk = 128 -> typ < 2 ^ 32 -> 0 < u32 size -> deflateInit z level <> None ->
  exists fuel s evs h, create_csession z fuel e true typ level clbk false size junk = Ok (Some s, evs) /\
    zc_dinv C (cs_z s) h (cev_bytes evs) /\ cs_null s = false /\ cs_bufsz s = u32 size /\
    lenN h = 128 /\ (forall e', get e' 0 4 h = 0 /\ get e' 4 4 h = typ).
Proof.
  intros Hj Ht Hs Hd.
  destruct (creation_succeeds _ C e typ level clbk size junk Hj Hs Hd) as (f & s & evs & H1 & H2 & H3 & H4).
  exists f, s, evs, (header_image e typ junk). repeat split; auto.
  - now apply lenN_header_image.
  - now apply header_round_trip.
  - now apply header_round_trip.
Qed.
