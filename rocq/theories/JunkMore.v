(** JunkMore.v: every record of an archive has uninitialised bytes of its own (C04). *)
From Verif Require Import Base Format Zlib RleZlib LLCompress Compress Parser Decompress MidProofs MidFacts ArchiveSpec ArchiveFacts ArchiveDecode ArchiveEntry ArchiveProps ArchiveExamples.

(** The uninitialised bytes of the record with number 1. *)
Definition jx_jk (b : byte) (n : N) : bytes := repeat (if n =? 1 then b else x11) 40.
Lemma jx_junk b : junk_ok (jx_jk b) ax_hj ax_xjk ax_hjunk.
Proof. split; [reflexivity|]. split; [intros; apply lenN_zeros|]. split; reflexivity. Qed.
Lemma ex_c04_each : exists jk jk' cevs cevs' ws ws' wx wx' led led',
  junk_ok jk ax_hj ax_xjk ax_hjunk /\ junk_ok jk' ax_hj ax_xjk ax_hjunk /\ (forall n, n <> 1 -> jk n = jk' n) /\
  compress_dir rle_zlib LE ax_all jk ax_hj ax_xjk ax_hjunk ax_al 3 9 7 false [] (Some ax_tree) tt = Ok (CRet 0, cevs, ws, wx, led) /\
  compress_dir rle_zlib LE ax_all jk' ax_hj ax_xjk ax_hjunk ax_al 3 9 7 false [] (Some ax_tree) tt = Ok (CRet 0, cevs', ws', wx', led') /\
  last_not_full cevs /\ last_not_full cevs' /\
  zc_dec rle_contract (cev_bytes cevs) <> zc_dec rle_contract (cev_bytes cevs').
Proof.
  exists (jx_jk x11), (jx_jk x12). eexists _, _, _, _, _, _, _, _.
  split; [apply jx_junk|]. split; [apply jx_junk|]. split; [intros n H; unfold jx_jk; apply N.eqb_neq in H; now rewrite H|].
  split; [vm_compute; reflexivity|]. split; [vm_compute; reflexivity|].
  split; [apply ax_not_full; vm_compute; reflexivity|]. split; [apply ax_not_full; vm_compute; reflexivity|].
  intro H. vm_compute in H. discriminate H.
Qed.
