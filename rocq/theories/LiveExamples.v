(** LiveExamples.v: cases for the theorems of Properties_Live.v. *)
From Verif Require Import Base Format Zlib LLCompress Compress Decompress RleZlib ArchiveSpec ArchiveFacts ArchiveEntry ArchiveProps HLProps LiveWalk LiveFacts LiveProps LiveEndless.
From Verif Require Import Parser ParserProofs ParserFacts DecompressProofs DecompressFacts MidProofs MidFacts ArchiveDecode DecompressExamples ArchiveExamples.

(** stdio with a buffer of 4096 bytes. *)
Definition lv_fl (evs : list cev) : N := 4096 * (lenN (cev_bytes evs) / 4096).
(** A disk that takes [k] bytes. *)
Definition lv_disk (k : N) (evs : list cev) : N := N.min k (lv_fl evs).

Lemma lv_lags : lags lv_fl 4096.
Proof. intro evs. unfold lv_fl. lia. Qed.

(** ** The codec that stores: nothing gets shorter *)
Lemma sto_call fuel (s : csess sto_zlib) d r s' evs : cs_null s = false -> 0 < cs_bufsz s -> 0 < lenN d -> lenN d < two32 -> compress_call fuel s d = Ok (r, s', evs) ->
  N.min (cs_bufsz s) (2 * lenN d) <= lenN (cev_bytes evs) /\ cs_null s' = false /\ cs_bufsz s' = cs_bufsz s.
Proof.
  intros Hn Hb Hd Hl H. unfold compress_call in H. rewrite u32_small, takeN_all in H by lia.
  destruct d as [|x d]; [change (lenN []) with 0 in Hd; lia|]. destruct fuel as [|fuel]; [discriminate H|]. cbn [compress_loop] in H. rewrite Hn in H.
  cbn [deflate sto_zlib] in H. unfold sto_deflate in H. destruct (N.eqb_spec (cs_bufsz s) 0); [lia|]. cbn [zr_ret zr_used zr_out zr_st] in H.
  change (Z_OK =? Z_STREAM_ERROR)%Z with false in H. rewrite (dropN_all _ (lenN (x :: d)) (x :: d)) in H by apply N.le_refl. cbn iota in H.
  set (q := cs_z s ++ sto_enc (x :: d)) in *.
  destruct fuel; cbn [compress_loop obind] in H; injection H as <- <- <-; cbn [cs_null cs_bufsz]; unfold cev_bytes; cbn [map concat ce_data];
    rewrite app_nil_r, lenN_takeN; unfold q; rewrite lenN_app, lenN_sto_enc; (split; [lia|]; split; reflexivity).
Qed.

Lemma sto_grows : grows sto_contract.
Proof.
  intros fuel s i a chunk b r s' evs _ Hn Hb Hc H. apply sto_call in H; [|exact Hn|rewrite Hb; reflexivity|rewrite Hc; reflexivity|rewrite Hc; reflexivity].
  rewrite Hb, Hc in H. destruct H as [H _]. lia.
Qed.

(** Lower bound of the output. *)
Definition chunks_in (ds : list bytes) : N := N.of_nat (List.length (filter (fun d => lenN d =? DEF_CHUNK_SIZE) ds)).
Lemma chunks_cons d ds : chunks_in (d :: ds) = (if lenN d =? DEF_CHUNK_SIZE then 1 else 0) + chunks_in ds.
Proof. unfold chunks_in. cbn [filter]. destruct (lenN d =? DEF_CHUNK_SIZE); cbn [List.length]; lia. Qed.
Lemma sto_cops fuel : forall ds (s : csess sto_zlib) r s' evs, cs_null s = false -> cs_bufsz s = DEF_CHUNK_SIZE ->
  run_cops fuel s (map CWrite ds) = Ok (r, s', evs) -> chunks_in ds * DEF_CHUNK_SIZE <= lenN (cev_bytes evs).
Proof.
  induction ds as [|d ds IH]; intros s r s' evs Hn Hb H; cbn [map run_cops] in H; [cbn; lia|].
  destruct (compress_call fuel s d) as [[[ret s1] ev1]| |] eqn:E; try discriminate H. cbn [obind] in H.
  destruct (run_cops fuel s1 (map CWrite ds)) as [[[rets s2] ev2]| |] eqn:E2; try discriminate H. cbn [obind] in H. injection H as <- <- <-.
  rewrite cev_bytes_app, lenN_app, chunks_cons. pose proof (compress_loop_same _ _ _ _ _ _ _ E) as [S1 S2].
  apply IH in E2; [|congruence|congruence]. destruct (N.eqb_spec (lenN d) DEF_CHUNK_SIZE) as [Hd|Hd]; [|lia].
  apply sto_call in E; [|exact Hn|rewrite Hb; reflexivity|rewrite Hd; reflexivity|rewrite Hd; reflexivity]. destruct E as [E _]. rewrite Hb, Hd in E. lia.
Qed.

(** The file a of 1 MiB; the archive is written to the file z beside it. *)
Definition lv_chunk : bytes := zeros DEF_CHUNK_SIZE.
Definition lv_data : bytes := concat [lv_chunk; lv_chunk] ++ [].
Definition lv_big : list (bytes * snode) := [([x61], SFile true true 420 (2 * DEF_CHUNK_SIZE) lv_data false)].
Definition lv_home : list (bytes * lnode) := plainly lv_big ++ [([x7a], LOut 420)].

Lemma lv_chunk_len : lenN lv_chunk = DEF_CHUNK_SIZE. Proof. apply lenN_zeros. Qed.
Lemma lv_chunk_ok : Forall (fun c => lenN c = DEF_CHUNK_SIZE) [lv_chunk; lv_chunk].
Proof. repeat apply Forall_cons; [exact lv_chunk_len|exact lv_chunk_len|apply Forall_nil]. Qed.
Lemma lv_read : read_file lv_data false = ([lv_chunk; lv_chunk] ++ [[]], false).
Proof. unfold lv_data. apply read_file_chunks; [exact lv_chunk_ok|reflexivity]. Qed.
Lemma lv_data_len : lenN lv_data = 2 * DEF_CHUNK_SIZE.
Proof. unfold lv_data. rewrite lenN_app. cbn [concat]. rewrite !lenN_app, lv_chunk_len. cbn. reflexivity. Qed.

Opaque lv_data lv_chunk.
Lemma lv_before rf fuel fl level r cevs ws log : live_compress sto_zlib LE ax_all (ax_jk x11) ax_hj ax_hjunk ax_al fl rf fuel level 7 (plainly lv_big) tt = Ok (r, cevs, ws, log) ->
  (-1 <= level <= 9)%Z -> tend_of ws = Done /\ DEF_CHUNK_SIZE + 4096 <= lenN (cev_bytes cevs).
Proof.
  intros H Hv. unfold live_compress in H. change (negb (ax_al 1) || negb (ax_al 2)) with false in H. change (ax_al 3) with true in H. cbn iota in H.
  destruct (create_csession sto_zlib fuel LE true ContentDirectory level 7 false DEF_CHUNK_SIZE ax_hjunk) as [[[cs|] ev0]| |] eqn:Ec; [| |discriminate H|discriminate H]; cbn [obind] in H.
  2:{ pose proof (create_csession_spec _ sto_contract _ _ _ _ _ _ _ _ _ _ Ec eq_refl) as [[E0 _]|[[E0 _]|E0]]; [|discriminate E0|discriminate E0].
      cbn [deflateInit sto_zlib] in E0. destruct ((-1 <=? level) && (level <=? 9))%Z eqn:El; [discriminate E0|lia]. }
  pose proof (create_csession_spec _ sto_contract _ _ _ _ _ _ _ _ _ _ Ec eq_refl) as [_ H0]. destruct (H0 eq_refl) as (_ & N0 & B0 & _). clear Ec H0.
  change (plainly lv_big) with [([x61], LNode (SFile true true 420 (2 * DEF_CHUNK_SIZE) lv_data false))] in H. cbn [live_iter live_node walk_node l_w w_dead w_err w_exit orb] in H.
  change (is_dot [x61]) with false in H. cbn iota in H. cbn [ax_all w_f kind_of] in H. change (0 =? DIRITER_EXIT_ALL)%Z with false in H. change (negb (0 =? 0)%Z) with false in H.
  cbn [negb orb] in H. cbn iota in H. rewrite lv_read in H. cbn iota in H.
  rewrite wdatas in H. change (datas (WFilter [] [x61] KFile 0%Z :: ?l)) with (datas l) in H. rewrite datas_data in H.
  set (ds := file_writes LE [x61] 420 (2 * DEF_CHUNK_SIZE) (ax_jk x11 0) ([lv_chunk; lv_chunk] ++ [[]]) false) in *.
  change (w_n (w_setf tt (WS false false false tt 0))) with 0 in H. fold ds in H.
  unfold emit in H. cbn [l_cs l_evs l_w l_log] in H.
  destruct (run_cops fuel cs (map CWrite ds)) as [[[rets cs2] evs]| |] eqn:E; [|discriminate H|discriminate H]. cbn [obind] in H. cbn [l_set l_w w_dead w_err w_next w_setf l_evs l_log l_cs] in H.
  injection H as <- <- <- <-. split; [reflexivity|]. apply sto_cops in E; [|exact N0|exact B0]. rewrite cev_bytes_app, lenN_app.
  assert (K : 2 <= chunks_in ds).
  { unfold ds, file_writes, name_writes. cbn [app]. rewrite !chunks_cons, lv_chunk_len, N.eqb_refl. lia. }
  unfold DEF_CHUNK_SIZE in *. lia.
Qed.

Lemma lv_fits : Forall (fun x => fits (fst x) (snd x)) lv_big.
Proof. apply Forall_cons; [|apply Forall_nil]. cbn [fst snd]. apply ft_file; reflexivity. Qed.

Lemma lv_endless rf fuel level : (-1 <= level <= 9)%Z -> forall r, live_compress sto_zlib LE ax_all (ax_jk x11) ax_hj ax_hjunk ax_al lv_fl rf fuel level 7 lv_home tt <> Ok r.
Proof.
  intros Hl. unfold lv_home. destruct (ax_junk x11) as (J1 & J2 & _).
  apply (live_endless sto_zlib LE ax_all (ax_jk x11) ax_hj ax_hjunk ax_al lv_fl sto_contract sto_grows 4096 lv_lags); try reflexivity; try assumption.
  - intros f d n k. reflexivity.
  - exact lv_fits.
  - intros r cevs ws log H. exact (lv_before _ _ _ _ _ _ _ _ H Hl).
Qed.

Lemma lv_lfits : Forall (fun x => lfits (fst x) (snd x)) lv_home.
Proof. unfold lv_home, plainly, lv_big. cbn [map app fst snd]. apply Forall_cons; [apply lf_node, ft_file; reflexivity|]. apply Forall_cons; [apply lf_out; reflexivity|apply Forall_nil]. Qed.

Lemma lv_level : (-1 <= 9 <= 9)%Z. Proof. lia. Qed.
Lemma ex_c114 : lenN ax_hjunk = 128 /\ Forall (fun x => lfits (fst x) (snd x)) lv_home /\ (forall evs, lv_disk 3000000 evs <= 3000000) /\
  3000000 < N.of_nat 6 * DEF_CHUNK_SIZE /\ 3000000 + 8 < two64.
Proof.
  split; [reflexivity|]. split; [exact lv_lfits|]. split; [intro evs; unfold lv_disk; lia|]. split; reflexivity.
Qed.

Lemma ex_c114_endless : grows sto_contract /\ lags lv_fl 4096 /\ Forall (fun x => fits (fst x) (snd x)) lv_big /\
  (forall rf fuel r cevs ws log, live_compress sto_zlib LE ax_all (ax_jk x11) ax_hj ax_hjunk ax_al lv_fl rf fuel 9 7 (plainly lv_big) tt = Ok (r, cevs, ws, log) ->
    tend_of ws = Done /\ DEF_CHUNK_SIZE + 4096 <= lenN (cev_bytes cevs)) /\
  exists rf fuel r, live_compress sto_zlib LE ax_all (ax_jk x11) ax_hj ax_hjunk ax_al lv_fl rf fuel 9 7 (plainly lv_big) tt = Ok r.
Proof.
  split; [exact sto_grows|]. split; [exact lv_lags|]. split; [exact lv_fits|].
  split; [intros rf fuel r cevs ws log H; exact (lv_before _ _ _ _ _ _ _ _ H lv_level)|].
  destruct (ax_junk x11) as (J1 & J2 & _).
  assert (Hf : Forall (fun x => lfits (fst x) (snd x)) (plainly lv_big)) by (apply Forall_cons; [apply lf_node, ft_file; reflexivity|apply Forall_nil]).
  destruct (live_returns sto_zlib LE ax_all (ax_jk x11) ax_hj ax_hjunk ax_al (fun _ => 0) sto_contract 0 eq_refl (fun _ => N.le_refl 0) 1%nat eq_refl J1 J2 9%Z 7 (plainly lv_big) tt eq_refl Hf) as (fuel & r & E).
  exists 1%nat, fuel, r. unfold live_compress in *. change (plainly lv_big) with [([x61], LNode (SFile true true 420 (2 * DEF_CHUNK_SIZE) lv_data false))] in *.
  cbn [live_iter live_node] in *. exact E.
Qed.

(** ** The archive is written to the file z of the folder with the files 0, z and b *)
Definition lv_desk (data : bytes) : list (bytes * lnode) :=
  [([x30], LNode (SFile true true 420 (lenN data) data false)); ([x7a], LOut 420); ([x62], LNode (SFile true true 420 1 [x34] false))].
(** Every call of the callback writes to the file at once. *)
Definition lv_now (evs : list cev) : N := lenN (cev_bytes evs).

Definition lv_named (n : bytes) (o : obs) : bool := match o with OEntry _ _ x => bytes_eqb x (padded n) | _ => false end.
Definition lv_lost (x : outcome (cres * list cev * @wst unit * list (N * bytes))) (dec : bytes -> outcome (list Z * dsess rle_zlib * list event)) : bool :=
  match x with
  | Ok (CRet r, cevs, _, log) =>
    match dec (cev_bytes cevs) with
    | Ok (_, s, evs) => (r =? 0)%Z && forallb (fun c => lenN (ce_data c) <? ce_room c) cevs &&
        match log with [(a, x)] => (a =? 44) && (lenN x =? 72) | _ => false end && (0 <? z_aout (d_zs s)) &&
        existsb (lv_named [x7a]) (flat evs) && negb (existsb (lv_named [x62]) (flat evs))
    | _ => false
    end
  | _ => false
  end.
Lemma lv_lost_ok x dec : lv_lost x dec = true -> exists cevs ws log rets s evs,
  x = Ok (CRet 0, cevs, ws, log) /\ last_not_full cevs /\ map (fun x => (fst x, lenN (snd x))) log = [(44, 72)] /\
  dec (cev_bytes cevs) = Ok (rets, s, evs) /\ room_left s /\
  (exists ft it, In (OEntry ft it (padded [x7a])) (flat evs)) /\ ~ exists ft it, In (OEntry ft it (padded [x62])) (flat evs).
Proof.
  intro H. unfold lv_lost in H. destruct x as [[[[r cevs] ws] log]| |]; try discriminate H.
  destruct r as [r|]; [|discriminate H]. destruct (dec (cev_bytes cevs)) as [[[rets s] evs]| |] eqn:Er; try discriminate H.
  apply andb_true_iff in H as [H H6]. apply andb_true_iff in H as [H H5]. apply andb_true_iff in H as [H H4]. apply andb_true_iff in H as [H H3].
  apply andb_true_iff in H as [H1 H2]. apply Z.eqb_eq in H1. subst r. exists cevs, ws, log, rets, s, evs.
  split; [reflexivity|]. split; [now apply ax_not_full|].
  split. { destruct log as [|[a x] [|]]; try discriminate H3. cbn [map fst snd]. apply andb_true_iff in H3 as [A B]. apply N.eqb_eq in A, B. now rewrite A, B. }
  split; [exact Er|]. split; [now apply N.ltb_lt|]. split.
  - apply existsb_exists in H5 as (o & Io & Ho). destruct o; try discriminate Ho. cbn [lv_named] in Ho. apply bytes_eqb_spec in Ho. subst. eexists _, _. exact Io.
  - intros (ft & it & Hi). apply negb_true_iff in H6. assert (E : existsb (lv_named [x62]) (flat evs) = true).
    { apply existsb_exists. eexists. split; [exact Hi|]. now apply bytes_eqb_spec. }
    rewrite E in H6. discriminate H6.
Qed.
Lemma lv_lost_true : lv_lost (live_compress rle_zlib LE ax_all (ax_jk x11) ax_hj ax_hjunk ax_al lv_now 3 3 9 7 (lv_desk [x41;x42;x43]) tt)
  (fun c => run_dops BE ex_alloc 4000 ex_sess (ax_ops 50 c)) = true. Proof. vm_compute. reflexivity. Qed.

(** z is 44 bytes long when it is opened and 72 when it is read: b is lost. *)
Lemma ex_c115_lost : exists cevs ws log rets s evs,
  live_compress rle_zlib LE ax_all (ax_jk x11) ax_hj ax_hjunk ax_al lv_now 3 3 9 7 (lv_desk [x41;x42;x43]) tt = Ok (CRet 0, cevs, ws, log) /\
  last_not_full cevs /\ map (fun x => (fst x, lenN (snd x))) log = [(44, 72)] /\
  run_dops BE ex_alloc 4000 ex_sess (ax_ops 50 (cev_bytes cevs)) = Ok (rets, s, evs) /\ room_left s /\
  (exists ft it, In (OEntry ft it (padded [x7a])) (flat evs)) /\ ~ exists ft it, In (OEntry ft it (padded [x62])) (flat evs).
Proof. exact (lv_lost_ok _ _ lv_lost_true). Qed.

Fixpoint lv_alt (k : nat) : bytes := match k with O => [] | S k => x41 :: x42 :: lv_alt k end.
Lemma ex_c115 : exists cevs ws log,
  live_compress rle_zlib LE ax_all (ax_jk x11) ax_hj ax_hjunk ax_al lv_fl 3 3 9 7 (lv_desk (lv_alt 1100)) tt = Ok (CRet 0, cevs, ws, log) /\
  junk_ok (ax_jk x11) ax_hj ax_xjk ax_hjunk /\ accepts ax_all /\ created rle_zlib ax_al 9 /\
  Forall (fun x => lfits (fst x) (snd x)) (lv_desk (lv_alt 1100)) /\ fair log /\ map fst log = [4096] /\
  last_not_full cevs /\ lenN (cev_bytes cevs) + 8 < two64.
Proof.
  eexists _, _, _. split; [vm_compute; reflexivity|]. split; [apply ax_junk|]. split; [intros f d n k; reflexivity|].
  split; [repeat split; discriminate|].
  split; [unfold lv_desk; repeat (first [apply Forall_nil | apply Forall_cons; [first [apply lf_out; reflexivity | apply lf_node, ft_file; reflexivity]|]])|].
  split; [repeat (first [apply Forall_nil | apply Forall_cons; [reflexivity|]])|]. split; [reflexivity|].
  split; [apply ax_not_full; vm_compute; reflexivity|vm_compute; reflexivity].
Qed.
