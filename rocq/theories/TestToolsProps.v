(** TestToolsProps.v: the test programs as wholes. *)
From Coq Require Import Lia Strings.String.
From Verif Require Import Base Format Zlib LLCompress CompressFacts Compress Parser ParserProofs ParserFacts Decompress DecompressProofs MidProofs MidFacts
  ArchiveSpec ArchiveFacts ArchiveDecode ArchiveEntry ArchiveProps FS FSFacts HL HLSpec HLFacts HLDrive HLProps HLMore ArgParser Tools ToolsSpec TestTools TestToolsFacts.
Local Notation b := list_byte_of_string.

Lemma tt_accepts : accepts tt_filter.
Proof. intros f d n k. reflexivity. Qed.

(** ** Options that compress *)
Section Compressing.
Context (z : zlib) (C : zlib_contract z) (e : endian) (jk : N -> bytes) (hj : N -> N -> bytes) (xjk : N -> N -> bytes)
  (hjunk : bytes) (al : N -> bool) (opn : bytes -> bool) (rdf : bytes -> option (bytes * bool))
  (ls : bytes -> option (list (bytes * snode))) (room : N).

Lemma compress_file_zero fuel inp out o r : lenN hjunk = 128 ->
  tt_compress_file z e hjunk al opn rdf room fuel inp out o = Ok r -> tr_ret r = CRet 0 ->
  opn out = true /\ tr_os r = o /\ exists data cevs, rdf inp = Some (data, false) /\ tr_file r = Some (out, takeN room (cev_bytes cevs)) /\
    (last_not_full cevs -> lenN (cev_bytes cevs) <= room -> archives_file z data (takeN room (cev_bytes cevs))).
Proof.
  intros J H R. unfold tt_compress_file in H. destruct (rdf inp) as [[data rderr]|]; [|injection H as <-; discriminate].
  destruct (opn out); cbn [negb] in H; [|injection H as <-; discriminate].
  destruct (compress_file _ _ _ _ _ _ _ _ _) as [[[r0 cevs] led]| |] eqn:E; try discriminate H. cbn [obind] in H.
  injection H as <-. cbn [tr_ret] in R. injection R as ->. split; [reflexivity|]. split; [reflexivity|].
  destruct (compress_file_spec z C e hjunk al _ _ _ _ _ _ _ _ J E) as [(Q & _)|(Q & _)]; [discriminate|].
  destruct rderr; [discriminate|]. exists data, cevs. split; [reflexivity|]. split; [reflexivity|].
  intros L Hr. exists e, hjunk, al, fuel, Z_BEST_COMPRESSION, 1, cevs, led. rewrite takeN_all by exact Hr. auto.
Qed.

Lemma compress_dir_zero fuel nested xs inp out o r : junk_ok jk hj xjk hjunk -> tree_fits (ls inp) -> Forall xb_ok xs ->
  tt_compress_dir z e jk hj xjk hjunk al opn ls room fuel nested xs inp out o = Ok r -> tr_ret r = CRet 0 ->
  opn out = true /\ tr_os r = o /\ exists cevs ws wx led,
    compress_dir z e tt_filter jk hj xjk hjunk al fuel Z_BEST_COMPRESSION 1 nested xs (ls inp) tt = Ok (CRet 0, cevs, ws, wx, led) /\
    created z al Z_BEST_COMPRESSION /\ tr_file r = Some (out, takeN room (cev_bytes cevs)).
Proof.
  intros J Ft Fx H R. unfold tt_compress_dir in H. destruct (opn out); cbn [negb] in H; [|injection H as <-; discriminate].
  destruct (compress_dir _ _ _ _ _ _ _ _ _ _ _ _ _ _ _) as [[[[[r0 cevs] ws] wx] led]| |] eqn:E; try discriminate H. cbn [obind] in H.
  injection H as <-. cbn [tr_ret] in R. subst r0. split; [reflexivity|]. split; [reflexivity|].
  exists cevs, ws, wx, led. split; [reflexivity|]. split; [|reflexivity].
  destruct (compress_dir_spec z C e tt_filter jk hj xjk hjunk al _ _ _ _ _ _ _ _ _ _ _ _ J Ft Fx E) as [(_ & Q & _)|(Q & _)]; [discriminate|exact Q].
Qed.

Lemma compress_dir_archives fuel xs inp out o r es : junk_ok jk hj xjk hjunk -> tree_fits (Some es) -> Forall xb_ok xs -> ls inp = Some es ->
  tt_compress_dir z e jk hj xjk hjunk al opn ls room fuel false xs inp out o = Ok r -> tr_ret r = CRet 0 ->
  opn out = true /\ tr_os r = o /\ exists cevs, tr_file r = Some (out, takeN room (cev_bytes cevs)) /\
    (last_not_full cevs -> lenN (cev_bytes cevs) <= room -> archives_with z xs es (takeN room (cev_bytes cevs))).
Proof.
  intros J Ft Fx El H R. rewrite <- El in Ft. destruct (compress_dir_zero _ _ _ _ _ _ _ J Ft Fx H R) as (Ho & Eo & cevs & ws & wx & led & E & Cr & F).
  split; [exact Ho|]. split; [exact Eo|]. exists cevs. split; [exact F|]. intros L Hr. rewrite El in *.
  exists unit, tt_filter, e, jk, hj, xjk, hjunk, al, fuel, Z_BEST_COMPRESSION, 1, tt, cevs, ws, wx, led.
  rewrite takeN_all by exact Hr. split; [exact J|]. split; [exact Ft|]. split; [exact tt_accepts|]. split; [exact Fx|]. split; [exact E|]. auto.
Qed.
End Compressing.

Lemma archives_with_none z es F : archives_with z [] es F -> archives_dir z es F.
Proof.
  intros (St & filt & e & jk & hj & xjk & hjunk & al & fuel & level & clbk & f0 & cevs & ws & wx & led & J & Ft & Ha & _ & H & Cr & L & E).
  exists St, filt, e, jk, hj, xjk, hjunk, al, fuel, level, clbk, f0, cevs, ws, wx, led. auto 10.
Qed.

(** The extra buffers of option d fit whatever the uninitialised mode is. *)
Lemma tt_root_ok xm : xm < two32 -> Forall xb_ok (tt_root_bufs xm).
Proof. intro H. constructor; [|constructor]. split; [reflexivity|]. split; [exact H|reflexivity]. Qed.
Lemma tt_nested_ok xm : xm < two32 -> Forall xb_ok (tt_nested_bufs xm).
Proof. intro H. repeat apply Forall_cons; try apply Forall_nil; (split; [reflexivity|]; split; [exact H|reflexivity]). Qed.

(** ** The programs *)

(** The archives the options write.  [es]: the listing of the input folder; [data]: the contents of the input file. *)
Definition written (z : zlib) (f : byte) (xm : N) (rd : option (bytes * bool)) (es : list (bytes * snode)) (F : bytes) : Prop :=
  match f with
  | x61 => exists data, rd = Some (data, false) /\ archives_file z data F
  | x63 => archives_with z [] es F
  | x64 => archives_with z (tt_root_bufs xm) es F
  | _ => True
  end.

Lemma slashed_inj : forall ds f ds' f', Forall no_slash ds -> no_slash f -> Forall no_slash ds' -> no_slash f' ->
  slashed ds f = slashed ds' f' -> ds = ds' /\ f = f'.
Proof.
  induction ds as [|d ds IH]; intros f [|d' ds'] f' H1 H2 H3 H4 E.
  - split; [reflexivity|exact E].
  - exfalso. apply H2. change f with (slashed [] f). rewrite E, slashed_cons. apply in_or_app. right. now left.
  - exfalso. apply H4. change f' with (slashed [] f'). rewrite <- E, slashed_cons. apply in_or_app. right. now left.
  - rewrite !slashed_cons in E. apply Forall_cons_iff in H1, H3. destruct H1 as [D1 H1], H3 as [D3 H3].
    assert (S : forall (x y u v : bytes), ~ In x2f x -> ~ In x2f y -> x ++ x2f :: u = y ++ x2f :: v -> x = y /\ u = v).
    { clear. induction x as [|a x IH]; intros [|c y] u v Hx Hy Q; cbn in Q.
      - injection Q as Q. auto.
      - injection Q as Q1 Q2. exfalso. apply Hy. left. congruence.
      - injection Q as Q1 Q2. exfalso. apply Hx. left. congruence.
      - injection Q as Q1 Q2. destruct (IH y u v) as [-> ->]; auto; [intro; apply Hx; now right|intro; apply Hy; now right|].
        split; [congruence|reflexivity]. }
    destruct (S d d' _ _ D1 D3 E) as [-> E2]. destruct (IH f ds' f' H1 H2 H3 H4 E2) as [-> ->]. auto.
Qed.

(** The records of the buffers of option e: three files below directories with mode 0. *)
Definition e_data : bytes := b "mconfig.bconf" ++ [x00].
Definition e_records : list arec :=
  [ADir (b "a") 0; ADir (b "b") 0; AFile (b "__not_updateabe_files") 420 14 e_data; AEnd; AEnd;
   ADir (b "plugins") 0; ADir (b "a") 0; ADir (b "b") 0; AFile (b "__not_updateabe_files2") 420 14 e_data; AEnd; AEnd; AEnd;
   ADir (b "plugins") 0; ADir (b "a") 0; ADir (b "b") 0; ADir (b "c") 0; AFile (b "__not_updateabe_files3") 420 14 e_data;
   AEnd; AEnd; AEnd; AEnd].
Lemma e_split x ds f rs : xb_path x = slashed ds f -> forallb (fun d => negb (existsb (byte_eqb x2f) d)) (f :: ds) = true ->
  (exists d g, xb_path x = slashed d g /\ Forall no_slash d /\ no_slash g /\
     rs = map (fun d => ADir d 0) d ++ [AFile g 420 (lenN (xb_data x)) (xb_data x)] ++ repeat AEnd (length d)) ->
  rs = map (fun d => ADir d 0) ds ++ [AFile f 420 (lenN (xb_data x)) (xb_data x)] ++ repeat AEnd (length ds).
Proof.
  intros E N (d & g & E2 & D1 & D2 & ->). rewrite E in E2.
  assert (S : forall n, In n (f :: ds) -> no_slash n).
  { intros n Hn Q. rewrite forallb_forall in N. specialize (N n Hn). apply Bool.negb_true_iff in N.
    assert (existsb (byte_eqb x2f) n = true) by (apply existsb_exists; exists x2f; split; [exact Q|reflexivity]). congruence. }
  destruct (slashed_inj ds f d g) as [-> ->]; auto; [apply Forall_forall; intros; apply S; now right|apply S; now left].
Qed.

Section Programs.
Context (z : zlib) (C : zlib_contract z) (e : endian) (jk : N -> bytes) (hj : N -> N -> bytes) (xjk : N -> N -> bytes)
  (hjunk : bytes) (al : N -> bool) (opn : bytes -> bool) (rdf : bytes -> option (bytes * bool))
  (ls : bytes -> option (list (bytes * snode))) (room xm : N) (hal : N -> bool) (stk : N) (alloc : N -> N -> bool).
Notation hlt := (hlt_main z e jk hj xjk hjunk al opn rdf ls room xm hal stk alloc).
Notation llt := (llt_main z e jk hj xjk hjunk al opn rdf ls room hal alloc).

(** Status 0 of a compressing option. *)
Lemma hlt_writes dfuel obuf pjunk fuel argv o r f inp out es : junk_ok jk hj xjk hjunk -> xm < two32 ->
  tt_args argv = Some (f, inp, out) -> f <> x62 -> (f <> x61 -> tree_fits (Some es) /\ ls inp = Some es) ->
  hlt dfuel obuf pjunk fuel argv o = Ok r -> tr_ret r = CRet 0 ->
  tr_os r = o /\ In f [x61; x63; x64; x65] /\ exists cevs, tr_file r = Some (out, takeN room (cev_bytes cevs)) /\
    (last_not_full cevs -> lenN (cev_bytes cevs) <= room -> written z f xm (rdf inp) es (takeN room (cev_bytes cevs))).
Proof.
  intros J Hm Ea Nb Ht H R. unfold hlt_main in H. rewrite Ea in H.
  destruct (byte_eqb f x61) eqn:E1. { apply byte_eqb_spec in E1. subst f.
    destruct (compress_file_zero z C _ _ _ _ _ _ _ _ _ _ _ (proj2 (proj2 (proj2 J))) H R) as (_ & Eo & data & cevs & Ed & Ef & A).
    split; [exact Eo|]. split; [now left|]. exists cevs. split; [exact Ef|]. intros L Hr. exists data. auto. }
  destruct (byte_eqb f x62) eqn:E2. { apply byte_eqb_spec in E2. contradiction. }
  destruct Ht as [Ft El]. { intros ->. discriminate E1. }
  destruct (byte_eqb f x63) eqn:E3. { apply byte_eqb_spec in E3. subst f.
    destruct (compress_dir_archives z C _ _ _ _ _ _ _ _ _ _ _ _ _ _ _ _ J Ft (Forall_nil _) El H R) as (_ & Eo & cevs & Ef & A).
    split; [exact Eo|]. split; [right; now left|]. exists cevs. auto. }
  destruct (byte_eqb f x64) eqn:E4. { apply byte_eqb_spec in E4. subst f.
    destruct (compress_dir_archives z C _ _ _ _ _ _ _ _ _ _ _ _ _ _ _ _ J Ft (tt_root_ok xm Hm) El H R) as (_ & Eo & cevs & Ef & A).
    split; [exact Eo|]. split; [do 2 right; now left|]. exists cevs. auto. }
  destruct (byte_eqb f x65) eqn:E5; [|injection H as <-; discriminate]. apply byte_eqb_spec in E5. subst f. rewrite <- El in Ft.
  destruct (compress_dir_zero z C _ _ _ _ _ _ _ _ _ _ _ _ _ _ _ _ J Ft (tt_nested_ok xm Hm) H R) as (_ & Eo & cevs & ws & wx & led & _ & _ & Ef).
  split; [exact Eo|]. split; [do 3 right; now left|]. exists cevs. split; [exact Ef|]. intros. exact I.
Qed.

Lemma llt_writes dfuel obuf pjunk fuel argv o r f inp out es : junk_ok jk hj xjk hjunk ->
  tt_args argv = Some (f, inp, out) -> (f <> x61 -> tree_fits (Some es) /\ ls inp = Some es) ->
  llt dfuel obuf pjunk fuel argv o = Ok r -> tr_ret r = CRet 0 ->
  tr_os r = o /\ In f [x61; x63] /\ exists cevs, tr_file r = Some (out, takeN room (cev_bytes cevs)) /\
    (last_not_full cevs -> lenN (cev_bytes cevs) <= room -> written z f xm (rdf inp) es (takeN room (cev_bytes cevs))).
Proof.
  intros J Ea Ht H R. unfold llt_main in H. rewrite Ea in H.
  destruct (byte_eqb f x61) eqn:E1. { apply byte_eqb_spec in E1. subst f.
    destruct (compress_file_zero z C _ _ _ _ _ _ _ _ _ _ _ (proj2 (proj2 (proj2 J))) H R) as (_ & Eo & data & cevs & Ed & Ef & A).
    split; [exact Eo|]. split; [now left|]. exists cevs. split; [exact Ef|]. intros L Hr. exists data. auto. }
  destruct (byte_eqb f x62) eqn:E2.
  { exfalso. destruct (exec (lt_extract _ _ _ _ _ _ _ _ _ _ _ _) o) as [[[ret st] o1]| |] eqn:Ex; try discriminate H. cbn [obind] in H.
    injection H as <-. cbn [tr_ret] in R. injection R as ->. unfold lt_extract in Ex.
    destruct (rdf inp) as [[data rderr]|]; [|discriminate]. destruct (create _ _ _ _ _ _) as [s0|]; [|discriminate].
    rewrite exec_bind in Ex. destruct (exec (lt_loop _ _ _ _ _ _ _ _ _ _ _ _) o) as [[[[rd s] l] o2]| |]; try discriminate Ex. cbn [obind] in Ex.
    rewrite exec_bind in Ex. destruct (destroy s); try discriminate Ex. cbn [plift exec obind] in Ex.
    rewrite exec_bind in Ex. destruct (exec (lt_close_fp l) o2) as [[[] o3]| |]; discriminate Ex. }
  destruct Ht as [Ft El]. { intros ->. discriminate E1. }
  destruct (byte_eqb f x63) eqn:E3; [|injection H as <-; discriminate]. apply byte_eqb_spec in E3. subst f.
  destruct (compress_dir_archives z C _ _ _ _ _ _ _ _ _ _ _ _ _ _ _ _ J Ft (Forall_nil _) El H R) as (_ & Eo & cevs & Ef & A).
  split; [exact Eo|]. split; [right; now left|]. exists cevs. auto.
Qed.

(** What option d writes. *)
Lemma hlt_d dfuel obuf pjunk fuel argv o r inp out es : junk_ok jk hj xjk hjunk -> xm < two32 ->
  tt_args argv = Some (x64, inp, out) -> tree_fits (Some es) -> ls inp = Some es ->
  hlt dfuel obuf pjunk fuel argv o = Ok r -> tr_ret r = CRet 0 ->
  exists cevs, tr_file r = Some (out, takeN room (cev_bytes cevs)) /\
    (last_not_full cevs -> lenN (cev_bytes cevs) <= room ->
     archives_with z [XB (b "__not_updateabe_files") (b "mconfig.bconf" ++ [x00]) xm] es (takeN room (cev_bytes cevs))).
Proof.
  intros J Hm Ea Ft El H R. destruct (hlt_writes _ _ _ _ _ _ _ _ _ _ es J Hm Ea ltac:(discriminate) (fun _ => conj Ft El) H R) as (_ & _ & cevs & E & W).
  exists cevs. split; [exact E|exact W].
Qed.

(** What option e writes: the buffers come first, each below new directories whose mode is 0. *)
Lemma hlt_nested dfuel obuf pjunk fuel argv o r inp out es : junk_ok jk hj xjk hjunk -> xm < two32 ->
  tt_args argv = Some (x65, inp, out) -> tree_fits (Some es) -> ls inp = Some es -> Forall (fun x => quiet (snd x)) es ->
  hlt dfuel obuf pjunk fuel argv o = Ok r -> tr_ret r = CRet 0 ->
  exists cevs rss, tr_file r = Some (out, takeN room (cev_bytes cevs)) /\
    Forall2 (fun x rs => exists ds f, xb_path x = slashed ds f /\ Forall no_slash ds /\ no_slash f /\
      rs = map (fun d => ADir d 0) ds ++ [AFile f 420 (lenN (xb_data x)) (xb_data x)] ++ repeat AEnd (length ds)) (tt_nested_bufs xm) rss /\
    (last_not_full cevs -> lenN (cev_bytes cevs) <= room -> unpacks z (takeN room (cev_bytes cevs)) (concat rss ++ preorder es)).
Proof.
  intros J Hm Ea Ft El Q H R. unfold hlt_main in H. rewrite Ea in H. cbn [byte_eqb] in H.
  change (byte_eqb x65 x61) with false in H. change (byte_eqb x65 x62) with false in H. change (byte_eqb x65 x63) with false in H.
  change (byte_eqb x65 x64) with false in H. change (byte_eqb x65 x65) with true in H. cbn iota in H. rewrite <- El in Ft.
  destruct (compress_dir_zero z C _ _ _ _ _ _ _ _ _ _ _ _ _ _ _ _ J Ft (tt_nested_ok xm Hm) H R) as (_ & _ & cevs & ws & wx & led & E & Cr & Ef).
  destruct (compress_dir_spec z C e tt_filter jk hj xjk hjunk al _ _ _ _ _ _ _ _ _ _ _ _ J Ft (tt_nested_ok xm Hm) E) as [(_ & K & _)|(_ & xr & recs & content & X & T & _)];
    [discriminate|]. rewrite El in *.
  destruct X as (rss & X & ->). exists cevs, rss. split; [exact Ef|]. split; [exact X|]. intros L Hr. rewrite takeN_all by exact Hr.
  destruct (trav_pure (fun _ _ _ => 0%Z) tt_filter tt_accepts ltac:(discriminate) _ _ _ _ _ _ T (jobs_all (fun _ x => quiet x) _ _ Q)) as (_ & _ & Er).
  rewrite kept_jobs in Er. cbn [listing] in Er. rewrite kept_all in Er.
  intros e' alloc' fuel' s0 ops rets s evs Ha Hs Ho Hd Hrun Rl.
  destruct (dir_round_trip z C e tt_filter jk hj xjk hjunk al _ _ _ _ _ _ _ _ _ _ _ _ _ _ _ _ _ _ _ _ J Ft
    ltac:(unfold tree_steady; eapply Forall_impl; [|exact Q]; intros; now apply quiet_steady) (tt_nested_ok xm Hm) E Cr L Ha Hs Ho Hd Hrun Rl)
    as (_ & xr' & recs' & f1' & t' & (rss' & X' & ->) & T' & R' & P').
  destruct (trav_det tt_filter _ _ _ _ _ _ T (jobs_all (fun _ x => quiet x) _ _ Q) _ _ _ _ T') as (_ & _ & -> & <-).
  assert (Es : rss' = rss).
  { clear - X X'. revert rss' X'. induction X as [|x rs xs rss (ds & f & A1 & A2 & A3 & ->) X IH]; intros rss' X'; inversion X' as [|? ? ? ? (ds' & f' & B1 & B2 & B3 & ->) X2]; subst; [reflexivity|].
    f_equal; [|now apply IH]. rewrite A1 in B1. destruct (slashed_inj ds f ds' f' A2 A3 B2 B3 B1) as [-> ->]. reflexivity. }
  subst rss'. rewrite Er in *. destruct P' as [P'|P']; [|exact P']. rewrite P' in R'. discriminate.
Qed.

(** The same, written out. *)
Lemma hlt_e dfuel obuf pjunk fuel argv o r inp out es : junk_ok jk hj xjk hjunk -> xm < two32 ->
  tt_args argv = Some (x65, inp, out) -> tree_fits (Some es) -> ls inp = Some es -> Forall (fun x => quiet (snd x)) es ->
  hlt dfuel obuf pjunk fuel argv o = Ok r -> tr_ret r = CRet 0 ->
  exists cevs, tr_file r = Some (out, takeN room (cev_bytes cevs)) /\
    (last_not_full cevs -> lenN (cev_bytes cevs) <= room -> unpacks z (takeN room (cev_bytes cevs)) (e_records ++ preorder es)).
Proof.
  intros J Hm Ea Ft El Q H R. destruct (hlt_nested dfuel obuf pjunk fuel argv o r inp out es J Hm Ea Ft El Q H R) as (cevs & rss & E1 & E2 & E3).
  exists cevs. split; [exact E1|]. replace e_records with (concat rss); [exact E3|]. clear - E2. unfold tt_nested_bufs in E2.
  inversion E2 as [|? r1 ? l1 X1 E2a]; subst. inversion E2a as [|? r2 ? l2 X2 E2b]; subst. inversion E2b as [|? r3 ? l3 X3 E2c]; subst. inversion E2c; subst.
  apply (e_split _ [b "a"; b "b"] (b "__not_updateabe_files") r1) in X1; [|reflexivity|reflexivity].
  apply (e_split _ [b "plugins"; b "a"; b "b"] (b "__not_updateabe_files2") r2) in X2; [|reflexivity|reflexivity].
  apply (e_split _ [b "plugins"; b "a"; b "b"; b "c"] (b "__not_updateabe_files3") r3) in X3; [|reflexivity|reflexivity].
  subst. vm_compute. reflexivity.
Qed.

(** Option b of the low level program: 1, always. *)
Lemma llt_never dfuel obuf pjunk fuel argv o r inp out : tt_args argv = Some (x62, inp, out) ->
  llt dfuel obuf pjunk fuel argv o = Ok r -> tr_ret r = CRet 1.
Proof.
  intros Ea H. unfold llt_main in H. rewrite Ea in H. cbn [byte_eqb] in H.
  change (byte_eqb x62 x61) with false in H. change (byte_eqb x62 x62) with true in H. cbn iota in H.
  destruct (exec (lt_extract _ _ _ _ _ _ _ _ _ _ _ _) o) as [[[ret st] o1]| |] eqn:Ex; try discriminate H. cbn [obind] in H.
  injection H as <-. cbn [tr_ret]. unfold lt_extract in Ex.
  destruct (rdf inp) as [[data rderr]|]; [|cbn in Ex; congruence]. destruct (create _ _ _ _ _ _) as [s0|]; [|cbn in Ex; congruence].
  rewrite exec_bind in Ex. destruct (exec (lt_loop _ _ _ _ _ _ _ _ _ _ _ _) o) as [[[[rd s] l] o2]| |]; try discriminate Ex. cbn [obind] in Ex.
  rewrite exec_bind in Ex. destruct (destroy s); try discriminate Ex. cbn [plift exec obind] in Ex.
  rewrite exec_bind in Ex. destruct (exec (lt_close_fp l) o2) as [[[] o3]| |]; try discriminate Ex. cbn in Ex. congruence.
Qed.

(** ** Round trips *)
Lemma hlt_b dfuel obuf pjunk fuel argv o inp T : tt_args argv = Some (x62, inp, T) ->
  hlt dfuel obuf pjunk fuel argv o = hlt_extract z e hjunk al rdf hal stk alloc dfuel obuf pjunk fuel inp T o.
Proof. intro Ea. unfold hlt_main. rewrite Ea. reflexivity. Qed.
Lemma llt_b dfuel obuf pjunk fuel argv o inp T : tt_args argv = Some (x62, inp, T) ->
  llt dfuel obuf pjunk fuel argv o =
    do (x, o1) <- exec (lt_extract T hal z e alloc fuel dfuel (al 1) obuf hjunk pjunk (rdf inp)) o;
    let '(ret, st) := x in Ok (TR (CRet ret) None o1 (match st with Some (s, _) => Some s | None => None end)).
Proof. intro Ea. unfold llt_main. rewrite Ea. reflexivity. Qed.

Lemma hlt_dir obuf pjunk fuel argv inp T t o xs es F : tt_args argv = Some (x62, inp, T) -> rdf inp = Some (F, false) ->
  archives_with z xs es F -> (length F < fuel)%nat -> calm z hal al stk obuf hjunk pjunk -> (forall k n, alloc k n = true) ->
  preorder (as_files xs ++ es) <> [] -> Forall (fun x => quiet (snd x)) es -> Forall (fun x => plain (xb_path x)) xs ->
  NoDup (map fst (as_files xs ++ es)) ->
  Forall (fun x => extractable (o_priv o) (o_umask o) (lenN T) (fst x) (snd x)) (as_files xs ++ es) ->
  free_spot o T t -> usable_dir (o_priv o) (o_umask o) MODE_BASE_DIR -> (forall r, o_fs o (t ++ r) = None) ->
  volume (preorder (as_files xs ++ es)) <= o_free o ->
  exists dfuel0, forall dfuel, (dfuel0 <= dfuel)%nat -> exists r s, hlt dfuel obuf pjunk fuel argv o = Ok r /\ tr_sess r = Some s /\
    (room_left s -> tr_ret r = CRet 0 /\ same_env o (tr_os r) /\
      forall q, o_fs (tr_os r) q = overlay t (dir_tree (o_umask o) (as_files xs ++ es)) (o_fs o) q).
Proof.
  intros Ea Er A Hf Ca Ha Ne Q Px ND X Fs U Fr V.
  destruct (disk_with z C xs es F e alloc hal al stk obuf hjunk pjunk T 0 F t o fuel A (or_introl (conj eq_refl eq_refl)) Hf Ca Ha Ne Q Px ND X Fs U Fr V)
    as (d0 & K). exists d0. intros d Hd. destruct (K d Hd) as (ret & s & h & ds & o' & E & R).
  rewrite (hlt_b _ _ _ _ _ _ _ _ Ea). unfold hlt_extract. rewrite Er. cbn [extract_file]. rewrite E. cbn [obind].
  eexists _, s. split; [reflexivity|]. split; [reflexivity|]. intro Rl. destruct (R Rl) as (-> & R2 & R3). auto.
Qed.

Lemma hlt_file obuf pjunk fuel argv inp T t m o data F : tt_args argv = Some (x62, inp, T) -> rdf inp = Some (F, false) ->
  archives_file z data F -> (length F < fuel)%nat -> calm z hal al stk obuf hjunk pjunk ->
  data <> [] -> writable_spot o T t m -> lenN data <= o_free o ->
  exists dfuel0, forall dfuel, (dfuel0 <= dfuel)%nat -> exists r s, hlt dfuel obuf pjunk fuel argv o = Ok r /\ tr_sess r = Some s /\
    same_env o (tr_os r) /\ (room_left s -> tr_ret r = CRet 0 /\ forall q, o_fs (tr_os r) q = upd (o_fs o) t (IFile m data) q).
Proof.
  intros Ea Er A Hf Ca Ne Sp V.
  destruct (disk_file z C data F e alloc hal al stk obuf hjunk pjunk T 0 F t m o fuel A (or_introl (conj eq_refl eq_refl)) Hf Ca Ne Sp V) as (d0 & K).
  exists d0. intros d Hd. destruct (K d Hd) as (ret & s & h & ds & o' & E & Se & R).
  rewrite (hlt_b _ _ _ _ _ _ _ _ Ea). unfold hlt_extract. rewrite Er. cbn [extract_file]. rewrite E. cbn [obind].
  eexists _, s. split; [reflexivity|]. split; [reflexivity|]. split; [exact Se|]. intro Rl. destruct (R Rl) as (-> & R3). auto.
Qed.

Lemma llt_dir obuf pjunk fuel argv inp T t o xs es F : tt_args argv = Some (x62, inp, T) -> rdf inp = Some (F, false) ->
  archives_with z xs es F -> (length F < fuel)%nat -> lt_calm z hal al obuf hjunk pjunk -> (forall k n, alloc k n = true) ->
  preorder (as_files xs ++ es) <> [] -> Forall (fun x => quiet (snd x)) es -> Forall (fun x => plain (xb_path x)) xs ->
  NoDup (map fst (as_files xs ++ es)) ->
  Forall (fun x => extractable (o_priv o) (o_umask o) (lenN T + 1) (fst x) (snd x)) (as_files xs ++ es) ->
  free_spot o T t -> usable_dir (o_priv o) (o_umask o) MODE_BASE_DIR -> (forall r, o_fs o (t ++ r) = None) ->
  volume (preorder (as_files xs ++ es)) <= o_free o ->
  exists dfuel0, forall dfuel, (dfuel0 <= dfuel)%nat -> exists r s, llt dfuel obuf pjunk fuel argv o = Ok r /\ tr_sess r = Some s /\
    (room_left s -> same_env o (tr_os r) /\
      forall q, o_fs (tr_os r) q = overlay t (dir_tree (o_umask o) (as_files xs ++ es)) (o_fs o) q).
Proof.
  intros Ea Er A Hf Ca Ha Ne Q Px ND X Fs U Fr V.
  pose proof (dir_archived_with z C xs es F A Q) as D. rewrite <- (preorder_as_files xs es Px) in D.
  destruct (lt_dir z C e alloc hal al obuf hjunk pjunk Ca T F (as_files xs ++ es) t o fuel Ha Hf D Ne (quiet_as_files xs es Q) ND X Fs U Fr V) as (d0 & K).
  exists d0. intros d Hd. destruct (K d Hd) as (s & h & o' & E & R). rewrite (llt_b _ _ _ _ _ _ _ _ Ea), Er, E. cbn [obind].
  eexists _, s. split; [reflexivity|]. split; [reflexivity|]. exact R.
Qed.

Lemma llt_file obuf pjunk fuel argv inp T t m o data F : tt_args argv = Some (x62, inp, T) -> rdf inp = Some (F, false) ->
  archives_file z data F -> (length F < fuel)%nat -> lt_calm z hal al obuf hjunk pjunk ->
  data <> [] -> writable_spot o T t m -> lenN data <= o_free o ->
  exists dfuel0, forall dfuel, (dfuel0 <= dfuel)%nat -> exists r s, llt dfuel obuf pjunk fuel argv o = Ok r /\ tr_sess r = Some s /\
    same_env o (tr_os r) /\ (room_left s -> forall q, o_fs (tr_os r) q = upd (o_fs o) t (IFile m data) q).
Proof.
  intros Ea Er A Hf Ca Ne Sp V. destruct (file_archived z C data F A) as (B & Fi & Ar & D).
  destruct (lt_file z C e alloc hal al obuf hjunk pjunk Ca T F data t m o fuel Hf B Fi Ar D Ne Sp V) as (d0 & K).
  exists d0. intros d Hd. destruct (K d Hd) as (s & h & o' & E & R). rewrite (llt_b _ _ _ _ _ _ _ _ Ea), Er, E. cbn [obind].
  eexists _, s. split; [reflexivity|]. split; [reflexivity|]. exact R.
Qed.
End Programs.

(** ** The icon test *)
Lemma it_path asserts d n icon r : ~ In x5c n ->
  it_main asserts ((d ++ x5c :: n) :: icon :: r) = Ok (ItCall (d ++ x5c :: IT_EXE) icon).
Proof.
  intro H. unfold it_main. rewrite (rindex_app x5c d n H). do 2 f_equal.
  change (x5c :: n) with ([x5c] ++ n). rewrite app_assoc, takeN_app_exact by (rewrite lenN_app; reflexivity).
  now rewrite <- app_assoc.
Qed.
