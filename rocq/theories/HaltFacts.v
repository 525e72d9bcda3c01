(** HaltFacts.v: decompression calls and extraction end, for every input (also unsupported versions) and every result of the
    system calls. *)
From Coq Require Import Lia.
From Verif Require Import Base Format Zlib Parser ParserProofs Decompress DecompressProofs MidProofs MidFacts FS FSFacts HL HLFacts HLDrive HLProps HLSafe.

Section Halt.
Context (z : zlib) (C : zlib_contract z) (e : endian) (alloc : N -> N -> bool).
Notation run := (run e alloc).

(** From some fuel on the result is the same, and it is not the lack of fuel. *)
Definition ends {A} (f : nat -> outcome A) (Q : A -> Prop) : Prop :=
  exists n x, (forall fuel, (n <= fuel)%nat -> f fuel = x) /\ match x with Ok a => Q a | UB => True | NoFuel => False end.

Definition jinv (s : dsess z) : Prop :=
  (exists c p, zc_iinv C (z_st (d_zs s)) c p) /\
  (d_bsel s = BUser -> usable (d_ubuf s) (d_bsz s)) /\ (d_bsel s = BHdr -> 0 < d_bsz s) /\
  (d_cb s = CbHeader -> lenN (p_img (d_p s)) = ITEM_SIZE /\ usable (d_tmp s) (d_tmpsz s)) /\
  (d_cb s <> CbHeader -> cwf e (d_cb s) (d_p s)).

Lemma jinv_inflate fl s r s1 : jinv s -> do_inflate fl s = Ok (r, s1) -> jinv s1.
Proof.
  intros (J1 & J2 & J3 & J4 & J5) H.
  destruct (do_inflate_frame z C fl s r s1 H) as (A1 & A2 & A3 & A4 & A5 & A6 & A7 & A8 & _ & _ & _ & _ & A13).
  split. { destruct J1 as (c & p & I). destruct (A13 _ _ I) as (c' & p' & I'). eauto. }
  rewrite A1, A2, A3, A4, A5, A6. split; [auto|]. auto.
Qed.
Lemma jinv_setup s : jinv s -> jinv (setup s).
Proof. exact (fun H => H). Qed.
Lemma jinv_feed d s : jinv s -> jinv (feed d s).
Proof. exact (fun H => H). Qed.
Lemma jinv_header s b s' : jinv s -> d_cb s = CbHeader -> header_begin e s = Ok (b, s') -> jinv s' /\ d_zs s' = d_zs s.
Proof.
  intros (J1 & J2 & J3 & J4 & J5) Hc H. destruct (J4 Hc) as [K1 K2]. unfold header_begin in H.
  destruct (_ <? _). { injection H as <- <-. split; [|reflexivity]. split; [exact J1|]. auto. }
  destruct (_ =? 0).
  - destruct (_ <? _); [discriminate|]. injection H as <- <-. split; [|reflexivity]. split; [exact J1|]. cbn. split; [auto|]. split; [discriminate|].
    split; [discriminate|]. intros _. exact K1.
  - injection H as <- <-. split; [|reflexivity]. split; [exact J1|]. cbn. split; [exact J2|]. split; [exact J3|].
    split; [auto|]. intro Q. contradiction.
Qed.
Lemma jinv_buffer b n s : usable b n -> jinv s -> jinv (set_buffer b n s).
Proof.
  intros Hu (J1 & J2 & J3 & J4 & J5). apply (usable_u32 alloc) in Hu. unfold set_buffer. destruct (d_inited s).
  - split; [exact J1|]. cbn. split; [auto|]. split; [discriminate|]. split; [|exact J5]. intro Q. destruct (J4 Q). auto.
  - split; [exact J1|]. cbn. split; [exact J2|]. split; [exact J3|]. split; [|exact J5]. intro Q. destruct (J4 Q). auto.
Qed.
Lemma started_jinv s : started z s -> jinv s.
Proof.
  intros (buf & size & hj & pj & Hc & Hu & Hh & Hp). unfold create in Hc. destruct (inflateInit z) as [i|] eqn:E; [|discriminate]. injection Hc as <-.
  split. { exists [], []. exact (zc_iinit _ C _ E). }
  cbn. split; [discriminate|]. split; [reflexivity|]. split; [|contradiction]. intros _. split; [exact Hp|now apply (usable_u32 alloc)].
Qed.

(** After the end of the stream or an error one step is enough. *)
Lemma stuck_ends m fl s : zc_stuck C (z_st (d_zs s)) -> jinv s ->
  ends (fun fuel => run fuel m fl s) (fun a => jinv (snd (fst a)) /\ zc_stuck C (z_st (d_zs (snd (fst a))))).
Proof.
  intros St J. exists 1%nat.
  set (s0 := match m with Reset => setup s | NoTouch => s end).
  assert (J0 : jinv s0) by (subst s0; destruct m; exact J).
  assert (St0 : zc_stuck C (z_st (d_zs s0))) by (subst s0; destruct m; exact St).
  destruct ((lenN (z_inp (d_zs s)) =? 0) || match m with NoTouch => z_aout (d_zs s) =? 0 | Reset => false end) eqn:Ez.
  - exists (Ok (0%Z, s, [])). split; [|cbn; auto]. intros [|f] H; [lia|]. cbn [Decompress.run]. now rewrite Ez.
  - destruct (do_inflate fl s0) as [[r1 s1]| |] eqn:E.
    + destruct (do_inflate_frame z C fl s0 r1 s1 E) as (_ & _ & _ & _ & _ & _ & _ & _ & A9 & _). destruct (A9 St0) as [Hr St1].
      exists (Ok (r1, s1, [])). split; [|cbn; split; [eapply jinv_inflate; eassumption|exact St1]].
      intros [|f] H; [lia|]. cbn [Decompress.run]. rewrite Ez. fold s0. rewrite E. cbn [obind].
      destruct (Z.eqb_spec r1 Z_OK) as [Q|_]; [contradiction|]. reflexivity.
    + exists UB. split; [|exact I]. intros [|f] H; [lia|]. cbn [Decompress.run]. rewrite Ez. fold s0. rewrite E. reflexivity.
    + exfalso. unfold do_inflate in E. destruct (mem _ _); [|discriminate]. unfold checked_write in E. destruct (_ <=? _); discriminate.
Qed.
Lemma empty_ends m fl (s : dsess z) : z_inp (d_zs s) = [] -> ends (fun fuel => run fuel m fl s) (fun a => snd (fst a) = s).
Proof.
  intro H. exists 1%nat, (Ok (0%Z, s, [])). split; [|reflexivity]. intros [|f] Hf; [lia|]. now rewrite run_inp_nil.
Qed.

Definition done (m : lmode) (a : Z * dsess z * list event) : Prop :=
  jinv (snd (fst a)) /\ (m = Reset -> zc_stuck C (z_st (d_zs (snd (fst a)))) \/ z_inp (d_zs (snd (fst a))) = []).

Lemma run_ends : forall n k m fl s, (length (z_inp (d_zs s)) <= n)%nat -> (zc_ipend C (z_st (d_zs s)) <= k)%nat ->
  jinv s -> normal_flush fl -> ends (fun fuel => run fuel m fl s) (done m).
Proof.
  induction n as [n IHn] using (well_founded_induction Wf_nat.lt_wf).
  induction k as [k IHk] using (well_founded_induction Wf_nat.lt_wf).
  intros m fl s Hn Hk J Hf.
  assert (Hf0 : normal_flush Z_NO_FLUSH) by (unfold normal_flush, Z_NO_FLUSH; lia).
  set (s0 := match m with Reset => setup s | NoTouch => s end).
  assert (J0 : jinv s0) by (subst s0; destruct m; exact J).
  assert (I0 : z_inp (d_zs s0) = z_inp (d_zs s) /\ z_st (d_zs s0) = z_st (d_zs s)) by (subst s0; destruct m; auto).
  destruct I0 as [I0 S0].
  destruct ((lenN (z_inp (d_zs s)) =? 0) || match m with NoTouch => z_aout (d_zs s) =? 0 | Reset => false end) eqn:Ez.
  { exists 1%nat, (Ok (0%Z, s, [])). split; [intros [|f] H; [lia|]; cbn [Decompress.run]; now rewrite Ez|].
    split; [exact J|]. intros ->. right. rewrite orb_false_r in Ez. apply N.eqb_eq in Ez. now apply lenN_0 in Ez || (destruct (z_inp (d_zs s)); [reflexivity|rewrite lenN_cons in Ez; lia]). }
  assert (Hi : z_inp (d_zs s0) <> []).
  { rewrite I0. intro Q. rewrite Q in Ez. discriminate Ez. }
  assert (Hr : m = Reset \/ 0 < z_aout (d_zs s0)).
  { subst s0; destruct m; [left; reflexivity|right]. apply orb_false_elim in Ez. lia. }
  assert (Step : forall f, run (S f) m fl s = (do (ret, s1) <- do_inflate fl s0;
      if negb (ret =? Z_OK)%Z then Ok (ret, s1, [])
      else
        do (s3, evs) <-
          match d_cb s1 with
          | CbHeader =>
            do (again, s2) <- header_begin e s1;
            if again then do (ret2, s3, evs) <- run f Reset Z_NO_FLUSH s2; Ok (s3, evs)
            else Ok (s2, [])
          | c =>
            let '(data, tail) := cb_data s1 in
            do (c', p', evs) <- content_cb e alloc (hdr_type e (d_hdr s1)) c (d_p s1) data tail;
            Ok (with_cb c' (with_p p' s1), evs)
          end;
        do (ret3, s4, evs2) <- run f m Z_NO_FLUSH s3;
        Ok (ret3, s4, evs ++ evs2))).
  { intro f. cbn [Decompress.run]. rewrite Ez. reflexivity. }
  destruct (do_inflate fl s0) as [[r1 s1]| |] eqn:E.
  3:{ exfalso. unfold do_inflate in E. destruct (mem _ _); [|discriminate]. unfold checked_write in E. destruct (_ <=? _); discriminate. }
  2:{ exists 1%nat, UB. split; [|exact I]. intros [|f] H; [lia|]. rewrite Step. reflexivity. }
  pose proof (jinv_inflate _ _ _ _ J0 E) as J1.
  (* what the step did *)
  assert (Fact : (r1 <> Z_OK -> m = Reset -> zc_stuck C (z_st (d_zs s1))) /\
    (r1 = Z_OK -> (length (z_inp (d_zs s1)) < length (z_inp (d_zs s)))%nat \/
      (length (z_inp (d_zs s1)) <= length (z_inp (d_zs s)))%nat /\ (zc_ipend C (z_st (d_zs s1)) < zc_ipend C (z_st (d_zs s)))%nat)).
  { destruct J0 as ((c & p & Iv) & U & B & _). unfold do_inflate in E.
    destruct (mem (z_sel (d_zs s0)) s0) as [mm|] eqn:Em.
    - set (r := inflate z (z_st (d_zs s0)) fl (z_inp (d_zs s0)) (z_aout (d_zs s0))) in *.
      unfold checked_write in E. destruct (_ <=? _); [|discriminate]. cbn [obind] in E. injection E as <- <-.
      destruct (zc_istep _ C _ _ _ _ _ _ r Iv eq_refl) as (Q1 & Q2 & Q3). cbn [d_zs with_zs set_mem z_inp z_st].
      split.
      + intros Hne ->. refine (zc_istop _ C _ _ _ _ _ _ r Iv Hf Hi _ eq_refl Hne).
        subst s0. cbn [setup with_zs d_zs z_aout]. destruct (d_bsel s) eqn:Eb; [now apply B|].
        destruct (U Eb) as (? & ? & ? & ? & ?). assumption.
      + intro Hok. rewrite <- I0, <- S0. rewrite dropN_skipn, skipn_length. unfold lenN in Q1.
        destruct (zc_iprogress _ C _ _ _ _ _ _ r Iv eq_refl Hok) as [Hu|Hp]; [left; unfold lenN in *; lia|right; split; [lia|exact Hp]].
    - injection E as <- <-. split; [|discriminate]. intros _ ->. exfalso. subst s0. cbn [setup with_zs d_zs z_sel] in Em.
      destruct (d_bsel s) eqn:Eb; [discriminate Em|]. destruct (U Eb) as (? & Q & _). cbn in Em, Q. congruence. }
  destruct Fact as [Fe Fo].
  destruct (Z.eqb_spec r1 Z_OK) as [Hok|Hne].
  2:{ exists 1%nat, (Ok (r1, s1, [])). split.
      - intros [|f] H; [lia|]. rewrite Step. cbn [obind]. destruct (Z.eqb_spec r1 Z_OK); [contradiction|reflexivity].
      - split; [exact J1|]. intros ->. left. now apply Fe. }
  specialize (Fo Hok).
  assert (Rec : forall m' s2, jinv s2 -> d_zs s2 = d_zs s1 -> ends (fun fuel => run fuel m' Z_NO_FLUSH s2) (done m')).
  { intros m' s2 J2 E2. rewrite <- E2 in Fo. destruct Fo as [Fo|[Fo1 Fo2]].
    - refine (IHn (length (z_inp (d_zs s2))) _ (zc_ipend C (z_st (d_zs s2))) _ _ _ (le_n _) (le_n _) J2 Hf0). lia.
    - refine (IHk (zc_ipend C (z_st (d_zs s2))) _ _ _ _ _ (le_n _) J2 Hf0); lia. }
  (* the rest after the callback *)
  assert (Fin : forall f0 s3 ev3 (Pre : forall f, (f0 <= f)%nat -> run (S f) m fl s =
      (do (ret3, s4, evs2) <- run f m Z_NO_FLUSH s3; Ok (ret3, s4, ev3 ++ evs2))),
      ends (fun fuel => run fuel m Z_NO_FLUSH s3) (done m) -> ends (fun fuel => run fuel m fl s) (done m)).
  { intros f0 s3 ev3 Pre (n3 & x3 & R3 & Q3).
    exists (S (Nat.max f0 n3)), (do (ret3, s4, evs2) <- x3; Ok (ret3, s4, ev3 ++ evs2)). split.
    - intros [|f] H; [lia|]. rewrite Pre by lia. rewrite R3 by lia. reflexivity.
    - destruct x3 as [[[r4 s4] ev4]| |]; cbn [obind]; auto. }
  destruct (d_cb s1) eqn:Ec.
  2:{ (* header *)
    destruct (header_begin e s1) as [[again s2]| |] eqn:Eh.
    - destruct (jinv_header _ _ _ J1 Ec Eh) as [J2 Z2]. destruct again.
      + destruct (Rec Reset s2 J2 Z2) as (n2 & x2 & R2 & Q2).
        destruct x2 as [[[r2 s3] ev3]| |]; [| |contradiction].
        * refine (Fin n2 s3 ev3 _ _).
          -- intros f Hl. rewrite Step. cbn [obind]. destruct (Z.eqb_spec r1 Z_OK); [|contradiction]. cbn [negb]. rewrite Ec, Eh. cbn [obind].
             rewrite R2 by exact Hl. reflexivity.
          -- destruct Q2 as [Q2 Q3]. cbn [fst snd] in Q2, Q3. destruct (Q3 eq_refl) as [St|En].
             ++ destruct (stuck_ends m Z_NO_FLUSH s3 St Q2) as (n4 & x4 & R4 & Q4). exists n4, x4. split; [exact R4|].
                destruct x4 as [[[r4 s4] ev4]| |]; auto. destruct Q4. split; [assumption|]. intros _. left. assumption.
             ++ destruct (empty_ends m Z_NO_FLUSH s3 En) as (n4 & x4 & R4 & Q4). exists n4, x4. split; [exact R4|].
                destruct x4 as [[[r4 s4] ev4]| |]; auto. cbn [fst snd] in Q4. subst s4. split; [assumption|]. intros _. right. assumption.
        * exists (S n2), UB. split; [|exact I]. intros [|f] H; [lia|]. rewrite Step. cbn [obind].
          destruct (Z.eqb_spec r1 Z_OK); [|contradiction]. cbn [negb]. rewrite Ec, Eh. cbn [obind]. rewrite R2 by lia. reflexivity.
      + refine (Fin 0%nat s2 [] _ (Rec m s2 J2 Z2)). intros f _. rewrite Step. cbn [obind].
        destruct (Z.eqb_spec r1 Z_OK); [|contradiction]. cbn [negb]. rewrite Ec, Eh. cbn [obind]. reflexivity.
    - exists 1%nat, UB. split; [|exact I]. intros [|f] H; [lia|]. rewrite Step. cbn [obind].
      destruct (Z.eqb_spec r1 Z_OK); [|contradiction]. cbn [negb]. rewrite Ec, Eh. reflexivity.
    - exfalso. unfold header_begin in Eh. cbv zeta in Eh. repeat match type of Eh with (if ?b then _ else _) = _ => destruct b end; discriminate. }
  all: destruct (cb_data s1) as [data tail] eqn:Ed;
    pose proof J1 as (K1 & K2 & K3 & K4 & K5); rewrite Ec in K5;
    (destruct (content_cb_ok e alloc (hdr_type e (d_hdr s1)) (d_cb s1) (d_p s1) data tail) as (c' & p' & ev' & Eb & W); [congruence|rewrite Ec; apply K5; congruence|]);
    rewrite Ec in Eb;
    (assert (Hc' : c' <> CbHeader) by (eapply content_cb_not_header; [|exact Eb]; congruence));
    (refine (Fin 0%nat (with_cb c' (with_p p' s1)) ev' _ (Rec m (with_cb c' (with_p p' s1)) _ eq_refl)); [
      intros f _; rewrite Step; cbn [obind]; (destruct (Z.eqb_spec r1 Z_OK); [|contradiction]); cbn [negb]; rewrite Ec, Ed, Eb; reflexivity
    | split; [exact K1|]; split; [exact K2|]; split; [exact K3|]; split; [intro Q; contradiction|intros _; exact W] ]).
Qed.

Lemma decompress_ends fl d s : jinv s -> normal_flush fl -> ends (fun fuel => decompress e alloc fuel fl d s) (fun a => jinv (snd (fst a))).
Proof.
  intros J Hf. assert (Hf0 : normal_flush Z_NO_FLUSH) by (unfold normal_flush, Z_NO_FLUSH; lia). unfold decompress. destruct (d_inited s).
  - destruct (run_ends _ _ Reset Z_NO_FLUSH (feed d s) (le_n _) (le_n _) J Hf0) as (n & x & R & Q). exists n, x. split; [exact R|].
    destruct x; auto. apply Q.
  - destruct (run_ends _ _ NoTouch fl (feed d s) (le_n _) (le_n _) J Hf) as (n & x & R & Q). exists n, x. split; [exact R|].
    destruct x; auto. apply Q.
Qed.

Lemma dops_ends : forall ops s, jinv s -> Forall dop_ok ops -> ends (fun fuel => run_dops e alloc fuel s ops) (fun a => jinv (snd (fst a))).
Proof.
  induction ops as [|op ops IH]; intros s J H.
  - exists 0%nat, (Ok ([], s, [])). split; [reflexivity|exact J].
  - inversion H as [|? ? H1 H2]; subst. destruct op as [fl d|b n]; cbn [run_dops].
    + destruct H1 as [Hf _]. destruct (decompress_ends fl d s J Hf) as (n1 & x1 & R1 & Q1).
      destruct x1 as [[[r1 s1] ev1]| |]; [|exists n1, UB; split; [intros fuel L; now rewrite R1 by exact L|exact I]|contradiction].
      destruct (IH s1 Q1 H2) as (n2 & x2 & R2 & Q2).
      exists (Nat.max n1 n2), (do (rets, s2, ev2) <- x2; Ok (r1 :: rets, s2, ev1 ++ ev2)). split.
      * intros fuel L. rewrite R1 by lia. cbn [obind]. now rewrite R2 by lia.
      * destruct x2 as [[[r2 s2] ev2]| |]; auto.
    + apply IH; [now apply jinv_buffer|exact H2].
Qed.
Lemma session_ends s0 ops : started z s0 -> Forall dop_ok ops ->
  exists fuel0 x, x <> NoFuel /\ forall fuel, (fuel0 <= fuel)%nat -> run_dops e alloc fuel s0 ops = x.
Proof.
  intros S H. destruct (dops_ends ops s0 (started_jinv _ S) H) as (n & x & R & Q). exists n, x. split; [|exact R]. intros ->. exact Q.
Qed.

(** ** Extraction *)
Lemma inflate_fuel fl (s : dsess z) : do_inflate fl s <> NoFuel.
Proof. unfold do_inflate. destruct (mem _ _); [|discriminate]. unfold checked_write. destruct (_ <=? _); discriminate. Qed.
Lemma destroy_fuel (s : dsess z) : destroy s <> NoFuel.
Proof.
  unfold destroy. pose proof (inflate_fuel Z_FULL_FLUSH s) as H. destruct (do_inflate Z_FULL_FLUSH s) as [[r s1]| |]; try congruence; [|discriminate].
  cbn [obind]. pose proof (inflate_fuel Z_FINISH s1) as H1. destruct (do_inflate Z_FINISH s1) as [[r2 s2]| |]; try congruence; discriminate.
Qed.

(** Programs that do not run out of fuel. *)
Fixpoint live {A} (p : prog A) : Prop :=
  match p with PSys c k => forall r, live (k r) | PNoFuel => False | _ => True end.
Lemma live_bind {A B} (p : prog A) (f : A -> prog B) : live p -> (forall a, live (f a)) -> live (pbind p f).
Proof. induction p as [a| | |c k IH]; cbn; auto. Qed.
Lemma live_lift {A} (x : outcome A) : x <> NoFuel -> live (plift x). Proof. destruct x; cbn; auto. Qed.
Lemma live_cstr {A} b (f : bytes -> prog A) : (forall s, live (f s)) -> live (with_cstr b f).
Proof. unfold with_cstr. destruct (cstr b); [auto|exact (fun _ => I)]. Qed.
Lemma live_sys c : live (psys c). Proof. cbn. auto. Qed.
Lemma exec_live {A} (p : prog A) : live p -> forall o, exec p o <> NoFuel.
Proof. induction p as [a| | |c k IH]; intros L o; cbn; try discriminate; [contradiction|]. destruct (sys c o) as [r o1]. apply IH. apply L. Qed.

Lemma os_create_live b mode : live (os_create b mode).
Proof.
  unfold os_create. apply live_cstr. intro s. apply live_bind; [apply live_sys|]. intros r. destruct r as [er| | | |]; try exact I.
  destruct er; try exact I. apply live_bind; [apply live_sys|]. intro r. exact I.
Qed.
Lemma mkdir_live ok s mode : live (mkdir_recurse ok s mode).
Proof.
  unfold mkdir_recurse. destruct ok; [|exact I]. unfold mkdir_raw. apply live_bind; [apply os_create_live|].
  intro r. destruct (_ || _); [exact I|]. apply live_bind.
  - generalize (@nil N). generalize (s ++ [x00]). generalize 62%nat. clear. induction n as [|k IH]; intros b idx; [exact I|].
    cbn [mk_down]. apply live_cstr. intro s. destruct (delim s) as [i|]; [|exact I].
    apply live_bind; [apply os_create_live|]. intro r. destruct (_ =? -1)%Z; [exact I|]. destruct (_ || _); [exact I|]. apply IH.
  - intros [[b1 idx] en]. destruct en; try exact I. destruct (_ <? _); [|exact I]. clear. revert b1.
    induction idx as [|i idx IH]; intro b; [exact I|]. cbn [mk_up]. apply live_bind; [apply os_create_live|].
    intro c. destruct (_ =? 0)%Z; [apply IH|exact I].
Qed.

Section Ext.
Context (target : bytes) (hal : N -> bool) (stk archive : N).
Notation cb := (HL.cb target hal stk).
Notation cbs := (HL.cbs target hal stk).
Notation extract_loop := (HL.extract_loop target hal stk z e alloc archive).

Lemma entry_path_fuel it name h : entry_path it name h <> NoFuel.
Proof. unfold entry_path. destruct (_ <? _); [discriminate|]. destruct (_ <? _); discriminate. Qed.
Lemma cb_live ev h : live (cb ev h).
Proof.
  destruct ev as [id d| | |d|ft it name|d| | |d t]; cbn [HL.cb].
  - exact I.
  - unfold cb_dr_start. apply live_bind; [apply mkdir_live|]. intro r. destruct (negb _); [exact I|]. destruct (negb _); exact I.
  - unfold cb_fl_start. apply live_bind; [apply live_sys|]. intros []; exact I.
  - unfold cb_fl_read. destruct (h_fp h); [|exact I]. apply live_bind; [apply live_sys|]. intro; exact I.
  - unfold cb_entry. destruct ft; try exact I.
    + destruct (negb _); [exact I|]. apply live_bind; [apply live_lift, entry_path_fuel|]. intro b. apply live_cstr. intro s.
      apply live_bind; [apply mkdir_live|]. intro; exact I.
    + destruct (_ <? _); [exact I|]. apply live_bind; [apply live_lift, entry_path_fuel|]. intro b. apply live_cstr. intro s.
      apply live_bind; [apply live_sys|]. intros []; exact I.
  - unfold cb_read. apply live_bind; [apply live_sys|]. intro; exact I.
  - unfold cb_file_end. apply live_bind; [apply live_sys|]. intro; exact I.
  - unfold cb_dir_end. destruct (h_dp h); [|exact I]. apply live_cstr. intro s. destruct (rindex _ _); exact I.
  - unfold cb_sym. apply live_bind; [apply live_sys|]. intros []; try exact I. destruct (h_dp h); [|exact I]. apply live_cstr. intro dir.
    apply live_bind; [apply live_sys|]. intros []; try exact I. apply live_cstr. intro old. apply live_cstr. intro new.
    apply live_bind; [apply live_sys|]. intro. apply live_bind; [apply live_sys|]. intro; exact I.
Qed.
Lemma cbs_live : forall evs h, live (cbs evs h).
Proof. induction evs as [|ev r IH]; intro h; [exact I|]. cbn [HL.cbs]. apply live_bind; [apply cb_live|exact IH]. Qed.

Lemma loop_flush idx : normal_flush (Z.of_N (N.shiftr (N.land (idx + 1) 16) 4)).
Proof.
  assert (Q : N.land (idx + 1) 16 = 0 \/ N.land (idx + 1) 16 = 16).
  { change 16 with (2 ^ 4). destruct (N.testbit (idx + 1) 4) eqn:E; [right|left];
    apply N.bits_inj; intro k; rewrite N.land_spec, N.pow2_bits_eqb; destruct (N.eqb_spec 4 k) as [<-|Hk];
    rewrite ?E, ?N.bits_0, ?andb_false_r; reflexivity. }
  destruct Q as [-> | ->]; vm_compute; split; congruence.
Qed.

Lemma loop_ends : forall n inp rderr total idx s, (length inp <= n)%nat -> jinv s ->
  exists k, forall h o, exists x, x <> NoFuel /\ forall fuel dfuel, (k <= fuel)%nat -> (k <= dfuel)%nat -> exec (extract_loop fuel dfuel inp rderr total idx s h) o = x.
Proof.
  induction n as [n IH] using (well_founded_induction Wf_nat.lt_wf). intros inp rderr total idx s Hn J.
  assert (Step : forall f dfuel h, extract_loop (S f) dfuel inp rderr total idx s h =
    (let n := next_size archive total in
    if n <? 1 then PRet (true, s, h, [])
    else
      let d := takeN n inp in
      let short := lenN d <? n in
      if short && rderr then PRet (false, s, h, [])
      else
        let flush := Z.of_N (N.shiftr (N.land (idx + 1) 16) 4) in
        pdo x <- plift (decompress e alloc dfuel flush d s);
        let '(ret, s1, evs) := x in
        pdo h1 <- cbs evs h;
        if short || h_err h1 then PRet (true, s1, h1, d)
        else
          pdo y <- extract_loop f dfuel (dropN n inp) rderr (total + lenN d) (idx + 1) s1 h1;
          let '(ok, s2, h2, ds) := y in PRet (ok, s2, h2, d ++ ds))) by reflexivity.
  cbv zeta in Step. set (m := next_size archive total) in *.
  destruct (N.ltb_spec m 1) as [Hm|Hm].
  { exists 1%nat. intros h o. exists (Ok ((true, s, h, []), o)). split; [discriminate|]. intros [|f] df L1 L2; [lia|]. now rewrite Step. }
  destruct ((lenN (takeN m inp) <? m) && rderr) eqn:Es.
  { exists 1%nat. intros h o. exists (Ok ((false, s, h, []), o)). split; [discriminate|]. intros [|f] df L1 L2; [lia|]. now rewrite Step. }
  destruct (decompress_ends _ (takeN m inp) s J (loop_flush idx)) as (n1 & x1 & R1 & Q1).
  destruct x1 as [[[r1 s1] ev1]| |]; [| |contradiction].
  2:{ exists (S n1). intros h o. exists UB. split; [discriminate|]. intros [|f] df L1 L2; [lia|]. rewrite Step, R1 by lia. reflexivity. }
  cbn [fst snd] in Q1.
  assert (Rec : exists k, lenN (takeN m inp) <? m = false -> forall h o, exists x, x <> NoFuel /\ forall fuel dfuel, (k <= fuel)%nat -> (k <= dfuel)%nat ->
      exec (extract_loop fuel dfuel (dropN m inp) rderr (total + lenN (takeN m inp)) (idx + 1) s1 h) o = x).
  { destruct (lenN (takeN m inp) <? m) eqn:El; [exists 0%nat; discriminate|].
    destruct (IH (length (dropN m inp))) with (inp := dropN m inp) (rderr := rderr) (total := total + lenN (takeN m inp)) (idx := idx + 1) (s := s1) as (k & K).
    - apply N.ltb_ge in El. rewrite lenN_takeN in El. rewrite dropN_skipn, skipn_length. unfold lenN in El. lia.
    - lia.
    - exact Q1.
    - exists k. intros _. exact K. }
  destruct Rec as (k & K). exists (S (Nat.max n1 k)). intros h o.
  pose proof (exec_live _ (cbs_live ev1 h) o) as Lv. destruct (exec (cbs ev1 h) o) as [[h1 o1]| |] eqn:Ex; [| |congruence].
  - destruct ((lenN (takeN m inp) <? m) || h_err h1) eqn:Eq.
    + exists (Ok ((true, s1, h1, takeN m inp), o1)). split; [discriminate|]. intros [|f] df L1 L2; [lia|]. rewrite Step, R1 by lia.
      cbn [plift pbind]. rewrite exec_bind, Ex. cbn [obind]. now rewrite Eq.
    + apply orb_false_elim in Eq as Eq'. destruct Eq' as [Eq1 Eq2]. destruct (K Eq1 h1 o1) as (x & Hx & X).
      exists (do (y, o2) <- x; let '(ok, s2, h2, ds) := y in Ok ((ok, s2, h2, takeN m inp ++ ds), o2)). split.
      * destruct x as [[[[[ok s2] h2] ds] o2]| |]; cbn [obind]; congruence.
      * intros [|f] df L1 L2; [lia|]. rewrite Step, R1 by lia. cbn [plift pbind]. rewrite exec_bind, Ex. cbn [obind]. rewrite Eq, exec_bind, X by lia.
        destruct x as [[[[[ok s2] h2] ds] o2]| |]; reflexivity.
  - exists UB. split; [discriminate|]. intros [|f] df L1 L2; [lia|]. rewrite Step, R1 by lia. cbn [plift pbind]. rewrite exec_bind, Ex. reflexivity.
Qed.

Lemma extract_ends al obuf hjunk pjunk inp rderr : DEF_CHUNK_SIZE <= lenN obuf -> lenN hjunk = 128 -> lenN (p_img pjunk) = 40 ->
  exists k, forall o, exists x, x <> NoFuel /\ forall fuel dfuel, (k <= fuel)%nat -> (k <= dfuel)%nat ->
    exec (extract target hal stk z e alloc archive fuel dfuel al obuf hjunk pjunk inp rderr) o = x.
Proof.
  intros Hb Hh Hp. unfold extract. destruct (_ || _).
  { exists 0%nat. intro o. eexists. split; [|intros; reflexivity]. discriminate. }
  destruct (create z (al 3) (Some obuf) DEF_CHUNK_SIZE hjunk pjunk) as [s0|] eqn:Ec.
  2:{ exists 0%nat. intro o. eexists. split; [|intros; reflexivity]. discriminate. }
  assert (S : started z s0).
  { exists (Some obuf), DEF_CHUNK_SIZE, hjunk, pjunk. split; [|split; [|auto]].
    - unfold create in *. destruct (al 3); [exact Ec|discriminate].
    - exists obuf. split; [reflexivity|]. split; [exact Hb|]. unfold DEF_CHUNK_SIZE, two32. lia. }
  destruct (loop_ends _ inp rderr 0 0 s0 (le_n _) (started_jinv _ S)) as (k & K). exists k. intro o.
  destruct (K HS0 o) as (x & Hx & X).
  exists (do (a, o1) <- x; let '(ok, s, h, ds) := a in exec (pdo u <- close_fp h; pdo s' <- plift (destroy s); PRet (if ok then h_ret h else ContentNone, Some (s, h, ds))) o1).
  split.
  - destruct x as [[[[[ok s] h] ds] o1]| |]; cbn [obind]; try congruence. apply exec_live. apply live_bind.
    + unfold close_fp. destruct (h_fp h); [|exact I]. apply live_bind; [apply live_sys|intro; exact I].
    + intro u. apply live_bind; [apply live_lift, destroy_fuel|intro; exact I].
  - intros fuel dfuel L1 L2. rewrite exec_bind, X by assumption. destruct x as [[[[[ok s] h] ds] o1]| |]; reflexivity.
Qed.
End Ext.
End Halt.
