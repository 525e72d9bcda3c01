(** ArchiveProps.v: statements of C04 and C27-C38. *)
From Coq Require Import Lia.
From Verif Require Import Base Format Zlib LLCompress CompressFacts Compress Parser ParserProofs ParserFacts
  Decompress DecompressProofs MidProofs MidFacts ArchiveSpec ArchiveFacts ArchiveDecode ArchiveEntry.

(** ** Determinism of the traversal of quiet trees *)
Lemma trav_det {F} (filt : F -> list bytes -> bytes -> skind -> Z * F) f js f1 vs1 rs1 t1 : trav filt f js f1 vs1 rs1 t1 ->
  Forall (job_all (fun _ x => quiet x)) js -> forall f2 vs2 rs2 t2, trav filt f js f2 vs2 rs2 t2 ->
  f1 = f2 /\ vs1 = vs2 /\ rs1 = rs2 /\ t1 = t2.
Proof.
  induction 1; intros Fj f2 vs2 rs2 t2 T2; try (inversion Fj as [|? ? Hj Fjs]; subst);
    inversion T2; subst; cbn [kind_of] in *; try contradiction; try congruence; auto;
    try (inversion Hj; fail);
    try (match goal with Q : filt ?a ?b ?c ?d = _, Q' : filt ?a ?b ?c ?d = _ |- _ => rewrite Q in Q'; injection Q' as <- ; subst end);
    try contradiction; try congruence; auto;
    try (match goal with Q : filt ?a ?b ?c ?d = _, Q' : filt ?a ?b ?c ?d = _ |- _ => rewrite Q in Q'; injection Q' as <- <- end);
    try contradiction; auto;
    try (inversion Hj; subst; match goal with J : ?j <> [], L : _ + lenN ?j = _ |- _ => destruct j; [contradiction|rewrite lenN_cons in L; lia] end);
    try (inversion Hj; subst; lia);
    try (inversion Hj; subst; match goal with J : _ = false \/ _ = false |- _ => destruct J; discriminate end);
    (edestruct IHtrav as (A & B & D & E); [|eassumption|subst; auto]);
    try assumption.
  - inversion Hj; subst. now apply (Forall_entries (fun _ x => quiet x)).
  - destruct junk; [contradiction|]. rewrite lenN_cons in *. lia.
Qed.

Lemma quiet_steady : forall x, quiet x -> steady x.
Proof.
  induction x as [o st m sz d r|m es IH|m sz t|] using snode_ind2; intro H; inversion H; subst; constructor.
  rewrite Forall_forall in *. intros y Hy. auto.
Qed.

(** ** Everything below can be read ("." and ".." are not looked at) *)
Inductive sound : bytes -> snode -> Prop :=
| so_dot name nd : dotted name -> sound name nd
| so_file name mode size data : sound name (SFile true true mode size data false)
| so_dir name mode es : Forall (fun x => sound (fst x) (snd x)) es -> sound name (SDir mode es)
| so_link name mode size target : sound name (SLink mode size target)
| so_other name : sound name SOther.

Inductive links_hold : snode -> Prop :=
| lh_file o s m z d r : links_hold (SFile o s m z d r)
| lh_dir m es : Forall (fun x => links_hold (snd x)) es -> links_hold (SDir m es)
| lh_link m z d : lenN d <= z -> links_hold (SLink m z (Some d))
| lh_other : links_hold SOther.

Section Trav.
Context {F : Type} (filt : F -> list bytes -> bytes -> skind -> Z * F).

Lemma trav_sound f js f' vs rs t : trav filt f js f' vs rs t -> Forall (job_all sound) js -> t <> Failed.
Proof.
  induction 1; intro Fj; try (inversion Fj as [|? ? Hj Fjs]; subst); try discriminate; auto.
  - inversion Hj; subst; [contradiction|]. apply IHtrav. now apply Forall_entries.
  - inversion Hj; subst; [contradiction|]. destruct H1; discriminate.
  - inversion Hj; contradiction.
Qed.

Lemma trav_all_sound f js f' vs rs t : (forall f d n k, fst (filt f d n k) = 0%Z) -> trav filt f js f' vs rs t ->
  t = Done -> Forall (job_all sound) js.
Proof.
  intro H0. induction 1; intro Ht; try discriminate.
  - constructor.
  - constructor; [exact I|auto].
  - constructor; [now apply so_dot|auto].
  - specialize (H0 f dir name (kind_of nd)). rewrite H1 in H0. contradiction.
  - specialize (IHtrav Ht). apply Forall_app in IHtrav. destruct IHtrav as [A B]. inversion B; subst.
    constructor; [|assumption]. apply so_dir. clear - A. unfold jobs in A. rewrite Forall_map in A. exact A.
  - constructor; [apply so_file|auto].
  - constructor; [apply so_link|auto].
  - constructor; [apply so_link|auto].
  - constructor; [apply so_other|auto].
Qed.

Lemma trav_links f js f' vs rs t : trav filt f js f' vs rs t -> Forall (job_all (fun _ x => links_hold x)) js -> t <> Died.
Proof.
  induction 1; intro Fj; try (inversion Fj as [|? ? Hj Fjs]; subst); try discriminate; auto.
  - inversion Hj; subst. apply IHtrav. now apply (Forall_entries (fun _ x => links_hold x)).
  - inversion Hj; subst. lia.
Qed.
End Trav.

(** ** A prefix of the records *)
Lemma encodes_split a : forall b x, encodes (a ++ b) x -> exists y z, x = y ++ z /\ encodes a y /\ encodes b z.
Proof.
  induction a as [|r a IH]; intros b x H.
  - exists [], x. split; [reflexivity|]. split; [constructor|exact H].
  - cbn [app] in H. inversion H; subst;
      match goal with E : encodes (a ++ b) _ |- _ => destruct (IH _ _ E) as (y & zz & -> & Ey & Ez) end;
      rewrite ?app_assoc; (eexists _, zz; split; [reflexivity|]; split; [|exact Ez]); rewrite <- ?app_assoc; constructor; assumption.
Qed.

Section Prefix.
Context (e : endian) (alloc : N -> N -> bool).
Hypothesis Halloc : forall k n, alloc k n = true.

Lemma decode_prefix good more chunks s s' evs : at_hdr e s -> encodes (good ++ more) (ctext chunks) -> Forall rec_ok good ->
  parse_chunks e alloc s chunks = Ok (s', evs) -> exists o, shows good o /\ prefix o (flat evs).
Proof.
  intros Hs En Ok0 H. destruct (encodes_split _ _ _ En) as (y & w & E & Ey & Ew).
  destruct w as [|w0 wr].
  - exists (flat evs). split; [|apply prefix_refl]. rewrite app_nil_r in E. eapply decode_chunks; eauto. rewrite E. exact Ey.
  - destruct (parse_chunks_prefix e alloc [(y, [])] chunks (w0 :: wr) s (proj1 Hs)) as (s1 & ev1 & s2 & ev2 & E1 & E2 & P);
      [discriminate|rewrite E; change (ctext [(y, [])]) with (y ++ []); now rewrite app_nil_r|].
    rewrite H in E2. injection E2 as <- <-. exists (flat ev1). split; [|exact P].
    eapply decode_chunks; eauto. change (ctext [(y, [])]) with (y ++ []). now rewrite app_nil_r.
Qed.
End Prefix.

(** ** Ledger *)
Definition allocated (i : N) (l : list lev) : nat := length (filter (fun x => match x with LMalloc j => i =? j | _ => false end) l).
Definition freed (i : N) (l : list lev) : nat := length (filter (fun x => match x with LFree j => i =? j | _ => false end) l).
Definition released (l : list lev) : Prop := forall i, allocated i l = freed i l.

Lemma released6 : released [LMalloc 1; LMalloc 2; LMalloc 3; LFree 3; LFree 2; LFree 1].
Proof. intro i. unfold allocated, freed. cbn [filter]. destruct (i =? 1), (i =? 2), (i =? 3); reflexivity. Qed.
Lemma released2 : released [LMalloc 1; LFree 1].
Proof. intro i. unfold allocated, freed. cbn [filter]. destruct (i =? 1); reflexivity. Qed.

Section Statements.
Context (z : zlib) (C : zlib_contract z) {F : Type}.
Implicit Types (filt : F -> list bytes -> bytes -> skind -> Z * F).

(** C29 and relatives: a complete run of archiving and decoding.  The archive was delivered completely (the last
    deflate step did not fill its buffer, C06) and the last inflate step did not fill its buffer (C13). *)
Definition run_of filt root nested xs f0 (r : cres) (wx : list wev) (evs : list event) : Prop :=
  exists e jk hj xjk hjunk al fuel level clbk cevs ws led e' alloc fuel' (s0 : dsess z) ops rets s,
    junk_ok jk hj xjk hjunk /\ tree_fits root /\ Forall xb_ok xs /\
    compress_dir z e filt jk hj xjk hjunk al fuel level clbk nested xs root f0 = Ok (r, cevs, ws, wx, led) /\
    created z al level /\ last_not_full cevs /\
    (forall k n, alloc k n = true) /\ started z s0 /\ Forall dop_ok ops /\ dfed ops = cev_bytes cevs /\
    run_dops e' alloc fuel' s0 ops = Ok (rets, s, evs) /\ room_left s.

Lemma run_presents filt root nested xs f0 r wx evs : run_of filt root nested xs f0 r wx evs -> tree_steady root ->
  exists xr recs f1 t, xrecs nested xs xr /\ trav filt f0 (jobs [] (listing root)) f1 (visits wx) recs t /\
    r = ret_of t /\ (t = Failed \/ presents (xr ++ recs) evs).
Proof.
  intros (e & jk & hj & xjk & hjunk & al & fuel & level & clbk & cevs & ws & led & e' & alloc & fuel' & s0 & ops & rets & s &
    J & Ft & Fx & H & Cr & L & Ha & Hs & Ho & Hd & Hr & Rl) Fs.
  destruct (dir_round_trip z C e filt jk hj xjk hjunk al _ _ _ _ _ _ _ _ _ _ _ _ _ _ _ _ _ _ _ _ J Ft Fs Fx H Cr L Ha Hs Ho Hd Hr Rl) as (_ & Q).
  exact Q.
Qed.

(** C29 *)
Definition accepts filt : Prop := forall f d n k, fst (filt f d n k) = 0%Z.

Lemma round_trip_all filt es f0 r wx evs : run_of filt (Some es) false [] f0 r wx evs -> accepts filt ->
  Forall (fun x => quiet (snd x)) es -> r = CRet 0 /\ presents (preorder es) evs.
Proof.
  intros H Ha Q.
  destruct (run_presents _ _ _ _ _ _ _ _ H) as (xr & recs & f1 & t & X & T & -> & P).
  { unfold tree_steady. cbn. eapply Forall_impl; [|exact Q]. intros. now apply quiet_steady. }
  cbn in X. subst xr.
  destruct (trav_pure (fun _ _ _ => 0%Z) filt Ha ltac:(discriminate) _ _ _ _ _ _ T) as (-> & _ & E).
  { apply (jobs_all (fun _ x => quiet x)). exact Q. }
  rewrite kept_jobs, kept_all in E. cbn [listing] in E. subst recs. split; [reflexivity|]. destruct P as [P|P]; [discriminate|exact P].
Qed.

(** C30 *)
Lemma filter_semantics filt ans es f0 r wx evs : run_of filt (Some es) false [] f0 r wx evs ->
  (forall f d n k, fst (filt f d n k) = ans d n k) -> (forall d n k, ans d n k <> 387%Z) ->
  Forall (fun x => quiet (snd x)) es ->
  r = CRet 0 /\ visits wx = asked ans [] es /\ presents (kept ans [] es) evs.
Proof.
  intros H Ha Hn Q.
  destruct (run_presents _ _ _ _ _ _ _ _ H) as (xr & recs & f1 & t & X & T & -> & P).
  { unfold tree_steady. cbn. eapply Forall_impl; [|exact Q]. intros. now apply quiet_steady. }
  cbn in X. subst xr.
  destruct (trav_pure ans filt Ha Hn _ _ _ _ _ _ T) as (-> & V & E).
  { apply (jobs_all (fun _ x => quiet x)). exact Q. }
  rewrite kept_jobs in E. rewrite asked_jobs in V. cbn [listing] in E, V. subst recs. split; [reflexivity|]. split; [exact V|].
  destruct P as [P|P]; [discriminate|exact P].
Qed.

(** C30 for every filter, also one with memory: the traversal relation. *)
Lemma filter_general filt root f0 r wx evs : run_of filt root false [] f0 r wx evs -> tree_steady root ->
  exists recs f1 t, trav filt f0 (jobs [] (listing root)) f1 (visits wx) recs t /\
    (r = CRet 0 -> presents recs evs /\ archived recs = accepted (visits wx)).
Proof.
  intros H Fs. destruct (run_presents _ _ _ _ _ _ _ _ H Fs) as (xr & recs & f1 & t & X & T & -> & P). cbn in X. subst xr.
  exists recs, f1, t. split; [exact T|]. intro R.
  assert (Ht : t = Done \/ t = Stopped) by (destruct t; auto; discriminate).
  split; [destruct P as [->|P]; [destruct Ht; discriminate|exact P]|]. eapply trav_accepted; eauto.
Qed.

(** C31 *)
Lemma filter_stops filt root f0 r wx evs : run_of filt root false [] f0 r wx evs -> tree_steady root ->
  (exists v, In v (visits wx) /\ v_answer v = 387%Z) ->
  r = CRet 0 /\
  (exists vs' v, visits wx = vs' ++ [v] /\ v_answer v = 387%Z /\ Forall (fun v => v_answer v <> 387%Z) vs') /\
  exists recs, presents recs evs /\ balanced 0 recs /\ archived recs = accepted (visits wx).
Proof.
  intros H Fs (v & Hv & Hv'). destruct (run_presents _ _ _ _ _ _ _ _ H Fs) as (xr & recs & f1 & t & X & T & -> & P). cbn in X. subst xr.
  destruct (trav_stop filt _ _ _ _ _ _ T) as [S1 S2].
  assert (Ht : t = Stopped).
  { destruct t; auto; (exfalso; assert (Q : Forall (fun v => v_answer v <> 387%Z) (visits wx)) by (apply S2; discriminate);
      rewrite Forall_forall in Q; exact (Q v Hv Hv')). }
  subst t. split; [reflexivity|]. split; [now apply S1|]. exists recs. split; [destruct P as [P|P]; [discriminate|exact P]|].
  split.
  { pose proof (trav_balanced filt _ _ _ _ _ _ T) as B. rewrite <- (app_nil_r (jobs _ _)), opened_jobs in B. apply B. discriminate. }
  apply (trav_accepted filt _ _ _ _ _ _ T). auto.
Qed.

(** C32, C33: no assumption about delivery. *)
Lemma failures_reported e filt jk hj xjk hjunk al fuel level clbk nested xs root f0 r cevs ws wx led :
  junk_ok jk hj xjk hjunk -> tree_fits root -> Forall xb_ok xs -> created z al level ->
  compress_dir z e filt jk hj xjk hjunk al fuel level clbk nested xs root f0 = Ok (r, cevs, ws, wx, led) ->
  (Forall (fun x => sound (fst x) (snd x)) (listing root) -> r <> CRet 2) /\
  (r = CRet 2 -> exists vs' d n, visits wx = vs' ++ [Visit d n KFile 0] /\
     exists xr recs last k content, xrecs nested xs xr /\ encodes (xr ++ recs ++ last ++ repeat AEnd k) content /\
       archived recs = accepted vs' /\ (last = [] \/ exists mode size data, last = [ABroken n mode size data]) /\
       prefix (zc_dec C (cev_bytes cevs)) (header_image e ContentDirectory hjunk ++ content)) /\
  (accepts filt -> Forall (fun x => links_hold (snd x)) (listing root) ->
     (r = CRet 0 /\ Forall (fun x => sound (fst x) (snd x)) (listing root)) \/ r = CRet 2).
Proof.
  intros J Ft Fx Cr H. destruct (compress_dir_spec z C e filt jk hj xjk hjunk al _ _ _ _ _ _ _ _ _ _ _ _ J Ft Fx H)
    as [(Q & _)|(_ & xr & recs & content & X1 & T & En & R & P & _)]; [contradiction|]. subst r. split; [|split].
  - intros S R. apply (trav_sound filt _ _ _ _ _ _ T); [now apply jobs_all|]. destruct (tend_of ws); cbn in R; congruence.
  - intro R. assert (Ht : tend_of ws = Failed) by (destruct (tend_of ws); cbn in R; congruence).
    destruct (trav_failed filt _ _ _ _ _ _ T Ht) as (vs' & d & n & V & rs' & last & k & -> & A & L).
    exists vs', d, n. split; [exact V|]. exists xr, rs', last, k, content. auto.
  - intros Ha Hl. destruct (tend_of ws) eqn:Ht; cbn [ret_of]; auto.
    + left. split; [reflexivity|]. pose proof (trav_all_sound filt _ _ _ _ _ _ Ha T eq_refl) as S.
      unfold jobs in S. rewrite Forall_map in S. exact S.
    + exfalso. destruct (trav_stop filt _ _ _ _ _ _ T) as [S1 _]. destruct (S1 eq_refl) as (vs' & v & Ev & Av & _).
      assert (G : forall f js f' vs rs t, trav filt f js f' vs rs t -> Forall (fun v => v_answer v = 0%Z) vs).
      { clear - Ha. assert (Hf : forall f d n k a f1, filt f d n k = (a, f1) -> a = 0%Z) by (intros f d n k a f1 Q; rewrite <- (Ha f d n k), Q; reflexivity).
        induction 1; try constructor; auto; cbn; eauto. }
      apply G in T. rewrite Ev in T. apply Forall_app in T. destruct T as [_ T]. inversion T; subst. congruence.
    + exfalso. apply (trav_links filt _ _ _ _ _ _ T); [|reflexivity]. now apply (jobs_all (fun _ x => links_hold x)).
Qed.

Lemma markers_balanced e filt jk hj xjk hjunk al fuel level clbk nested xs root f0 r cevs ws wx led :
  junk_ok jk hj xjk hjunk -> tree_fits root -> Forall xb_ok xs -> created z al level ->
  compress_dir z e filt jk hj xjk hjunk al fuel level clbk nested xs root f0 = Ok (r, cevs, ws, wx, led) -> r <> CExit ->
  exists recs content, encodes recs content /\ balanced 0 recs /\
    prefix (zc_dec C (cev_bytes cevs)) (header_image e ContentDirectory hjunk ++ content) /\
    (last_not_full cevs -> zc_dec C (cev_bytes cevs) = header_image e ContentDirectory hjunk ++ content).
Proof.
  intros J Ft Fx Cr H Hr. destruct (compress_dir_spec z C e filt jk hj xjk hjunk al _ _ _ _ _ _ _ _ _ _ _ _ J Ft Fx H)
    as [(Q & _)|(_ & xr & recs & content & X1 & T & En & R & P & _ & _ & L)]; [contradiction|].
  exists (xr ++ recs), content. split; [exact En|]. split; [|auto].
  apply (balanced_app _ 0 0); [now apply (xrecs_balanced nested xs)|].
  pose proof (trav_balanced filt _ _ _ _ _ _ T) as B. rewrite <- (app_nil_r (jobs _ _)), opened_jobs in B. apply B.
  destruct (tend_of ws); cbn in R; congruence.
Qed.

(** C34: what remains: everything archived before the changed file. *)
Lemma before_change filt root nested xs f0 r wx evs : run_of filt root nested xs f0 r wx evs ->
  exists xr f1 rs t, xrecs nested xs xr /\ trav filt f0 (jobs [] (listing root)) f1 (visits wx) rs t /\
    forall good more, xr ++ rs = good ++ more -> Forall rec_ok good -> good <> [] ->
    exists evs' o, evs = EvDirBegin :: evs' /\ shows good o /\ prefix o (flat evs').
Proof.
  intros (e & jk & hj & xjk & hjunk & al & fuel & level & clbk & cevs & ws & led & e' & alloc & fuel' & s0 & ops & rets & s &
    J & Ft & Fx & H & Cr & L & Ha & Hs & Ho & Hd & Hr & Rl).
  destruct (compress_dir_spec z C e filt jk hj xjk hjunk al _ _ _ _ _ _ _ _ _ _ _ _ J Ft Fx H)
    as [(Q & _)|(_ & xr & recs & content & X1 & T & En & R & P & B & Fi & Q)]; [contradiction|].
  specialize (Q L). destruct J as (_ & _ & _ & J4).
  destruct (header_archive e ContentDirectory hjunk content J4 eq_refl) as [Ar Dr]. rewrite <- Q in Ar, Dr. rewrite <- Hd in Ar, Dr, B, Fi, Q.
  destruct (dir_session z C e' alloc _ _ _ _ _ _ Hs Ho Ar Hr) as [D1 D2]. destruct (D2 B Fi) as [D3 D4].
  exists xr, (w_f ws), recs, (tend_of ws). split; [exact X1|]. split; [exact T|]. intros good more Eg Og Ng.
  assert (Hc : content <> []) by (eapply encodes_nonempty; [exact En|rewrite Eg; destruct good; [contradiction|discriminate]]).
  assert (L1 : 128 < lenN (zc_dec C (dfed ops))).
  { rewrite Q, lenN_app, lenN_header_image by exact J4. destruct content; [contradiction|]. rewrite lenN_cons. lia. }
  destruct (D4 Rl L1) as (ch & ev' & -> & (s' & De) & Ec).
  destruct (decode_prefix e' alloc Ha good more ch (dir_fresh (set_err false (d_p s0))) s' ev') as (o & O1 & O2); auto.
  { apply fresh_at_hdr, (started_leftovers z), Hs. } { rewrite Ec, Dr, <- Eg. exact En. }
  exists ev', o. auto.
Qed.

(** C35, C36 *)
Lemma extra_root filt es xs f0 r wx evs : run_of filt (Some es) false xs f0 r wx evs -> tree_steady (Some es) ->
  r = CRet 0 -> exists recs, archived recs = accepted (visits wx) /\
    presents (map (fun x => AFile (xb_path x) (xb_mode x) (lenN (xb_data x)) (xb_data x)) xs ++ recs) evs.
Proof.
  intros H Fs R. destruct (run_presents _ _ _ _ _ _ _ _ H Fs) as (xr & recs & f1 & t & X & T & R' & P). cbn in X. subst xr.
  exists recs. assert (Ht : t = Done \/ t = Stopped) by (subst r; destruct t; auto; discriminate).
  split; [eapply trav_accepted; eauto|]. destruct P as [->|P]; [destruct Ht; discriminate|exact P].
Qed.

Lemma extra_nested filt es xs f0 r wx evs : run_of filt (Some es) true xs f0 r wx evs -> tree_steady (Some es) ->
  r = CRet 0 -> exists rss recs, archived recs = accepted (visits wx) /\
    Forall2 (fun x rs => exists ds f, xb_path x = slashed ds f /\ Forall no_slash ds /\ no_slash f /\
      exists dm fm, rs = map (fun d => ADir d dm) ds ++ [AFile f fm (lenN (xb_data x)) (xb_data x)] ++ repeat AEnd (length ds)) xs rss /\
    presents (concat rss ++ recs) evs.
Proof.
  intros H Fs R. destruct (run_presents _ _ _ _ _ _ _ _ H Fs) as (xr & recs & f1 & t & (rss & X & ->) & T & R' & P).
  exists rss, recs. assert (Ht : t = Done \/ t = Stopped) by (subst r; destruct t; auto; discriminate).
  split; [eapply trav_accepted; eauto|]. split; [|destruct P as [->|P]; [destruct Ht; discriminate|exact P]].
  clear - X. induction X as [|x rs xs rss (ds & f & A & B & D & ->) X IH]; constructor; [|exact IH].
  exists ds, f. split; [exact A|]. split; [exact B|]. split; [exact D|]. exists 0, 420. reflexivity.
Qed.

(** C37: what remains: the mode is 0644 whatever was given. *)
Lemma nested_mode filt es xs f0 r wx evs : run_of filt (Some es) true xs f0 r wx evs -> tree_steady (Some es) ->
  r = CRet 0 -> exists rss recs, archived recs = accepted (visits wx) /\
    Forall2 (fun x rs => exists ds f, xb_path x = slashed ds f /\ Forall no_slash ds /\ no_slash f /\
      rs = map (fun d => ADir d 0) ds ++ [AFile f 420 (lenN (xb_data x)) (xb_data x)] ++ repeat AEnd (length ds)) xs rss /\
    presents (concat rss ++ recs) evs.
Proof.
  intros H Fs R. destruct (run_presents _ _ _ _ _ _ _ _ H Fs) as (xr & recs & f1 & t & (rss & X & ->) & T & R' & P).
  exists rss, recs. assert (Ht : t = Done \/ t = Stopped) by (subst r; destruct t; auto; discriminate).
  split; [eapply trav_accepted; eauto|]. split; [exact X|destruct P as [->|P]; [destruct Ht; discriminate|exact P]].
Qed.

(** C38: what remains. *)
Lemma ledger e filt jk hj xjk hjunk al fuel level clbk nested xs root f0 r cevs ws wx led :
  compress_dir z e filt jk hj xjk hjunk al fuel level clbk nested xs root f0 = Ok (r, cevs, ws, wx, led) ->
  (al 1 = false \/ al 2 = false \/ created z al level) -> lenN hjunk = 128 -> r <> CExit -> released led.
Proof.
  intros H Cr J Hr. unfold compress_dir in H.
  destruct (al 1) eqn:A1; cbn [negb] in H; [|injection H as <- <- <- <- <-; intro i; reflexivity].
  destruct (al 2) eqn:A2; cbn [negb] in H; [|injection H as <- <- <- <- <-; exact released2].
  destruct Cr as [Q|[Q|(_ & _ & A3 & Hi)]]; try discriminate.
  destruct (create_csession _ _ _ _ _ _ _ _ _ _) as [[so ev0]| |] eqn:Ec; try discriminate H. cbn [obind] in H.
  rewrite A3 in Ec. destruct so as [cs|].
  2:{ pose proof (create_csession_spec _ C _ _ _ _ _ _ _ _ _ _ Ec J) as X. cbn in X.
      destruct X as [[X _]|[[X _]|X]]; [contradiction|discriminate|discriminate]. }
  destruct (walk _ _ _ _ _ _ _) as [s1 wevs]. destruct (run_cops _ _ _) as [[[? ?] ?]| |]; try discriminate H. cbn [obind] in H.
  destruct (w_dead s1); injection H as <- <- <- <- <-; [now destruct Hr|exact released6].
Qed.

Lemma file_ledger e hjunk al fuel level clbk data rderr r cevs led :
  compress_file z e hjunk al fuel level clbk data rderr = Ok (r, cevs, led) -> released led.
Proof.
  intros H. unfold compress_file in H.
  destruct (al 1) eqn:A1; cbn [negb] in H; [|injection H as <- <- <-; intro i; reflexivity].
  destruct (al 2) eqn:A2; cbn [negb] in H; [|injection H as <- <- <-; exact released2].
  destruct (create_csession _ _ _ _ _ _ _ _ _ _) as [[so ev0]| |] eqn:Ec; try discriminate H. cbn [obind] in H.
  destruct so as [cs|]; [|discriminate]. destruct (read_file data rderr). destruct (run_cops _ _ _) as [[[? ?] ?]| |]; try discriminate H. cbn [obind] in H.
  injection H as <- <- <-. exact released6.
Qed.

(** C04: what remains: two archives of the same quiet tree present the same records, whatever uninitialised memory
    contained, whatever the level and the byte orders. *)
Lemma same_contents filt root f0 r1 r2 wx1 wx2 evs1 evs2 :
  run_of filt root false [] f0 r1 wx1 evs1 -> run_of filt root false [] f0 r2 wx2 evs2 ->
  Forall (fun x => quiet (snd x)) (listing root) ->
  r1 = r2 /\ visits wx1 = visits wx2 /\ exists recs, presents recs evs1 /\ presents recs evs2.
Proof.
  intros H1 H2 Q.
  assert (Fs : tree_steady root) by (unfold tree_steady; eapply Forall_impl; [|exact Q]; intros; now apply quiet_steady).
  assert (Sd : Forall (fun x => sound (fst x) (snd x)) (listing root)).
  { eapply Forall_impl; [|exact Q]. intros [n x]. cbn. revert n. clear.
    induction x as [o st m sz d r|m es IH|m sz t|] using snode_ind2; intros n H; inversion H; subst; [apply so_file|apply so_dir|apply so_link|apply so_other].
    rewrite Forall_forall in *. intros y Hy. auto. }
  destruct (run_presents _ _ _ _ _ _ _ _ H1 Fs) as (xr1 & recs1 & f1 & t1 & X1 & T1 & -> & P1).
  destruct (run_presents _ _ _ _ _ _ _ _ H2 Fs) as (xr2 & recs2 & f2 & t2 & X2 & T2 & -> & P2). cbn in X1, X2. subst xr1 xr2.
  assert (Nf : forall t rs vs ff, trav filt f0 (jobs [] (listing root)) ff vs rs t -> t <> Failed).
  { intros t rs vs ff T. apply (trav_sound filt _ _ _ _ _ _ T). now apply jobs_all. }
  pose proof (Nf _ _ _ _ T1) as N1. pose proof (Nf _ _ _ _ T2) as N2.
  destruct (trav_det filt _ _ _ _ _ _ T1) with (2 := T2) as (_ & E2 & E3 & E4); [now apply (jobs_all (fun _ x => quiet x))|].
  subst. split; [reflexivity|]. split; [exact E2|]. exists recs2. split; [destruct P1; [contradiction|assumption]|destruct P2; [contradiction|assumption]].
Qed.
End Statements.
