(** TestToolsSafe.v: extractions of the low level test program that do not reach undefined behaviour. *)
From Coq Require Import Lia.
From Verif Require Import Base Format Zlib LLCompress CompressFacts Compress Parser ParserProofs ParserFacts Decompress DecompressProofs MidProofs MidFacts
  ArchiveSpec ArchiveFacts ArchiveDecode ArchiveEntry ArchiveProps FS FSFacts HL HLSpec HLFacts HLDrive HLProps HLMore ArgParser Tools
  TestTools TestToolsFacts TestToolsProps.

(** The callbacks of a folder archive at depth [d] below its root: every name of a directory lies in its block and has no
    NUL, every other name has one, and no directory ends that was not begun. *)
Fixpoint lt_tame (d : nat) (evs : list event) : Prop :=
  match evs with
  | [] => True
  | EvEntry FtDir it name :: r => it_nlen it <= lenN name /\ ~ In x00 (takeN (it_nlen it) name) /\ lt_tame (S d) r
  | EvEntry _ _ name :: r => In x00 name /\ lt_tame d r
  | EvDirEnd :: r => match d with O => False | S d' => lt_tame d' r end
  | EvFlBegin :: _ | EvFlRead _ :: _ | EvDirBegin :: _ => False
  | _ :: r => lt_tame d r
  end.

(** [n] slashes at least. *)
Definition slashes (n : nat) (s : bytes) : Prop := (n <= count_occ Byte.byte_eq_dec s x2f)%nat.
Definition inside (d : nat) (l : lst) : Prop := exists s, in_ldir l s /\ slashes d s.

Lemma rindex_spec c s : match rindex c s with
  | Some i => exists a n, s = a ++ c :: n /\ ~ In c n /\ lenN a = i
  | None => ~ In c s end.
Proof.
  induction s as [|x s IH]; cbn [rindex]; [auto|]. destruct (rindex c s) as [i|].
  - destruct IH as (a & n & -> & H & <-). exists (x :: a), n. split; [reflexivity|]. split; [exact H|]. rewrite lenN_cons. lia.
  - destruct (byte_eqb x c) eqn:E.
    + apply byte_eqb_spec in E. subst x. exists [], s. auto.
    + intros [->|H]; [|now apply IH]. rewrite (proj2 (byte_eqb_spec c c) eq_refl) in E. discriminate.
Qed.
Lemma cstr_some b : In x00 b -> exists s, cstr b = Some s.
Proof.
  induction b as [|c b IH]; intros H; [contradiction|]. cbn [cstr]. destruct (byte_eqb c x00) eqn:E; [eauto|].
  destruct H as [->|H]; [discriminate|]. destruct (IH H) as (s & ->). eauto.
Qed.

Section Safe.
Context (T : bytes) (hal : N -> bool).
Hypothesis Hal : forall n, hal n = true.
Notation cb := (lt_cb T hal).
Notation cbs := (lt_cbs T hal).

Lemma inside_same d l l' : inside d l -> l_dp l' = l_dp l -> l_dplen l' = l_dplen l -> inside d l'.
Proof. intros (s & (A & B & D) & S) E1 E2. exists s. split; [|exact S]. split; [exact A|]. rewrite E1, E2. auto. Qed.

Lemma tame_step d ev r l o : lt_tame d (ev :: r) -> inside d l ->
  exists l' o' d', exec (cb ev l) o = Ok (l', o') /\ inside d' l' /\ lt_tame d' r.
Proof.
  intros Ht I. pose proof I as (s & (Nz & Ld & junk & E) & Sl).
  destruct ev as [id x| | |x|ft it name|x| | |x t]; cbn [lt_tame] in Ht; try contradiction; cbn [lt_cb].
  - exists l, o, d. split; [reflexivity|]. auto.
  - assert (Fl : In x00 name /\ lt_tame d r -> exists l' o' d', exec match l_dp l with None => PUB | Some dp =>
      with_cstr dp (fun dir => with_cstr name (fun nm =>
        pdo r <- psys (ScOpen false (takeN 4094 (dir ++ x2f :: nm)) (N.land 511 (it_mode it)));
        match r with
        | RFd fd => PRet (LS (l_fp l) (Some fd) (l_dp l) (l_dplen l) (l_err l) (l_n l))
        | _ => PRet (LS (l_fp l) None (l_dp l) (l_dplen l) true (l_n l)) end)) end o = Ok (l', o') /\ inside d' l' /\ lt_tame d' r).
    { intros [Hn Hr]. destruct (cstr_some name Hn) as (nm & En).
      rewrite E. unfold with_cstr. rewrite cstr_app, En by exact Nz. rewrite exec_sys.
      destruct (fst (sys _ o)); cbn [exec]; eexists _, _, d; (split; [reflexivity|]); (split; [|exact Hr]); (eapply inside_same; [exact I|cbn [l_dp]; congruence|reflexivity]). }
    unfold lt_entry. destruct ft; try (exact (Fl Ht)). clear Fl. destruct Ht as (Hl & Nn & Hr). rewrite Hal. cbn [negb].
    rewrite exec_bind. unfold lt_path. rewrite E, Ld. rewrite (proj2 (N.ltb_ge _ _) Hl).
    rewrite (proj2 (N.ltb_ge _ _)) by (rewrite lenN_app; lia). cbn [plift exec obind].
    rewrite takeN_app_exact by reflexivity.
    set (s2 := s ++ x2f :: takeN (it_nlen it) name).
    assert (Nz2 : ~ In x00 s2). { unfold s2. intro Q. apply in_app_or in Q. destruct Q as [Q|[Q|Q]]; [auto|discriminate|auto]. }
    replace (s ++ x2f :: takeN (it_nlen it) name ++ [x00]) with (s2 ++ x00 :: []) by (unfold s2; rewrite <- app_assoc; reflexivity).
    unfold with_cstr. rewrite cstr_app by exact Nz2. rewrite exec_sys.
    set (l1 := LS (l_fp l) (l_fd l) (Some (s2 ++ [x00])) (lenN s + 1 + it_nlen it) (l_err l) (l_n l + 1)).
    assert (I1 : inside (S d) l1).
    { exists s2. split; [split; [exact Nz2|split; [|exists []; reflexivity]]|].
      - cbn [l1 l_dplen]. unfold s2. rewrite lenN_app, lenN_cons, lenN_takeN. lia.
      - unfold slashes, s2 in *. rewrite count_occ_app, count_occ_cons_eq by reflexivity. lia. }
    destruct (fst (sys _ o)); cbn [exec]; eexists _, _, (Datatypes.S d); (split; [reflexivity|]); (split; [|exact Hr]); try exact I1; eapply inside_same; try exact I1; reflexivity.
  - unfold lt_read. rewrite exec_sys. cbn [exec]. exists l, (snd (sys (ScWrite (l_fd l) x) o)), d. auto.
  - unfold lt_file_end. rewrite exec_sys. cbn [exec]. exists l, (snd (sys (ScClose (l_fd l)) o)), d. auto.
  - destruct d as [|d]; [contradiction|]. unfold lt_dir_end. rewrite E. unfold with_cstr. rewrite cstr_app by exact Nz.
    pose proof (rindex_spec x2f s) as R. destruct (rindex x2f s) as [i|].
    2:{ exfalso. unfold slashes in Sl. apply (count_occ_not_In Byte.byte_eq_dec) in R. lia. }
    destruct R as (a & n & -> & Hn & <-). cbn [exec]. eexists _, o, d. split; [reflexivity|]. split; [|exact Ht].
    exists a. split; [|unfold slashes in *; rewrite count_occ_app, count_occ_cons_eq in Sl by reflexivity;
      rewrite (proj1 (count_occ_not_In Byte.byte_eq_dec n x2f) Hn) in Sl; lia].
    split; [intro Q; apply Nz; apply in_or_app; now left|]. split; [reflexivity|]. cbn [l_dp].
    eexists. unfold set_byte. rewrite <- app_assoc. cbn [app]. rewrite takeN_app_exact by reflexivity. reflexivity.
  - exists l, o, d. split; [reflexivity|]. auto.
Qed.

(** Where an extraction is: not begun, in a folder, in a file. *)
Inductive stage (o0 : os) (l : lst) (o : os) : list event -> Prop :=
| st_none : l = LS0 -> stage o0 l o []
| st_new r : l = LS0 -> o = o0 -> (exists o1, sys_mkdir T MODE_0775 o0 = (ROk, o1)) -> lt_tame 0 r -> stage o0 l o (EvDirBegin :: r)
| st_in d r : inside d l -> lt_tame d r -> stage o0 l o r
| st_open ds : l = LS0 -> o = o0 -> (exists fd o1, sys_open true T MODE_FOPEN o0 = (RFd fd, o1)) -> stage o0 l o (EvFlBegin :: map EvFlRead ds)
| st_file fd ds : l_fp l = Some fd -> stage o0 l o (map EvFlRead ds).

Lemma stage_step o0 l o ev r : ~ In x00 T -> stage o0 l o (ev :: r) ->
  exists l' o', exec (cb ev l) o = Ok (l', o') /\ stage o0 l' o' r.
Proof.
  intros Nz H. inversion H as [E1 E2|r' -> -> (o1 & Em) Ht E2|d r' I Ht E2|ds -> -> (fd & o1 & Eo) E2|fd ds Ef E2]; clear H; subst.
  - cbn [lt_cb]. unfold lt_dr_start. rewrite exec_sys. cbn [sys]. rewrite Em. cbn [fst snd]. rewrite Hal. cbn [exec].
    eexists _, o1. split; [reflexivity|]. apply (st_in _ _ _ 0); [|exact Ht]. exists T. split; [|apply Nat.le_0_l].
    split; [exact Nz|]. split; [reflexivity|]. exists []. reflexivity.
  - destruct (tame_step d ev r l o Ht I) as (l' & o' & d' & X & I' & H'). exists l', o'. split; [exact X|]. now apply (st_in _ _ _ d').
  - cbn [lt_cb]. unfold lt_fl_start. rewrite exec_sys. cbn [sys]. rewrite Eo. cbn [fst snd exec].
    eexists _, o1. split; [reflexivity|]. apply (st_file _ _ _ fd). reflexivity.
  - destruct ds as [|d ds]; [discriminate|]. cbn [map] in E2. injection E2 as <- <-. cbn [lt_cb]. unfold lt_fl_read. rewrite Ef, exec_sys. cbn [exec].
    eexists _, _. split; [reflexivity|]. now apply (st_file _ _ _ fd).
Qed.

Lemma exec_cbs_one ev r l o : exec (cbs (ev :: r) l) o = do (l1, o1) <- exec (cb ev l) o; exec (cbs r l1) o1.
Proof. cbn [lt_cbs]. rewrite exec_bind. reflexivity. Qed.

Lemma stage_run o0 : ~ In x00 T -> forall a b l o, stage o0 l o (a ++ b) ->
  exists l' o', exec (cbs a l) o = Ok (l', o') /\ stage o0 l' o' b.
Proof.
  intro Nz. induction a as [|ev a IH]; intros b l o H; [exists l, o; auto|].
  destruct (stage_step _ _ _ _ _ Nz H) as (l1 & o1 & X1 & H1). destruct (IH _ _ _ H1) as (l2 & o2 & X2 & H2).
  exists l2, o2. split; [|exact H2]. rewrite exec_cbs_one, X1. exact X2.
Qed.

Section Loop.
Context (z : zlib) (C : zlib_contract z) (e : endian) (alloc : N -> N -> bool).

(** What a loop left early has fed. *)
Lemma loop_safe o0 fuel dfuel : ~ In x00 T -> forall inp rderr idx s l o rets s' evs, (length inp < fuel)%nat -> safe z C s ->
  run_dops e alloc dfuel s (lt_ops fuel inp idx) = Ok (rets, s', evs) -> stage o0 l o evs ->
  exists b s1 l1 o1, exec (lt_loop T hal z e alloc fuel dfuel inp rderr idx s l) o = Ok ((b, s1, l1), o1) /\ safe z C s1.
Proof.
  intro Nz. induction fuel as [|f IH]; intros inp rderr idx s l o rets s' evs Hf Sf R St; [lia|].
  cbn [lt_ops] in R. cbn [lt_loop]. cbn [run_dops] in R.
  destruct (decompress e alloc dfuel _ (takeN LT_CHUNK inp) s) as [[[r1 s1] ev1]| |] eqn:Ed; try discriminate R. cbn [obind] in R.
  match type of R with obind ?x _ = _ => destruct x as [[[rs s2] ev2]| |] eqn:E2; try discriminate R end. cbn [obind] in R.
  injection R as <- <- <-. destruct (_ && rderr). { exists false, s, l, o. split; [reflexivity|exact Sf]. }
  destruct (stage_run o0 Nz _ _ _ _ St) as (l1 & o1 & X1 & St1).
  cbn [plift pbind]. rewrite exec_bind, X1. cbn [obind].
  assert (Sf1 : safe z C s1).
  { eapply (run_dops_safe z C e alloc dfuel [DFeed (Z.of_N (N.shiftr (N.land (idx + 1) 16) 4)) (takeN LT_CHUNK inp)]); [exact Sf| |cbn [run_dops]; rewrite Ed; reflexivity]. intros b n [Q|[]]. discriminate. }
  destruct (lenN (takeN LT_CHUNK inp) <? LT_CHUNK) eqn:Es; cbn [orb].
  - exists true, s1, l1, o1. auto.
  - destruct (l_err l1). { exists true, s1, l1, o1. auto. }
    assert (Hl : (length (dropN LT_CHUNK inp) < f)%nat).
    { rewrite dropN_skipn, skipn_length. apply N.ltb_ge in Es. rewrite lenN_takeN in Es. unfold lenN, LT_CHUNK in *. lia. }
    exact (IH _ rderr _ _ _ _ _ _ _ Hl Sf1 E2 St1).
Qed.
End Loop.
End Safe.

Section Programs.
Context (z : zlib) (C : zlib_contract z) (e : endian) (jk : N -> bytes) (hj : N -> N -> bytes) (xjk : N -> N -> bytes)
  (hjunk : bytes) (al : N -> bool) (opn : bytes -> bool) (rdf : bytes -> option (bytes * bool))
  (ls : bytes -> option (list (bytes * snode))) (room : N) (hal : N -> bool) (alloc : N -> N -> bool).
Notation llt := (llt_main z e jk hj xjk hjunk al opn rdf ls room hal alloc).

(** What the target has to allow for these callbacks. *)
Definition well_formed (evs : list event) (T : bytes) (o : os) : Prop :=
  evs = [] \/ (exists r o1, evs = EvDirBegin :: r /\ lt_tame 0 r /\ sys_mkdir T MODE_0775 o = (ROk, o1)) \/
  (exists ds fd o1, evs = EvFlBegin :: map EvFlRead ds /\ sys_open true T MODE_FOPEN o = (RFd fd, o1)).

Lemma llt_safe obuf pjunk fuel argv inp T o F rderr : tt_args argv = Some (x62, inp, T) -> rdf inp = Some (F, rderr) ->
  (length F < fuel)%nat -> lt_calm z hal al obuf hjunk pjunk -> ~ In x00 T -> supported z C F ->
  (forall s0 dfuel ops rets s evs, started z s0 -> Forall dop_ok ops -> dfed ops = F ->
     run_dops e alloc dfuel s0 ops = Ok (rets, s, evs) -> well_formed evs T o) ->
  exists dfuel0, forall dfuel, (dfuel0 <= dfuel)%nat -> exists r, llt dfuel obuf pjunk fuel argv o = Ok r.
Proof.
  intros Ea Er Hf Ca Nz Sup Hc.
  destruct (lt_started z C alloc hal al obuf hjunk pjunk Ca) as (s0 & Ec & St & Sf).
  pose proof (lt_ops_ok fuel F 0) as Ho. pose proof (lt_ops_fed fuel F 0 Hf) as Fed.
  destruct (session_returns_ok z C e alloc s0 (lt_ops fuel F 0) St Ho) as (dfuel0 & [[rets s] evs] & R). { now rewrite Fed. }
  exists dfuel0. intros dfuel Hd. specialize (R dfuel Hd).
  assert (Sg : stage T o LS0 o evs).
  { destruct (Hc _ _ _ _ _ _ St Ho Fed R) as [->|[(r & o1 & -> & Ht & Em)|(ds & fd & o1 & -> & Eo)]].
    - now apply st_none.
    - apply st_new; eauto.
    - apply st_open; eauto. }
  destruct (loop_safe T hal (lc_hal _ _ _ _ _ _ Ca) z C e alloc o fuel dfuel Nz F rderr 0 s0 LS0 o rets s evs Hf Sf R Sg) as (rd & s1 & l1 & o1 & X & Sf1).
  destruct (destroy_safe z C alloc s1 Sf1) as (s' & Ds).
  assert (Cl : exists o', exec (lt_close_fp l1) o1 = Ok (tt, o')).
  { unfold lt_close_fp. destruct (l_fp l1); [|eexists; reflexivity]. rewrite exec_sys. cbn [exec]. eauto. }
  destruct Cl as (o' & Cl).
  rewrite (llt_b _ _ _ _ _ _ _ _ _ _ _ _ _ _ _ _ _ _ _ _ _ Ea), Er. unfold lt_extract. rewrite Ec, exec_bind, X. cbn [obind]. rewrite Ds.
  cbn [plift pbind]. rewrite exec_bind, Cl. cbn. eauto.
Qed.

(** Archives of files and blobs, also damaged ones. *)
Lemma llt_safe_file obuf pjunk fuel argv inp T o F rderr typ fd o1 : tt_args argv = Some (x62, inp, T) -> rdf inp = Some (F, rderr) ->
  (length F < fuel)%nat -> lt_calm z hal al obuf hjunk pjunk -> ~ In x00 T ->
  archive_of typ (zc_dec C F) -> typ = ContentFile \/ typ = ContentBlob -> sys_open true T MODE_FOPEN o = (RFd fd, o1) ->
  exists dfuel0, forall dfuel, (dfuel0 <= dfuel)%nat -> exists r, llt dfuel obuf pjunk fuel argv o = Ok r.
Proof.
  intros Ea Er Hf Ca Nz Ar Ty Op. apply (llt_safe _ _ _ _ _ _ _ _ _ Ea Er Hf Ca Nz); [eapply supported_of; exact Ar|].
  intros s0 dfuel ops rets s evs St Ho Fed R. rewrite <- Fed in Ar.
  destruct (file_session z C e alloc _ _ _ _ _ _ _ St Ho Ar Ty R) as [[->|(ds & -> & _)] _]; [now left|].
  right. right. exists ds, fd, o1. auto.
Qed.

(** Archives the library wrote of folders. *)
Definition names_end (recs : list arec) : Prop := Forall (fun r => match r with ADir n _ => ~ In x00 n | _ => True end) recs.

Lemma padded_nul name : lenN name + 8 < two32 -> In x00 (padded name).
Proof.
  intro H. unfold padded. apply in_or_app. right.
  assert (Q : lenN name < norm_len32 (lenN name)) by (destruct (norm_len32_spec _ H); lia).
  assert (E : zeros (norm_len32 (lenN name) - lenN name) <> []).
  { intro Q2. apply (f_equal lenN) in Q2. rewrite lenN_zeros in Q2. unfold lenN in Q2 at 3. cbn in Q2. lia. }
  unfold zeros in *. destruct (N.to_nat _) as [|k]; [contradiction|]. now left.
Qed.

Fixpoint obs_tame (d : nat) (os : list obs) : Prop :=
  match os with
  | [] => True
  | OEntry FtDir it name :: r => it_nlen it <= lenN name /\ ~ In x00 (takeN (it_nlen it) name) /\ obs_tame (S d) r
  | OEntry _ _ name :: r => In x00 name /\ obs_tame d r
  | ODirEnd :: r => match d with O => False | S d' => obs_tame d' r end
  | _ :: r => obs_tame d r
  end.
Lemma obs_tame_bytes d x r : obs_tame d (map OByte x ++ r) = obs_tame d r.
Proof. induction x as [|c x IH]; [reflexivity|exact IH]. Qed.
Lemma flat_tame : forall evs d p p', proto_run p evs = Some p' -> obs_tame d (flat evs) -> lt_tame d evs.
Proof.
  induction evs as [|ev evs IH]; intros d p p' P H; [exact I|]. cbn [proto_run] in P.
  destruct (proto_step p ev) as [p1|] eqn:E; [|discriminate]. rewrite flat_cons in H.
  destruct ev as [id x| | |x|ft it name|x| | |x t]; try (destruct p; discriminate E); cbn [flat1] in H.
  - destruct ft; cbn [app obs_tame lt_tame] in *; intuition eauto.
  - rewrite obs_tame_bytes in H. cbn [lt_tame]. eauto.
  - cbn [app obs_tame lt_tame] in *. eauto.
  - cbn [app obs_tame lt_tame] in *. destruct d; [contradiction|]. eauto.
  - cbn [app obs_tame lt_tame] in *. eauto.
Qed.
Lemma shows_tame recs os : shows recs os -> forall d, Forall rec_ok recs -> names_end recs -> balanced d recs -> obs_tame d os.
Proof.
  induction 1 as [|name mode rs o it E1 E2 E3 E4 S IH|name mode data rs o S IH|name mode target rs o S IH|rs o S IH]; intros d Rk Ne B.
  - exact I.
  - apply Forall_cons_iff in Rk, Ne. destruct Rk as [R1 Rk], Ne as [N1 Ne]. cbn [balanced obs_tame] in *.
    split; [unfold padded; rewrite E1, lenN_app; lia|]. split; [|now apply IH].
    rewrite E1. unfold padded. rewrite takeN_app_exact by reflexivity. exact N1.
  - apply Forall_cons_iff in Rk, Ne. destruct Rk as [(R1 & _) Rk], Ne as [N1 Ne]. cbn [balanced obs_tame] in *.
    split; [now apply padded_nul|]. rewrite obs_tame_bytes. now apply IH.
  - apply Forall_cons_iff in Rk, Ne. destruct Rk as [(R1 & _) Rk], Ne as [N1 Ne]. cbn [balanced obs_tame] in *.
    split; [now apply padded_nul|]. now apply IH.
  - apply Forall_cons_iff in Rk, Ne. destruct Rk as [_ Rk], Ne as [_ Ne]. cbn [balanced obs_tame] in *.
    destruct d; [contradiction|]. now apply IH.
Qed.

Lemma preorder_balanced es : balanced 0 (preorder es).
Proof.
  assert (G : forall x name, balanced 0 (preorder1 name x)).
  { induction x as [o st m sz d r|m es' IH|m sz t|] using snode_ind2; intro name; cbn [preorder1]; destruct (dotb name); try reflexivity.
    - cbn [balanced]. apply (balanced_app _ 0 1); [|reflexivity].
      induction IH as [|x es' Hx IH IH2]; [reflexivity|]. cbn [map concat]. apply (balanced_app _ 0 0); [apply Hx|exact IH2].
    - destruct t; reflexivity. }
  unfold preorder. induction es as [|x es IH]; [reflexivity|]. cbn [map concat]. apply (balanced_app _ 0 0); [apply G|exact IH].
Qed.
Lemma roots_balanced xs : balanced 0 (map root_rec xs).
Proof. induction xs as [|x xs IH]; [reflexivity|exact IH]. Qed.

Lemma llt_safe_dir obuf pjunk fuel argv inp T o F rderr xs es o1 : tt_args argv = Some (x62, inp, T) -> rdf inp = Some (F, rderr) ->
  (length F < fuel)%nat -> lt_calm z hal al obuf hjunk pjunk -> ~ In x00 T -> (forall k n, alloc k n = true) ->
  archives_with z xs es F -> Forall (fun x => quiet (snd x)) es -> names_end (preorder es) -> sys_mkdir T MODE_0775 o = (ROk, o1) ->
  exists dfuel0, forall dfuel, (dfuel0 <= dfuel)%nat -> exists r, llt dfuel obuf pjunk fuel argv o = Ok r.
Proof.
  intros Ea Er Hf Ca Nz Halloc A Q Ne Em. pose proof (dir_archived_with z C xs es F A Q) as Da.
  apply (llt_safe _ _ _ _ _ _ _ _ _ Ea Er Hf Ca Nz); [eapply supported_of; apply Da|].
  intros s0 dfuel ops rets s evs St Ho Fed R. rewrite <- Fed in Da.
  destruct (session_extends z C e alloc Halloc _ _ _ _ _ _ _ St Ho Da R) as (_ & [->|(evs' & more & st & -> & S & P)] & _); [now left|].
  right. left. exists evs', o1. split; [reflexivity|]. split; [|exact Em].
  destruct Da as (_ & _ & _ & _ & Rk).
  assert (Tm : lt_tame 0 (evs' ++ more)).
  { eapply flat_tame; [exact P|]. eapply shows_tame; [exact S|exact Rk| |].
    - apply Forall_app. split; [|exact Ne]. clear. induction xs as [|x xs IH]; [constructor|constructor; [exact I|exact IH]].
    - apply (balanced_app _ 0 0); [apply roots_balanced|apply preorder_balanced]. }
  clear - Tm. revert Tm. generalize 0%nat. induction evs' as [|ev evs IH]; intros d H; [exact I|].
  destruct ev as [id x| | |x|ft it name|x| | |x t]; cbn [app lt_tame] in *; try contradiction; try (now apply IH).
  - destruct ft; intuition.
  - destruct d; [contradiction|now apply IH].
Qed.
End Programs.
