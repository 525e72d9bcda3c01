(** WinParents.v: MkdirRecurseInline as the extraction uses it on Windows creates missing parents; see WinFacts.v for the same facts about [wmkdir_recurse]. *)
From Coq Require Import Lia.
From Verif Require Import Base Format Zlib Compress Parser ParserProofs ParserFacts Decompress DecompressProofs MidProofs MidFacts
  ArchiveSpec ArchiveFacts ArchiveDecode ArchiveProps FS FSFacts HL HLSpec HLFacts HLDrive HLProps HLSafe WinTools WinFacts WinExtract WinExtractSpec WinExtractFacts
  WinExtractTame.

(** ** Spec *)
(** A name that stands for an entry: [wname], and neither "." nor "..". *)
Definition wentry (c : bytes) : Prop := wname c /\ c <> [x2e] /\ c <> [x2e; x2e].

Lemma wentry_names cs : Forall wentry cs -> Forall wname cs.
Proof. apply Forall_impl. now intros c [H _]. Qed.
Lemma xkey_spelled cwd sep B cs : is_sep sep = true -> B <> [] -> Forall wentry cs ->
  xkey cwd (spelled sep B cs) = xkey cwd B ++ map fold_case cs.
Proof.
  intros Hs Hb H. unfold xkey. rewrite spelled_comps by (try assumption; now apply wentry_names).
  unfold spelled. rewrite starts_app by exact Hb. rewrite fold_left_app. generalize (fold_left xstep (wcomps B) (if starts_sep B then [] else cwd)).
  induction H as [|c cs (_ & D1 & D2) H IH]; intro p; cbn [fold_left map]; [now rewrite app_nil_r|].
  unfold xstep at 2. rewrite (bytes_eqb_neq _ _ D1), (bytes_eqb_neq _ _ D2), IH, <- app_assoc. reflexivity.
Qed.
Lemma spelled_ne sep B cs : B <> [] -> spelled sep B cs <> [].
Proof. unfold spelled. destruct B; [contradiction|discriminate]. Qed.
Lemma spelled_len sep B a b : lenN (spelled sep B a) <= lenN (spelled sep B (a ++ b)).
Proof. unfold spelled. rewrite map_app, concat_app, !lenN_app. lia. Qed.

Lemma firstn_snoc_two {A} (cs : list A) c k : firstn k (cs ++ [c]) = firstn k cs \/ firstn k (cs ++ [c]) = cs ++ [c].
Proof.
  rewrite firstn_app. destruct (k - length cs)%nat eqn:E.
  - left. cbn [firstn]. apply app_nil_r.
  - right. rewrite firstn_all2 by lia. cbn [firstn]. destruct n; reflexivity.
Qed.

Section Core.
Context (maxd : N) (deny : path -> bool) (sep : byte) (B : bytes) (w0 : wst).
Hypotheses (U : uniform sep B) (Nz : ~ In x00 B) (Bne : B <> []).
Context (pB : path) (cB : bytes).
Hypothesis EB : xkey (w_cwd w0) B = pB ++ [cB].
Let P := pB ++ [cB].
Notation under := (spelled sep B).
Notation over := (spelled x2f B).
Notation wt := (fun fs => w_setfs fs w0).
Notation fc := (map fold_case).

Lemma xcreate_made s fs p c : s <> [] -> lenN s < maxd -> xkey (w_cwd w0) s = p ++ [c] -> fs (p ++ [c]) = None -> xdir fs p = true -> deny (p ++ [c]) = false ->
  xcreate maxd deny s (wt fs) = (CdMade, wt (xupd fs (p ++ [c]) XDir)).
Proof.
  intros Ne L E H1 H2 H3. unfold xcreate. cbn [w_cwd w_fs w_setfs]. rewrite E, H1, removelast_last, H2, H3.
  destruct s; [contradiction|]. cbn [nonempty negb]. now rewrite (proj2 (N.leb_gt _ _) L).
Qed.
Lemma xcreate_nowhere s fs p c : s <> [] -> lenN s < maxd -> xkey (w_cwd w0) s = p ++ [c] -> fs (p ++ [c]) = None -> xdir fs p = false ->
  xcreate maxd deny s (wt fs) = (CdNoPath, wt fs).
Proof.
  intros Ne L E H1 H2. unfold xcreate. cbn [w_cwd w_fs w_setfs]. rewrite E, H1, removelast_last, H2.
  destruct s; [contradiction|]. cbn [nonempty negb]. now rewrite (proj2 (N.leb_gt _ _) L).
Qed.

Definition xready (fs : xtree) : Prop := (forall r, fs (P ++ r) = None) /\ xdir fs pB = true /\ forall r, deny (P ++ r) = false.
Definition xmade (fs : xtree) (ks : path) (fs' : xtree) : Prop :=
  (forall k, fs' (P ++ firstn k ks) = Some XDir) /\ (forall q, (forall k, q <> P ++ firstn k ks) -> fs' q = fs q).

Lemma xcreate_deep fs cs c cuts s : xready fs -> (s = sep \/ s = x2f) -> Forall wentry (cs ++ [c]) -> lenN (spelled s B (cs ++ [c])) < maxd ->
  xos_create maxd deny (wblock (spelled s B (cs ++ [c])) cuts) (wt fs) = Ok (2%Z, wt fs).
Proof.
  intros (R1 & R2 & R3) Hs Hp L.
  assert (S0 : is_sep s = true /\ s <> x00) by (destruct Hs as [->| ->]; [now apply (uniform_sep sep B)|split; [reflexivity|discriminate]]).
  unfold xos_create. rewrite wblock_cstr by (apply spelled_nul; try tauto; now apply wentry_names).
  rewrite (xcreate_nowhere _ fs (P ++ fc cs) (fold_case c)); [reflexivity|now apply spelled_ne|exact L| | |].
  - rewrite xkey_spelled by tauto. rewrite EB, map_app. fold P. now rewrite app_assoc.
  - rewrite <- app_assoc. apply R1.
  - unfold xdir. now rewrite R1.
Qed.
Lemma xcreate_base fs cuts s : xready fs -> lenN B < maxd -> xos_create maxd deny (wblock (spelled s B []) cuts) (wt fs) = Ok (0%Z, wt (xupd fs P XDir)).
Proof.
  intros (R1 & R2 & R3) L. unfold xos_create. rewrite spelled_nil, wblock_cstr by exact Nz.
  rewrite (xcreate_made _ fs pB cB); [reflexivity|exact Bne|exact L|exact EB| |exact R2|].
  - specialize (R1 []). rewrite app_nil_r in R1. exact R1.
  - specialize (R3 []). rewrite app_nil_r in R3. exact R3.
Qed.

Lemma xdown_core fs : xready fs -> forall cs k cuts, Forall wentry cs -> lenN (under cs) < maxd -> (length cs <= k)%nat -> cs <> [] ->
  xmk_down maxd deny k (wblock (under cs) cuts) (wcuts sep B cs cuts) (wt fs) =
    Ok (wblock (under []) (cs ++ cuts), wcuts sep B [] (cs ++ cuts), DownFound, wt (xupd fs P XDir)).
Proof.
  intros R. induction cs as [|c cs IH] using rev_ind; intros k cuts Hp L Hk Ne; [contradiction|].
  rewrite app_length in Hk. cbn [length] in Hk. destruct k as [|k]; [lia|]. pose proof Hp as Hp'. apply Forall_app in Hp'. destruct Hp' as [H1 H2].
  assert (Pc : wname c) by (inversion H2 as [|? ? [Q _] _]; exact Q). pose proof (spelled_len sep B cs [c]) as L1.
  cbn [xmk_down]. rewrite wblock_cstr by (apply spelled_nul; [now apply (uniform_sep sep B)|exact Nz|now apply wentry_names]).
  rewrite spelled_delim by (try assumption; now apply wentry_names).
  rewrite wblock_cut. change (lenN (under cs) :: wcuts sep B (cs ++ [c]) cuts) with (wcuts sep B cs (c :: cuts)).
  destruct cs as [|c0 cs0] eqn:Ecs.
  - rewrite xcreate_base; [|exact R|rewrite spelled_nil in L1; lia]. cbn [obind]. change ((0 =? -1)%Z) with false. change ((0 =? 0)%Z || (0 =? 1)%Z) with true. cbn [app]. reflexivity.
  - assert (Ne' : cs <> []) by (subst; discriminate). rewrite <- Ecs in *. clear Ecs c0 cs0.
    destruct (exists_last Ne') as (cs1 & c1 & E). rewrite E at 1. rewrite xcreate_deep by (auto; rewrite <- E; (exact H1 || lia)). cbn [obind].
    change ((2 =? -1)%Z) with false. change ((2 =? 0)%Z || (2 =? 1)%Z) with false. cbn match.
    rewrite (IH k (c :: cuts) H1 ltac:(lia) ltac:(lia) Ne'). rewrite <- app_assoc. reflexivity.
Qed.

Lemma xup_core fs0 : forall cuts cs fs, Forall wentry (cs ++ cuts) -> lenN (over (cs ++ cuts)) < maxd -> xready fs0 -> xmade fs0 (fc cs) fs ->
  exists fs', xmk_up maxd deny (wblock (over cs) cuts) (wcuts sep B cs cuts) (wt fs) = Ok (0%Z, wt fs') /\ xmade fs0 (fc (cs ++ cuts)) fs'.
Proof.
  induction cuts as [|c cuts IH]; intros cs fs Hp L R M; cbn [wcuts xmk_up].
  { exists fs. split; [reflexivity|]. now rewrite app_nil_r. }
  rewrite wblock_join. change (c :: cuts) with ([c] ++ cuts) in *. rewrite app_assoc in *.
  assert (Hc : Forall wentry (cs ++ [c])) by (apply Forall_app in Hp; apply Hp).
  destruct M as [M1 M2].
  assert (Ab : fs (P ++ fc cs ++ [fold_case c]) = None).
  { rewrite M2; [apply R|]. intros k Q. apply app_inv_head in Q. apply (f_equal (@length _)) in Q. rewrite app_length, firstn_length in Q. cbn [length] in Q. lia. }
  assert (Di : fs (P ++ fc cs) = Some XDir) by (specialize (M1 (length (fc cs))); rewrite firstn_all in M1; exact M1).
  unfold xos_create. rewrite wblock_cstr by (apply spelled_nul; [discriminate|exact Nz|now apply wentry_names]).
  rewrite (xcreate_made _ fs (P ++ fc cs) (fold_case c)).
  - cbn [obind]. change ((0 =? 0)%Z) with true. cbn match.
    apply IH; [exact Hp|exact L|exact R|]. rewrite map_app. cbn [map]. split.
    + intro k. destruct (firstn_snoc_two (fc cs) (fold_case c) k) as [-> | ->].
      * destruct (path_eqb (P ++ firstn k (fc cs)) ((P ++ fc cs) ++ [fold_case c])) eqn:E; [apply path_eqb_spec in E; rewrite E; apply xupd_same|].
        rewrite xupd_other; [apply M1|]. intro Q. apply path_eqb_spec in Q. congruence.
      * rewrite app_assoc. apply xupd_same.
    + intros q Hq. rewrite xupd_other; [apply M2|].
      * intros k Q. specialize (Hq (min k (length (fc cs)))%nat). apply Hq. rewrite Q. f_equal. rewrite firstn_app.
        replace (min k (length (fc cs)) - length (fc cs))%nat with O by lia. cbn [firstn]. rewrite app_nil_r.
        destruct (Nat.le_ge_cases k (length (fc cs))); [now rewrite Nat.min_l|]. rewrite Nat.min_r by assumption. now rewrite firstn_all, firstn_all2.
      * intro Q. specialize (Hq (length (fc cs ++ [fold_case c]))). apply Hq. rewrite firstn_all. now rewrite app_assoc.
  - now apply spelled_ne.
  - eapply N.le_lt_trans; [apply (spelled_len x2f B (cs ++ [c]) cuts)|exact L].
  - rewrite xkey_spelled by (reflexivity || assumption). rewrite EB, map_app. fold P. now rewrite app_assoc.
  - rewrite <- app_assoc. exact Ab.
  - unfold xdir. now rewrite Di.
  - rewrite <- app_assoc. apply R.
Qed.

Lemma xmade_base fs : xready fs -> xmade fs [] (xupd fs P XDir).
Proof.
  intros R. split; [intro k; rewrite firstn_nil, app_nil_r; apply xupd_same|].
  intros q Hq. apply xupd_other. specialize (Hq O). cbn [firstn] in Hq. now rewrite app_nil_r in Hq.
Qed.

Lemma xmkdir_core fs cs : xready fs -> Forall wentry cs -> (length cs <= 61)%nat -> lenN (under cs) < maxd ->
  exists fs', xmkdir maxd deny true (under cs) (wt fs) = Ok (0%Z, wt fs') /\ xmade fs (fc cs) fs'.
Proof.
  intros R Hp Hl L.
  pose proof (spelled_len sep B [] cs) as L0. cbn [app] in L0. rewrite spelled_nil in L0.
  unfold xmkdir. cbn [negb]. cbv zeta.
  assert (Dc : cs = [] \/ cs <> []) by (destruct cs; [now left|right; discriminate]). destruct Dc as [->|Ne].
  - change (under [] ++ [x00]) with (wblock (under []) []). rewrite xcreate_base by (assumption || lia). cbn [obind]. exists (xupd fs P XDir).
    split; [reflexivity|now apply xmade_base].
  - change (under cs ++ [x00]) with (wblock (under cs) []).
    destruct (exists_last Ne) as (cs1 & c1 & E).
    assert (C2 : xos_create maxd deny (wblock (under cs) []) (wt fs) = Ok (2%Z, wt fs)) by (rewrite E; apply xcreate_deep; auto; now rewrite <- E).
    rewrite C2. cbn [obind]. clear C2.
    change ((2 =? -1)%Z || (2 =? 0)%Z || (2 =? 1)%Z) with false. cbn match.
    change (@nil N) with (wcuts sep B cs []). rewrite (xdown_core fs R cs 62 [] Hp L ltac:(lia) Ne). cbn [obind]. rewrite app_nil_r.
    assert (Lc : forall cuts cs, lenN (wcuts sep B cs cuts) = lenN cuts).
    { induction cuts as [|x cuts IHc]; intro cs'; [reflexivity|]. cbn [wcuts]. now rewrite !lenN_cons, IHc. }
    rewrite Lc. replace (lenN cs <? 62) with true by (symmetry; apply N.ltb_lt; unfold lenN; lia).
    rewrite spelled_nil.
    destruct (xup_core fs cs [] (xupd fs P XDir)) as (fs' & E1 & E2); [exact Hp| |exact R|now apply xmade_base|].
    { cbn [app]. now rewrite <- (lenN_spelled B sep x2f). }
    rewrite spelled_nil in E1. exists fs'. split; [exact E1|exact E2].
Qed.
End Core.

(** C117 *)
Lemma xwin_parents : forall maxd deny sep B cs w P, uniform sep B -> ~ In x00 B -> B <> [] -> xkey (w_cwd w) B = P -> P <> [] ->
  Forall wentry cs -> (length cs <= 61)%nat -> lenN (spelled sep B cs) < maxd ->
  w_fs w (removelast P) = Some XDir -> (forall r, w_fs w (P ++ r) = None) -> (forall r, deny (P ++ r) = false) ->
  exists fs', xmkdir maxd deny true (spelled sep B cs) w = Ok (0%Z, w_setfs fs' w) /\
    (forall k, fs' (P ++ firstn k (map fold_case cs)) = Some XDir) /\
    (forall q, (forall k, q <> P ++ firstn k (map fold_case cs)) -> fs' q = w_fs w q).
Proof.
  intros maxd deny sep B cs w P U Nz Bne EP Ne Hp Hl L D A Dn. destruct (exists_last Ne) as (pB & cB & E).
  rewrite E in *. rewrite removelast_last in D.
  destruct (xmkdir_core maxd deny sep B w U Nz Bne pB cB EP (w_fs w) cs) as (fs' & E1 & M1 & M2); [|exact Hp|exact Hl|exact L|].
  - split; [exact A|]. split; [unfold xdir; now rewrite D|exact Dn].
  - exists fs'. replace (w_setfs (w_fs w) w) with w in E1 by (destruct w; reflexivity). split; [exact E1|]. split; [exact M1|exact M2].
Qed.

(** C117, at the top *)
Lemma wcomps_name c : wname c -> wcomps c = [c].
Proof.
  intros (N1 & N2 & N3 & _). unfold wcomps. rewrite <- (app_nil_r c) at 1. rewrite wcomps_from_name by assumption. rewrite app_nil_r. cbn [wcomps_from].
  destruct (rev c) as [|x y] eqn:Er; [apply (f_equal (@rev byte)) in Er; rewrite rev_involutive in Er; contradiction|].
  rewrite <- Er, rev_involutive. reflexivity.
Qed.
Lemma win_top : forall deny sep c cs fs, is_sep sep = true -> Forall wname (c :: cs) -> (length cs <= 61)%nat ->
  (forall r, fs (c :: r) = None) -> (forall r, deny (c :: r) = false) ->
  exists fs', wmkdir_recurse deny (spelled sep c cs) fs = Ok (0%Z, fs') /\
    (forall k, fs' (c :: firstn k cs) = Some WnDir) /\ (forall q, (forall k, q <> c :: firstn k cs) -> fs' q = fs q).
Proof.
  intros deny sep c cs fs Hs H Hl A D. inversion H as [|? ? Hc Hcs]; subst. pose proof (wcomps_name c Hc) as E. pose proof Hc as (_ & N2 & _ & N4).
  assert (U : uniform sep c).
  { unfold is_sep in Hs. apply orb_prop in Hs. destruct Hs as [Q|Q]; apply byte_eqb_spec in Q; subst; [now left|right; split; [reflexivity|exact N2]]. }
  pose proof (win_parents deny sep c cs fs U N4) as W. rewrite E in W. cbn [app removelast wdir] in W.
  exact (W ltac:(discriminate) Hcs Hl eq_refl A D).
Qed.

(** ** Extraction of a directory; [fs1]: the tree after MkdirRecurseInline with the target. *)
Section Whole.
Context (maxd maxf : N) (deny : path -> bool).
Context (z : zlib) (C : zlib_contract z) (e : endian) (alloc : N -> N -> bool) (hal al : N -> bool) (stk : N) (obuf hjunk : bytes) (pjunk : pst).
Hypothesis Calm : calm z hal al stk obuf hjunk pjunk.
Hypothesis Allow : forall q, deny q = false.
Hypothesis Len : maxf <= PATH_MAX.
Notation xcbs T := (xcbs maxd maxf deny T hal stk).
Notation xextract T := (xextract maxd maxf deny T hal stk z e alloc).

Lemma xbegin_made T t w fs1 : ~ In x00 T -> T <> [] -> xkey (w_cwd w) T = t -> w_dead w = false ->
  xmkdir maxd deny true T w = Ok (0%Z, w_setfs fs1 w) -> fs1 t = Some XDir ->
  let w1 := w_setfs fs1 w in
  exists h, xcb maxd maxf deny T hal stk EvDirBegin HS0 w = Ok (h, w1) /\ in_dir h T /\ h_err h = false /\ h_fp h = None /\ h_ret h = ContentDirectory /\
    at_dir w1 T t.
Proof.
  intros Nz Ne K Dd Mk Ft w1. cbn [xcb]. unfold xcb_dr_start. rewrite (ca_hal _ _ _ _ _ _ _ Calm), Mk.
  cbn [obind Z.eqb negb]. rewrite (ca_hal _ _ _ _ _ _ _ Calm). cbn [negb].
  eexists. split; [reflexivity|]. split. { split; [exact Nz|]. split; [reflexivity|]. exists []. reflexivity. }
  split; [reflexivity|]. split; [reflexivity|]. split; [reflexivity|]. split; [exact Ne|]. split; [exact K|]. split; [exact Ft|exact Dd].
Qed.

Lemma xextract_made T archive F es t w fs1 fuel : (forall k n, alloc k n = true) -> (length F < fuel)%nat ->
  dir_archive C (limited archive 0 F) (preorder es) -> preorder es <> [] ->
  Forall (fun x => quiet (snd x)) es -> NoDup (folded es) ->
  Forall (fun x => wextractable maxd maxf (lenN T) (fst x) (snd x)) es ->
  ~ In x00 T -> T <> [] -> xkey (w_cwd w) T = t -> w_dead w = false ->
  xmkdir maxd deny true T w = Ok (0%Z, w_setfs fs1 w) -> fs1 t = Some XDir -> (forall r, r <> [] -> fs1 (t ++ r) = None) ->
  exists dfuel0, forall dfuel, (dfuel0 <= dfuel)%nat -> exists ret s h ds w',
    xextract T archive fuel dfuel al obuf hjunk pjunk F false w = Ok (Some ret, Some (s, h, ds), w') /\
    (room_left s -> ret = ContentDirectory /\ same_w w w' /\ forall q, w_fs w' q = xoverlay t (fun r => win_at r es) fs1 q).
Proof.
  intros Halloc Hf Da Ne Q ND X Nz NeT K Dd Mk Ft Fr.
  set (w1 := w_setfs fs1 w). assert (Dw1 : w_dead w1 = false) by exact Dd.
  destruct (xbegin_made T t w fs1 Nz NeT K Dd Mk Ft) as (h1 & X1 & D1 & E1 & P1 & R1 & At1). fold w1 in X1, At1.
  assert (Stk : maxf + 4 <= stk) by (pose proof (ca_stk _ _ _ _ _ _ _ Calm); lia).
  assert (Run : forall evs' st, shows (preorder es) (flat evs') -> proto_run Idle evs' = Some st ->
    exists h' w', xcbs T evs' h1 w1 = Ok (h', w') /\ in_dir h' T /\ same_h h1 h' /\ same_w w1 w' /\ xkeeps (w_fs w1) (w_fs w') /\
      forall q, w_fs w' q = xoverlay t (fun r => win_at r es) (w_fs w1) q).
  { intros evs' st S P.
    apply (xtree_placed maxd maxf deny T hal stk (ca_hal _ _ _ _ _ _ _ Calm) Stk Allow es T t evs' st Q ND X Nz S P h1 w1 D1 At1).
    intros r Hr. now apply Fr. }
  assert (Part : forall s0 dfuel ops rets s evs, started z s0 -> Forall dop_ok ops -> dfed ops = limited archive 0 F ->
     run_dops e alloc dfuel s0 ops = Ok (rets, s, evs) -> exists h w2, xcbs T evs HS0 w = Ok (h, w2) /\ h_err h = false /\ w_dead w2 = false).
  { intros s0 dfuel ops rets s evs St Ho Fed R. rewrite <- Fed in Da.
    destruct (session_extends z C e alloc Halloc _ _ _ _ _ _ _ St Ho Da R) as (_ & [->|(evs' & more & st & -> & S & P)] & _).
    - exists HS0, w. split; [reflexivity|]. split; [reflexivity|exact Dd].
    - destruct (Run _ _ S P) as (h' & w' & X2 & _ & (_ & E2 & _) & (_ & _ & Dd2) & _).
      rewrite xcbs_app in X2 by exact Dd. rewrite xcbs_cons, X1. cbn [obind]. rewrite Dw1 in Dd2 |- *.
      destruct (xcbs T evs' h1 w1) as [[h2 w2]| |] eqn:E3; try discriminate X2. cbn [obind] in X2.
      destruct (w_dead w2) eqn:Dd3. { injection X2 as <- <-. congruence. }
      exists h2, w2. split; [reflexivity|]. split; [|exact Dd3]. destruct (h_err h2) eqn:E4; [|reflexivity].
      rewrite (xcbs_err _ _ _ _ _ _ _ _ _ _ _ X2 E4) in E2. congruence. }
  destruct (calm_started z C alloc hal al stk obuf hjunk pjunk Calm) as (s0 & Ec & St & Sf).
  set (ops := chunk_ops archive fuel F 0 0). pose proof (chunk_ops_ok archive fuel F 0 0) as Ho. fold ops in Ho.
  pose proof (chunk_ops_fed archive fuel F 0 0 Hf) as Fed. fold ops in Fed.
  destruct (session_returns_ok z C e alloc s0 ops St Ho) as (dfuel0 & [[rets s] evs] & R). { rewrite Fed. eapply supported_of. apply Da. }
  exists dfuel0. intros dfuel Hd. specialize (R dfuel Hd).
  destruct (Part _ _ _ _ _ _ St Ho Fed R) as (h & w2 & X2 & He & Dd2).
  pose proof (xdrive maxd maxf deny T hal stk z e alloc archive fuel dfuel F 0 0 s0 HS0 w rets s evs h w2 Hf Dd R X2 He Dd2) as Dr.
  destruct (destroy_safe z C alloc s) as (s' & Ds).
  { eapply run_dops_safe; [exact Sf| |exact R]. intros b n. apply chunk_ops_feeds. }
  exists (h_ret h), s, h, (limited archive 0 F), (xclose_fp h w2). split.
  { unfold WinExtract.xextract. rewrite !(ca_al _ _ _ _ _ _ _ Calm) in *. cbn [negb orb]. rewrite Ec, Dr. cbn [obind]. rewrite Dd2, Ds. reflexivity. }
  rewrite <- Fed in Da. destruct (session_extends z C e alloc Halloc _ _ _ _ _ _ _ St Ho Da R) as (_ & _ & S2).
  intro Rl. destruct (S2 Rl Ne) as (evs' & st & -> & S & P). rewrite xcbs_cons, X1 in X2. cbn [obind] in X2.
  rewrite Dw1 in X2. destruct (Run _ _ S P) as (h' & w3 & X3 & _ & (P3 & _ & R3) & Env3 & _ & Eq). rewrite X3 in X2. injection X2 as <- <-.
  unfold xclose_fp. rewrite P3, P1.
  split; [congruence|]. split. { destruct Env3 as (B1 & B2 & B3). repeat split; assumption. }
  exact Eq.
Qed.
End Whole.

(** C124 *)
Lemma wdisk_parents maxd maxf deny z (C : zlib_contract z) es F e alloc hal al stk obuf hjunk pjunk sep B cs archive inp P w fuel :
  archives_dir z es F -> input_of archive F inp -> (length inp < fuel)%nat ->
  calm z hal al stk obuf hjunk pjunk -> (forall k n, alloc k n = true) -> (forall q, deny q = false) -> maxf <= PATH_MAX ->
  preorder es <> [] -> Forall (fun x => quiet (snd x)) es -> NoDup (map (fun x => fold_case (fst x)) es) ->
  Forall (fun x => wextractable maxd maxf (lenN (spelled sep B cs)) (fst x) (snd x)) es ->
  uniform sep B -> Forall wentry cs -> (length cs <= 61)%nat -> lenN (spelled sep B cs) < maxd -> wfree maxd w B P ->
  exists dfuel0, forall dfuel, (dfuel0 <= dfuel)%nat -> exists ret s h ds w',
    xextract maxd maxf deny (spelled sep B cs) hal stk z e alloc archive fuel dfuel al obuf hjunk pjunk inp false w = Ok (Some ret, Some (s, h, ds), w') /\
    (room_left s -> ret = ContentDirectory /\ same_w w w' /\
      (forall r, w_fs w' (P ++ map fold_case cs ++ r) = win_tree es r) /\
      (forall k, w_fs w' (P ++ firstn k (map fold_case cs)) = Some XDir) /\
      (forall q, (forall r, q <> P ++ map fold_case cs ++ r) -> (forall k, q <> P ++ firstn k (map fold_case cs)) -> w_fs w' q = w_fs w q)).
Proof.
  intros A I Hf Ca Ha De Ln Ne Q ND X U Hp Hl L (Nz & Bne & _ & K & Pd & Fr & Dd).
  pose proof (dir_archived z C es F A Q) as D. rewrite <- (input_limited _ _ _ I) in D.
  destruct (uniform_sep sep B U) as [S1 S2].
  assert (Pd' : w_fs w (removelast P) = Some XDir) by (unfold xdir in Pd; destruct (w_fs w (removelast P)) as [[|]|]; congruence).
  assert (PNe : P <> []) by (intros ->; specialize (Fr []); cbn in Fr, Pd'; congruence).
  destruct (xwin_parents maxd deny sep B cs w P U Nz Bne K PNe Hp Hl L Pd' Fr (fun r => De _)) as (fs1 & Mk & M1 & M2).
  set (ks := map fold_case cs) in *. set (T := spelled sep B cs) in *.
  assert (Kt : xkey (w_cwd w) T = P ++ ks) by (unfold T; rewrite xkey_spelled by assumption; now rewrite K).
  assert (Ft : fs1 (P ++ ks) = Some XDir) by (specialize (M1 (length ks)); rewrite firstn_all in M1; exact M1).
  assert (Fn : forall r, r <> [] -> fs1 ((P ++ ks) ++ r) = None).
  { intros r Hr. rewrite <- app_assoc. rewrite M2; [apply Fr|]. intros k E. apply app_inv_head in E. apply (f_equal (@length _)) in E.
    rewrite app_length, firstn_length in E. destruct r; [contradiction|]. cbn [length] in E. lia. }
  destruct (xextract_made maxd maxf deny z C e alloc hal al stk obuf hjunk pjunk Ca De Ln T archive inp es (P ++ ks) w fs1 fuel Ha Hf D Ne Q ND X
    ltac:(apply spelled_nul; try assumption; now apply wentry_names) ltac:(now apply spelled_ne) Kt Dd Mk Ft Fn) as (d0 & R).
  exists d0. intros dfuel Hd. destruct (R dfuel Hd) as (ret & s & h & ds & w' & Er & Rl). exists ret, s, h, ds, w'. split; [exact Er|].
  intro Ro. destruct (Rl Ro) as (R1 & R2 & R3). split; [exact R1|]. split; [exact R2|]. split; [|split].
  - intro r. rewrite app_assoc, R3, xoverlay_at. destruct r as [|c r]; [rewrite app_nil_r, Ft; reflexivity|]. cbn [win_tree].
    destruct (win_at (c :: r) es); [reflexivity|]. apply Fn. discriminate.
  - intro k. rewrite R3, xoverlay_out; [apply M1|]. intros r E. rewrite <- app_assoc in E. apply app_inv_head in E. apply (f_equal (@length _)) in E.
    rewrite app_length, firstn_length in E. destruct r; [reflexivity|]. cbn [length] in E. lia.
  - intros q H1 H2. rewrite R3, xoverlay_out; [now apply M2|]. intros r E. exfalso. apply (H1 r). now rewrite app_assoc.
Qed.
