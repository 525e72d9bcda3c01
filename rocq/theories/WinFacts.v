(** WinFacts.v: facts about the Windows branches. *)
From Coq Require Import Lia.
From Verif Require Import Base FS FSFacts HL HLSpec HLFacts WinTools.

Lemma wpath_eqb_spec p : forall q, wpath_eqb p q = true <-> p = q.
Proof.
  induction p as [|a p IH]; intros [|b q]; cbn [wpath_eqb]; try (split; congruence).
  rewrite andb_true_iff, bytes_eqb_spec, IH. split; [intros [-> ->]; reflexivity|intro H; injection H as -> ->; auto].
Qed.
Lemma wset_same fs p n : wset fs p n p = n.
Proof. unfold wset. now rewrite (proj2 (wpath_eqb_spec p p) eq_refl). Qed.
Lemma wset_other fs p n q : q <> p -> wset fs p n q = fs q.
Proof. intro H. unfold wset. destruct (wpath_eqb q p) eqn:E; [|reflexivity]. apply wpath_eqb_spec in E. contradiction. Qed.

(** ** Spec: names, spelled paths *)

(** A name: not empty, no separators, no NUL. *)
Definition wname (c : bytes) : Prop := c <> [] /\ ~ In x2f c /\ ~ In x5c c /\ ~ In x00 c.
(** The path [B], then the components [cs], each after the separator [sep]. *)
Definition spelled (sep : byte) (B : bytes) (cs : list bytes) : bytes := B ++ concat (map (fun c => sep :: c) cs).
(** '/' anywhere; '\' only in paths without '/'. *)
Definition uniform (sep : byte) (B : bytes) : Prop := sep = x2f \/ (sep = x5c /\ ~ In x2f B).

Lemma is_sep_no c : ~ In x2f [c] -> ~ In x5c [c] -> is_sep c = false.
Proof.
  intros H1 H2. unfold is_sep. destruct (byte_eqb c x2f) eqn:E1; [apply byte_eqb_spec in E1; subst; destruct H1; now left|].
  destruct (byte_eqb c x5c) eqn:E2; [apply byte_eqb_spec in E2; subst; destruct H2; now left|reflexivity].
Qed.
Lemma wcomps_from_name c : ~ In x2f c -> ~ In x5c c -> forall cur r, wcomps_from cur (c ++ r) = wcomps_from (rev c ++ cur) r.
Proof.
  induction c as [|b c IH]; intros H1 H2 cur r; [reflexivity|]. cbn [app wcomps_from].
  rewrite is_sep_no by (cbn in *; intuition). rewrite IH by (cbn in *; intuition). cbn [rev]. now rewrite <- app_assoc.
Qed.
Lemma wcomps_from_app s : forall cur sep c, is_sep sep = true -> wname c -> wcomps_from cur (s ++ sep :: c) = wcomps_from cur s ++ [c].
Proof.
  induction s as [|b s IH]; intros cur sep c Hs Hc.
  - destruct Hc as (N1 & N2 & N3 & _). cbn [app wcomps_from]. rewrite Hs.
    assert (E : wcomps_from [] c = [c]).
    { rewrite <- (app_nil_r c) at 1. rewrite wcomps_from_name by assumption. rewrite app_nil_r. cbn [wcomps_from].
      destruct (rev c) as [|x y] eqn:Er; [apply (f_equal (@rev byte)) in Er; rewrite rev_involutive in Er; contradiction|].
      rewrite <- Er, rev_involutive. reflexivity. }
    destruct cur; rewrite E; reflexivity.
  - cbn [app wcomps_from]. destruct (is_sep b); [|now apply IH]. destruct cur; [now apply IH|]. cbn [app]. now rewrite IH.
Qed.

Lemma spelled_nil sep B : spelled sep B [] = B. Proof. apply app_nil_r. Qed.
Lemma spelled_snoc sep B cs c : spelled sep B (cs ++ [c]) = spelled sep B cs ++ sep :: c.
Proof. unfold spelled. rewrite map_app, concat_app. cbn [map concat]. now rewrite app_nil_r, app_assoc. Qed.
Lemma spelled_cons sep B c cs : spelled sep B (c :: cs) = spelled sep (B ++ sep :: c) cs.
Proof. unfold spelled. cbn [map concat]. rewrite <- !app_assoc. reflexivity. Qed.
Lemma uniform_sep sep B : uniform sep B -> is_sep sep = true /\ sep <> x00.
Proof. intros [->|[-> _]]; split; (reflexivity || discriminate). Qed.
Lemma spelled_comps sep B cs : is_sep sep = true -> Forall wname cs -> wcomps (spelled sep B cs) = wcomps B ++ cs.
Proof.
  intro Hs. induction cs as [|c cs IH] using rev_ind; intro H; [now rewrite spelled_nil, app_nil_r|].
  apply Forall_app in H. destruct H as [H1 H2]. rewrite spelled_snoc. unfold wcomps in *. rewrite wcomps_from_app; [|exact Hs|now inversion H2].
  rewrite (IH H1). now rewrite app_assoc.
Qed.
Lemma spelled_nul sep B cs : sep <> x00 -> ~ In x00 B -> Forall wname cs -> ~ In x00 (spelled sep B cs).
Proof.
  intros Hs Hb. induction cs as [|c cs IH] using rev_ind; intro H; [now rewrite spelled_nil|].
  apply Forall_app in H. destruct H as [H1 H2]. inversion H2 as [|? ? (_ & _ & _ & P) _]; subst.
  rewrite spelled_snoc. intro Q. apply in_app_iff in Q. destruct Q as [Q|[Q|Q]]; [now apply IH|congruence|contradiction].
Qed.
Lemma spelled_noslash B cs : ~ In x2f B -> Forall wname cs -> ~ In x2f (spelled x5c B cs).
Proof.
  intro Hb. induction cs as [|c cs IH] using rev_ind; intro H; [now rewrite spelled_nil|].
  apply Forall_app in H. destruct H as [H1 H2]. inversion H2 as [|? ? (_ & P & _) _]; subst.
  rewrite spelled_snoc. intro Q. apply in_app_iff in Q. destruct Q as [Q|[Q|Q]]; [now apply IH|discriminate|contradiction].
Qed.
Lemma spelled_delim sep B cs c : uniform sep B -> Forall wname cs -> wname c -> delim (spelled sep B (cs ++ [c])) = Some (lenN (spelled sep B cs)).
Proof.
  intros U Hcs (_ & P2 & P3 & _). rewrite spelled_snoc. unfold delim. destruct U as [->|[-> Hb]].
  - now rewrite rindex_app.
  - rewrite rindex_none; [now rewrite rindex_app|]. intro Q. apply in_app_iff in Q.
    destruct Q as [Q|[Q|Q]]; [now apply (spelled_noslash B cs Hb Hcs)|discriminate|contradiction].
Qed.

(** ** The block with the cut path: [cs] still there, then the names cut off. *)
Section Core.
Context (deny : list bytes -> bool) (sep : byte) (B : bytes).
Hypotheses (U : uniform sep B) (Nz : ~ In x00 B).
Notation under := (spelled sep B).
(** After a cut the separators are '/'. *)
Notation over := (spelled x2f B).

Definition wblock (s : bytes) (cuts : list bytes) : bytes := s ++ concat (map (fun c => x00 :: c) cuts) ++ [x00].
Fixpoint wcuts (cs cuts : list bytes) : list N := match cuts with [] => [] | c :: r => lenN (under cs) :: wcuts (cs ++ [c]) r end.

Lemma lenN_spelled s1 s2 cs : lenN (spelled s1 B cs) = lenN (spelled s2 B cs).
Proof.
  induction cs as [|c cs IH] using rev_ind; [reflexivity|]. rewrite !spelled_snoc, !lenN_app, !lenN_cons, IH. reflexivity.
Qed.
Lemma wblock_cstr s cuts : ~ In x00 s -> cstr (wblock s cuts) = Some s.
Proof. intro H. unfold wblock. destruct cuts as [|c r]; cbn [map concat app]; now apply cstr_app. Qed.
Lemma wblock_cut cs c cuts : set_byte (lenN (under cs)) x00 (wblock (under (cs ++ [c])) cuts) = wblock (under cs) (c :: cuts).
Proof. unfold wblock. rewrite spelled_snoc, <- app_assoc. cbn [app]. rewrite set_byte_app. cbn [map concat app]. now rewrite <- app_assoc. Qed.
Lemma wblock_join cs c cuts : set_byte (lenN (under cs)) x2f (wblock (over cs) (c :: cuts)) = wblock (over (cs ++ [c])) cuts.
Proof.
  unfold wblock. rewrite (lenN_spelled sep x2f). cbn [map concat app]. rewrite set_byte_app, spelled_snoc, <- !app_assoc. reflexivity.
Qed.

Lemma sep_ok : is_sep sep = true /\ sep <> x00.
Proof. now apply (uniform_sep sep B). Qed.

(** Creating one directory. *)
Lemma create_missing s fs p c : wcomps s = p ++ [c] -> fs (p ++ [c]) = None -> wdir fs p = true -> deny (p ++ [c]) = false ->
  create_directory deny s fs = (CdMade, wset fs (p ++ [c]) (Some WnDir)).
Proof.
  intros E H1 H2 H3. unfold create_directory. rewrite E, H1, removelast_last, H2, H3. destruct p; reflexivity.
Qed.
Lemma create_nowhere s fs p c : wcomps s = p ++ [c] -> fs (p ++ [c]) = None -> wdir fs p = false -> create_directory deny s fs = (CdNoPath, fs).
Proof. intros E H1 H2. unfold create_directory. rewrite E, H1, removelast_last, H2. destruct p; reflexivity. Qed.

(** [B] is missing, its parent is there. *)
Context (pB : list bytes) (cB : bytes).
Hypothesis EB : wcomps B = pB ++ [cB].
Let P := pB ++ [cB].

Definition ready (fs : wtree) : Prop := (forall r, fs (P ++ r) = None) /\ wdir fs pB = true /\ forall r, deny (P ++ r) = false.
(** [cs] have been created. *)
Definition made (fs : wtree) (cs : list bytes) (fs' : wtree) : Prop :=
  (forall k, fs' (P ++ firstn k cs) = Some WnDir) /\ (forall q, (forall k, q <> P ++ firstn k cs) -> fs' q = fs q).

Lemma P_cons : P <> []. Proof. subst P. destruct pB; discriminate. Qed.
Lemma wdir_P fs r : wdir fs (P ++ r) = match fs (P ++ r) with Some WnDir => true | _ => false end.
Proof. pose proof P_cons. destruct P; [contradiction|reflexivity]. Qed.

Lemma create_deep fs cs c cuts s : ready fs -> (s = sep \/ s = x2f) -> Forall wname (cs ++ [c]) -> wos_create deny (wblock (spelled s B (cs ++ [c])) cuts) fs = Ok (2%Z, fs).
Proof.
  intros (R1 & R2 & R3) Hs Hp. assert (S0 : is_sep s = true /\ s <> x00) by (destruct Hs as [->| ->]; [exact sep_ok|split; [reflexivity|discriminate]]).
  unfold wos_create. rewrite wblock_cstr by (apply spelled_nul; tauto).
  rewrite (create_nowhere _ fs (P ++ cs) c); [reflexivity| | |].
  - rewrite spelled_comps by tauto. rewrite EB. fold P. now rewrite app_assoc.
  - rewrite <- app_assoc. apply R1.
  - rewrite wdir_P, R1. reflexivity.
Qed.
Lemma create_base fs cuts s : ready fs -> (s = sep \/ s = x2f) -> wos_create deny (wblock (spelled s B []) cuts) fs = Ok (0%Z, wset fs P (Some WnDir)).
Proof.
  intros (R1 & R2 & R3) Hs. unfold wos_create. rewrite spelled_nil, wblock_cstr by exact Nz.
  rewrite (create_missing _ fs pB cB); [reflexivity|exact EB| |exact R2|].
  - specialize (R1 []). rewrite app_nil_r in R1. exact R1.
  - specialize (R3 []). rewrite app_nil_r in R3. exact R3.
Qed.

Lemma down_core fs : ready fs -> forall cs k cuts, Forall wname cs -> (length cs <= k)%nat -> cs <> [] ->
  wmk_down deny k (wblock (under cs) cuts) (wcuts cs cuts) fs = Ok (wblock (under []) (cs ++ cuts), wcuts [] (cs ++ cuts), DownFound, wset fs P (Some WnDir)).
Proof.
  intros R. induction cs as [|c cs IH] using rev_ind; intros k cuts Hp Hk Ne; [contradiction|].
  rewrite app_length in Hk. cbn [length] in Hk. destruct k as [|k]; [lia|]. pose proof Hp as Hp'. apply Forall_app in Hp'. destruct Hp' as [H1 H2].
  assert (Pc : wname c) by now inversion H2.
  cbn [wmk_down]. rewrite wblock_cstr by (apply spelled_nul; [apply sep_ok|exact Nz|exact Hp]). rewrite spelled_delim by assumption.
  rewrite wblock_cut. change (lenN (under cs) :: wcuts (cs ++ [c]) cuts) with (wcuts cs (c :: cuts)).
  destruct cs as [|c0 cs0] eqn:Ecs.
  - rewrite create_base by (auto). cbn [obind]. change ((0 =? -1)%Z) with false. change ((0 =? 0)%Z || (0 =? 1)%Z) with true. cbn [app]. reflexivity.
  - assert (Ne' : cs <> []) by (subst; discriminate). rewrite <- Ecs in *. clear Ecs c0 cs0.
    destruct (exists_last Ne') as (cs1 & c1 & E). rewrite E at 1. rewrite create_deep by (auto; now rewrite <- E). cbn [obind].
    change ((2 =? -1)%Z) with false. change ((2 =? 0)%Z || (2 =? 1)%Z) with false. cbn match.
    rewrite (IH k (c :: cuts) H1 ltac:(lia) Ne'). rewrite <- app_assoc. reflexivity.
Qed.

Lemma firstn_snoc_cases {A} (cs : list A) c k : firstn k (cs ++ [c]) = firstn k cs \/ firstn k (cs ++ [c]) = cs ++ [c].
Proof.
  rewrite firstn_app. destruct (k - length cs)%nat eqn:E.
  - left. cbn [firstn]. apply app_nil_r.
  - right. rewrite firstn_all2 by lia. cbn [firstn]. destruct n; reflexivity.
Qed.

Lemma up_core fs0 : forall cuts cs fs, Forall wname (cs ++ cuts) -> ready fs0 -> made fs0 cs fs ->
  exists fs', wmk_up deny (wblock (over cs) cuts) (wcuts cs cuts) fs = Ok (0%Z, fs') /\ made fs0 (cs ++ cuts) fs'.
Proof.
  induction cuts as [|c cuts IH]; intros cs fs Hp R M; cbn [wcuts wmk_up].
  { exists fs. split; [reflexivity|]. now rewrite app_nil_r. }
  rewrite wblock_join. change (c :: cuts) with ([c] ++ cuts) in *. rewrite app_assoc in *.
  assert (Hc : Forall wname (cs ++ [c])) by (apply Forall_app in Hp; apply Hp).
  destruct M as [M1 M2].
  assert (Ab : fs (P ++ cs ++ [c]) = None).
  { rewrite M2; [apply R|]. intros k Q. apply app_inv_head in Q. apply (f_equal (@length _)) in Q. rewrite app_length, firstn_length in Q. cbn [length] in Q. lia. }
  assert (Di : fs (P ++ cs) = Some WnDir) by (specialize (M1 (length cs)); rewrite firstn_all in M1; exact M1).
  unfold wos_create. rewrite wblock_cstr by (apply spelled_nul; [discriminate|exact Nz|exact Hc]).
  rewrite (create_missing _ fs (P ++ cs) c).
  - cbn [obind]. change ((0 =? 0)%Z) with true. cbn match.
    apply IH; [exact Hp|exact R|]. split.
    + intro k. destruct (firstn_snoc_cases cs c k) as [-> | ->].
      * destruct (wpath_eqb (P ++ firstn k cs) ((P ++ cs) ++ [c])) eqn:E; [apply wpath_eqb_spec in E; rewrite E; apply wset_same|].
        rewrite wset_other; [apply M1|]. intro Q. apply wpath_eqb_spec in Q. congruence.
      * rewrite app_assoc. apply wset_same.
    + intros q Hq. rewrite wset_other; [apply M2|].
      * intros k Q. specialize (Hq (min k (length cs))%nat). apply Hq. rewrite Q. f_equal. rewrite firstn_app.
        replace (min k (length cs) - length cs)%nat with O by lia. cbn [firstn]. rewrite app_nil_r.
        destruct (Nat.le_ge_cases k (length cs)); [now rewrite Nat.min_l|]. rewrite Nat.min_r by assumption. now rewrite firstn_all, firstn_all2.
      * intro Q. specialize (Hq (length (cs ++ [c]))). apply Hq. rewrite firstn_all. now rewrite app_assoc.
  - rewrite spelled_comps by (reflexivity || assumption). rewrite EB. fold P. now rewrite app_assoc.
  - rewrite <- app_assoc. exact Ab.
  - rewrite wdir_P, Di. reflexivity.
  - rewrite <- app_assoc. apply R.
Qed.

Lemma made_base fs : ready fs -> made fs [] (wset fs P (Some WnDir)).
Proof.
  intros R. split; [intro k; rewrite firstn_nil, app_nil_r; apply wset_same|].
  intros q Hq. apply wset_other. specialize (Hq O). cbn [firstn] in Hq. now rewrite app_nil_r in Hq.
Qed.

Lemma mkdir_core fs cs : ready fs -> Forall wname cs -> (length cs <= 61)%nat ->
  exists fs', wmkdir_recurse deny (under cs) fs = Ok (0%Z, fs') /\ made fs cs fs'.
Proof.
  intros R Hp Hl. unfold wmkdir_recurse. cbv zeta.
  assert (Dc : cs = [] \/ cs <> []) by (destruct cs; [now left|right; discriminate]). destruct Dc as [->|Ne].
  - change (under [] ++ [x00]) with (wblock (under []) []). rewrite create_base by auto. cbn [obind]. exists (wset fs P (Some WnDir)).
    split; [reflexivity|now apply made_base].
  - change (under cs ++ [x00]) with (wblock (under cs) []).
    destruct (exists_last Ne) as (cs1 & c1 & E). 
    assert (C2 : wos_create deny (wblock (under cs) []) fs = Ok (2%Z, fs)) by (rewrite E; apply create_deep; auto; now rewrite <- E).
    rewrite C2. cbn [obind]. clear C2.
    change ((2 =? -1)%Z || (2 =? 0)%Z || (2 =? 1)%Z) with false. cbn match.
    change (@nil N) with (wcuts cs []). rewrite (down_core fs R cs 62 [] Hp ltac:(lia) Ne). cbn [obind]. rewrite app_nil_r.
    assert (L : forall cuts cs, lenN (wcuts cs cuts) = lenN cuts).
    { induction cuts as [|x cuts IHc]; intro cs'; [reflexivity|]. cbn [wcuts]. now rewrite !lenN_cons, IHc. }
    rewrite L. replace (lenN cs <? 62) with true by (symmetry; apply N.ltb_lt; unfold lenN; lia).
    rewrite spelled_nil.
    destruct (up_core fs cs [] (wset fs P (Some WnDir))) as (fs' & E1 & E2); [exact Hp|exact R|now apply made_base|].
    rewrite spelled_nil in E1. exists fs'. split; [exact E1|exact E2].
Qed.
End Core.

(** ** Properties *)

(** C117 *)
Lemma win_parents : forall deny sep B cs fs, uniform sep B -> ~ In x00 B -> wcomps B <> [] -> Forall wname cs -> (length cs <= 61)%nat ->
  wdir fs (removelast (wcomps B)) = true -> (forall r, fs (wcomps B ++ r) = None) -> (forall r, deny (wcomps B ++ r) = false) ->
  exists fs', wmkdir_recurse deny (spelled sep B cs) fs = Ok (0%Z, fs') /\
    (forall k, fs' (wcomps B ++ firstn k cs) = Some WnDir) /\
    (forall q, (forall k, q <> wcomps B ++ firstn k cs) -> fs' q = fs q).
Proof.
  intros deny sep B cs fs U Nz Ne Hp Hl D A Dn. destruct (exists_last Ne) as (pB & cB & E).
  destruct (mkdir_core deny sep B U Nz pB cB E fs cs) as (fs' & E1 & M1 & M2); [|exact Hp|exact Hl|].
  - rewrite E in D, A, Dn. rewrite removelast_last in D. split; [exact A|]. split; [exact D|exact Dn].
  - exists fs'. rewrite E. split; [exact E1|]. split; [exact M1|exact M2].
Qed.

(** C118 *)
Lemma create_exists deny s fs fs' : create_directory deny s fs = (CdExists, fs') -> fs' = fs /\ fs (wcomps s) <> None.
Proof.
  unfold create_directory. destruct (wcomps s) as [|c p]; [discriminate|]. destruct (fs (c :: p)) eqn:E.
  - intro H. injection H as <-. split; [reflexivity|discriminate].
  - destruct (wdir _ _); [|discriminate]. destruct (deny _); discriminate.
Qed.
Lemma wmk_up_not1 deny : forall idx b fs r fs', wmk_up deny b idx fs = Ok (r, fs') -> r <> 1%Z.
Proof.
  induction idx as [|i idx IH]; intros b fs r fs' H; cbn [wmk_up] in H; [injection H as <- _; discriminate|].
  destruct (wos_create deny _ fs) as [[c f1]| |]; [|discriminate H|discriminate H]. cbn [obind] in H.
  destruct (c =? 0)%Z; [eapply IH, H|]. injection H as <- _. discriminate.
Qed.
Lemma win_exists : forall deny s fs fs', ~ In x00 s -> wmkdir_recurse deny s fs = Ok (1%Z, fs') -> fs' = fs /\ fs (wcomps s) <> None.
Proof.
  intros deny s fs fs' Nz H. unfold wmkdir_recurse in H. cbv zeta in H. unfold wos_create in H at 1.
  rewrite cstr_app in H by exact Nz. destruct (create_directory deny s fs) as [r f1] eqn:E. cbn [obind] in H.
  destruct r; cbn -[wmk_down] in H.
  - discriminate H.
  - injection H as <-. eapply create_exists, E.
  - destruct (wmk_down deny 62 _ [] f1) as [[[[b1 idx] en] f2]| |]; [|discriminate H|discriminate H]. cbn [obind] in H.
    destruct en; [discriminate H| |discriminate H]. destruct (lenN idx <? 62); [|discriminate H]. destruct (wmk_up_not1 _ _ _ _ _ _ H eq_refl).
  - discriminate H.
Qed.

(** C119 *)
Lemma win_remove : forall rest fs, exists fs', wremove (x00 :: rest) fs = Ok fs' /\
  (forall r, fs' (out_folder :: r) = None) /\ (forall q, hd [] q <> out_folder -> fs' q = fs q).
Proof.
  intros rest fs. eexists. split; [unfold wremove; cbv zeta; cbn [length app out_folder]; cbn [name_list cstr byte_eqb]; reflexivity|].
  cbn [fold_left]. unfold delete_tree. split.
  - intro r. reflexivity.
  - intros [|a q] Hq; [reflexivity|]. cbn [hd] in Hq. change (wcomps _) with [out_folder]. cbn [below].
    rewrite bytes_eqb_neq; [reflexivity|congruence].
Qed.

(** ** A result of 0 *)

(** The same byte, or two separators. *)
Definition simb (a b : byte) : Prop := a = b \/ (is_sep a = true /\ is_sep b = true).
Lemma simb_refl a : simb a a. Proof. now left. Qed.
Lemma simb_trans a b c : simb a b -> simb b c -> simb a c.
Proof. intros [->|[H1 H2]] [->|[H3 H4]]; [now left|right; auto|right; auto|right; auto]. Qed.
Lemma sims_refl l : Forall2 simb l l.
Proof. induction l; constructor; [apply simb_refl|assumption]. Qed.
Lemma sims_trans : forall a b c, Forall2 simb a b -> Forall2 simb b c -> Forall2 simb a c.
Proof.
  induction a as [|x a IH]; intros b c H1 H2; inversion H1; subst; inversion H2; subst; constructor; [eapply simb_trans; eassumption|eapply IH; eassumption].
Qed.
Lemma sims_comps : forall a b, Forall2 simb a b -> forall cur, wcomps_from cur a = wcomps_from cur b.
Proof.
  induction a as [|x a IH]; intros b H cur; inversion H as [|? y ? r S R]; subst; [reflexivity|]. cbn [wcomps_from].
  destruct S as [->|[S1 S2]].
  - destruct (is_sep y); [|now apply IH]. destruct cur; [now apply IH|f_equal; now apply IH].
  - rewrite S1, S2. destruct cur; [now apply IH|f_equal; now apply IH].
Qed.
Lemma sims_cstr : forall a s, Forall2 simb a (s ++ [x00]) -> ~ In x00 s -> exists s', cstr a = Some s' /\ Forall2 simb s' s.
Proof.
  intros a s. revert a. induction s as [|c s IH]; intros a H Nz; cbn [app] in H; inversion H as [|x ? a' ? S R]; subst.
  - assert (x = x00). { destruct S as [->|[_ S]]; [reflexivity|discriminate S]. } subst x. exists []. split; [reflexivity|constructor].
  - destruct (IH a' R) as (s' & E & F); [intro Q; apply Nz; now right|]. exists (x :: s').
    split; [|constructor; assumption]. cbn [cstr]. assert (x <> x00).
    { intro Q. subst x. destruct S as [S|[S _]]; [apply Nz; left; now symmetry|discriminate S]. }
    destruct (byte_eqb x x00) eqn:Eb; [apply byte_eqb_spec in Eb; contradiction|]. now rewrite E.
Qed.

Lemma sims_takeN : forall a b i, Forall2 simb a b -> Forall2 simb (takeN i a) (takeN i b).
Proof.
  induction a as [|x a IH]; intros b i H; inversion H; subst; [constructor|]. cbn [takeN]. destruct (i =? 0); constructor; [assumption|now apply IH].
Qed.
Lemma sims_dropN : forall a b i, Forall2 simb a b -> Forall2 simb (dropN i a) (dropN i b).
Proof.
  induction a as [|x a IH]; intros b i H; inversion H; subst; [constructor|]. cbn [dropN]. destruct (i =? 0); [constructor; assumption|now apply IH].
Qed.
Lemma sims_set i c a b : Forall2 simb a b -> Forall2 simb (set_byte i c a) (set_byte i c b).
Proof.
  intro H. unfold set_byte. apply Forall2_app; [now apply sims_takeN|]. constructor; [apply simb_refl|now apply sims_dropN].
Qed.
Fixpoint restore (b : bytes) (idx : list N) : bytes := match idx with [] => b | i :: r => restore (set_byte i x2f b) r end.
Lemma sims_restore : forall idx a b, Forall2 simb a b -> Forall2 simb (restore a idx) (restore b idx).
Proof. induction idx as [|i idx IH]; intros a b H; [exact H|]. cbn [restore]. apply IH. now apply sims_set. Qed.

Lemma rindex_split c : forall s i, rindex c s = Some i -> exists a d, s = a ++ c :: d /\ lenN a = i.
Proof.
  induction s as [|x s IH]; intros i H; cbn [rindex] in H; [discriminate|]. destruct (rindex c s) as [j|].
  - injection H as <-. destruct (IH j eq_refl) as (a & d & -> & L). exists (x :: a), d. split; [reflexivity|]. rewrite lenN_cons. lia.
  - destruct (byte_eqb x c) eqn:E; [|discriminate]. injection H as <-. apply byte_eqb_spec in E. subst x. now exists [], s.
Qed.
Lemma delim_split s i : delim s = Some i -> exists a c d, s = a ++ c :: d /\ lenN a = i /\ is_sep c = true.
Proof.
  unfold delim. destruct (rindex x2f s) as [j|] eqn:E; intro H.
  - injection H as <-. destruct (rindex_split _ _ _ E) as (a & d & -> & L). now exists a, x2f, d.
  - destruct (rindex_split _ _ _ H) as (a & d & -> & L). now exists a, x5c, d.
Qed.
Lemma cstr_split : forall b s, cstr b = Some s -> exists r, b = s ++ x00 :: r.
Proof.
  induction b as [|c b IH]; intros s H; cbn [cstr] in H; [discriminate|]. destruct (byte_eqb c x00) eqn:E.
  - injection H as <-. apply byte_eqb_spec in E. subst c. now exists b.
  - destruct (cstr b) as [t|]; [|discriminate]. injection H as <-. destruct (IH t eq_refl) as (r & ->). now exists r.
Qed.
(** One cut, then restored. *)
Lemma cut_sims b s i : cstr b = Some s -> delim s = Some i -> Forall2 simb (set_byte i x2f (set_byte i x00 b)) b.
Proof.
  intros H D. destruct (cstr_split _ _ H) as (r & ->). destruct (delim_split _ _ D) as (a & c & d & -> & <- & Sc).
  rewrite <- !app_assoc. cbn [app]. rewrite !set_byte_app. apply Forall2_app; [apply sims_refl|]. constructor; [right; auto|apply sims_refl].
Qed.

(** Only directories are added. *)
Definition adds (fs fs' : wtree) : Prop := forall q, fs' q = fs q \/ (fs q = None /\ fs' q = Some WnDir).
Lemma adds_refl fs : adds fs fs. Proof. intro q. now left. Qed.
Lemma adds_trans a b c : adds a b -> adds b c -> adds a c.
Proof.
  intros H1 H2 q. destruct (H1 q) as [E1|[E1 E1']], (H2 q) as [E2|[E2 E2']]; [left; congruence|right; split; congruence|right; split; congruence|congruence].
Qed.
Lemma create_adds deny s fs r fs' : create_directory deny s fs = (r, fs') -> adds fs fs' /\ (r = CdMade -> fs' (wcomps s) = Some WnDir).
Proof.
  unfold create_directory. destruct (wcomps s) as [|c p] eqn:E.
  { intro H. injection H as <- <-. split; [apply adds_refl|discriminate]. }
  destruct (fs (c :: p)) eqn:Ef. { intro H. injection H as <- <-. split; [apply adds_refl|discriminate]. }
  destruct (wdir _ _). 2:{ intro H. injection H as <- <-. split; [apply adds_refl|discriminate]. }
  destruct (deny _). { intro H. injection H as <- <-. split; [apply adds_refl|discriminate]. }
  intro H. injection H as <- <-. split; [|intros _; apply wset_same].
  intro q. unfold wset. destruct (wpath_eqb q (c :: p)) eqn:Eq; [|now left]. apply wpath_eqb_spec in Eq. subst q. right. auto.
Qed.
Lemma wos_create_adds deny b fs r fs' : wos_create deny b fs = Ok (r, fs') ->
  adds fs fs' /\ exists s, cstr b = Some s /\ (r = 0%Z -> fs' (wcomps s) = Some WnDir).
Proof.
  unfold wos_create. destruct (cstr b) as [s|]; [|discriminate]. destruct (create_directory deny s fs) as [x f] eqn:E. intro H. injection H as <- <-.
  destruct (create_adds _ _ _ _ _ E) as [A D]. split; [exact A|]. exists s. split; [reflexivity|]. destruct x; try discriminate. auto.
Qed.
Lemma wmk_down_adds deny orig : forall k b idx fs b' idx' en fs', Forall2 simb (restore b idx) orig ->
  wmk_down deny k b idx fs = Ok (b', idx', en, fs') -> adds fs fs' /\ Forall2 simb (restore b' idx') orig /\ (en = DownFound -> idx' <> []).
Proof.
  induction k as [|k IH]; intros b idx fs b' idx' en fs' R H; cbn [wmk_down] in H.
  { injection H as <- <- <- <-. split; [apply adds_refl|]. split; [exact R|discriminate]. }
  destruct (cstr b) as [s|] eqn:Ec; [|discriminate]. destruct (delim s) as [i|] eqn:Ed.
  2:{ injection H as <- <- <- <-. split; [apply adds_refl|]. split; [exact R|discriminate]. }
  destruct (wos_create deny (set_byte i x00 b) fs) as [[r f1]| |] eqn:Ew; [|discriminate H|discriminate H]. cbn [obind] in H.
  destruct (wos_create_adds _ _ _ _ _ Ew) as [A1 _].
  assert (R' : Forall2 simb (restore (set_byte i x00 b) (i :: idx)) orig).
  { cbn [restore]. eapply sims_trans; [|exact R]. apply sims_restore. eapply cut_sims; eassumption. }
  destruct (r =? -1)%Z. { injection H as <- <- <- <-. split; [exact A1|]. split; [exact R'|discriminate]. }
  destruct ((r =? 0)%Z || (r =? 1)%Z). { injection H as <- <- <- <-. split; [exact A1|]. split; [exact R'|discriminate]. }
  destruct (IH _ _ _ _ _ _ _ R' H) as (A2 & R2 & N2). split; [eapply adds_trans; eassumption|]. auto.
Qed.
Lemma wmk_up_adds deny : forall idx b fs r fs', wmk_up deny b idx fs = Ok (r, fs') -> adds fs fs' /\
  (r = 0%Z -> idx <> [] -> exists s, cstr (restore b idx) = Some s /\ fs' (wcomps s) = Some WnDir).
Proof.
  induction idx as [|i idx IH]; intros b fs r fs' H; cbn [wmk_up] in H.
  { injection H as <- <-. split; [apply adds_refl|]. intros _ Q. contradiction. }
  destruct (wos_create deny (set_byte i x2f b) fs) as [[c f1]| |] eqn:Ew; [|discriminate H|discriminate H]. cbn [obind] in H.
  destruct (wos_create_adds _ _ _ _ _ Ew) as (A1 & s & Es & D). destruct (c =? 0)%Z eqn:E0.
  - apply Z.eqb_eq in E0. destruct (IH _ _ _ _ H) as [A2 D2]. split; [eapply adds_trans; eassumption|]. intros Hr _. cbn [restore].
    destruct idx as [|j idx]; [|apply D2; [exact Hr|discriminate]]. cbn [wmk_up] in H. injection H as <- <-. cbn [restore]. exists s. auto.
  - injection H as <- <-. split; [exact A1|]. discriminate.
Qed.

(** C118: existing entries stay, new ones are directories; if 0 is returned the path is one of them. *)
Lemma win_made : forall deny s fs r fs', ~ In x00 s -> wmkdir_recurse deny s fs = Ok (r, fs') ->
  (forall q, fs' q = fs q \/ (fs q = None /\ fs' q = Some WnDir)) /\ (r = 0%Z -> fs' (wcomps s) = Some WnDir).
Proof.
  intros deny s fs r fs' Nz H. change (adds fs fs' /\ (r = 0%Z -> fs' (wcomps s) = Some WnDir)). unfold wmkdir_recurse in H. cbv zeta in H.
  destruct (wos_create deny (s ++ [x00]) fs) as [[c f1]| |] eqn:Ew; [|discriminate H|discriminate H]. cbn [obind] in H.
  destruct (wos_create_adds _ _ _ _ _ Ew) as (A1 & s1 & Es & D). rewrite cstr_app in Es by exact Nz. injection Es as <-.
  destruct ((c =? -1)%Z || (c =? 0)%Z || (c =? 1)%Z). { injection H as <- <-. split; assumption. }
  destruct (wmk_down deny 62 (s ++ [x00]) [] f1) as [[[[b1 idx] en] f2]| |] eqn:Ed; [|discriminate H|discriminate H]. cbn [obind] in H.
  destruct (wmk_down_adds deny (s ++ [x00]) 62 (s ++ [x00]) [] f1 b1 idx en f2 (sims_refl (s ++ [x00])) Ed) as (A2 & R2 & N2). pose proof (adds_trans _ _ _ A1 A2) as A.
  destruct en; [injection H as <- <-; split; [exact A|discriminate]| |injection H as <- <-; split; [exact A|discriminate]].
  destruct (lenN idx <? 62); [|injection H as <- <-; split; [exact A|discriminate]].
  destruct (wmk_up_adds _ _ _ _ _ _ H) as [A3 D3]. split; [eapply adds_trans; eassumption|]. intro Hr.
  destruct (D3 Hr (N2 eq_refl)) as (s' & Es' & D'). destruct (sims_cstr _ _ R2 Nz) as (s2 & E2 & F2). rewrite E2 in Es'. injection Es' as <-.
  unfold wcomps in D'. rewrite (sims_comps _ _ F2 []) in D'. exact D'.
Qed.
