(** MkdirMore.v: what the results of MkdirRecurseInline mean, for any path and any file system. *)
From Coq Require Import Lia.
From Verif Require Import Base Format Zlib Parser Decompress FS FSFacts HL HLSpec HLFacts HLDrive HLProps HLSafe MkdirFacts.

(** The path string leads to a directory (links are followed, as stat does). *)
Definition is_dir (o : os) (s : bytes) : Prop :=
  (exists d, namei true o s = WDir d) \/ (exists d c m, namei true o s = WAt d c (Some (IDir m))).
(** Existing entries stay as they are, the new ones are directories. *)
Definition only_dirs (um mode : N) (fs fs' : fstree) : Prop :=
  forall q, fs' q = fs q \/ (fs q = None /\ fs' q = Some (IDir (dir_perm um mode))).

Lemma only_refl um mode fs : only_dirs um mode fs fs. Proof. intro q. now left. Qed.
Lemma only_trans um mode a b c : only_dirs um mode a b -> only_dirs um mode b c -> only_dirs um mode a c.
Proof.
  intros H1 H2 q. destruct (H1 q) as [E1|[E1 E1']], (H2 q) as [E2|[E2 E2']]; [left; congruence|right; split; congruence|right; split; congruence|congruence].
Qed.

Lemma walk_made fs priv i : forall links d cs d' c', walk_path fs priv false links d cs = WAt d' c' None -> (forall x, i <> ILink x) ->
  walk_path (upd fs (d' ++ [c']) i) priv true links d cs = WAt d' c' (Some i).
Proof.
  induction links as [links IHl] using (well_founded_induction lt_wf).
  intros d cs. revert d. induction cs as [|c1 r IH]; intros d d' c' H Hi; rewrite walk_eq in H; [discriminate|]. rewrite walk_eq.
  assert (Fn : fs (d' ++ [c']) = None).
  { clear - H. revert H. rewrite <- (walk_eq fs priv false links d (c1 :: r)). revert d r c1 d' c'.
    induction links as [links IHl] using (well_founded_induction lt_wf). intros d r. revert d.
    induction r as [|c2 r IH]; intros d c1 d' c' H; rewrite walk_eq in H;
    (destruct (fs d) as [[m|m x|x]|]; try discriminate H; destruct (negb _); [discriminate H|]);
    (destruct (bytes_eqb c1 [x2e]); [first [now apply IH in H | rewrite walk_eq in H; discriminate H]|]);
    (destruct (bytes_eqb c1 [x2e; x2e]); [first [now apply IH in H | rewrite walk_eq in H; discriminate H]|]);
    (destruct (_ <? _); [discriminate H|]); destruct (fs (d ++ [c1])) as [[m1|m1 x1|x1]|] eqn:E; try discriminate H.
    - injection H as <- <-. exact E.
    - now apply IH in H.
    - destruct links as [|l]; [discriminate H|]. destruct (nonempty x1); [|discriminate H].
      destruct (comps x1 ++ c2 :: r) as [|y ys] eqn:Ey; [rewrite walk_eq in H; discriminate H|]. apply IHl in H; [exact H|lia]. }
  assert (U : forall q, fs q <> None -> upd fs (d' ++ [c']) i q = fs q) by (intros q Q; apply upd_other; congruence).
  destruct (fs d) as [[m|m x|x]|] eqn:Ed; try discriminate H. rewrite U, Ed by congruence.
  destruct (negb _); [discriminate H|].
  destruct (bytes_eqb c1 [x2e]); [now apply IH|]. destruct (bytes_eqb c1 [x2e; x2e]); [now apply IH|].
  destruct (_ <? _); [discriminate H|]. destruct (fs (d ++ [c1])) as [[m1|m1 x1|x1]|] eqn:E.
  - rewrite U, E by congruence. destruct r; [discriminate H|now apply IH].
  - destruct r; discriminate H.
  - rewrite U, E by congruence. destruct r as [|c2 r]; [discriminate H|].
    destruct links as [|l]; [discriminate H|]. destruct (nonempty x1); [|discriminate H]. apply IHl; [lia|exact H|exact Hi].
  - destruct r; [|discriminate H]. injection H as <- <-. rewrite upd_same. destruct i as [m1|m1 x1|x1]; try reflexivity. destruct (Hi x1 eq_refl).
Qed.

Lemma create_spec b s mode o : cstr b = Some s -> exists r o', exec (os_create b mode) o = Ok (r, o') /\
  only_dirs (o_umask o) mode (o_fs o) (o_fs o') /\ o' = with_fs (o_fs o') o /\
  (r = 0%Z /\ is_dir o' s /\ (exists q, o_fs o q = None /\ o_fs o' q <> None) \/ r <> 0%Z /\ o' = o /\ (r = 1%Z -> is_dir o s) /\ (r = 1 \/ r = 2 \/ r = -1)%Z).
Proof.
  intro Es. unfold os_create, with_cstr. rewrite Es, exec_sys. cbn [sys]. unfold sys_mkdir.
  assert (Sm : o = with_fs (o_fs o) o) by (destruct o; reflexivity).
  assert (St : exists r o', exec (pdo r2 <- psys (ScStatDir s); PRet (match r2 with ROk => 1%Z | _ => (-1)%Z end)) o = Ok (r, o') /\
     only_dirs (o_umask o) mode (o_fs o) (o_fs o') /\ o' = with_fs (o_fs o') o /\
     (r = 0%Z /\ is_dir o' s /\ (exists q, o_fs o q = None /\ o_fs o' q <> None) \/ r <> 0%Z /\ o' = o /\ (r = 1%Z -> is_dir o s) /\ (r = 1 \/ r = 2 \/ r = -1)%Z)).
  { rewrite exec_sys. cbn [sys exec]. rewrite stat_same. unfold sys_stat_dir, is_dir.
    destruct (namei true o s) as [er|d|d c [[m|m x|x]|]]; cbn [fst];
    (eexists _, _; split; [reflexivity|]; split; [apply only_refl|]; split; [exact Sm|]; right; split; [discriminate|]; split; [reflexivity|]);
    (split; [|auto]); intro Q; try discriminate Q; eauto. }
  destruct (namei false o s) as [er|d|d c [i|]] eqn:E; cbn [fst snd].
  - destruct er; try (eexists _, _; split; [reflexivity|]; split; [apply only_refl|]; split; [exact Sm|]; right; split; [discriminate|]; split; [reflexivity|]; split; [discriminate|auto]).
    exact St.
  - exact St.
  - exact St.
  - destruct (can_w _ _); cbn [fst snd].
    2:{ eexists _, _; split; [reflexivity|]; split; [apply only_refl|]; split; [exact Sm|]; right; split; [discriminate|]; split; [reflexivity|]; split; [discriminate|auto]. }
    assert (Fn : o_fs o (d ++ [c]) = None) by (symmetry; eapply namei_at; eauto).
    eexists _, _. cbn [exec]. split; [reflexivity|]. split.
    { intro q. cbn [with_fs o_fs]. destruct (path_dec q (d ++ [c])) as [->|Q]; [right; rewrite upd_same; auto|left; now apply upd_other]. }
    split; [reflexivity|]. left. split; [reflexivity|]. split.
    + right. exists d, c, (new_dir_mode o mode). unfold namei in *. cbn [with_fs o_fs o_priv o_cwd].
      destruct (negb _); [discriminate E|]. destruct (_ <=? _); [discriminate E|]. apply walk_made; [exact E|discriminate].
    + exists (d ++ [c]). split; [exact Fn|]. cbn [with_fs o_fs]. rewrite upd_same. discriminate.
Qed.

(** ** Blocks *)
Definition ends (b : bytes) : Prop := exists x, b = x ++ [x00].
Definition inside (b : bytes) (idx : list N) : Prop := Forall (fun i => i + 1 < lenN b) idx.
Lemma ends_cstr b : ends b -> exists s, cstr b = Some s.
Proof.
  intros [x ->]. induction x as [|c x [s IH]]; [now exists []|]. cbn [app cstr]. destruct (byte_eqb c x00); [eauto|]. rewrite IH. eauto.
Qed.
Lemma set_split (b : bytes) i c : i + 1 < lenN b -> ends b -> exists x y d, b = x ++ y :: d ++ [x00] /\ lenN x = i /\ set_byte i c b = x ++ c :: d ++ [x00].
Proof.
  intros L [w ->]. rewrite lenN_app, lenN_cons in L. change (lenN (@nil byte)) with 0 in L.
  revert i L. induction w as [|y w IH]; intros i L; [unfold lenN in L; cbn in L; lia|]. rewrite lenN_cons in L.
  destruct (N.eq_dec i 0) as [->|Hi].
  - exists [], y, w. split; [reflexivity|]. split; [reflexivity|]. cbn [app]. unfold set_byte. cbn [takeN dropN]. cbn. destruct w; reflexivity.
  - destruct (IH (i - 1)) as (x & y' & d & E1 & E2 & E3); [lia|]. exists (y :: x), y', d. rewrite lenN_cons. cbn [app]. rewrite E1.
    split; [reflexivity|]. split; [lia|]. change (y :: x ++ y' :: d ++ [x00]) with ((y :: x) ++ y' :: d ++ [x00]).
    replace i with (lenN (y :: x)) by (rewrite lenN_cons; lia). now rewrite set_byte_app.
Qed.
Lemma set_ends b i c : i + 1 < lenN b -> ends b -> ends (set_byte i c b) /\ lenN (set_byte i c b) = lenN b.
Proof.
  intros L H. destruct (set_split b i c L H) as (x & y & d & -> & _ & ->). split; [exists (x ++ c :: d); now rewrite <- app_assoc|].
  rewrite !lenN_app, !lenN_cons. reflexivity.
Qed.
Lemma cstr_split : forall b s, cstr b = Some s -> exists r, b = s ++ x00 :: r.
Proof.
  induction b as [|c b IH]; intros s H; cbn [cstr] in H; [discriminate|]. destruct (byte_eqb c x00) eqn:E.
  - injection H as <-. apply byte_eqb_spec in E. subst c. now exists b.
  - destruct (cstr b) as [t|]; [|discriminate]. injection H as <-. destruct (IH t eq_refl) as (r & ->). now exists r.
Qed.
Lemma rindex_split c : forall s i, rindex c s = Some i -> exists a d, s = a ++ c :: d /\ lenN a = i.
Proof.
  induction s as [|x s IH]; intros i H; cbn [rindex] in H; [discriminate|]. destruct (rindex c s) as [j|].
  - injection H as <-. destruct (IH j eq_refl) as (a & d & -> & L). exists (x :: a), d. split; [reflexivity|]. rewrite lenN_cons. lia.
  - destruct (byte_eqb x c) eqn:E; [|discriminate]. injection H as <-. apply byte_eqb_spec in E. subst x. now exists [], s.
Qed.
Lemma delim_split s i : delim s = Some i -> exists a c d, s = a ++ c :: d /\ lenN a = i /\ (c = x2f \/ c = x5c).
Proof.
  unfold delim. destruct (rindex x2f s) as [j|] eqn:E; intro H.
  - injection H as <-. destruct (rindex_split _ _ _ E) as (a & d & -> & L). exists a, x2f, d. auto.
  - destruct (rindex_split _ _ _ H) as (a & d & -> & L). exists a, x5c, d. auto.
Qed.
Lemma cut_inside b s i idx : cstr b = Some s -> delim s = Some i -> ends b -> inside b idx -> ends (set_byte i x00 b) /\ inside (set_byte i x00 b) (i :: idx).
Proof.
  intros H D En In. destruct (cstr_split _ _ H) as (r & ->). destruct (delim_split _ _ D) as (a & c & d & -> & La & _).
  assert (L : i + 1 < lenN ((a ++ c :: d) ++ x00 :: r)) by (rewrite !lenN_app, !lenN_cons; lia).
  destruct (set_ends _ i x00 L En) as [E1 E2]. split; [exact E1|]. unfold inside. rewrite E2. constructor; assumption.
Qed.

(** The separators put back. *)
Fixpoint put_back (b : bytes) (idx : list N) : bytes := match idx with [] => b | i :: r => put_back (set_byte i x2f b) r end.

Lemma cut_back b s i : cstr b = Some s -> delim s = Some i -> ~ In x5c s -> set_byte i x2f (set_byte i x00 b) = b.
Proof.
  intros H D Nb. destruct (cstr_split _ _ H) as (r & ->). destruct (delim_split _ _ D) as (a & c & d & -> & <- & [->| ->]).
  - rewrite <- !app_assoc. cbn [app]. now rewrite !set_byte_app.
  - exfalso. apply Nb. apply in_app_iff. right. now left.
Qed.

Lemma mk_down_spec mode orig (clean : Prop) : forall k b idx o, ends b -> inside b idx -> (clean -> ~ In x5c b /\ put_back b idx = orig) ->
  exists b' idx' en o', exec (mk_down k b idx mode) o = Ok ((b', idx', en), o') /\ ends b' /\ inside b' idx' /\
    only_dirs (o_umask o) mode (o_fs o) (o_fs o') /\ o' = with_fs (o_fs o') o /\ (en = DownFound -> idx' <> []) /\
    (clean -> ~ In x5c b' /\ put_back b' idx' = orig).
Proof.
  induction k as [|k IH]; intros b idx o En Is Pb; assert (Sm : o = with_fs (o_fs o) o) by (destruct o; reflexivity); cbn [mk_down].
  { exists b, idx, DownOut, o. cbn [exec]. split; [reflexivity|]. split; [exact En|]. split; [exact Is|]. split; [apply only_refl|]. split; [exact Sm|]. split; [discriminate|auto]. }
  destruct (ends_cstr b En) as [s Es]. unfold with_cstr. rewrite Es. destruct (delim s) as [i|] eqn:Ed.
  2:{ exists b, idx, DownOut, o. cbn [exec]. split; [reflexivity|]. split; [exact En|]. split; [exact Is|]. split; [apply only_refl|]. split; [exact Sm|]. split; [discriminate|auto]. }
  destruct (cut_inside _ _ _ _ Es Ed En Is) as [En' Is'].
  assert (Pb' : clean -> ~ In x5c (set_byte i x00 b) /\ put_back (set_byte i x00 b) (i :: idx) = orig).
  { intro H. destruct (Pb H) as [Nb Pk]. split.
    - intro Q. apply Nb. destruct (cstr_split _ _ Es) as (r & ->). destruct (delim_split _ _ Ed) as (a & c & d & -> & <- & _).
      rewrite <- app_assoc in *. cbn [app] in *. rewrite set_byte_app in Q. apply in_app_iff in Q. apply in_app_iff. destruct Q as [Q|[Q|Q]]; [now left|discriminate Q|right; now right].
    - cbn [put_back]. rewrite (cut_back _ _ _ Es Ed); [exact Pk|]. intro Q. apply Nb. destruct (cstr_split _ _ Es) as (r & ->). apply in_app_iff. now left. }
  destruct (ends_cstr _ En') as [s' Es']. rewrite exec_bind.
  destruct (create_spec (set_byte i x00 b) s' mode o Es') as (r & o1 & -> & A1 & S1 & _). cbn [obind].
  destruct (r =? -1)%Z.
  { eexists _, _, _, _. cbn [exec]. split; [reflexivity|]. split; [exact En'|]. split; [exact Is'|]. split; [exact A1|]. split; [exact S1|]. split; [discriminate|exact Pb']. }
  destruct ((r =? 0)%Z || (r =? 1)%Z).
  { eexists _, _, _, _. cbn [exec]. split; [reflexivity|]. split; [exact En'|]. split; [exact Is'|]. split; [exact A1|]. split; [exact S1|]. split; [discriminate|exact Pb']. }
  destruct (IH (set_byte i x00 b) (i :: idx) o1 En' Is' Pb') as (b' & idx' & en & o' & E & E1 & E2 & E3 & E4 & E5 & E6).
  assert (Um : o_umask o1 = o_umask o) by (rewrite S1; reflexivity). rewrite Um in E3.
  exists b', idx', en, o'.
  split; [exact E|]. split; [exact E1|]. split; [exact E2|]. split; [eapply only_trans; eassumption|]. split; [rewrite E4, S1; reflexivity|]. split; [exact E5|exact E6].
Qed.
Lemma mk_up_spec mode : forall idx b o, ends b -> inside b idx -> exists r o', exec (mk_up b idx mode) o = Ok (r, o') /\
  only_dirs (o_umask o) mode (o_fs o) (o_fs o') /\ o' = with_fs (o_fs o') o /\ (r = 0 \/ r = -1)%Z /\
  (r = 0%Z -> idx <> [] -> exists s, cstr (put_back b idx) = Some s /\ is_dir o' s /\ exists q, o_fs o q = None /\ o_fs o' q <> None).
Proof.
  induction idx as [|i idx IH]; intros b o En Is; cbn [mk_up].
  { exists 0%Z, o. cbn [exec]. split; [reflexivity|]. split; [apply only_refl|]. split; [destruct o; reflexivity|]. split; [now left|]. intros _ Q. contradiction. }
  inversion Is as [|? ? L Is']; subst. destruct (set_ends b i x2f L En) as [En2 L2].
  assert (Is2 : inside (set_byte i x2f b) idx) by (unfold inside; rewrite L2; exact Is').
  destruct (ends_cstr _ En2) as [s Es]. rewrite exec_bind.
  destruct (create_spec _ s mode o Es) as (c & o1 & -> & A1 & S1 & D1). cbn [obind].
  assert (Um : o_umask o1 = o_umask o) by (rewrite S1; reflexivity).
  destruct D1 as [(-> & D1 & q & Q1 & Q2)|(Hc & -> & _)].
  - cbn [Z.eqb]. destruct (IH _ o1 En2 Is2) as (r & o' & E & A2 & S2 & R2 & D2). rewrite Um in A2. exists r, o'. split; [exact E|].
    split; [eapply only_trans; eassumption|]. split; [rewrite S2, S1; reflexivity|]. split; [exact R2|]. intros Hr _. cbn [put_back].
    assert (Q3 : o_fs o' q <> None) by (destruct (A2 q) as [W|[W _]]; congruence).
    destruct idx as [|j idx].
    + cbn [mk_up exec] in E. injection E as <- <-. cbn [put_back]. exists s. eauto.
    + destruct (D2 Hr) as (s2 & W1 & W2 & _); [discriminate|]. exists s2. eauto.
  - replace (c =? 0)%Z with false by (symmetry; now apply Z.eqb_neq). exists (-1)%Z, o. cbn [exec]. split; [reflexivity|]. split; [apply only_refl|].
    split; [exact S1|]. split; [now right|]. discriminate.
Qed.

(** Any path, any file system. *)
Lemma mkdir_total ok B mode o : ~ In x00 B -> exists r o', exec (mkdir_recurse ok B mode) o = Ok (r, o') /\ (r = 0 \/ r = 1 \/ r = -1)%Z /\
  only_dirs (o_umask o) mode (o_fs o) (o_fs o') /\ o' = with_fs (o_fs o') o /\
  (r = 0%Z -> exists q, o_fs o q = None /\ o_fs o' q <> None) /\ (r = 1%Z -> o' = o /\ is_dir o B) /\
  (r = 0%Z -> ~ In x5c B -> is_dir o' B).
Proof.
  intro Nz. assert (Sm : o = with_fs (o_fs o) o) by (destruct o; reflexivity). unfold mkdir_recurse. destruct ok.
  2:{ exists (-1)%Z, o. cbn [exec]. split; [reflexivity|]. split; [auto|]. split; [apply only_refl|]. split; [exact Sm|]. split; [discriminate|]. split; discriminate. }
  unfold mkdir_raw. rewrite exec_bind. assert (Ec : cstr (B ++ [x00]) = Some B) by (apply cstr_app, Nz).
  destruct (create_spec _ B mode o Ec) as (r & o1 & -> & A1 & S1 & D1). cbn [obind].
  destruct D1 as [(-> & D1 & Q)|(Hr & -> & D1 & R1)].
  { cbn [Z.eqb orb]. exists 0%Z, o1. cbn [exec Z.eqb orb]. split; [reflexivity|]. split; [auto|]. split; [exact A1|]. split; [exact S1|]. split; [intros _; exact Q|]. split; [discriminate|auto]. }
  destruct R1 as [->|[->| ->]].
  - exists 1%Z, o. cbn [exec Z.eqb orb]. split; [reflexivity|]. split; [auto|]. split; [exact A1|]. split; [exact S1|]. split; [discriminate|]. split; [auto|discriminate].
  - cbn [Z.eqb orb Pos.eqb]. rewrite exec_bind.
    assert (En : ends (B ++ [x00])) by (now exists B).
    destruct (mk_down_spec mode (B ++ [x00]) (~ In x5c B) 62 (B ++ [x00]) [] o En (Forall_nil _)) as (b' & idx & en & o2 & -> & E1 & E2 & A2 & S2 & N2 & P2).
    { intro H. split; [|reflexivity]. intro Q. apply in_app_iff in Q. destruct Q as [Q|[Q|[]]]; [contradiction|discriminate Q]. }
    cbn [obind]. assert (Um : o_umask o2 = o_umask o) by (rewrite S2; reflexivity).
    destruct en; try (exists (-1)%Z, o2; cbn [exec]; split; [reflexivity|]; split; [auto|]; split; [exact A2|]; split; [exact S2|]; split; [discriminate|]; split; discriminate).
    destruct (_ <? _); [|exists (-1)%Z, o2; cbn [exec]; split; [reflexivity|]; split; [auto|]; split; [exact A2|]; split; [exact S2|]; split; [discriminate|]; split; discriminate].
    destruct (mk_up_spec mode idx b' o2 E1 E2) as (r & o3 & -> & A3 & S3 & R3 & D3). rewrite Um in A3. exists r, o3. split; [reflexivity|].
    split; [destruct R3; auto|]. split; [eapply only_trans; eassumption|]. split; [rewrite S3, S2; reflexivity|]. split.
    + intro Hz. destruct (D3 Hz (N2 eq_refl)) as (s & _ & _ & q & Q1 & Q2). exists q. split; [|exact Q2]. destruct (A2 q) as [W|[W _]]; congruence.
    + split; [intros ->; destruct R3; discriminate|]. intros Hz Nb. destruct (D3 Hz (N2 eq_refl)) as (s & Es & Di & _).
      destruct (P2 Nb) as [_ P3]. rewrite P3, Ec in Es. now injection Es as <-.
  - exists (-1)%Z, o. cbn [exec Z.eqb orb Pos.eqb]. split; [reflexivity|]. split; [auto|]. split; [exact A1|]. split; [exact S1|]. split; [discriminate|]. split; discriminate.
Qed.

Lemma create_on_dir b P t mode o : cstr b = Some P -> dir_at o P t -> lenN P < PATH_MAX -> exec (os_create b mode) o = Ok (1%Z, o).
Proof.
  intros Es [Pn L] LP. unfold os_create, with_cstr. rewrite Es, exec_sys. cbn [sys]. pose proof (leads_exists _ _ _ _ _ _ L) as X.
  assert (Ne : nonempty P = true) by (now apply nonempty_ne).
  assert (E : sys_mkdir P mode o = (RErr EEXIST, o)).
  { unfold sys_mkdir, namei. rewrite Ne. cbn [negb]. replace (PATH_MAX <=? lenN P) with false by (symmetry; apply N.leb_gt; exact LP).
    destruct (walk_path _ _ _ _ _ _) as [er|d|d c [i|]]; [contradiction|reflexivity|reflexivity|contradiction]. }
  rewrite E. cbn [fst snd]. rewrite exec_sys. cbn [sys].
  assert (E2 : sys_stat_dir P o = (ROk, o)).
  { unfold sys_stat_dir, namei. rewrite Ne. cbn [negb]. replace (PATH_MAX <=? lenN P) with false by (symmetry; apply N.leb_gt; exact LP).
    destruct L as [_ [->|(d & c & m & -> & _)]]; reflexivity. }
  rewrite E2. reflexivity.
Qed.

(** If the parent directory exists, a failed call changes nothing. *)
Lemma mkdir_failed P c t ok mode o r o' : ~ In x00 (P ++ x2f :: c) -> ~ In x2f c -> dir_at o P t -> lenN P < PATH_MAX ->
  exec (mkdir_recurse ok (P ++ x2f :: c) mode) o = Ok (r, o') -> r <> 0%Z -> o' = o.
Proof.
  intros Nz Nc Da LP H Hr. unfold mkdir_recurse in H. destruct ok; [|cbn [exec] in H; congruence]. unfold mkdir_raw in H. rewrite exec_bind in H.
  assert (Ec : cstr ((P ++ x2f :: c) ++ [x00]) = Some (P ++ x2f :: c)) by (apply cstr_app, Nz).
  destruct (create_spec _ _ mode o Ec) as (r1 & o1 & E1 & _ & _ & D1). rewrite E1 in H. cbn [obind] in H.
  destruct D1 as [(-> & _)|(Hr1 & -> & _ & R1)]; [cbn in H; congruence|].
  destruct R1 as [->|[->| ->]]; [cbn in H; congruence| |cbn in H; congruence].
  cbn [Z.eqb orb Pos.eqb] in H. rewrite exec_bind in H.
  assert (Ed : delim (P ++ x2f :: c) = Some (lenN P)) by (unfold delim; now rewrite rindex_app).
  assert (Es : set_byte (lenN P) x00 ((P ++ x2f :: c) ++ [x00]) = P ++ x00 :: c ++ [x00]) by (rewrite <- app_assoc; cbn [app]; now rewrite set_byte_app).
  assert (Eb : set_byte (lenN P) x2f (P ++ x00 :: c ++ [x00]) = (P ++ x2f :: c) ++ [x00]) by (rewrite set_byte_app, <- app_assoc; reflexivity).
  assert (Ecp : cstr (P ++ x00 :: c ++ [x00]) = Some P) by (apply cstr_app; intro Q; apply Nz, in_app_iff; now left).
  assert (Ek : exec (mk_down 62 ((P ++ x2f :: c) ++ [x00]) [] mode) o = Ok ((P ++ x00 :: c ++ [x00], [lenN P], DownFound), o)).
  { generalize 61%nat as k. intro k. cbn [mk_down]. unfold with_cstr at 1. rewrite Ec, Ed, Es, exec_bind, (create_on_dir _ P t mode o Ecp Da LP). reflexivity. }
  rewrite Ek in H. cbn [obind] in H. change (lenN [lenN P] <? 62) with true in H. cbn [mk_up] in H. rewrite Eb, exec_bind, E1 in H. cbn [obind exec Z.eqb] in H. congruence.
Qed.

Lemma mkdir_result ok B mode o : ~ In x00 B -> ~ In x5c B ->
  exists r o', exec (mkdir_recurse ok B mode) o = Ok (r, o') /\ (r = 0%Z \/ r = 1%Z -> is_dir o' B).
Proof.
  intros Nz Nb. destruct (mkdir_total ok B mode o Nz) as (r & o' & E & _ & _ & _ & _ & H1 & H0). exists r, o'. split; [exact E|].
  intros [Q|Q]; [now apply H0|]. destruct (H1 Q) as [-> H]. exact H.
Qed.
Lemma mkdir_only ok B mode o : ~ In x00 B ->
  exists r o', exec (mkdir_recurse ok B mode) o = Ok (r, o') /\ (r = 0 \/ r = 1 \/ r = -1)%Z /\
    only_dirs (o_umask o) mode (o_fs o) (o_fs o') /\ o' = with_fs (o_fs o') o /\
    (r = 0%Z -> exists q, o_fs o q = None /\ o_fs o' q <> None) /\ (r = 1%Z -> o' = o /\ is_dir o B).
Proof.
  intro Nz. destruct (mkdir_total ok B mode o Nz) as (r & o' & E & R & A & S & N & H1 & _). exists r, o'. auto 8.
Qed.
