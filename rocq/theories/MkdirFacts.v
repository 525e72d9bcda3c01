(** MkdirFacts.v: creating directories with their missing ancestors. *)
From Coq Require Import Lia.
From Verif Require Import Base Format Zlib Parser Decompress FS FSFacts HL HLSpec HLFacts HLDrive HLProps HLSafe.

(** ** Resolution through existing directories *)

Lemma walk_cat fs priv follow cs2 : cs2 <> [] -> forall links d cs t, leads fs priv links d cs t ->
  exists l, walk_path fs priv follow links d (cs ++ cs2) = walk_path fs priv follow l t cs2.
Proof.
  intro Ne. induction links as [links IHl] using (well_founded_induction lt_wf).
  intros d cs. revert d. induction cs as [|c1 r IH]; intros d t (Ht & Hw).
  - destruct Hw as [Hw|(d' & c' & m & Hw & _)]; rewrite walk_eq in Hw; [|discriminate]. injection Hw as <-. exists links. reflexivity.
  - cbn [app]. rewrite walk_eq. rewrite walk_eq in Hw.
    destruct (fs d) as [[m|m x|x]|]; try (destruct Hw as [Hw|(d' & c' & m' & Hw & _)]; discriminate).
    destruct (negb (can_x priv m)); [destruct Hw as [Hw|(d' & c' & m' & Hw & _)]; discriminate|].
    destruct (bytes_eqb c1 [x2e]); [apply IH; split; assumption|].
    destruct (bytes_eqb c1 [x2e; x2e]); [apply IH; split; assumption|].
    destruct (NAME_MAX <? lenN c1); [destruct Hw as [Hw|(d' & c' & m' & Hw & _)]; discriminate|].
    assert (Nil : forall (X : Type) (a b : X), match r ++ cs2 with [] => a | _ => b end = b)
      by (intros; destruct r; [destruct cs2; [contradiction|reflexivity]|reflexivity]).
    destruct (fs (d ++ [c1])) as [[m1|m1 x1|x1]|] eqn:Ec.
    + replace (match r ++ cs2 with [] => WAt d c1 (Some (IDir m1)) | _ => walk_path fs priv follow links (d ++ [c1]) (r ++ cs2) end)
        with (walk_path fs priv follow links (d ++ [c1]) (r ++ cs2)) by (symmetry; apply (Nil _ (WAt d c1 (Some (IDir m1))))).
      destruct r as [|c2 r].
      * destruct Hw as [Hw|(d' & c' & m' & Hw & ->)]; [discriminate|]. injection Hw as <- <- <-. exists links. reflexivity.
      * apply IH. split; assumption.
    + destruct r; destruct Hw as [Hw|(d' & c' & m' & Hw & _)]; discriminate.
    + assert (E : match r ++ cs2, follow with [], false => WAt d c1 (Some (ILink x1)) | _, _ =>
        match links with O => WErr ELOOP | S l => if nonempty x1 then walk_path fs priv follow l (start x1 d) (comps x1 ++ r ++ cs2) else WErr ENOENT end end =
        match links with O => WErr ELOOP | S l => if nonempty x1 then walk_path fs priv follow l (start x1 d) (comps x1 ++ r ++ cs2) else WErr ENOENT end)
        by (destruct r; [destruct cs2; [contradiction|reflexivity]|reflexivity]).
      rewrite E. clear E.
      assert (Hw' : match links with O => WErr ELOOP | S l => if nonempty x1 then walk_path fs priv true l (start x1 d) (comps x1 ++ r) else WErr ENOENT end = WDir t \/
        exists d' c' m', match links with O => WErr ELOOP | S l => if nonempty x1 then walk_path fs priv true l (start x1 d) (comps x1 ++ r) else WErr ENOENT end = WAt d' c' (Some (IDir m')) /\ t = d' ++ [c'])
        by (destruct r; exact Hw). clear Hw.
      destruct links as [|l]; [destruct Hw' as [Hw|(d' & c' & m' & Hw & _)]; discriminate|].
      destruct (nonempty x1); [|destruct Hw' as [Hw|(d' & c' & m' & Hw & _)]; discriminate].
      rewrite app_assoc. apply IHl; [lia|]. split; assumption.
    + destruct r; destruct Hw as [Hw|(d' & c' & m' & Hw & _)]; discriminate.
Qed.

(** Plain components, no links: the result lies below. *)
Lemma walk_below fs priv follow t : forall cs d l, Forall plain cs -> cs <> [] ->
  (forall r x, fs (t ++ r) <> Some (ILink x)) -> (exists r, d = t ++ r) ->
  match walk_path fs priv follow l d cs with
  | WErr _ => True
  | WDir _ => False
  | WAt d' c' _ => exists cs', cs = cs' ++ [c'] /\ d' = d ++ cs'
  end.
Proof.
  induction cs as [|c cs IH]; intros d l Hp Ne Nl [r Hr]; [contradiction|].
  inversion Hp as [|? ? (P1 & P2 & P3 & P4 & P5 & P6) Hp']; subst d x l0. rewrite walk_eq.
  destruct (fs (t ++ r)) as [[m|m x|x]|]; try exact I. destruct (negb _); [exact I|].
  rewrite (bytes_eqb_neq _ _ P4), (bytes_eqb_neq _ _ P5). destruct (_ <? _); [exact I|].
  assert (Nl' : forall x, fs ((t ++ r) ++ [c]) <> Some (ILink x)) by (intro x; rewrite <- app_assoc; apply Nl).
  destruct (fs ((t ++ r) ++ [c])) as [[m'|m' x|x]|].
  - destruct cs as [|c2 cs]; [exists []; now rewrite app_nil_r|].
    specialize (IH ((t ++ r) ++ [c]) l Hp' ltac:(discriminate) Nl ltac:(exists (r ++ [c]); now rewrite <- app_assoc)).
    destruct (walk_path fs priv follow l ((t ++ r) ++ [c]) (c2 :: cs)); try exact IH.
    destruct IH as (cs' & -> & ->). exists (c :: cs'). split; [reflexivity|]. now rewrite <- !app_assoc.
  - destruct cs; [exists []; now rewrite app_nil_r|exact I].
  - destruct (Nl' x eq_refl).
  - destruct cs; [exists []; now rewrite app_nil_r|exact I].
Qed.

(** A path that leads to a directory names something. *)
Lemma leads_exists fs priv : forall links d cs t, leads fs priv links d cs t ->
  match walk_path fs priv false links d cs with WErr _ => False | WDir _ => True | WAt _ _ i => i <> None end.
Proof.
  induction links as [links IHl] using (well_founded_induction lt_wf).
  intros d cs. revert d. induction cs as [|c1 r IH]; intros d t (Ht & Hw).
  - rewrite walk_eq. exact I.
  - rewrite walk_eq. rewrite walk_eq in Hw.
    destruct (fs d) as [[m|m x|x]|]; try (destruct Hw as [Hw|(d' & c' & m' & Hw & _)]; discriminate).
    destruct (negb (can_x priv m)); [destruct Hw as [Hw|(d' & c' & m' & Hw & _)]; discriminate|].
    destruct (bytes_eqb c1 [x2e]); [eapply IH; split; eassumption|].
    destruct (bytes_eqb c1 [x2e; x2e]); [eapply IH; split; eassumption|].
    destruct (NAME_MAX <? lenN c1); [destruct Hw as [Hw|(d' & c' & m' & Hw & _)]; discriminate|].
    destruct (fs (d ++ [c1])) as [[m1|m1 x1|x1]|] eqn:Ec.
    + destruct r; [discriminate|]. eapply IH; split; eassumption.
    + destruct r; destruct Hw as [Hw|(d' & c' & m' & Hw & _)]; discriminate.
    + destruct r as [|c2 r]; [discriminate|].
      destruct links as [|l]; [destruct Hw as [Hw|(d' & c' & m' & Hw & _)]; discriminate|].
      destruct (nonempty x1); [|destruct Hw as [Hw|(d' & c' & m' & Hw & _)]; discriminate].
      eapply IHl; [lia|]. split; eassumption.
    + destruct r; destruct Hw as [Hw|(d' & c' & m' & Hw & _)]; discriminate.
Qed.

Lemma nonempty_app s c : s <> [] -> nonempty (s ++ c) = true.
Proof. destruct s; [contradiction|reflexivity]. Qed.
Lemma nonempty_ne s : s <> [] -> nonempty s = true.
Proof. destruct s; [contradiction|reflexivity]. Qed.

(** ** The block with the cut path *)
Section Block.
Context (B : bytes).
Hypothesis Nz : ~ In x00 B.

Definition under (cs : list bytes) : bytes := B ++ slashes cs.
Definition block (cs cuts : list bytes) (junk : bytes) : bytes :=
  under cs ++ concat (map (fun c => x00 :: c) cuts) ++ x00 :: junk.
Fixpoint cuts_at (cs cuts : list bytes) : list N :=
  match cuts with [] => [] | c :: r => lenN (under cs) :: cuts_at (cs ++ [c]) r end.

Lemma under_snoc cs c : under (cs ++ [c]) = under cs ++ x2f :: c.
Proof. unfold under, slashes. rewrite map_app, concat_app. cbn [map concat]. now rewrite app_nil_r, app_assoc. Qed.
Lemma under_nil : under [] = B. Proof. apply app_nil_r. Qed.
Lemma under_nul cs : Forall plain cs -> ~ In x00 (under cs).
Proof.
  induction cs as [|c cs IH] using rev_ind; intro H; [now rewrite under_nil|].
  apply Forall_app in H. destruct H as [H1 H2]. inversion H2 as [|? ? (_ & _ & P & _) _]; subst.
  rewrite under_snoc. intro Q. apply in_app_iff in Q. destruct Q as [Q|[Q|Q]]; [now apply IH|discriminate|contradiction].
Qed.
Lemma block_cstr cs cuts junk : Forall plain cs -> cstr (block cs cuts junk) = Some (under cs).
Proof.
  intro H. unfold block. destruct cuts as [|c r]; cbn [map concat app]; apply cstr_app, under_nul, H.
Qed.
Lemma block_cut cs c cuts junk : plain c -> delim (under (cs ++ [c])) = Some (lenN (under cs)) /\
  set_byte (lenN (under cs)) x00 (block (cs ++ [c]) cuts junk) = block cs (c :: cuts) junk.
Proof.
  intros (_ & P & _). rewrite under_snoc. split; [unfold delim; now rewrite rindex_app|].
  unfold block. rewrite under_snoc, <- app_assoc. cbn [app]. rewrite set_byte_app. cbn [map concat app]. now rewrite <- app_assoc.
Qed.
Lemma block_join cs c cuts junk : set_byte (lenN (under cs)) x2f (block cs (c :: cuts) junk) = block (cs ++ [c]) cuts junk.
Proof.
  unfold block. cbn [map concat app]. rewrite set_byte_app, under_snoc, <- !app_assoc. reflexivity.
Qed.

(** ** Any outcome: nothing outside the directory changes *)
Section Below.
Context (o1 : os) (t : path).
Hypothesis Da1 : dir_at o1 B t.
Hypothesis LB : lenN B < PATH_MAX.

Definition base (o : os) : Prop :=
  keeps (o_fs o1) (o_fs o) /\ o_cwd o = o_cwd o1 /\ o_umask o = o_umask o1 /\ o_priv o = o_priv o1 /\
  (forall q, strip t q = None -> o_fs o q = o_fs o1 q) /\ (forall r x, o_fs o (t ++ r) <> Some (ILink x)).

Lemma base_dir o : base o -> dir_at o B t.
Proof. intros (K & E1 & _ & E2 & _). eapply dir_at_keeps; eauto. Qed.

Lemma namei_below follow o cs : base o -> Forall plain cs -> cs <> [] ->
  match namei follow o (under cs) with
  | WErr _ => True
  | WDir _ => False
  | WAt d' c' _ => exists cs', cs = cs' ++ [c'] /\ d' = t ++ cs'
  end.
Proof.
  intros Hb Hp Ne. pose proof (base_dir o Hb) as [Bn L]. unfold namei.
  assert (E : nonempty (under cs) = true) by (now apply nonempty_app). rewrite E. cbn [negb].
  destruct (_ <=? _); [exact I|].
  assert (Ec : comps (under cs) = comps B ++ cs).
  { clear - Hp Nz. induction cs as [|c cs IH] using rev_ind; [now rewrite under_nil, app_nil_r|].
    apply Forall_app in Hp. destruct Hp as [H1 H2].
    rewrite under_snoc, comps_app, (IH H1), (comps_plain c) by (now inversion H2). now rewrite app_assoc. }
  rewrite Ec. replace (start (under cs) (o_cwd o)) with (start B (o_cwd o))
    by (unfold start, under; now rewrite absolute_app by exact Bn).
  destruct (walk_cat (o_fs o) (o_priv o) follow cs Ne _ _ _ _ L) as [l ->].
  apply (walk_below _ _ _ t); auto; [apply Hb|exists []; now rewrite app_nil_r].
Qed.

Lemma base_upd o p i : base o -> (exists r, p = t ++ r) -> (forall x, i <> ILink x) -> keeps (o_fs o) (upd (o_fs o) p i) ->
  forall o', o_fs o' = upd (o_fs o) p i -> o_cwd o' = o_cwd o -> o_umask o' = o_umask o -> o_priv o' = o_priv o -> base o'.
Proof.
  intros (K & E1 & E2 & E3 & Out & Nl) [r ->] Hi K' o' F F1 F2 F3. unfold base. rewrite F, F1, F2, F3.
  split; [eapply keeps_trans; eauto|]. split; [exact E1|]. split; [exact E2|]. split; [exact E3|]. split.
  - intros q Hq. rewrite upd_other; [auto|]. intros ->. now rewrite strip_app in Hq.
  - intros r' x. destruct (path_dec (t ++ r') (t ++ r)) as [->|Hn]; [rewrite upd_same; intro Q; injection Q; apply Hi|].
    rewrite upd_other by exact Hn. apply Nl.
Qed.

Lemma mkdir_below o cs mode : base o -> Forall plain cs -> cs <> [] ->
  base (snd (sys_mkdir (under cs) mode o)) /\ o_fds (snd (sys_mkdir (under cs) mode o)) = o_fds o /\ o_next (snd (sys_mkdir (under cs) mode o)) = o_next o.
Proof.
  intros Hb Hp Ne. pose proof (namei_below false o cs Hb Hp Ne) as H. unfold sys_mkdir.
  destruct (namei false o (under cs)) as [er|d|d c [i|]] eqn:E; try (split; [exact Hb|split; reflexivity]).
  destruct (can_w _ _); [|split; [exact Hb|split; reflexivity]]. split; [|split; reflexivity].
  destruct H as (cs' & -> & ->).
  eapply base_upd with (i := IDir _); [exact Hb| | |  |reflexivity|reflexivity|reflexivity|reflexivity].
  - exists (cs' ++ [c]). now rewrite app_assoc.
  - discriminate.
  - apply keeps_upd_new. symmetry. eapply namei_at; eauto.
Qed.
Lemma stat_same s o : snd (sys_stat_dir s o) = o.
Proof. unfold sys_stat_dir. destruct (namei true o s) as [er|d|d c [[]|]]; reflexivity. Qed.

Definition fine (r : Z) : Prop := r = 0%Z \/ r = 1%Z \/ r = 2%Z \/ r = (-1)%Z.
Lemma create_below o cs cuts junk mode : base o -> Forall plain cs ->
  exists r o', exec (os_create (block cs cuts junk) mode) o = Ok (r, o') /\ fine r /\ base o' /\ o_fds o' = o_fds o /\ o_next o' = o_next o /\
    (cs = [] -> r = 1%Z /\ o' = o).
Proof.
  intros Hb Hp. unfold os_create, with_cstr. rewrite block_cstr by exact Hp. rewrite exec_sys. cbn [sys].
  destruct cs as [|c cs].
  - rewrite under_nil. pose proof (base_dir o Hb) as [Bn L]. pose proof (leads_exists _ _ _ _ _ _ L) as X.
    assert (Ne : nonempty B = true) by (now apply nonempty_ne).
    assert (E : sys_mkdir B mode o = (RErr EEXIST, o)).
    { unfold sys_mkdir, namei. rewrite Ne. cbn [negb]. replace (PATH_MAX <=? lenN B) with false by (symmetry; apply N.leb_gt; exact LB).
      destruct (walk_path _ _ _ _ _ _) as [er|d|d c [i|]]; [contradiction|reflexivity|reflexivity|contradiction]. }
    rewrite E. cbn [fst snd]. rewrite exec_sys. cbn [sys].
    assert (E2 : sys_stat_dir B o = (ROk, o)).
    { unfold sys_stat_dir, namei. rewrite Ne. cbn [negb]. replace (PATH_MAX <=? lenN B) with false by (symmetry; apply N.leb_gt; exact LB).
      destruct L as [_ [->|(d & c & m & -> & _)]]; reflexivity. }
    rewrite E2. cbn [fst snd exec]. exists 1%Z, o. unfold fine. split; [reflexivity|]. auto 8.
  - destruct (mkdir_below o (c :: cs) mode Hb Hp ltac:(discriminate)) as (Hb' & F & Nx).
    destruct (sys_mkdir (under (c :: cs)) mode o) as [r o2]. cbn [fst snd] in *. unfold fine.
    destruct r as [er| | | |]; try (eexists _, _; cbn [exec]; split; [reflexivity|]; split; [auto|split; [exact Hb'|split; [exact F|split; [exact Nx|discriminate]]]]).
    destruct er; try (eexists _, _; cbn [exec]; split; [reflexivity|]; split; [auto|split; [exact Hb'|split; [exact F|split; [exact Nx|discriminate]]]]).
    rewrite exec_sys. cbn [sys exec]. rewrite stat_same.
    eexists _, _; split; [reflexivity|]. split; [destruct (fst (sys_stat_dir (under (c :: cs)) o2)); auto|]. split; [exact Hb'|split; [exact F|split; [exact Nx|discriminate]]].
Qed.

Lemma mk_down_below mode junk k : forall cs cuts o, base o -> Forall plain cs -> cs <> [] ->
  exists cs' cuts' o' en, exec (mk_down k (block cs cuts junk) (cuts_at cs cuts) mode) o = Ok ((block cs' cuts' junk, cuts_at cs' cuts', en), o') /\
    base o' /\ o_fds o' = o_fds o /\ o_next o' = o_next o /\ cs' ++ cuts' = cs ++ cuts.
Proof.
  induction k as [|k IH]; intros cs cuts o Hb Hp Ne.
  { cbn [mk_down exec]. exists cs, cuts, o, DownOut. auto. }
  destruct (exists_last Ne) as (cs1 & c & ->). apply Forall_app in Hp. destruct Hp as [H1 H2].
  assert (Pc : plain c) by (now inversion H2).
  assert (Hp : Forall plain (cs1 ++ [c])) by (apply Forall_app; auto).
  cbn [mk_down]. unfold with_cstr. rewrite block_cstr by exact Hp. destruct (block_cut cs1 c cuts junk Pc) as [-> ->].
  rewrite exec_bind. destruct (create_below o cs1 (c :: cuts) junk mode Hb H1) as (r & o2 & E & Fr & Hb2 & F2 & N2 & Z).
  rewrite E. cbn [obind]. change (lenN (under cs1) :: cuts_at (cs1 ++ [c]) cuts) with (cuts_at cs1 (c :: cuts)).
  destruct (Z.eqb_spec r (-1)).
  { cbn [exec]. exists cs1, (c :: cuts), o2, DownErr. rewrite <- app_assoc. auto. }
  destruct ((r =? 0)%Z || (r =? 1)%Z) eqn:Er.
  { cbn [exec]. exists cs1, (c :: cuts), o2, DownFound. rewrite <- app_assoc. auto. }
  destruct (IH cs1 (c :: cuts) o2 Hb2 H1) as (cs' & cuts' & o' & en & E' & Hb' & F' & N' & Q).
  { intros ->. destruct (Z eq_refl) as [-> _]. discriminate. }
  exists cs', cuts', o', en. split; [exact E'|]. split; [exact Hb'|]. split; [congruence|]. split; [congruence|]. rewrite Q, <- app_assoc. reflexivity.
Qed.

Lemma mk_up_below mode junk : forall cuts cs o, base o -> Forall plain (cs ++ cuts) ->
  exists r o', exec (mk_up (block cs cuts junk) (cuts_at cs cuts) mode) o = Ok (r, o') /\ base o' /\ o_fds o' = o_fds o /\ o_next o' = o_next o.
Proof.
  induction cuts as [|c cuts IH]; intros cs o Hb Hp; cbn [cuts_at mk_up].
  { cbn [exec]. exists 0%Z, o. auto. }
  rewrite block_join, exec_bind. change (c :: cuts) with ([c] ++ cuts) in Hp. rewrite app_assoc in Hp.
  destruct (create_below o (cs ++ [c]) cuts junk mode Hb) as (r & o2 & E & _ & Hb2 & F2 & N2 & _).
  { apply Forall_app in Hp. apply Hp. }
  rewrite E. cbn [obind]. destruct (r =? 0)%Z; [|cbn [exec]; exists (-1)%Z, o2; auto].
  destruct (IH (cs ++ [c]) o2 Hb2 Hp) as (r' & o' & E' & Hb' & F' & N').
  exists r', o'. split; [exact E'|]. split; [exact Hb'|]. split; congruence.
Qed.

Lemma mkdir_rec_below o cs mode : base o -> Forall plain cs -> cs <> [] ->
  exists r o', exec (mkdir_recurse true (under cs) mode) o = Ok (r, o') /\ base o' /\ o_fds o' = o_fds o /\ o_next o' = o_next o.
Proof.
  intros Hb Hp Ne. unfold mkdir_recurse, mkdir_raw. change (under cs ++ [x00]) with (block cs [] []).
  rewrite exec_bind. destruct (create_below o cs [] [] mode Hb Hp) as (r & o2 & E & _ & Hb2 & F2 & N2 & _).
  rewrite E. cbn [obind]. destruct (_ || _); [cbn [exec]; eauto 8|].
  rewrite exec_bind. destruct (mk_down_below mode [] 62 cs [] o2 Hb2 Hp Ne) as (cs' & cuts' & o' & en & E' & Hb' & F' & N' & Q).
  change (cuts_at cs []) with (@nil N) in E'. rewrite E'. cbn [obind]. rewrite app_nil_r in Q.
  destruct en; try (cbn [exec]; eexists _, _; split; [reflexivity|]; split; [exact Hb'|]; split; congruence).
  destruct (_ <? _); [|cbn [exec]; eexists _, _; split; [reflexivity|]; split; [exact Hb'|]; split; congruence].
  destruct (mk_up_below mode [] cuts' cs' o' Hb') as (r' & o'' & E'' & Hb'' & F'' & N''); [now rewrite Q|].
  exists r', o''. split; [exact E''|]. split; [exact Hb''|]. split; congruence.
Qed.
End Below.
End Block.
