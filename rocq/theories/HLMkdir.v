(** HLMkdir.v: recursive creation of directories succeeds. *)
From Coq Require Import Lia.
From Verif Require Import Base Format Zlib Parser Decompress FS FSFacts HL HLSpec HLFacts HLDrive HLProps HLSafe MkdirFacts.

(** ** Specification *)

(** Creating the directories named [ps] one by one. *)
Fixpoint mkdir_all (ps : list bytes) (mode : N) (o : os) : option os :=
  match ps with
  | [] => Some o
  | s :: r => match sys_mkdir s mode o with (ROk, o1) => mkdir_all r mode o1 | _ => None end
  end.

(** [B], [B]/c1, [B]/c1/c2, … *)
Fixpoint stairs (B : bytes) (cs : list bytes) : list bytes :=
  B :: match cs with [] => [] | c :: r => stairs (B ++ x2f :: c) r end.
(** The path [B]/c1/c2/… *)
Definition joined (B : bytes) (cs : list bytes) : bytes := B ++ concat (map (fun c => x2f :: c) cs).

(** ** Proofs *)

Lemma walk_missing fs priv follow cs2 d' c' : cs2 <> [] -> forall links d cs, walk_path fs priv false links d cs = WAt d' c' None ->
  walk_path fs priv follow links d (cs ++ cs2) = WErr ENOENT.
Proof.
  intro Ne. induction links as [links IHl] using (well_founded_induction lt_wf).
  intros d cs. revert d. induction cs as [|c1 r IH]; intros d Hw.
  - rewrite walk_eq in Hw. discriminate.
  - cbn [app]. rewrite walk_eq. rewrite walk_eq in Hw. destruct (fs d) as [[m|m x|x]|]; try discriminate.
    destruct (negb (can_x priv m)); [discriminate|].
    destruct (bytes_eqb c1 [x2e]); [auto|]. destruct (bytes_eqb c1 [x2e; x2e]); [auto|].
    destruct (NAME_MAX <? lenN c1); [discriminate|].
    destruct (fs (d ++ [c1])) as [[m1|m1 x1|x1]|] eqn:Ec.
    + destruct r as [|c2 r]; [discriminate|]. cbn [app]. apply (IH (d ++ [c1])). exact Hw.
    + destruct r; discriminate.
    + destruct r as [|c2 r]; [discriminate|]. cbn [app]. destruct links as [|l]; [discriminate|].
      destruct (nonempty x1); [|discriminate]. specialize (IHl l ltac:(lia) (start x1 d) (comps x1 ++ c2 :: r) Hw).
      rewrite <- app_assoc in IHl. exact IHl.
    + destruct r as [|c2 r]; [|discriminate]. cbn [app]. destruct cs2; [contradiction|reflexivity].
Qed.

Lemma comps_under B cs : Forall plain cs -> comps (under B cs) = comps B ++ cs.
Proof.
  intro Hp. induction cs as [|c cs IH] using rev_ind; [now rewrite under_nil, app_nil_r|].
  apply Forall_app in Hp. destruct Hp as [H1 H2].
  rewrite under_snoc, comps_app, (IH H1), (comps_plain c) by (now inversion H2). now rewrite app_assoc.
Qed.

Lemma stairs_under B cs : stairs B cs = map (under B) (map (fun n => firstn n cs) (seq 0 (S (length cs)))).
Proof.
  revert B. induction cs as [|c cs IH]; intro B.
  - cbn. now rewrite under_nil.
  - cbn [stairs length]. rewrite IH. change (seq 0 (S (S (length cs)))) with (O :: seq 1 (S (length cs))).
    rewrite <- (seq_shift _ 0), !map_cons, !map_map. cbn [firstn]. rewrite under_nil. f_equal.
    apply map_ext. intro n. cbn [firstn]. unfold under, slashes. cbn [map concat]. now rewrite <- app_assoc.
Qed.

Section Create.
Context (B : bytes).
Hypothesis Nz : ~ In x00 B.

Lemma mkdir_missing o cs mode d c : namei false o B = WAt d c None -> Forall plain cs -> cs <> [] ->
  exists er, sys_mkdir (under B cs) mode o = (RErr er, o) /\ er <> EEXIST.
Proof.
  intros Hn Hp Ne. unfold sys_mkdir. unfold namei in *. destruct (nonempty B) eqn:Eb; [|discriminate].
  assert (Bn : B <> []) by (intros ->; discriminate). cbn [negb] in Hn.
  destruct (PATH_MAX <=? lenN B); [discriminate|]. unfold under at 1. rewrite nonempty_app by exact Bn. cbn [negb].
  destruct (PATH_MAX <=? lenN (under B cs)); [exists ENAMETOOLONG; split; [reflexivity|discriminate]|].
  rewrite (comps_under B cs Hp). unfold under. replace (start (B ++ slashes cs) (o_cwd o)) with (start B (o_cwd o)) by (unfold start; now rewrite absolute_app).
  rewrite (walk_missing _ _ _ _ _ _ Ne _ _ _ Hn). exists ENOENT. split; [reflexivity|discriminate].
Qed.

Lemma create_missing o cs cuts junk mode d c : namei false o B = WAt d c None -> Forall plain cs -> cs <> [] ->
  exec (os_create (block B cs cuts junk) mode) o = Ok (2%Z, o).
Proof.
  intros Hn Hp Ne. unfold os_create, with_cstr. rewrite (block_cstr B Nz) by exact Hp. rewrite exec_sys. cbn [sys].
  destruct (mkdir_missing o cs mode d c Hn Hp Ne) as (er & -> & X). cbn [fst snd]. destruct er; [contradiction|reflexivity..].
Qed.
Lemma create_made o o1 cs cuts junk mode : sys_mkdir (under B cs) mode o = (ROk, o1) -> Forall plain cs ->
  exec (os_create (block B cs cuts junk) mode) o = Ok (0%Z, o1).
Proof.
  intros H Hp. unfold os_create, with_cstr. rewrite (block_cstr B Nz) by exact Hp. rewrite exec_sys. cbn [sys]. rewrite H. reflexivity.
Qed.

Lemma down_to_base mode junk o o1 d c : namei false o B = WAt d c None -> sys_mkdir B mode o = (ROk, o1) ->
  forall k cs cuts, Forall plain cs -> cs <> [] -> (length cs <= k)%nat ->
  exec (mk_down k (block B cs cuts junk) (cuts_at B cs cuts) mode) o = Ok ((block B [] (cs ++ cuts) junk, cuts_at B [] (cs ++ cuts), DownFound), o1).
Proof.
  intros Hn Hm. induction k as [|k IH]; intros cs cuts Hp Ne Hk. { destruct cs; [contradiction|cbn in Hk; lia]. }
  destruct (exists_last Ne) as (cs1 & x & ->). apply Forall_app in Hp. destruct Hp as [H1 H2].
  assert (Px : plain x) by (now inversion H2).
  cbn [mk_down]. unfold with_cstr. rewrite (block_cstr B Nz) by (apply Forall_app; auto). destruct (block_cut B cs1 x cuts junk Px) as [-> ->].
  rewrite exec_bind. change (lenN (under B cs1) :: cuts_at B (cs1 ++ [x]) cuts) with (cuts_at B cs1 (x :: cuts)).
  rewrite <- app_assoc. cbn [app]. destruct cs1 as [|c1 cs1].
  - rewrite (create_made o o1) by (rewrite ?under_nil; auto). reflexivity.
  - rewrite (create_missing o (c1 :: cs1) (x :: cuts) junk mode d c Hn H1) by discriminate. cbn [obind Z.eqb orb].
    apply IH; [exact H1|discriminate|]. rewrite app_length in Hk. cbn in *. lia.
Qed.

Lemma up_all mode junk : forall cuts cs o o', Forall plain (cs ++ cuts) ->
  mkdir_all (map (fun n => under B (cs ++ firstn n cuts)) (seq 1 (length cuts))) mode o = Some o' ->
  exec (mk_up (block B cs cuts junk) (cuts_at B cs cuts) mode) o = Ok (0%Z, o').
Proof.
  induction cuts as [|x cuts IH]; intros cs o o' Hp H; cbn [cuts_at mk_up].
  { cbn in H. injection H as <-. reflexivity. }
  rewrite block_join, exec_bind. cbn [length seq map mkdir_all firstn] in H.
  change (x :: cuts) with ([x] ++ cuts) in Hp. rewrite app_assoc in Hp.
  destruct (sys_mkdir (under B (cs ++ [x])) mode o) as [r o1] eqn:E. destruct r; try discriminate H.
  rewrite (create_made o o1) by (auto; apply Forall_app in Hp; apply Hp). cbn [obind Z.eqb]. apply IH; [exact Hp|].
  rewrite <- H. f_equal. rewrite <- (seq_shift _ 1), map_map. apply map_ext. intro n. cbn [firstn]. now rewrite <- app_assoc.
Qed.

(** Whatever can be created one by one is created. *)
Lemma mkdir_one_by_one o o' cs mode : Forall plain cs -> (length cs <= 61)%nat -> mkdir_all (stairs B cs) mode o = Some o' ->
  exec (mkdir_recurse true (joined B cs) mode) o = Ok (0%Z, o').
Proof.
  intros Hp Hk H. rewrite stairs_under in H. cbn [seq map mkdir_all firstn] in H. rewrite under_nil in H.
  destruct (sys_mkdir B mode o) as [r o1] eqn:E. destruct r; try discriminate H.
  assert (Hn : exists d c, namei false o B = WAt d c None).
  { unfold sys_mkdir in E. destruct (namei false o B) as [|?|d c [|]]; try discriminate E. eauto. }
  destruct Hn as (d & c & Hn). unfold mkdir_recurse, mkdir_raw. change (joined B cs ++ [x00]) with (block B cs [] []). rewrite exec_bind.
  destruct cs as [|x cs].
  - rewrite (create_made o o1) by (rewrite ?under_nil; auto). cbn in H |- *. congruence.
  - rewrite (create_missing o _ _ _ _ d c Hn Hp) by discriminate. cbn [obind Z.eqb Pos.eqb orb]. rewrite exec_bind.
    pose proof (down_to_base mode [] o o1 d c Hn E 62 (x :: cs) [] Hp ltac:(discriminate) ltac:(lia)) as Dn.
    change (cuts_at B (x :: cs) []) with (@nil N) in Dn. rewrite app_nil_r in Dn. rewrite Dn. cbn [obind].
    assert (L : lenN (cuts_at B [] (x :: cs)) = lenN (x :: cs)).
    { clear. generalize (x :: cs). intro l. generalize (@nil bytes). induction l as [|y l IH]; intro q; [reflexivity|].
      cbn [cuts_at]. rewrite !lenN_cons, IH. reflexivity. }
    rewrite L. replace (lenN (x :: cs) <? 62) with true by (symmetry; apply N.ltb_lt; unfold lenN; lia).
    apply up_all; [exact Hp|]. rewrite map_map in H. exact H.
Qed.

(** The missing directories are created and nothing else. *)
Lemma mkdir_all_free mode cs : forall B' o b, ~ In x00 B' -> Forall plain cs -> lenN (joined B' cs) < PATH_MAX -> dir_at o B' b ->
  can_w (o_priv o) (dir_mode (o_fs o) b) = true -> usable_dir (o_priv o) (o_umask o) mode ->
  (forall r, r <> [] -> o_fs o (b ++ r) = None) ->
  exists o', mkdir_all (match cs with [] => [] | c :: r => stairs (B' ++ x2f :: c) r end) mode o = Some o' /\
    same_env o o' /\ (forall r, r <> [] -> prefix r cs -> o_fs o' (b ++ r) = Some (IDir (dir_perm (o_umask o) mode))) /\
    (forall q, (forall r, r <> [] -> prefix r cs -> q <> b ++ r) -> o_fs o' q = o_fs o q).
Proof.
  induction cs as [|c cs IH]; intros B' o b Nz' Hp Ln Da W U Fr.
  - exists o. split; [reflexivity|]. split; [repeat split|]. split; [|auto].
    intros r Hr [x Q]. destruct r; [contradiction|discriminate].
  - inversion Hp as [|? ? Pc Hp']; subst. unfold joined in Ln. cbn [map concat] in Ln. rewrite lenN_app in Ln. cbn [app] in Ln. rewrite lenN_cons, lenN_app in Ln.
    assert (Ab : o_fs o (b ++ [c]) = None) by (apply Fr; discriminate).
    pose proof (mkdir_entry o B' b c mode Da Pc ltac:(lia) Ab W) as E.
    match type of E with _ = (_, ?oo) => set (o1 := oo) in * end.
    assert (E1 : o_fs o1 = upd (o_fs o) (b ++ [c]) (IDir (dir_perm (o_umask o) mode))) by reflexivity.
    assert (Hnew : o_fs o1 (b ++ [c]) = Some (IDir (dir_perm (o_umask o) mode))) by (rewrite E1; apply upd_same).
    assert (Da1 : dir_at o1 (B' ++ x2f :: c) (b ++ [c])).
    { eapply dir_at_entry; [exact Pc| |exact Hnew|apply U]. apply (dir_at_keeps o o1); [|reflexivity|reflexivity|exact Da]. rewrite E1. now apply keeps_upd_new. }
    destruct (IH (B' ++ x2f :: c) o1 (b ++ [c])) as (o' & H & Env & Mk & Ot).
    + now apply no_nul.
    + exact Hp'.
    + unfold joined. rewrite lenN_app, lenN_app, lenN_cons. lia.
    + exact Da1.
    + unfold dir_mode. rewrite Hnew. apply U.
    + exact U.
    + intros r Hr. rewrite E1, <- app_assoc. cbn [app]. rewrite upd_other; [apply Fr; discriminate|].
      intro Q. apply app_inv_head in Q. injection Q as Q. contradiction.
    + exists o'. split; [|split; [|split]].
      * destruct cs; cbn [stairs mkdir_all] in *; rewrite E; exact H.
      * exact Env.
      * intros [|c' r] Hr [x Q]; [contradiction|]. cbn in Q. injection Q as <- Q. destruct r as [|c2 r].
        -- rewrite Ot; [exact Hnew|]. intros r Hr' _ Q'. rewrite <- app_assoc in Q'. apply app_inv_head in Q'. injection Q' as Q'. now destruct r.
        -- change (c :: c2 :: r) with ([c] ++ (c2 :: r)). rewrite app_assoc. apply Mk; [discriminate|]. exists x. exact Q.
      * intros q Hq. rewrite Ot.
        -- rewrite E1, upd_other; [reflexivity|]. apply Hq; [discriminate|]. exists cs. reflexivity.
        -- intros r Hr [x Q]. rewrite <- app_assoc. apply Hq; [discriminate|]. exists x. cbn. now rewrite Q.
Qed.

Lemma mkdir_creates o b cs mode : free_spot o B b -> (forall r, o_fs o (b ++ r) = None) -> usable_dir (o_priv o) (o_umask o) mode ->
  Forall plain cs -> (length cs <= 61)%nat -> lenN (joined B cs) < PATH_MAX ->
  exists o', exec (mkdir_recurse true (joined B cs) mode) o = Ok (0%Z, o') /\ same_env o o' /\
    (forall r, prefix r cs -> o_fs o' (b ++ r) = Some (IDir (dir_perm (o_umask o) mode))) /\
    (forall q, (forall r, prefix r cs -> q <> b ++ r) -> o_fs o' q = o_fs o q).
Proof.
  intros Fs Fr U Hp Hk Ln. destruct (free_mkdir o B b mode Fs U) as (X & Da & _). destruct Fs as (_ & d & c & -> & Hn & W).
  set (b := d ++ [c]) in *. set (o1 := with_fs (upd (o_fs o) b (IDir (dir_perm (o_umask o) mode))) o) in *.
  assert (E : sys_mkdir B mode o = (ROk, o1)) by (unfold sys_mkdir; rewrite Hn, W; reflexivity).
  assert (Hnew : o_fs o1 b = Some (IDir (dir_perm (o_umask o) mode))) by apply upd_same.
  destruct (mkdir_all_free mode cs B o1 b Nz Hp Ln Da) as (o' & H & Env & Mk & Ot).
  - unfold dir_mode. rewrite Hnew. apply U.
  - exact U.
  - intros r Hr. unfold o1. cbn [o_fs with_fs]. rewrite upd_other; [apply Fr|]. intro Q. apply Hr.
    apply (f_equal (@length bytes)) in Q. rewrite app_length in Q. destruct r; [reflexivity|cbn in Q; lia].
  - exists o'. split; [|split; [exact Env|split]].
    + apply mkdir_one_by_one; auto. destruct cs; cbn [stairs mkdir_all] in *; rewrite E; exact H.
    + intros [|c1 r] P; [|apply Mk; [discriminate|exact P]]. rewrite app_nil_r, Ot; [exact Hnew|].
      intros r Hr _ Q. apply Hr. apply (f_equal (@length bytes)) in Q. rewrite app_length in Q. destruct r; [reflexivity|cbn in Q; lia].
    + intros q Hq. rewrite Ot; [|auto]. unfold o1. cbn [o_fs with_fs]. apply upd_other. rewrite <- (app_nil_r b). apply Hq. eexists. reflexivity.
Qed.

(** The path exists. *)
Lemma namei_follow o s d c i : namei false o s = WAt d c (Some i) -> (forall x, i <> ILink x) -> namei true o s = WAt d c (Some i).
Proof.
  unfold namei. destruct (negb _); [discriminate|]. destruct (_ <=? _); [discriminate|].
  generalize (comps s) as cs. generalize (start s (o_cwd o)) as p. generalize MAX_LINKS as links. intros links p cs Hw Hi. revert p cs Hw.
  induction links as [links IHl] using (well_founded_induction lt_wf).
  intros p cs. revert p. induction cs as [|c1 r IH]; intros p Hw; rewrite walk_eq in Hw; [discriminate|]. rewrite walk_eq.
  destruct (o_fs o p) as [[m1|m1 x|x]|]; try discriminate. destruct (negb _); [discriminate|].
  destruct (bytes_eqb c1 _); [auto|]. destruct (bytes_eqb c1 _); [auto|]. destruct (_ <? _); [discriminate|].
  destruct (o_fs o (p ++ [c1])) as [[m2|m2 x|x]|].
  - destruct r; [exact Hw|]. auto.
  - destruct r; [exact Hw|discriminate].
  - destruct r as [|c2 r]; [injection Hw as <- <- <-; destruct (Hi x eq_refl)|].
    destruct links as [|l]; [discriminate|]. destruct (nonempty x); [|discriminate]. apply IHl; [lia|exact Hw].
  - destruct r; discriminate.
Qed.

Lemma mkdir_exists o mode r : sys_mkdir B mode o = (RErr EEXIST, o) -> sys_stat_dir B o = (r, o) ->
  exec (mkdir_recurse true B mode) o = Ok ((match r with ROk => 1 | _ => -1 end)%Z, o).
Proof.
  intros H S. unfold mkdir_recurse, mkdir_raw. rewrite exec_bind. unfold os_create, with_cstr. change (B ++ [x00]) with (B ++ x00 :: []).
  rewrite cstr_app by exact Nz. rewrite exec_sys. cbn [sys]. rewrite H. cbn [fst snd]. rewrite exec_sys. cbn [sys]. rewrite S. cbn [fst snd exec obind].
  destruct r; reflexivity.
Qed.
Lemma mkdir_on_dir o t mode : dir_at o B t -> lenN B < PATH_MAX -> exec (mkdir_recurse true B mode) o = Ok (1%Z, o).
Proof.
  intros [Bn L] LB. pose proof (leads_exists _ _ _ _ _ _ L) as X. apply nonempty_ne in Bn.
  apply (mkdir_exists o mode ROk).
  - unfold sys_mkdir, namei. rewrite Bn. cbn [negb]. replace (PATH_MAX <=? lenN B) with false by (symmetry; apply N.leb_gt; exact LB).
    destruct (walk_path _ _ _ _ _ _) as [er|d|d c [i|]]; [contradiction|reflexivity|reflexivity|contradiction].
  - unfold sys_stat_dir, namei. rewrite Bn. cbn [negb]. replace (PATH_MAX <=? lenN B) with false by (symmetry; apply N.leb_gt; exact LB).
    destruct L as [_ [->|(d & c & m & -> & _)]]; reflexivity.
Qed.
Lemma mkdir_on_file o d c m x mode : namei false o B = WAt d c (Some (IFile m x)) -> exec (mkdir_recurse true B mode) o = Ok ((-1)%Z, o).
Proof.
  intros H. apply (mkdir_exists o mode (RErr ENOTDIR)).
  - unfold sys_mkdir. now rewrite H.
  - unfold sys_stat_dir. rewrite (namei_follow _ _ _ _ _ H); [reflexivity|discriminate].
Qed.
End Create.
