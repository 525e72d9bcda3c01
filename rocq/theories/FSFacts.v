(** FSFacts.v: lemmas on the file system model. *)
From Verif Require Import Base FS.

Lemma path_eqb_spec a : forall b, path_eqb a b = true <-> a = b.
Proof.
  induction a as [|x a IH]; intros [|y b]; cbn; split; intro H; try discriminate; auto.
  - apply andb_true_iff in H. destruct H as [H1 H2]. apply bytes_eqb_spec in H1. apply IH in H2. congruence.
  - injection H as -> ->. apply andb_true_iff. split; [now apply bytes_eqb_spec|now apply IH].
Qed.
Lemma path_eqb_refl p : path_eqb p p = true. Proof. now apply path_eqb_spec. Qed.
Lemma path_eqb_neq a b : a <> b -> path_eqb a b = false.
Proof. intro H. destruct (path_eqb a b) eqn:E; [|reflexivity]. apply path_eqb_spec in E. contradiction. Qed.
Lemma upd_same fs p i : upd fs p i p = Some i.
Proof. unfold upd. now rewrite path_eqb_refl. Qed.
Lemma upd_other fs p i q : q <> p -> upd fs p i q = fs q.
Proof. intro H. unfold upd. now rewrite path_eqb_neq. Qed.
Lemma path_dec (a b : path) : {a = b} + {a <> b}.
Proof. destruct (path_eqb a b) eqn:E; [left; now apply path_eqb_spec|right; intros ->; now rewrite path_eqb_refl in E]. Qed.
Lemma bytes_dec (a b : bytes) : {a = b} + {a <> b}.
Proof. destruct (bytes_eqb a b) eqn:E; [left; now apply bytes_eqb_spec|right; intro H; apply bytes_eqb_spec in H; congruence]. Qed.
Lemma bytes_eqb_neq a b : a <> b -> bytes_eqb a b = false.
Proof. intro H. destruct (bytes_eqb a b) eqn:E; [|reflexivity]. apply bytes_eqb_spec in E. contradiction. Qed.

Lemma exec_bind {A B} (p : prog A) (f : A -> prog B) : forall o,
  exec (pbind p f) o = do (a, o1) <- exec p o; exec (f a) o1.
Proof.
  induction p as [a| | |c k IH]; intro o; cbn; try reflexivity.
  destruct (sys c o) as [r o1]. apply IH.
Qed.
Lemma exec_sys {B} c (f : resp -> prog B) o : exec (pbind (psys c) f) o = exec (f (fst (sys c o))) (snd (sys c o)).
Proof. cbn. destruct (sys c o) as [r o1]. reflexivity. Qed.

(** ** Names and paths *)

(** A name that can be an entry of a directory. *)
Definition plain (c : bytes) : Prop :=
  c <> [] /\ ~ In x2f c /\ ~ In x00 c /\ c <> [x2e] /\ c <> [x2e; x2e] /\ lenN c <= NAME_MAX.

Lemma split_on_noslash c : ~ In x2f c -> split_on c = [c].
Proof.
  induction c as [|b c IH]; intro H; [reflexivity|]. cbn [split_on].
  destruct (byte_eqb b x2f) eqn:E.
  { apply byte_eqb_spec in E. subst. destruct H. now left. }
  rewrite IH; [reflexivity|]. intro Q. apply H. now right.
Qed.
Lemma split_on_app s : forall c, split_on (s ++ x2f :: c) = split_on s ++ split_on c.
Proof.
  induction s as [|b s IH]; intro c; [reflexivity|]. cbn [app split_on].
  destruct (byte_eqb b x2f); [rewrite IH; reflexivity|]. rewrite IH.
  destruct (split_on s) as [|h t] eqn:E; [|reflexivity].
  destruct s; cbn in E; [discriminate|]. destruct (byte_eqb _ _); [discriminate|]. destruct (split_on s); discriminate.
Qed.
Lemma comps_app s c : comps (s ++ x2f :: c) = comps s ++ comps c.
Proof. unfold comps. now rewrite split_on_app, filter_app. Qed.
Lemma comps_plain c : plain c -> comps c = [c].
Proof. intros (H1 & H2 & _). unfold comps. rewrite split_on_noslash by exact H2. destruct c; [contradiction|reflexivity]. Qed.
Lemma absolute_app s c : s <> [] -> absolute (s ++ c) = absolute s.
Proof. destruct s; [contradiction|reflexivity]. Qed.

(** ** Resolution *)

(** The components [cs], from [d], lead to the directory [t] (links are followed). *)
Definition leads (fs : fstree) (priv : bool) (links : nat) (d : path) (cs : list bytes) (t : path) : Prop :=
  (exists m, fs t = Some (IDir m) /\ can_x priv m = true) /\
  (walk_path fs priv true links d cs = WDir t \/
   exists d' c' m, walk_path fs priv true links d cs = WAt d' c' (Some (IDir m)) /\ t = d' ++ [c']).

Lemma walk_eq fs priv follow links d cs : walk_path fs priv follow links d cs =
    match cs with
    | [] => WDir d
    | c :: r =>
      match fs d with
      | Some (IDir m) =>
        if negb (can_x priv m) then WErr EACCES
        else if bytes_eqb c [x2e] then walk_path fs priv follow links d r
        else if bytes_eqb c [x2e; x2e] then walk_path fs priv follow links (removelast d) r
        else if NAME_MAX <? lenN c then WErr ENAMETOOLONG
        else
          match fs (d ++ [c]) with
          | Some (IDir m') => match r with [] => WAt d c (Some (IDir m')) | _ => walk_path fs priv follow links (d ++ [c]) r end
          | Some (ILink t) =>
            match r, follow with
            | [], false => WAt d c (Some (ILink t))
            | _, _ =>
              match links with
              | O => WErr ELOOP
              | S l => if nonempty t then walk_path fs priv follow l (start t d) (comps t ++ r) else WErr ENOENT
              end
            end
          | Some (IFile m' x) => match r with [] => WAt d c (Some (IFile m' x)) | _ => WErr ENOTDIR end
          | None => match r with [] => WAt d c None | _ => WErr ENOENT end
          end
      | Some _ => WErr ENOTDIR
      | None => WErr ENOENT
      end
    end.
Proof. destruct links, cs; reflexivity. Qed.

(** One more component. *)
Lemma walk_snoc fs priv follow c : plain c -> forall links d cs t, leads fs priv links d cs t ->
  (forall x, fs (t ++ [c]) <> Some (ILink x)) ->
  walk_path fs priv follow links d (cs ++ [c]) = WAt t c (fs (t ++ [c])).
Proof.
  intros Pc. destruct Pc as (P1 & P2 & P3 & P4 & P5 & P6).
  assert (Last : forall links t, (exists m, fs t = Some (IDir m) /\ can_x priv m = true) -> (forall x, fs (t ++ [c]) <> Some (ILink x)) ->
    walk_path fs priv follow links t [c] = WAt t c (fs (t ++ [c]))).
  { intros links t (m & Em & Xm) Nl. rewrite walk_eq, Em, Xm. cbn [negb].
    rewrite (bytes_eqb_neq _ _ P4), (bytes_eqb_neq _ _ P5).
    replace (NAME_MAX <? lenN c) with false by (symmetry; apply N.ltb_ge; exact P6).
    destruct (fs (t ++ [c])) as [[m'|m' x|x]|]; try reflexivity. destruct (Nl x eq_refl). }
  induction links as [links IHl] using (well_founded_induction lt_wf).
  intros d cs. revert d. induction cs as [|c1 r IH]; intros d t (Ht & Hw) Nl.
  - destruct Hw as [Hw|(d' & c' & m & Hw & _)]; rewrite walk_eq in Hw; [|discriminate]. injection Hw as <-. now apply Last.
  - cbn [app]. rewrite walk_eq. rewrite walk_eq in Hw.
    destruct (fs d) as [[m|m x|x]|]; try (destruct Hw as [Hw|(d' & c' & m' & Hw & _)]; discriminate).
    destruct (negb (can_x priv m)); [destruct Hw as [Hw|(d' & c' & m' & Hw & _)]; discriminate|].
    destruct (bytes_eqb c1 [x2e]); [apply IH; [split; assumption|exact Nl]|].
    destruct (bytes_eqb c1 [x2e; x2e]); [apply IH; [split; assumption|exact Nl]|].
    destruct (NAME_MAX <? lenN c1); [destruct Hw as [Hw|(d' & c' & m' & Hw & _)]; discriminate|].
    destruct (fs (d ++ [c1])) as [[m1|m1 x1|x1]|].
    + destruct r as [|c2 r].
      * destruct Hw as [Hw|(d' & c' & m' & Hw & ->)]; [discriminate|]. injection Hw as <- <- <-. cbn [app]. apply Last; assumption.
      * cbn [app]. apply IH; [split; assumption|exact Nl].
    + destruct r; destruct Hw as [Hw|(d' & c' & m' & Hw & _)]; discriminate.
    + assert (E : match r ++ [c], follow with [], false => WAt d c1 (Some (ILink x1)) | _, _ =>
        match links with O => WErr ELOOP | S l => if nonempty x1 then walk_path fs priv follow l (start x1 d) (comps x1 ++ r ++ [c]) else WErr ENOENT end end =
        match links with O => WErr ELOOP | S l => if nonempty x1 then walk_path fs priv follow l (start x1 d) (comps x1 ++ r ++ [c]) else WErr ENOENT end)
        by (destruct r; reflexivity).
      rewrite E. clear E.
      assert (Hw' : match links with O => WErr ELOOP | S l => if nonempty x1 then walk_path fs priv true l (start x1 d) (comps x1 ++ r) else WErr ENOENT end = WDir t \/
        exists d' c' m', match links with O => WErr ELOOP | S l => if nonempty x1 then walk_path fs priv true l (start x1 d) (comps x1 ++ r) else WErr ENOENT end = WAt d' c' (Some (IDir m')) /\ t = d' ++ [c'])
        by (destruct r; exact Hw). clear Hw.
      destruct links as [|l]; [destruct Hw' as [Hw|(d' & c' & m' & Hw & _)]; discriminate|].
      destruct (nonempty x1); [|destruct Hw' as [Hw|(d' & c' & m' & Hw & _)]; discriminate].
      rewrite app_assoc. apply IHl; [lia| |exact Nl]. split; assumption.
    + destruct r; destruct Hw as [Hw|(d' & c' & m' & Hw & _)]; discriminate.
Qed.

(** Resolution to a directory only looks at existing directories and links. *)
Definition keeps (fs fs' : fstree) : Prop :=
  forall p, match fs p with
            | Some (IDir m) => fs' p = Some (IDir m)
            | Some (ILink x) => fs' p = Some (ILink x)
            | Some (IFile m x) => exists m' x', fs' p = Some (IFile m' x')
            | None => True
            end.

Lemma keeps_refl fs : keeps fs fs.
Proof. intro p. destruct (fs p) as [[]|]; eauto. Qed.
Lemma keeps_trans a b c : keeps a b -> keeps b c -> keeps a c.
Proof.
  intros H1 H2 p. specialize (H1 p). specialize (H2 p). destruct (a p) as [[m|m x|x]|]; auto.
  - now rewrite H1 in H2. - destruct H1 as (m' & x' & E). now rewrite E in H2. - now rewrite H1 in H2.
Qed.
Lemma keeps_upd_new fs p i : fs p = None -> keeps fs (upd fs p i).
Proof.
  intros H q. destruct (fs q) as [j|] eqn:E; [|exact I].
  assert (q <> p) by congruence. rewrite upd_other by assumption. destruct j; eauto.
Qed.
Lemma keeps_upd_file fs p m x m' x' : fs p = Some (IFile m x) -> keeps fs (upd fs p (IFile m' x')).
Proof.
  intros H q. destruct (path_dec q p) as [->|Hn].
  - rewrite H, upd_same. eauto.
  - rewrite upd_other by assumption. destruct (fs q) as [[]|]; eauto.
Qed.

Lemma leads_keeps fs fs' priv : keeps fs fs' -> forall links d cs t, leads fs priv links d cs t -> leads fs' priv links d cs t.
Proof.
  intros K links d cs t ((m & Em & Xm) & Hw). split.
  { exists m. split; [|exact Xm]. specialize (K t). now rewrite Em in K. }
  revert links d cs Hw. induction links as [links IHl] using (well_founded_induction lt_wf).
  intros d cs. revert d. induction cs as [|c1 r IH]; intros d Hw.
  - destruct Hw as [Hw|(d' & c' & m' & Hw & _)]; rewrite walk_eq in Hw; [|discriminate]. left. rewrite walk_eq. exact Hw.
  - rewrite walk_eq. rewrite walk_eq in Hw. pose proof (K d) as Kd.
    destruct (fs d) as [[m1|m1 x|x]|]; try (destruct Hw as [Hw|(d' & c' & m' & Hw & _)]; discriminate).
    rewrite Kd.
    destruct (negb (can_x priv m1)); [destruct Hw as [Hw|(d' & c' & m' & Hw & _)]; discriminate|].
    destruct (bytes_eqb c1 [x2e]); [now apply IH|]. destruct (bytes_eqb c1 [x2e; x2e]); [now apply IH|].
    destruct (NAME_MAX <? lenN c1); [destruct Hw as [Hw|(d' & c' & m' & Hw & _)]; discriminate|].
    pose proof (K (d ++ [c1])) as Kc.
    destruct (fs (d ++ [c1])) as [[m2|m2 x1|x1]|].
    + rewrite Kc. destruct r; [exact Hw|now apply IH].
    + destruct r; destruct Hw as [Hw|(d' & c' & m' & Hw & _)]; discriminate.
    + rewrite Kc. destruct links as [|l]; [destruct r; exact Hw|].
      assert (Q : forall (X : Type) (y1 y2 : X), match r, true with [], false => y1 | _, _ => y2 end = y2) by (intros; destruct r; reflexivity).
      destruct (nonempty x1).
      * assert (Hw' : walk_path fs priv true l (start x1 d) (comps x1 ++ r) = WDir t \/ exists d' c' m', walk_path fs priv true l (start x1 d) (comps x1 ++ r) = WAt d' c' (Some (IDir m')) /\ t = d' ++ [c'])
          by (destruct r; exact Hw).
        destruct (IHl l ltac:(lia) _ _ Hw') as [E|(d' & c' & m' & E & Et)]; [left|right; exists d', c', m'; split; [|exact Et]]; destruct r; exact E.
      * destruct r; destruct Hw as [Hw|(d' & c' & m' & Hw & _)]; discriminate.
    + destruct r; destruct Hw as [Hw|(d' & c' & m' & Hw & _)]; discriminate.
Qed.

(** ** The path string [s] leads to the directory [t] *)
Definition dir_at (o : os) (s : bytes) (t : path) : Prop :=
  s <> [] /\ leads (o_fs o) (o_priv o) MAX_LINKS (start s (o_cwd o)) (comps s) t.

Lemma dir_at_keeps o o' s t : keeps (o_fs o) (o_fs o') -> o_cwd o' = o_cwd o -> o_priv o' = o_priv o ->
  dir_at o s t -> dir_at o' s t.
Proof. intros K E1 E2 [H1 H2]. split; [exact H1|]. rewrite E1, E2. eapply leads_keeps; eauto. Qed.

Lemma namei_entry follow o s t c : dir_at o s t -> plain c -> lenN s + 1 + lenN c < PATH_MAX ->
  (forall x, o_fs o (t ++ [c]) <> Some (ILink x)) ->
  namei follow o (s ++ x2f :: c) = WAt t c (o_fs o (t ++ [c])).
Proof.
  intros [H1 H2] Pc L Nl. unfold namei.
  assert (Ne : nonempty (s ++ x2f :: c) = true) by (destruct s; [contradiction|reflexivity]).
  rewrite Ne. cbn [negb]. replace (PATH_MAX <=? lenN (s ++ x2f :: c)) with false
    by (symmetry; apply N.leb_gt; rewrite lenN_app, lenN_cons; lia).
  rewrite comps_app, (comps_plain c Pc). unfold start. rewrite absolute_app by exact H1.
  apply walk_snoc; [exact Pc|exact H2|exact Nl].
Qed.

Lemma slash_end_entry s c : plain c -> slash_end (s ++ x2f :: c) = false.
Proof.
  intros (H1 & H2 & _). unfold slash_end. destruct (byte_eqb (last (s ++ x2f :: c) x00) x2f) eqn:E; [|reflexivity].
  exfalso. apply byte_eqb_spec in E. apply H2.
  assert (Q : last (s ++ x2f :: c) x00 = last c x00).
  { clear - H1. induction s as [|b s IH]; cbn [app].
    - destruct c; [contradiction|]. reflexivity.
    - destruct (s ++ x2f :: c) eqn:Es; [destruct s; discriminate|]. exact IH. }
  rewrite Q in E. rewrite <- E. clear - H1. destruct c as [|b c]; [contradiction|]. clear H1. revert b.
  induction c as [|b' c IH]; intro b; [now left|]. right. apply (IH b').
Qed.

(** Result of the calls on entries. *)
Lemma dir_mode_at o s t : dir_at o s t -> exists m, o_fs o t = Some (IDir m) /\ dir_mode (o_fs o) t = m /\ can_x (o_priv o) m = true.
Proof. intros [_ [(m & E & X) _]]. exists m. unfold dir_mode. rewrite E. auto. Qed.

Lemma mkdir_entry o s t c mode : dir_at o s t -> plain c -> lenN s + 1 + lenN c < PATH_MAX ->
  o_fs o (t ++ [c]) = None -> can_w (o_priv o) (dir_mode (o_fs o) t) = true ->
  sys_mkdir (s ++ x2f :: c) mode o = (ROk, with_fs (upd (o_fs o) (t ++ [c]) (IDir (new_dir_mode o mode))) o).
Proof.
  intros H Pc L N W. unfold sys_mkdir. rewrite (namei_entry false o s t c H Pc L) by congruence. now rewrite N, W.
Qed.

Lemma open_entry o s t c mode tr : dir_at o s t -> plain c -> lenN s + 1 + lenN c < PATH_MAX ->
  o_fs o (t ++ [c]) = None -> can_w (o_priv o) (dir_mode (o_fs o) t) = true ->
  sys_open tr (s ++ x2f :: c) mode o =
    open_at (t ++ [c]) (with_fs (upd (o_fs o) (t ++ [c]) (IFile (new_file_mode o mode) [])) o).
Proof.
  intros H Pc L N W. unfold sys_open. rewrite (namei_entry true o s t c H Pc L) by congruence.
  now rewrite N, (slash_end_entry s c Pc), W.
Qed.

(** The new directory can be used. *)
Lemma leads_entry fs priv links d cs t c m : plain c -> leads fs priv links d cs t ->
  fs (t ++ [c]) = Some (IDir m) -> can_x priv m = true -> leads fs priv links d (cs ++ [c]) (t ++ [c]).
Proof.
  intros Pc H E X. split; [eauto|]. right. exists t, c, m. split; [|reflexivity].
  rewrite <- E. apply walk_snoc; [exact Pc|exact H|congruence].
Qed.
Lemma dir_at_entry o s t c m : plain c -> dir_at o s t -> o_fs o (t ++ [c]) = Some (IDir m) -> can_x (o_priv o) m = true ->
  dir_at o (s ++ x2f :: c) (t ++ [c]).
Proof.
  intros Pc [H1 H2] E X. split; [destruct s; discriminate|].
  rewrite comps_app, (comps_plain c Pc). unfold start. rewrite absolute_app by exact H1.
  eapply leads_entry; eauto.
Qed.

(** ** Descriptors *)
Definition fresh_fd (o : os) : Prop := forall n x, In (n, x) (o_fds o) -> n < o_next o.

Lemma write_new o n p off m x d fds : o_fds o = (n, (p, off)) :: fds -> o_fs o p = Some (IFile m x) -> off = lenN x ->
  lenN d <= o_free o ->
  sys_write (Some n) d o = (RLen (lenN d), OS (upd (o_fs o) p (IFile m (x ++ d))) (o_free o - lenN d) (o_cwd o) (o_umask o) (o_priv o)
                           ((n, (p, off + lenN d)) :: fds) (o_next o)).
Proof.
  intros E F Eo L. unfold sys_write. rewrite E. cbn [find_fd]. rewrite N.eqb_refl, F.
  replace (N.min (lenN d) (lenN x - off + o_free o)) with (lenN d) by lia.
  replace ((lenN d =? 0) && negb (lenN d =? 0)) with false by (destruct (lenN d =? 0); reflexivity).
  rewrite takeN_all by lia. unfold overwrite. subst off. rewrite takeN_all, dropN_all, app_nil_r by lia.
  cbn [set_fd]. rewrite N.eqb_refl. rewrite lenN_app. repeat f_equal. lia.
Qed.
Lemma close_head o n x fds : o_fds o = (n, x) :: fds ->
  sys_close (Some n) o = (ROk, OS (o_fs o) (o_free o) (o_cwd o) (o_umask o) (o_priv o) fds (o_next o)).
Proof. intro E. unfold sys_close. rewrite E. cbn [find_fd del_fd]. now rewrite N.eqb_refl. Qed.
