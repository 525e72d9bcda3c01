(** Keep.v: what extraction never does, whatever the archive is: remove entries, change files that are write-protected, add to directories that are. *)
From Coq Require Import Lia Wf_nat.
From Verif Require Import Base Format Zlib Parser Decompress FS FSFacts HL HLSafe.

(** ** Specification *)

(** For a process with the privileges [priv].  Directories, links and the permissions of files are what they were; files that the process may not write
    have not changed; new entries are only in directories in which it may create them. *)
Definition obeys (priv : bool) (fs fs' : fstree) : Prop := forall p,
  match fs p with
  | Some (IDir m) => fs' p = Some (IDir m)
  | Some (ILink x) => fs' p = Some (ILink x)
  | Some (IFile m x) => if can_w priv m then exists y, fs' p = Some (IFile m y) else fs' p = Some (IFile m x)
  | None => fs' p = None \/ exists m, fs' (removelast p) = Some (IDir m) /\ can_w priv m = true /\ can_x priv m = true
  end.
(** The process has no files open that it may not write. *)
Definition may_write (o : os) : Prop := forall n p off m x, In (n, (p, off)) (o_fds o) -> o_fs o p = Some (IFile m x) -> can_w (o_priv o) m = true.

(** ** Proofs *)

Definition allowed (priv : bool) (fs : fstree) (o : os) : Prop :=
  o_priv o = priv /\ obeys priv fs (o_fs o) /\ forall n p off m x, In (n, (p, off)) (o_fds o) -> fs p = Some (IFile m x) -> can_w priv m = true.

Lemma obeys_refl priv fs : obeys priv fs fs.
Proof. intro p. destruct (fs p) as [[m|m x|x]|]; auto. destruct (can_w priv m); eauto. Qed.

Lemma walk_dir fs priv follow d' c' i : forall links d cs, walk_path fs priv follow links d cs = WAt d' c' i ->
  exists m, fs d' = Some (IDir m) /\ can_x priv m = true.
Proof.
  induction links as [links IHl] using (well_founded_induction lt_wf).
  intros d cs. revert d. induction cs as [|c1 r IH]; intros d Hw; rewrite walk_eq in Hw; [discriminate|].
  destruct (fs d) as [[m1|m1 x|x]|] eqn:Ed; try discriminate. destruct (negb _) eqn:Ex; [discriminate|]. apply Bool.negb_false_iff in Ex.
  destruct (bytes_eqb c1 _); [eauto|]. destruct (bytes_eqb c1 _); [eauto|]. destruct (_ <? _); [discriminate|].
  destruct (fs (d ++ [c1])) as [[m2|m2 x|x]|] eqn:Ec.
  - destruct r; [injection Hw as <- <- <-; eauto|eauto].
  - destruct r; [injection Hw as <- <- <-; eauto|discriminate].
  - assert (Q : match links with O => WErr ELOOP | S l => if nonempty x then walk_path fs priv follow l (start x d) (comps x ++ r) else WErr ENOENT end = WAt d' c' i ->
       exists m, fs d' = Some (IDir m) /\ can_x priv m = true).
    { destruct links as [|l]; [discriminate|]. destruct (nonempty x); [|discriminate]. apply IHl. lia. }
    destruct r, follow; auto. injection Hw as <- <- <-; eauto.
  - destruct r; [injection Hw as <- <- <-; eauto|discriminate].
Qed.
Lemma namei_dir follow o s d c i : namei follow o s = WAt d c i -> exists m, o_fs o d = Some (IDir m) /\ can_x (o_priv o) m = true.
Proof. unfold namei. destruct (negb _); [discriminate|]. destruct (_ <=? _); [discriminate|]. apply walk_dir. Qed.

Lemma obeys_new priv fs fs' d c m i : obeys priv fs fs' -> fs' (d ++ [c]) = None -> fs' d = Some (IDir m) -> can_w priv m = true -> can_x priv m = true ->
  obeys priv fs (upd fs' (d ++ [c]) i).
Proof.
  intros H N D W X q. specialize (H q). destruct (path_dec q (d ++ [c])) as [->|Hn].
  - rewrite N in H. destruct (fs (d ++ [c])) as [[m'|m' x|x]|]; try discriminate H.
    + destruct (can_w priv m'); [destruct H; discriminate|discriminate].
    + right. exists m. rewrite removelast_last. rewrite upd_other; [auto|]. intro Q. rewrite <- Q in N. congruence.
  - rewrite upd_other by exact Hn. destruct (fs q) as [[m'|m' x|x]|]; auto. destruct H as [H|(m' & E & H)]; [now left|right].
    exists m'. rewrite upd_other; [auto|]. intro Q. rewrite <- Q in N. congruence.
Qed.
Lemma obeys_file priv fs fs' p m x y : obeys priv fs fs' -> fs' p = Some (IFile m x) -> (forall m' x', fs p = Some (IFile m' x') -> can_w priv m' = true) ->
  obeys priv fs (upd fs' p (IFile m y)).
Proof.
  intros H N Nr q. specialize (H q). destruct (path_dec q p) as [->|Hn].
  - rewrite N in H. rewrite upd_same. destruct (fs p) as [[m'|m' v|v]|] eqn:Ef; try discriminate H.
    + rewrite (Nr _ _ eq_refl) in *. destruct H as [v' H]. injection H as -> _. eauto.
    + destruct H as [H|(m' & E & H)]; [discriminate|]. right. exists m'. rewrite upd_other; [auto|]. intro Q. rewrite Q in E. congruence.
  - rewrite upd_other by exact Hn. destruct (fs q) as [[m'|m' v|v]|]; auto. destruct H as [H|(m' & E & H)]; [now left|right].
    exists m'. rewrite upd_other; [auto|]. intro Q. rewrite Q in E. congruence.
Qed.
Lemma fd_in n l v : find_fd n l = Some v -> In (n, v) l.
Proof.
  induction l as [|[m x] l IH]; cbn [find_fd]; [discriminate|]. destruct (N.eqb_spec m n) as [->|]; [intro H; injection H as ->; now left|right; auto].
Qed.
Lemma fd_set n v l m u : In (m, u) (set_fd n v l) -> In (m, u) l \/ (m = n /\ u = v).
Proof.
  induction l as [|[k x] l IH]; cbn [set_fd]; [intros []|]. destruct (N.eqb_spec k n) as [->|].
  - intros [H|H]; [injection H as <- <-; auto|left; now right].
  - intros [H|H]; [left; now left|]. destruct (IH H); [left; now right|now right].
Qed.
Lemma fd_del n l v : In v (del_fd n l) -> In v l.
Proof. induction l as [|[m x] l IH]; cbn [del_fd]; [intros []|]. destruct (m =? n); [now right|]. intros [H|H]; [now left|right; auto]. Qed.

Lemma sys_allowed priv fs c o : allowed priv fs o -> allowed priv fs (snd (sys c o)).
Proof.
  intros A. pose proof A as (P & Ob & F). destruct c as [s m|s|tr s m|fd d|fd|n|s|x s]; cbn [sys].
  - unfold sys_mkdir. destruct (namei false o s) as [er|d|d c [i|]] eqn:E; try exact A.
    destruct (can_w _ _) eqn:W; [|exact A]. pose proof (namei_at _ _ _ _ _ _ E) as N. destruct (namei_dir _ _ _ _ _ _ E) as (md & D & X).
    unfold dir_mode in W. rewrite D in W. split; [exact P|]. split; [|exact F]. rewrite P in W, X. cbn [snd with_fs o_fs]. eapply obeys_new; eauto.
  - unfold sys_stat_dir. destruct (namei true o s) as [er|d|d c [[]|]]; exact A.
  - unfold sys_open. destruct (namei true o s) as [er|d|d c [[m'|m' x|x]|]] eqn:E; try exact A.
    + destruct (slash_end s); [exact A|]. destruct (can_w (o_priv o) m') eqn:W; cbn [negb]; [|exact A].
      pose proof (namei_at _ _ _ _ _ _ E) as N. rewrite P in W.
      assert (Q : forall m0 x0, fs (d ++ [c]) = Some (IFile m0 x0) -> can_w priv m0 = true).
      { intros m0 x0 Q. specialize (Ob (d ++ [c])). rewrite Q, <- N in Ob. destruct (can_w priv m0) eqn:W0; [reflexivity|]. injection Ob as -> _. congruence. }
      destruct tr; (split; [exact P|split]); cbn [snd open_at o_fs o_fds]; auto.
      * eapply obeys_file; eauto.
      * intros n q off m0 x0 [I|I] Hq; [injection I as _ <- _; eauto|eapply F; eauto].
      * intros n q off m0 x0 [I|I] Hq; [injection I as _ <- _; eauto|eapply F; eauto].
    + destruct (slash_end s); [exact A|]. destruct (can_w _ _) eqn:W; [|exact A].
      pose proof (namei_at _ _ _ _ _ _ E) as N. destruct (namei_dir _ _ _ _ _ _ E) as (md & D & X).
      unfold dir_mode in W. rewrite D in W. rewrite P in W, X. split; [exact P|]. split.
      * cbn [snd open_at with_fs o_fs]. eapply obeys_new; eauto.
      * cbn [snd open_at with_fs o_fds]. intros n q off m0 x0 [I|I] Hq; [|eapply F; eauto]. injection I as _ <- _.
        specialize (Ob (d ++ [c])). rewrite Hq, <- N in Ob. destruct (can_w priv m0); [reflexivity|discriminate].
  - unfold sys_write. destruct fd as [n|]; [|exact A]. destruct (find_fd n (o_fds o)) as [[p off]|] eqn:Ef; [|exact A]. apply fd_in in Ef.
    destruct (o_fs o p) as [[m|m x|x]|] eqn:E; try exact A. destruct (_ && _); [exact A|]. split; [exact P|]. split.
    + cbn [snd o_fs]. eapply obeys_file; eauto.
    + cbn [snd o_fds]. intros k q off' m0 x0 I Hq. apply fd_set in I. destruct I as [I|[_ I]]; [eapply F; eauto|]. injection I as -> _. eapply F; eauto.
  - unfold sys_close. destruct fd as [n|]; [|exact A]. destruct (find_fd n (o_fds o)); [|exact A].
    split; [exact P|]. split; [exact Ob|]. cbn [snd o_fds]. intros k q off' m0 x0 I Hq. apply fd_del in I. eapply F; eauto.
  - unfold sys_getcwd. destruct (o_fs o (o_cwd o)) as [[]|]; try exact A. destruct (_ <=? _); exact A.
  - assert (En : forall d, allowed priv fs (snd (enter d o))).
    { intro d. unfold enter. destruct (o_fs o d) as [[]|]; try exact A. destruct (can_x _ _); exact A. }
    unfold sys_chdir. destruct (namei true o s) as [er|d|d c i]; auto.
  - unfold sys_symlink. destruct (negb _); [exact A|]. destruct (_ <=? _); [exact A|].
    destruct (namei false o s) as [er|d|d c [i|]] eqn:E; try exact A. destruct (slash_end s); [exact A|]. destruct (can_w _ _) eqn:W; [|exact A].
    pose proof (namei_at _ _ _ _ _ _ E) as N. destruct (namei_dir _ _ _ _ _ _ E) as (md & D & X).
    unfold dir_mode in W. rewrite D in W. rewrite P in W, X. split; [exact P|]. split; [|exact F]. cbn [snd with_fs o_fs]. eapply obeys_new; eauto.
Qed.
Lemma exec_allowed {A} priv fs (p : prog A) : forall o a o', exec p o = Ok (a, o') -> allowed priv fs o -> allowed priv fs o'.
Proof.
  induction p as [a| | |c k IH]; intros o a' o' H Al; cbn in H; try discriminate; [now injection H as _ <-|].
  destruct (sys c o) as [r o1] eqn:E. eapply IH; [exact H|]. pose proof (sys_allowed priv fs c o Al) as Q. now rewrite E in Q.
Qed.
Lemma extract_obeys T hal stk z e alloc archive fuel dfuel al obuf hjunk pjunk inp rderr o ret x o' : may_write o ->
  exec (extract T hal stk z e alloc archive fuel dfuel al obuf hjunk pjunk inp rderr) o = Ok ((ret, x), o') -> obeys (o_priv o) (o_fs o) (o_fs o').
Proof. intros M H. eapply exec_allowed; [exact H|]. split; [reflexivity|]. split; [apply obeys_refl|exact M]. Qed.
