(** ConcFacts.v: executions of two threads below different paths. *)
From Coq Require Import Lia.
From Verif Require Import Base FS FSFacts HL HLSpec HLFacts HLSafe Conc.

(** ** A predicate on all system calls of an execution *)
Fixpoint along {A} (P : sysc -> os -> Prop) (p : prog A) (o : os) : Prop :=
  match p with
  | PSys c k => P c o /\ along P (k (fst (sys c o))) (snd (sys c o))
  | _ => True
  end.
Lemma along_bind {A B} P (p : prog A) (f : A -> prog B) : forall o,
  along P (pbind p f) o <-> along P p o /\ (forall a o', exec p o = Ok (a, o') -> along P (f a) o').
Proof.
  induction p as [a| | |c k IH]; intro o; cbn [pbind along exec].
  - split; [intro H; split; [exact I|]; intros a' o' Q; injection Q as <- <-; exact H|intros [_ H]; now apply H].
  - split; [intros _; split; [exact I|discriminate]|intros _; exact I].
  - split; [intros _; split; [exact I|discriminate]|intros _; exact I].
  - destruct (sys c o) as [r o1]. cbn [fst snd]. rewrite IH. tauto.
Qed.
Lemma along_mono {A} (P Q : sysc -> os -> Prop) (p : prog A) : (forall c o, P c o -> Q c o) -> forall o, along P p o -> along Q p o.
Proof. intro H. induction p as [a| | |c k IH]; intro o; cbn [along]; auto. intros [H1 H2]. auto. Qed.
Lemma along_and {A} (P Q : sysc -> os -> Prop) (p : prog A) : forall o, along P p o -> along Q p o -> along (fun c o => P c o /\ Q c o) p o.
Proof. induction p as [a| | |c k IH]; intro o; cbn [along]; auto. intros [H1 H2] [H3 H4]. auto. Qed.

(** ** Name resolution that does not look below [u] *)
Section Indep.
Context (fs fs' : fstree) (u : path).
Hypothesis Same : forall q, strip u q = None -> fs' q = fs q.
Hypothesis Free : forall r, fs (u ++ r) = None.

Lemma some_off q i : fs q = Some i -> strip u q = None.
Proof. intro H. destruct (strip u q) as [r|] eqn:E; [|reflexivity]. apply strip_spec in E. subst q. rewrite Free in H. discriminate. Qed.

Definition off_u (w : wres) : Prop := match w with WErr _ => False | WDir _ => True | WAt d c _ => strip u (d ++ [c]) = None end.

Lemma walk_indep priv follow : forall links d cs, off_u (walk_path fs priv follow links d cs) ->
  walk_path fs' priv follow links d cs = walk_path fs priv follow links d cs.
Proof.
  induction links as [links IHl] using (well_founded_induction lt_wf).
  intros d cs. revert d. induction cs as [|c1 r IH]; intros d Hw; [rewrite !walk_eq; reflexivity|].
  rewrite walk_eq in Hw. rewrite (walk_eq fs'), (walk_eq fs).
  destruct (fs d) as [i|] eqn:Ed; [|contradiction]. rewrite (Same d) by (eapply some_off; eauto). rewrite Ed.
  destruct i as [m1|m1 x|x]; try contradiction. destruct (negb _); [contradiction|].
  destruct (bytes_eqb c1 _); [auto|]. destruct (bytes_eqb c1 _); [auto|]. destruct (_ <? _); [contradiction|].
  destruct (fs (d ++ [c1])) as [j|] eqn:Ec.
  - rewrite (Same (d ++ [c1])) by (eapply some_off; eauto). rewrite Ec. destruct j as [m2|m2 x|x].
    + destruct r; [reflexivity|auto].
    + destruct r; [reflexivity|contradiction].
    + destruct r, follow; try reflexivity; (destruct links as [|lk]; [contradiction|]; destruct (nonempty x); [|contradiction]; apply IHl; [lia|exact Hw]).
  - destruct r; [|contradiction]. rewrite Same by exact Hw. now rewrite Ec.
Qed.
End Indep.

(** The entry [d]/[c] is a directory: it stays one. *)
Lemma walk_keeps_dir fs fs' priv follow d' c' m' : keeps fs fs' -> forall links d cs,
  walk_path fs priv follow links d cs = WAt d' c' (Some (IDir m')) -> walk_path fs' priv follow links d cs = WAt d' c' (Some (IDir m')).
Proof.
  intro K. induction links as [links IHl] using (well_founded_induction lt_wf).
  intros d cs. revert d. induction cs as [|c1 r IH]; intros d Hw; rewrite walk_eq in Hw; [discriminate|]. rewrite walk_eq.
  pose proof (K d) as Kd. destruct (fs d) as [[m1|m1 x|x]|]; try discriminate. rewrite Kd. destruct (negb _); [discriminate|].
  destruct (bytes_eqb c1 _); [auto|]. destruct (bytes_eqb c1 _); [auto|]. destruct (_ <? _); [discriminate|].
  pose proof (K (d ++ [c1])) as Kc. destruct (fs (d ++ [c1])) as [[m2|m2 x|x]|].
  - rewrite Kc. destruct r; [exact Hw|auto].
  - destruct r; discriminate.
  - rewrite Kc. destruct r, follow; try exact Hw; (destruct links as [|lk]; [discriminate|]; destruct (nonempty x); [|discriminate]; apply IHl; [lia|exact Hw]).
  - destruct r; discriminate.
Qed.

(** ** System calls that only concern [t] *)
Section Local.
Context (t u : path).

(** [o'] is [o] with arbitrary inodes below [u]. *)
Definition frame (o o' : os) : Prop :=
  o_cwd o' = o_cwd o /\ o_umask o' = o_umask o /\ o_priv o' = o_priv o /\ forall q, strip u q = None -> o_fs o' q = o_fs o q.

Definition path_local (s : bytes) (o : os) : Prop :=
  forall follow o', frame o o' -> namei follow o' s = namei follow o s /\
    forall d c i, namei follow o s = WAt d c i -> exists r, d ++ [c] = t ++ r.

Definition fd_local (fd : option N) (o : os) : Prop :=
  forall n p off, fd = Some n -> find_fd n (o_fds o) = Some (p, off) -> exists r, p = t ++ r.

Definition local (c : sysc) (o : os) : Prop :=
  match c with
  | ScMkdir s _ | ScStatDir s => path_local s o
  | ScOpen tr s _ => path_local s o /\ (tr = true -> forall d c i, namei true o s = WAt d c i -> i = None)
  | ScWrite fd _ | ScClose fd => fd_local fd o
  | _ => False
  end.

(** The write is complete. *)
Definition complete (c : sysc) (o : os) : Prop :=
  match c with
  | ScWrite (Some n) d => forall p off m x, find_fd n (o_fds o) = Some (p, off) -> o_fs o p = Some (IFile m x) ->
      lenN d <= (lenN x - off) + o_free o
  | _ => True
  end.
End Local.

(** ** Runs with space left *)

Lemma lenN_overwrite off d x : lenN (overwrite off d x) = N.max (lenN x) (N.min off (lenN x) + lenN d).
Proof. unfold overwrite. rewrite !lenN_app, lenN_takeN, lenN_dropN. lia. Qed.

Lemma free_local t u c o : local t u c o -> o_free (snd (sys c o)) <= o_free o.
Proof.
  destruct c as [s m|s|tr s m|fd d|fd|n|s|x s]; cbn [local sys]; try contradiction.
  - intros _. unfold sys_mkdir. destruct (namei false o s) as [e|d|d c [i|]]; try (cbn; lia). destruct (can_w _ _); cbn; lia.
  - intros _. unfold sys_stat_dir. destruct (namei true o s) as [e|d|d c [[]|]]; cbn; lia.
  - intros [_ Tr]. unfold sys_open. destruct (namei true o s) as [e|d|d c [[m'|m' x|x]|]] eqn:E; try (cbn; lia).
    + destruct (slash_end s); [cbn; lia|]. destruct (negb _); [cbn; lia|]. destruct tr; [|cbn; lia]. specialize (Tr eq_refl _ _ _ eq_refl). discriminate.
    + destruct (slash_end s); [cbn; lia|]. destruct (can_w _ _); cbn; lia.
  - intros _. unfold sys_write. destruct fd as [n|]; [|cbn; lia]. destruct (find_fd n (o_fds o)) as [[p off]|]; [|cbn; lia].
    destruct (o_fs o p) as [[m|m x|x]|]; try (cbn; lia). destruct (_ && _); cbn [snd o_free]; lia.
  - intros _. unfold sys_close. destruct fd as [n|]; [|cbn; lia]. destruct (find_fd n (o_fds o)); cbn; lia.
Qed.

Lemma incomplete_full n d o p off m x : find_fd n (o_fds o) = Some (p, off) -> o_fs o p = Some (IFile m x) ->
  (lenN x - off) + o_free o < lenN d -> o_free (snd (sys_write (Some n) d o)) = 0.
Proof.
  intros E F L. unfold sys_write. rewrite E, F. rewrite (N.min_r (lenN d)) by lia.
  set (k := lenN x - off + o_free o) in *.
  destruct (N.eqb_spec k 0) as [K|K].
  - replace (lenN d =? 0) with false by (symmetry; apply N.eqb_neq; lia). cbn. lia.
  - cbn [andb snd o_free]. rewrite lenN_overwrite, lenN_takeN. lia.
Qed.

(** If a run that truncates no file leaves free space, all its writes were complete. *)
Lemma run_complete {A} t u (p : prog A) : forall o a o', along (local t u) p o -> exec p o = Ok (a, o') -> 
  o_free o' <= o_free o /\ (0 < o_free o' -> along complete p o).
Proof.
  induction p as [a| | |c k IH]; intros o a' o' Al X; cbn [exec along] in *; try discriminate.
  { injection X as _ <-. split; [lia|auto]. }
  destruct Al as [L Al]. pose proof (free_local _ _ _ _ L) as F. destruct (sys c o) as [r o1] eqn:E. cbn [fst snd] in *.
  destruct (IH _ _ _ _ Al X) as [F1 Cm]. split; [lia|]. intro Pos. split; [|auto].
  destruct c as [s m|s|tr s m|[n|] d|fd|n|s|x s]; cbn [complete]; auto.
  intros q off m x E1 E2. apply N.nlt_ge. intro Lt. pose proof (incomplete_full _ _ _ _ _ _ _ E1 E2 Lt) as Z.
  cbn [sys] in E. rewrite E in Z. cbn [snd] in Z. lia.
Qed.

(** ** The same step in a file system that differs below [u] *)

Lemma frame_refl u o : frame u o o. Proof. repeat split. Qed.

Section Sim.
Context (t u : path).
Hypothesis Tu : strip u t = None.
Hypothesis Ut : strip t u = None.

Lemma strip_prefix : forall (a b r : path), strip a (b ++ r) = None -> strip a b = None.
Proof.
  induction a as [|x a IH]; intros b r H; [discriminate|]. destruct b as [|y b]; [reflexivity|]. cbn [strip app] in *.
  destruct (bytes_eqb x y); [eauto|reflexivity].
Qed.
Lemma strip_none_app : forall (a b r : path), strip a b = None -> strip b a = None -> strip a (b ++ r) = None.
Proof.
  induction a as [|x a IH]; intros b r H1 H2; [discriminate|]. destruct b as [|y b]; [discriminate|]. cbn [strip app] in *.
  destruct (bytes_eqb x y) eqn:E; [|reflexivity].
  apply bytes_eqb_spec in E. subst y. rewrite (proj2 (bytes_eqb_spec x x) eq_refl) in H2. auto.
Qed.
Lemma below_off r : strip u (t ++ r) = None.
Proof. now apply strip_none_app. Qed.

(** Changing the same inode below [t]. *)
Lemma frame_upd o o' r i g g' l l' n n' : frame u o o' ->
  frame u (OS (upd (o_fs o) (t ++ r) i) g (o_cwd o) (o_umask o) (o_priv o) l n)
          (OS (upd (o_fs o') (t ++ r) i) g' (o_cwd o') (o_umask o') (o_priv o') l' n').
Proof.
  intros (A1 & A2 & A3 & A4). repeat split; cbn [o_cwd o_umask o_priv o_fs]; auto.
  intros q Hq. unfold upd. destruct (path_eqb q (t ++ r)); auto.
Qed.
Lemma frame_fds o o' g g' l l' n n' : frame u o o' ->
  frame u (OS (o_fs o) g (o_cwd o) (o_umask o) (o_priv o) l n) (OS (o_fs o') g' (o_cwd o') (o_umask o') (o_priv o') l' n').
Proof. intros (A1 & A2 & A3 & A4). repeat split; auto. Qed.

(** Only inodes below [t] change. *)
Definition touches (o o' : os) : Prop :=
  o_cwd o' = o_cwd o /\ o_umask o' = o_umask o /\ o_priv o' = o_priv o /\ forall q, strip t q = None -> o_fs o' q = o_fs o q.
Lemma touches_refl o : touches o o. Proof. repeat split. Qed.
Lemma touches_upd o r i g l n : touches o (OS (upd (o_fs o) (t ++ r) i) g (o_cwd o) (o_umask o) (o_priv o) l n).
Proof. repeat split. intros q Hq. cbn [o_fs]. apply upd_other. intros ->. now rewrite strip_app in Hq. Qed.

Lemma sim_step c o o' : local t u c o -> complete c o -> frame u o o' -> o_fds o' = o_fds o -> o_next o' = o_next o -> o_free o <= o_free o' ->
  let x := sys c o in let x' := sys c o' in
  fst x' = fst x /\ frame u (snd x) (snd x') /\ o_fds (snd x') = o_fds (snd x) /\ o_next (snd x') = o_next (snd x) /\
  touches o' (snd x') /\ o_free (snd x') + (o_free o - o_free (snd x)) = o_free o'.
Proof.
  intros L Cm Fr Ef En Le. pose proof Fr as (F1 & F2 & F3 & F4).
  assert (Triv : forall r : resp, let x := (r, o) in let x' := (r, o') in fst x' = fst x /\ frame u (snd x) (snd x') /\ o_fds (snd x') = o_fds (snd x) /\
    o_next (snd x') = o_next (snd x) /\ touches o' (snd x') /\ o_free (snd x') + (o_free o - o_free (snd x)) = o_free o').
  { intros r. cbn [fst snd]. split; [reflexivity|]. split; [exact Fr|]. split; [exact Ef|]. split; [exact En|]. split; [apply touches_refl|lia]. }
  assert (Dm : forall d c r, d ++ [c] = t ++ r -> dir_mode (o_fs o') d = dir_mode (o_fs o) d).
  { intros d c0 r E. unfold dir_mode. rewrite F4; [reflexivity|]. apply (strip_prefix _ _ [c0]). rewrite E. apply below_off. }
  destruct c as [s m|s|tr s m|fd d|fd|n|s|x s]; cbn [local sys] in *; try contradiction.
  - unfold sys_mkdir. destruct (L false o' Fr) as [-> Bl].
    destruct (namei false o s) as [e|d|d c [i|]]; try apply Triv. destruct (Bl _ _ _ eq_refl) as [r Er].
    rewrite F3, (Dm _ _ _ Er). destruct (can_w _ _); [|apply Triv]. replace (new_dir_mode o' m) with (new_dir_mode o m) by (unfold new_dir_mode; now rewrite F2).
    unfold with_fs. rewrite Er. cbn [fst snd o_fds o_next o_free].
    split; [reflexivity|]. split; [now apply frame_upd|]. split; [exact Ef|]. split; [exact En|]. split; [apply touches_upd|lia].
  - unfold sys_stat_dir. destruct (L true o' Fr) as [-> _]. destruct (namei true o s) as [e|d|d c [[]|]]; apply Triv.
  - destruct L as [L Tr]. unfold sys_open. destruct (L true o' Fr) as [-> Bl].
    destruct (namei true o s) as [e|d|d c [[m'|m' x|x]|]]; try apply Triv; destruct (Bl _ _ _ eq_refl) as [r Er].
    + destruct (slash_end s); [apply Triv|]. rewrite F3. destruct (negb _); [apply Triv|].
      destruct tr; [specialize (Tr eq_refl _ _ _ eq_refl); discriminate|]. unfold open_at. cbn [fst snd o_fds o_next o_free]. rewrite Ef, En.
      split; [reflexivity|]. split; [now apply frame_fds|]. split; [reflexivity|]. split; [reflexivity|]. split; [repeat split|lia].
    + destruct (slash_end s); [apply Triv|]. rewrite F3, (Dm _ _ _ Er). destruct (can_w _ _); [|apply Triv].
      replace (new_file_mode o' m) with (new_file_mode o m) by (unfold new_file_mode; now rewrite F2).
      unfold open_at, with_fs. cbn [o_fs o_free o_cwd o_umask o_priv o_fds o_next fst snd]. rewrite Ef, En, Er.
      split; [reflexivity|]. split; [now apply frame_upd|]. split; [reflexivity|]. split; [reflexivity|]. split; [apply touches_upd|lia].
  - destruct fd as [n|]; [|apply Triv]. unfold sys_write. rewrite Ef. destruct (find_fd n (o_fds o)) as [[p off]|] eqn:Efd; [|apply Triv].
    destruct (L n p off eq_refl Efd) as [r ->]. rewrite F4 by apply below_off.
    destruct (o_fs o (t ++ r)) as [[m|m x|x]|] eqn:Ex; try apply Triv.
    cbn [complete] in Cm. specialize (Cm _ _ _ _ Efd Ex). rewrite !N.min_l by lia.
    destruct (_ && _); [apply Triv|]. cbn [fst snd o_fds o_next o_free].
    split; [reflexivity|]. split; [now apply frame_upd|]. split; [reflexivity|]. split; [exact En|]. split; [apply touches_upd|].
    rewrite lenN_overwrite, lenN_takeN. lia.
  - destruct fd as [n|]; [|apply Triv]. unfold sys_close. rewrite Ef. destruct (find_fd n (o_fds o)) as [[p off]|] eqn:Efd; [|apply Triv].
    cbn [fst snd o_fds o_next o_free]. split; [reflexivity|]. split; [now apply frame_fds|]. split; [reflexivity|]. split; [exact En|]. split; [repeat split|lia].
Qed.
End Sim.

(** ** Two threads *)

Fixpoint psteps {A} (p : prog A) (o : os) : nat :=
  match p with PSys c k => S (psteps (k (fst (sys c o))) (snd (sys c o))) | _ => O end.

Definition alone (t u : path) (c : sysc) (o : os) : Prop := local t u c o /\ complete c o.

Lemma frame_seen u o o' f : frame u o (seen o' f) <-> frame u o o'.
Proof. unfold frame, seen. cbn [o_cwd o_umask o_priv o_fs]. tauto. Qed.

Lemma step_one {X} t u c (k : resp -> prog X) S A : strip u t = None -> strip t u = None -> alone t u c S -> frame u S A -> o_free S <= o_free A ->
  let S' := snd (sys c S) in
  exists A', step (PSys c k, fds_of S) A = ((k (fst (sys c S)), fds_of S'), A') /\ frame u S' A' /\ touches t A A' /\
    o_free S' <= o_free S /\ o_free A' + (o_free S - o_free S') = o_free A.
Proof.
  intros Tu Ut [L Cm] Fr Le S'. unfold step. cbn [fst snd].
  destruct (sim_step t u Tu Ut c S (seen A (fds_of S)) L Cm) as (Q1 & Q2 & Q3 & Q4 & Q5 & Q6);
    [now apply frame_seen|reflexivity|reflexivity|exact Le|].
  pose proof (free_local _ _ _ _ L) as Fl. fold S' in Q2, Q3, Q4, Q6, Fl.
  destruct (sys c (seen A (fds_of S))) as [r o1]. cbn [fst snd] in *. subst r.
  exists (seen o1 (fds_of A)). split; [unfold fds_of; now rewrite Q3, Q4|]. split; [now apply frame_seen|]. split; [exact Q5|].
  split; [exact Fl|exact Q6].
Qed.

Lemma frame_touch t o A A' : frame t o A -> touches t A A' -> frame t o A'.
Proof. intros (A1 & A2 & A3 & A4) (B1 & B2 & B3 & B4). repeat split; try congruence. intros q Hq. rewrite B4, A4 by exact Hq. reflexivity. Qed.

Lemma step_ret {X} (a : X) f o : step (PRet a, f) o = ((PRet a, f), o). Proof. reflexivity. Qed.

Lemma two_threads {X Y} t u : strip u t = None -> strip t u = None -> forall sched (p : prog X) (q : prog Y) S1 S2 A a b E1 E2,
  along (alone t u) p S1 -> along (alone u t) q S2 -> frame u S1 A -> frame t S2 A -> o_free S1 + o_free S2 <= o_free A ->
  exec p S1 = Ok (a, E1) -> exec q S2 = Ok (b, E2) -> (psteps p S1 <= turns true sched)%nat -> (psteps q S2 <= turns false sched)%nat ->
  exists f1 f2 A', interleave sched (p, fds_of S1) (q, fds_of S2) A = ((PRet a, f1), (PRet b, f2), A') /\
    f1 = fds_of E1 /\ f2 = fds_of E2 /\ frame u E1 A' /\ frame t E2 A' /\
    o_free A' + (o_free S1 - o_free E1) + (o_free S2 - o_free E2) = o_free A.
Proof.
  intros Tu Ut. induction sched as [|[] sched IH]; intros p q S1 S2 A a b E1 E2 Ap Aq F1 F2 Le X1 X2 T1 T2; cbn [turns Bool.eqb] in T1, T2.
  - destruct p as [a'| | |c k]; cbn [psteps exec] in *; try discriminate; [|lia].
    destruct q as [b'| | |c k]; cbn [psteps exec] in *; try discriminate; [|lia].
    injection X1 as <- <-. injection X2 as <- <-. eexists _, _, A. split; [reflexivity|]. repeat split; try apply F1; try apply F2. lia.
  - cbn [interleave]. destruct p as [a'| | |c k]; try discriminate X1.
    + rewrite step_ret. eapply IH; eauto. cbn [psteps]. lia.
    + cbn [along psteps exec] in Ap, T1, X1. destruct Ap as [Al Ap]. destruct (step_one t u c k S1 A Tu Ut Al F1 ltac:(lia)) as (A1 & -> & G1 & G2 & G3 & G4).
      destruct (sys c S1) as [r S1']. cbn [fst snd] in *.
      destruct (IH _ _ _ _ A1 _ _ _ _ Ap Aq G1 (frame_touch _ _ _ _ F2 G2) ltac:(lia) X1 X2 ltac:(lia) T2) as (f1 & f2 & A' & H1 & H2 & H3 & H4 & H5 & H6).
      exists f1, f2, A'. split; [exact H1|]. split; [exact H2|]. split; [exact H3|]. split; [exact H4|]. split; [exact H5|].
      assert (o_free E1 <= o_free S1') by (eapply (run_complete t u); [eapply along_mono; [|exact Ap]; intros ? ? Q; exact (proj1 Q)|exact X1]). lia.
  - cbn [interleave]. destruct q as [b'| | |c k]; try discriminate X2.
    + rewrite step_ret. eapply IH; eauto. cbn [psteps]. lia.
    + cbn [along psteps exec] in Aq, T2, X2. destruct Aq as [Al Aq]. destruct (step_one u t c k S2 A Ut Tu Al F2 ltac:(lia)) as (A1 & -> & G1 & G2 & G3 & G4).
      destruct (sys c S2) as [r S2']. cbn [fst snd] in *.
      destruct (IH _ _ _ _ A1 _ _ _ _ Ap Aq (frame_touch _ _ _ _ F1 G2) G1 ltac:(lia) X1 X2 T1 ltac:(lia)) as (f1 & f2 & A' & H1 & H2 & H3 & H4 & H5 & H6).
      exists f1, f2, A'. split; [exact H1|]. split; [exact H2|]. split; [exact H3|]. split; [exact H4|]. split; [exact H5|].
      assert (o_free E2 <= o_free S2') by (eapply (run_complete u t); [eapply along_mono; [|exact Aq]; intros ? ? Q; exact (proj1 Q)|exact X2]). lia.
Qed.

Lemma run_touches {X} t u : strip u t = None -> strip t u = None -> forall (p : prog X) o a o',
  along (alone t u) p o -> exec p o = Ok (a, o') -> touches t o o'.
Proof.
  intros Tu Ut. induction p as [a| | |c k IH]; intros o a' o' Al X1; cbn [exec along] in *; try discriminate.
  { injection X1 as _ <-. apply touches_refl. }
  destruct Al as [[L Cm] Al].
  destruct (sim_step t u Tu Ut c o o L Cm (frame_refl _ _) eq_refl eq_refl (N.le_refl _)) as (_ & _ & _ & _ & (Q1 & Q2 & Q3 & Q4) & _).
  destruct (sys c o) as [r o1]. cbn [fst snd] in *. destruct (IH _ _ _ _ Al X1) as (B1 & B2 & B3 & B4).
  repeat split; try congruence. intros q Hq. rewrite B4, Q4 by exact Hq. reflexivity.
Qed.
