(** Crash.v: an extraction that is killed. *)
From Coq Require Import Lia.
From Verif Require Import Base Format Zlib Compress Parser ParserProofs ParserFacts Decompress DecompressProofs MidProofs MidFacts
  ArchiveSpec ArchiveFacts ArchiveDecode FS FSFacts HL HLSpec HLFacts HLDrive HLProps HLSafe MkdirFacts HLTame CutSpec CutFacts CutRun CutProps.

(** The states in which a process may be killed: between two system calls, or in a write of which a part was done. *)
Inductive reach {A} : prog A -> os -> os -> Prop :=
| rc_here p o : reach p o o
| rc_part fd d1 d2 k o : reach (PSys (ScWrite fd (d1 ++ d2)) k) o (snd (sys_write fd d1 o))
| rc_step c k o o' : reach (k (fst (sys c o))) (snd (sys c o)) o' -> reach (PSys c k) o o'.

Lemma reach_exec {A} (p : prog A) : forall o a o', exec p o = Ok (a, o') -> reach p o o'.
Proof.
  induction p as [a| | |c k IH]; intros o r o' H; cbn [exec] in H; try discriminate H.
  - injection H as -> ->. apply rc_here.
  - destruct (sys c o) as [x o1] eqn:E. apply rc_step. rewrite E. cbn [fst snd]. eapply IH. exact H.
Qed.
Lemma reach_bind {A B} (p : prog A) (f : A -> prog B) : forall o o', reach (pbind p f) o o' ->
  reach p o o' \/ exists a o1, exec p o = Ok (a, o1) /\ reach (f a) o1 o'.
Proof.
  induction p as [a| | |c k IH]; intros o o' H; cbn [pbind] in H.
  - right. exists a, o. auto.
  - left. inversion H; subst; apply rc_here.
  - left. inversion H; subst; apply rc_here.
  - inversion H as [|? ? ? ? ? Q|? ? ? ? R]; subst; [left; apply rc_here|left; apply rc_part|].
    destruct (IH _ _ _ R) as [Q|(a & o1 & E & Q)]; [left; now apply rc_step|right]. exists a, o1. split; [|exact Q].
    cbn [exec]. destruct (sys c o). exact E.
Qed.
Lemma reach_first {A B} (p : prog A) (f : A -> prog B) o o' : reach p o o' -> reach (pbind p f) o o'.
Proof.
  induction 1 as [p o|fd d1 d2 k o|c k o o' H IH].
  - apply rc_here.
  - cbn [pbind]. apply rc_part.
  - cbn [pbind]. now apply rc_step.
Qed.
Lemma reach_then {A B} (p : prog A) (f : A -> prog B) : forall o a o1 o', exec p o = Ok (a, o1) -> reach (f a) o1 o' -> reach (pbind p f) o o'.
Proof.
  induction p as [a| | |c k IH]; intros o b o1 o' H R; cbn [exec] in H; try discriminate H; cbn [pbind].
  - injection H as -> ->. exact R.
  - destruct (sys c o) as [x o2] eqn:E. apply rc_step. rewrite E. cbn [fst snd]. eapply IH; eauto.
Qed.

(** ** Calls that only add entries *)
Definition adds (c : sysc) : bool := match c with ScOpen true _ _ => false | ScWrite _ _ => false | _ => true end.
Inductive adding {A} : prog A -> Prop :=
| ad_ret a : adding (PRet a)
| ad_ub : adding PUB
| ad_fuel : adding PNoFuel
| ad_sys c k : adds c = true -> (forall r, adding (k r)) -> adding (PSys c k).
Definition grows (fs fs' : fstree) : Prop := forall p i, fs p = Some i -> fs' p = Some i.

Lemma grows_refl fs : grows fs fs. Proof. intros p i H. exact H. Qed.
Lemma grows_trans a b c : grows a b -> grows b c -> grows a c. Proof. intros H K p i Q. auto. Qed.
Lemma grows_upd fs p i : fs p = None -> grows fs (upd fs p i).
Proof. intros H q j Q. rewrite upd_other; [exact Q|]. intros ->. congruence. Qed.
Lemma walk_none fs priv follow n d cs d' c i : walk_path fs priv follow n d cs = WAt d' c i -> fs (d' ++ [c]) = i.
Proof.
  revert d cs. induction n as [|n IHn]; intros d cs; revert d; induction cs as [|a r IH]; intros d H; cbn in H; try discriminate H;
    destruct (fs d) as [[m|m x|x]|]; try discriminate H; destruct (can_x priv m); cbn in H; try discriminate H;
    (destruct (bytes_eqb a [x2e]); [exact (IH _ H)|]); (destruct (bytes_eqb a [x2e; x2e]); [exact (IH _ H)|]);
    (destruct (NAME_MAX <? lenN a); [discriminate H|]);
    destruct (fs (d ++ [a])) as [[m'|m' x'|x']|] eqn:E.
  all: try (destruct r; [injection H as <- <- <-; exact E|exact (IH _ H)]).
  all: try (destruct r; [injection H as <- <- <-; exact E|discriminate H]).
  - destruct r; [destruct follow; [discriminate H|injection H as <- <- <-; exact E]|discriminate H].
  - destruct r; [destruct follow; [|injection H as <- <- <-; exact E]|]; (destruct (nonempty x'); [|discriminate H]); exact (IHn _ _ H).
Qed.
Lemma namei_at follow o s d c i : namei follow o s = WAt d c i -> o_fs o (d ++ [c]) = i.
Proof.
  unfold namei. destruct (negb (nonempty s)); [discriminate|]. destruct (PATH_MAX <=? lenN s); [discriminate|]. apply walk_none.
Qed.
Lemma adds_grows c o : adds c = true -> grows (o_fs o) (o_fs (snd (sys c o))).
Proof.
  destruct c as [s m|s|tr s m|fd d|fd|n|s|tg s]; intro H; cbn [sys]; try discriminate H.
  - unfold sys_mkdir. destruct (namei false o s) as [|d|d c [i|]] eqn:E; try apply grows_refl.
    destruct (can_w _ _); [|apply grows_refl]. apply grows_upd. exact (namei_at _ _ _ _ _ _ E).
  - unfold sys_stat_dir. destruct (namei true o s) as [|d|d c [[]|]]; apply grows_refl.
  - destruct tr; [discriminate H|]. unfold sys_open. destruct (namei true o s) as [|d|d c [[m'|m' x|x]|]] eqn:E; try apply grows_refl.
    + destruct (slash_end s); [apply grows_refl|]. destruct (negb _); apply grows_refl.
    + destruct (slash_end s); [apply grows_refl|]. destruct (can_w _ _); [|apply grows_refl]. cbn [snd open_at o_fs with_fs]. apply grows_upd. exact (namei_at _ _ _ _ _ _ E).
  - unfold sys_close. destruct fd as [n|]; [|apply grows_refl]. destruct (find_fd n (o_fds o)); apply grows_refl.
  - unfold sys_getcwd. destruct (o_fs o (o_cwd o)) as [[]|]; try apply grows_refl. destruct (_ <=? _); apply grows_refl.
  - unfold sys_chdir, enter. destruct (namei true o s) as [|d|d c i]; [apply grows_refl| |].
    + destruct (o_fs o d) as [[]|]; try apply grows_refl. destruct (can_x _ _); apply grows_refl.
    + destruct (o_fs o (d ++ [c])) as [[]|]; try apply grows_refl. destruct (can_x _ _); apply grows_refl.
  - unfold sys_symlink. destruct (negb _); [apply grows_refl|]. destruct (PATH_MAX <=? _); [apply grows_refl|].
    destruct (namei false o s) as [|d|d c [i|]] eqn:E; try apply grows_refl.
    destruct (slash_end s); [apply grows_refl|]. destruct (can_w _ _); [|apply grows_refl]. apply grows_upd. exact (namei_at _ _ _ _ _ _ E).
Qed.
Lemma adding_exec {A} (p : prog A) : adding p -> forall o a o', exec p o = Ok (a, o') -> grows (o_fs o) (o_fs o').
Proof.
  induction 1 as [a| | |c k Hc Hk IH]; intros o r o' H; cbn [exec] in H; try discriminate H.
  - injection H as _ <-. apply grows_refl.
  - pose proof (adds_grows c o Hc) as G. destruct (sys c o) as [x o1]. cbn [snd] in G. eapply grows_trans; [exact G|]. eapply IH, H.
Qed.
Lemma adding_reach {A} (p : prog A) o o' : reach p o o' -> adding p -> forall a o2, exec p o = Ok (a, o2) ->
  grows (o_fs o) (o_fs o') /\ grows (o_fs o') (o_fs o2).
Proof.
  induction 1 as [p o|fd d1 d2 k o|c k o o' H IH]; intros Ad a o2 E.
  - split; [apply grows_refl|]. eapply adding_exec; eauto.
  - inversion Ad; subst. discriminate.
  - inversion Ad as [| | |? ? Hc Hk]; subst. cbn [exec] in E. pose proof (adds_grows c o Hc) as G. destruct (sys c o) as [x o1]. cbn [fst snd] in *.
    destruct (IH (Hk x) _ _ E) as [G1 G2]. split; [|exact G2]. eapply grows_trans; eauto.
Qed.
Lemma adding_bind {A B} (p : prog A) (f : A -> prog B) : adding p -> (forall a, adding (f a)) -> adding (pbind p f).
Proof. induction 1; intro Hf; cbn [pbind]; [apply Hf|constructor|constructor|]. constructor; auto. Qed.
Lemma adding_cstr {A} b (f : bytes -> prog A) : (forall s, adding (f s)) -> adding (with_cstr b f).
Proof. intro H. unfold with_cstr. destruct (cstr b); [apply H|constructor]. Qed.
Ltac adding := repeat first
  [ apply adding_bind; [|intros ?] | apply adding_cstr; intros ? | apply ad_ret | apply ad_ub | apply ad_fuel
  | apply ad_sys; [reflexivity|intros ?] | match goal with |- adding (match ?x with _ => _ end) => destruct x end ].
Lemma adding_os_create b m : adding (os_create b m).
Proof. unfold os_create, psys. adding. Qed.
Lemma adding_down k : forall b idx m, adding (mk_down k b idx m).
Proof.
  induction k as [|k IH]; intros b idx m; cbn [mk_down]; [apply ad_ret|]. apply adding_cstr. intro s. destruct (delim s); [|apply ad_ret].
  apply adding_bind; [apply adding_os_create|]. intro r. destruct (r =? -1)%Z; [apply ad_ret|]. destruct (_ || _); [apply ad_ret|apply IH].
Qed.
Lemma adding_up idx : forall b m, adding (mk_up b idx m).
Proof.
  induction idx as [|i idx IH]; intros b m; cbn [mk_up]; [apply ad_ret|]. apply adding_bind; [apply adding_os_create|]. intro c.
  destruct (c =? 0)%Z; [apply IH|apply ad_ret].
Qed.
Lemma adding_mkdir ok s m : adding (mkdir_recurse ok s m).
Proof.
  unfold mkdir_recurse, mkdir_raw. destruct ok; [|apply ad_ret]. apply adding_bind; [apply adding_os_create|]. intro r.
  destruct (_ || _); [apply ad_ret|]. apply adding_bind; [apply adding_down|]. intros [[b1 idx] en]. destruct en; try apply ad_ret.
  destruct (lenN idx <? 62); [apply adding_up|apply ad_ret].
Qed.
Definition writes (ev : event) : bool := match ev with EvRead _ | EvFlBegin | EvFlRead _ => true | _ => false end.
Lemma adding_cb T hal stk ev h : writes ev = false -> adding (cb T hal stk ev h).
Proof.
  destruct ev; intro W; try discriminate W; cbn [cb].
  - apply ad_ret.
  - unfold cb_dr_start. apply adding_bind; [apply adding_mkdir|]. intro r. cbn zeta. adding.
  - unfold cb_entry. cbn zeta. destruct ft; try apply ad_ret.
    + destruct (negb _); [apply ad_ret|]. apply adding_bind; [destruct (entry_path _ _ _); constructor|]. intro b. apply adding_cstr. intro s.
      apply adding_bind; [apply adding_mkdir|]. intro r. apply ad_ret.
    + destruct (stk <? _); [apply ad_ub|]. apply adding_bind; [destruct (entry_path _ _ _); constructor|]. intro b. apply adding_cstr. intro s. unfold psys. adding.
  - unfold cb_file_end, psys. adding.
  - unfold cb_dir_end. adding.
  - unfold cb_sym, psys. adding.
Qed.

(** ** One callback *)

Lemma leading_end os x : (match x with OByte _ => False | _ => True end) -> leading (os ++ [x]) = leading os.
Proof. intro H. induction os as [|a os IH]; cbn; [destruct x; easy|]. destruct a; try reflexivity. now rewrite IH. Qed.
Lemma trace_end um os : forall cs x, (match x with OByte _ => False | _ => True end) ->
  exists l, trace um cs (os ++ [x]) = trace um cs os ++ l /\ (l = [] \/ exists p m, l = [(p, IDir m)] \/ l = [(p, IFile m [])]).
Proof.
  induction os as [|a os IH]; intros cs x H.
  - destruct x as [b|[]| | | | | | |]; cbn [app trace leading]; try (exists []; split; [reflexivity|now left]); eexists; (split; [reflexivity|]); right; eauto.
  - destruct a as [b|ft it nm| | | | | | |]; cbn [app trace]; try exact (IH _ x H).
    destruct ft; cbn [trace]; try exact (IH _ x H).
    + destruct (IH (cs ++ [takeN (it_nlen it) nm]) x H) as (l & E & K). exists l. rewrite E. auto.
    + rewrite leading_end by exact H. destruct (IH cs x H) as (l & E & K). exists l. rewrite E. auto.
Qed.
Lemma fill_end l : forall free x, (x = [] \/ exists p m, x = [(p, IDir m)] \/ x = [(p, IFile m [])]) -> fill free (l ++ x) = fill free l ++ x.
Proof.
  induction l as [|[p [m|m d|y]] l IH]; intros free x H; cbn [app fill].
  - destruct H as [->|(p & m & [-> | ->])]; cbn [fill]; reflexivity.
  - now rewrite IH.
  - now rewrite IH.
  - now rewrite IH.
Qed.
Lemma look_end l x q : (forall p i, x = [(p, i)] -> q <> p) -> (exists p i, x = [(p, i)]) \/ x = [] -> look q (l ++ x) = look q l.
Proof.
  intros H K. induction l as [|[p i] l IH]; cbn [app look].
  - destruct K as [(p & i & ->)| ->]; [|reflexivity]. cbn. rewrite path_eqb_neq; [reflexivity|]. eapply H. reflexivity.
  - destruct (path_eqb q p); auto.
Qed.

Lemma reach_cbs T hal stk : forall evs h o o', reach (cbs T hal stk evs h) o o' -> o' = o \/
  exists e1 ev e2 h1 o1, evs = e1 ++ ev :: e2 /\ exec (cbs T hal stk e1 h) o = Ok (h1, o1) /\ reach (cb T hal stk ev h1) o1 o'.
Proof.
  induction evs as [|ev evs IH]; intros h o o' H; cbn [cbs] in H.
  - inversion H; auto.
  - apply reach_bind in H. destruct H as [H|(h1 & o1 & E & H)].
    + right. exists [], ev, evs, h, o. auto.
    + destruct (IH _ _ _ H) as [->|(e1 & ev1 & e2 & h2 & o2 & -> & E2 & R)].
      * right. exists [], ev, evs, h, o. split; [reflexivity|]. split; [reflexivity|]. eapply reach_exec, E.
      * right. exists (ev :: e1), ev1, e2, h2, o2. split; [reflexivity|]. split; [|exact R]. cbn [cbs]. rewrite exec_bind, E. exact E2.
Qed.
(** A state between two that differ in one entry. *)
Lemma between (a b c : fstree) p : grows a b -> grows b c -> (forall q, q <> p -> c q = a q) ->
  (forall q, b q = a q) \/ (forall q, b q = c q).
Proof.
  intros G1 G2 H.
  assert (K : forall q, q <> p -> b q = a q).
  { intros q Hq. destruct (a q) as [i|] eqn:E; [exact (G1 _ _ E)|]. destruct (b q) as [i|] eqn:E2; [|reflexivity]. pose proof (G2 _ _ E2) as Q. rewrite (H q Hq) in Q. congruence. }
  destruct (a p) as [i|] eqn:E.
  - left. intro q. destruct (path_dec q p) as [->|Hq]; [|auto]. rewrite E. auto.
  - destruct (b p) as [i|] eqn:E2.
    + right. intro q. destruct (path_dec q p) as [->|Hq]; [|rewrite K, H by exact Hq; reflexivity]. rewrite E2. symmetry. auto.
    + left. intro q. destruct (path_dec q p) as [->|Hq]; [|auto]. congruence.
Qed.
Lemma proto_split st d1 d2 r x : proto_run st (EvRead (d1 ++ d2) :: r) = Some x -> proto_run st (EvRead d1 :: EvRead d2 :: r) = Some x.
Proof.
  cbn [proto_run]. destruct st as [|k|]; cbn [proto_step]; try discriminate. rewrite lenN_app.
  destruct (N.leb_spec (lenN d1 + lenN d2) k) as [L|L]; [|discriminate].
  destruct (N.leb_spec (lenN d1) k) as [L1|L1]; [|lia]. cbn [proto_step]. destruct (N.leb_spec (lenN d2) (k - lenN d1)) as [L2|L2]; [|lia].
  now replace (k - lenN d1 - lenN d2) with (k - (lenN d1 + lenN d2)) by lia.
Qed.

Section Killed.
Context (T : bytes) (hal : N -> bool) (stk : N) (priv : bool) (um : N) (t : path).
Hypothesis Hal : forall n, hal n = true.
Hypothesis Stk : PATH_MAX + 4 <= stk.

Lemma run_killed rs cs evs more st h o o' : shows rs (flat (evs ++ more)) -> proto_run Idle (evs ++ more) = Some st ->
  good priv um (lenN T) cs rs -> NoDup (map fst (places um cs rs)) ->
  (forall p, In p (map fst (places um cs rs)) -> o_fs o (t ++ p) = None) -> all_ready T priv um t o cs -> Forall plain cs -> in_dir h (under T cs) ->
  reach (cbs T hal stk evs h) o o' ->
  exists done, begun done (places um cs rs) /\ forall q, o_fs o' q = overlay t (fun r => look r (fill (o_free o) done)) (o_fs o) q.
Proof.
  intros S P G ND Fr Rd Pl D R.
  assert (B : forall e m, flat (e ++ m) = flat (evs ++ more) -> proto_run Idle (e ++ m) = Some st ->
    exists h' o', exec (cbs T hal stk e h) o = Ok (h', o') /\ begun (trace um cs (flat e)) (places um cs rs) /\
      forall q, o_fs o' q = overlay t (fun r => look r (fill (o_free o) (trace um cs (flat e)))) (o_fs o) q).
  { intros e m Fe Pe. rewrite <- Fe in S.
    destruct (run_begun T hal stk priv um t Hal Stk rs _ S cs e m st h o eq_refl Pe G ND Fr Rd Pl D) as (h' & o2 & X & _ & _ & Y & _).
    exists h', o2. split; [exact X|]. split; [|exact Y]. eapply trace_begun; [exact S|apply flat_app]. }
  destruct (reach_cbs _ _ _ _ _ _ _ R) as [->|(e1 & ev & e2 & h1 & o1 & Ee & X1 & R1)].
  { exists []. split; [constructor|]. intro q. symmetry. apply overlay_nil. }
  assert (Ea : evs ++ more = e1 ++ (ev :: e2 ++ more)) by (rewrite Ee, <- app_assoc; reflexivity).
  destruct (B e1 (ev :: e2 ++ more) ltac:(now rewrite Ea) ltac:(now rewrite <- Ea)) as (h1' & o1' & X1' & B1 & Y1).
  rewrite X1 in X1'. injection X1' as <- <-.
  assert (Ea2 : evs ++ more = (e1 ++ [ev]) ++ (e2 ++ more)) by (rewrite Ea, <- app_assoc; reflexivity).
  destruct (B (e1 ++ [ev]) (e2 ++ more) ltac:(now rewrite Ea2) ltac:(now rewrite <- Ea2)) as (h2 & o2 & X2 & B2 & Y2).
  rewrite exec_cbs_app, X1 in X2. cbn [obind cbs] in X2. rewrite exec_bind in X2.
  destruct (exec (cb T hal stk ev h1) o1) as [[h3 o3]| |] eqn:X3; try discriminate X2. cbn [obind exec] in X2. injection X2 as -> ->.
  destruct (writes ev) eqn:W.
  - destruct ev; try discriminate W.
    all: try (rewrite Ea, proto_run_app in P; destruct (proto_run Idle e1) as [[]|]; discriminate P).
    match type of R1 with reach (cb _ _ _ (EvRead ?x) _) _ _ => rename x into dd end.
    cbn [cb] in R1, X3. unfold cb_read in R1. cbn [pbind psys] in R1. inversion R1 as [|? d1 d2 ? ?|? ? ? ? R2]; subst.
    + exists (trace um cs (flat e1)). auto.
    + assert (Ef : flat ((e1 ++ [EvRead d1]) ++ EvRead d2 :: e2 ++ more) = flat ((e1 ++ EvRead (d1 ++ d2) :: e2) ++ more)).
      { rewrite <- !app_assoc. cbn [app]. rewrite !flat_app. f_equal. rewrite !flat_cons. cbn [flat1]. now rewrite map_app, <- app_assoc. }
      destruct (B (e1 ++ [EvRead d1]) (EvRead d2 :: e2 ++ more) Ef) as (h4 & o4 & X4 & B4 & Y4).
      { rewrite Ea, proto_run_app in P. rewrite <- app_assoc, proto_run_app. cbn [app]. destruct (proto_run Idle e1) as [st1|]; [|discriminate P]. now apply proto_split. }
      rewrite exec_cbs_app, X1 in X4. cbn [obind cbs] in X4. rewrite exec_bind in X4. cbn [cb] in X4. unfold cb_read in X4. rewrite exec_sys in X4. cbn [exec obind] in X4.
      injection X4 as _ X4. exists (trace um cs (flat (e1 ++ [EvRead d1]))). split; [exact B4|]. rewrite <- X4 in Y4. exact Y4.
    + inversion R2; subst. exists (trace um cs (flat (e1 ++ [EvRead dd]))). split; [exact B2|].
      unfold cb_read in X3. rewrite exec_sys in X3. cbn [exec] in X3. injection X3 as _ X3. rewrite <- X3 in Y2. exact Y2.
  - destruct (adding_reach _ _ _ R1 (adding_cb T hal stk ev h1 W) _ _ X3) as [G1 G2].
    assert (K : (exists x, flat1 ev = [x] /\ match x with OByte _ => False | _ => True end) \/ exists i d, ev = EvRaw i d).
    { destruct ev; try discriminate W; try (left; eexists; split; [reflexivity|exact I]). right. eauto. }
    destruct K as [(x & Ex & Nx)|(i & d & ->)].
    + rewrite flat_app, flat_cons, Ex in B2, Y2. cbn [flat map concat app] in B2, Y2. change (concat (map flat1 [])) with (@nil obs) in *. cbn [app] in *.
      destruct (trace_end um (flat e1) cs x Nx) as (l & El & Kl). rewrite El in *. rewrite fill_end in Y2 by exact Kl.
      assert (Ky : (exists p i, l = [(p, i)]) \/ l = []) by (destruct Kl as [->|(p & m & [-> | ->])]; eauto).
      assert (Q : exists p, forall q, q <> t ++ p -> o_fs o2 q = o_fs o1 q).
      { destruct Ky as [(p & i & ->)| ->].
        - exists p. intros q Hq. rewrite Y1, Y2. unfold overlay. destruct (strip t q) as [r|] eqn:E; [|reflexivity]. apply strip_spec in E. subst q.
          rewrite look_end; [reflexivity| |eauto]. intros p' i' Q. injection Q as <- <-. intros ->. now apply Hq.
        - exists []. intros q _. rewrite Y1, Y2, app_nil_r. reflexivity. }
      destruct Q as [p Q]. destruct (between _ _ _ _ G1 G2 Q) as [Z|Z].
      * exists (trace um cs (flat e1)). split; [exact B1|]. intro q. now rewrite Z.
      * exists (trace um cs (flat e1) ++ l). split; [exact B2|]. intro q. rewrite Z, Y2, fill_end by exact Kl. reflexivity.
    + cbn [cb] in R1. inversion R1; subst. exists (trace um cs (flat e1)). auto.
Qed.
End Killed.

(** ** The extraction *)
Lemma reach_cbs_app T hal stk a : forall b h o h1 o1 o', exec (cbs T hal stk a h) o = Ok (h1, o1) -> reach (cbs T hal stk b h1) o1 o' ->
  reach (cbs T hal stk (a ++ b) h) o o'.
Proof.
  induction a as [|ev a IH]; intros b h o h1 o1 o' X R; cbn [cbs app] in *.
  - cbn [exec] in X. injection X as -> ->. exact R.
  - rewrite exec_bind in X. destruct (exec (cb T hal stk ev h) o) as [[h2 o2]| |] eqn:E; try discriminate X. cbn [obind] in X.
    eapply reach_then; [exact E|]. eapply IH; eauto.
Qed.
Lemma reach_loop T hal stk z e alloc archive fuel dfuel : forall inp rderr total idx (s : dsess z) h o o',
  reach (extract_loop T hal stk z e alloc archive fuel dfuel inp rderr total idx s h) o o' ->
  exists ops rets s' evs, Forall dop_ok ops /\ prefix (dfed ops) (limited archive total inp) /\
    run_dops e alloc dfuel s ops = Ok (rets, s', evs) /\ reach (cbs T hal stk evs h) o o'.
Proof.
  assert (Stop : forall inp total (s : dsess z) h o o', o' = o -> exists ops rets s' evs, Forall dop_ok ops /\ prefix (dfed ops) (limited archive total inp) /\
    run_dops e alloc dfuel s ops = Ok (rets, s', evs) /\ reach (cbs T hal stk evs h) o o').
  { intros inp total s h o o' ->. exists [], [], s, []. split; [constructor|]. split; [eexists; reflexivity|]. split; [reflexivity|apply rc_here]. }
  induction fuel as [|f IH]; intros inp rderr total idx s h o o' H; cbn [extract_loop] in H.
  { apply Stop. now inversion H. }
  destruct (N.ltb_spec (next_size archive total) 1) as [H1|H1]; [apply Stop; now inversion H|].
  set (n := next_size archive total) in *.
  destruct ((lenN (takeN n inp) <? n) && rderr) eqn:Er; [apply Stop; now inversion H|].
  destruct (decompress e alloc dfuel _ (takeN n inp) s) as [[[r1 s1] ev1]| |] eqn:Ed; cbn [plift pbind] in H;
    [|apply Stop; now inversion H|apply Stop; now inversion H].
  assert (Dk : dop_ok (DFeed (Z.of_N (N.shiftr (N.land (idx + 1) 16) 4)) (takeN n inp))).
  { split; [apply flush_normal|]. rewrite lenN_takeN. pose proof (next_size_le archive total). unfold DEF_CHUNK_SIZE, two32, n in *. lia. }
  pose proof (limited_step hal alloc archive total inp) as Ls. fold n in Ls. cbn zeta in Ls.
  assert (One : reach (cbs T hal stk ev1 h) o o' -> exists ops rets s' evs, Forall dop_ok ops /\ prefix (dfed ops) (limited archive total inp) /\
    run_dops e alloc dfuel s ops = Ok (rets, s', evs) /\ reach (cbs T hal stk evs h) o o').
  { intro R. exists [DFeed (Z.of_N (N.shiftr (N.land (idx + 1) 16) 4)) (takeN n inp)], [r1], s1, ev1.
    split; [constructor; [exact Dk|constructor]|]. split; [rewrite Ls; unfold dfed; cbn [map concat]; rewrite app_nil_r; eexists; reflexivity|].
    split; [cbn [run_dops]; rewrite Ed; cbn [obind]; now rewrite app_nil_r|exact R]. }
  apply reach_bind in H. destruct H as [H|(h1 & o1 & X1 & H)]; [auto|].
  destruct (_ || h_err h1) eqn:Es.
  { apply One. inversion H; subst. eapply reach_exec, X1. }
  apply reach_bind in H. destruct H as [H|([[[ok s2] h2] ds] & o2 & E2 & H)].
  - destruct (IH _ _ _ _ _ _ _ _ H) as (ops & rets & s' & evs & A1 & A2 & A3 & A4).
    assert (Ll : lenN (takeN n inp) = n).
    { apply orb_false_iff in Es. destruct Es as [Es _]. apply N.ltb_ge in Es. rewrite lenN_takeN in *. lia. }
    rewrite Ll in *.
    exists (DFeed (Z.of_N (N.shiftr (N.land (idx + 1) 16) 4)) (takeN n inp) :: ops), (r1 :: rets), s', (ev1 ++ evs).
    split; [constructor; assumption|]. split.
    { rewrite Ls. unfold dfed in *. cbn [map concat]. destruct A2 as [x ->]. exists x. now rewrite app_assoc. }
    split; [cbn [run_dops]; rewrite Ed; cbn [obind]; now rewrite A3|]. eapply reach_cbs_app; eauto.
  - apply reach_exec in E2. inversion H; subst. destruct (IH _ _ _ _ _ _ _ _ E2) as (ops & rets & s' & evs & A1 & A2 & A3 & A4).
    assert (Ll : lenN (takeN n inp) = n).
    { apply orb_false_iff in Es. destruct Es as [Es _]. apply N.ltb_ge in Es. rewrite lenN_takeN in *. lia. }
    rewrite Ll in *.
    exists (DFeed (Z.of_N (N.shiftr (N.land (idx + 1) 16) 4)) (takeN n inp) :: ops), (r1 :: rets), s', (ev1 ++ evs).
    split; [constructor; assumption|]. split.
    { rewrite Ls. unfold dfed in *. cbn [map concat]. destruct A2 as [x ->]. exists x. now rewrite app_assoc. }
    split; [cbn [run_dops]; rewrite Ed; cbn [obind]; now rewrite A3|]. eapply reach_cbs_app; eauto.
Qed.

Lemma reach_extract z (C : zlib_contract z) e alloc hal al stk obuf hjunk pjunk T archive fuel dfuel inp rderr o o' :
  calm z hal al stk obuf hjunk pjunk ->
  reach (extract T hal stk z e alloc archive fuel dfuel al obuf hjunk pjunk inp rderr) o o' ->
  exists s0 ops rets s evs o1, started z s0 /\ Forall dop_ok ops /\ prefix (dfed ops) (limited archive 0 inp) /\
    run_dops e alloc dfuel s0 ops = Ok (rets, s, evs) /\ reach (cbs T hal stk evs HS0) o o1 /\ o_fs o' = o_fs o1.
Proof.
  intros Calm H. unfold extract in H. rewrite !(ca_al _ _ _ _ _ _ _ Calm) in H. cbn [negb orb] in H.
  destruct (calm_started z C alloc hal al stk obuf hjunk pjunk Calm) as (s0 & Ec & St & Sf).
  rewrite (ca_al _ _ _ _ _ _ _ Calm) in Ec. rewrite Ec in H.
  assert (K : exists o1, reach (extract_loop T hal stk z e alloc archive fuel dfuel inp rderr 0 0 s0 HS0) o o1 /\ o_fs o' = o_fs o1).
  { apply reach_bind in H. destruct H as [H|([[[ok s] h] ds] & o1 & El & H)]; [eauto|]. exists o1. split; [eapply reach_exec, El|].
    apply reach_bind in H. unfold close_fp in H. assert (Cl : forall fd oo, o_fs (snd (sys_close fd oo)) = o_fs oo).
    { intros fd oo. unfold sys_close. destruct fd as [n|]; [|reflexivity]. destruct (find_fd n (o_fds oo)); reflexivity. }
    destruct H as [H|([] & o2 & E2 & H)].
    - destruct (h_fp h) as [fd|]; [|now inversion H]. cbn [pbind psys] in H. inversion H as [|? ? ? ? ? Q|? ? ? ? R]; subst; [reflexivity|].
      inversion R; subst. exact (Cl (Some fd) o1).
    - destruct (destroy s); cbn [plift pbind] in H; inversion H; subst; destruct (h_fp h) as [fd|]; cbn [exec] in E2; try (injection E2 as <-; reflexivity);
        rewrite exec_sys in E2; cbn [exec] in E2; injection E2 as <-; exact (Cl (Some fd) o1). }
  destruct K as (o1 & R & Ef). destruct (reach_loop _ _ _ _ _ _ _ _ _ _ _ _ _ _ _ _ _ R) as (ops & rets & s & evs & A1 & A2 & A3 & A4).
  exists s0, ops, rets, s, evs, o1. auto 8.
Qed.

(** C103 *)
Lemma killed z (C : zlib_contract z) es F e alloc hal al stk obuf hjunk pjunk T archive inp rderr t o fuel dfuel o' :
  archives_dir z es F -> cut_input archive F inp ->
  calm z hal al stk obuf hjunk pjunk -> (forall k n, alloc k n = true) ->
  Forall (fun x => quiet (snd x)) es -> NoDup (map fst es) ->
  Forall (fun x => extractable (o_priv o) (o_umask o) (lenN T) (fst x) (snd x)) es ->
  free_spot o T t -> usable_dir (o_priv o) (o_umask o) MODE_BASE_DIR -> (forall r, o_fs o (t ++ r) = None) ->
  reach (extract T hal stk z e alloc archive fuel dfuel al obuf hjunk pjunk inp rderr) o o' ->
  (forall q, o_fs o' q = o_fs o q) \/
  exists done, begun done (layout (o_umask o) [] es) /\
    forall q, o_fs o' q = overlay t (target_with (IDir (dir_perm (o_umask o) MODE_BASE_DIR)) (fill (o_free o) done)) (o_fs o) q.
Proof.
  intros A Ci Ca Ha Q ND X Fs U Fr R. pose proof (dir_archived z C es F A Q) as Da. pose proof (cut_limited _ _ _ Ci) as Li.
  destruct (reach_extract z C e alloc hal al stk obuf hjunk pjunk T archive fuel dfuel inp rderr o o' Ca R)
    as (s0 & ops & rets & s & evs & o1 & St & Ho & Pd & Rn & Rc & Ef). rewrite Ef. clear R Ef o'.
  rewrite Li in Pd. destruct Ci as [Pf _].
  destruct (cut_events z C e alloc Ha F _ _ _ _ _ _ _ Da St Ho (prefix_trans _ _ _ _ Pd Pf) Rn) as [[->|(evs' & more & st & -> & S & P)] _].
  { inversion Rc; subst. left. reflexivity. }
  destruct (begin_dir z hal al stk obuf hjunk pjunk Ca T t o Fs U) as (h1 & X1 & D1 & E1 & P1 & R1 & At1 & Nw).
  set (o2 := with_fs (upd (o_fs o) t (IDir (dir_perm (o_umask o) MODE_BASE_DIR))) o) in *.
  assert (Ne : forall p, In p (map fst (layout (o_umask o) [] es)) -> p <> []).
  { intros p Hp ->. destruct (layout_below _ _ _ _ Hp) as (c & r & _ & E). discriminate. }
  cbn [cbs] in Rc. apply reach_bind in Rc. destruct Rc as [Rc|(h2 & o3 & X2 & Rc)].
  - destruct (adding_reach _ _ _ Rc (adding_cb T hal stk EvDirBegin HS0 eq_refl) _ _ X1) as [G1 G2].
    destruct (between _ _ _ t G1 G2) as [Z|Z]. { intros q Hq. unfold o2. cbn [o_fs with_fs]. now apply upd_other. }
    + left. exact Z.
    + right. exists []. split; [constructor|]. intro q. rewrite Z. unfold o2. cbn [o_fs with_fs fill]. rewrite <- target_overlay by (intros ? []). now rewrite overlay_nil.
  - rewrite X1 in X2. injection X2 as <- <-.
    destruct (run_killed T hal stk (o_priv o) (o_umask o) t (ca_hal _ _ _ _ _ _ _ Ca) (ca_stk _ _ _ _ _ _ _ Ca) _ [] evs' more st h1 o2 o1 S P)
      as (done & B & Y).
    + apply preorder_good, X.
    + rewrite places_preorder. eapply layout_nodup; eauto.
    + rewrite places_preorder. intros p Hp. unfold o2. cbn [o_fs with_fs]. rewrite upd_other; [apply Fr|].
      intro E. rewrite <- (app_nil_r t) in E at 2. apply app_inv_head in E. exact (Ne p Hp E).
    + intros c c' Ec. destruct c; [|discriminate]. rewrite under_nil, app_nil_r. split; [exact At1|]. split; [reflexivity|]. split; [reflexivity|].
      unfold dir_mode, o2. cbn [o_fs with_fs]. rewrite upd_same. apply U.
    + constructor.
    + rewrite under_nil. exact D1.
    + exact Rc.
    + rewrite places_preorder in B. right. exists done. split; [exact B|]. intro q. rewrite Y. apply target_overlay. intros p Hp. apply Ne. rewrite fill_fst in Hp.
      destruct (begun_fst _ _ B) as [c ->]. apply in_app_iff. now left.
Qed.

(** ** Archives of single files *)
Lemma write_part n p m x d fds o : o_fds o = (n, (p, lenN x)) :: fds -> o_fs o p = Some (IFile m x) ->
  let o1 := snd (sys_write (Some n) d o) in
  (forall q, o_fs o1 q = upd (o_fs o) p (IFile m (x ++ takeN (o_free o) d)) q) /\ o_free o1 = o_free o - lenN d /\
  o_fds o1 = (n, (p, lenN (x ++ takeN (o_free o) d))) :: fds.
Proof.
  intros E F. unfold sys_write. rewrite E. cbn [find_fd]. rewrite N.eqb_refl, F.
  replace (lenN x - lenN x) with 0 by lia. rewrite N.add_0_l. set (k := N.min (lenN d) (o_free o)).
  destruct ((k =? 0) && negb (lenN d =? 0)) eqn:Ek.
  - apply andb_true_iff in Ek. destruct Ek as [Ek1 Ek2]. apply N.eqb_eq in Ek1. apply negb_true_iff, N.eqb_neq in Ek2.
    assert (Fz : o_free o = 0) by lia. cbn [snd]. rewrite Fz, takeN_0, app_nil_r. split; [|split; [lia|exact E]].
    intro q. destruct (path_dec q p) as [->|Hn]; [now rewrite upd_same|now rewrite upd_other].
  - assert (Ov : overwrite (lenN x) (takeN k d) x = x ++ takeN k d).
    { unfold overwrite. rewrite takeN_all by lia. rewrite dropN_all by lia. now rewrite app_nil_r. }
    assert (Tk : takeN k d = takeN (o_free o) d).
    { unfold k. destruct (N.le_gt_cases (lenN d) (o_free o)); [rewrite N.min_l by lia; rewrite !takeN_all by lia; reflexivity|now rewrite N.min_r by lia]. }
    cbn zeta. rewrite Ov. cbn [snd o_fs o_free o_fds set_fd]. rewrite N.eqb_refl, <- Tk, lenN_app, lenN_takeN.
    split; [reflexivity|]. split; [lia|]. do 3 f_equal. lia.
Qed.
Lemma fl_reach T hal stk ds : forall h o o' n p x m fds, h_fp h = Some n -> o_fds o = (n, (p, lenN x)) :: fds -> o_fs o p = Some (IFile m x) ->
  reach (cbs T hal stk (map EvFlRead ds) h) o o' ->
  exists w, prefix w (concat ds) /\ forall q, o_fs o' q = upd (o_fs o) p (IFile m (x ++ takeN (o_free o) w)) q.
Proof.
  assert (Same : forall (o : os) p m x, o_fs o p = Some (IFile m x) -> forall q, o_fs o q = upd (o_fs o) p (IFile m (x ++ [])) q).
  { intros o p m x F q. rewrite app_nil_r. destruct (path_dec q p) as [->|Hn]; [now rewrite upd_same|now rewrite upd_other]. }
  induction ds as [|d ds IH]; intros h o o' n p x m fds Hf E F R; cbn [map cbs] in R.
  - inversion R; subst. exists []. split; [apply prefix_nil|]. rewrite takeN_nil. now apply Same.
  - cbn [cb] in R. unfold cb_fl_read in R. rewrite Hf in R. cbn [pbind psys] in R. cbn [concat]. inversion R as [|? d1 d2 ? ?|? ? ? ? R2]; subst.
    + exists []. split; [apply prefix_nil|]. rewrite takeN_nil. now apply Same.
    + exists d1. split; [exists (d2 ++ concat ds); now rewrite <- app_assoc|]. apply (write_part n p m x d1 fds o E F).
    + destruct (write_part n p m x d fds o E F) as (W1 & W2 & W3). cbn [sys] in R2.
      destruct (IH _ _ _ n p (x ++ takeN (o_free o) d) m fds Hf W3 ltac:(rewrite W1; apply upd_same) R2) as (w & [v Ev] & Y).
      exists (d ++ w). split; [exists v; now rewrite Ev, <- app_assoc|]. intro q. rewrite Y, W2.
      replace ((x ++ takeN (o_free o) d) ++ takeN (o_free o - lenN d) w) with (x ++ takeN (o_free o) (d ++ w)) by (rewrite takeN_app, <- app_assoc; reflexivity).
      destruct (path_dec q p) as [->|Hn]; [now rewrite !upd_same|]. now rewrite !upd_other, W1, upd_other.
Qed.

(** C103 *)
Lemma killed_file z (C : zlib_contract z) data F e alloc hal al stk obuf hjunk pjunk T archive inp rderr t m o fuel dfuel o' :
  archives_file z data F -> cut_input archive F inp -> calm z hal al stk obuf hjunk pjunk -> writable_spot o T t m ->
  reach (extract T hal stk z e alloc archive fuel dfuel al obuf hjunk pjunk inp rderr) o o' ->
  (forall q, o_fs o' q = o_fs o q) \/ exists x, prefix x data /\ forall q, o_fs o' q = upd (o_fs o) t (IFile m x) q.
Proof.
  intros A Ci Ca Sp R. destruct (file_archived z C data F A) as (B & Fi & Ar & D). pose proof (cut_limited _ _ _ Ci) as Li.
  destruct (reach_extract z C e alloc hal al stk obuf hjunk pjunk T archive fuel dfuel inp rderr o o' Ca R)
    as (s0 & ops & rets & s & evs & o1 & St & Ho & Pd & Rn & Rc & Ef). rewrite Ef. clear R Ef o'. rewrite Li in Pd. destruct Ci as [Pf _].
  destruct (prefix_trans _ _ _ _ Pd Pf) as [y Ey]. pose proof (zc_dec_mono _ C (dfed ops) y) as Pm. rewrite <- Ey in Pm.
  assert (K : evs = [] \/ exists ds, evs = reads ds /\ prefix (concat ds) data).
  { destruct (N.lt_ge_cases (lenN (zc_dec C (dfed ops))) 128) as [Ls|Ls]; [left; eapply before_header; eauto|].
    destruct (file_session z C e alloc _ _ _ _ _ _ _ St Ho (archive_of_prefix _ _ _ Pm Ls Ar) (or_introl eq_refl) Rn) as [[->|(ds & -> & P)] _]; [left; reflexivity|right].
    exists ds. split; [reflexivity|]. rewrite <- D. eapply prefix_trans; [exact P|]. now apply prefix_dropN. }
  destruct K as [->|(ds & -> & P)]; [left; inversion Rc; reflexivity|].
  destruct (open_spot _ _ _ _ Sp) as (free & Hfree & Op). unfold reads in Rc. cbn [cbs] in Rc. apply reach_bind in Rc.
  assert (X1 : exists h1, h_fp h1 = Some (o_next o) /\ exec (cb T hal stk EvFlBegin HS0) o = Ok (h1, snd (sys_open true T MODE_FOPEN o))).
  { eexists. cbn [cb]. unfold cb_fl_start. rewrite exec_sys. cbn [sys]. rewrite Op. split; [|reflexivity]. reflexivity. }
  destruct X1 as (h1 & Hp & X1). destruct Rc as [Rc|(h2 & o2 & X2 & Rc)].
  - cbn [cb] in Rc. unfold cb_fl_start in Rc. cbn [pbind psys] in Rc. inversion Rc as [| |? ? ? ? R2]; subst; [left; reflexivity|]. right. exists [].
    split; [apply prefix_nil|]. cbn [sys] in R2. rewrite Op in R2. cbn [fst snd] in R2. inversion R2; subst. reflexivity.
  - rewrite X1 in X2. injection X2 as <- <-. right.
    destruct (fl_reach T hal stk ds h1 (snd (sys_open true T MODE_FOPEN o)) o1 (o_next o) t [] m (o_fds o) Hp ltac:(now rewrite Op) ltac:(rewrite Op; cbn [snd o_fs]; apply upd_same) Rc) as (w & Pw & Y).
    exists (takeN free w). split.
    + eapply prefix_trans; [|exact P]. eapply prefix_trans; [|exact Pw]. exists (dropN free w). symmetry. apply takeN_dropN.
    + intro q. rewrite Y, Op. cbn [snd o_fs o_free app]. destruct (path_dec q t) as [->|Hn]; [now rewrite !upd_same|now rewrite !upd_other].
Qed.
