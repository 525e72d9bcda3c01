(** HLSafe.v: extractions of arbitrary archives. *)
From Coq Require Import Lia.
From Verif Require Import Base Format Zlib Parser ParserProofs ParserFacts Decompress DecompressProofs MidProofs MidFacts
  FS FSFacts HL HLSpec HLFacts HLDrive HLProps.

(** ** The loop *)
Section Loop.
Context (target : bytes) (hal : N -> bool) (stk : N).
Context (z : zlib) (e : endian) (alloc : N -> N -> bool) (archive : N).
Notation cbs := (cbs target hal stk).
Notation extract_loop := (extract_loop target hal stk z e alloc archive).
Notation limited := (limited archive).

Lemma limited_step total inp : let n := next_size archive total in
  limited total inp = takeN n inp ++ limited (total + n) (dropN n inp).
Proof.
  intro n. unfold HLDrive.limited, n, next_size. destruct (0 <? archive); [|now rewrite takeN_dropN].
  destruct (N.ltb_spec total archive).
  - set (k := N.min (archive - total) DEF_CHUNK_SIZE).
    replace (archive - total) with (k + (archive - (total + k))) by lia. apply takeN_plus.
  - rewrite N.add_0_r. replace (archive - total) with 0 by lia. now rewrite !takeN_0.
Qed.
Lemma limited_nil total : limited total [] = [].
Proof. unfold HLDrive.limited. destruct (0 <? archive); [apply takeN_nil|reflexivity]. Qed.
Lemma limited_stop total inp : next_size archive total < 1 -> limited total inp = [].
Proof.
  unfold next_size, HLDrive.limited. destruct (0 <? archive); [|unfold DEF_CHUNK_SIZE; lia].
  destruct (N.ltb_spec total archive); [unfold DEF_CHUNK_SIZE; lia|]. intros _. replace (archive - total) with 0 by lia. apply takeN_0.
Qed.

(** What a loop that returned did. *)
Definition loop_did (dfuel : nat) (inp : bytes) (rderr : bool) (total : N) (s : dsess z) (h : hst) (o : os)
    (ok : bool) (s' : dsess z) (h' : hst) (ds : bytes) (o' : os) : Prop :=
  exists ops rets evs, Forall dop_ok ops /\ (forall b n, ~ In (DSetBuffer b n) ops) /\ dfed ops = ds /\
    run_dops e alloc dfuel s ops = Ok (rets, s', evs) /\ exec (cbs evs h) o = Ok (h', o') /\ prefix ds (limited total inp) /\
    (ok = true -> h_err h' = false -> ds = limited total inp) /\ (rderr = false -> ok = true).

Lemma loop_inv fuel dfuel : forall inp rderr total idx s h o ok s' h' ds o',
  exec (extract_loop fuel dfuel inp rderr total idx s h) o = Ok ((ok, s', h', ds), o') ->
  loop_did dfuel inp rderr total s h o ok s' h' ds o'.
Proof.
  induction fuel as [|f IH]; intros inp rderr total idx s h o ok s' h' ds o' H; [discriminate|]. cbn [HL.extract_loop] in H.
  destruct (N.ltb_spec (next_size archive total) 1) as [H1|H1].
  { cbn [exec] in H. injection H as <- <- <- <- <-. exists [], [], []. repeat split; auto using Forall_nil.
    - eexists. reflexivity.
    - intros _ _. symmetry. now apply limited_stop. }
  set (n := next_size archive total) in *.
  destruct ((lenN (takeN n inp) <? n) && rderr) eqn:Er.
  { cbn [exec] in H. injection H as <- <- <- <- <-. exists [], [], []. repeat split; auto using Forall_nil.
    - eexists. reflexivity.
    - discriminate.
    - intros ->. rewrite andb_false_r in Er. discriminate. }
  rewrite exec_bind in H. destruct (decompress e alloc dfuel _ (takeN n inp) s) as [[[r1 s1] ev1]| |] eqn:Ed; try discriminate H.
  cbn [plift exec obind] in H. rewrite exec_bind in H.
  destruct (exec (cbs ev1 h) o) as [[h1 o1]| |] eqn:X1; try discriminate H. cbn [obind] in H.
  assert (Dk : dop_ok (DFeed (Z.of_N (N.shiftr (N.land (idx + 1) 16) 4)) (takeN n inp))).
  { split; [apply flush_normal|]. rewrite lenN_takeN. pose proof (next_size_le archive total). unfold DEF_CHUNK_SIZE, two32, n in *. lia. }
  pose proof (limited_step total inp) as Ls. fold n in Ls. cbn zeta in Ls.
  destruct (_ || h_err h1) eqn:Es.
  - cbn [exec] in H. injection H as <- <- <- <- <-.
    exists [DFeed (Z.of_N (N.shiftr (N.land (idx + 1) 16) 4)) (takeN n inp)], [r1], ev1.
    split; [constructor; [exact Dk|constructor]|]. split; [intros b k [Q|[]]; discriminate|].
    split; [unfold dfed; cbn [map concat]; apply app_nil_r|].
    split; [cbn [run_dops]; rewrite Ed; cbn [obind]; now rewrite app_nil_r|]. split; [exact X1|].
    split; [rewrite Ls; eexists; reflexivity|]. split; [|reflexivity].
    intros _ He. rewrite He, orb_false_r in Es. apply N.ltb_lt in Es. rewrite lenN_takeN in Es.
    rewrite Ls, (dropN_all _ n inp), limited_nil, app_nil_r by lia. reflexivity.
  - rewrite exec_bind in H. destruct (exec (extract_loop _ _ _ _ _ _ _ _) o1) as [[[[[ok2 s2] h2] ds2] o2]| |] eqn:E2; try discriminate H.
    cbn [obind exec] in H. injection H as <- <- <- <- <-.
    destruct (IH _ _ _ _ _ _ _ _ _ _ _ _ E2) as (ops & rets & evs & A1 & A2 & A3 & A4 & A5 & A6 & A7 & A8).
    exists (DFeed (Z.of_N (N.shiftr (N.land (idx + 1) 16) 4)) (takeN n inp) :: ops), (r1 :: rets), (ev1 ++ evs).
    assert (Ll : lenN (takeN n inp) = n).
    { apply orb_false_iff in Es. destruct Es as [Es _]. apply N.ltb_ge in Es. rewrite lenN_takeN in *. lia. }
    rewrite Ll in *.
    split; [constructor; assumption|]. split; [intros b k [Q|Q]; [discriminate|exact (A2 _ _ Q)]|].
    split; [unfold dfed in *; cbn [map concat]; now rewrite A3|].
    split; [cbn [run_dops]; rewrite Ed; cbn [obind]; now rewrite A4|].
    split; [rewrite exec_cbs_app, X1; exact A5|].
    split; [rewrite Ls; destruct A6 as [y ->]; exists y; now rewrite app_assoc|]. split; [|exact A8].
    intros Ok1 He. rewrite Ls. now rewrite (A7 Ok1 He).
Qed.

(** The loop returns if the decoder does and no callback has undefined behaviour. *)
Lemma loop_runs fuel dfuel : forall inp total idx s h o rets s' evs h' o', (length inp < fuel)%nat ->
  run_dops e alloc dfuel s (chunk_ops archive fuel inp total idx) = Ok (rets, s', evs) ->
  exec (cbs evs h) o = Ok (h', o') ->
  exists s1 h1 ds o1, exec (extract_loop fuel dfuel inp false total idx s h) o = Ok ((true, s1, h1, ds), o1).
Proof.
  induction fuel as [|f IH]; intros inp total idx s h o rets s' evs h' o' Hf R X; [lia|].
  cbn [chunk_ops] in R. cbn [HL.extract_loop].
  destruct (N.ltb_spec (next_size archive total) 1) as [H1|H1]; [eexists _, _, _, _; reflexivity|].
  set (n := next_size archive total) in *. rewrite andb_false_r. cbn [run_dops] in R.
  destruct (decompress e alloc dfuel _ (takeN n inp) s) as [[[r1 s1] ev1]| |] eqn:Ed; try discriminate R. cbn [obind] in R.
  cbn [plift pbind]. rewrite exec_bind.
  match type of R with obind ?x _ = _ => destruct x as [[[rs s2] ev2]| |] eqn:E2; try discriminate R end. cbn [obind] in R.
  injection R as <- <- <-. rewrite exec_cbs_app in X.
  destruct (exec (cbs ev1 h) o) as [[h1 o1]| |] eqn:X1; try discriminate X. cbn [obind] in X |- *.
  destruct (_ || h_err h1) eqn:Es; [eexists _, _, _, _; reflexivity|].
  apply orb_false_iff in Es. destruct Es as [Es _]. rewrite Es in E2. rewrite exec_bind.
  assert (Hl : (length (dropN n inp) < f)%nat).
  { rewrite dropN_skipn, skipn_length. apply N.ltb_ge in Es. rewrite lenN_takeN in Es. unfold lenN in Es. lia. }
  destruct (IH _ _ _ _ _ _ _ _ _ _ _ Hl E2 X) as (s3 & h3 & ds3 & o3 & E3). rewrite E3. cbn [obind exec].
  eexists _, _, _, _. reflexivity.
Qed.
End Loop.

(** ** What system calls leave alone *)

Lemma walk_at fs priv follow d' c' i : forall links d cs, walk_path fs priv follow links d cs = WAt d' c' i -> i = fs (d' ++ [c']).
Proof.
  induction links as [links IHl] using (well_founded_induction lt_wf).
  intros d cs. revert d. induction cs as [|c1 r IH]; intros d Hw; rewrite walk_eq in Hw; [discriminate|].
  destruct (fs d) as [[m1|m1 x|x]|] eqn:Ed; try discriminate. destruct (negb _) eqn:Ex; [discriminate|].
  destruct (bytes_eqb c1 _); [eauto|]. destruct (bytes_eqb c1 _); [eauto|]. destruct (_ <? _); [discriminate|].
  destruct (fs (d ++ [c1])) as [[m2|m2 x|x]|] eqn:Ec.
  - destruct r; [injection Hw as <- <- <-; auto|eauto].
  - destruct r; [injection Hw as <- <- <-; auto|discriminate].
  - assert (Q : match links with O => WErr ELOOP | S l => if nonempty x then walk_path fs priv follow l (start x d) (comps x ++ r) else WErr ENOENT end = WAt d' c' i ->
       i = fs (d' ++ [c'])).
    { destruct links as [|l]; [discriminate|]. destruct (nonempty x); [|discriminate]. apply IHl. lia. }
    destruct r, follow; auto. injection Hw as <- <- <-; auto.
  - destruct r; [injection Hw as <- <- <-; auto|discriminate].
Qed.
Lemma namei_at follow o s d c i : namei follow o s = WAt d c i -> i = o_fs o (d ++ [c]).
Proof. unfold namei. destruct (negb _); [discriminate|]. destruct (_ <=? _); [discriminate|]. apply walk_at. Qed.

Lemma sys_keeps c o : keeps (o_fs o) (o_fs (snd (sys c o))) /\ o_umask (snd (sys c o)) = o_umask o /\ o_priv (snd (sys c o)) = o_priv o.
Proof.
  destruct c as [s m|s|tr s m|fd d|fd|n|s|x s]; cbn [sys].
  - unfold sys_mkdir. destruct (namei false o s) as [er|d|d c [i|]] eqn:E; try (repeat split; apply keeps_refl).
    destruct (can_w _ _); [|repeat split; apply keeps_refl]. split; [|split; reflexivity].
    cbn [snd with_fs o_fs]. apply keeps_upd_new. symmetry. eapply namei_at; eauto.
  - unfold sys_stat_dir. destruct (namei true o s) as [er|d|d c [[]|]]; repeat split; apply keeps_refl.
  - unfold sys_open. destruct (namei true o s) as [er|d|d c [[m'|m' x|x]|]] eqn:E; try (repeat split; apply keeps_refl).
    + destruct (slash_end s); [repeat split; apply keeps_refl|]. destruct (negb _); [repeat split; apply keeps_refl|].
      destruct tr; [|repeat split; apply keeps_refl]. split; [|split; reflexivity].
      cbn [snd open_at o_fs]. eapply keeps_upd_file. symmetry. eapply namei_at; eauto.
    + destruct (slash_end s); [repeat split; apply keeps_refl|]. destruct (can_w _ _); [|repeat split; apply keeps_refl].
      split; [|split; reflexivity]. cbn [snd open_at o_fs with_fs]. apply keeps_upd_new. symmetry. eapply namei_at; eauto.
  - unfold sys_write. destruct fd as [n|]; [|repeat split; apply keeps_refl].
    destruct (find_fd n (o_fds o)) as [[p off]|]; [|repeat split; apply keeps_refl].
    destruct (o_fs o p) as [[m|m x|x]|] eqn:E; try (repeat split; apply keeps_refl).
    destruct (_ && _); [repeat split; apply keeps_refl|]. split; [|split; reflexivity].
    cbn [snd o_fs]. eapply keeps_upd_file. exact E.
  - unfold sys_close. destruct fd as [n|]; [|repeat split; apply keeps_refl].
    destruct (find_fd n (o_fds o)); repeat split; apply keeps_refl.
  - unfold sys_getcwd. destruct (o_fs o (o_cwd o)) as [[]|]; try (repeat split; apply keeps_refl).
    destruct (_ <=? _); repeat split; apply keeps_refl.
  - assert (En : forall d, keeps (o_fs o) (o_fs (snd (enter d o))) /\ o_umask (snd (enter d o)) = o_umask o /\ o_priv (snd (enter d o)) = o_priv o).
    { intro d. unfold enter. destruct (o_fs o d) as [[]|]; try (repeat split; apply keeps_refl).
      destruct (can_x _ _); repeat split; apply keeps_refl. }
    unfold sys_chdir. destruct (namei true o s) as [er|d|d c i]; auto. repeat split; apply keeps_refl.
  - unfold sys_symlink. destruct (negb _); [repeat split; apply keeps_refl|]. destruct (_ <=? _); [repeat split; apply keeps_refl|].
    destruct (namei false o s) as [er|d|d c [i|]] eqn:E; try (repeat split; apply keeps_refl).
    destruct (slash_end s); [repeat split; apply keeps_refl|]. destruct (can_w _ _); [|repeat split; apply keeps_refl].
    split; [|split; reflexivity]. cbn [snd o_fs with_fs]. apply keeps_upd_new. symmetry. eapply namei_at; eauto.
Qed.

Definition chdirs (c : sysc) : bool := match c with ScChdir _ => true | _ => false end.
Lemma sys_cwd c o : chdirs c = false -> o_cwd (snd (sys c o)) = o_cwd o.
Proof.
  destruct c as [s m|s|tr s m|fd d|fd|n|s|x s]; intro H; try discriminate; cbn [sys].
  - unfold sys_mkdir. destruct (namei false o s) as [er|d|d c [i|]]; try reflexivity. destruct (can_w _ _); reflexivity.
  - unfold sys_stat_dir. destruct (namei true o s) as [er|d|d c [[]|]]; reflexivity.
  - unfold sys_open. destruct (namei true o s) as [er|d|d c [[m'|m' x|x]|]]; try reflexivity.
    + destruct (slash_end s); [reflexivity|]. destruct (negb _); [reflexivity|]. destruct tr; reflexivity.
    + destruct (slash_end s); [reflexivity|]. destruct (can_w _ _); reflexivity.
  - unfold sys_write. destruct fd as [n|]; [|reflexivity]. destruct (find_fd n (o_fds o)) as [[p off]|]; [|reflexivity].
    destruct (o_fs o p) as [[m|m x|x]|]; try reflexivity. destruct (_ && _); reflexivity.
  - unfold sys_close. destruct fd as [n|]; [|reflexivity]. destruct (find_fd n (o_fds o)); reflexivity.
  - unfold sys_getcwd. destruct (o_fs o (o_cwd o)) as [[]|]; try reflexivity. destruct (_ <=? _); reflexivity.
  - unfold sys_symlink. destruct (negb _); [reflexivity|]. destruct (_ <=? _); [reflexivity|].
    destruct (namei false o s) as [er|d|d c [i|]]; try reflexivity. destruct (slash_end s); [reflexivity|]. destruct (can_w _ _); reflexivity.
Qed.

(** Programs that do not change the working directory. *)
Fixpoint stays {A} (p : prog A) : Prop :=
  match p with PSys c k => chdirs c = false /\ forall r, stays (k r) | _ => True end.
Lemma stays_bind {A B} (p : prog A) (f : A -> prog B) : stays p -> (forall a, stays (f a)) -> stays (pbind p f).
Proof. induction p as [a| | |c k IH]; cbn; auto. intros [H1 H2] Hf. split; [exact H1|]. intro r. auto. Qed.
Lemma stays_lift {A} (x : outcome A) : stays (plift x). Proof. destruct x; exact I. Qed.
Lemma stays_cstr {A} b (f : bytes -> prog A) : (forall s, stays (f s)) -> stays (with_cstr b f).
Proof. unfold with_cstr. destruct (cstr b); [auto|exact (fun _ => I)]. Qed.
Lemma stays_sys c : chdirs c = false -> stays (psys c). Proof. cbn. auto. Qed.

Lemma exec_keeps {A} (p : prog A) : forall o a o', exec p o = Ok (a, o') ->
  keeps (o_fs o) (o_fs o') /\ o_umask o' = o_umask o /\ o_priv o' = o_priv o.
Proof.
  induction p as [a| | |c k IH]; intros o a' o' H; cbn in H; try discriminate.
  - injection H as <- <-. repeat split; apply keeps_refl.
  - destruct (sys c o) as [r o1] eqn:E. destruct (IH _ _ _ _ H) as (K & U & P). destruct (sys_keeps c o) as (K1 & U1 & P1).
    rewrite E in K1, U1, P1. cbn [snd] in *. split; [eapply keeps_trans; eauto|]. split; congruence.
Qed.
Lemma exec_stays {A} (p : prog A) : stays p -> forall o a o', exec p o = Ok (a, o') -> o_cwd o' = o_cwd o.
Proof.
  induction p as [a| | |c k IH]; intros S o a' o' H; cbn in H; try discriminate.
  - congruence.
  - destruct S as [S1 S2]. destruct (sys c o) as [r o1] eqn:E. rewrite (IH _ (S2 r) _ _ _ H).
    pose proof (sys_cwd c o S1) as Q. now rewrite E in Q.
Qed.

Lemma os_create_stays b mode : stays (os_create b mode).
Proof.
  unfold os_create. apply stays_cstr. intro s. apply stays_bind; [now apply stays_sys|]. intros r. destruct r as [er| | | |]; try exact I.
  destruct er; try exact I. apply stays_bind; [now apply stays_sys|]. intro r. exact I.
Qed.
Lemma mkdir_stays ok s mode : stays (mkdir_recurse ok s mode).
Proof.
  unfold mkdir_recurse. destruct ok; [|exact I]. unfold mkdir_raw. apply stays_bind; [apply os_create_stays|].
  intro r. destruct (_ || _); [exact I|]. apply stays_bind.
  - generalize (@nil N). generalize (s ++ [x00]). generalize 62%nat. clear. induction n as [|k IH]; intros b idx; [exact I|].
    cbn [mk_down]. apply stays_cstr. intro s. destruct (delim s) as [i|]; [|exact I].
    apply stays_bind; [apply os_create_stays|]. intro r. destruct (_ =? -1)%Z; [exact I|]. destruct (_ || _); [exact I|]. apply IH.
  - intros [[b1 idx] en]. destruct en; try exact I. destruct (_ <? _); [|exact I]. clear. revert b1.
    induction idx as [|i idx IH]; intro b; [exact I|]. cbn [mk_up]. apply stays_bind; [apply os_create_stays|].
    intro c. destruct (_ =? 0)%Z; [apply IH|exact I].
Qed.

(** ** C48: the working directory *)

(** The working directory can be reached by its absolute path. *)
Definition reachable (o : os) : Prop :=
  Forall plain (o_cwd o) /\ forall p q, o_cwd o = p ++ q -> exists m, o_fs o p = Some (IDir m) /\ can_x (o_priv o) m = true.

Definition slashes (p : path) : bytes := concat (map (fun c => x2f :: c) p).
Lemma comps_slashes p : Forall plain p -> comps (slashes p) = p.
Proof.
  induction p as [|c p IH] using rev_ind; intro H; [reflexivity|]. apply Forall_app in H. destruct H as [H1 H2].
  unfold slashes in *. rewrite map_app, concat_app. cbn [map concat]. rewrite app_nil_r.
  rewrite comps_app, IH by assumption. rewrite comps_plain; [reflexivity|]. now inversion H2.
Qed.
Lemma walk_dirs fs priv links : forall cs d, Forall plain cs ->
  (forall p q, cs = p ++ q -> exists m, fs (d ++ p) = Some (IDir m) /\ can_x priv m = true) -> leads fs priv links d cs (d ++ cs).
Proof.
  intros cs d Hp Hd. split. { apply (Hd cs []). now rewrite app_nil_r. }
  revert d Hd. induction cs as [|c r IH]; intros d Hd; rewrite walk_eq; [left; now rewrite app_nil_r|].
  destruct (Hd [] (c :: r) eq_refl) as (m & E & X). rewrite app_nil_r in E. rewrite E, X. cbn [negb].
  inversion Hp as [|? ? (P1 & P2 & P3 & P4 & P5 & P6) Hp']; subst. rewrite (bytes_eqb_neq _ _ P4), (bytes_eqb_neq _ _ P5).
  replace (NAME_MAX <? lenN c) with false by (symmetry; apply N.ltb_ge; exact P6).
  destruct (Hd [c] r eq_refl) as (m1 & E1 & _). rewrite E1. destruct r as [|c2 r].
  - right. exists d, c, m1. auto.
  - replace (d ++ c :: c2 :: r) with ((d ++ [c]) ++ c2 :: r) by (now rewrite <- app_assoc). apply IH; [exact Hp'|].
    intros p q Q. destruct (Hd (c :: p) q) as (m2 & E2 & X2). { cbn. now rewrite Q. } exists m2. now rewrite <- app_assoc.
Qed.
Lemma reachable_dir o : reachable o -> dir_at o (path_string (o_cwd o)) (o_cwd o).
Proof.
  intros [Hp Hd]. pose proof (walk_dirs (o_fs o) (o_priv o) MAX_LINKS (o_cwd o) [] Hp Hd) as L. cbn [app] in L.
  split; [destruct (o_cwd o) as [|c p]; [discriminate|]; cbn; discriminate|].
  destruct (o_cwd o) as [|c p] eqn:E; [exact L|]. cbn [path_string].
  replace (comps _) with (c :: p) by (symmetry; exact (comps_slashes _ Hp)). exact L.
Qed.

Lemma chdir_dir o s t : dir_at o s t -> lenN s < PATH_MAX -> sys_chdir s o = (ROk, with_cwd t o).
Proof.
  intros [Ne ((m & E & X) & Hw)] L. unfold sys_chdir, namei.
  destruct s as [|b s]; [contradiction|]. cbn [nonempty negb]. replace (PATH_MAX <=? lenN (b :: s)) with false by (symmetry; apply N.leb_gt; exact L).
  destruct Hw as [->|(d & c & m' & -> & <-)]; unfold enter; now rewrite E, X.
Qed.

Section Cwd.
Context (target : bytes) (hal : N -> bool) (stk : N).
Notation cb := (cb target hal stk).
Notation cbs := (cbs target hal stk).

Definition home (c : path) (o : os) : Prop := o_cwd o = c /\ dir_at o (path_string c) c.

Lemma cb_stays ev h : (forall d t, ev <> EvSym d t) -> stays (cb ev h).
Proof.
  intro H. destruct ev as [id d| | |d|ft it name|d| | |d t]; cbn [HL.cb].
  - exact I.
  - unfold cb_dr_start. apply stays_bind; [apply mkdir_stays|]. intro r. destruct (negb _); [exact I|]. destruct (negb _); exact I.
  - unfold cb_fl_start. apply stays_bind; [now apply stays_sys|]. intros []; exact I.
  - unfold cb_fl_read. destruct (h_fp h); [|exact I]. apply stays_bind; [now apply stays_sys|]. intro; exact I.
  - unfold cb_entry. destruct ft; try exact I.
    + destruct (negb _); [exact I|]. apply stays_bind; [apply stays_lift|]. intro b. apply stays_cstr. intro s.
      apply stays_bind; [apply mkdir_stays|]. intro; exact I.
    + destruct (_ <? _); [exact I|]. apply stays_bind; [apply stays_lift|]. intro b. apply stays_cstr. intro s.
      apply stays_bind; [now apply stays_sys|]. intros []; exact I.
  - unfold cb_read. apply stays_bind; [now apply stays_sys|]. intro; exact I.
  - unfold cb_file_end. apply stays_bind; [now apply stays_sys|]. intro; exact I.
  - unfold cb_dir_end. destruct (h_dp h); [|exact I]. apply stays_cstr. intro s. destruct (rindex _ _); exact I.
  - destruct (H d t). reflexivity.
Qed.

Lemma abs_start s d d' : absolute s = true -> start s d = start s d'.
Proof. unfold start. now intros ->. Qed.
Lemma path_string_abs p : absolute (path_string p) = true.
Proof. destruct p; reflexivity. Qed.
Lemma home_keeps c o o' : home c o -> keeps (o_fs o) (o_fs o') -> o_priv o' = o_priv o -> dir_at o' (path_string c) c.
Proof.
  intros [E [N L]] K P. split; [exact N|]. rewrite P, (abs_start _ (o_cwd o') (o_cwd o) (path_string_abs c)). eapply leads_keeps; eauto.
Qed.

Lemma cb_home ev h o h' o' c : home c o -> exec (cb ev h) o = Ok (h', o') -> home c o'.
Proof.
  intros Hm H. destruct (exec_keeps _ _ _ _ H) as (K & _ & P). split; [|eapply home_keeps; eauto].
  assert (Q : (exists d t, ev = EvSym d t) \/ forall d t, ev <> EvSym d t) by (destruct ev; eauto; right; discriminate).
  destruct Q as [(d & t & ->)|Q]; [|rewrite (exec_stays _ (cb_stays _ _ Q) _ _ _ H); apply Hm].
  clear K P. cbn [HL.cb] in H. unfold cb_sym in H. apply exec_psys in H. destruct H as (r & o1 & E & H). cbn [sys] in E.
  assert (E1 : o1 = o /\ (forall w, r = RStr w -> w = path_string (o_cwd o) /\ lenN w < 1023)).
  { unfold sys_getcwd in E. destruct (o_fs o (o_cwd o)) as [[]|]; try (injection E as <- <-; split; [reflexivity|discriminate]).
    destruct (N.leb_spec 1023 (lenN (path_string (o_cwd o)))); injection E as <- <-; (split; [reflexivity|]); [discriminate|].
    intros w Q. injection Q as <-. auto. }
  destruct E1 as [-> E1]. clear E.
  assert (Done : forall x, exec (PRet x) o = Ok (h', o') -> o_cwd o' = c) by (intros x Q; cbn in Q; injection Q as <- <-; apply Hm).
  destruct r as [| | |w|]; try (exact (Done _ H)). destruct (E1 w eq_refl) as [-> L].
  destruct (h_dp h) as [dp|]; [|exact (Done _ H)]. apply with_cstr_ok in H. destruct H as (s1 & _ & H).
  apply exec_psys in H. destruct H as (r & o2 & E2 & H).
  pose proof (sys_keeps (ScChdir s1) o) as (K2 & _ & P2). rewrite E2 in K2, P2. cbn [snd] in K2, P2. cbn [sys] in E2.
  assert (Nk : r <> ROk -> o2 = o).
  { unfold sys_chdir in E2. intro Q. destruct (namei true o s1) as [er|x|x y i]; [congruence| |];
      unfold enter in E2; destruct (o_fs o _) as [[]|]; try congruence; destruct (can_x _ _); congruence. }
  destruct r; try (rewrite Nk in H by discriminate; exact (Done _ H)).
  apply with_cstr_ok in H. destruct H as (s2 & _ & H). apply with_cstr_ok in H. destruct H as (s3 & _ & H).
  apply exec_psys in H. destruct H as (r & o3 & E3 & H).
  pose proof (sys_keeps (ScSymlink s2 s3) o2) as (K3 & _ & P3). rewrite E3 in K3, P3. cbn [snd] in K3, P3.
  apply exec_psys in H. destruct H as (r' & o4 & E4 & H). cbn in H. injection H as <- <-. cbn [sys] in E4.
  destruct Hm as [Ec Hd]. rewrite Ec in *.
  assert (D3 : dir_at o3 (path_string c) c).
  { apply (home_keeps c o o3); [split; assumption|eapply keeps_trans; eauto|congruence]. }
  rewrite (chdir_dir _ _ _ D3) in E4 by (unfold PATH_MAX; lia). injection E4 as <- <-. reflexivity.
Qed.

Lemma cbs_home evs : forall h o h' o' c, home c o -> exec (cbs evs h) o = Ok (h', o') -> home c o'.
Proof.
  induction evs as [|ev evs IH]; intros h o h' o' c Hm H; [cbn in H; injection H as <- <-; exact Hm|].
  rewrite exec_cbs_cons in H. destruct (exec (cb ev h) o) as [[h1 o1]| |] eqn:E; try discriminate H. cbn [obind] in H.
  eapply IH; [|exact H]. eapply cb_home; eauto.
Qed.
End Cwd.
