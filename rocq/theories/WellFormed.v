(** WellFormed.v: extraction leaves the file system a tree. *)
From Coq Require Import Lia.
From Verif Require Import Base Format Zlib Compress Parser ParserProofs ParserFacts Decompress DecompressProofs MidProofs MidFacts
  ArchiveSpec ArchiveFacts ArchiveDecode FS FSFacts HL HLSpec HLFacts HLDrive HLProps HLSafe MkdirFacts HLTame HLMore Keep WinTools WinFacts
  WinExtract WinExtractSpec WinExtractFacts WinExtractTame WinKeep.

(** ** Specification *)

(** There is a root, and every other entry lies in a directory. *)
Definition is_tree (fs : fstree) : Prop :=
  (exists m, fs [] = Some (IDir m)) /\ forall p c i, fs (p ++ [c]) = Some i -> exists m, fs p = Some (IDir m).
Definition is_xtree (fs : xtree) : Prop := fs [] = Some XDir /\ forall p c i, fs (p ++ [c]) = Some i -> fs p = Some XDir.

(** ** Unix *)
Lemma tree_new fs d c i m : is_tree fs -> fs d = Some (IDir m) -> fs (d ++ [c]) = None -> is_tree (FS.upd fs (d ++ [c]) i).
Proof.
  intros [(m0 & R) H] E N. assert (U : forall q m', fs q = Some (IDir m') -> FS.upd fs (d ++ [c]) i q = Some (IDir m')).
  { intros q m' Q. unfold FS.upd. destruct (path_eqb q (d ++ [c])) eqn:Q'; [|exact Q]. apply path_eqb_spec in Q'. subst q. congruence. }
  split; [exists m0; now apply U|]. intros p c' i' Hi. unfold FS.upd in Hi. destruct (path_eqb (p ++ [c']) (d ++ [c])) eqn:Q.
  - apply path_eqb_spec in Q. apply app_inj_tail in Q. destruct Q as [-> ->]. exists m. now apply U.
  - destruct (H _ _ _ Hi) as (m' & Q'). exists m'. now apply U.
Qed.
Lemma tree_file fs p m x y : is_tree fs -> fs p = Some (IFile m x) -> is_tree (FS.upd fs p (IFile m y)).
Proof.
  intros [(m0 & R) H] E. assert (U : forall q m', fs q = Some (IDir m') -> FS.upd fs p (IFile m y) q = Some (IDir m')).
  { intros q m' Q. unfold FS.upd. destruct (path_eqb q p) eqn:Q'; [|exact Q]. apply path_eqb_spec in Q'. subst q. congruence. }
  split; [exists m0; now apply U|]. intros q c' i' Hi. unfold FS.upd in Hi. destruct (path_eqb (q ++ [c']) p) eqn:Q.
  - apply path_eqb_spec in Q. subst p. destruct (H _ _ _ E) as (m' & Q'). exists m'. now apply U.
  - destruct (H _ _ _ Hi) as (m' & Q'). exists m'. now apply U.
Qed.
Lemma sys_tree c o : is_tree (o_fs o) -> is_tree (o_fs (snd (sys c o))).
Proof.
  intro A. destruct c; cbn [sys].
  - unfold sys_mkdir. destruct (namei false o s) as [er|d|d c [i|]] eqn:E; try exact A. destruct (can_w _ _); [|exact A].
    destruct (namei_dir _ _ _ _ _ _ E) as (md & D & _). pose proof (namei_at _ _ _ _ _ _ E) as Q. cbn [snd with_fs o_fs]. eapply tree_new; eauto.
  - unfold sys_stat_dir. destruct (namei true o s) as [er|d|d c [[]|]]; exact A.
  - unfold sys_open. destruct (namei true o s) as [er|d|d c [[m|m x|x]|]] eqn:E; try exact A.
    + destruct (slash_end s); [exact A|]. destruct (negb _); [exact A|]. pose proof (namei_at _ _ _ _ _ _ E) as Q.
      destruct trunc; cbn [open_at snd o_fs]; [|exact A]. eapply tree_file; eauto.
    + destruct (slash_end s); [exact A|]. destruct (can_w _ _); [|exact A].
      destruct (namei_dir _ _ _ _ _ _ E) as (md & D & _). pose proof (namei_at _ _ _ _ _ _ E) as Q. cbn [open_at snd with_fs o_fs]. eapply tree_new; eauto.
  - unfold sys_write. destruct fd as [n|]; [|exact A]. destruct (find_fd n (o_fds o)) as [[p off]|]; [|exact A].
    destruct (o_fs o p) as [[m|m x|x]|] eqn:E; try exact A. destruct (_ && _); [exact A|]. cbn [snd o_fs]. eapply tree_file; eauto.
  - unfold sys_close. destruct fd as [n|]; [|exact A]. destruct (find_fd n (o_fds o)); exact A.
  - unfold sys_getcwd. destruct (o_fs o (o_cwd o)) as [[]|]; try exact A. destruct (_ <=? _); exact A.
  - assert (En : forall d, is_tree (o_fs (snd (enter d o)))).
    { intro d. unfold enter. destruct (o_fs o d) as [[]|]; try exact A. destruct (can_x _ _); exact A. }
    unfold sys_chdir. destruct (namei true o s) as [er|d|d c i]; auto.
  - unfold sys_symlink. destruct (negb _); [exact A|]. destruct (_ <=? _); [exact A|].
    destruct (namei false o s) as [er|d|d c [i|]] eqn:E; try exact A. destruct (slash_end s); [exact A|]. destruct (can_w _ _); [|exact A].
    destruct (namei_dir _ _ _ _ _ _ E) as (md & D & _). pose proof (namei_at _ _ _ _ _ _ E) as Q. cbn [snd with_fs o_fs]. eapply tree_new; eauto.
Qed.
Lemma exec_tree {A} (p : prog A) : forall o a o', exec p o = Ok (a, o') -> is_tree (o_fs o) -> is_tree (o_fs o').
Proof.
  induction p as [a| | |c k IH]; intros o a' o' H Al; cbn in H; try discriminate; [now injection H as _ <-|].
  destruct (sys c o) as [r o1] eqn:E. eapply IH; [exact H|]. pose proof (sys_tree c o Al) as Q. now rewrite E in Q.
Qed.
Lemma extract_tree T hal stk z e alloc archive fuel dfuel al obuf hjunk pjunk inp rderr o ret x o' : is_tree (o_fs o) ->
  exec (extract T hal stk z e alloc archive fuel dfuel al obuf hjunk pjunk inp rderr) o = Ok ((ret, x), o') -> is_tree (o_fs o').
Proof. intros M H. exact (exec_tree _ _ _ _ H M). Qed.

(** ** Windows: what holds of the file system after each call holds after extraction *)
Section Inv.
Context (maxd maxf : N) (deny : path -> bool) (T : bytes) (hal : N -> bool) (stk : N) (P : wst -> Prop).
Hypothesis Pcreate : forall s w r w', xcreate maxd deny s w = (r, w') -> P w -> P w'.
Hypothesis Popen : forall tr wr s w r w', xopen maxf deny tr wr s w = (r, w') -> P w -> P w'.
Hypothesis Pwrite : forall fd d w, P w -> P (xwrite fd d w).
Hypothesis Pclose : forall fd w, P w -> P (xclose fd w).

Lemma os_inv b w r w' : xos_create maxd deny b w = Ok (r, w') -> P w -> P w'.
Proof.
  unfold xos_create. destruct (cstr b); [|discriminate]. destruct (xcreate _ _ _ w) as [c w1] eqn:E. intro H. injection H as _ <-. eapply Pcreate, E.
Qed.
Lemma down_inv k : forall b idx w x w', xmk_down maxd deny k b idx w = Ok (x, w') -> P w -> P w'.
Proof.
  induction k as [|k IH]; intros b idx w x w' H K; cbn [xmk_down] in H; [now injection H as _ <-|].
  destruct (cstr b) as [b0|]; [|discriminate]. destruct (delim b0); [|now injection H as _ <-].
  destruct (xos_create _ _ _ w) as [[r w1]| |] eqn:E; try discriminate H. cbn [obind] in H. apply os_inv in E; [|exact K].
  destruct (r =? -1)%Z; [now injection H as _ <-|]. destruct ((r =? 0)%Z || _); [now injection H as _ <-|]. eapply IH; eauto.
Qed.
Lemma up_inv idx : forall b w r w', xmk_up maxd deny b idx w = Ok (r, w') -> P w -> P w'.
Proof.
  induction idx as [|i idx IH]; intros b w r w' H K; cbn [xmk_up] in H; [now injection H as _ <-|].
  destruct (xos_create _ _ _ w) as [[c w1]| |] eqn:E; try discriminate H. cbn [obind] in H. apply os_inv in E; [|exact K].
  destruct (c =? 0)%Z; [eapply IH; eauto|now injection H as _ <-].
Qed.
Lemma mkdir_inv ok s w r w' : xmkdir maxd deny ok s w = Ok (r, w') -> P w -> P w'.
Proof.
  unfold xmkdir. intros H K. destruct (negb ok); [now injection H as _ <-|].
  destruct (xos_create _ _ _ w) as [[c w1]| |] eqn:E; try discriminate H. cbn [obind] in H. apply os_inv in E; [|exact K].
  destruct (_ || _ || _); [now injection H as _ <-|].
  destruct (xmk_down _ _ _ _ _ w1) as [[[[b1 idx] en] w2]| |] eqn:D; try discriminate H. cbn [obind] in H. apply down_inv in D; [|exact E].
  destruct en; try (injection H as _ <-; exact D). destruct (lenN idx <? 62); [eapply up_inv; eauto|injection H as _ <-; exact D].
Qed.
Lemma cb_inv ev h w h' w' : xcb maxd maxf deny T hal stk ev h w = Ok (h', w') -> P w -> P w'.
Proof.
  intros H K. destruct ev; cbn [xcb] in H.
  - now injection H as _ <-.
  - unfold xcb_dr_start in H. destruct (xmkdir _ _ _ _ w) as [[r w1]| |] eqn:E; try discriminate H. cbn [obind] in H.
    apply mkdir_inv in E; [|exact K]. destruct (negb _); [now injection H as _ <-|]. destruct (negb _); now injection H as _ <-.
  - unfold xcb_fl_start in H. destruct (xopen _ _ _ _ _ w) as [r w1] eqn:E. injection H as _ <-. eapply Popen; eauto.
  - injection H as _ <-. now apply Pwrite.
  - unfold xcb_entry in H. destruct ft.
    + now injection H as _ <-.
    + destruct (negb _); [now injection H as _ <-|]. destruct (entry_path _ _ _) as [b| |]; try discriminate H. cbn [obind] in H.
      destruct (cstr b); [|discriminate]. destruct (xmkdir _ _ _ _ w) as [[r w1]| |] eqn:E; try discriminate H. cbn [obind] in H.
      apply mkdir_inv in E; [|exact K]. now injection H as _ <-.
    + destruct (stk <? _); [discriminate|]. destruct (entry_path _ _ _) as [b| |]; try discriminate H. cbn [obind] in H.
      destruct (cstr b); [|discriminate]. destruct (xopen _ _ _ _ _ w) as [r w1] eqn:E. injection H as _ <-. eapply Popen; eauto.
    + now injection H as _ <-.
  - injection H as _ <-. now apply Pwrite.
  - injection H as _ <-. now apply Pclose.
  - destruct (xcb_dir_end h); try discriminate H. now injection H as _ <-.
  - now injection H as _ <-.
Qed.
Lemma cbs_inv evs : forall h w h' w', xcbs maxd maxf deny T hal stk evs h w = Ok (h', w') -> P w -> P w'.
Proof.
  induction evs as [|ev evs IH]; intros h w h' w' H K; [injection H as _ <-; exact K|].
  rewrite xcbs_cons in H. destruct (xcb _ _ _ _ _ _ ev h w) as [[h1 w1]| |] eqn:E; try discriminate H. cbn [obind] in H.
  apply cb_inv in E; [|exact K]. destruct (w_dead w1); [now injection H as _ <-|]. eapply IH; eauto.
Qed.
Context (z : zlib) (e : endian) (alloc : N -> N -> bool) (archive : N).
Lemma loop_inv' fuel dfuel : forall inp rderr total idx s h w x w',
  xextract_loop maxd maxf deny T hal stk z e alloc archive fuel dfuel inp rderr total idx s h w = Ok (x, w') -> P w -> P w'.
Proof.
  induction fuel as [|fuel IH]; intros inp rderr total idx s h w x w' H K; [discriminate|]. cbn [xextract_loop] in H.
  destruct (_ <? 1); [now injection H as _ <-|]. destruct (_ && rderr); [now injection H as _ <-|].
  destruct (decompress _ _ _ _ _ _) as [[[ret s1] evs]| |]; try discriminate H. cbn [obind] in H.
  destruct (xcbs _ _ _ _ _ _ evs h w) as [[h1 w1]| |] eqn:E; try discriminate H. cbn [obind] in H. apply cbs_inv in E; [|exact K].
  destruct (_ || _ || _); [now injection H as _ <-|].
  destruct (xextract_loop _ _ _ _ _ _ _ _ _ _ fuel _ _ _ _ _ _ _ _) as [[y w2]| |] eqn:El; try discriminate H. cbn [obind] in H.
  destruct y as [[[ok s2] h2] ds]. injection H as _ <-. eapply IH; eauto.
Qed.
Lemma extract_inv fuel dfuel al obuf hjunk pjunk inp rderr w ret x w' :
  xextract maxd maxf deny T hal stk z e alloc archive fuel dfuel al obuf hjunk pjunk inp rderr w = Ok (ret, x, w') -> P w -> P w'.
Proof.
  unfold xextract. intros H K. destruct (_ || _); [now injection H as _ _ <-|]. destruct (create _ _ _ _ _ _) as [s0|]; [|now injection H as _ _ <-].
  destruct (xextract_loop _ _ _ _ _ _ _ _ _ _ _ _ _ _ _ _ _ _ _) as [[y w1]| |] eqn:El; try discriminate H. cbn [obind] in H.
  apply loop_inv' in El; [|exact K]. destruct y as [[[ok s] h] ds]. destruct (w_dead w1); [now injection H as _ _ <-|].
  destruct (destroy s); try discriminate H. cbn [obind] in H. injection H as _ _ <-. destruct (h_fp h) as [n|]; [exact (Pclose (Some n) w1 El)|exact El].
Qed.
End Inv.

Lemma xtree_new fs p i : is_xtree fs -> fs (removelast p) = Some XDir -> fs p = None -> is_xtree (xupd fs p i).
Proof.
  intros [R H] E N. assert (Np : p <> []) by (intros ->; congruence). destruct (exists_last Np) as (d & c & ->). rewrite removelast_last in E.
  assert (U : forall q, fs q = Some XDir -> xupd fs (d ++ [c]) i q = Some XDir).
  { intros q Q. unfold xupd. destruct (path_eqb q (d ++ [c])) eqn:Q'; [|exact Q]. apply path_eqb_spec in Q'. subst q. congruence. }
  split; [now apply U|]. intros q c' i' Hi. unfold xupd in Hi. destruct (path_eqb (q ++ [c']) (d ++ [c])) eqn:Q.
  - apply path_eqb_spec in Q. apply app_inj_tail in Q. destruct Q as [-> ->]. now apply U.
  - apply U. eapply H; eauto.
Qed.
Lemma xtree_file fs p ro x ro' y : is_xtree fs -> fs p = Some (XFile ro x) -> is_xtree (xupd fs p (XFile ro' y)).
Proof.
  intros [R H] E. assert (U : forall q, fs q = Some XDir -> xupd fs p (XFile ro' y) q = Some XDir).
  { intros q Q. unfold xupd. destruct (path_eqb q p) eqn:Q'; [|exact Q]. apply path_eqb_spec in Q'. subst q. congruence. }
  split; [now apply U|]. intros q c' i' Hi. unfold xupd in Hi. destruct (path_eqb (q ++ [c']) p) eqn:Q.
  - apply path_eqb_spec in Q. subst p. apply U. eapply H; eauto.
  - apply U. eapply H; eauto.
Qed.
Lemma xdir_is fs p : xdir fs p = true -> fs p = Some XDir.
Proof. unfold xdir. destruct (fs p) as [[|]|]; intro; congruence. Qed.
Lemma xextract_tree maxd maxf deny T hal stk z e alloc archive fuel dfuel al obuf hjunk pjunk inp rderr w ret x w' : is_xtree (w_fs w) ->
  xextract maxd maxf deny T hal stk z e alloc archive fuel dfuel al obuf hjunk pjunk inp rderr w = Ok (ret, x, w') -> is_xtree (w_fs w').
Proof.
  intros M H. refine (extract_inv maxd maxf deny T hal stk (fun w => is_xtree (w_fs w)) _ _ _ _ z e alloc archive _ _ _ _ _ _ _ _ _ _ _ _ H M); clear.
  - unfold xcreate. intros s w r w' H K. destruct (negb _); [now injection H as _ <-|]. destruct (maxd <=? _); [now injection H as _ <-|].
    destruct (w_fs w _) eqn:E; [now injection H as _ <-|]. destruct (xdir _ _) eqn:X; [|now injection H as _ <-].
    destruct (deny _); injection H as _ <-; [exact K|]. apply xdir_is in X. cbn [w_setfs w_fs]. now apply xtree_new.
  - unfold xopen. intros tr wr s w r w' H K. destruct (_ || _ || _); [now injection H as _ <-|].
    destruct (w_fs w _) as [[|[] x]|] eqn:E; try (now injection H as _ <-).
    + unfold xopened in H. injection H as _ <-. cbn [w_fs]. destruct tr; [|exact K]. cbn [w_setfs w_fs]. eapply xtree_file; eauto.
    + destruct (xdir _ _ && _) eqn:X; [|now injection H as _ <-]. apply andb_prop in X. destruct X as [X _]. apply xdir_is in X.
      unfold xopened in H. injection H as _ <-. cbn [w_fs w_setfs]. now apply xtree_new.
  - unfold xwrite. intros fd d w K. destruct fd as [n|]; [|exact K]. destruct (find_fd n (w_fds w)) as [[p off]|]; [|exact K].
    destruct (w_fs w p) as [[|ro x]|] eqn:Ep; try exact K. cbn [w_fs]. eapply xtree_file; eauto.
  - unfold xclose. intros fd w K. destruct fd as [n|]; [|exact K]. destruct (find_fd n (w_fds w)); exact K.
Qed.
