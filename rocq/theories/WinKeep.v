(** WinKeep.v: what extraction on Windows never does: remove entries, change read-only files, report success for a target that exists. *)
From Coq Require Import Lia.
From Verif Require Import Base Format Zlib Compress Parser ParserProofs ParserFacts Decompress DecompressProofs MidProofs MidFacts
  ArchiveSpec ArchiveFacts ArchiveDecode FS FSFacts HL HLSpec HLFacts HLDrive HLProps HLSafe MkdirFacts HLTame HLMore WinTools WinFacts
  WinExtract WinExtractSpec WinExtractFacts WinExtractTame.

(** ** Specification *)

(** Directories are still there; read-only files have not changed; other files are still there, and are not read-only. *)
Definition nothing_lost (fs fs' : xtree) : Prop := forall p,
  match fs p with
  | None => True
  | Some XDir => fs' p = Some XDir
  | Some (XFile true x) => fs' p = Some (XFile true x)
  | Some (XFile false _) => exists y, fs' p = Some (XFile false y)
  end.
(** The process has no read-only files open. *)
Definition none_open (w : wst) : Prop := forall n p off x, In (n, (p, off)) (w_fds w) -> w_fs w p <> Some (XFile true x).
(** [T] names something. *)
Definition wexists (maxd : N) (w : wst) (T : bytes) : Prop := ~ In x00 T /\ T <> [] /\ lenN T < maxd /\ w_fs w (xkey (w_cwd w) T) <> None /\ w_dead w = false.

(** ** Proofs *)

Definition kept (fs : xtree) (w : wst) : Prop :=
  nothing_lost fs (w_fs w) /\ forall n p off x, In (n, (p, off)) (w_fds w) -> fs p <> Some (XFile true x).

Lemma lost_refl fs : nothing_lost fs fs.
Proof. intro p. destruct (fs p) as [[|[] x]|]; eauto. Qed.
Lemma lost_new fs fs' p i : nothing_lost fs fs' -> fs' p = None -> nothing_lost fs (xupd fs' p i).
Proof.
  intros H N q. specialize (H q). unfold xupd. destruct (path_eqb q p) eqn:E; [|exact H]. apply path_eqb_spec in E. subst q.
  rewrite N in H. destruct (fs p) as [[|[] x]|]; [discriminate|discriminate|destruct H; discriminate|exact I].
Qed.
Lemma lost_file fs fs' p ro x y : nothing_lost fs fs' -> fs' p = Some (XFile ro x) -> (forall v, fs p <> Some (XFile true v)) -> nothing_lost fs (xupd fs' p (XFile ro y)).
Proof.
  intros H N Nr q. specialize (H q). unfold xupd. destruct (path_eqb q p) eqn:E; [|exact H]. apply path_eqb_spec in E. subst q.
  rewrite N in H. destruct (fs p) as [[|[] v]|] eqn:Ef; [discriminate|destruct (Nr v); reflexivity| |exact I].
  destruct H as [v' H]. injection H as -> _. eauto.
Qed.
Lemma find_in n l v : find_fd n l = Some v -> In (n, v) l.
Proof.
  induction l as [|[m x] l IH]; cbn [find_fd]; [discriminate|]. destruct (N.eqb_spec m n) as [->|]; [intro H; injection H as ->; now left|right; auto].
Qed.
Lemma in_set n v l m u : In (m, u) (set_fd n v l) -> In (m, u) l \/ (m = n /\ u = v).
Proof.
  induction l as [|[k x] l IH]; cbn [set_fd]; [intros []|]. destruct (N.eqb_spec k n) as [->|].
  - intros [H|H]; [injection H as <- <-; auto|left; now right].
  - intros [H|H]; [left; now left|]. destruct (IH H); [left; now right|now right].
Qed.
Lemma in_del n l v : In v (del_fd n l) -> In v l.
Proof. induction l as [|[m x] l IH]; cbn [del_fd]; [intros []|]. destruct (m =? n); [now right|]. intros [H|H]; [now left|right; auto]. Qed.

Section Keep.
Context (maxd maxf : N) (deny : path -> bool) (T : bytes) (hal : N -> bool) (stk : N) (fs : xtree).

Lemma create_kept s w r w' : xcreate maxd deny s w = (r, w') -> kept fs w -> kept fs w'.
Proof.
  unfold xcreate. intros H [K F]. destruct (negb _); [injection H as _ <-; now split|]. destruct (maxd <=? _); [injection H as _ <-; now split|].
  destruct (w_fs w _) eqn:E; [injection H as _ <-; now split|]. destruct (xdir _ _); [|injection H as _ <-; now split].
  destruct (deny _); injection H as _ <-; [now split|]. split; [now apply lost_new|exact F].
Qed.
Lemma os_kept b w r w' : xos_create maxd deny b w = Ok (r, w') -> kept fs w -> kept fs w'.
Proof.
  unfold xos_create. destruct (cstr b); [|discriminate]. destruct (xcreate _ _ _ w) as [c w1] eqn:E. intro H. injection H as _ <-. eapply create_kept, E.
Qed.
Lemma down_kept k : forall b idx w x w', xmk_down maxd deny k b idx w = Ok (x, w') -> kept fs w -> kept fs w'.
Proof.
  induction k as [|k IH]; intros b idx w x w' H K; cbn [xmk_down] in H; [now injection H as _ <-|].
  destruct (cstr b) as [b0|]; [|discriminate]. destruct (delim b0); [|now injection H as _ <-].
  destruct (xos_create _ _ _ w) as [[r w1]| |] eqn:E; try discriminate H. cbn [obind] in H. apply os_kept in E; [|exact K].
  destruct (r =? -1)%Z; [now injection H as _ <-|]. destruct ((r =? 0)%Z || _); [now injection H as _ <-|]. eapply IH; eauto.
Qed.
Lemma up_kept idx : forall b w r w', xmk_up maxd deny b idx w = Ok (r, w') -> kept fs w -> kept fs w'.
Proof.
  induction idx as [|i idx IH]; intros b w r w' H K; cbn [xmk_up] in H; [now injection H as _ <-|].
  destruct (xos_create _ _ _ w) as [[c w1]| |] eqn:E; try discriminate H. cbn [obind] in H. apply os_kept in E; [|exact K].
  destruct (c =? 0)%Z; [eapply IH; eauto|now injection H as _ <-].
Qed.
Lemma mkdir_kept ok s w r w' : xmkdir maxd deny ok s w = Ok (r, w') -> kept fs w -> kept fs w'.
Proof.
  unfold xmkdir. intros H K. destruct (negb ok); [now injection H as _ <-|].
  destruct (xos_create _ _ _ w) as [[c w1]| |] eqn:E; try discriminate H. cbn [obind] in H. apply os_kept in E; [|exact K].
  destruct (_ || _ || _); [now injection H as _ <-|].
  destruct (xmk_down _ _ _ _ _ w1) as [[[[b1 idx] en] w2]| |] eqn:D; try discriminate H. cbn [obind] in H. apply down_kept in D; [|exact E].
  destruct en; try (injection H as _ <-; exact D). destruct (lenN idx <? 62); [eapply up_kept; eauto|injection H as _ <-; exact D].
Qed.
Lemma open_kept tr wr s w r w' : xopen maxf deny tr wr s w = (r, w') -> kept fs w -> kept fs w'.
Proof.
  unfold xopen. intros H [K F]. destruct (_ || _ || _); [injection H as _ <-; now split|].
  set (p := xkey (w_cwd w) s) in *. destruct (w_fs w p) as [[|[] x]|] eqn:E; try (injection H as _ <-; now split).
  - unfold xopened in H. injection H as _ <-.
    assert (Nr : forall v, fs p <> Some (XFile true v)) by (intros v Q; specialize (K p); rewrite Q in K; congruence).
    split.
    + cbn [w_fs]. destruct tr; [|exact K]. cbn [w_setfs w_fs]. eapply lost_file; eauto.
    + cbn [w_fds]. intros n q off v [Q|Q]; [injection Q as _ <- _; apply Nr|]. destruct tr; eapply F; exact Q.
  - destruct (xdir _ _ && _); [|injection H as _ <-; now split]. unfold xopened in H. injection H as _ <-. split.
    + cbn [w_fs w_setfs]. now apply lost_new.
    + cbn [w_fds w_setfs]. intros n q off v [Q|Q]; [|eapply F; exact Q]. injection Q as _ <- _. intro Q. specialize (K p). rewrite Q in K. congruence.
Qed.
Lemma write_kept fd d w : kept fs w -> kept fs (xwrite fd d w).
Proof.
  intros [K F]. unfold xwrite. destruct fd as [n|]; [|now split]. destruct (find_fd n (w_fds w)) as [[p off]|] eqn:E; [|now split].
  apply find_in in E. destruct (w_fs w p) as [[|ro x]|] eqn:Ep; try now split. split.
  - cbn [w_fs]. eapply lost_file; [exact K|exact Ep|]. intro v. eapply F, E.
  - cbn [w_fds]. intros m q off' v I. apply in_set in I. destruct I as [I|[_ I]]; [eapply F, I|]. injection I as -> _. eapply F, E.
Qed.
Lemma close_kept fd w : kept fs w -> kept fs (xclose fd w).
Proof.
  intros [K F]. unfold xclose. destruct fd as [n|]; [|now split]. destruct (find_fd n (w_fds w)); [|now split].
  split; [exact K|]. cbn [w_fds]. intros m q off v I. apply in_del in I. eapply F, I.
Qed.
Lemma cb_kept ev h w h' w' : xcb maxd maxf deny T hal stk ev h w = Ok (h', w') -> kept fs w -> kept fs w'.
Proof.
  intros H K. destruct ev; cbn [xcb] in H.
  - now injection H as _ <-.
  - unfold xcb_dr_start in H. destruct (xmkdir _ _ _ _ w) as [[r w1]| |] eqn:E; try discriminate H. cbn [obind] in H.
    apply mkdir_kept in E; [|exact K]. destruct (negb _); [now injection H as _ <-|]. destruct (negb _); now injection H as _ <-.
  - unfold xcb_fl_start in H. destruct (xopen _ _ _ _ _ w) as [r w1] eqn:E. injection H as _ <-. eapply open_kept; eauto.
  - injection H as _ <-. now apply write_kept.
  - unfold xcb_entry in H. destruct ft.
    + now injection H as _ <-.
    + destruct (negb _); [now injection H as _ <-|]. destruct (entry_path _ _ _) as [b| |]; try discriminate H. cbn [obind] in H.
      destruct (cstr b); [|discriminate]. destruct (xmkdir _ _ _ _ w) as [[r w1]| |] eqn:E; try discriminate H. cbn [obind] in H.
      apply mkdir_kept in E; [|exact K]. now injection H as _ <-.
    + destruct (stk <? _); [discriminate|]. destruct (entry_path _ _ _) as [b| |]; try discriminate H. cbn [obind] in H.
      destruct (cstr b); [|discriminate]. destruct (xopen _ _ _ _ _ w) as [r w1] eqn:E. injection H as _ <-. eapply open_kept; eauto.
    + now injection H as _ <-.
  - injection H as _ <-. now apply write_kept.
  - injection H as _ <-. now apply close_kept.
  - destruct (xcb_dir_end h); try discriminate H. now injection H as _ <-.
  - now injection H as _ <-.
Qed.
Lemma cbs_kept evs : forall h w h' w', xcbs maxd maxf deny T hal stk evs h w = Ok (h', w') -> kept fs w -> kept fs w'.
Proof.
  induction evs as [|ev evs IH]; intros h w h' w' H K; [injection H as _ <-; exact K|].
  rewrite xcbs_cons in H. destruct (xcb _ _ _ _ _ _ ev h w) as [[h1 w1]| |] eqn:E; try discriminate H. cbn [obind] in H.
  apply cb_kept in E; [|exact K]. destruct (w_dead w1); [now injection H as _ <-|]. eapply IH; eauto.
Qed.
Context (z : zlib) (e : endian) (alloc : N -> N -> bool) (archive : N).
Lemma loop_kept fuel dfuel : forall inp rderr total idx s h w x w',
  xextract_loop maxd maxf deny T hal stk z e alloc archive fuel dfuel inp rderr total idx s h w = Ok (x, w') -> kept fs w -> kept fs w'.
Proof.
  induction fuel as [|fuel IH]; intros inp rderr total idx s h w x w' H K; [discriminate|]. cbn [xextract_loop] in H.
  destruct (_ <? 1); [now injection H as _ <-|]. destruct (_ && rderr); [now injection H as _ <-|].
  destruct (decompress _ _ _ _ _ _) as [[[ret s1] evs]| |]; try discriminate H. cbn [obind] in H.
  destruct (xcbs _ _ _ _ _ _ evs h w) as [[h1 w1]| |] eqn:E; try discriminate H. cbn [obind] in H. apply cbs_kept in E; [|exact K].
  destruct (_ || _ || _); [now injection H as _ <-|].
  destruct (xextract_loop _ _ _ _ _ _ _ _ _ _ fuel _ _ _ _ _ _ _ _) as [[y w2]| |] eqn:El; try discriminate H. cbn [obind] in H.
  destruct y as [[[ok s2] h2] ds]. injection H as _ <-. eapply IH; eauto.
Qed.
Lemma extract_kept fuel dfuel al obuf hjunk pjunk inp rderr w ret x w' :
  xextract maxd maxf deny T hal stk z e alloc archive fuel dfuel al obuf hjunk pjunk inp rderr w = Ok (ret, x, w') -> kept fs w -> kept fs w'.
Proof.
  unfold xextract. intros H K. destruct (_ || _); [now injection H as _ _ <-|]. destruct (create _ _ _ _ _ _) as [s0|]; [|now injection H as _ _ <-].
  destruct (xextract_loop _ _ _ _ _ _ _ _ _ _ _ _ _ _ _ _ _ _ _) as [[y w1]| |] eqn:El; try discriminate H. cbn [obind] in H.
  apply loop_kept in El; [|exact K]. destruct y as [[[ok s] h] ds]. destruct (w_dead w1); [now injection H as _ _ <-|].
  destruct (destroy s); try discriminate H. cbn [obind] in H. injection H as _ _ <-. destruct (h_fp h) as [n|]; [exact (close_kept (Some n) w1 El)|exact El].
Qed.
End Keep.

Lemma wnothing_lost maxd maxf deny T hal stk z e alloc archive fuel dfuel al obuf hjunk pjunk inp rderr w ret x w' : none_open w ->
  xextract maxd maxf deny T hal stk z e alloc archive fuel dfuel al obuf hjunk pjunk inp rderr w = Ok (ret, x, w') -> nothing_lost (w_fs w) (w_fs w').
Proof. intros No H. eapply extract_kept; [exact H|]. split; [apply lost_refl|exact No]. Qed.

(** ** A target that exists *)
Section Ret.
Context (maxd maxf : N) (deny : path -> bool) (T : bytes) (hal : N -> bool) (stk : N).
Lemma xcb_ret ev h w h' w' : xcb maxd maxf deny T hal stk ev h w = Ok (h', w') -> begins ev = false -> h_ret h' = h_ret h.
Proof.
  intros H B. destruct ev; cbn [xcb begins] in H, B; try discriminate B; try (injection H as <- _; reflexivity).
  - unfold xcb_entry in H. destruct ft; try (injection H as <- _; reflexivity).
    + destruct (negb _); [now injection H as <- _|]. destruct (entry_path _ _ _) as [b| |]; try discriminate H. cbn [obind] in H.
      destruct (cstr b); [|discriminate]. destruct (xmkdir _ _ _ _ w) as [[r w1]| |] eqn:E; try discriminate H. cbn [obind] in H.
      injection H as <- _. destruct (r =? 0)%Z; reflexivity.
    + destruct (stk <? _); [discriminate|]. destruct (entry_path _ _ _) as [b| |]; try discriminate H. cbn [obind] in H.
      destruct (cstr b); [|discriminate]. destruct (xopen _ _ _ _ _ w) as [r w1] eqn:E. injection H as <- _. destruct r; reflexivity.
  - unfold xcb_dir_end in H. destruct (h_dp h) as [b|]; [|discriminate]. destruct (cstr b) as [b0|]; [|discriminate]. destruct (rindex x2f b0); [|discriminate]. now injection H as <- _.
Qed.
Lemma xcbs_ret evs : forall h w h' w', xcbs maxd maxf deny T hal stk evs h w = Ok (h', w') -> forallb (fun ev => negb (begins ev)) evs = true -> h_ret h' = h_ret h.
Proof.
  induction evs as [|ev evs IH]; intros h w h' w' H B; [now injection H as <- _|].
  rewrite xcbs_cons in H. destruct (xcb _ _ _ _ _ _ ev h w) as [[h1 w1]| |] eqn:E; try discriminate H. cbn [obind] in H.
  cbn [forallb] in B. apply andb_prop in B. destruct B as [B1 B2]. apply xcb_ret in E; [|now apply negb_true_iff].
  destruct (w_dead w1); [now injection H as <- _|]. rewrite <- E. eapply IH; eauto.
Qed.
Lemma xmkdir_exists ok w : wexists maxd w T -> exists r, xmkdir maxd deny ok T w = Ok (r, w) /\ r <> 0%Z.
Proof.
  intros (Nz & Ne & L & Ex & Dd). unfold xmkdir. destruct ok; cbn [negb]; [|exists (-1)%Z; split; [reflexivity|discriminate]]. unfold xos_create. rewrite cstr_app by exact Nz. unfold xcreate.
  destruct T as [|c T']; [contradiction|]. cbn [nonempty negb]. replace (maxd <=? lenN (c :: T')) with false by (symmetry; apply N.leb_gt; exact L).
  destruct (w_fs w _); [|contradiction]. cbn. eexists. split; [reflexivity|discriminate].
Qed.
End Ret.

Lemma wtarget_exists maxd maxf deny z (C : zlib_contract z) e alloc hal al stk obuf hjunk pjunk : calm z hal al stk obuf hjunk pjunk ->
  forall T archive fuel dfuel inp rderr w ret x w', archive_of ContentDirectory (zc_dec C (first_bytes archive inp)) -> wexists maxd w T ->
  xextract maxd maxf deny T hal stk z e alloc archive fuel dfuel al obuf hjunk pjunk inp rderr w = Ok (ret, x, w') ->
  ret = Some ContentNone \/ ret = None.
Proof.
  intros Calm T archive fuel dfuel inp rderr w ret x w' Ar Ex H.
  destruct (xextract_did maxd maxf deny z C e alloc hal al stk obuf hjunk pjunk Calm _ _ _ _ _ _ _ _ _ _ ltac:(apply Ex) H)
    as (s0 & ops & rets & s & evs & h & w1 & ds & -> & St & Ho & Fed & R & X & Pf & _ & Kd & Kr).
  destruct (w_dead w1) eqn:D1; [right; now apply Kd|]. destruct (Kr eq_refl) as (_ & v & -> & Rt & _). left. f_equal.
  destruct Rt as [->|]; [|assumption]. rewrite limited_first in Pf. subst ds.
  destruct (N.lt_ge_cases (lenN (zc_dec C (dfed ops))) 128) as [L|L].
  { rewrite (before_header z C e alloc _ _ _ _ _ _ St Ho L R) in X. cbn in X. injection X as <- <-. reflexivity. }
  destruct Pf as [y Ey]. pose proof (zc_dec_mono _ C (dfed ops) y) as Pd. rewrite <- Ey in Pd.
  destruct (dir_session_protocol z C e alloc _ _ _ _ _ _ St Ho (archive_of_prefix _ _ _ Pd L Ar) R) as [->|(q & st & -> & P)].
  { cbn in X. injection X as <- <-. reflexivity. }
  rewrite xcbs_cons in X. cbn [xcb] in X. unfold xcb_dr_start in X.
  destruct (xmkdir_exists maxd deny T (hal (h_n HS0)) w Ex) as (r & E & Hr). rewrite E in X. cbn [obind] in X.
  destruct (Z.eqb_spec r 0); [contradiction|]. cbn [negb obind] in X. destruct (w_dead w); [now injection X as <- _|].
  now rewrite (xcbs_ret _ _ _ _ _ _ _ _ _ _ _ X (proto_begins _ _ _ P)).
Qed.
