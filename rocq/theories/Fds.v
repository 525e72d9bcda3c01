(** Fds.v: the descriptors an extraction leaves open. *)
From Coq Require Import Lia.
From Verif Require Import Base Format Zlib Compress Parser ParserProofs ParserFacts Decompress DecompressProofs MidProofs MidFacts
  ArchiveSpec ArchiveFacts ArchiveDecode FS FSFacts HL HLSpec HLFacts HLDrive HLProps HLSafe MkdirFacts HLTame HLMore RobustFacts.

(** ** Programs that neither open, write nor close files *)
Definition fdless_call (c : sysc) : bool := match c with ScOpen _ _ _ | ScWrite _ _ | ScClose _ => false | _ => true end.
Lemma sys_fdless c o : fdless_call c = true -> o_fds (snd (sys c o)) = o_fds o.
Proof.
  destruct c as [s m|s|tr s m|fd d|fd|n|s|x s]; intro H; try discriminate; cbn [sys].
  - unfold sys_mkdir. destruct (namei false o s) as [er|d|d c [i|]]; try reflexivity. destruct (can_w _ _); reflexivity.
  - unfold sys_stat_dir. destruct (namei true o s) as [er|d|d c [[]|]]; reflexivity.
  - unfold sys_getcwd. destruct (o_fs o (o_cwd o)) as [[]|]; try reflexivity. destruct (_ <=? _); reflexivity.
  - unfold sys_chdir. destruct (namei true o s) as [er|d|d c i]; try reflexivity; unfold enter; repeat match goal with |- context [match ?b with _ => _ end] => destruct b end; reflexivity.
  - unfold sys_symlink. destruct (negb _); [reflexivity|]. destruct (_ <=? _); [reflexivity|].
    destruct (namei false o s) as [er|d|d c [i|]]; try reflexivity. destruct (slash_end s); [reflexivity|]. destruct (can_w _ _); reflexivity.
Qed.
Fixpoint fdless {A} (p : prog A) : Prop :=
  match p with PSys c k => fdless_call c = true /\ forall r, fdless (k r) | _ => True end.
Lemma fdless_bind {A B} (p : prog A) (f : A -> prog B) : fdless p -> (forall a, fdless (f a)) -> fdless (pbind p f).
Proof. induction p as [a| | |c k IH]; cbn; auto. intros [H1 H2] Hf. split; [exact H1|]. intro r. auto. Qed.
Lemma fdless_lift {A} (x : outcome A) : fdless (plift x). Proof. destruct x; exact I. Qed.
Lemma fdless_cstr {A} b (f : bytes -> prog A) : (forall s, fdless (f s)) -> fdless (with_cstr b f).
Proof. unfold with_cstr. destruct (cstr b); [auto|exact (fun _ => I)]. Qed.
Lemma fdless_sys c : fdless_call c = true -> fdless (psys c). Proof. cbn. auto. Qed.
Lemma exec_fdless {A} (p : prog A) : fdless p -> forall o a o', exec p o = Ok (a, o') -> o_fds o' = o_fds o.
Proof.
  induction p as [a| | |c k IH]; intros S o a' o' H; cbn in H; try discriminate.
  - congruence.
  - destruct S as [S1 S2]. destruct (sys c o) as [r o1] eqn:E. rewrite (IH _ (S2 r) _ _ _ H).
    pose proof (sys_fdless c o S1) as Q. now rewrite E in Q.
Qed.
Lemma os_create_fdless b mode : fdless (os_create b mode).
Proof.
  unfold os_create. apply fdless_cstr. intro s. apply fdless_bind; [now apply fdless_sys|]. intros r. destruct r as [er| | | |]; try exact I.
  destruct er; try exact I. apply fdless_bind; [now apply fdless_sys|]. intro r. exact I.
Qed.
Lemma mkdir_fdless ok s mode : fdless (mkdir_recurse ok s mode).
Proof.
  unfold mkdir_recurse. destruct ok; [|exact I]. unfold mkdir_raw. apply fdless_bind; [apply os_create_fdless|].
  intro r. destruct (_ || _); [exact I|]. apply fdless_bind.
  - generalize (@nil N). generalize (s ++ [x00]). generalize 62%nat. clear. induction n as [|k IH]; intros b idx; [exact I|].
    cbn [mk_down]. apply fdless_cstr. intro s. destruct (delim s) as [i|]; [|exact I].
    apply fdless_bind; [apply os_create_fdless|]. intro r. destruct (_ =? -1)%Z; [exact I|]. destruct (_ || _); [exact I|]. apply IH.
  - intros [[b1 idx] en]. destruct en; try exact I. destruct (_ <? _); [|exact I]. clear. revert b1.
    induction idx as [|i idx IH]; intro b; [exact I|]. cbn [mk_up]. apply fdless_bind; [apply os_create_fdless|].
    intro c. destruct (_ =? 0)%Z; [apply IH|exact I].
Qed.
Lemma sym_fdless d t h : fdless (cb_sym d t h).
Proof.
  unfold cb_sym. apply fdless_bind; [now apply fdless_sys|]. intro r. destruct r; try exact I. destruct (h_dp h); [|exact I].
  apply fdless_cstr. intro s1. apply fdless_bind; [now apply fdless_sys|]. intro r. destruct r; try exact I.
  apply fdless_cstr. intro s2. apply fdless_cstr. intro s3. apply fdless_bind; [now apply fdless_sys|]. intro r.
  apply fdless_bind; [now apply fdless_sys|]. intro r1. exact I.
Qed.

(** ** The callbacks *)
Section Fds.
Context (T : bytes) (hal : N -> bool) (stk : N).

(** [B]: the descriptors open before. *)
Definition one_more (B : list (N * (path * N))) (l : list (N * (path * N))) : Prop := l = B \/ exists n p off, l = (n, (p, off)) :: B.
Definition fd_inv (B : list (N * (path * N))) (st : proto) (h : hst) (o : os) : Prop :=
  h_fp h = None /\
  match st with
  | InFile _ => (h_fd h = None /\ o_fds o = B) \/ exists n x, h_fd h = Some n /\ o_fds o = (n, x) :: B
  | _ => o_fds o = B
  end.
Lemma sys_open_fds tr s m o : let r := sys (ScOpen tr s m) o in
  match fst r with RFd n => exists p, o_fds (snd r) = (n, (p, 0)) :: o_fds o | _ => o_fds (snd r) = o_fds o end.
Proof.
  cbn [sys]. unfold sys_open. destruct (namei true o s) as [er|d|d c [[m'|m' x|x]|]]; try reflexivity.
  - destruct (slash_end s); [reflexivity|]. destruct (negb _); [reflexivity|]. destruct tr; eexists; reflexivity.
  - destruct (slash_end s); [reflexivity|]. destruct (can_w _ _); [|reflexivity]. eexists; reflexivity.
Qed.
Lemma sys_write_fds fd d o B : ((fd = None /\ o_fds o = B) \/ exists n x, fd = Some n /\ o_fds o = (n, x) :: B) ->
  let o1 := snd (sys (ScWrite fd d) o) in (fd = None /\ o_fds o1 = B) \/ exists n x, fd = Some n /\ o_fds o1 = (n, x) :: B.
Proof.
  intros [[-> E]|(n & x & -> & E)]; cbn [sys]; unfold sys_write; [left; auto|right]. rewrite E. cbn [find_fd]. rewrite N.eqb_refl.
  destruct x as [p off]. destruct (o_fs o p) as [[m|m x|x]|]; try (exists n, (p, off); split; [reflexivity|exact E]).
  destruct (_ && _); [exists n, (p, off); split; [reflexivity|exact E]|]. cbn [snd o_fds set_fd]. rewrite N.eqb_refl. eauto.
Qed.
Lemma fd_step B ev st st1 h o h1 o1 : fd_inv B st h o -> proto_step st ev = Some st1 -> exec (cb T hal stk ev h) o = Ok (h1, o1) -> fd_inv B st1 h1 o1.
Proof.
  intros [F V] P X. destruct st as [|k|]; destruct ev as [x y| | |d|ft it name|d| | |d t]; cbn [proto_step] in P; try discriminate P.
  - destruct ft; try discriminate P; injection P as <-; cbn [cb cb_entry] in X.
    + destruct (negb _); [cbn in X; injection X as <- <-; split; assumption|]. rewrite exec_bind in X.
      destruct (entry_path _ _ _) as [b| |]; try discriminate X. cbn [plift exec obind] in X. apply with_cstr_ok in X. destruct X as (s & _ & X).
      rewrite exec_bind in X. destruct (exec (mkdir_recurse _ _ _) o) as [[rr o3]| |] eqn:E; try discriminate X. cbn [obind exec] in X.
      injection X as <- <-. apply (exec_fdless _ (mkdir_fdless _ _ _)) in E. split; [destruct (rr =? 0)%Z; assumption|congruence].
    + destruct (stk <? _); [discriminate|]. rewrite exec_bind in X.
      destruct (entry_path _ _ _) as [b| |]; try discriminate X. cbn [plift exec obind] in X. apply with_cstr_ok in X. destruct X as (s & _ & X).
      apply exec_psys in X. destruct X as (r & o2 & E & X). pose proof (sys_open_fds false s (N.land 511 (it_mode it)) o) as K. rewrite E in K. cbn [fst snd] in K.
      destruct r as [er| |n| |]; cbn in X; injection X as <- <-; (split; [assumption|]); rewrite V in K; try (left; now auto).
      right. destruct K as (p & K). eexists _, _. split; [reflexivity|exact K].
    + cbn in X. injection X as <- <-. split; assumption.
  - injection P as <-. cbn [cb] in X. unfold cb_dir_end in X. destruct (h_dp h) as [b|]; [|discriminate]. apply with_cstr_ok in X. destruct X as (s1 & _ & X).
    destruct (rindex _ _); [|discriminate]. cbn in X. injection X as <- <-. split; assumption.
  - destruct (lenN d <=? k); [|discriminate]. injection P as <-. cbn [cb] in X. unfold cb_read in X. apply exec_psys in X.
    destruct X as (r & o2 & E & X). cbn in X. injection X as <- <-. split; [assumption|].
    pose proof (sys_write_fds _ d _ _ V) as K. rewrite E in K. exact K.
  - destruct (k =? 0); [|discriminate]. injection P as <-. cbn [cb] in X. unfold cb_file_end in X. apply exec_psys in X.
    destruct X as (r & o2 & E & X). cbn in X. injection X as <- <-. split; [assumption|].
    destruct V as [[V1 V2]|(n & x & V1 & V2)]; rewrite V1 in E; cbn [sys] in E; unfold sys_close in E.
    + injection E as <- <-. exact V2.
    + rewrite V2 in E. cbn [find_fd del_fd] in E. rewrite N.eqb_refl in E. injection E as <- <-. reflexivity.
  - injection P as <-. cbn [cb] in X. pose proof (exec_fdless _ (sym_fdless d t h) _ _ _ X) as K. split; [|congruence].
    revert X. unfold cb_sym. intro X. apply exec_psys in X. destruct X as (r & o2 & _ & X). destruct r; try (cbn in X; injection X as <- <-; exact F).
    destruct (h_dp h) as [dp|]; [|cbn in X; injection X as <- <-; exact F]. apply with_cstr_ok in X. destruct X as (s1 & _ & X).
    apply exec_psys in X. destruct X as (r & o3 & _ & X). destruct r; try (cbn in X; injection X as <- <-; exact F).
    apply with_cstr_ok in X. destruct X as (s2 & _ & X). apply with_cstr_ok in X. destruct X as (s3 & _ & X).
    apply exec_psys in X. destruct X as (r2 & o4 & _ & X). apply exec_psys in X. destruct X as (r3 & o5 & _ & X). cbn in X. injection X as <- <-. exact F.
Qed.
Lemma fd_run B : forall evs st st' h o h' o', fd_inv B st h o -> proto_run st evs = Some st' -> exec (cbs T hal stk evs h) o = Ok (h', o') -> fd_inv B st' h' o'.
Proof.
  induction evs as [|ev evs IH]; intros st st' h o h' o' V P X.
  - cbn in P, X. injection P as <-. injection X as <- <-. exact V.
  - cbn [proto_run] in P. destruct (proto_step st ev) as [st1|] eqn:Ps; [|discriminate]. rewrite exec_cbs_cons in X.
    destruct (exec (cb T hal stk ev h) o) as [[h1 o1]| |] eqn:E; try discriminate X. cbn [obind] in X.
    exact (IH _ _ _ _ _ _ (fd_step _ _ _ _ _ _ _ _ V Ps E) P X).
Qed.

(** Reads of a file archive. *)
Lemma fl_reads B n : forall ds h o h' o' x, h_fp h = Some n -> o_fds o = (n, x) :: B -> exec (cbs T hal stk (map EvFlRead ds) h) o = Ok (h', o') ->
  h_fp h' = Some n /\ exists x', o_fds o' = (n, x') :: B.
Proof.
  induction ds as [|d ds IH]; intros h o h' o' x F V X; [cbn in X; injection X as <- <-; eauto|].
  cbn [map] in X. rewrite exec_cbs_cons in X. destruct (exec (cb T hal stk _ h) o) as [[h1 o1]| |] eqn:E; try discriminate X. cbn [obind] in X.
  cbn [cb] in E. unfold cb_fl_read in E. rewrite F in E. apply exec_psys in E. destruct E as (r & o2 & E & Q). cbn in Q. injection Q as <- <-.
  assert (V0 : (Some n = None /\ o_fds o = B) \/ exists m y, Some n = Some m /\ o_fds o = (m, y) :: B) by (right; eauto).
  pose proof (sys_write_fds _ d _ _ V0) as K. rewrite E in K. cbn [snd] in K. destruct K as [[K _]|(m & y & Km & K)]; [discriminate K|].
  injection Km as <-. eapply IH; eauto.
Qed.
End Fds.

(** ** Extraction *)
Section Extraction.
Context (z : zlib) (C : zlib_contract z) (e : endian) (alloc : N -> N -> bool) (hal al : N -> bool) (stk : N) (obuf hjunk : bytes) (pjunk : pst).
Hypothesis Calm : calm z hal al stk obuf hjunk pjunk.

Lemma one_left T archive fuel dfuel inp rderr o ret s h ds o' : supported z C (first_bytes archive inp) ->
  exec (extract T hal stk z e alloc archive fuel dfuel al obuf hjunk pjunk inp rderr) o = Ok ((ret, Some (s, h, ds)), o') ->
  exists s0 ops rets evs, started z s0 /\ Forall dop_ok ops /\ dfed ops = ds /\ prefix ds (first_bytes archive inp) /\
    run_dops e alloc dfuel s0 ops = Ok (rets, s, evs) /\
    ((file_opens evs = file_ends evs /\ o_fds o' = o_fds o) \/
     (file_opens evs = file_ends evs + 1 /\ one_more (o_fds o) (o_fds o'))).
Proof.
  intros Sup H.
  destruct (extract_did z C e alloc hal al stk obuf hjunk pjunk Calm _ _ _ _ _ _ _ _ _ _ H)
    as (s0 & ops & rets & s1 & evs & h1 & o1 & ds1 & Q & St & Ho & Fed & R & X & Cl & Pf & _ & _ & _).
  injection Q as <- <- <-. rewrite limited_first in Pf. exists s0, ops, rets, evs. repeat (split; [assumption|]).
  assert (Pf' : prefix (dfed ops) (first_bytes archive inp)) by now rewrite Fed.
  destruct (listing_shape z C e alloc _ _ _ _ _ _ St Ho (supported_prefix z C _ _ Pf' Sup) R) as [->|[(r & st & -> & P)|(dd & ->)]].
  - cbn in X. injection X as <- <-. cbn in Cl. injection Cl as <-. left. auto.
  - rewrite exec_cbs_cons in X. destruct (exec (cb T hal stk EvDirBegin HS0) o) as [[h2 o2]| |] eqn:E; try discriminate X. cbn [obind] in X.
    assert (V : fd_inv (o_fds o) Idle h2 o2).
    { cbn [cb] in E. unfold cb_dr_start in E. rewrite exec_bind in E.
      destruct (exec (mkdir_recurse _ _ _) o) as [[rr o3]| |] eqn:Em; try discriminate E. cbn [obind] in E.
      apply (exec_fdless _ (mkdir_fdless _ _ _)) in Em.
      destruct (negb _); [|destruct (negb _)]; cbn in E; injection E as <- <-; split; auto. }
    destruct (fd_run T hal stk _ _ _ _ _ _ _ _ V P X) as [F W]. unfold close_fp in Cl. rewrite F in Cl. cbn in Cl. injection Cl as <-.
    pose proof (proto_counts _ _ _ P) as Bal. change (file_opens (EvDirBegin :: r)) with (file_opens r). change (file_ends (EvDirBegin :: r)) with (file_ends r).
    destruct st as [|k|].
    + left. split; [lia|exact W].
    + right. split; [lia|]. destruct W as [[_ W]|(n & [p off] & _ & W)]; [left; exact W|right; eauto].
    + left. split; [lia|exact W].
  - left. split. { unfold file_opens, file_ends, reads. clear. cbn [filter]. induction dd; [reflexivity|exact IHdd]. }
    unfold reads in X. rewrite exec_cbs_cons in X. destruct (exec (cb T hal stk EvFlBegin HS0) o) as [[h2 o2]| |] eqn:E; try discriminate X. cbn [obind] in X.
    cbn [cb] in E. unfold cb_fl_start in E. apply exec_psys in E. destruct E as (r & o3 & Eo & E).
    pose proof (sys_open_fds true T MODE_FOPEN o) as K. rewrite Eo in K. cbn [fst snd] in K.
    assert (None_case : h_fp h2 = None -> o_fds o2 = o_fds o -> o_fds o' = o_fds o).
    { intros F V. destruct dd as [|d dd].
      - cbn in X. injection X as <- <-. unfold close_fp in Cl. rewrite F in Cl. cbn in Cl. injection Cl as <-. exact V.
      - cbn [map] in X. rewrite exec_cbs_cons in X. cbn [cb] in X. unfold cb_fl_read in X. rewrite F in X. discriminate X. }
    destruct r as [er| |n| |]; cbn in E; injection E as <- <-; try (apply None_case; [reflexivity|exact K]).
    destruct K as (p & K). assert (Fp : h_fp (HS (Some n) None None 0 false ContentFile [] 0) = Some n) by reflexivity.
    destruct (fl_reads T hal stk (o_fds o) n dd _ _ _ _ _ Fp K X) as (F & x1 & V).
    unfold close_fp in Cl. rewrite F in Cl. apply exec_psys in Cl. destruct Cl as (r & o4 & Ec & Cl). cbn in Cl. injection Cl as <-.
    cbn [sys] in Ec. unfold sys_close in Ec. rewrite V in Ec. cbn [find_fd del_fd] in Ec. rewrite N.eqb_refl in Ec. injection Ec as <- <-. reflexivity.
Qed.
End Extraction.
