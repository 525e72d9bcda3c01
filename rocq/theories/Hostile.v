(** Hostile.v: the archives that are extracted without undefined behaviour, whatever the names in them and the file system are. *)
From Coq Require Import Lia.
From Verif Require Import Base Format Zlib Compress Parser ParserProofs ParserFacts Decompress DecompressProofs MidProofs MidFacts
  ArchiveSpec ArchiveFacts ArchiveDecode FS FSFacts HL HLSpec HLFacts HLDrive HLProps HLSafe MkdirFacts HLTame HLMore MkdirMore.

(** ** Specification *)

(** Leaving a directory: [Q] is what stands before the last '/' of the string that the path [P] shows, which ends at the first NUL, if there is one. *)
Definition leaves (P Q : bytes) : Prop :=
  exists n r, P = Q ++ x2f :: n ++ r /\ ~ In x00 Q /\ ~ In x00 n /\ ~ In x2f n /\ (r = [] \/ exists r', r = x00 :: r').

(** [sound links stk P nm evs]: callbacks of a directory archive that can be carried out: every name is at least as long as announced; paths of files
    fit on the stack, which has room for [stk] bytes; a directory is left only if there is a '/' to cut the path at.
    With [links]: targets of links and the names of links end with NUL.
    [P]: the path of the current directory, with all bytes that were appended; [nm]: the last name.  Nothing is asked of what the names are. *)
Fixpoint sound (links : bool) (stk : N) (P nm : bytes) (evs : list event) : Prop :=
  match evs with
  | [] => True
  | ev :: r =>
    match ev with
    | EvEntry FtDir it name => it_nlen it <= lenN name /\ sound links stk (P ++ x2f :: takeN (it_nlen it) name) name r
    | EvEntry FtFile it name => it_nlen it <= lenN name /\ lenN P + 4 + it_nlen it <= stk /\ sound links stk P name r
    | EvEntry _ it name => sound links stk P name r
    | EvRead _ | EvFileEnd => sound links stk P nm r
    | EvDirEnd => exists Q, leaves P Q /\ sound links stk Q nm r
    | EvSym d t => (links = true -> In x00 (d ++ t) /\ In x00 nm) /\ sound links stk P nm r
    | _ => False
    end
  end.

(** Whoever lists the archive [F], or its beginning, is shown such callbacks, if it is a directory.  The path is [T], or empty if [T] was not created. *)
Definition lists_sound {z} (e : endian) (alloc : N -> N -> bool) (T : bytes) (stk : N) (F : bytes) : Prop :=
  forall s0 fuel ops rets s evs, started z s0 -> Forall dop_ok ops -> prefix (dfed ops) F ->
    run_dops e alloc fuel s0 ops = Ok (rets, s, evs) -> forall r, evs = EvDirBegin :: r -> sound true stk T [] r /\ sound true stk [] [] r.
(** Whoever lists all of the archive [F] is shown a directory with other callbacks. *)
Definition lists_unsound {z} (e : endian) (alloc : N -> N -> bool) (T : bytes) (stk : N) (F : bytes) : Prop :=
  forall s0 fuel ops rets s evs, started z s0 -> Forall dop_ok ops -> dfed ops = F -> run_dops e alloc fuel s0 ops = Ok (rets, s, evs) ->
    room_left s -> exists r, evs = EvDirBegin :: r /\ ~ sound false stk T [] r.

(** The same for the records of an archive. *)
Fixpoint sound_recs (stk : N) (P : bytes) (rs : list arec) : Prop :=
  match rs with
  | [] => True
  | ADir name _ :: r => sound_recs stk (P ++ x2f :: name) r
  | AFile name _ _ _ :: r => lenN P + 4 + lenN name <= stk /\ sound_recs stk P r
  | AEnd :: r => exists Q, leaves P Q /\ sound_recs stk Q r
  | ALink _ _ _ :: r => sound_recs stk P r
  | ABroken _ _ _ _ :: _ => False
  end.
Definition no_links (rs : list arec) : Prop := Forall (fun r => match r with ALink _ _ _ => False | _ => True end) rs.

(** ** Proofs *)

Definition at_path (P : bytes) (h : hst) : Prop :=
  h_dplen h = lenN P /\ ((h_dp h = None /\ P = []) \/ exists junk, h_dp h = Some (P ++ x00 :: junk)).

Lemma entry_spec P h it name : at_path P h -> entry_path it name h =
  if lenN name <? it_nlen it then UB else Ok ((P ++ x2f :: takeN (it_nlen it) name) ++ [x00]).
Proof.
  intros (L & D). unfold entry_path. destruct (lenN name <? it_nlen it); [reflexivity|]. rewrite L. destruct D as [[-> ->]|(junk & ->)].
  - reflexivity.
  - replace (lenN (P ++ x00 :: junk) <? lenN P) with false by (symmetry; apply N.ltb_ge; rewrite lenN_app; lia).
    rewrite takeN_app_exact by reflexivity. now rewrite <- app_assoc.
Qed.
Lemma cstr_in b : In x00 b -> exists s, cstr b = Some s /\ ~ In x00 s.
Proof.
  induction b as [|c b IH]; intro H; [destruct H|]. cbn [cstr]. destruct (byte_eqb c x00) eqn:E; [exists []; split; [reflexivity|intros []]|].
  assert (c <> x00) by (intro Q; apply byte_eqb_spec in Q; congruence).
  destruct H as [H|H]; [contradiction|]. destruct (IH H) as (s & -> & Nz). exists (c :: s). split; [reflexivity|]. intros [Q|Q]; contradiction.
Qed.
Lemma cstr_nul b s : cstr b = Some s -> ~ In x00 s.
Proof.
  revert s. induction b as [|c b IH]; intros s H; cbn [cstr] in H; [discriminate|]. destruct (byte_eqb c x00) eqn:E; [injection H as <-; intros []|].
  assert (c <> x00) by (intro Q; apply byte_eqb_spec in Q; congruence).
  destruct (cstr b) as [t|]; [|discriminate]. injection H as <-. intros [Q|Q]; [contradiction|]. exact (IH t eq_refl Q).
Qed.
Lemma nul_split junk r : forall P A, P ++ x00 :: junk = A ++ x00 :: r -> ~ In x00 A -> P = A \/ exists r', P = A ++ x00 :: r'.
Proof.
  induction P as [|c P IH]; intros [|a A] Er Nz; cbn [app] in Er.
  - now left.
  - injection Er as Ea _. destruct Nz. left. now symmetry.
  - injection Er as -> _. right. now exists P.
  - injection Er as -> Er. destruct (IH A Er) as [->|(r' & ->)]; [intro I; apply Nz; now right|now left|right; now exists r'].
Qed.
Lemma rindex_split_last c : forall s i, rindex c s = Some i -> exists a d, s = a ++ c :: d /\ lenN a = i /\ ~ In c d.
Proof.
  induction s as [|x s IH]; intros i H; cbn [rindex] in H; [discriminate|]. destruct (rindex c s) as [j|] eqn:E.
  - injection H as <-. destruct (IH j eq_refl) as (a & d & -> & L & N). exists (x :: a), d. split; [reflexivity|]. rewrite lenN_cons. split; [lia|exact N].
  - destruct (byte_eqb x c) eqn:Ex; [|discriminate]. injection H as <-. apply byte_eqb_spec in Ex. subst x. exists [], s. split; [reflexivity|]. split; [reflexivity|].
    clear IH. revert E. induction s as [|b s IH]; intros E Q; [destruct Q|]. cbn [rindex] in E. destruct (rindex c s); [discriminate|].
    destruct Q as [->|Q]; [|now apply IH]. rewrite (proj2 (byte_eqb_spec c c) eq_refl) in E. discriminate.
Qed.

(** DecompressDirDirEndCallback. *)
Lemma end_leaves P Q h : at_path P h -> leaves P Q -> exists b, h_dp h = Some b /\ (exists s, cstr b = Some s /\ rindex x2f s = Some (lenN Q)) /\
  at_path Q (h_setdir (set_byte (lenN Q) x00 b) (lenN Q) h).
Proof.
  intros (L & D) (n & r & -> & Nq & Nn & Ns & R). destruct D as [[_ Q0]|(junk & E)]; [destruct Q; discriminate|].
  exists ((Q ++ x2f :: n ++ r) ++ x00 :: junk). split; [exact E|]. split.
  - exists (Q ++ x2f :: n). split; [|now apply rindex_app].
    assert (Nz : ~ In x00 (Q ++ x2f :: n)) by (intro I; apply in_app_iff in I; destruct I as [I|[I|I]]; [contradiction|discriminate|contradiction]).
    destruct R as [->|(r' & ->)].
    + rewrite app_nil_r. now apply cstr_app.
    + replace ((Q ++ x2f :: n ++ x00 :: r') ++ x00 :: junk) with ((Q ++ x2f :: n) ++ x00 :: (r' ++ x00 :: junk)) by (repeat (rewrite <- app_assoc; cbn [app]); reflexivity).
      now apply cstr_app.
  - split; [reflexivity|]. right. exists (n ++ r ++ x00 :: junk). cbn [h_dp h_setdir]. f_equal.
    replace ((Q ++ x2f :: n ++ r) ++ x00 :: junk) with (Q ++ x2f :: (n ++ r ++ x00 :: junk)) by (repeat (rewrite <- app_assoc; cbn [app]); reflexivity).
    apply set_byte_app.
Qed.
Lemma leaves_end P h b s i : at_path P h -> h_dp h = Some b -> cstr b = Some s -> rindex x2f s = Some i -> exists Q, leaves P Q /\ lenN Q = i.
Proof.
  intros (L & D) Eb Es Ei. destruct D as [[Q0 _]|(junk & E)]; [congruence|]. rewrite E in Eb. injection Eb as <-.
  destruct (rindex_split_last _ _ _ Ei) as (Q & n & -> & Lq & Ns). exists Q. split; [|exact Lq].
  pose proof (cstr_nul _ _ Es) as Nz. destruct (cstr_split _ _ Es) as (r & Er).
  assert (Nq : ~ In x00 Q) by (intro I; apply Nz, in_app_iff; now left).
  assert (Nn : ~ In x00 n) by (intro I; apply Nz, in_app_iff; right; now right).
  set (A := Q ++ x2f :: n) in *.
  assert (Sp : P = A \/ exists r', P = A ++ x00 :: r') by (eapply nul_split; eauto).
  unfold A in Sp. destruct Sp as [->|(r' & ->)].
  - exists n, []. rewrite app_nil_r. auto 8.
  - exists n, (x00 :: r'). split; [now rewrite <- app_assoc|]. eauto 8.
Qed.

Lemma at_entry P h it name hh : at_path P h -> it_nlen it <= lenN name -> h_dp hh = Some ((P ++ x2f :: takeN (it_nlen it) name) ++ [x00]) ->
  h_dplen hh = h_dplen h + 1 + it_nlen it -> at_path (P ++ x2f :: takeN (it_nlen it) name) hh.
Proof.
  intros (L & _) Ln E1 E2. split; [|right; exists []; exact E1]. rewrite E2, L, lenN_app, lenN_cons, lenN_takeN. lia.
Qed.

Section Unix.
Context (T : bytes) (hal : N -> bool) (stk : N).
Hypothesis Hal : forall n, hal n = true.
Notation cb := (cb T hal stk).
Notation cbs := (cbs T hal stk).

(** One callback. *)
Lemma sound_step ev r P st st1 h o : at_path P h -> sound true stk P (h_name h) (ev :: r) -> proto_step st ev = Some st1 ->
  exists P1 h1 o1, exec (cb ev h) o = Ok (h1, o1) /\ at_path P1 h1 /\ sound true stk P1 (h_name h1) r.
Proof.
  intros A S Ps. destruct ev as [id d| | |d|ft it name|d| | |d tl]; cbn [sound] in S; try contradiction.
  - destruct ft; cbn [HL.cb]; unfold cb_entry.
    + exists P, (h_setname name h), o. split; [reflexivity|]. split; [exact A|exact S].
    + destruct S as (L1 & S). rewrite Hal. cbn [negb]. rewrite (entry_spec P) by exact A.
      replace (lenN name <? it_nlen it) with false by (symmetry; apply N.ltb_ge; lia). cbn [plift pbind]. unfold with_cstr.
      destruct (cstr_in ((P ++ x2f :: takeN (it_nlen it) name) ++ [x00])) as (s & -> & Nz); [apply in_app_iff; right; now left|].
      rewrite exec_bind, Hal. destruct (mkdir_total true s (it_mode it) o Nz) as (rr & o' & -> & _). cbn [obind exec].
      eexists (P ++ x2f :: takeN (it_nlen it) name), _, _. split; [reflexivity|].
      split; [|destruct (rr =? 0)%Z; exact S]. eapply at_entry; [exact A|exact L1| |]; destruct (rr =? 0)%Z; reflexivity.
    + destruct S as (L1 & Ls & S). cbn [h_dplen h_setname]. rewrite (proj1 A).
      replace (stk <? lenN P + 4 + it_nlen it) with false by (symmetry; apply N.ltb_ge; lia). rewrite (entry_spec P) by exact A.
      replace (lenN name <? it_nlen it) with false by (symmetry; apply N.ltb_ge; lia). cbn [plift pbind]. unfold with_cstr.
      destruct (cstr_in ((P ++ x2f :: takeN (it_nlen it) name) ++ [x00])) as (s & -> & Nz); [apply in_app_iff; right; now left|].
      rewrite exec_sys. destruct (fst (sys _ _)); cbn [exec]; eexists P, _, _; split; try reflexivity; split; try exact A; exact S.
    + exists P, (h_setname name h), o. split; [reflexivity|]. split; [exact A|exact S].
  - cbn [HL.cb]. unfold cb_read. rewrite exec_sys. cbn [exec]. eauto 8.
  - cbn [HL.cb]. unfold cb_file_end. rewrite exec_sys. cbn [exec]. eauto 8.
  - destruct S as (Q & Lv & S). destruct (end_leaves _ _ _ A Lv) as (b & Eb & (s & Es & Ei) & A').
    cbn [HL.cb]. unfold cb_dir_end, with_cstr. rewrite Eb, Es, Ei. cbn [exec]. eexists Q, _, _. split; [reflexivity|]. split; [exact A'|exact S].
  - destruct S as (N0 & S). destruct (N0 eq_refl) as [N1 N2]. destruct (cstr_in _ N1) as (s1 & E1 & _). destruct (cstr_in _ N2) as (s2 & E2 & _).
    cbn [HL.cb]. unfold cb_sym. rewrite exec_sys. destruct (fst (sys _ o)); cbn [exec]; eauto 8.
    pose proof A as (L & [[Ed _]|(junk & E)]); [rewrite Ed; cbn [exec]; eauto 8|].
    rewrite E. unfold with_cstr at 1. destruct (cstr_in (P ++ x00 :: junk)) as (s3 & -> & _); [apply in_app_iff; right; now left|].
    rewrite exec_sys. destruct (fst (sys (ScChdir s3) _)); cbn [exec];
      try (exists P, h; eexists; split; [reflexivity|]; split; [exact A|exact S]).
    unfold with_cstr. rewrite E1, E2, exec_sys, exec_sys. cbn [exec]. exists P, h. eexists. split; [reflexivity|]. split; [exact A|exact S].
Qed.

Lemma sound_run : forall evs P st st' h o, at_path P h -> sound true stk P (h_name h) evs -> proto_run st evs = Some st' ->
  exists h' o', exec (cbs evs h) o = Ok (h', o').
Proof.
  induction evs as [|ev evs IH]; intros P st st' h o A S Pr; [cbn; eauto|].
  cbn [proto_run] in Pr. destruct (proto_step st ev) as [st1|] eqn:Ps; [|discriminate].
  destruct (sound_step _ _ _ _ _ _ o A S Ps) as (P1 & h1 & o1 & X & A1 & S1). rewrite exec_cbs_cons, X. cbn [obind]. eapply IH; eauto.
Qed.

(** The converse: callbacks that were carried out. *)
Lemma run_step ev P st st1 h o h1 o1 : at_path P h -> proto_step st ev = Some st1 -> exec (cb ev h) o = Ok (h1, o1) ->
  exists P1, at_path P1 h1 /\ forall r, sound false stk P1 (h_name h1) r -> sound false stk P (h_name h) (ev :: r).
Proof.
  intros A Ps H. destruct ev as [id d| | |d|ft it name|d| | |d tl]; try (destruct st; discriminate).
  - destruct ft; cbn [HL.cb] in H; unfold cb_entry in H.
    + cbn [exec] in H. injection H as <- <-. exists P. split; [exact A|]. cbn [sound]. auto.
    + rewrite Hal in H. cbn [negb] in H. rewrite (entry_spec P) in H by exact A. destruct (N.ltb_spec (lenN name) (it_nlen it)) as [|L1]; [discriminate H|].
      cbn [plift pbind] in H. unfold with_cstr in H.
      destruct (cstr_in ((P ++ x2f :: takeN (it_nlen it) name) ++ [x00])) as (s & Es & Nz); [apply in_app_iff; right; now left|].
      rewrite Es, exec_bind in H. destruct (exec (mkdir_recurse _ _ _) o) as [[rr o']| |]; try discriminate H. cbn [obind exec] in H.
      exists (P ++ x2f :: takeN (it_nlen it) name). injection H as <- <-.
      split; [eapply at_entry; [exact A|exact L1| |]; destruct (rr =? 0)%Z; reflexivity|]. intros r S. cbn [sound]. split; [exact L1|]. destruct (rr =? 0)%Z; exact S.
    + cbn [h_dplen h_setname] in H. rewrite (proj1 A) in H. destruct (N.ltb_spec stk (lenN P + 4 + it_nlen it)) as [|Ls]; [discriminate H|].
      rewrite (entry_spec P) in H by exact A. destruct (N.ltb_spec (lenN name) (it_nlen it)) as [|L1]; [discriminate H|]. cbn [plift pbind] in H. unfold with_cstr in H.
      destruct (cstr_in ((P ++ x2f :: takeN (it_nlen it) name) ++ [x00])) as (s & Es & Nz); [apply in_app_iff; right; now left|].
      rewrite Es, exec_sys in H. exists P. destruct (fst (sys _ _)); cbn [exec] in H; injection H as <- <-; (split; [exact A|]); intros r S; cbn [sound]; auto.
    + cbn [exec] in H. injection H as <- <-. exists P. split; [exact A|]. cbn [sound]. auto.
  - cbn [HL.cb] in H. unfold cb_read in H. rewrite exec_sys in H. cbn [exec] in H. injection H as <- <-. exists P. split; [exact A|]. cbn [sound]. auto.
  - cbn [HL.cb] in H. unfold cb_file_end in H. rewrite exec_sys in H. cbn [exec] in H. injection H as <- <-. exists P. split; [exact A|]. cbn [sound]. auto.
  - cbn [HL.cb] in H. unfold cb_dir_end, with_cstr in H. destruct (h_dp h) as [b|] eqn:Eb; [|discriminate H].
    destruct (cstr b) as [s|] eqn:Es; [|discriminate H]. destruct (rindex x2f s) as [i|] eqn:Ei; [|discriminate H]. cbn [exec] in H. injection H as <- <-.
    destruct (leaves_end _ _ _ _ _ A Eb Es Ei) as (Q & Lv & <-). destruct (end_leaves _ _ _ A Lv) as (b' & Eb' & _ & A'). rewrite Eb in Eb'. injection Eb' as <-.
    exists Q. split; [exact A'|]. intros r S. cbn [sound]. exists Q. auto.
  - cbn [HL.cb] in H. exists P. assert (h1 = h).
    { revert H. clear. unfold cb_sym. rewrite exec_sys. destruct (fst (sys _ o)); cbn [exec]; try (intro H; injection H as <- _; reflexivity).
      destruct (h_dp h) as [b|]; [|intro H; cbn in H; injection H as <- _; reflexivity]. unfold with_cstr. destruct (cstr b); [|discriminate].
      rewrite exec_sys. destruct (fst (sys _ _)); cbn [exec]; try (intro H; injection H as <- _; reflexivity).
      destruct (cstr (d ++ tl)); [|discriminate]. destruct (cstr (h_name h)); [|discriminate]. rewrite !exec_sys. cbn [exec]. intro H; injection H as <- _; reflexivity. }
    subst h1. split; [exact A|]. intros r S. cbn [sound]. split; [discriminate|exact S].
Qed.

Lemma run_sound : forall evs P st st' h o h' o', at_path P h -> proto_run st evs = Some st' -> exec (cbs evs h) o = Ok (h', o') ->
  sound false stk P (h_name h) evs.
Proof.
  induction evs as [|ev evs IH]; intros P st st' h o h' o' A Pr H; [exact I|].
  cbn [proto_run] in Pr. destruct (proto_step st ev) as [st1|] eqn:Ps; [|discriminate]. rewrite exec_cbs_cons in H.
  destruct (exec (cb ev h) o) as [[h1 o1]| |] eqn:E; try discriminate H. cbn [obind] in H.
  destruct (run_step _ _ _ _ _ _ _ _ A Ps E) as (P1 & A1 & K). apply K. eapply IH; eauto.
Qed.

(** DecompressDirStartCallback. *)
Lemma begin_total o : ~ In x00 T -> exists h o1, exec (cb EvDirBegin HS0) o = Ok (h, o1) /\ h_name h = [] /\
  ((at_path T h /\ h_err h = false) \/ (at_path [] h /\ h_err h = true)).
Proof.
  intro Nz. cbn [HL.cb]. unfold cb_dr_start. rewrite exec_bind, !Hal. destruct (mkdir_total true T MODE_BASE_DIR o Nz) as (rr & o' & -> & _). cbn [obind].
  destruct (rr =? 0)%Z; cbn [negb exec]; eexists _, _; (split; [reflexivity|]); (split; [reflexivity|]).
  - left. split; [|reflexivity]. split; [reflexivity|]. right. now exists [].
  - right. split; [|reflexivity]. split; [reflexivity|]. left. auto.
Qed.
End Unix.

(** ** Whole extractions *)
Section Whole.
Context (z : zlib) (C : zlib_contract z) (e : endian) (alloc : N -> N -> bool) (hal al : N -> bool) (stk : N) (obuf hjunk : bytes) (pjunk : pst).
Hypothesis Calm : calm z hal al stk obuf hjunk pjunk.
Let Hal := ca_hal _ _ _ _ _ _ _ Calm.

Lemma dir_supported F : archive_of ContentDirectory (zc_dec C F) -> supported z C F.
Proof. intros (L & V & _). right. now rewrite version_takeN. Qed.

Lemma sound_returns T archive inp o fuel : (length inp < fuel)%nat -> ~ In x00 T ->
  archive_of ContentDirectory (zc_dec C (first_bytes archive inp)) -> lists_sound (z := z) e alloc T stk (first_bytes archive inp) ->
  exists dfuel0, forall dfuel, (dfuel0 <= dfuel)%nat -> exists ret x o',
    exec (extract T hal stk z e alloc archive fuel dfuel al obuf hjunk pjunk inp false) o = Ok ((ret, x), o').
Proof.
  intros Hf Nz Ar Ls. rewrite <- limited_first in *. apply (extract_runs z C e alloc hal al stk obuf hjunk pjunk Calm); [exact Hf|now apply dir_supported|].
  intros s0 dfuel ops rets s evs St Ho Fed R.
  destruct (dir_session_protocol z C e alloc _ _ _ _ _ _ St Ho ltac:(rewrite Fed; exact Ar) R) as [->|(r & st & -> & P)]; [cbn; eauto|].
  destruct (Ls _ _ _ _ _ _ St Ho ltac:(rewrite Fed; apply prefix_refl) R r eq_refl) as [S1 S2].
  destruct (begin_total T hal stk Hal o Nz) as (h & o1 & X & Nm & A). rewrite exec_cbs_cons, X. cbn [obind].
  destruct A as [[A _]|[A _]]; (eapply sound_run; [exact Hal|exact A|rewrite Nm; assumption|exact P]).
Qed.

Lemma unsound_fails T archive inp o fuel dfuel ret s h ds o' : ~ In x00 T ->
  archive_of ContentDirectory (zc_dec C (first_bytes archive inp)) -> lists_unsound (z := z) e alloc T stk (first_bytes archive inp) ->
  exec (extract T hal stk z e alloc archive fuel dfuel al obuf hjunk pjunk inp false) o = Ok ((ret, Some (s, h, ds)), o') -> room_left s ->
  h_err h = true.
Proof.
  intros Nz Ar Lu H Rl. rewrite <- limited_first in *. destruct (h_err h) eqn:He; [reflexivity|].
  destruct (extract_did z C e alloc hal al stk obuf hjunk pjunk Calm _ _ _ _ _ _ _ _ _ _ H)
    as (s0 & ops & rets & s' & evs & h' & o1 & ds' & E & St & Ho & Fed & R & X & Cl & Pf & K & _). injection E as <- <- <-.
  rewrite (K eq_refl He) in Fed.
  destruct (Lu _ _ _ _ _ _ St Ho Fed R Rl) as (r & -> & Ns). destruct Ns.
  destruct (dir_session_protocol z C e alloc _ _ _ _ _ _ St Ho ltac:(rewrite Fed; exact Ar) R) as [Q|(r' & st & Q & P)]; [discriminate|]. injection Q as <-.
  rewrite exec_cbs_cons in X. destruct (begin_total T hal stk Hal o Nz) as (h1 & o2 & X1 & Nm & A). rewrite X1 in X. cbn [obind] in X.
  destruct A as [[A _]|[_ E1]]; [|rewrite (cbs_err _ _ _ _ _ _ _ _ X E1) in He; discriminate He].
  rewrite <- Nm. eapply run_sound; [exact Hal|exact A|exact P|exact X].
Qed.
End Whole.

(** ** Archives of the library *)

Lemma leaves_under P n : ~ In x00 P -> ~ In x00 n -> ~ In x2f n -> leaves (P ++ x2f :: n) P.
Proof. intros A B D. exists n, []. rewrite app_nil_r. auto 8. Qed.
Lemma tame_sound T L stk : ~ In x00 T -> lenN T <= L -> forall evs cs nm, Forall plain cs -> tame L stk cs evs -> sound true stk (under T cs) nm evs.
Proof.
  intros Nz Le. induction evs as [|ev evs IH]; intros cs nm Hp Tm; [exact I|]. cbn [tame] in Tm. cbn [sound].
  destruct ev as [id d| | |d|ft it name|d| | |d tl]; try contradiction.
  - destruct ft; try contradiction.
    + destruct Tm as (L1 & P1 & Tm). split; [exact L1|]. rewrite <- under_snoc. apply IH; [apply Forall_app; auto|exact Tm].
    + destruct Tm as (L1 & P1 & Ls & Tm). split; [exact L1|]. split; [rewrite lenN_under; lia|]. apply IH; auto.
  - apply IH; auto.
  - apply IH; auto.
  - destruct Tm as (Ne & Tm). destruct (exists_last Ne) as (cs1 & c & ->). rewrite removelast_last in Tm. apply Forall_app in Hp. destruct Hp as [Hp1 Hp2].
    assert (Pc : plain c) by (now inversion Hp2). exists (under T cs1). rewrite under_snoc. split; [|apply IH; auto].
    apply leaves_under; [now apply under_nul| |]; apply Pc.
Qed.
Lemma lists_tame_sound z e alloc T stk F : ~ In x00 T -> lists_tame (z := z) e alloc (lenN T) stk F -> lists_sound (z := z) e alloc T stk F.
Proof.
  intros Nz H s0 fuel ops rets s evs Hs Ho Pf R r ->. pose proof (H _ _ _ _ _ _ Hs Ho Pf R r eq_refl) as Tm. split.
  - rewrite <- (under_nil T). eapply tame_sound; [exact Nz|apply N.le_refl|constructor|exact Tm].
  - change (@nil byte) with (under [] []) at 1. eapply tame_sound; [intros []|apply N.le_0_l|constructor|exact Tm].
Qed.

Lemma sound_app lk stk a : forall P nm b, sound lk stk P nm (a ++ b) -> sound lk stk P nm a.
Proof.
  induction a as [|ev a IH]; intros P nm b H; [exact I|]. cbn [app sound] in *.
  destruct ev as [id d| | |d|ft it name|d| | |d tl]; try contradiction; eauto.
  - destruct ft; eauto.
    + destruct H as (H1 & H). eauto.
    + destruct H as (H1 & H2 & H). eauto.
  - destruct H as (Q & H1 & H). eauto.
  - destruct H as (H1 & H). eauto.
Qed.
Lemma sound_reads lk stk P nm ds r : sound lk stk P nm r -> sound lk stk P nm (map EvRead ds ++ EvFileEnd :: r).
Proof. intro H. induction ds as [|d ds IH]; [exact H|exact IH]. Qed.

Lemma shows_sound stk : forall rs obs, shows rs obs -> forall P nm evs st, flat evs = obs -> proto_run Idle evs = Some st -> no_links rs ->
  sound_recs stk P rs -> sound true stk P nm evs.
Proof.
  induction 1 as [|name mode rs o it H1 H2 H3 H4 H IH|name mode data rs o H IH|name mode target rs o H IH|rs o H IH];
    intros P nm evs st F Pr NL Tm; cbn [sound_recs] in Tm; try (inversion NL as [|? ? Nl NL']; subst).
  - destruct evs as [|ev evs]; [exact I|]. cbn [proto_run] in Pr. destruct ev; cbn in Pr, F; try discriminate.
  - destruct (idle_entry _ _ _ _ _ _ Pr F) as (evs' & -> & F'). cbn [sound].
    rewrite H1, padded_take. split; [apply padded_len|]. eapply IH; [exact F'|exact Pr|exact NL'|exact Tm].
  - destruct (idle_entry _ _ _ _ _ _ Pr F) as (evs' & -> & F'). cbn [proto_run proto_step] in Pr.
    destruct (file_reads _ _ _ _ _ Pr F') as (ds & evs2 & -> & Ed & F2 & P2). cbn [sound it_nlen].
    split; [apply padded_len|]. split; [apply Tm|]. apply sound_reads. eapply IH; [exact F2|exact P2|exact NL'|apply Tm].
  - contradiction.
  - destruct (idle_end _ _ _ Pr F) as (evs' & -> & F' & P'). destruct Tm as (Q & Lv & Tm). cbn [sound]. exists Q. split; [exact Lv|]. eapply IH; [exact F'|exact P'|exact NL'|exact Tm].
Qed.
Lemma sound_unreads lk stk P nm ds r : sound lk stk P nm (map EvRead ds ++ EvFileEnd :: r) -> sound lk stk P nm r.
Proof. intro H. induction ds as [|d ds IH]; [exact H|exact (IH H)]. Qed.
Lemma sound_shows stk : forall rs obs, shows rs obs -> forall P nm evs st, flat evs = obs -> proto_run Idle evs = Some st ->
  sound false stk P nm evs -> sound_recs stk P rs.
Proof.
  induction 1 as [|name mode rs o it H1 H2 H3 H4 H IH|name mode data rs o H IH|name mode target rs o H IH|rs o H IH];
    intros P nm evs st F Pr Tm; cbn [sound_recs]; [exact I| | | |].
  - destruct (idle_entry _ _ _ _ _ _ Pr F) as (evs' & -> & F'). cbn [sound] in Tm.
    rewrite H1, padded_take in Tm. destruct Tm as [_ Tm]. eapply IH; [exact F'|exact Pr|exact Tm].
  - destruct (idle_entry _ _ _ _ _ _ Pr F) as (evs' & -> & F'). cbn [proto_run proto_step] in Pr.
    destruct (file_reads _ _ _ _ _ Pr F') as (ds & evs2 & -> & Ed & F2 & P2). cbn [sound it_nlen] in Tm.
    destruct Tm as (_ & L & Tm). split; [exact L|]. eapply IH; [exact F2|exact P2|]. eapply sound_unreads, Tm.
  - destruct (idle_entry _ _ _ _ _ _ Pr F) as (evs' & -> & F'). cbn [proto_run proto_step] in Pr. cbn [sound] in Tm.
    destruct evs' as [|ev evs']; [discriminate F'|]. cbn [proto_run] in Pr. destruct ev; cbn in Pr, F'; try discriminate.
    injection F' as F'. cbn [sound] in Tm. destruct Tm as [_ Tm]. eapply IH; [exact F'|exact Pr|exact Tm].
  - destruct (idle_end _ _ _ Pr F) as (evs' & -> & F' & P'). cbn [sound] in Tm. destruct Tm as (Q & Lv & Tm). exists Q. split; [exact Lv|]. eapply IH; [exact F'|exact P'|exact Tm].
Qed.
Lemma recs_sound z (C : zlib_contract z) e alloc T stk F recs : (forall k n, alloc k n = true) ->
  dir_archive C F recs -> no_links recs -> sound_recs stk T recs -> sound_recs stk [] recs -> lists_sound (z := z) e alloc T stk F.
Proof.
  intros Halloc (B & Fi & Ar & En & Rk) NL Tm Tm0 s0 fuel ops rets s evs Hs Ho [x Pf] H r ->.
  destruct (N.lt_ge_cases (lenN (zc_dec C (dfed ops))) 128) as [Ls|Ls].
  { pose proof (before_header z C e alloc _ _ _ _ _ _ Hs Ho Ls H). discriminate. }
  pose proof (zc_dec_mono _ C (dfed ops) x) as Pd. rewrite <- Pf in Pd.
  pose proof (archive_of_prefix _ _ _ Pd Ls Ar) as Ar1.
  destruct (dir_session z C e alloc _ _ _ _ _ _ Hs Ho Ar1 H) as [[Q|(ch & ev' & Q & (s' & E) & P1)] _]; [discriminate|]. injection Q as <-.
  destruct (prefix_trans _ _ _ _ P1 (prefix_dropN 128 _ _ Pd)) as [y Ey].
  assert (At : at_hdr e (dir_fresh (set_err false (d_p s0)))) by (apply fresh_at_hdr, (started_leftovers z), Hs).
  destruct (parse_chunks_ok e alloc (ch ++ [(y, [])]) _ (fresh_pwf e _ (started_leftovers z s0 Hs))) as (s1 & ev1 & E1 & _ & P).
  pose proof E1 as E2. rewrite HLProps.parse_chunks_app, E in E2. cbn [obind] in E2.
  destruct (parse_chunks e alloc s' [(y, [])]) as [[s2 ev2]| |]; try discriminate E2. cbn [obind] in E2. injection E2 as <- <-.
  assert (Sh : shows recs (flat (r ++ ev2))).
  { eapply (decode_chunks e alloc Halloc); [exact At| |exact Rk|exact E1].
    unfold ctext in *. rewrite map_app, concat_app. cbn [map concat fst]. rewrite app_nil_r, <- Ey. exact En. }
  split; eapply sound_app; (eapply shows_sound; [exact Sh|reflexivity|exact P|exact NL|]); assumption.
Qed.

Lemma recs_unsound z (C : zlib_contract z) e alloc T stk F recs : (forall k n, alloc k n = true) ->
  dir_archive C F recs -> ~ sound_recs stk T recs -> lists_unsound (z := z) e alloc T stk F.
Proof.
  intros Ha D Ns s0 fuel ops rets s evs Hs Ho Fed R Rl. rewrite <- Fed in D.
  destruct (session_extends z C e alloc Ha _ _ _ _ _ _ _ Hs Ho D R) as (_ & _ & K).
  destruct (K Rl) as (evs' & st & -> & Sh & P); [intros ->; apply Ns; exact I|].
  exists evs'. split; [reflexivity|]. intro S. apply Ns. eapply sound_shows; [exact Sh|reflexivity|exact P|exact S].
Qed.

(** Own archives, also cut ones, whatever the file system is. *)
Lemma own_returns z (C : zlib_contract z) e alloc hal al stk obuf hjunk pjunk : calm z hal al stk obuf hjunk pjunk -> (forall k n, alloc k n = true) ->
  forall priv um es F T archive inp o fuel, archives_dir z es F -> prefix (first_bytes archive inp) F -> (length inp < fuel)%nat -> ~ In x00 T ->
  Forall (fun x => quiet (snd x)) es -> Forall (fun x => extractable priv um (lenN T) (fst x) (snd x)) es ->
  exists dfuel0, forall dfuel, (dfuel0 <= dfuel)%nat -> exists ret x o',
    exec (extract T hal stk z e alloc archive fuel dfuel al obuf hjunk pjunk inp false) o = Ok ((ret, x), o').
Proof.
  intros Calm Ha priv um es F T archive inp o fuel A Pf Hf Nz Q X.
  assert (Tm : lists_tame (z := z) e alloc (lenN T) stk (first_bytes archive inp)).
  { eapply lists_tame_prefix; [exact Pf|]. eapply archived_tame; eauto. apply (ca_stk _ _ _ _ _ _ _ Calm). }
  pose proof (dir_archived z C es F A Q) as (_ & _ & Ar & _).
  destruct (N.lt_ge_cases (lenN (zc_dec C (first_bytes archive inp))) 128) as [L|L].
  2:{ eapply sound_returns; eauto; [|now apply lists_tame_sound]. destruct Pf as [y ->]. eapply archive_of_prefix; [apply zc_dec_mono|exact L|exact Ar]. }
  rewrite <- limited_first in *. apply (extract_runs z C e alloc hal al stk obuf hjunk pjunk Calm); [exact Hf|now left|].
  intros s0 dfuel ops rets s evs St Ho Fed R. rewrite (before_header z C e alloc _ _ _ _ _ _ St Ho ltac:(rewrite Fed; exact L) R). cbn. eauto.
Qed.

(** Both for the records of an archive without links. *)
Lemma recs_returns z (C : zlib_contract z) e alloc hal al stk obuf hjunk pjunk : calm z hal al stk obuf hjunk pjunk -> (forall k n, alloc k n = true) ->
  forall recs T archive inp o fuel, dir_archive C (first_bytes archive inp) recs -> no_links recs -> (length inp < fuel)%nat -> ~ In x00 T ->
  sound_recs stk T recs -> sound_recs stk [] recs ->
  exists dfuel0, forall dfuel, (dfuel0 <= dfuel)%nat -> exists ret x o',
    exec (extract T hal stk z e alloc archive fuel dfuel al obuf hjunk pjunk inp false) o = Ok ((ret, x), o').
Proof.
  intros Calm Ha recs T archive inp o fuel D NL Hf Nz S1 S2. eapply sound_returns; eauto; [apply D|]. eapply recs_sound; eauto.
Qed.
Lemma recs_fails z (C : zlib_contract z) e alloc hal al stk obuf hjunk pjunk : calm z hal al stk obuf hjunk pjunk -> (forall k n, alloc k n = true) ->
  forall recs T archive inp o fuel dfuel ret s h ds o', dir_archive C (first_bytes archive inp) recs -> ~ In x00 T -> ~ sound_recs stk T recs ->
  exec (extract T hal stk z e alloc archive fuel dfuel al obuf hjunk pjunk inp false) o = Ok ((ret, Some (s, h, ds)), o') -> room_left s -> h_err h = true.
Proof.
  intros Calm Ha recs T archive inp o fuel dfuel ret s h ds o' D Nz Ns. eapply unsound_fails; eauto; [apply D|]. eapply recs_unsound; eauto.
Qed.
