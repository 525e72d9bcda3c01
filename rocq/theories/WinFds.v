(** WinFds.v: the descriptors an extraction on Windows leaves open. *)
From Coq Require Import Lia.
From Verif Require Import Base Format Zlib Compress Parser ParserProofs ParserFacts Decompress DecompressProofs MidProofs MidFacts
  ArchiveSpec ArchiveFacts ArchiveDecode FS FSFacts HL HLSpec HLFacts HLDrive HLProps HLSafe HLTame HLMore WinTools WinFacts WinExtract WinExtractSpec
  WinExtractFacts Fds.

Section Win.
Context (maxd maxf : N) (deny : path -> bool).
Lemma xos_fds b w r w' : xos_create maxd deny b w = Ok (r, w') -> w_fds w' = w_fds w.
Proof.
  unfold xos_create. destruct (cstr b) as [s|]; [|discriminate]. unfold xcreate. intro H.
  destruct (negb _); [injection H as _ <-; reflexivity|]. destruct (_ <=? _); [injection H as _ <-; reflexivity|].
  destruct (w_fs w _); [injection H as _ <-; reflexivity|]. destruct (xdir _ _); [|injection H as _ <-; reflexivity].
  destruct (deny _); injection H as _ <-; reflexivity.
Qed.
Lemma down_fds k : forall b idx w x w', xmk_down maxd deny k b idx w = Ok (x, w') -> w_fds w' = w_fds w.
Proof.
  induction k as [|k IH]; intros b idx w x w' H; cbn [xmk_down] in H; [now injection H as _ <-|].
  destruct (cstr b) as [b0|]; [|discriminate]. destruct (delim b0); [|now injection H as _ <-].
  destruct (xos_create _ _ _ w) as [[r w1]| |] eqn:E; try discriminate H. cbn [obind] in H. apply xos_fds in E.
  destruct (r =? -1)%Z; [now injection H as _ <-|]. destruct ((r =? 0)%Z || _); [now injection H as _ <-|]. rewrite <- E. eapply IH; eauto.
Qed.
Lemma up_fds idx : forall b w r w', xmk_up maxd deny b idx w = Ok (r, w') -> w_fds w' = w_fds w.
Proof.
  induction idx as [|i idx IH]; intros b w r w' H; cbn [xmk_up] in H; [now injection H as _ <-|].
  destruct (xos_create _ _ _ w) as [[c w1]| |] eqn:E; try discriminate H. cbn [obind] in H. apply xos_fds in E.
  destruct (c =? 0)%Z; [rewrite <- E; eapply IH; eauto|now injection H as _ <-].
Qed.
Lemma xmkdir_fds ok s w r w' : xmkdir maxd deny ok s w = Ok (r, w') -> w_fds w' = w_fds w.
Proof.
  unfold xmkdir. intros H. destruct (negb ok); [now injection H as _ <-|].
  destruct (xos_create _ _ _ w) as [[c w1]| |] eqn:E; try discriminate H. cbn [obind] in H. apply xos_fds in E.
  destruct (_ || _ || _); [now injection H as _ <-|].
  destruct (xmk_down _ _ _ _ _ w1) as [[[[b1 idx] en] w2]| |] eqn:D; try discriminate H. cbn [obind] in H. apply down_fds in D.
  destruct en; try (injection H as _ <-; congruence). destruct (lenN idx <? 62); [apply up_fds in H; congruence|injection H as _ <-; congruence].
Qed.
Lemma xopen_fds tr wr s w r w' : xopen maxf deny tr wr s w = (r, w') ->
  match r with Some n => exists p, w_fds w' = (n, (p, 0)) :: w_fds w | None => w_fds w' = w_fds w end.
Proof.
  unfold xopen. intro H. destruct (_ || _ || _); [injection H as <- <-; reflexivity|].
  destruct (w_fs w _) as [[|[] x]|]; try (injection H as <- <-; reflexivity).
  - unfold xopened in H. injection H as <- <-. destruct tr; eexists; reflexivity.
  - destruct (xdir _ _ && _); [|injection H as <- <-; reflexivity]. unfold xopened in H. injection H as <- <-. eexists; reflexivity.
Qed.
Lemma xwrite_fds n d w x B : w_fds w = (n, x) :: B -> exists x', w_fds (xwrite (Some n) d w) = (n, x') :: B.
Proof.
  intro E. unfold xwrite. rewrite E. cbn [find_fd]. rewrite N.eqb_refl. destruct x as [p off]. destruct (w_fs w p) as [[|ro x]|]; eauto.
  cbn [w_fds set_fd]. rewrite N.eqb_refl. eauto.
Qed.

Context (T : bytes) (hal : N -> bool) (stk : N).
Definition wfd_inv (B : list (N * (path * N))) (st : proto) (h : hst) (w : wst) : Prop :=
  h_fp h = None /\
  match st with
  | InFile _ => (h_fd h = None /\ w_fds w = B) \/ exists n x, h_fd h = Some n /\ w_fds w = (n, x) :: B
  | _ => w_fds w = B
  end.
Lemma wfd_step B ev st st1 h w h1 w1 : wfd_inv B st h w -> proto_step st ev = Some st1 -> xcb maxd maxf deny T hal stk ev h w = Ok (h1, w1) ->
  w_dead w1 = false -> wfd_inv B st1 h1 w1.
Proof.
  intros [F V] P X Dd. destruct st as [|k|]; destruct ev as [x y| | |d|ft it name|d| | |d t]; cbn [proto_step] in P; try discriminate P.
  - destruct ft; try discriminate P; injection P as <-; cbn [xcb xcb_entry] in X.
    + destruct (negb _); [injection X as <- <-; split; assumption|].
      destruct (entry_path _ _ _) as [b| |]; try discriminate X. cbn [obind] in X. destruct (cstr b) as [s|]; [|discriminate X].
      destruct (xmkdir _ _ _ _ w) as [[r w2]| |] eqn:E; try discriminate X. cbn [obind] in X. injection X as <- <-. apply xmkdir_fds in E.
      split; [destruct (r =? 0)%Z; assumption|congruence].
    + destruct (stk <? _); [discriminate|].
      destruct (entry_path _ _ _) as [b| |]; try discriminate X. cbn [obind] in X. destruct (cstr b) as [s|]; [|discriminate X].
      destruct (xopen _ _ _ _ _ w) as [r w2] eqn:E. injection X as <- <-. apply xopen_fds in E. rewrite V in E. destruct r as [n|].
      * split; [assumption|]. right. destruct E as (p & E). eexists _, _. split; [reflexivity|exact E].
      * split; [assumption|]. left. auto.
    + injection X as <- <-. split; assumption.
  - injection P as <-. cbn [xcb] in X. unfold xcb_dir_end in X. destruct (h_dp h) as [b|]; [|discriminate]. destruct (cstr b) as [s|]; [|discriminate X].
    destruct (rindex _ _); [|discriminate]. cbn in X. injection X as <- <-. split; assumption.
  - destruct (lenN d <=? k); [|discriminate]. injection P as <-. cbn [xcb] in X. injection X as <- <-. split; [assumption|].
    destruct V as [[V1 V2]|(n & x & V1 & V2)]; rewrite V1 in *; [discriminate Dd|]. right.
    destruct (xwrite_fds _ d _ _ _ V2) as (x' & V'). eauto.
  - destruct (k =? 0); [|discriminate]. injection P as <-. cbn [xcb] in X. injection X as <- <-. split; [assumption|].
    destruct V as [[V1 V2]|(n & x & V1 & V2)]; rewrite V1 in *; [discriminate Dd|].
    unfold xclose. rewrite V2. cbn [find_fd del_fd]. rewrite N.eqb_refl. reflexivity.
  - injection P as <-. cbn [xcb] in X. injection X as <- <-. split; assumption.
Qed.
Lemma wfd_run B : forall evs st st' h w h' w', wfd_inv B st h w -> proto_run st evs = Some st' -> w_dead w = false ->
  xcbs maxd maxf deny T hal stk evs h w = Ok (h', w') -> w_dead w' = false -> wfd_inv B st' h' w'.
Proof.
  induction evs as [|ev evs IH]; intros st st' h w h' w' V P D0 X D1.
  - cbn in P, X. injection P as <-. injection X as <- <-. exact V.
  - cbn [proto_run] in P. destruct (proto_step st ev) as [st1|] eqn:Ps; [|discriminate]. cbn [xcbs] in X.
    destruct (xcb _ _ _ _ _ _ ev h w) as [[h1 w1]| |] eqn:E; try discriminate X. cbn [obind] in X.
    destruct (w_dead w1) eqn:D2; [injection X as <- <-; congruence|].
    exact (IH _ _ _ _ _ _ (wfd_step _ _ _ _ _ _ _ _ V Ps E D2) P D2 X D1).
Qed.
Lemma wfl_reads B n : forall ds h w h' w' x, h_fp h = Some n -> w_fds w = (n, x) :: B -> xcbs maxd maxf deny T hal stk (map EvFlRead ds) h w = Ok (h', w') ->
  h_fp h' = Some n /\ exists x', w_fds w' = (n, x') :: B.
Proof.
  induction ds as [|d ds IH]; intros h w h' w' x F V X; [cbn in X; injection X as <- <-; eauto|].
  cbn [map xcbs xcb obind] in X. rewrite F in X. destruct (xwrite_fds _ d _ _ _ V) as (x1 & V').
  destruct (w_dead _); [injection X as <- <-; eauto|]. eapply IH; eauto.
Qed.
End Win.

Section Extraction.
Context (maxd maxf : N) (deny : path -> bool).
Context (z : zlib) (C : zlib_contract z) (e : endian) (alloc : N -> N -> bool) (hal al : N -> bool) (stk : N) (obuf hjunk : bytes) (pjunk : pst).
Hypothesis Calm : calm z hal al stk obuf hjunk pjunk.

Lemma wone_left T archive fuel dfuel inp rderr w v s h ds w' : supported z C (first_bytes archive inp) -> w_dead w = false ->
  xextract maxd maxf deny T hal stk z e alloc archive fuel dfuel al obuf hjunk pjunk inp rderr w = Ok (Some v, Some (s, h, ds), w') ->
  exists s0 ops rets evs, started z s0 /\ Forall dop_ok ops /\ dfed ops = ds /\ prefix ds (first_bytes archive inp) /\
    run_dops e alloc dfuel s0 ops = Ok (rets, s, evs) /\
    ((file_opens evs = file_ends evs /\ w_fds w' = w_fds w) \/
     (file_opens evs = file_ends evs + 1 /\ one_more (w_fds w) (w_fds w'))).
Proof.
  intros Sup Dd H.
  destruct (xextract_did maxd maxf deny z C e alloc hal al stk obuf hjunk pjunk Calm _ _ _ _ _ _ _ _ _ _ Dd H)
    as (s0 & ops & rets & s1 & evs & h1 & w1 & ds1 & Q & St & Ho & Fed & R & X & Pf & _ & K1 & K2).
  injection Q as <- <- <-. rewrite limited_first in Pf. exists s0, ops, rets, evs. repeat (split; [assumption|]).
  destruct (w_dead w1) eqn:D1; [destruct (K1 eq_refl) as [Q _]; discriminate Q|]. destruct (K2 eq_refl) as [-> _]. clear K1 K2.
  assert (Pf' : prefix (dfed ops) (first_bytes archive inp)) by now rewrite Fed.
  destruct (listing_shape z C e alloc _ _ _ _ _ _ St Ho (supported_prefix z C _ _ Pf' Sup) R) as [->|[(r & st & -> & P)|(dd & ->)]].
  - cbn in X. injection X as <- <-. left. auto.
  - cbn [xcbs] in X. destruct (xcb _ _ _ _ _ _ EvDirBegin HS0 w) as [[h2 w2]| |] eqn:E; try discriminate X. cbn [obind] in X.
    destruct (w_dead w2) eqn:D2; [injection X as <- <-; congruence|].
    assert (V : wfd_inv (w_fds w) Idle h2 w2).
    { cbn [xcb] in E. unfold xcb_dr_start in E. destruct (xmkdir _ _ _ _ w) as [[rr w3]| |] eqn:Em; try discriminate E. cbn [obind] in E.
      apply xmkdir_fds in Em. destruct (negb _); [|destruct (negb _)]; injection E as <- <-; split; auto. }
    destruct (wfd_run _ _ _ T hal stk _ _ _ _ _ _ _ _ V P D2 X D1) as [F W]. unfold xclose_fp. rewrite F.
    pose proof (proto_counts _ _ _ P) as Bal. change (file_opens (EvDirBegin :: r)) with (file_opens r). change (file_ends (EvDirBegin :: r)) with (file_ends r).
    destruct st as [|k|].
    + left. split; [lia|exact W].
    + right. split; [lia|]. destruct W as [[_ W]|(n & [p off] & _ & W)]; [left; exact W|right; eauto].
    + left. split; [lia|exact W].
  - left. split. { unfold file_opens, file_ends, reads. clear. cbn [filter]. induction dd; [reflexivity|exact IHdd]. }
    unfold reads in X. cbn [xcbs xcb] in X. unfold xcb_fl_start in X. destruct (xopen _ _ _ _ _ w) as [r w2] eqn:Eo. cbn [obind] in X.
    apply xopen_fds in Eo. destruct (w_dead w2) eqn:D2; [injection X as <- <-; congruence|]. destruct r as [n|].
    + destruct Eo as (p & Eo). assert (Fp : h_fp (HS (Some n) None None 0 false ContentFile [] 0) = Some n) by reflexivity.
      destruct (wfl_reads maxd maxf deny T hal stk (w_fds w) n dd _ _ _ _ _ Fp Eo X) as (F & x1 & V).
      unfold xclose_fp. rewrite F. unfold xclose. rewrite V. cbn [find_fd del_fd]. rewrite N.eqb_refl. reflexivity.
    + destruct dd as [|d dd].
      * cbn in X. injection X as <- <-. exact Eo.
      * cbn [map xcbs xcb obind] in X. injection X as <- <-. discriminate D1.
Qed.
End Extraction.
