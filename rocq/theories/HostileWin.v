(** HostileWin.v: the same archives on Windows. *)
From Coq Require Import Lia.
From Verif Require Import Base Format Zlib Compress Parser ParserProofs ParserFacts Decompress DecompressProofs MidProofs MidFacts
  ArchiveSpec ArchiveFacts ArchiveDecode FS FSFacts HL HLSpec HLFacts HLDrive HLProps HLSafe MkdirFacts HLTame HLMore MkdirMore
  WinTools WinExtract WinExtractSpec WinExtractFacts WinExtractTame Hostile.

Section Windows.
Context (maxd maxf : N) (deny : path -> bool).

Lemma xos_total b w : ends b -> exists r w', xos_create maxd deny b w = Ok (r, w') /\ w_dead w' = w_dead w.
Proof.
  intro E. destruct (ends_cstr b E) as (s & Es). unfold xos_create. rewrite Es. unfold xcreate.
  destruct (negb _); [eauto|]. destruct (_ <=? _); [eauto|]. destruct (w_fs w _); [eauto|]. destruct (xdir _ _); [|eauto]. destruct (deny _); eauto.
Qed.
Lemma xdown_total : forall k b idx w, ends b -> inside b idx ->
  exists b' idx' en w', xmk_down maxd deny k b idx w = Ok (b', idx', en, w') /\ ends b' /\ inside b' idx' /\ w_dead w' = w_dead w.
Proof.
  induction k as [|k IH]; intros b idx w En Is; cbn [xmk_down]; [eauto 10|].
  destruct (ends_cstr b En) as (s & Es). rewrite Es. destruct (delim s) as [i|] eqn:Ed; [|eauto 10].
  destruct (cut_inside b s i idx Es Ed En Is) as (En' & Is').
  destruct (xos_total (set_byte i x00 b) w En') as (r & w1 & -> & D1). cbn [obind].
  destruct (r =? -1)%Z; [eauto 10|]. destruct (_ || _); [eauto 10|].
  destruct (IH _ (i :: idx) w1 En' Is') as (b' & idx' & en & w' & -> & A & B & D). rewrite D1 in D. eauto 10.
Qed.
Lemma xup_total : forall idx b w, ends b -> inside b idx -> exists r w', xmk_up maxd deny b idx w = Ok (r, w') /\ w_dead w' = w_dead w.
Proof.
  induction idx as [|i idx IH]; intros b w En Is; cbn [xmk_up]; [eauto|]. inversion Is as [|? ? Hi Is2]; subst.
  destruct (set_ends b i x2f Hi En) as [E1 E2]. destruct (xos_total _ w E1) as (c & w1 & -> & D1). cbn [obind]. destruct (c =? 0)%Z; [|eauto].
  assert (Is3 : inside (set_byte i x2f b) idx) by (unfold inside in *; rewrite E2; exact Is2).
  destruct (IH _ w1 E1 Is3) as (r & w' & -> & D). rewrite D1 in D. eauto.
Qed.
Lemma xmkdir_total ok s w : exists r w', xmkdir maxd deny ok s w = Ok (r, w') /\ w_dead w' = w_dead w.
Proof.
  unfold xmkdir. destruct ok; cbn [negb]; [|eauto]. assert (En : ends (s ++ [x00])) by (now exists s).
  destruct (xos_total _ w En) as (r & w1 & -> & D1). cbn [obind]. destruct (_ || _); [eauto|].
  destruct (xdown_total 62 (s ++ [x00]) [] w1 En (Forall_nil _)) as (b' & idx & en & w2 & -> & E2 & I2 & D2). cbn [obind]. rewrite D1 in D2.
  destruct en; eauto. destruct (lenN idx <? 62); [|eauto]. destruct (xup_total idx b' w2 E2 I2) as (r' & w' & -> & D). rewrite D2 in D. eauto.
Qed.

Context (T : bytes) (hal : N -> bool) (stk : N).
Hypothesis Hal : forall n, hal n = true.
Notation xcb := (xcb maxd maxf deny T hal stk).
Notation xcbs := (xcbs maxd maxf deny T hal stk).

Lemma wsound_step ev r P st st1 h w : at_path P h -> sound false stk P (h_name h) (ev :: r) -> proto_step st ev = Some st1 ->
  exists P1 h1 w1, xcb ev h w = Ok (h1, w1) /\ at_path P1 h1 /\ sound false stk P1 (h_name h1) r.
Proof.
  intros A S Ps. destruct ev as [id d| | |d|ft it name|d| | |d tl]; cbn [sound] in S; try contradiction.
  - destruct ft; cbn [WinExtract.xcb]; unfold xcb_entry.
    + exists P, (h_setname name h), w. split; [reflexivity|]. split; [exact A|exact S].
    + destruct S as (L1 & S). rewrite Hal. cbn [negb]. rewrite (entry_spec P) by exact A.
      replace (lenN name <? it_nlen it) with false by (symmetry; apply N.ltb_ge; lia). cbn [obind].
      destruct (cstr_in ((P ++ x2f :: takeN (it_nlen it) name) ++ [x00])) as (s & -> & Nz); [apply in_app_iff; right; now left|].
      destruct (xmkdir_total (hal (h_n (h_alloc (h_setdir ((P ++ x2f :: takeN (it_nlen it) name) ++ [x00]) (h_dplen (h_setname name h) + 1 + it_nlen it) (h_setname name h))))) s w) as (rr & w' & E & _).
      rewrite E. cbn [obind].
      eexists (P ++ x2f :: takeN (it_nlen it) name), _, _. split; [reflexivity|].
      split; [|destruct (rr =? 0)%Z; exact S]. eapply at_entry; [exact A|exact L1| |]; destruct (rr =? 0)%Z; reflexivity.
    + destruct S as (L1 & Ls & S). cbn [h_dplen h_setname]. rewrite (proj1 A).
      replace (stk <? lenN P + 4 + it_nlen it) with false by (symmetry; apply N.ltb_ge; lia). rewrite (entry_spec P) by exact A.
      replace (lenN name <? it_nlen it) with false by (symmetry; apply N.ltb_ge; lia). cbn [obind].
      destruct (cstr_in ((P ++ x2f :: takeN (it_nlen it) name) ++ [x00])) as (s & -> & Nz); [apply in_app_iff; right; now left|].
      destruct (xopen _ _ _ _ _ _) as [[fd|] w1]; eexists P, _, _; split; try reflexivity; split; try exact A; exact S.
    + exists P, (h_setname name h), w. split; [reflexivity|]. split; [exact A|exact S].
  - cbn [WinExtract.xcb]. eauto 8.
  - cbn [WinExtract.xcb]. eauto 8.
  - destruct S as (Q & Lv & S). destruct (end_leaves _ _ _ A Lv) as (b & Eb & (s & Es & Ei) & A').
    cbn [WinExtract.xcb]. unfold xcb_dir_end. rewrite Eb, Es, Ei. cbn [obind]. eexists Q, _, _. split; [reflexivity|]. split; [exact A'|exact S].
  - destruct S as (_ & S). cbn [WinExtract.xcb]. eauto 8.
Qed.
Lemma wsound_run : forall evs P st st' h w, at_path P h -> sound false stk P (h_name h) evs -> proto_run st evs = Some st' ->
  exists h' w', xcbs evs h w = Ok (h', w').
Proof.
  induction evs as [|ev evs IH]; intros P st st' h w A S Pr; [cbn; eauto|].
  cbn [proto_run] in Pr. destruct (proto_step st ev) as [st1|] eqn:Ps; [|discriminate].
  destruct (wsound_step _ _ _ _ _ _ w A S Ps) as (P1 & h1 & w1 & X & A1 & S1). rewrite xcbs_cons, X. cbn [obind]. destruct (w_dead w1); [eauto|]. eapply IH; eauto.
Qed.

Lemma wrun_step ev P st st1 h w h1 w1 : at_path P h -> proto_step st ev = Some st1 -> xcb ev h w = Ok (h1, w1) ->
  exists P1, at_path P1 h1 /\ forall r, sound false stk P1 (h_name h1) r -> sound false stk P (h_name h) (ev :: r).
Proof.
  intros A Ps H. destruct ev as [id d| | |d|ft it name|d| | |d tl]; try (destruct st; discriminate).
  - destruct ft; cbn [WinExtract.xcb] in H; unfold xcb_entry in H.
    + injection H as <- <-. exists P. split; [exact A|]. cbn [sound]. auto.
    + rewrite Hal in H. cbn [negb] in H. rewrite (entry_spec P) in H by exact A. destruct (N.ltb_spec (lenN name) (it_nlen it)) as [|L1]; [discriminate H|].
      cbn [obind] in H. destruct (cstr_in ((P ++ x2f :: takeN (it_nlen it) name) ++ [x00])) as (s & Es & Nz); [apply in_app_iff; right; now left|].
      rewrite Es in H. destruct (xmkdir _ _ _ s w) as [[rr w']| |]; try discriminate H. cbn [obind] in H.
      exists (P ++ x2f :: takeN (it_nlen it) name). injection H as <- <-.
      split; [eapply at_entry; [exact A|exact L1| |]; destruct (rr =? 0)%Z; reflexivity|]. intros r S. cbn [sound]. split; [exact L1|]. destruct (rr =? 0)%Z; exact S.
    + cbn [h_dplen h_setname] in H. rewrite (proj1 A) in H. destruct (N.ltb_spec stk (lenN P + 4 + it_nlen it)) as [|Ls]; [discriminate H|].
      rewrite (entry_spec P) in H by exact A. destruct (N.ltb_spec (lenN name) (it_nlen it)) as [|L1]; [discriminate H|]. cbn [obind] in H.
      destruct (cstr_in ((P ++ x2f :: takeN (it_nlen it) name) ++ [x00])) as (s & Es & Nz); [apply in_app_iff; right; now left|].
      rewrite Es in H. exists P. destruct (xopen _ _ _ _ _ _) as [[fd|] w2]; injection H as <- <-; (split; [exact A|]); intros r S; cbn [sound]; auto.
    + injection H as <- <-. exists P. split; [exact A|]. cbn [sound]. auto.
  - cbn [WinExtract.xcb] in H. injection H as <- <-. exists P. split; [exact A|]. cbn [sound]. auto.
  - cbn [WinExtract.xcb] in H. injection H as <- <-. exists P. split; [exact A|]. cbn [sound]. auto.
  - cbn [WinExtract.xcb] in H. unfold xcb_dir_end in H. destruct (h_dp h) as [b|] eqn:Eb; [|discriminate H].
    destruct (cstr b) as [s|] eqn:Es; [|discriminate H]. destruct (rindex x2f s) as [i|] eqn:Ei; [|discriminate H]. cbn [obind] in H. injection H as <- <-.
    destruct (leaves_end _ _ _ _ _ A Eb Es Ei) as (Q & Lv & <-). destruct (end_leaves _ _ _ A Lv) as (b' & Eb' & _ & A'). rewrite Eb in Eb'. injection Eb' as <-.
    exists Q. split; [exact A'|]. intros r S. cbn [sound]. exists Q. auto.
  - cbn [WinExtract.xcb] in H. injection H as <- <-. exists P. split; [exact A|]. intros r S. cbn [sound]. split; [discriminate|exact S].
Qed.
Lemma wrun_sound : forall evs P st st' h w h' w', at_path P h -> proto_run st evs = Some st' -> xcbs evs h w = Ok (h', w') -> w_dead w' = false ->
  sound false stk P (h_name h) evs.
Proof.
  induction evs as [|ev evs IH]; intros P st st' h w h' w' A Pr H Dd; [exact I|].
  cbn [proto_run] in Pr. destruct (proto_step st ev) as [st1|] eqn:Ps; [|discriminate]. rewrite xcbs_cons in H.
  destruct (xcb ev h w) as [[h1 w1]| |] eqn:E; try discriminate H. cbn [obind] in H.
  destruct (wrun_step _ _ _ _ _ _ _ _ A Ps E) as (P1 & A1 & K). destruct (w_dead w1) eqn:D1; [injection H as <- <-; congruence|]. apply K. eapply IH; eauto.
Qed.
Lemma wbegin_total w : exists h w1, xcb EvDirBegin HS0 w = Ok (h, w1) /\ h_name h = [] /\ w_dead w1 = w_dead w /\
  ((at_path T h /\ h_err h = false) \/ (at_path [] h /\ h_err h = true)).
Proof.
  cbn [WinExtract.xcb]. unfold xcb_dr_start. rewrite !Hal. destruct (xmkdir_total true T w) as (rr & w' & -> & D). cbn [obind].
  destruct (rr =? 0)%Z; cbn [negb]; eexists _, _; (split; [reflexivity|]); (split; [reflexivity|]); (split; [exact D|]).
  - left. split; [|reflexivity]. split; [reflexivity|]. right. now exists [].
  - right. split; [|reflexivity]. split; [reflexivity|]. left. auto.
Qed.
End Windows.

Lemma sound_weaken stk : forall evs P nm, sound true stk P nm evs -> sound false stk P nm evs.
Proof.
  induction evs as [|ev evs IH]; intros P nm H; [exact I|]. cbn [sound] in *.
  destruct ev as [id d| | |d|ft it name|d| | |d tl]; try contradiction; eauto.
  - destruct ft; eauto.
    + destruct H as (H1 & H). eauto.
    + destruct H as (H1 & H2 & H). eauto.
  - destruct H as (Q & H1 & H). eauto.
  - destruct H as (H1 & H). split; [discriminate|eauto].
Qed.

Section Whole.
Context (maxd maxf : N) (deny : path -> bool).
Context (z : zlib) (C : zlib_contract z) (e : endian) (alloc : N -> N -> bool) (hal al : N -> bool) (stk : N) (obuf hjunk : bytes) (pjunk : pst).
Hypothesis Calm : calm z hal al stk obuf hjunk pjunk.
Let Hal := ca_hal _ _ _ _ _ _ _ Calm.

Lemma wsound_returns T archive inp w fuel : (length inp < fuel)%nat -> w_dead w = false ->
  archive_of ContentDirectory (zc_dec C (first_bytes archive inp)) -> lists_sound (z := z) e alloc T stk (first_bytes archive inp) ->
  exists dfuel0, forall dfuel, (dfuel0 <= dfuel)%nat -> exists ret x w',
    xextract maxd maxf deny T hal stk z e alloc archive fuel dfuel al obuf hjunk pjunk inp false w = Ok (ret, x, w').
Proof.
  intros Hf Dd Ar Ls. rewrite <- limited_first in *. apply (xextract_runs maxd maxf deny z C e alloc hal al stk obuf hjunk pjunk Calm); [exact Hf|now apply dir_supported|exact Dd|].
  intros s0 dfuel ops rets s evs St Ho Fed R.
  destruct (dir_session_protocol z C e alloc _ _ _ _ _ _ St Ho ltac:(rewrite Fed; exact Ar) R) as [->|(r & st & -> & P)]; [cbn; eauto|].
  destruct (Ls _ _ _ _ _ _ St Ho ltac:(rewrite Fed; apply prefix_refl) R r eq_refl) as [S1 S2].
  destruct (wbegin_total maxd maxf deny T hal stk Hal w) as (h & w1 & X & Nm & D1 & A). rewrite xcbs_cons, X. cbn [obind]. rewrite D1, Dd.
  destruct A as [[A _]|[A _]]; (eapply wsound_run; [exact Hal|exact A|rewrite Nm; apply sound_weaken; assumption|exact P]).
Qed.

Lemma wunsound_fails T archive inp w fuel dfuel ret s h ds w' : w_dead w = false ->
  archive_of ContentDirectory (zc_dec C (first_bytes archive inp)) -> lists_unsound (z := z) e alloc T stk (first_bytes archive inp) ->
  xextract maxd maxf deny T hal stk z e alloc archive fuel dfuel al obuf hjunk pjunk inp false w = Ok (ret, Some (s, h, ds), w') -> room_left s ->
  h_err h = true \/ ret = None.
Proof.
  intros Dd Ar Lu H Rl. rewrite <- limited_first in *. destruct (h_err h) eqn:He; [now left|right].
  destruct (xextract_did maxd maxf deny z C e alloc hal al stk obuf hjunk pjunk Calm _ _ _ _ _ _ _ _ _ _ Dd H)
    as (s0 & ops & rets & s' & evs & h' & w1 & ds' & E & St & Ho & Fed & R & X & Pf & K & Kd & _). injection E as <- <- <-.
  destruct (w_dead w1) eqn:D1; [now apply Kd|]. rewrite (K eq_refl He eq_refl) in Fed.
  destruct (Lu _ _ _ _ _ _ St Ho Fed R Rl) as (r & -> & Ns). destruct Ns.
  destruct (dir_session_protocol z C e alloc _ _ _ _ _ _ St Ho ltac:(rewrite Fed; exact Ar) R) as [Q|(r' & st & Q & P)]; [discriminate|]. injection Q as <-.
  rewrite xcbs_cons in X. destruct (wbegin_total maxd maxf deny T hal stk Hal w) as (h1 & w2 & X1 & Nm & D2 & A). rewrite X1 in X. cbn [obind] in X.
  rewrite D2, Dd in X. destruct A as [[A _]|[_ E1]]; [|rewrite (xcbs_err _ _ _ _ _ _ _ _ _ _ _ X E1) in He; discriminate He].
  rewrite <- Nm. eapply wrun_sound; [exact Hal|exact A|exact P|exact X|exact D1].
Qed.
End Whole.
