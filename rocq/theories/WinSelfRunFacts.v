(** WinSelfRunFacts.v: facts about runs of self extracting executables on Windows. *)
From Coq Require Import Lia Strings.String.
From Verif Require Import Base Format Zlib LLCompress Compress Parser ParserProofs ParserFacts Decompress DecompressProofs MidProofs MidFacts
  ArchiveSpec ArchiveFacts ArchiveDecode ArchiveEntry ArchiveProps FS FSFacts HL HLSpec HLFacts HLDrive HLProps HLMore ArgParser ArgSpec
  Tools ToolsSpec ToolsFacts SelfRun SelfRunFacts WinTools WinExtract WinExtractSpec WinExtractFacts WinExtractTame CutProps Compress WinArchive WinArchiveSpec WinArchiveFacts WinArchiveProps
  WinCdSpec WinCdFacts WinSelf WinSelfFacts.
Import WinExtract.
Local Notation b := list_byte_of_string.

(** ** RemoveNonEmptyDirectory *)
Lemma out_key cwd : xkey cwd out_folder = cwd ++ [out_folder].
Proof. reflexivity. Qed.
Lemma below_strip : forall p q, WinTools.below p q = match strip p q with Some _ => true | None => false end.
Proof.
  induction p as [|a p IH]; intros q; [reflexivity|]. destruct q as [|c q]; [reflexivity|]. cbn [WinTools.below strip].
  rewrite IH. destruct (bytes_eqb a c) eqn:E; reflexivity.
Qed.
Lemma xremove_one stay rest w : xremove stay (x00 :: rest) w = Ok (xdelete stay out_folder w).
Proof. reflexivity. Qed.

(** ** What Windows keeps of a tree does not depend on its links *)
Lemma entry_unlinked c es : win_entry c (unlinked_all es) = option_map unlinked (win_entry c es).
Proof.
  induction es as [|[n nd] es IH]; [reflexivity|]. cbn [unlinked_all map win_entry fst snd]. fold (unlinked_all es). rewrite IH.
  destruct (_ && _); reflexivity.
Qed.
Lemma at_unlinked : forall q es, win_at q (unlinked_all es) = win_at q es.
Proof.
  induction q as [|c q IH]; intro es; [reflexivity|]. cbn [win_at]. rewrite entry_unlinked.
  destruct (win_entry c es) as [[]|]; cbn [option_map unlinked]; try reflexivity; destruct q; try reflexivity; apply IH.
Qed.
Lemma tree_unlinked es q : win_tree (unlinked_all es) q = win_tree es q.
Proof. destruct q; [reflexivity|]. apply at_unlinked. Qed.
Lemma wextractable_unlinked maxd maxf nd : forall L n, wextractable maxd maxf L n nd -> wextractable maxd maxf L n (unlinked nd).
Proof.
  induction nd as [o st m sz d r|m es IH|m sz t|] using snode_ind2; intros L n H; cbn [unlinked]; auto; [|apply wx_other].
  inversion H; subst; [now apply wx_dot|]. apply wx_dir; try assumption.
  - now rewrite map_map.
  - rewrite Forall_map. rewrite Forall_forall in *. intros x Hx. cbn [fst snd]. apply (IH x Hx). auto.
Qed.
Lemma all_wextractable maxd maxf L es : Forall (fun x => wextractable maxd maxf L (fst x) (snd x)) es ->
  Forall (fun x => wextractable maxd maxf L (fst x) (snd x)) (unlinked_all es).
Proof. intro H. unfold unlinked_all. rewrite Forall_map. eapply Forall_impl; [|exact H]. intros x. apply wextractable_unlinked. Qed.
Lemma all_unlinked_quiet es : Forall (fun x => quiet (snd x)) es -> Forall (fun x => quiet (snd x)) (unlinked_all es).
Proof. intro H. apply (Forall_map_any quiet (fun _ => unlinked)). eapply Forall_impl; [|exact H]. intros x. apply unlinked_quiet. Qed.

(** ** Runs *)
Section Go.
Context (maxd maxf : N) (deny : path -> bool) (hal : N -> bool) (stk : N) (z : zlib) (C : zlib_contract z) (e : endian) (alloc : N -> N -> bool)
  (al : N -> bool) (obuf hjunk : bytes) (pjunk : Parser.pst) (stay : N -> path -> bool) (start : N -> bytes -> wst -> option Z * wst).
Local Notation go fuel dfuel dup rest := (wse_go maxd maxf deny hal stk z e alloc fuel dfuel al obuf hjunk pjunk dup stay rest start).
Local Notation unpack fuel dfuel inp := (xextract maxd maxf deny out_folder hal stk z e alloc 0 fuel dfuel al obuf hjunk pjunk inp false).

Lemma wse_go_cases fuel dfuel dup rest inp w r : go fuel dfuel dup rest inp w = Ok r ->
  (wr_started r = [] /\ (wr_ret r = Some 1%Z \/ wr_ret r = None)) \/
  exists w1 s w2, xremove (stay 0) rest w = Ok w1 /\ unpack fuel dfuel inp w1 = Ok (Some ContentDirectory, s, w2) /\
    let '(c1, w3) := start 0 wse_arg0 w2 in
    (c1 = Some 0%Z /\ exists w4, xremove (stay 1) rest w3 = Ok w4 /\ wr_ret r = Some 0%Z /\ wr_started r = [(wse_arg0, w2)] /\ wr_w r = w4) \/
    (c1 <> Some 0%Z /\ wr_ret r = Some 0%Z /\ wr_started r = [(wse_arg0, w2); (wse_arg1, w3)] /\ wr_w r = snd (start 1 wse_arg1 w3)).
Proof.
  unfold wse_go. destruct dup; cbn [negb]; [|injection 1 as <-; auto].
  destruct (xremove _ _ w) as [w1| |]; try discriminate. cbn [obind].
  destruct (unpack _ _ _ _) as [[[ret st] w2]| |] eqn:E; try discriminate. cbn [obind].
  destruct ret as [ret|]; [|injection 1 as <-; auto].
  destruct (N.eqb_spec ret ContentDirectory) as [->|]; cbn [negb]; [|injection 1 as <-; auto].
  intro H. right. exists w1, st, w2. split; [reflexivity|]. split; [exact E|].
  destruct (start 0 wse_arg0 w2) as [c1 w3].
  destruct c1 as [c|]; cbv beta iota zeta in H; [destruct (Z.eqb_spec c 0) as [->|Nc]|]; cbn [negb] in H.
  - destruct (xremove _ _ w3) as [w4| |]; try discriminate. cbn [obind] in H. injection H as <-. left. split; [reflexivity|]. exists w4. auto.
  - right. split; [congruence|]. destruct (start 1 wse_arg1 w3) as [c2 w4]. injection H as <-. auto.
  - right. split; [congruence|]. change (1 =? 0)%Z with false in H. cbn [negb] in H. destruct (start 1 wse_arg1 w3) as [c2 w4]. injection H as <-. auto.
Qed.

(** C144 *)
Lemma wself_status fuel dfuel dup rest inp w r : go fuel dfuel dup rest inp w = Ok r ->
  (wr_started r = [] /\ (wr_ret r = Some 1%Z \/ wr_ret r = None)) \/
  (wr_ret r = Some 0%Z /\ exists w2, let '(c1, w3) := start 0 (b ".out_dir\maind.exe") w2 in
     (c1 = Some 0%Z /\ wr_started r = [(b ".out_dir\maind.exe", w2)]) \/
     (c1 <> Some 0%Z /\ wr_started r = [(b ".out_dir\maind.exe", w2); (b ".out_dir\main.exe", w3)])).
Proof.
  intro H. destruct (wse_go_cases _ _ _ _ _ _ _ H) as [A|(w1 & s & w2 & _ & _ & A)]; [auto|right].
  fold wse_arg0 wse_arg1. destruct (start 0 wse_arg0 w2) as [c1 w3] eqn:Es.
  destruct A as [(A & w4 & _ & B & D & _)|(A & B & D & _)]; (split; [exact B|]); exists w2; rewrite Es; auto.
Qed.

Lemma xdelete_free w : w_dead w = false -> xdir (w_fs w) (w_cwd w) = true -> (forall r, stay 0 (w_cwd w ++ out_folder :: r) = false) ->
  let t := w_cwd w ++ [out_folder] in let w1 := xdelete (stay 0) out_folder w in
  (lenN out_folder < maxd -> wfree maxd w1 out_folder t) /\ w_cwd w1 = w_cwd w /\
  forall q, w_fs w1 q = match strip t q with Some _ => None | None => w_fs w q end.
Proof.
  intros Dd Pd St t w1.
  assert (Q : forall q, w_fs w1 q = match strip t q with Some _ => None | None => w_fs w q end).
  { intro q. unfold w1, xdelete. cbn [w_fs w_setfs]. rewrite out_key. fold t. rewrite below_strip. destruct (strip t q) as [r|] eqn:Es; [|reflexivity].
    apply strip_spec in Es. subst q. unfold t. rewrite <- app_assoc. cbn [app]. now rewrite St. }
  split; [|split; [reflexivity|exact Q]]. intro L.
  split. { intro Hi. cbn in Hi. repeat (destruct Hi as [Hi|Hi]; [discriminate Hi|]). contradiction. } split; [discriminate|]. split; [exact L|].
  split; [apply out_key|]. split.
  - unfold t. rewrite removelast_last. unfold xdir. rewrite Q. destruct (strip t (w_cwd w)) as [r|] eqn:Es; [|exact Pd].
    apply strip_spec in Es. apply (f_equal (@List.length bytes)) in Es. unfold t in Es. rewrite !app_length in Es. cbn in Es. lia.
  - split; [|exact Dd]. intro r. rewrite Q. now rewrite strip_app.
Qed.

(** C142 *)
Lemma wself_unpacks F es w fuel rest : calm z hal al stk obuf hjunk pjunk -> (forall k n, alloc k n = true) -> (forall q, deny q = false) -> maxf <= PATH_MAX ->
  (List.length F < fuel)%nat -> dir_archive C F (preorder (unlinked_all es)) -> preorder (unlinked_all es) <> [] ->
  Forall (fun x => quiet (snd x)) es -> NoDup (map (fun x => fold_case (fst x)) es) ->
  Forall (fun x => wextractable maxd maxf (lenN out_folder) (fst x) (snd x)) es ->
  w_dead w = false -> xdir (w_fs w) (w_cwd w) = true -> lenN out_folder < maxd -> (forall r, stay 0 (w_cwd w ++ out_folder :: r) = false) ->
  exists dfuel0, forall dfuel, (dfuel0 <= dfuel)%nat -> exists r s,
    go fuel dfuel true (x00 :: rest) F w = Ok r /\ wr_sess r = Some s /\
    (room_left s -> exists w2 more, wr_started r = (b ".out_dir\maind.exe", w2) :: more /\ wr_ret r = Some 0%Z /\ same_w w w2 /\
       forall q, w_fs w2 q = match strip (w_cwd w ++ [out_folder]) q with Some p => win_tree es p | None => w_fs w q end).
Proof.
  intros Ca Ha De Lf Hf Da Ne Q Nd X Dd Pd Ld St.
  destruct (xdelete_free w Dd Pd St) as (Fr & Cw & Fs). specialize (Fr Ld). set (w1 := xdelete (stay 0) out_folder w) in *.
  destruct (xextract_dir maxd maxf deny z C e alloc hal al stk obuf hjunk pjunk Ca De Lf out_folder 0 F (unlinked_all es) (w_cwd w ++ [out_folder]) w1 fuel Ha Hf)
    as (d0 & E); try assumption.
  { now apply all_unlinked_quiet. }
  { unfold folded, unlinked_all. now rewrite map_map. }
  { now apply all_wextractable. }
  exists d0. intros d Hd. destruct (E d Hd) as (ret & s & h & ds & w2 & Ex & G).
  unfold wse_go. cbn [negb]. rewrite xremove_one. cbn [obind]. fold w1. rewrite Ex. cbn [obind].
  destruct (N.eqb_spec ret ContentDirectory) as [->|Nr]; cbn [negb].
  - fold wse_arg0. destruct (start 0 wse_arg0 w2) as [c1 w3] eqn:Es.
    assert (G' : room_left s -> same_w w w2 /\ forall q, w_fs w2 q = match strip (w_cwd w ++ [out_folder]) q with Some p => win_tree es p | None => w_fs w q end).
    { intro Rl. destruct (G Rl) as (_ & G1 & G2). split; [exact G1|]. intro q. rewrite G2. unfold xoverlay. rewrite Fs.
      destruct (strip _ q) as [p|]; [|reflexivity]. rewrite tree_unlinked. now destruct (win_tree es p). }
    destruct (negb (match c1 with Some c => c | None => 1%Z end =? 0)%Z).
    + destruct (start 1 wse_arg1 w3) as [c2 w4]. eexists _, s. split; [reflexivity|]. split; [reflexivity|]. intro Rl. cbn. eauto 6.
    + rewrite xremove_one. cbn [obind]. eexists _, s. split; [reflexivity|]. split; [reflexivity|]. intro Rl. cbn. eauto 6.
  - eexists _, s. split; [reflexivity|]. split; [reflexivity|]. intro Rl. now destruct (G Rl) as [-> _].
Qed.

(** ** .out_dir is there *)
Lemma step_keeps_ret T ev h w h' w' st st' : proto_step st ev = Some st' -> xcb maxd maxf deny T hal stk ev h w = Ok (h', w') -> h_ret h' = h_ret h.
Proof.
  intros P H. destruct ev as [id d| | |d|ft it name|d| | |d t]; cbn [xcb] in H; try (injection H as <- <-; reflexivity); try (destruct st; discriminate P).
  - unfold xcb_entry in H. destruct ft; try (injection H as <- <-; reflexivity).
    + destruct (negb _); [injection H as <- <-; reflexivity|]. destruct (entry_path _ _ _) as [p| |]; try discriminate H. cbn [obind] in H.
      destruct (cstr p) as [s|]; [|discriminate H]. destruct (xmkdir _ _ _ _ _) as [[r w1]| |]; try discriminate H. cbn [obind] in H.
      destruct (r =? 0)%Z; injection H as <- <-; reflexivity.
    + destruct (_ <? _); [discriminate H|]. destruct (entry_path _ _ _) as [p| |]; try discriminate H. cbn [obind] in H.
      destruct (cstr p) as [s|]; [|discriminate H]. destruct (xopen _ _ _ _ _ _) as [[fd|] w1]; injection H as <- <-; reflexivity.
  - unfold xcb_dir_end in H. destruct (h_dp h) as [p|]; [|discriminate H]. destruct (cstr p) as [s|]; [|discriminate H].
    destruct (rindex _ s); [|discriminate H]. injection H as <- <-. reflexivity.
Qed.
Lemma run_keeps_ret T evs : forall st st' h w h' w', proto_run st evs = Some st' -> xcbs maxd maxf deny T hal stk evs h w = Ok (h', w') -> h_ret h' = h_ret h.
Proof.
  induction evs as [|ev evs IH]; intros st st' h w h' w' P H; [cbn in H; congruence|]. cbn [proto_run] in P.
  destruct (proto_step st ev) as [st1|] eqn:E; [|discriminate P]. rewrite xcbs_cons in H.
  destruct (xcb _ _ _ _ _ _ ev h w) as [[h1 w1]| |] eqn:Ec; try discriminate H. cbn [obind] in H.
  rewrite <- (step_keeps_ret _ _ _ _ _ _ _ _ E Ec). destruct (w_dead w1); [injection H as <- _; reflexivity|]. eapply IH; eauto.
Qed.
Lemma xmkdir_there ok w s r w' : w_fs w (xkey (w_cwd w) s) <> None -> ~ In x00 s -> s <> [] -> xmkdir maxd deny ok s w = Ok (r, w') -> r <> 0%Z /\ w' = w.
Proof.
  intros Hn Nz Ns H. unfold xmkdir in H. destruct ok; cbn [negb] in H; [|injection H as <- <-; split; [discriminate|reflexivity]].
  unfold xos_create in H. rewrite cstr_app in H by exact Nz. unfold xcreate in H. destruct s as [|c s]; [contradiction|]. cbn [nonempty negb] in H.
  destruct (maxd <=? lenN (c :: s)); cbn [obind] in H. { cbn in H. injection H as <- <-. split; [discriminate|reflexivity]. }
  destruct (w_fs w (xkey (w_cwd w) (c :: s))) as [nd|]; [|contradiction]. cbn in H. injection H as <- <-. split; [discriminate|reflexivity].
Qed.

(** C143 *)
Lemma wself_busy fuel dfuel dup rest inp recs w w1 r : calm z hal al stk obuf hjunk pjunk -> (forall k n, alloc k n = true) -> dir_archive C inp recs -> w_dead w = false ->
  xremove (stay 0) rest w = Ok w1 -> w_fs w1 (w_cwd w1 ++ [out_folder]) <> None ->
  go fuel dfuel dup rest inp w = Ok r -> wr_started r = [] /\ (wr_ret r = Some 1%Z \/ wr_ret r = None).
Proof.
  intros Ca Ha Da Dd Er Hn H. destruct (wse_go_cases _ _ _ _ _ _ _ H) as [A|(w1' & s & w2 & E1 & E2 & _)]; [exact A|exfalso].
  rewrite Er in E1. injection E1 as <-.
  assert (Dd1 : w_dead w1 = false).
  { clear - Er Dd. unfold xremove in Er. destruct (name_list _ _) as [l| |]; try discriminate Er. cbn [obind] in Er. injection Er as <-.
    revert w Dd. induction l as [|x l IH]; intros w Dd; [exact Dd|]. cbn [fold_left]. apply IH. exact Dd. }
  destruct (xextract_did maxd maxf deny z C e alloc hal al stk obuf hjunk pjunk Ca out_folder 0 fuel dfuel inp false w1 _ _ _ Dd1 E2)
    as (s0 & ops & rets & s1 & evs & h & w3 & ds & -> & St & Ho & Fed & R & X & Pf & Full & Dead & Live).
  destruct (w_dead w3) eqn:Dw. { destruct (Dead eq_refl) as [Q _]. discriminate Q. }
  destruct (Live eq_refl) as (_ & v & Q & _ & Hv). injection Q as <-. specialize (Hv eq_refl).
  assert (K : evs = [] \/ exists evs' st, evs = EvDirBegin :: evs' /\ proto_run Idle evs' = Some st) by
    (rewrite <- Fed in Pf; destruct (cut_events z C e alloc Ha inp recs _ _ _ _ _ _ Da St Ho Pf R) as [[->|(evs' & more & st & -> & _ & P)] _]; [now left|]; right;
     rewrite proto_run_app in P; destruct (proto_run Idle evs') as [st'|] eqn:Ep; [eauto|discriminate P]).
  destruct K as [->|(evs' & st & -> & P)].
  - cbn in X. injection X as <- _. discriminate Hv.
  - rewrite xcbs_cons in X. destruct (xcb _ _ _ _ _ _ EvDirBegin HS0 w1) as [[h1 w4]| |] eqn:Ec; try discriminate X. cbn [obind] in X.
    assert (Rh : h_ret h1 = ContentNone).
    { cbn [xcb] in Ec. unfold xcb_dr_start in Ec. destruct (xmkdir _ _ _ _ _) as [[r' w5]| |] eqn:Em; try discriminate Ec. cbn [obind] in Ec.
      apply xmkdir_there in Em; [|exact Hn| |discriminate].
      - destruct Em as [Nr _]. destruct (Z.eqb_spec r' 0); [contradiction|]. cbn [negb] in Ec. injection Ec as <- _. reflexivity.
      - intro Hi. cbn in Hi. repeat (destruct Hi as [Hi|Hi]; [discriminate Hi|]). contradiction. }
    assert (h_ret h = h_ret h1). { destruct (w_dead w4); [injection X as <- _; reflexivity|]. eapply run_keeps_ret; eauto. }
    rewrite H0, Rh in Hv. discriminate Hv.
Qed.
End Go.

(** C142: from the folder to .out_dir *)
Lemma wself_round_trip z (C : zlib_contract z) e jk xjk hjunk al ls locked rd wr opn ndebug icon cfuel fuel argv0 exe out es
  maxd maxf deny hal stk e' alloc al' obuf hjunk' pjunk stay rest start w efuel :
  lenN exe <= max_exe ndebug -> lenN (icon exe) <= max_exe ndebug -> (forall k n, wr k n = n) ->
  wse_main z e jk xjk hjunk al ls locked rd wr opn ndebug icon cfuel fuel argv0 (Some exe) = Ok (SeBuild (CRet 0) out) ->
  ls (snd (se_name_dir argv0)) = Some es -> junk_ok jk (fun _ n => zeros n) xjk hjunk -> tree_fits (Some es) -> Forall (fun x => quiet (snd x)) es ->
  NoDup (map fst es) -> Forall (fun x => below_free (fst (se_name_dir argv0)) (snd x)) es -> Forall (fun x => below_free se_out (snd x)) es ->
  let packed := without_own (fst (se_name_dir argv0)) es in
  calm z hal al' stk obuf hjunk' pjunk -> (forall k n, alloc k n = true) -> (forall q, deny q = false) -> maxf <= PATH_MAX ->
  (List.length (dropN (max_exe ndebug) out) < efuel)%nat -> preorder (unlinked_all packed) <> [] ->
  NoDup (map (fun x => fold_case (fst x)) packed) -> Forall (fun x => wextractable maxd maxf (lenN out_folder) (fst x) (snd x)) packed ->
  w_dead w = false -> xdir (w_fs w) (w_cwd w) = true -> lenN out_folder < maxd -> (forall r, stay 0 (w_cwd w ++ out_folder :: r) = false) ->
  exists cevs, dropN (max_exe ndebug) out = cev_bytes cevs /\ (last_not_full cevs ->
    (forall cfuel' fuel' argv0', wse_main z e jk xjk hjunk al ls locked rd wr opn ndebug icon cfuel' fuel' argv0' (Some out) = Ok (SeRun (cev_bytes cevs))) /\
    exists dfuel0, forall dfuel, (dfuel0 <= dfuel)%nat -> exists r s,
      wse_go maxd maxf deny hal stk z e' alloc efuel dfuel al' obuf hjunk' pjunk true stay (x00 :: rest) start (cev_bytes cevs) w = Ok r /\ wr_sess r = Some s /\
      (room_left s -> exists w2 more, wr_started r = (b ".out_dir\maind.exe", w2) :: more /\ wr_ret r = Some 0%Z /\ same_w w w2 /\
         forall q, w_fs w2 q = match strip (w_cwd w ++ [out_folder]) q with Some p => win_tree packed p | None => w_fs w q end)).
Proof.
  intros Hx Hi Hw H Hl J Ft Q Nd B1 B2 packed Ca Ha De Lf Hf Ne Nf X Dd Pd Ld St.
  pose proof (wse_packs z C e jk xjk hjunk al ls locked rd wr opn ndebug icon cfuel fuel argv0 exe out es Hx Hi Hw H) as K.
  destruct (se_name_dir argv0) as [name dir]. cbn [fst snd] in *. destruct (K Hl J Ft Q Nd B1 B2) as (_ & _ & cevs & D & A).
  exists cevs. split; [exact D|]. intro L. destruct (A L) as (A1 & _ & A2). split; [exact A2|].
  rewrite D in Hf. apply (wself_unpacks maxd maxf deny hal stk z C e' alloc al' obuf hjunk' pjunk stay start (cev_bytes cevs) packed w efuel rest Ca Ha De Lf Hf A1 Ne);
    try assumption. now apply filter_Forall.
Qed.
