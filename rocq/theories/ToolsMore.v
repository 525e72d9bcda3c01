(** ToolsMore.v: compressdir with the folder as an argument without option; the copy loop. *)
From Coq Require Import Lia Strings.String.
From Verif Require Import Base Format Zlib LLCompress Compress FS ArgParser ArgSpec ArgFacts ArgMore ArgExamples Tools ToolsSpec ToolsFacts.
Local Notation b := list_byte_of_string.

Section Parse.
Context (p : prs) (of : bytes) (k : N) (ob : opt).
Hypothesis (Hof : pr_map p of = Some k) (Hob : pr_obj p k = Some ob) (Hk : ob_kind ob = ARight) (Hf : ob_found ob = false).

Lemma skip_stay : forall todo argc i cells log a kk, arg_at i cells = Ok a -> pr_map p a = Some kk ->
  exists log', skip_loop todo (pr_map p) argc i cells log = Ok (i, log').
Proof.
  induction todo as [|t IH]; intros argc i cells log a kk Ha Hm; cbn [skip_loop]; [eauto|].
  rewrite Ha. cbn [obind]. rewrite Hm. eapply IH; eauto.
Qed.

Lemma at_0 (x : option bytes) l : arg_at 0 (x :: l) = match x with Some a => Ok a | None => UB end.
Proof. reflexivity. Qed.
Lemma at_1 (x y : option bytes) l : arg_at 1 (x :: y :: l) = match y with Some a => Ok a | None => UB end.
Proof. destruct y; reflexivity. Qed.

(** The object after its argument was taken. *)
Definition got (o : bytes) : prs :=
  set_obj k (Opt (ob_kind ob) true o (ob_left ob) (ob_help ob)) (set_obj k (Opt (ob_kind ob) true (ob_right ob) (ob_left ob) (ob_help ob)) p).

Lemma parse_folder_first f o fuel : (2 <= fuel)%nat -> pr_map p f = None -> f <> [] -> starts_dash o = false ->
  exists log, parse_args fuel [f; of; o] p = Ok (PSt (got o) 1 1 [Some f; Some o; Some o; None] log).
Proof.
  intros Hu Hn Hne Hd. destruct fuel as [|[|fuel]]; [lia|lia|].
  unfold parse_args, parse, argv_of. cbn [map app]. change (lenN [f; of; o]) with 3.
  cbn [parse_loop]. cbn [ps_i ps_argc]. change (0 <? 3) with true. cbv iota.
  unfold parse_step at 1. cbn [ps_prs ps_argc ps_i ps_cells ps_log]. rewrite at_0. cbn [obind].
  destruct f as [|f0 f']; [now elim Hne|]. cbn [length skip_loop]. set (f := f0 :: f') in *. rewrite at_0. cbn [obind]. rewrite Hn.
  change (0 + 1) with 1.
  destruct (skip_stay (length f') 3 1 [Some f; Some of; Some o; None] [(0, 3); (0, 3)] of k) as [log' E]; [rewrite at_1; reflexivity|exact Hof|].
  rewrite E. cbn [obind]. rewrite at_1. cbn [obind]. rewrite Hof, Hob, Hf. change (3 - 1) with 2. change (1 <? 2) with true. cbv iota.
  unfold move at 1. change ((lenN [Some f; Some of; Some o; None] <? 1 + 1 + (2 - 1)) || (lenN [Some f; Some of; Some o; None] <? 1 + (2 - 1)))%bool with false.
  cbv iota. cbn [obind]. rewrite Hk.
  change (takeN 1 [Some f; Some of; Some o; None] ++ slice (1 + 1) (2 - 1) [Some f; Some of; Some o; None] ++ dropN (1 + (2 - 1)) [Some f; Some of; Some o; None])
    with [Some f; Some o; Some o; None].
  unfold take_right. cbn [ps_prs ps_argc ps_i ps_cells ps_log]. rewrite at_1. cbn [obind]. rewrite Hd. change (1 <? 2) with true. cbv iota.
  unfold set_obj at 1. cbn [pr_obj]. unfold upd_obj at 1. rewrite N.eqb_refl.
  unfold move. change ((lenN [Some f; Some o; Some o; None] <? 1 + 1 + (2 - 1 - 1)) || (lenN [Some f; Some o; Some o; None] <? 1 + (2 - 1 - 1)))%bool with false.
  cbv iota. cbn [obind].
  change (takeN 1 [Some f; Some o; Some o; None] ++ slice (1 + 1) (2 - 1 - 1) [Some f; Some o; Some o; None] ++ dropN (1 + (2 - 1 - 1)) [Some f; Some o; Some o; None])
    with [Some f; Some o; Some o; None].
  cbn [ob_kind ob_found ob_left ob_help ps_i ps_argc]. change (2 - 1) with 1.
  destruct fuel; cbn [parse_loop ps_i ps_argc]; change (1 <? 1) with false; cbv iota; unfold got; rewrite Hk; eexists; reflexivity.
Qed.

Lemma parse_folder_last f o fuel : (2 <= fuel)%nat -> pr_map p f = None -> 3 <= lenN f -> starts_dash o = false ->
  parse_args fuel [of; o; f] p = UB.
Proof.
  intros Hu Hn Hne Hd. destruct fuel as [|[|fuel]]; [lia|lia|].
  unfold parse_args, parse, argv_of. cbn [map app]. change (lenN [of; o; f]) with 3.
  cbn [parse_loop]. cbn [ps_i ps_argc]. change (0 <? 3) with true. cbv iota.
  unfold parse_step at 1. cbn [ps_prs ps_argc ps_i ps_cells ps_log]. rewrite at_0. cbn [obind].
  destruct (skip_stay (length of) 3 0 [Some of; Some o; Some f; None] [(0, 3)] of k) as [log' E]; [rewrite at_0; reflexivity|exact Hof|].
  rewrite E. cbn [obind]. rewrite at_0. cbn [obind]. rewrite Hof, Hob, Hf. change (3 - 1) with 2. change (0 <? 2) with true. cbv iota.
  unfold move at 1. change ((lenN [Some of; Some o; Some f; None] <? 0 + 1 + (2 - 0)) || (lenN [Some of; Some o; Some f; None] <? 0 + (2 - 0)))%bool with false.
  cbv iota. cbn [obind]. rewrite Hk.
  change (takeN 0 [Some of; Some o; Some f; None] ++ slice (0 + 1) (2 - 0) [Some of; Some o; Some f; None] ++ dropN (0 + (2 - 0)) [Some of; Some o; Some f; None])
    with [Some o; Some f; Some f; None].
  unfold take_right. cbn [ps_prs ps_argc ps_i ps_cells ps_log]. rewrite at_0. cbn [obind]. rewrite Hd. change (0 <? 2) with true. cbv iota.
  unfold set_obj at 1. cbn [pr_obj]. unfold upd_obj at 1. rewrite N.eqb_refl.
  unfold move. change ((lenN [Some o; Some f; Some f; None] <? 0 + 1 + (2 - 1 - 0)) || (lenN [Some o; Some f; Some f; None] <? 0 + (2 - 1 - 0)))%bool with false.
  cbv iota. cbn [obind].
  change (takeN 0 [Some o; Some f; Some f; None] ++ slice (0 + 1) (2 - 1 - 0) [Some o; Some f; Some f; None] ++ dropN (0 + (2 - 1 - 0)) [Some o; Some f; Some f; None])
    with [Some f; Some f; Some f; None].
  cbn [ob_kind ob_found ob_left ob_help ps_i ps_argc]. change (2 - 1) with 1.
  change (0 <? 1) with true. cbv iota.
  unfold parse_step at 1. cbn [ps_prs ps_argc ps_i ps_cells ps_log]. rewrite at_0. cbn [obind]. cbn [set_obj pr_map].
  destruct f as [|f0 [|f1 [|f2 f']]]; try (cbn in Hne; lia). set (f := f0 :: f1 :: f2 :: f') in *.
  change (length f) with (S (S (S (length f')))). cbn [skip_loop].
  rewrite at_0. cbn [obind]. rewrite Hn. change (0 + 1) with 1. rewrite at_1. cbn [obind]. rewrite Hn. change (1 + 1) with 2.
  change (arg_at 2 [Some f; Some f; Some f; None]) with (Ok f). cbn [obind]. rewrite Hn. change (2 + 1) with 3.
  destruct (length f'); cbn [skip_loop]; reflexivity.
Qed.

Lemma got_self o : value_right of (got o) = Ok (Some o).
Proof. unfold value_right, value_of, got, set_obj. cbn [pr_map pr_obj]. rewrite Hof. unfold upd_obj. rewrite N.eqb_refl. reflexivity. Qed.

Lemma got_other o n kk ob' : pr_map p n = Some kk -> (kk =? k) = false -> pr_obj p kk = Some ob' -> ob_found ob' = false ->
  value_right n (got o) = Ok None.
Proof.
  intros H1 H2 H3 H4. unfold value_right, value_of, got, set_obj. cbn [pr_map pr_obj]. rewrite H1. unfold upd_obj. rewrite !H2, H3, H4. reflexivity.
Qed.

Lemma del_all_ok : forall v q, (forall x, In x v -> pr_obj q (snd x) <> None) -> NoDup (map snd v) -> exists q', del_all v q = Ok q'.
Proof.
  induction v as [|[[x y] i] v IH]; intros q H Nd; cbn [del_all]; [eauto|].
  inversion Nd as [|? ? Hi Nd']; subst. unfold del_obj. destruct (pr_obj q i) eqn:E; [|elim (H (x, y, i) (or_introl eq_refl)); exact E].
  cbn [obind]. apply IH; [|exact Nd']. intros w Hw. cbn [pr_obj]. unfold upd_obj. destruct (snd w =? i) eqn:Ew.
  - apply N.eqb_eq in Ew. elim Hi. cbn [snd]. rewrite <- Ew. apply in_map. exact Hw.
  - apply H. now right.
Qed.

Lemma got_clear o : (forall x, In x (pr_vect p) -> pr_obj p (snd x) <> None) -> NoDup (map snd (pr_vect p)) -> exists q, clear (got o) = Ok q.
Proof.
  intros H Nd. unfold clear. destruct (del_all_ok (pr_vect (got o)) (got o)) as [q E].
  - intros x Hx. unfold got, set_obj. cbn [pr_obj]. unfold upd_obj. destruct (snd x =? k); [discriminate|]. now apply H.
  - exact Nd.
  - rewrite E. cbn [obind]. eauto.
Qed.
End Parse.

(** ** compressdir *)
Lemma cd_same : cd_options = cd_ops.
Proof. reflexivity. Qed.

Definition cd_obj : opt := Opt ARight false [] [] (b "Prvide output file name").
Lemma cd_of : pr_map cd_prs (b "-of") = Some 0 /\ pr_obj cd_prs 0 = Some cd_obj.
Proof. split; vm_compute; reflexivity. Qed.

Section Main.
Context (z : zlib) (e : endian) (jk : N -> bytes) (hj : N -> N -> bytes) (xjk : N -> N -> bytes)
  (hjunk : bytes) (al : N -> bool) (opn : bytes -> bool) (ls : bytes -> option (list (bytes * snode))) (room : N).

Lemma main_any pfuel fuel args p : run_aops cd_options prs_new = Ok p ->
  cd_main z e jk hj xjk hjunk al opn ls room pfuel fuel args =
  (do s <- parse_args pfuel args p; cd_after z e jk hj xjk hjunk al opn ls room fuel s).
Proof. intro H. unfold cd_main. rewrite H. reflexivity. Qed.

(** [-of out folder] *)
Lemma cd_folder_last pfuel fuel o f : (2 <= pfuel)%nat -> starts_dash o = false -> pr_map cd_prs f = None -> 3 <= lenN f ->
  cd_main z e jk hj xjk hjunk al opn ls room pfuel fuel [b "-of"; o; f] = UB.
Proof.
  intros Hu Hd Hn Hl. rewrite (main_any _ _ _ cd_prs cd_registered).
  rewrite (parse_folder_last cd_prs (b "-of") 0 cd_obj (proj1 cd_of) (proj2 cd_of) eq_refl eq_refl f o pfuel Hu Hn Hl Hd). reflexivity.
Qed.

Definition cd_other (n : string) (kk : N) : Prop :=
  pr_map cd_prs (b n) = Some kk /\ (kk =? 0) = false /\ exists ob, pr_obj cd_prs kk = Some ob /\ ob_found ob = false.
Lemma cd_others : cd_other "-h" 3 /\ cd_other "-if" 2 /\ cd_other "-cf" 1.
Proof.
  split; [|split]; (split; [vm_compute; reflexivity|split; [reflexivity|eexists; split; [vm_compute; reflexivity|reflexivity]]]).
Qed.
Lemma cd_vect : pr_vect cd_prs = [(b "--output-file,-of", b "Prvide output file name", 0);
  (b "--config-file,-cf", b "Provide config file for input file tree", 1);
  (b "--input-folder,-if", b "The name of the input folder", 2); (b "--help,-h", b "To display this help", 3)].
Proof. vm_compute. reflexivity. Qed.
Lemma cd_objs : pr_obj cd_prs 0 <> None /\ pr_obj cd_prs 1 <> None /\ pr_obj cd_prs 2 <> None /\ pr_obj cd_prs 3 <> None.
Proof. split; [|split; [|split]]; vm_compute; discriminate. Qed.

Lemma cd_values o : value_right (b "-of") (got cd_prs 0 cd_obj o) = Ok (Some o) /\
  value_right (b "-h") (got cd_prs 0 cd_obj o) = Ok None /\ value_right (b "-if") (got cd_prs 0 cd_obj o) = Ok None /\
  value_right (b "-cf") (got cd_prs 0 cd_obj o) = Ok None.
Proof.
  destruct cd_others as ((A1 & A2 & oa & A3 & A4) & (B1 & B2 & ob & B3 & B4) & (C1 & C2 & oc & C3 & C4)).
  split; [exact (got_self cd_prs (b "-of") 0 cd_obj (proj1 cd_of) o)|].
  split; [exact (got_other cd_prs 0 cd_obj o _ _ _ A1 A2 A3 A4)|].
  split; [exact (got_other cd_prs 0 cd_obj o _ _ _ B1 B2 B3 B4)|exact (got_other cd_prs 0 cd_obj o _ _ _ C1 C2 C3 C4)].
Qed.

Lemma clear_four (p : prs) of ob o n0 n1 n2 n3 : pr_vect p = [(n0, 0); (n1, 1); (n2, 2); (n3, 3)] ->
  pr_obj p 0 <> None /\ pr_obj p 1 <> None /\ pr_obj p 2 <> None /\ pr_obj p 3 <> None -> exists q, clear (got p of ob o) = Ok q.
Proof.
  intros E (Q0 & Q1 & Q2 & Q3). apply got_clear.
  - rewrite E. intros x [<-|[<-|[<-|[<-|[]]]]]; assumption.
  - rewrite E. cbn [map snd]. repeat (constructor; [cbn; intuition discriminate|]). constructor.
Qed.
Lemma cd_clear o : exists q, clear (got cd_prs 0 cd_obj o) = Ok q.
Proof. exact (clear_four cd_prs 0 cd_obj o _ _ _ _ cd_vect cd_objs). Qed.

(** [folder -of out] *)
Lemma cd_folder_first pfuel fuel o f : (2 <= pfuel)%nat -> starts_dash o = false -> pr_map cd_prs f = None -> f <> [] ->
  opn o = true ->
  cd_main z e jk hj xjk hjunk al opn ls room pfuel fuel [f; b "-of"; o] =
  (do (r, data) <- cd_archive z e jk hj xjk hjunk al ls room fuel f; Ok (r, Some (o, data))).
Proof.
  intros Hu Hd Hn Hne Ho. rewrite (main_any _ _ _ cd_prs cd_registered).
  destruct (parse_folder_first cd_prs (b "-of") 0 cd_obj (proj1 cd_of) (proj2 cd_of) eq_refl eq_refl f o pfuel Hu Hn Hne Hd) as [log E].
  rewrite E. cbn [obind]. clear E. destruct (cd_values o) as (E1 & E2 & E3 & E4). destruct (cd_clear o) as [q Eq].
  generalize dependent (got cd_prs 0 cd_obj o). intros g E1 E2 E3 E4 Eq.
  unfold cd_after. cbn [ps_prs ps_argc ps_cells]. rewrite E1, E2, E3, E4. cbn [obind].
  unfold cd_decide. cbn [andb N.eqb]. rewrite Ho. cbn [negb]. rewrite at_0. cbn [obind].
  destruct (cd_archive z e jk hj xjk hjunk al ls room fuel f) as [[r data]| |]; [|reflexivity|reflexivity].
  cbn [obind fst]. destruct r; [rewrite Eq|]; reflexivity.
Qed.
End Main.

(** ** The copy loop of the self extract tool *)
Lemma copy_ends rd wr : (forall k n, 0 < n -> 0 < rd k n) -> forall fuel k n rest w, (length rest < fuel)%nat ->
  exists w' n', se_copy rd wr fuel k n rest w = Ok (w', n').
Proof.
  intro Hr. induction fuel as [|fuel IH]; intros k n rest w Hl; [lia|]. cbn [se_copy].
  destruct rest as [|x r]; [eauto|]. set (l := x :: r) in *.
  assert (Hp : 0 < N.min (lenN l) VC_BUFFER_SIZE) by (unfold l, VC_BUFFER_SIZE; rewrite lenN_cons; lia).
  specialize (Hr k _ Hp). set (g := N.min (N.min (lenN l) VC_BUFFER_SIZE) (rd k (N.min (lenN l) VC_BUFFER_SIZE))).
  assert (Hg : 0 < g) by (unfold g; lia). destruct (0 <? g) eqn:E; [|lia]. apply IH.
  assert (lenN (dropN g l) < lenN l) by (rewrite lenN_dropN; lia). unfold lenN in *. lia.
Qed.
