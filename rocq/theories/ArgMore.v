(** ArgMore.v: registrations, help text and destruction of the command line parser. *)
From Verif Require Import Base ArgParser ArgSpec ArgFacts.

(** ** What parsing never changes *)
Definition keeps (p q : prs) : Prop :=
  same_but_objs p q /\ (forall k, pr_obj p k = None <-> pr_obj q k = None).

Lemma keeps_refl p : keeps p p.
Proof. now repeat split. Qed.
Lemma keeps_trans p q r : keeps p q -> keeps q r -> keeps p r.
Proof.
  intros [(A & B & C & D) E] [(A' & B' & C' & D') E'].
  split; [repeat split; congruence|]. intro k. now rewrite E.
Qed.
Lemma keeps_set k ob ob' p : pr_obj p k = Some ob -> keeps p (set_obj k ob' p).
Proof.
  intro H. split; [now repeat split|]. intro x. cbn [set_obj pr_obj]. unfold upd_obj.
  destruct (N.eqb_spec x k) as [->|]; [|reflexivity]. rewrite H. split; discriminate.
Qed.

Lemma take_right_keeps k s s' : take_right k s = Ok s' -> keeps (ps_prs s) (ps_prs s').
Proof.
  unfold take_right. destruct (arg_at _ _) as [a| |]; cbn [obind]; try discriminate.
  destruct (starts_dash a); [intros [= <-]; apply keeps_refl|].
  destruct (_ <? _); [|intros [= <-]; apply keeps_refl].
  destruct (pr_obj _ _) eqn:E; try discriminate. destruct (move _ _ _ _); cbn [obind]; try discriminate.
  intros [= <-]. now apply keeps_set with (1 := E).
Qed.

Lemma take_left_keeps k s s' : take_left k s = Ok s' -> keeps (ps_prs s) (ps_prs s').
Proof.
  unfold take_left. destruct (_ =? _); [intros [= <-]; apply keeps_refl|].
  destruct (arg_at _ _) as [a| |]; cbn [obind]; try discriminate.
  destruct (starts_dash a); [intros [= <-]; apply keeps_refl|].
  destruct (pr_obj _ _) eqn:E; try discriminate. destruct (move _ _ _ _); cbn [obind]; try discriminate.
  intros [= <-]. now apply keeps_set with (1 := E).
Qed.

Lemma parse_step_keeps s s' : parse_step s = Ok s' -> keeps (ps_prs s) (ps_prs s').
Proof.
  rewrite parse_step_hit. destruct (arg_at _ _) as [a0| |]; cbn [obind]; try discriminate.
  destruct (skip_loop _ _ _ _ _ _) as [[i log1]| |]; cbn [obind]; try discriminate.
  destruct (arg_at i _) as [a| |]; cbn [obind]; try discriminate.
  unfold hit. destruct (pr_map _ a) as [k|]; [|intros [= <-]; apply keeps_refl].
  destruct (pr_obj _ k) as [ob|] eqn:E; try discriminate.
  destruct (ob_found ob); [intros [= <-]; apply keeps_refl|]. cbv zeta.
  set (ob1 := Opt _ _ _ _ _). pose proof (keeps_set k ob ob1 _ E) as K. set (p1 := set_obj k ob1 _) in *.
  destruct (_ <? _); [|intros [= <-]; exact K].
  destruct (move _ _ _ _) as [c| |]; cbn [obind]; try discriminate.
  set (s1 := PSt _ _ _ _ _).
  assert (K1 : keeps (ps_prs s) (ps_prs s1)) by exact K. clearbody s1.
  destruct (ob_kind ob).
  - now intros [= <-].
  - intro H. apply take_right_keeps in H. now apply keeps_trans with (1 := K1).
  - now intros [= <-].
  - destruct (take_left k s1) as [s2| |] eqn:E2; cbn [obind]; try discriminate.
    apply take_left_keeps in E2. intro H. apply take_right_keeps in H.
    apply keeps_trans with (1 := K1). now apply keeps_trans with (1 := E2).
Qed.

Lemma parse_loop_keeps fuel s s' : parse_loop fuel s = Ok s' -> keeps (ps_prs s) (ps_prs s').
Proof.
  revert s; induction fuel as [|f IH]; intros s; [discriminate|]. cbn [parse_loop].
  destruct (_ <? _); [|intros [= <-]; apply keeps_refl].
  destruct (parse_step s) as [s1| |] eqn:E; cbn [obind]; try discriminate.
  apply parse_step_keeps in E. intro H. apply IH in H. now apply keeps_trans with (1 := E).
Qed.

(** ** Registration *)
Lemma reg_key_fields id key p q : reg_key id key p = Ok q ->
  pr_next q = pr_next p /\ pr_vect q = pr_vect p /\ pr_max q = pr_max p /\
  pr_obj q id = pr_obj p id /\ pr_map q key = Some id /\
  (forall n, pr_map p n = Some id -> pr_map q n = Some id).
Proof.
  unfold reg_key. destruct (pr_map p key) as [k|] eqn:Ek.
  - destruct (N.eqb_spec k id) as [->|Hk]; cbn [obind].
    + intros [= <-]. cbn. repeat (split; [reflexivity|]). unfold upd_map.
      split; [now rewrite (proj2 (bytes_eqb_spec key key) eq_refl)|].
      intros n Hn. now destruct (bytes_eqb n key).
    + unfold del_obj. destruct (pr_obj p k); cbn [obind]; try discriminate.
      intros [= <-]. cbn. repeat (split; [reflexivity|]). unfold upd_map.
      split; [now apply upd_obj_other; auto|].
      split; [now rewrite (proj2 (bytes_eqb_spec key key) eq_refl)|].
      intros n Hn. now destruct (bytes_eqb n key).
  - cbn [obind]. intros [= <-]. cbn. repeat (split; [reflexivity|]). unfold upd_map.
    split; [now rewrite (proj2 (bytes_eqb_spec key key) eq_refl)|].
    intros n Hn. now destruct (bytes_eqb n key).
Qed.

Lemma reg_keys_fields id keys p q : reg_keys id keys p = Ok q ->
  pr_next q = pr_next p /\ pr_vect q = pr_vect p /\ pr_max q = pr_max p /\
  pr_obj q id = pr_obj p id /\
  (forall n, In n keys \/ pr_map p n = Some id -> pr_map q n = Some id).
Proof.
  revert p; induction keys as [|k r IH]; intros p; cbn [reg_keys].
  - intros [= <-]. repeat (split; [reflexivity|]). intros n [[]|H]; assumption.
  - destruct (reg_key id k p) as [p1| |] eqn:E; cbn [obind]; try discriminate.
    apply reg_key_fields in E. destruct E as (A & B & C & D & E & F).
    intro H. apply IH in H. destruct H as (A' & B' & C' & D' & E').
    repeat (split; [congruence|]). intros n [[->|Hn]|Hn]; apply E'; auto.
Qed.

(** C61, what holds. *)
Lemma defaults_right name d3 d4 p q n fuel args s :
  add_option true name ARight d3 d4 p = Ok q -> In n (own_keys name ARight) ->
  parse_args fuel args q = Ok s -> in_vector (ps_log s) ->
  exists k, pr_map q n = Some k /\
  (gift_of k (snd (scan (pr_map q) (kind_in q) (found_in q) [] args)) = Some (None, None) ->
   value_right n (ps_prs s) = Ok (Some (str_or_empty d3))).
Proof.
  unfold add_option, own_keys. destruct (split_names [] (c_str name)) as [names h]. cbn [fst new_opt].
  destruct (reg_keys _ _ _) as [p2| |] eqn:E; cbn [obind]; try discriminate.
  intros Hq Hn Hs Hl. apply reg_keys_fields in E. destruct E as (_ & _ & _ & Ho & Hm).
  cbn [pr_obj] in Ho. rewrite upd_obj_same in Ho.
  exists (pr_next p). injection Hq as Hq. rewrite <- Hq. cbn [pr_map].
  split; [apply Hm; now left|].
  apply parse_scan in Hs; [|assumption]. rewrite <- Hq in Hs.
  destruct (scan _ _ _ [] args) as [lft got]. cbn [snd]. destruct Hs as (_ & _ & _ & Hs).
  intro Hg. specialize (Hs n (pr_next p) _ (Hm n (or_introl Hn)) Ho).
  rewrite Hg in Hs. exact (proj1 Hs).
Qed.

Lemma defaults_left name d3 d4 p q n fuel args s :
  add_option true name ABoth d3 d4 p = Ok q -> In n (own_keys name ABoth) ->
  parse_args fuel args q = Ok s -> in_vector (ps_log s) ->
  exists k, pr_map q n = Some k /\
  (gift_of k (snd (scan (pr_map q) (kind_in q) (found_in q) [] args)) = Some (None, None) ->
   value_left n (ps_prs s) = Ok (Some (str_or_empty d4)) /\ value_right n (ps_prs s) = Ok (Some [])).
Proof.
  unfold add_option, own_keys. destruct (split_names [] (c_str name)) as [names h]. cbn [fst new_opt].
  destruct (reg_keys _ _ _) as [p2| |] eqn:E; cbn [obind]; try discriminate.
  intros Hq Hn Hs Hl. apply reg_keys_fields in E. destruct E as (_ & _ & _ & Ho & Hm).
  cbn [pr_obj] in Ho. rewrite upd_obj_same in Ho.
  exists (pr_next p). injection Hq as Hq. rewrite <- Hq. cbn [pr_map].
  split; [apply Hm; now left|].
  apply parse_scan in Hs; [|assumption]. rewrite <- Hq in Hs.
  destruct (scan _ _ _ [] args) as [lft got]. cbn [snd]. destruct Hs as (_ & _ & _ & Hs).
  intro Hg. specialize (Hs n (pr_next p) _ (Hm n (or_introl Hn)) Ho).
  rewrite Hg in Hs. split; [exact (proj2 Hs)|exact (proj1 Hs)].
Qed.

(** ** Help text *)
Definition entries (p : prs) : list (bytes * bytes) := map fst (pr_vect p).

Definition help_inv (acc : list (bytes * bytes)) (p : prs) : Prop :=
  entries p = acc /\ Forall (fun e => lenN (fst e) <= pr_max p) acc /\
  pr_max p <= 4611686018427387904.

Lemma len_c_str s : lenN (c_str s) <= lenN s.
Proof. induction s as [|b r IH]; cbn [c_str]; [lia|]. destruct (byte_eqb b nul); rewrite !lenN_cons, ?lenN_nil; lia. Qed.
Lemma len_before_colon s : lenN (before_colon s) <= lenN s.
Proof. induction s as [|b r IH]; cbn [before_colon]; [lia|]. destruct (byte_eqb b colon); rewrite !lenN_cons, ?lenN_nil; lia. Qed.

(** A ':' was found: it takes one byte. *)
Lemma len_before_colon_lt cur s h : snd (split_names cur s) = Some h -> lenN (before_colon s) + 1 <= lenN s.
Proof.
  revert cur; induction s as [|b r IH]; intro cur; cbn [split_names before_colon]; [discriminate|].
  destruct (byte_eqb b colon) eqn:Ec.
  - intros _. rewrite lenN_cons, lenN_nil. lia.
  - rewrite !lenN_cons. destruct (byte_eqb b comma).
    + destruct (split_names [] r) as [l h'] eqn:E. cbn [snd]. intros ->.
      specialize (IH []). rewrite E in IH. specialize (IH eq_refl). lia.
    + intro H. apply IH in H. lia.
Qed.

Lemma add_help mok name kind d3 d4 p q acc : help_inv acc p -> lenN name < 4611686018427387904 ->
  add_option mok name kind d3 d4 p = Ok q -> help_inv (acc ++ entry_of mok name kind) q.
Proof.
  intros (H1 & H2 & H3) Hn. unfold add_option, entry_of, info_of.
  pose proof (len_before_colon_lt [] (c_str name)) as Hlt.
  destruct (split_names [] (c_str name)) as [names h]. cbn [snd] in *.
  assert (Hsame : Ok p = Ok q -> help_inv (acc ++ []) q).
  { intros [= <-]. rewrite app_nil_r. now repeat split. }
  assert (Hk : kind <> ALeft -> exists ob, new_opt kind d3 d4 (str_or_empty h) = Some ob).
  { destruct kind; intro; try easy; now eexists. }
  assert (G : forall ob, new_opt kind d3 d4 (str_or_empty h) = Some ob ->
    (if mok
     then do p2 <- reg_keys (pr_next p) (keys_of kind names)
                 (Prs (upd_obj (pr_obj p) (pr_next p) (Some ob)) (pr_next p + 1) (pr_map p) (pr_vect p) (pr_max p));
      Ok (Prs (pr_obj p2) (pr_next p2) (pr_map p2)
              (pr_vect p2 ++ [(before_colon (c_str name), str_or_empty h, pr_next p)])
              (if pr_max p2 <? match h with Some _ => lenN (before_colon (c_str name)) + 1 | None => lenN name end
               then match h with Some _ => lenN (before_colon (c_str name)) + 1 | None => lenN name end
               else pr_max p2))
     else Ok (Prs (upd_obj (pr_obj p) (pr_next p) (Some ob)) (pr_next p + 1) (pr_map p) (pr_vect p) (pr_max p))) = Ok q ->
    help_inv (acc ++ (if mok then [(before_colon (c_str name), str_or_empty h)] else [])) q).
  { intros ob Hob. destruct mok.
    2:{ intros [= <-]. rewrite app_nil_r. now repeat split. }
    destruct (reg_keys _ _ _) as [p2| |] eqn:E; cbn [obind]; try discriminate.
    apply reg_keys_fields in E. cbn [pr_next pr_vect pr_max] in E. destruct E as (_ & E1 & E2 & _ & _).
    intros [= <-]. rewrite E1, E2.
    pose proof (len_c_str name). pose proof (len_before_colon (c_str name)).
    set (start := match h with Some _ => lenN (before_colon (c_str name)) + 1 | None => lenN name end).
    assert (Hst : lenN (before_colon (c_str name)) <= start /\ start <= 4611686018427387904).
    { subst start. destruct h as [h|]; [|lia]. specialize (Hlt h eq_refl). lia. }
    split; [|split].
    - unfold entries. cbn [pr_vect]. rewrite map_app. cbn [map fst]. now rewrite <- H1.
    - cbn [pr_max]. apply Forall_app. split.
      + eapply Forall_impl; [|exact H2]. intros e He. cbn beta in He |- *. destruct (N.ltb_spec (pr_max p) start); lia.
      + constructor; [|constructor]. cbn [fst]. destruct (N.ltb_spec (pr_max p) start); lia.
    - cbn [pr_max]. destruct (N.ltb_spec (pr_max p) start); lia. }
  destruct kind; cbn [new_opt] in *.
  - intro H. apply (G _ eq_refl). exact H.
  - intro H. apply (G _ eq_refl). exact H.
  - exact Hsame.
  - intro H. apply (G _ eq_refl). exact H.
Qed.

Lemma del_all_fields v p q : del_all v p = Ok q -> pr_next q = pr_next p.
Proof.
  revert p; induction v as [|[[o i] k] r IH]; intro p; cbn [del_all]; [now intros [= <-]|].
  unfold del_obj. destruct (pr_obj p k); cbn [obind]; try discriminate.
  intro H. apply IH in H. exact H.
Qed.

Lemma help_run ops p acc q : help_inv acc p -> short_names ops -> run_aops ops p = Ok q ->
  help_inv (listed acc ops) q.
Proof.
  revert p acc; induction ops as [|o r IH]; intros p acc Hp Hs; cbn [run_aops listed].
  { now intros [= <-]. }
  inversion Hs as [|? ? Ho Hr]; subst.
  destruct o as [mok name kind d3 d4|args|]; cbn [run_aop].
  - destruct (add_option _ _ _ _ _ _) as [p1| |] eqn:E; cbn [obind]; try discriminate.
    apply IH; [|assumption]. now apply add_help with (3 := E).
  - destruct (parse_args _ _ _) as [s| |] eqn:E; cbn [obind]; try discriminate.
    apply IH; [|assumption]. apply parse_loop_keeps in E. cbn [ps_prs] in E.
    destruct E as [(_ & _ & E1 & E2) _]. destruct Hp as (A & B & C).
    unfold help_inv, entries. rewrite <- E1, <- E2. now repeat split.
  - unfold clear. destruct (del_all _ _) as [p1| |]; cbn [obind]; try discriminate.
    apply IH; [|assumption]. split; [reflexivity|]. split; [constructor|]. cbn [pr_max]. lia.
Qed.

Lemma help_lines_aligned mx v : mx <= 4611686018427387904 ->
  Forall (fun e => lenN (fst e) <= mx) (map fst v) ->
  help_lines mx v = Ok (concat (map (help_line (mx + 3)) (map fst v))).
Proof.
  intros Hm. induction v as [|[[o i] k] r IH]; [reflexivity|]. cbn [map help_lines fst concat].
  intro H. inversion H as [|? ? H1 H2]; subst. cbn [fst] in H1. rewrite (IH H2).
  assert (E : u64 (sub64 mx (lenN o) + 2) = mx + 3 - (lenN o + 1)) by (unfold u64, sub64, two64; lia).
  rewrite E. unfold max_size. destruct (N.ltb_spec 9223372036854775807 (mx + 3 - (lenN o + 1))); [lia|].
  cbn [obind]. unfold help_line. cbn [fst snd]. now rewrite <- !app_assoc.
Qed.

(** C59. *)
Lemma help_aligned ops p : short_names ops -> run_aops ops prs_new = Ok p ->
  exists col, help_string p = Ok (concat (map (help_line col) (listed [] ops))) /\
              Forall (fun e => lenN (fst e) + 1 < col) (listed [] ops).
Proof.
  intros Hs H.
  assert (Hi : help_inv [] prs_new) by (split; [reflexivity|]; split; [constructor|]; cbn [prs_new pr_max]; lia).
  destruct (help_run ops prs_new [] p Hi Hs H) as (A & B & C).
  exists (pr_max p + 3). rewrite <- A in *. split.
  - now apply help_lines_aligned.
  - eapply Forall_impl; [|exact B]. intros e He. cbn beta in He |- *. lia.
Qed.

(** ** Ownership of the option objects *)
Definition ids (p : prs) : list N := map snd (pr_vect p).

Record owned (used : list bytes) (p : prs) : Prop := Owned {
  ow_map : forall n k, pr_map p n = Some k -> In n used /\ In k (ids p);
  ow_nodup : NoDup (ids p);
  ow_objs : forall k, pr_obj p k <> None <-> In k (ids p);
  ow_next : forall k, In k (ids p) -> k < pr_next p }.

Lemma reg_keys_fresh id keys p :
  (forall n, In n keys -> pr_map p n = None \/ pr_map p n = Some id) ->
  exists q, reg_keys id keys p = Ok q /\ pr_obj q = pr_obj p /\ pr_next q = pr_next p /\
    pr_vect q = pr_vect p /\ pr_max q = pr_max p /\
    (forall n k, pr_map q n = Some k -> (In n keys /\ k = id) \/ pr_map p n = Some k).
Proof.
  revert p; induction keys as [|a r IH]; intros p H; cbn [reg_keys].
  { exists p. repeat (split; [reflexivity|]). auto. }
  assert (E : reg_key id a p = Ok (Prs (pr_obj p) (pr_next p) (upd_map (pr_map p) a (Some id)) (pr_vect p) (pr_max p))).
  { unfold reg_key. destruct (H a (or_introl eq_refl)) as [->| ->]; [reflexivity|].
    rewrite N.eqb_refl. reflexivity. }
  rewrite E. cbn [obind].
  destruct (IH (Prs (pr_obj p) (pr_next p) (upd_map (pr_map p) a (Some id)) (pr_vect p) (pr_max p)))
    as (q & E1 & E2 & E3 & E4 & E5 & E6).
  { intros n Hn. cbn [pr_map]. unfold upd_map. destruct (bytes_eqb n a); [now right|]. apply H. now right. }
  exists q. split; [assumption|]. repeat (split; [assumption|]).
  intros n k Hk. destruct (E6 n k Hk) as [[A B]|A]; [left; split; [now right|assumption]|].
  cbn [pr_map] in A. unfold upd_map in A. destruct (bytes_eqb n a) eqn:En.
  - apply bytes_eqb_spec in En. subst a. left. split; [now left|congruence].
  - now right.
Qed.

Lemma add_owned name kind d3 d4 p used : owned used p ->
  (forall k, In k (own_keys name kind) -> ~ In k used) ->
  exists q, add_option true name kind d3 d4 p = Ok q /\ owned (own_keys name kind ++ used) q.
Proof.
  intros [O1 O2 O3 O4] Hd. unfold add_option. unfold own_keys in *.
  destruct (split_names [] (c_str name)) as [names h]. cbn [fst] in Hd |- *.
  destruct (new_opt kind d3 d4 (str_or_empty h)) as [ob|] eqn:Hob.
  2:{ destruct kind; try discriminate. exists p. split; [reflexivity|]. now constructor. }
  assert (Hkeys : match kind with ALeft => [] | _ => keys_of kind names end = keys_of kind names)
    by (now destruct kind).
  rewrite Hkeys in *. clear Hkeys.
  set (p1 := Prs _ _ _ _ _).
  destruct (reg_keys_fresh (pr_next p) (keys_of kind names) p1) as (q & E1 & E2 & E3 & E4 & E5 & E6).
  { intros n Hn. left. cbn [p1 pr_map]. destruct (pr_map p n) as [k|] eqn:Ek; [|reflexivity].
    destruct (Hd n Hn). now apply (O1 n k). }
  rewrite E1. cbn [obind]. eexists. split; [reflexivity|].
  assert (Hids : map snd (pr_vect q ++ [(before_colon (c_str name), str_or_empty h, pr_next p)]) =
                 ids p ++ [pr_next p]).
  { rewrite E4, map_app. reflexivity. }
  assert (Hnew : ~ In (pr_next p) (ids p)) by (intro H; apply O4 in H; lia).
  constructor; unfold ids; cbn [pr_map pr_vect pr_obj pr_next]; rewrite ?Hids.
  - intros n k Hk. destruct (E6 n k Hk) as [[A ->]|A].
    + split; [apply in_or_app; now left|apply in_or_app; right; now left].
    + cbn [p1 pr_map] in A. destruct (O1 n k A). split; apply in_or_app; [now right|now left].
  -
    assert (G : forall l : list N, NoDup l -> forall x, ~ In x l -> NoDup (l ++ [x])).
    { clear. induction l as [|a l IH]; intros H x Hx; cbn [app]; [now constructor|].
      inversion H as [|? ? H1 H2]; subst. constructor.
      - rewrite in_app_iff. intros [A|[A|[]]]; [contradiction|]. subst. apply Hx. now left.
      - apply IH; [assumption|]. intro. apply Hx. now right. }
    now apply G.
  - intro k. rewrite E2. cbn [p1 pr_obj]. unfold upd_obj. rewrite in_app_iff. cbn [In].
    destruct (N.eqb_spec k (pr_next p)) as [->|Hk].
    + split; [intros _; right; now left|discriminate].
    + rewrite O3. split; [auto|]. intros [A|[A|[]]]; [assumption|congruence].
  - intros k Hk. rewrite E3. cbn [p1 pr_next]. apply in_app_iff in Hk. destruct Hk as [Hk|[<-|[]]]; [apply O4 in Hk; lia|lia].
Qed.

Lemma del_all_owned v p : NoDup (map snd v) -> (forall k, In k (map snd v) -> pr_obj p k <> None) ->
  exists q, del_all v p = Ok q /\ pr_next q = pr_next p /\
    (forall k, In k (map snd v) -> pr_obj q k = None) /\
    (forall k, ~ In k (map snd v) -> pr_obj q k = pr_obj p k).
Proof.
  revert p; induction v as [|[[o i] k] r IH]; intros p Hn Ha; cbn [del_all].
  { exists p. repeat (split; [easy|]). auto. }
  cbn [map snd] in *. apply NoDup_cons_iff in Hn. destruct Hn as [Hk Hn]. unfold del_obj.
  destruct (pr_obj p k) as [ob|] eqn:E; [|exfalso; apply (Ha k); [now left|assumption]].
  cbn [obind]. set (p1 := Prs _ _ _ _ _).
  destruct (IH p1 Hn) as (q & E1 & E2 & E3 & E4).
  { intros x Hx. cbn [p1 pr_obj]. rewrite upd_obj_other; [apply Ha; now right|]. intros ->. contradiction. }
  exists q. split; [assumption|]. split; [assumption|]. split.
  - intros x [<-|Hx]; [|now apply E3]. rewrite E4 by assumption. apply upd_obj_same.
  - intros x Hx. rewrite E4 by (intro; apply Hx; now right). cbn [p1 pr_obj]. apply upd_obj_other.
    intros ->. apply Hx. now left.
Qed.

Lemma clear_owned used p : owned used p ->
  exists q, clear p = Ok q /\ (forall k, pr_obj q k = None) /\ owned [] q.
Proof.
  intros [O1 O2 O3 O4]. unfold clear.
  destruct (del_all_owned (pr_vect p) p O2) as (q & E1 & E2 & E3 & E4).
  { intros k Hk. now apply O3. }
  rewrite E1. cbn [obind].
  assert (Hnone : forall k, pr_obj q k = None).
  { intro k. destruct (in_dec N.eq_dec k (ids p)) as [Hk|Hk]; [now apply E3|].
    rewrite E4 by assumption. destruct (pr_obj p k) eqn:E; [|reflexivity].
    destruct Hk. apply O3. congruence. }
  eexists. split; [reflexivity|]. split; [exact Hnone|].
  constructor; unfold ids; cbn [pr_map pr_vect pr_obj pr_next map].
  - discriminate.
  - constructor.
  - intro k. rewrite Hnone. split; [congruence|contradiction].
  - contradiction.
Qed.

Lemma run_owned ops used p q : owned used p -> apart used ops -> run_aops ops p = Ok q ->
  exists used', owned used' q.
Proof.
  revert used p; induction ops as [|o r IH]; intros used p Ho Ha; cbn [run_aops].
  { intros [= <-]. now exists used. }
  destruct o as [mok name kind d3 d4|args|]; cbn [run_aop apart] in *.
  - destruct Ha as (-> & Hd & Ha). destruct (add_owned name kind d3 d4 p used Ho Hd) as (p1 & -> & H1).
    cbn [obind]. now apply IH with (2 := Ha).
  - destruct (parse_args _ _ _) as [s| |] eqn:E; cbn [obind]; try discriminate.
    apply parse_loop_keeps in E. cbn [ps_prs] in E. destruct E as [(A & B & C & D) E].
    apply IH with (used := used); [|assumption].
    destruct Ho as [O1 O2 O3 O4]. constructor; unfold ids; rewrite <- ?B, <- ?C, <- ?A; try assumption.
    intro k. rewrite <- (O3 k). split; intros H1 H2; apply H1; now apply E.
  - destruct (clear_owned used p Ho) as (p1 & -> & _ & H1). cbn [obind]. now apply IH with (2 := Ha).
Qed.

Lemma owned_new : owned [] prs_new.
Proof.
  constructor; unfold ids; cbn.
  - discriminate.
  - constructor.
  - intro k. split; [congruence|contradiction].
  - contradiction.
Qed.

Lemma owned_alive used p : owned used p -> alive p.
Proof. intros [O1 _ O3 _] n k H. apply O3. now apply (O1 n k). Qed.

Lemma alive_values p n : alive p -> value_right n p <> UB /\ value_left n p <> UB.
Proof.
  intro H. unfold value_right, value_left, value_of.
  destruct (pr_map p n) as [k|] eqn:E; [|split; discriminate].
  specialize (H n k E). destruct (pr_obj p k); [split; discriminate|congruence].
Qed.

(** C60, what holds. *)
Lemma apart_safe ops p : apart [] ops -> run_aops ops prs_new = Ok p ->
  (exists q, clear p = Ok q /\ forall k, pr_obj q k = None) /\
  (forall n, value_right n p <> UB /\ value_left n p <> UB) /\ alive p.
Proof.
  intros Ha H. destruct (run_owned ops [] prs_new p owned_new Ha H) as [used Ho].
  pose proof (owned_alive _ _ Ho) as Hal.
  destruct (clear_owned used p Ho) as (q & E & Hq & _).
  split; [now exists q|]. split; [intro n; now apply alive_values|assumption].
Qed.

(** Registrations apart from each other never fail, and parsing can only go wrong by leaving the
    vector. *)
Definition no_parse (o : aop) : bool := match o with AParse _ => false | _ => true end.
Lemma apart_registers ops : apart [] ops -> forallb no_parse ops = true ->
  exists p, run_aops ops prs_new = Ok p.
Proof.
  assert (G : forall ops used p, owned used p -> apart used ops -> forallb no_parse ops = true ->
    exists q, run_aops ops p = Ok q).
  { clear ops. induction ops as [|o r IH]; intros used p Ho Ha Hn; cbn [run_aops]; [now exists p|].
    cbn [forallb] in Hn. apply andb_true_iff in Hn. destruct Hn as [Hn Hr].
    destruct o as [mok name kind d3 d4|args|]; cbn [run_aop apart no_parse] in *; [|discriminate|].
    - destruct Ha as (-> & Hd & Ha). destruct (add_owned name kind d3 d4 p used Ho Hd) as (p1 & -> & H1).
      cbn [obind]. now apply IH with (2 := Ha).
    - destruct (clear_owned used p Ho) as (p1 & -> & _ & H1). cbn [obind]. now apply IH with (2 := Ha). }
  intros Ha Hn. now apply G with (1 := owned_new).
Qed.

(** ** A lone unknown argument *)
Lemma lone_unknown p a fuel : pr_map p a = None -> a <> [] -> fuel <> O ->
  parse_args fuel [a] p = UB.
Proof.
  intros Ha Hne Hf. destruct fuel as [|f]; [easy|]. unfold parse_args, parse.
  cbn [parse_loop ps_i ps_argc]. change (lenN [a]) with 1. cbn [N.ltb N.compare]. 
  change (argv_of [a]) with [Some a; None].
  assert (E : parse_step (PSt p 1 0 [Some a; None] []) = UB).
  { rewrite parse_step_hit. cbn [ps_i ps_cells ps_argc ps_prs ps_log].
    change (arg_at 0 [Some a; None]) with (Ok a). cbn [obind].
    destruct a as [|b r]; [easy|]. cbn [length skip_loop].
    change (arg_at 0 [Some (b :: r); None]) with (Ok (b :: r)). cbn [obind]. rewrite Ha.
    change (0 + 1) with 1.
    destruct (length r) as [|t]; cbn [skip_loop];
      change (arg_at 1 [Some (b :: r); None]) with (@UB bytes); reflexivity. }
  rewrite E. reflexivity.
Qed.
