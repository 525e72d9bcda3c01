(** ArgFacts.v: proofs about the command line parser. *)
From Verif Require Import Base ArgParser ArgSpec.

Lemma arg_at_app A a C : arg_at (lenN A) (A ++ Some a :: C) = Ok a.
Proof. unfold arg_at. now rewrite dropN_app_exact. Qed.

(** ** Termination *)
Lemma skip_loop_ge t mp argc i cells log i' log' :
  skip_loop t mp argc i cells log = Ok (i', log') ->
  i <= i' /\ exists l, log' = l ++ log.
Proof.
  revert i log; induction t as [|t IH]; intros i log; cbn [skip_loop].
  - intros [= <- <-]. split; [lia|now exists []].
  - destruct (arg_at i cells) as [a| |]; cbn [obind]; try discriminate.
    intro H. apply IH in H. destruct H as [H1 [l ->]].
    split; [destruct (mp a); lia|]. exists (l ++ [(i, argc)]). now rewrite <- app_assoc.
Qed.

Lemma skip_loop_fuel t mp argc i cells log : skip_loop t mp argc i cells log <> NoFuel.
Proof.
  revert i log; induction t as [|t IH]; intros i log; cbn [skip_loop]; [discriminate|].
  unfold arg_at. destruct (dropN i cells) as [|[s|] ?]; cbn [obind]; try discriminate. apply IH.
Qed.

Lemma arg_at_fuel i cells : arg_at i cells <> NoFuel.
Proof. unfold arg_at. destruct (dropN i cells) as [|[s|] ?]; discriminate. Qed.
Lemma move_fuel d s n cells : move d s n cells <> NoFuel.
Proof. unfold move. destruct (_ || _); discriminate. Qed.

Lemma take_right_step k s s' : take_right k s = Ok s' ->
  ps_i s' = ps_i s /\ ps_argc s' <= ps_argc s /\ exists l, ps_log s' = l ++ ps_log s.
Proof.
  unfold take_right. destruct (arg_at _ _) as [a| |]; cbn [obind]; try discriminate.
  destruct (starts_dash a).
  { intros [= <-]. cbn. split; [reflexivity|]. split; [lia|]. now exists [(ps_i s, ps_argc s)]. }
  destruct (_ <? _).
  2:{ intros [= <-]. cbn. split; [reflexivity|]. split; [lia|]. now exists [(ps_i s, ps_argc s)]. }
  destruct (pr_obj _ _); try discriminate. destruct (move _ _ _ _); cbn [obind]; try discriminate.
  intros [= <-]. cbn. split; [reflexivity|]. split; [lia|]. now exists [(ps_i s, ps_argc s)].
Qed.

Lemma take_left_step k s s' : take_left k s = Ok s' -> 
  ps_argc s' - ps_i s' <= ps_argc s - ps_i s /\ exists l, ps_log s' = l ++ ps_log s.
Proof.
  unfold take_left. destruct (N.eqb_spec (ps_i s) 0) as [Hi|Hi].
  { intros [= <-]. split; [lia|now exists []]. }
  destruct (arg_at _ _) as [a| |]; cbn [obind]; try discriminate.
  destruct (starts_dash a).
  { intros [= <-]. cbn [ps_argc ps_i ps_log]. split; [lia|]. now exists [(ps_i s - 1, ps_argc s)]. }
  destruct (pr_obj _ _); try discriminate. destruct (move _ _ _ _); cbn [obind]; try discriminate.
  intros [= <-]. cbn [ps_argc ps_i ps_log]. split; [lia|]. now exists [(ps_i s - 1, ps_argc s)].
Qed.

Lemma parse_step_less s s' : parse_step s = Ok s' -> ps_i s < ps_argc s ->
  ps_argc s' - ps_i s' < ps_argc s - ps_i s /\ exists l, ps_log s' = l ++ ps_log s.
Proof.
  unfold parse_step. intros H Hi. revert H.
  destruct (arg_at _ _) as [a0| |]; cbn [obind]; try discriminate.
  destruct (skip_loop _ _ _ _ _ _) as [[i log1]| |] eqn:Hs; cbn [obind]; try discriminate.
  apply skip_loop_ge in Hs. destruct Hs as [Hge [l ->]].
  destruct (arg_at i _) as [a| |]; cbn [obind]; try discriminate.
  assert (Hlog : exists l0, (i, ps_argc s) :: l ++ (ps_i s, ps_argc s) :: ps_log s = l0 ++ ps_log s).
  { exists ((i, ps_argc s) :: l ++ [(ps_i s, ps_argc s)]). cbn [app]. now rewrite <- app_assoc. }
  set (log := (i, ps_argc s) :: l ++ (ps_i s, ps_argc s) :: ps_log s) in *.
  destruct (pr_map _ a) as [k|].
  2:{ intros [= <-]. cbn [ps_argc ps_i ps_log]. split; [lia|exact Hlog]. }
  destruct (pr_obj _ k) as [ob|]; try discriminate.
  destruct (ob_found ob).
  { intros [= <-]. cbn [ps_argc ps_i ps_log]. split; [lia|exact Hlog]. }
  destruct (N.ltb_spec i (ps_argc s - 1)).
  2:{ intros [= <-]. cbn [ps_argc ps_i ps_log]. split; [lia|exact Hlog]. }
  destruct (move _ _ _ _) as [cells| |]; cbn [obind]; try discriminate.
  set (s1 := PSt _ _ _ _ _).
  assert (H1 : ps_argc s1 - ps_i s1 < ps_argc s - ps_i s) by (subst s1; cbn [ps_argc ps_i]; lia).
  assert (H2 : ps_log s1 = log) by reflexivity.
  clearbody s1. destruct Hlog as [l0 Hl0].
  destruct (ob_kind ob).
  - intros [= <-]. split; [exact H1|]. exists l0. congruence.
  - intro H0. apply take_right_step in H0. destruct H0 as [E1 [E2 [l1 E3]]].
    split; [lia|]. exists (l1 ++ l0). rewrite <- app_assoc. congruence.
  - intros [= <-]. split; [exact H1|]. exists l0. congruence.
  - destruct (take_left k s1) as [s2| |] eqn:H3; cbn [obind]; try discriminate.
    apply take_left_step in H3. destruct H3 as [F1 [l2 F2]].
    intro H0. apply take_right_step in H0. destruct H0 as [E1 [E2 [l1 E3]]].
    split; [lia|]. exists (l1 ++ l2 ++ l0). rewrite <- !app_assoc. congruence.
Qed.

Lemma take_right_fuel k s : take_right k s <> NoFuel.
Proof.
  unfold take_right. pose proof (arg_at_fuel (ps_i s) (ps_cells s)).
  destruct (arg_at _ _) as [a| |]; cbn [obind]; try congruence.
  destruct (starts_dash a); try discriminate. destruct (_ <? _); try discriminate.
  destruct (pr_obj _ _); try discriminate.
  destruct (move _ _ _ _) eqn:E; cbn [obind]; try discriminate. now apply move_fuel in E.
Qed.

Lemma take_left_fuel k s : take_left k s <> NoFuel.
Proof.
  unfold take_left. destruct (_ =? _); try discriminate. 
  destruct (arg_at _ _) as [a| |] eqn:E; cbn [obind]; try discriminate; [|now apply arg_at_fuel in E].
  destruct (starts_dash a); try discriminate.
  destruct (pr_obj _ _); try discriminate.
  destruct (move _ _ _ _) eqn:E1; cbn [obind]; try discriminate. now apply move_fuel in E1.
Qed.

Lemma parse_step_fuel s : parse_step s <> NoFuel.
Proof.
  unfold parse_step.
  destruct (arg_at _ _) as [a0| |] eqn:E; cbn [obind]; try discriminate; [|now apply arg_at_fuel in E].
  destruct (skip_loop _ _ _ _ _ _) as [[i log]| |] eqn:E1; cbn [obind]; try discriminate;
    [|now apply skip_loop_fuel in E1].
  destruct (arg_at i _) as [a| |] eqn:E2; cbn [obind]; try discriminate; [|now apply arg_at_fuel in E2].
  destruct (pr_map _ _); try discriminate. destruct (pr_obj _ _) as [ob|]; try discriminate.
  destruct (ob_found ob); try discriminate. destruct (_ <? _); try discriminate.
  destruct (move _ _ _ _) eqn:E3; cbn [obind]; try discriminate; [|now apply move_fuel in E3].
  destruct (ob_kind ob); try discriminate; [apply take_right_fuel|].
  destruct (take_left _ _) eqn:E4; cbn [obind]; try discriminate; [apply take_right_fuel|now apply take_left_fuel in E4].
Qed.

Lemma parse_loop_ends fuel s : ps_argc s - ps_i s < N.of_nat fuel -> parse_loop fuel s <> NoFuel.
Proof.
  revert s; induction fuel as [|f IH]; intros s H; [lia|]. cbn [parse_loop].
  destruct (N.ltb_spec (ps_i s) (ps_argc s)); try discriminate.
  destruct (parse_step s) as [s'| |] eqn:E; cbn [obind]; try discriminate.
  - apply parse_step_less in E; [|assumption]. apply IH. lia.
  - now apply parse_step_fuel in E.
Qed.

Lemma parse_ends argc cells p fuel : argc < N.of_nat fuel -> parse fuel argc cells p <> NoFuel.
Proof. intro H. apply parse_loop_ends. cbn [ps_argc ps_i]. lia. Qed.

(** ** The loop follows the specification while it stays in the vector *)

Lemma in_vector_app a b : in_vector (a ++ b) <-> in_vector a /\ in_vector b.
Proof. apply Forall_app. Qed.

(** Cells: the arguments kept, the arguments to come, what is behind the vector. *)
Definition layout (kept rest : list bytes) (S : list (option bytes)) : list (option bytes) :=
  map Some (rev kept) ++ map Some rest ++ S.

Lemma layout_cons k a r S : layout (a :: k) r S = layout k (a :: r) S.
Proof. unfold layout. cbn [rev map]. rewrite map_app, <- app_assoc. reflexivity. Qed.

Lemma layout_app u k r S : layout (rev u ++ k) r S = layout k (u ++ r) S.
Proof.
  revert k; induction u as [|a u IH]; intro k; [reflexivity|].
  cbn [rev app]. rewrite <- app_assoc. cbn [app]. now rewrite IH, layout_cons.
Qed.

Lemma len_layout k r S : lenN (layout k r S) = lenN k + lenN r + lenN S.
Proof.
  unfold layout. rewrite !lenN_app. unfold lenN. rewrite !map_length, rev_length. lia.
Qed.

Lemma lenN_rev A (l : list A) : lenN (rev l) = lenN l.
Proof. unfold lenN. now rewrite rev_length. Qed.

Lemma arg_layout k a r S : arg_at (lenN k) (layout k (a :: r) S) = Ok a.
Proof.
  unfold layout. cbn [map app]. rewrite <- (arg_at_app (map Some (rev k)) a (map Some r ++ S)).
  f_equal. unfold lenN. now rewrite map_length, rev_length.
Qed.

Lemma arg_layout_in i k r S a : i < lenN k + lenN r -> lenN k <= i ->
  arg_at i (layout k r S) = Ok a ->
  exists u r', r = u ++ a :: r' /\ lenN u = i - lenN k.
Proof.
  intros H1 H2 H3.
  exists (takeN (i - lenN k) r).
  destruct (dropN (i - lenN k) r) as [|b r'] eqn:E.
  { apply (f_equal lenN) in E. rewrite lenN_dropN in E. rewrite lenN_nil in E. lia. }
  exists r'.
  assert (Er : r = takeN (i - lenN k) r ++ b :: r') by (rewrite <- E; now rewrite takeN_dropN).
  assert (El : lenN (takeN (i - lenN k) r) = i - lenN k) by (rewrite lenN_takeN; lia).
  revert H3. rewrite Er at 1. rewrite <- layout_app.
  replace i with (lenN (rev (takeN (i - lenN k) r) ++ k)) at 1
    by (rewrite lenN_app, lenN_rev, El; lia).
  rewrite arg_layout. intros [= ->]. now split.
Qed.

Lemma move_layout k a r S :
  exists S', move (lenN k) (lenN k + 1) (lenN r) (layout k (a :: r) S) = Ok (layout k r S') /\
             lenN S' = lenN S + 1.
Proof.
  unfold move. rewrite len_layout, lenN_cons.
  replace (_ || _) with false by lia.
  exists (dropN (lenN r) (Some a :: map Some r ++ S)). split.
  2:{ rewrite lenN_dropN, lenN_cons, lenN_app. unfold lenN. rewrite map_length. lia. }
  f_equal. unfold layout at 4. f_equal; [|f_equal].
  - unfold layout. apply takeN_app_exact. unfold lenN. now rewrite map_length, rev_length.
  - unfold slice. rewrite <- layout_cons.
    unfold layout. rewrite dropN_app_exact by (unfold lenN; rewrite map_length, rev_length; cbn [length]; lia).
    apply takeN_app_exact. unfold lenN. now rewrite map_length.
  - rewrite <- dropN_dropN. f_equal. unfold layout.
    rewrite dropN_app_exact by (unfold lenN; now rewrite map_length, rev_length). reflexivity.
Qed.

(** The move after the left argument was taken: the cell behind the vector comes along. *)
Lemma move_layout_left k a r S : 0 < lenN S ->
  exists S', move (lenN k) (lenN k + 1) (lenN r + 1) (layout k (a :: r) S) = Ok (layout k r S') /\
             0 < lenN S'.
Proof.
  intro HS. unfold move. rewrite len_layout, lenN_cons.
  replace (_ || _) with false by lia.
  destruct S as [|c S]; [rewrite lenN_nil in HS; lia|].
  exists (c :: dropN (lenN r + 1) (Some a :: map Some r ++ c :: S)). split; [|rewrite lenN_cons; lia].
  assert (Hr : lenN (map Some r) = lenN r) by (unfold lenN; now rewrite map_length).
  assert (Hk : lenN (map Some (rev k)) = lenN k) by (unfold lenN; now rewrite map_length, rev_length).
  f_equal. unfold layout at 4. f_equal.
  - unfold layout. apply takeN_app_exact. now rewrite Hk.
  - assert (E : slice (lenN k + 1) (lenN r + 1) (layout k (a :: r) (c :: S)) = map Some r ++ [c]).
    { unfold slice. rewrite <- layout_cons.
      unfold layout. rewrite dropN_app_exact by (unfold lenN; rewrite map_length, rev_length; cbn [length]; lia).
      change (map Some r ++ c :: S) with (map Some r ++ [c] ++ S). rewrite app_assoc.
      apply takeN_app_exact. rewrite lenN_app, Hr. reflexivity. }
    rewrite E, <- app_assoc. f_equal. cbn [app]. f_equal.
    rewrite <- dropN_dropN. f_equal. unfold layout.
    rewrite dropN_app_exact by now rewrite Hk. reflexivity.
Qed.

Section Sim.
Variable mp : bytes -> option N.

Definition unknown (a : bytes) : Prop := mp a = None.

Lemma skip_sim t kept rest S log i' log' :
  skip_loop t mp (lenN kept + lenN rest) (lenN kept) (layout kept rest S) log = Ok (i', log') ->
  in_vector log' ->
  exists u r', rest = u ++ r' /\ Forall unknown u /\ i' = lenN kept + lenN u.
Proof.
  revert kept rest log; induction t as [|t IH]; intros kept rest log; cbn [skip_loop].
  - intros [= <- <-] _. exists [], rest. split; [reflexivity|]. split; [constructor|]. rewrite lenN_nil. lia.
  - intros H Hl.
    destruct (arg_at (lenN kept) (layout kept rest S)) as [a| |] eqn:Ha; cbn [obind] in H; try discriminate.
    pose proof (skip_loop_ge _ _ _ _ _ _ _ _ H) as [_ [l Hlog]].
    assert (Hin : lenN kept < lenN kept + lenN rest).
    { rewrite Hlog in Hl. apply in_vector_app in Hl. destruct Hl as [_ Hl]. now inversion Hl. }
    destruct rest as [|b rest]; [rewrite lenN_nil in Hin; lia|].
    rewrite arg_layout in Ha. injection Ha as <-.
    destruct (mp b) as [k|] eqn:Hb.
    + apply IH in H; [|exact Hl]. exact H.
    + replace (lenN kept + 1) with (lenN (b :: kept)) in H by (rewrite lenN_cons; lia).
      replace (lenN kept + lenN (b :: rest)) with (lenN (b :: kept) + lenN rest) in H by (rewrite !lenN_cons; lia).
      rewrite <- layout_cons in H. apply IH in H; [|exact Hl].
      destruct H as (u & r' & -> & Hu & ->).
      exists (b :: u), r'. split; [reflexivity|]. split; [constructor; assumption|]. rewrite !lenN_cons. lia.
Qed.

Lemma scan_unknown kind seen kept u r : Forall unknown u ->
  scan mp kind seen kept (u ++ r) = scan mp kind seen (rev u ++ kept) r.
Proof.
  intro H; revert kept; induction H as [|a u Ha Hu IH]; intro kept; [reflexivity|].
  cbn [app scan]. rewrite Ha, IH. cbn [rev]. now rewrite <- app_assoc.
Qed.
End Sim.

Lemma scan_ext reg kind kind' seen seen' kept args :
  (forall x, kind x = kind' x) -> (forall x, seen x = seen' x) ->
  scan reg kind seen kept args = scan reg kind' seen' kept args.
Proof.
  intros Hk. revert seen seen' kept.
  assert (H : forall n args, (length args <= n)%nat -> forall seen seen' kept,
    (forall x, seen x = seen' x) -> scan reg kind seen kept args = scan reg kind' seen' kept args).
  { clear args. induction n as [|n IH]; intros args Hn seen seen' kept Hs.
    { destruct args; [reflexivity|cbn [length] in Hn; lia]. }
    destruct args as [|a r]; [reflexivity|]. cbn [length] in Hn.
    cbn [scan]. destruct (reg a) as [k|]; [|apply IH; [lia|assumption]]. rewrite <- Hs.
    destruct (seen k); [apply IH; [lia|assumption]|].
    assert (Hs1 : forall x, (x =? k) || seen x = (x =? k) || seen' x) by (intro x; now rewrite Hs).
    destruct r as [|v r1]; [reflexivity|]. cbn [length] in Hn.
    rewrite <- Hk.
    destruct (kind k); [| | |destruct (left_of kept)]; try destruct (starts_dash v);
      (rewrite (IH r1 ltac:(lia) _ _ _ Hs1) ||
       rewrite (IH (v :: r1) ltac:(cbn [length]; lia) _ _ _ Hs1)); reflexivity. }
  intros seen seen' kept Hs. apply (H (length args)); [lia|assumption].
Qed.

(** What an option object becomes when it is seen with values [g]. *)
Definition after (ob : opt) (g : option bytes * option bytes) : opt :=
  Opt (ob_kind ob) true
      (match snd g with Some v => v | None => ob_right ob end)
      (match fst g with Some v => v | None => ob_left ob end) (ob_help ob).
Definition final (got : list (N * (option bytes * option bytes))) (k : N) (ob : opt) : opt :=
  match gift_of k got with Some g => after ob g | None => ob end.

Definition same_but_objs (p q : prs) : Prop :=
  pr_next p = pr_next q /\ pr_map p = pr_map q /\ pr_vect p = pr_vect q /\ pr_max p = pr_max q.

Lemma upd_obj_same f k v : upd_obj f k v k = v.
Proof. unfold upd_obj. now rewrite N.eqb_refl. Qed.
Lemma upd_obj_other f k v x : x <> k -> upd_obj f k v x = f x.
Proof. intro H. unfold upd_obj. now rewrite (proj2 (N.eqb_neq x k) H). Qed.

(** One step with everything read inside the vector. *)
Definition sim_step (p : prs) (kept rest : list bytes) (s' : pst) : Prop :=
  exists kept' rest' S',
  ps_cells s' = layout kept' rest' S' /\
  ps_argc s' = lenN kept' + lenN rest' /\
  ps_i s' = lenN kept' /\
  0 < lenN S' /\
  same_but_objs p (ps_prs s') /\
  (length rest' < length rest)%nat /\
  ((scan (pr_map p) (kind_in p) (found_in p) kept rest =
       scan (pr_map p) (kind_in p) (found_in p) kept' rest' /\
     (followed (pr_map p) (kind_in p) (found_in p) rest = true ->
      followed (pr_map p) (kind_in p) (found_in p) rest' = true) /\
     ps_prs s' = p) \/
   (exists k ob g, pr_obj p k = Some ob /\ ob_found ob = false /\
       (forall x, pr_obj (ps_prs s') x = upd_obj (pr_obj p) k (Some (after ob g)) x) /\
       scan (pr_map p) (kind_in p) (found_in p) kept rest =
         given k (fst g) (snd g)
           (scan (pr_map p) (kind_in p) (fun x => (x =? k) || found_in p x) kept' rest') /\
       (followed (pr_map p) (kind_in p) (found_in p) rest = true ->
        followed (pr_map p) (kind_in p) (fun x => (x =? k) || found_in p x) rest' = true))).

Lemma take_right_dash k p argc kept v r S log : starts_dash v = true ->
  take_right k (PSt p argc (lenN kept) (layout kept (v :: r) S) log) =
  Ok (PSt p argc (lenN kept) (layout kept (v :: r) S) ((lenN kept, argc) :: log)).
Proof.
  intro H. unfold take_right. cbn [ps_i ps_cells ps_argc ps_log ps_prs].
  rewrite arg_layout. cbn [obind]. now rewrite H.
Qed.

Lemma take_right_value k p argc kept v r S log ob : starts_dash v = false ->
  pr_obj p k = Some ob -> argc = lenN kept + lenN (v :: r) ->
  exists S',
  take_right k (PSt p argc (lenN kept) (layout kept (v :: r) S) log) =
  Ok (PSt (set_obj k (Opt (ob_kind ob) (ob_found ob) v (ob_left ob) (ob_help ob)) p)
          (lenN kept + lenN r) (lenN kept) (layout kept r S') ((lenN kept, argc) :: log)) /\
  0 < lenN S'.
Proof.
  intros H Hob ->. unfold take_right. cbn [ps_i ps_cells ps_argc ps_log ps_prs].
  rewrite arg_layout. cbn [obind]. rewrite H, Hob, lenN_cons.
  replace (lenN kept <? _) with true by lia.
  replace (lenN kept + (1 + lenN r) - 1 - lenN kept) with (lenN r) by lia.
  destruct (move_layout kept v r S) as [S' [E HS]]. rewrite E. cbn [obind].
  exists S'. split; [|lia]. do 2 f_equal. lia.
Qed.

Lemma take_left_none k p argc kept r S log : snd (left_of kept) = None ->
  exists l, in_vector l /\ fst (left_of kept) = kept /\
  take_left k (PSt p (lenN kept + argc) (lenN kept) (layout kept r S) log) =
  Ok (PSt p (lenN kept + argc) (lenN kept) (layout kept r S) (l ++ log)).
Proof.
  unfold left_of, take_left. cbn [ps_i ps_cells ps_argc ps_log ps_prs].
  destruct kept as [|v l]; intro H.
  { exists []. split; [constructor|]. now split. }
  destruct (starts_dash v) eqn:Hv; [|discriminate].
  exists [(lenN l, lenN (v :: l) + argc)]. rewrite lenN_cons. split.
  { constructor; [cbn [fst snd]; lia|constructor]. }
  split; [reflexivity|].
  replace (1 + lenN l =? 0) with false by lia. replace (1 + lenN l - 1) with (lenN l) by lia.
  rewrite layout_cons, arg_layout. cbn [obind]. now rewrite Hv.
Qed.

Lemma take_left_value k p kept r S log ob v l : left_of kept = (l, Some v) ->
  pr_obj p k = Some ob -> 0 < lenN S ->
  exists S',
  take_left k (PSt p (lenN kept + lenN r) (lenN kept) (layout kept r S) log) =
  Ok (PSt (set_obj k (Opt (ob_kind ob) (ob_found ob) (ob_right ob) v (ob_help ob)) p)
          (lenN l + lenN r) (lenN l) (layout l r S') ((lenN l, lenN kept + lenN r) :: log)) /\
  0 < lenN S' /\ lenN kept = lenN l + 1.
Proof.
  unfold left_of, take_left. cbn [ps_i ps_cells ps_argc ps_log ps_prs].
  destruct kept as [|v' l']; [discriminate|].
  destruct (starts_dash v') eqn:Hv; [discriminate|]. intros [= -> ->] Hob HS.
  rewrite lenN_cons.
  replace (1 + lenN l =? 0) with false by lia. replace (1 + lenN l - 1) with (lenN l) by lia.
  rewrite layout_cons, arg_layout. cbn [obind]. rewrite Hv, Hob.
  replace (1 + lenN l + lenN r - (1 + lenN l) + 1) with (lenN r + 1) by lia.
  destruct (move_layout_left l v r S HS) as [S' [E HS']].
  replace (1 + lenN l) with (lenN l + 1) by lia. rewrite E. cbn [obind].
  exists S'. split; [|split; [assumption|reflexivity]]. do 2 f_equal. lia.
Qed.

(** The part of a round after the unknown arguments were skipped. *)
Definition hit (p : prs) (argc i : N) (cells : list (option bytes)) (log : rlog) (a : bytes) : outcome pst :=
  match pr_map p a with
  | None => Ok (PSt p argc (i + 1) cells log)
  | Some k =>
    match pr_obj p k with
    | None => UB
    | Some ob =>
      if ob_found ob then Ok (PSt p argc (i + 1) cells log)
      else
        let p1 := set_obj k (Opt (ob_kind ob) true (ob_right ob) (ob_left ob) (ob_help ob)) p in
        let argc1 := argc - 1 in
        if i <? argc1 then
          do cells1 <- move i (i + 1) (argc1 - i) cells;
          let s1 := PSt p1 argc1 i cells1 log in
          match ob_kind ob with
          | ABoth => do s2 <- take_left k s1; take_right k s2
          | ARight => take_right k s1
          | _ => Ok s1
          end
        else Ok (PSt p1 argc1 i cells log)
    end
  end.

Lemma parse_step_hit s : parse_step s =
  do a0 <- arg_at (ps_i s) (ps_cells s);
  do (i, log1) <- skip_loop (length a0) (pr_map (ps_prs s)) (ps_argc s) (ps_i s) (ps_cells s)
                             ((ps_i s, ps_argc s) :: ps_log s);
  do a <- arg_at i (ps_cells s);
  hit (ps_prs s) (ps_argc s) i (ps_cells s) ((i, ps_argc s) :: log1) a.
Proof. reflexivity. Qed.


Lemma upd_upd f k a b x : upd_obj (upd_obj f k a) k b x = upd_obj f k b x.
Proof. unfold upd_obj. now destruct (x =? k). Qed.

Lemma scan_hit reg kind seen kept x v r k : reg x = Some k -> seen k = false ->
  scan reg kind seen kept (x :: v :: r) =
  match kind k with
  | ANo | ALeft => given k None None (scan reg kind (fun x => (x =? k) || seen x) kept (v :: r))
  | ARight => if starts_dash v then given k None None (scan reg kind (fun x => (x =? k) || seen x) kept (v :: r))
              else given k None (Some v) (scan reg kind (fun x => (x =? k) || seen x) kept r)
  | ABoth => let '(kept1, l) := left_of kept in
             if starts_dash v then given k l None (scan reg kind (fun x => (x =? k) || seen x) kept1 (v :: r))
             else given k l (Some v) (scan reg kind (fun x => (x =? k) || seen x) kept1 r)
  end.
Proof. intros H1 H2. cbn [scan]. now rewrite H1, H2. Qed.

Lemma followed_hit reg kind seen x v r k : reg x = Some k -> seen k = false ->
  followed reg kind seen (x :: v :: r) =
  match kind k with
  | ANo | ALeft => followed reg kind (fun x => (x =? k) || seen x) (v :: r)
  | ARight | ABoth => if starts_dash v then followed reg kind (fun x => (x =? k) || seen x) (v :: r)
                      else followed reg kind (fun x => (x =? k) || seen x) r
  end.
Proof. intros H1 H2. cbn [followed]. now rewrite H1, H2. Qed.

Lemma hit_sim p kept x r S log :
  0 < lenN S -> (forall k, pr_map p x = Some k -> pr_obj p k <> None) ->
  exists s' l, hit p (lenN kept + lenN (x :: r)) (lenN kept) (layout kept (x :: r) S) log x = Ok s' /\
    ps_log s' = l ++ log /\ in_vector l /\ sim_step p kept (x :: r) s'.
Proof.
  intros HS Hal. unfold hit.
  assert (Hplain : scan (pr_map p) (kind_in p) (found_in p) kept (x :: r) =
                   scan (pr_map p) (kind_in p) (found_in p) (x :: kept) r ->
    (followed (pr_map p) (kind_in p) (found_in p) (x :: r) = true ->
     followed (pr_map p) (kind_in p) (found_in p) r = true) ->
    exists s' l, Ok (PSt p (lenN kept + lenN (x :: r)) (lenN kept + 1) (layout kept (x :: r) S) log) = Ok s' /\
    ps_log s' = l ++ log /\ in_vector l /\ sim_step p kept (x :: r) s').
  { intros Hsc Hfo. eexists _, []. split; [reflexivity|]. split; [reflexivity|]. split; [constructor|].
    exists (x :: kept), r, S. cbn [ps_cells ps_argc ps_i ps_prs].
    split; [now rewrite layout_cons|]. split; [rewrite !lenN_cons; lia|]. split; [rewrite lenN_cons; lia|].
    split; [assumption|]. split; [now repeat split|]. split; [cbn [length]; lia|]. left. now repeat split. }
  destruct (pr_map p x) as [k|] eqn:Hx.
  2:{ apply Hplain; [cbn [scan]; now rewrite Hx|]. cbn [followed]. rewrite Hx. intro H. now apply andb_true_iff in H. }
  destruct (pr_obj p k) as [ob|] eqn:Hob; [|now destruct (Hal k eq_refl)].
  assert (Hfk : found_in p k = ob_found ob) by (unfold found_in; now rewrite Hob).
  assert (Hkk : kind_in p k = ob_kind ob) by (unfold kind_in; now rewrite Hob).
  destruct (ob_found ob) eqn:Hfound.
  { apply Hplain; [cbn [scan]; now rewrite Hx, Hfk|]. cbn [followed]. now rewrite Hx, Hfk. }
  clear Hplain Hal. cbv zeta.
  assert (Hsame : forall ob1 p0, same_but_objs p p0 -> same_but_objs p (set_obj k ob1 p0)).
  { intros ob1 p0 (A & B & C & D). now repeat split. }
  assert (Hsame0 : same_but_objs p p) by now repeat split.
  replace (lenN kept + lenN (x :: r) - 1) with (lenN kept + lenN r) by (rewrite lenN_cons; lia).
  destruct r as [|v r].
  { rewrite lenN_nil. replace (lenN kept <? lenN kept + 0) with false by lia.
    eexists _, []. split; [reflexivity|]. split; [reflexivity|]. split; [constructor|].
    exists kept, [], (Some x :: S). cbn [ps_cells ps_argc ps_i ps_prs].
    split; [reflexivity|]. split; [reflexivity|]. split; [reflexivity|]. split; [rewrite lenN_cons; lia|].
    split; [now apply Hsame|]. split; [cbn [length]; lia|]. right. exists k, ob, (None, None).
    split; [assumption|]. split; [assumption|]. split; [reflexivity|].
    split; [cbn [scan fst snd]; now rewrite Hx, Hfk|reflexivity]. }
  replace (lenN kept <? lenN kept + lenN (v :: r)) with true by (rewrite lenN_cons; lia).
  replace (lenN kept + lenN (v :: r) - lenN kept) with (lenN (v :: r)) by lia.
  destruct (move_layout kept x (v :: r) S) as [S1 [E HS1]]. rewrite E. cbn [obind].
  set (ob1 := Opt (ob_kind ob) true (ob_right ob) (ob_left ob) (ob_help ob)).
  assert (Hob1 : pr_obj (set_obj k ob1 p) k = Some ob1) by apply upd_obj_same.
  set (p1 := set_obj k ob1 p) in *.
  assert (Hp1 : forall y, pr_obj p1 y = upd_obj (pr_obj p) k (Some (after ob (None, None))) y) by reflexivity.
  assert (Hs1 : same_but_objs p p1) by now apply Hsame.
  destruct (ob_kind ob) eqn:Hkind.
  - eexists _, []. split; [reflexivity|]. split; [reflexivity|]. split; [constructor|].
    exists kept, (v :: r), S1. cbn [ps_cells ps_argc ps_i ps_prs].
    split; [reflexivity|]. split; [reflexivity|]. split; [reflexivity|]. split; [lia|].
    split; [assumption|]. split; [cbn [length]; lia|]. right. exists k, ob, (None, None).
    split; [assumption|]. split; [assumption|]. split; [assumption|].
    split; [rewrite (scan_hit _ _ _ _ _ _ _ _ Hx Hfk), Hkk; reflexivity|].
      rewrite (followed_hit _ _ _ _ _ _ _ Hx Hfk), Hkk. exact (fun H => H).
  - destruct (starts_dash v) eqn:Hv.
    + rewrite take_right_dash by assumption.
      eexists _, [_]. split; [reflexivity|]. split; [reflexivity|].
      split; [constructor; [cbn [fst snd]; rewrite lenN_cons; lia|constructor]|].
      exists kept, (v :: r), S1. cbn [ps_cells ps_argc ps_i ps_prs].
      split; [reflexivity|]. split; [reflexivity|]. split; [reflexivity|]. split; [lia|].
      split; [assumption|]. split; [cbn [length]; lia|]. right. exists k, ob, (None, None).
      split; [assumption|]. split; [assumption|]. split; [assumption|].
      split; [rewrite (scan_hit _ _ _ _ _ _ _ _ Hx Hfk), Hkk, Hv; reflexivity|].
      rewrite (followed_hit _ _ _ _ _ _ _ Hx Hfk), Hkk, Hv. exact (fun H => H).
    + destruct (take_right_value k p1 (lenN kept + lenN (v :: r)) kept v r S1 log ob1 Hv Hob1 eq_refl) as [S2 [E2 HS2]].
      rewrite E2.
      eexists _, [_]. split; [reflexivity|]. split; [reflexivity|].
      split; [constructor; [cbn [fst snd]; rewrite lenN_cons; lia|constructor]|].
      exists kept, r, S2. cbn [ps_cells ps_argc ps_i ps_prs].
      split; [reflexivity|]. split; [reflexivity|]. split; [reflexivity|]. split; [lia|].
      split; [now apply Hsame|]. split; [cbn [length]; lia|]. right. exists k, ob, (None, Some v).
      split; [assumption|]. split; [assumption|]. split; [intro y; unfold p1; cbn [set_obj pr_obj]; rewrite upd_upd; unfold ob1, after; cbn; now rewrite Hkind|].
      split; [rewrite (scan_hit _ _ _ _ _ _ _ _ Hx Hfk), Hkk, Hv; reflexivity|].
      rewrite (followed_hit _ _ _ _ _ _ _ Hx Hfk), Hkk, Hv. exact (fun H => H).
  - eexists _, []. split; [reflexivity|]. split; [reflexivity|]. split; [constructor|].
    exists kept, (v :: r), S1. cbn [ps_cells ps_argc ps_i ps_prs].
    split; [reflexivity|]. split; [reflexivity|]. split; [reflexivity|]. split; [lia|].
    split; [assumption|]. split; [cbn [length]; lia|]. right. exists k, ob, (None, None).
    split; [assumption|]. split; [assumption|]. split; [assumption|].
    split; [rewrite (scan_hit _ _ _ _ _ _ _ _ Hx Hfk), Hkk; reflexivity|].
      rewrite (followed_hit _ _ _ _ _ _ _ Hx Hfk), Hkk. exact (fun H => H).
  - destruct (left_of kept) as [kept1 [vl|]] eqn:Hl.
    + destruct (take_left_value k p1 kept (v :: r) S1 log ob1 vl kept1 Hl Hob1 ltac:(lia)) as [S2 [E2 [HS2 Hk1]]].
      rewrite E2. cbn [obind].
      set (ob2 := Opt (ob_kind ob1) (ob_found ob1) (ob_right ob1) vl (ob_help ob1)).
      assert (Hob2 : pr_obj (set_obj k ob2 p1) k = Some ob2) by apply upd_obj_same.
      set (p2 := set_obj k ob2 p1) in *.
      destruct (starts_dash v) eqn:Hv.
      * rewrite take_right_dash by assumption.
        eexists _, [_; _]. split; [reflexivity|]. split; [reflexivity|].
        split; [repeat constructor; cbn [fst snd]; rewrite lenN_cons; lia|].
        exists kept1, (v :: r), S2. cbn [ps_cells ps_argc ps_i ps_prs].
        split; [reflexivity|]. split; [reflexivity|]. split; [reflexivity|]. split; [lia|].
        split; [now apply Hsame|]. split; [cbn [length]; lia|]. right. exists k, ob, (Some vl, None).
        split; [assumption|]. split; [assumption|]. split; [intro y; unfold p2, p1; cbn [set_obj pr_obj]; rewrite upd_upd; unfold ob2, ob1, after; cbn; now rewrite Hkind|].
        split; [rewrite (scan_hit _ _ _ _ _ _ _ _ Hx Hfk), Hkk, Hl, Hv; reflexivity|].
      rewrite (followed_hit _ _ _ _ _ _ _ Hx Hfk), Hkk, Hv. exact (fun H => H).
      * destruct (take_right_value k p2 (lenN kept1 + lenN (v :: r)) kept1 v r S2 ((lenN kept1, lenN kept + lenN (v :: r)) :: log) ob2 Hv Hob2 eq_refl) as [S3 [E3 HS3]].
        rewrite E3.
        eexists _, [_; _]. split; [reflexivity|]. split; [reflexivity|].
        split; [repeat constructor; cbn [fst snd]; rewrite lenN_cons; lia|].
        exists kept1, r, S3. cbn [ps_cells ps_argc ps_i ps_prs].
        split; [reflexivity|]. split; [reflexivity|]. split; [reflexivity|]. split; [lia|].
        split; [repeat apply Hsame; assumption|]. split; [cbn [length]; lia|]. right. exists k, ob, (Some vl, Some v).
        split; [assumption|]. split; [assumption|].
        split; [intro y; unfold p2, p1; cbn [set_obj pr_obj]; rewrite !upd_upd; unfold ob2, ob1, after; cbn; now rewrite Hkind|].
        split; [rewrite (scan_hit _ _ _ _ _ _ _ _ Hx Hfk), Hkk, Hl, Hv; reflexivity|].
      rewrite (followed_hit _ _ _ _ _ _ _ Hx Hfk), Hkk, Hv. exact (fun H => H).
    + destruct (take_left_none k p1 (lenN (v :: r)) kept (v :: r) S1 log ltac:(now rewrite Hl)) as [l0 [Hl0 [Hk1 E2]]].
      rewrite E2. cbn [obind]. rewrite Hl in Hk1. cbn [fst] in Hk1. subst kept1.
      destruct (starts_dash v) eqn:Hv.
      * rewrite take_right_dash by assumption.
        eexists _, (_ :: l0). split; [reflexivity|]. split; [reflexivity|].
        split; [constructor; [cbn [fst snd]; rewrite lenN_cons; lia|assumption]|].
        exists kept, (v :: r), S1. cbn [ps_cells ps_argc ps_i ps_prs].
        split; [reflexivity|]. split; [reflexivity|]. split; [reflexivity|]. split; [lia|].
        split; [assumption|]. split; [cbn [length]; lia|]. right. exists k, ob, (None, None).
        split; [assumption|]. split; [assumption|]. split; [assumption|].
        split; [rewrite (scan_hit _ _ _ _ _ _ _ _ Hx Hfk), Hkk, Hl, Hv; reflexivity|].
      rewrite (followed_hit _ _ _ _ _ _ _ Hx Hfk), Hkk, Hv. exact (fun H => H).
      * destruct (take_right_value k p1 (lenN kept + lenN (v :: r)) kept v r S1 (l0 ++ log) ob1 Hv Hob1 eq_refl) as [S2 [E3 HS2]].
        rewrite E3.
        eexists _, (_ :: l0). split; [reflexivity|]. split; [reflexivity|].
        split; [constructor; [cbn [fst snd]; rewrite lenN_cons; lia|assumption]|].
        exists kept, r, S2. cbn [ps_cells ps_argc ps_i ps_prs].
        split; [reflexivity|]. split; [reflexivity|]. split; [reflexivity|]. split; [lia|].
        split; [now apply Hsame|]. split; [cbn [length]; lia|]. right. exists k, ob, (None, Some v).
        split; [assumption|]. split; [assumption|]. split; [intro y; unfold p1; cbn [set_obj pr_obj]; rewrite upd_upd; unfold ob1, after; cbn; now rewrite Hkind|].
        split; [rewrite (scan_hit _ _ _ _ _ _ _ _ Hx Hfk), Hkk, Hl, Hv; reflexivity|].
      rewrite (followed_hit _ _ _ _ _ _ _ Hx Hfk), Hkk, Hv. exact (fun H => H).
Qed.

Lemma sim_step_skip p kept u x r s' : Forall (unknown (pr_map p)) u ->
  sim_step p (rev u ++ kept) (x :: r) s' -> sim_step p kept (u ++ x :: r) s'.
Proof.
  intros Hu (k' & r' & S' & H1 & H2 & H3 & H4 & H5 & H6 & H7).
  assert (Hf : followed (pr_map p) (kind_in p) (found_in p) (u ++ x :: r) = true ->
               followed (pr_map p) (kind_in p) (found_in p) (x :: r) = true).
  { clear - Hu. induction Hu as [|a u Ha Hu IH]; [exact (fun H => H)|].
    cbn [app followed]. rewrite Ha. intro H. apply andb_true_iff in H. now apply IH. }
  exists k', r', S'. repeat (split; [assumption|]).
  split; [rewrite app_length; lia|]. rewrite scan_unknown by assumption.
  destruct H7 as [(A & B & C)|(k & ob & g & A & B & C & D & E)]; [left|right].
  - split; [assumption|]. split; [intro H; apply B, Hf, H|assumption].
  - exists k, ob, g. repeat (split; [assumption|]). intro H. apply E, Hf, H.
Qed.

Lemma step_sim p argc kept rest S log s' :
  argc = lenN kept + lenN rest -> 0 < lenN S -> rest <> [] ->
  parse_step (PSt p argc (lenN kept) (layout kept rest S) log) = Ok s' ->
  in_vector (ps_log s') -> sim_step p kept rest s'.
Proof.
  intros -> HS Hne H Hl.
  pose proof (parse_step_less _ _ H) as Hlog. cbn [ps_i ps_argc ps_log] in Hlog.
  destruct rest as [|x0 rest0]; [easy|].
  destruct Hlog as [_ _]; [rewrite lenN_cons; lia|].
  rewrite parse_step_hit in H. cbn [ps_i ps_argc ps_log ps_cells ps_prs] in H.
  rewrite arg_layout in H. cbn [obind] in H.
  destruct (skip_loop _ _ _ _ _ _) as [[i log1]| |] eqn:Hsk; cbn [obind] in H; try discriminate.
  destruct (arg_at i _) as [a| |] eqn:Ha; cbn [obind] in H; try discriminate.
  assert (Hl1 : in_vector ((i, lenN kept + lenN (x0 :: rest0)) :: log1)).
  { assert (exists l, ps_log s' = l ++ (i, lenN kept + lenN (x0 :: rest0)) :: log1) as [l El].
    { clear - H. unfold hit in H.
      destruct (pr_map p a) as [k|]; [|injection H as <-; now exists []].
      destruct (pr_obj p k) as [ob|]; try discriminate.
      destruct (ob_found ob); [injection H as <-; now exists []|]. cbv zeta in H.
      destruct (_ <? _); [|injection H as <-; now exists []].
      destruct (move _ _ _ _); cbn [obind] in H; try discriminate.
      set (s1 := PSt _ _ _ _ _) in H.
      destruct (ob_kind ob).
      - injection H as <-. now exists [].
      - apply take_right_step in H. now destruct H as (_ & _ & H).
      - injection H as <-. now exists [].
      - destruct (take_left k s1) as [s2| |] eqn:E; cbn [obind] in H; try discriminate.
        apply take_left_step in E. apply take_right_step in H.
        destruct E as (_ & l1 & E). destruct H as (_ & _ & l2 & H).
        exists (l2 ++ l1). rewrite H, E. now rewrite app_assoc. }
    rewrite El in Hl. now apply in_vector_app in Hl. }
  inversion Hl1 as [|? ? Hi Hl2]; subst. cbn [fst snd] in Hi.
  apply skip_sim in Hsk; [|assumption].
  destruct Hsk as (u & r' & Er & Hu & ->).
  destruct r' as [|x r].
  { rewrite app_nil_r in Er. rewrite Er in Hi. lia. }
  rewrite Er in *. rewrite <- layout_app in Ha, H.
  assert (El : lenN (rev u ++ kept) = lenN kept + lenN u) by (rewrite lenN_app, lenN_rev; lia).
  rewrite <- El in Ha, H. rewrite arg_layout in Ha. injection Ha as <-.
  apply sim_step_skip; [assumption|].
  assert (Hal : forall k, pr_map p x = Some k -> pr_obj p k <> None).
  { intros k Hk Hn. revert H. unfold hit. rewrite Hk, Hn. discriminate. }
  replace (lenN kept + lenN (u ++ x :: r)) with (lenN (rev u ++ kept) + lenN (x :: r)) in H
    by (rewrite El, lenN_app; lia).
  destruct (hit_sim p (rev u ++ kept) x r S ((lenN (rev u ++ kept), lenN (rev u ++ kept) + lenN (x :: r)) :: log1) HS Hal)
    as (s2 & l & E & _ & _ & Hsim).
  rewrite E in H. injection H as <-. exact Hsim.
Qed.

Lemma scan_seen reg kind seen kept args k : seen k = true ->
  gift_of k (snd (scan reg kind seen kept args)) = None.
Proof.
  revert seen kept.
  assert (H : forall n args, (length args <= n)%nat -> forall seen kept, seen k = true ->
    gift_of k (snd (scan reg kind seen kept args)) = None).
  { clear args. induction n as [|n IH]; intros args Hn seen kept Hs.
    { destruct args; [reflexivity|cbn [length] in Hn; lia]. }
    destruct args as [|a r]; [reflexivity|]. cbn [length] in Hn. cbn [scan].
    destruct (reg a) as [k1|]; [|apply IH; [lia|assumption]].
    destruct (seen k1) eqn:Hk1; [apply IH; [lia|assumption]|].
    assert (Hne : (k1 =? k) = false) by (apply N.eqb_neq; intros ->; congruence).
    assert (G : forall l v kept args, (length args <= n)%nat ->
      gift_of k (snd (given k1 l v (scan reg kind (fun x => (x =? k1) || seen x) kept args))) = None).
    { intros l v kept0 args0 H0. unfold given. cbn [snd gift_of]. rewrite Hne. apply IH; [assumption|].
      now rewrite Hs, orb_true_r. }
    destruct r as [|v r1]; [apply G; lia|]. cbn [length] in Hn.
    destruct (kind k1); [| | |destruct (left_of kept)]; try destruct (starts_dash v); apply G; cbn [length]; lia. }
  intros seen kept Hs. now apply (H (length args)).
Qed.

Lemma found_kind_upd p q k ob g : pr_obj p k = Some ob ->
  (forall x, pr_obj q x = upd_obj (pr_obj p) k (Some (after ob g)) x) ->
  (forall x, kind_in q x = kind_in p x) /\ (forall x, found_in q x = (x =? k) || found_in p x).
Proof.
  intros H1 H2. split; intro x; unfold kind_in, found_in; rewrite H2; unfold upd_obj;
    destruct (N.eqb_spec x k) as [->|]; try reflexivity. now rewrite H1.
Qed.

Lemma loop_sim fuel p argc kept rest S log s' :
  argc = lenN kept + lenN rest -> 0 < lenN S ->
  parse_loop fuel (PSt p argc (lenN kept) (layout kept rest S) log) = Ok s' ->
  in_vector (ps_log s') ->
  let '(lft, got) := scan (pr_map p) (kind_in p) (found_in p) kept rest in
  ps_argc s' = lenN lft /\ takeN (lenN lft) (ps_cells s') = map Some lft /\
  same_but_objs p (ps_prs s') /\
  (forall k, pr_obj (ps_prs s') k = option_map (final got k) (pr_obj p k)).
Proof.
  revert p argc kept rest S log; induction fuel as [|f IH]; intros p argc kept rest S log Ha HS H Hl;
    [discriminate|].
  cbn [parse_loop ps_i ps_argc] in H. subst argc.
  destruct rest as [|x r].
  { rewrite lenN_nil in H. replace (lenN kept <? lenN kept + 0) with false in H by lia.
    injection H as <-. cbn [scan ps_argc ps_cells ps_prs].
    rewrite lenN_rev. split; [lia|]. split.
    { unfold layout. cbn [map app]. apply takeN_app_exact. unfold lenN. now rewrite map_length, rev_length. }
    split; [now repeat split|]. intro k. unfold final. cbn [gift_of]. now destruct (pr_obj p k). }
  replace (lenN kept <? lenN kept + lenN (x :: r)) with true in H by (rewrite lenN_cons; lia).
  destruct (parse_step _) as [s1| |] eqn:E; cbn [obind] in H; try discriminate.
  assert (Hl1 : in_vector (ps_log s1)).
  { assert (exists l, ps_log s' = l ++ ps_log s1) as [l El].
    { clear - H. revert s1 H. induction f as [|f IH]; intros s1 H; [discriminate|].
      cbn [parse_loop] in H. destruct (N.ltb_spec (ps_i s1) (ps_argc s1)).
      - destruct (parse_step s1) as [s2| |] eqn:E; cbn [obind] in H; try discriminate.
        apply parse_step_less in E; [|assumption]. destruct E as (_ & l & E).
        destruct (IH s2 H) as (l2 & ->). exists (l2 ++ l). now rewrite E, app_assoc.
      - injection H as <-. now exists []. }
    rewrite El in Hl. now apply in_vector_app in Hl. }
  apply step_sim in E; [|reflexivity|assumption|discriminate|assumption].
  destruct E as (k' & r' & S' & H1 & H2 & H3 & H4 & H5 & _ & H7).
  destruct s1 as [p1 argc1 i1 cells1 log1]. cbn [ps_cells ps_argc ps_i ps_prs] in *. subst i1 cells1.
  assert (Hmp : pr_map p1 = pr_map p) by (symmetry; apply H5).
  apply IH in H; [|assumption|assumption|assumption].
  destruct H7 as [(A & _ & ->)|(k & ob & g & A & B & C & D & _)].
  - rewrite A. exact H.
  - rewrite D. destruct (found_kind_upd _ _ _ _ _ A C) as [K1 K2].
    rewrite Hmp, (scan_ext _ _ _ _ _ _ _ K1 K2) in H.
    pose proof (scan_seen (pr_map p) (kind_in p) (fun x => (x =? k) || found_in p x) k' r' k) as Hseen.
    cbn beta in Hseen. rewrite N.eqb_refl in Hseen. specialize (Hseen eq_refl).
    destruct (scan _ _ _ k' r') as [lft got]. cbn [snd] in Hseen.
    unfold given. cbn [fst snd]. destruct H as (E1 & E2 & E3 & E4).
    split; [assumption|]. split; [assumption|]. split.
    { destruct H5 as (? & ? & ? & ?), E3 as (? & ? & ? & ?). repeat split; congruence. }
    intro y. rewrite E4, C. unfold upd_obj, final. cbn [gift_of]. rewrite (N.eqb_sym k y).
    destruct (N.eqb_spec y k) as [->|Hy]; [|reflexivity].
    rewrite A, Hseen. cbn [option_map]. destruct g as [gl gr]. reflexivity.
Qed.

(** C57. *)
Lemma parse_scan fuel args p s : parse_args fuel args p = Ok s -> in_vector (ps_log s) ->
  let '(lft, got) := scan (pr_map p) (kind_in p) (found_in p) [] args in
  ps_argc s = lenN lft /\ takeN (ps_argc s) (ps_cells s) = map Some lft /\
  (forall n, pr_map (ps_prs s) n = pr_map p n) /\
  (forall n k ob, pr_map p n = Some k -> pr_obj p k = Some ob ->
     match gift_of k got with
     | Some (l, r) =>
       value_right n (ps_prs s) = Ok (Some (match r with Some v => v | None => ob_right ob end)) /\
       value_left n (ps_prs s) = Ok (Some (match l with Some v => v | None => ob_left ob end))
     | None => value_right n (ps_prs s) = value_right n p /\ value_left n (ps_prs s) = value_left n p
     end).
Proof.
  intros H Hl. unfold parse_args, parse in H.
  change (argv_of args) with (layout [] args [None]) in H.
  pose proof (loop_sim fuel p (lenN args) [] args [None] [] s eq_refl eq_refl H Hl) as L.
  destruct (scan _ _ _ [] args) as [lft got]. destruct L as (L1 & L2 & L3 & L4).
  split; [assumption|]. split; [now rewrite L1|].
  destruct L3 as (_ & M & _ & _). split; [intro n; now rewrite M|].
  intros n k ob Hn Hob. unfold value_right, value_left, value_of.
  rewrite <- M, Hn, L4, Hob. cbn [option_map]. unfold final.
  destruct (gift_of k got) as [[l r]|]; split; reflexivity.
Qed.

(** ** Parsing with every unknown argument followed by an option *)
Lemma skip_inside mp kept u x k r S t argc log : Forall (unknown mp) u -> mp x = Some k ->
  argc = lenN kept + lenN (u ++ x :: r) -> in_vector log ->
  exists u1 u2 log', u = u1 ++ u2 /\ in_vector log' /\
  skip_loop t mp argc (lenN kept) (layout kept (u ++ x :: r) S) log = Ok (lenN kept + lenN u1, log').
Proof.
  intros Hu Hx. revert kept u Hu log; induction t as [|t IH]; intros kept u Hu log Ha Hl.
  { exists [], u, log. split; [reflexivity|]. split; [assumption|]. cbn [skip_loop]. rewrite lenN_nil. do 2 f_equal; lia. }
  cbn [skip_loop]. destruct u as [|a u].
  - cbn [app] in *. rewrite arg_layout. cbn [obind]. rewrite Hx.
    destruct (IH kept [] (Forall_nil _) ((lenN kept, argc) :: log) Ha) as (u1 & u2 & l' & E1 & E2 & E3).
    { constructor; [cbn [fst snd]; rewrite lenN_cons in Ha; lia|assumption]. }
    exists u1, u2, l'. now repeat split.
  - apply Forall_cons_iff in Hu; destruct Hu as [Hau Hu0]. cbn [app] in *. rewrite arg_layout. cbn [obind].
    rewrite Hau, <- layout_cons.
    replace (lenN kept + 1) with (lenN (a :: kept)) by (rewrite lenN_cons; lia).
    destruct (IH (a :: kept) u Hu0 ((lenN kept, argc) :: log)) as (u1 & u2 & l' & E1 & E2 & E3).
    { rewrite Ha, !lenN_cons. lia. }
    { constructor; [cbn [fst snd]; rewrite lenN_cons in Ha; lia|assumption]. }
    exists (a :: u1), u2, l'. split; [now rewrite E1|]. split; [assumption|].
    rewrite E3. rewrite !lenN_cons. do 2 f_equal. lia.
Qed.

Lemma split_known mp args : existsb (names_option mp) args = true ->
  exists u x k r, args = u ++ x :: r /\ Forall (unknown mp) u /\ mp x = Some k.
Proof.
  induction args as [|a r IH]; [discriminate|]. cbn [existsb]. intro H.
  destruct (mp a) as [k|] eqn:Ha.
  - exists [], a, k, r. split; [reflexivity|]. split; [constructor|assumption].
  - unfold names_option at 1 in H. rewrite Ha in H. cbn [orb] in H.
    destruct (IH H) as (u & x & k & r' & -> & Hu & Hx).
    exists (a :: u), x, k, r'. split; [reflexivity|]. split; [now constructor|assumption].
Qed.

Definition alive (p : prs) : Prop := forall n k, pr_map p n = Some k -> pr_obj p k <> None.

Lemma step_inside p argc kept rest S log :
  alive p -> argc = lenN kept + lenN rest -> 0 < lenN S -> rest <> [] -> in_vector log ->
  followed (pr_map p) (kind_in p) (found_in p) rest = true ->
  exists s', parse_step (PSt p argc (lenN kept) (layout kept rest S) log) = Ok s' /\
             in_vector (ps_log s').
Proof.
  intros Hal Ha HS Hne Hl Hf. destruct rest as [|x0 rest0]; [easy|].
  assert (exists u x k r, x0 :: rest0 = u ++ x :: r /\ Forall (unknown (pr_map p)) u /\ pr_map p x = Some k)
    as (u & x & k & r & E & Hu & Hx).
  { cbn [followed] in Hf. destruct (pr_map p x0) as [k|] eqn:Hx0.
    - exists [], x0, k, rest0. split; [reflexivity|]. split; [constructor|assumption].
    - apply andb_true_iff in Hf. destruct Hf as [Hf _].
      destruct (split_known _ _ Hf) as (u & x & k & r & -> & Hu & Hx).
      exists (x0 :: u), x, k, r. split; [reflexivity|]. split; [now constructor|assumption]. }
  rewrite parse_step_hit. cbn [ps_i ps_argc ps_log ps_cells ps_prs].
  rewrite arg_layout. cbn [obind]. rewrite E in *.
  destruct (skip_inside (pr_map p) kept u x k r S (length x0) argc ((lenN kept, argc) :: log) Hu Hx Ha)
    as (u1 & u2 & l1 & -> & Hl1 & Esk).
  { constructor; [cbn [fst snd]; rewrite Ha, lenN_app, lenN_cons; lia|assumption]. }
  rewrite Esk. cbn [obind]. rewrite <- app_assoc, <- layout_app.
  replace (lenN kept + lenN u1) with (lenN (rev u1 ++ kept)) by (rewrite lenN_app, lenN_rev; lia).
  assert (exists y r2, u2 ++ x :: r = y :: r2) as (y & r2 & Ey).
  { destruct u2 as [|y u2]; [now exists x, r|]. now exists y, (u2 ++ x :: r). }
  rewrite Ey, arg_layout. cbn [obind].
  replace argc with (lenN (rev u1 ++ kept) + lenN (y :: r2))
    by (rewrite Ha, <- app_assoc, Ey, !lenN_app, lenN_rev; lia).
  destruct (hit_sim p (rev u1 ++ kept) y r2 S
             ((lenN (rev u1 ++ kept), lenN (rev u1 ++ kept) + lenN (y :: r2)) :: l1) HS (Hal y))
    as (s2 & l & Eh & El & Hl2 & _).
  exists s2. split; [assumption|]. rewrite El. apply in_vector_app. split; [assumption|].
  constructor; [cbn [fst snd]; rewrite lenN_cons; lia|assumption].
Qed.

Lemma followed_ext reg kind kind' seen seen' args :
  (forall x, kind x = kind' x) -> (forall x, seen x = seen' x) ->
  followed reg kind seen args = followed reg kind' seen' args.
Proof.
  intros Hk. revert seen seen'.
  assert (H : forall n args, (length args <= n)%nat -> forall seen seen',
    (forall x, seen x = seen' x) -> followed reg kind seen args = followed reg kind' seen' args).
  { clear args. induction n as [|n IH]; intros args Hn seen seen' Hs.
    { destruct args; [reflexivity|cbn [length] in Hn; lia]. }
    destruct args as [|a r]; [reflexivity|]. cbn [length] in Hn.
    cbn [followed]. destruct (reg a) as [k|]; [|now rewrite (IH r ltac:(lia) _ _ Hs)]. rewrite <- Hs.
    destruct (seen k); [apply IH; [lia|assumption]|].
    assert (Hs1 : forall x, (x =? k) || seen x = (x =? k) || seen' x) by (intro x; now rewrite Hs).
    destruct r as [|v r1]; [reflexivity|]. cbn [length] in Hn.
    rewrite <- Hk.
    destruct (kind k); try destruct (starts_dash v);
      (apply (IH r1 ltac:(lia) _ _ Hs1) || apply (IH (v :: r1) ltac:(cbn [length]; lia) _ _ Hs1)). }
  intros seen seen' Hs. now apply (H (length args)).
Qed.

Lemma loop_inside fuel p argc kept rest S log :
  alive p -> argc = lenN kept + lenN rest -> 0 < lenN S -> in_vector log ->
  followed (pr_map p) (kind_in p) (found_in p) rest = true -> (length rest < fuel)%nat ->
  exists s', parse_loop fuel (PSt p argc (lenN kept) (layout kept rest S) log) = Ok s' /\
             in_vector (ps_log s').
Proof.
  revert p argc kept rest S log; induction fuel as [|f IH]; intros p argc kept rest S log Hal Ha HS Hl Hf Hn; [lia|].
  cbn [parse_loop ps_i ps_argc].
  destruct rest as [|x r].
  { rewrite lenN_nil in Ha. replace (lenN kept <? argc) with false by lia. eexists. split; [reflexivity|assumption]. }
  replace (lenN kept <? argc) with true by (rewrite lenN_cons in Ha; lia).
  destruct (step_inside p argc kept (x :: r) S log Hal Ha HS ltac:(discriminate) Hl Hf) as (s1 & E & Hl1).
  pose proof (step_sim p argc kept (x :: r) S log s1 Ha HS ltac:(discriminate) E Hl1) as
    (k' & r' & S' & H1 & H2 & H3 & H4 & H5 & H6 & H7).
  rewrite E. cbn [obind].
  destruct s1 as [p1 argc1 i1 cells1 log1]. cbn [ps_cells ps_argc ps_i ps_prs ps_log] in *. subst i1 cells1.
  assert (Hmp : pr_map p1 = pr_map p) by (symmetry; apply H5).
  cbn [length] in H6, Hn.
  apply IH; [|assumption|assumption|assumption| |lia].
  - destruct H7 as [(_ & _ & ->)|(k & ob & g & A & B & C & _)]; [assumption|].
    intros n k1 Hk1. rewrite Hmp in Hk1. rewrite C. unfold upd_obj.
    destruct (k1 =? k); [discriminate|]. now apply (Hal n).
  - destruct H7 as [(_ & A & ->)|(k & ob & g & A & B & C & _ & D)]; [now apply A|].
    destruct (found_kind_upd _ _ _ _ _ A C) as [K1 K2].
    rewrite Hmp, (followed_ext _ _ _ _ _ _ K1 K2). now apply D.
Qed.

(** C56, what holds. *)
Lemma parse_inside args p : alive p ->
  followed (pr_map p) (kind_in p) (found_in p) args = true ->
  exists s, parse_args (Datatypes.S (length args)) args p = Ok s /\ in_vector (ps_log s).
Proof.
  intros Hal Hf. unfold parse_args, parse. change (argv_of args) with (layout [] args [None]).
  change 0 with (lenN (@nil bytes)).
  apply loop_inside; [assumption|reflexivity|reflexivity|constructor|assumption|lia].
Qed.

(** Two cases in which every argument is followed by an option. *)
Lemma followed_last reg kind seen args o k : reg o = Some k -> starts_dash o = true ->
  followed reg kind seen (args ++ [o]) = true.
Proof.
  intros Ho Hd. revert seen.
  assert (H : forall n args, (length args <= n)%nat -> forall seen, followed reg kind seen (args ++ [o]) = true).
  { clear args. induction n as [|n IH]; intros args Hn seen.
    { destruct args; [|cbn [length] in Hn; lia]. cbn [app followed]. rewrite Ho. now destruct (seen k). }
    destruct args as [|a r]; [cbn [app followed]; rewrite Ho; now destruct (seen k)|].
    cbn [length] in Hn. cbn [app followed].
    destruct (reg a) as [k1|].
    - destruct (seen k1); [apply IH; lia|].
      destruct r as [|v r1].
      { cbn [app]. rewrite Hd. 
        assert (G : forall s, followed reg kind s [o] = true) by (intro s; cbn [followed]; rewrite Ho; now destruct (s k)).
        destruct (kind k1); apply G. }
      cbn [length] in Hn.
      change ((v :: r1) ++ [o]) with (v :: (r1 ++ [o])). 
      pose proof (IH (v :: r1) ltac:(cbn [length]; lia)) as I1. cbn [app] in I1.
      destruct (kind k1); try destruct (starts_dash v); try apply I1; apply IH; lia.
    - apply andb_true_iff. split; [|apply IH; lia]. apply existsb_exists. exists o.
      split; [apply in_or_app; right; now left|]. unfold names_option. now rewrite Ho. }
  intro seen. now apply (H (length args)).
Qed.

