(** ArgPlain.v: options added with operator<<. *)
From Coq Require Import Lia Strings.String.
From Verif Require Import Base ArgParser ArgSpec ArgFacts ArgMore ArgExamples.
Local Notation b := list_byte_of_string.

(** An option without arguments is given none. *)
Lemma scan_plain reg kind k args : kind k = ANo -> forall seen kept g,
  gift_of k (snd (scan reg kind seen kept args)) = Some g -> g = (None, None).
Proof.
  intros Hk. remember (List.length args) as n eqn:En. revert args En.
  induction n as [n IH] using (well_founded_induction Wf_nat.lt_wf). intros args En seen kept g.
  destruct args as [|a r]; cbn [scan]; [discriminate|].
  assert (R : forall s kp g, gift_of k (snd (scan reg kind s kp r)) = Some g -> g = (None, None))
    by (intros s kp g'; apply (IH (List.length r)); [subst n; cbn; lia|reflexivity]).
  destruct (reg a) as [j|]; [|apply R]. destruct (seen j); [apply R|].
  assert (G : forall l v x, (j = k -> l = None /\ v = None) -> (forall g, gift_of k (snd x) = Some g -> g = (None, None)) ->
    gift_of k (snd (given j l v x)) = Some g -> g = (None, None)).
  { intros l v x Hj Hx. unfold given. cbn [snd gift_of]. destruct (N.eqb_spec j k) as [E|E].
    - intros [= <-]. destruct (Hj E) as [-> ->]. reflexivity.
    - apply Hx. }
  destruct r as [|v r1]; [apply G; [auto|intros g'; apply (R _ _ g')]|].
  assert (R1 : forall s kp g, gift_of k (snd (scan reg kind s kp r1)) = Some g -> g = (None, None))
    by (intros s kp g'; apply (IH (List.length r1)); [subst n; cbn; lia|reflexivity]).
  destruct (kind j) eqn:Ek.
  - apply G; [auto|intros g'; apply (R _ _ g')].
  - destruct (starts_dash v); apply G; try (intros g'; apply (R _ _ g')); try (intros g'; apply (R1 _ _ g')); intros ->; congruence.
  - apply G; [auto|intros g'; apply (R _ _ g')].
  - destruct (left_of kept) as [kept1 l].
    destruct (starts_dash v); apply G; try (intros g'; apply (R _ _ g')); try (intros g'; apply (R1 _ _ g')); intros ->; congruence.
Qed.

Lemma plain_option name p q n fuel args s : add_plain true name p = Ok q -> In n (own_keys name ANo) ->
  parse_args fuel args q = Ok s -> in_vector (ps_log s) -> exists k, pr_map q n = Some k /\
  forall g, gift_of k (snd (scan (pr_map q) (kind_in q) (found_in q) [] args)) = Some g ->
    g = (None, None) /\ value_right n (ps_prs s) = Ok (Some []) /\ value_left n (ps_prs s) = Ok (Some []).
Proof.
  unfold add_plain, add_option, own_keys. destruct (split_names [] (c_str name)) as [names h]. cbn [fst new_opt].
  destruct (reg_keys _ _ _) as [p2| |] eqn:E; cbn [obind]; try discriminate.
  intros Hq Hn Hs Hl. apply reg_keys_fields in E. destruct E as (_ & _ & _ & Ho & Hm).
  cbn [pr_obj] in Ho. rewrite upd_obj_same in Ho.
  exists (pr_next p). injection Hq as Hq. rewrite <- Hq. cbn [pr_map].
  split; [apply Hm; now left|]. intros g Hg.
  assert (Eg : g = (None, None)).
  { refine (scan_plain _ _ _ _ _ _ _ _ Hg). unfold kind_in. cbn [pr_obj]. rewrite Ho. reflexivity. }
  split; [exact Eg|]. subst g.
  apply parse_scan in Hs; [|assumption]. rewrite <- Hq in Hs. cbn [pr_map] in Hs.
  destruct (scan _ _ _ [] args) as [lft got]. cbn [snd] in Hg. destruct Hs as (_ & _ & _ & Hs).
  specialize (Hs n (pr_next p) _ (Hm n (or_introl Hn)) Ho).
  rewrite Hg in Hs. exact Hs.
Qed.

Lemma ex_plain : exists q s, add_plain true (b "-x,--ex") ay_prs = Ok q /\ In (b "--ex") (own_keys (b "-x,--ex") ANo) /\
  parse_args 4 [b "a"; b "-x"; b "c"; b "-v"] q = Ok s /\ in_vector (ps_log s) /\
  gift_of 3 (snd (scan (pr_map q) (kind_in q) (found_in q) [] [b "a"; b "-x"; b "c"; b "-v"])) = Some (None, None) /\
  takeN (ps_argc s) (ps_cells s) = [Some (b "a"); Some (b "c")] /\ value_right (b "--ex") (ps_prs s) = Ok (Some []).
Proof.
  assert (H : match add_plain true (b "-x,--ex") ay_prs with
    | Ok q => match parse_args 4 [b "a"; b "-x"; b "c"; b "-v"] q with
              | Ok s => in_vector (ps_log s) /\ gift_of 3 (snd (scan (pr_map q) (kind_in q) (found_in q) [] [b "a"; b "-x"; b "c"; b "-v"])) = Some (None, None) /\
                  takeN (ps_argc s) (ps_cells s) = [Some (b "a"); Some (b "c")] /\ value_right (b "--ex") (ps_prs s) = Ok (Some [])
              | _ => False end
    | _ => False end).
  { vm_compute. repeat split; repeat constructor. }
  destruct (add_plain _ _ _) as [q| |]; try contradiction. destruct (parse_args _ _ q) as [s| |] eqn:E; try contradiction.
  exists q, s. split; [reflexivity|]. split; [vm_compute; auto|]. split; [exact E|]. exact H.
Qed.
