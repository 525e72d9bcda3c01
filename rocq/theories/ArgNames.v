(** ArgNames.v: what a registration text means (C57). *)
From Coq Require Import String Lia.
From Verif Require Import Base ArgParser ArgSpec ArgFacts ArgMore.
Local Notation b := list_byte_of_string.

(** The names of an option, separated by commas. *)
Fixpoint joined (names : list bytes) : bytes :=
  match names with
  | [] => []
  | [n] => n
  | n :: r => n ++ comma :: joined r
  end.
(** A registration text: the names, behind a colon the explanation (it may contain commas and colons), behind a NUL anything. *)
Definition reg_text (names : list bytes) (info rest : option bytes) : bytes :=
  joined names ++ match info with Some t => colon :: t | None => [] end ++ match rest with Some t => nul :: t | None => [] end.
Definition plain_name (n : bytes) : Prop := ~ In comma n /\ ~ In colon n /\ ~ In nul n.
(** The keys registered: the names; of an option with a left and a right argument every beginning of a name. *)
Definition key_of (kind : akind) (names : list bytes) (k : bytes) : Prop :=
  match kind with
  | ANo | ARight => In k names
  | ABoth => k <> [] /\ exists n t, In n names /\ n = k ++ t
  | ALeft => False
  end.

Lemma c_str_plain s : ~ In nul s -> c_str s = s.
Proof. induction s as [|x r IH]; intros H; [reflexivity|]. cbn [c_str]. destruct (byte_eqb x nul) eqn:E; [apply byte_eqb_spec in E; subst; destruct H; now left|]. rewrite IH; [reflexivity|]. intros I'. apply H. now right. Qed.
Lemma c_str_cut s t : ~ In nul s -> c_str (s ++ nul :: t) = s.
Proof. induction s as [|x r IH]; intros H; [reflexivity|]. cbn [c_str app]. destruct (byte_eqb x nul) eqn:E; [apply byte_eqb_spec in E; subst; destruct H; now left|]. rewrite IH; [reflexivity|]. intros I'. apply H. now right. Qed.
Lemma split_name n : forall cur s, ~ In comma n -> ~ In colon n -> split_names cur (n ++ s) = split_names (cur ++ n) s.
Proof.
  induction n as [|x r IH]; intros cur s H1 H2; [now rewrite app_nil_r|]. cbn [split_names app].
  destruct (byte_eqb x comma) eqn:E; [apply byte_eqb_spec in E; subst; destruct H1; now left|].
  destruct (byte_eqb x colon) eqn:E2; [apply byte_eqb_spec in E2; subst; destruct H2; now left|].
  rewrite IH; [now rewrite <- app_assoc| |]; intros I'; [apply H1|apply H2]; now right.
Qed.
Lemma split_joined names info : names <> [] -> Forall plain_name names ->
  split_names [] (joined names ++ match info with Some t => colon :: t | None => [] end) = (names, info).
Proof.
  induction names as [|n r IH]; intros Hn F; [congruence|]. inversion F as [|? ? [P1 [P2 _]] F']; subst. destruct r as [|m r].
  - cbn [joined]. rewrite split_name by assumption. destruct info; reflexivity.
  - change (joined (n :: m :: r)) with (n ++ comma :: joined (m :: r)). rewrite <- app_assoc, split_name by assumption. cbn [app split_names].
    change (byte_eqb comma comma) with true. cbv iota. rewrite IH by (congruence || assumption). reflexivity.
Qed.
Lemma joined_plain names : Forall plain_name names -> ~ In nul (joined names).
Proof.
  induction names as [|n r IH]; intros F; [intros []|]. inversion F as [|? ? [P1 [P2 P3]] F']; subst. destruct r as [|m r]; [exact P3|].
  change (joined (n :: m :: r)) with (n ++ comma :: joined (m :: r)). intros H. apply in_app_or in H. destruct H as [H|[H|H]]; [tauto|discriminate H|]. now apply IH.
Qed.
Lemma split_text names info rest : names <> [] -> Forall plain_name names -> (forall t, info = Some t -> ~ In nul t) ->
  split_names [] (c_str (reg_text names info rest)) = (names, info).
Proof.
  intros Hn F Hi. pose proof (joined_plain names F) as J. unfold reg_text.
  assert (Q : ~ In nul (joined names ++ match info with Some t => colon :: t | None => [] end)).
  { intros H. apply in_app_or in H. destruct H as [H|H]; [tauto|]. destruct info as [t|]; [|destruct H]. destruct H as [H|H]; [discriminate H|]. exact (Hi t eq_refl H). }
  rewrite app_assoc. destruct rest as [t|]; [rewrite c_str_cut by assumption|rewrite app_nil_r, c_str_plain by assumption]; now apply split_joined.
Qed.
Lemma in_prefixes k n : In k (prefixes n) <-> k <> [] /\ exists t, n = k ++ t.
Proof.
  unfold prefixes. rewrite in_map_iff. split.
  - intros (i & <- & H). apply in_seq in H. split; [|exists (skipn i n); symmetry; apply firstn_skipn]. destruct i; [lia|]. destruct n; [cbn in H; lia|discriminate].
  - intros (H & t & ->). exists (length k). rewrite in_seq, app_length. split; [rewrite firstn_app, firstn_all, Nat.sub_diag; apply app_nil_r|]. destruct k; [congruence|cbn; lia].
Qed.
Lemma names_text kind names info rest k : names <> [] -> Forall plain_name names -> (forall t, info = Some t -> ~ In nul t) ->
  (In k (own_keys (reg_text names info rest) kind) <-> key_of kind names k) /\ info_of (reg_text names info rest) = str_or_empty info.
Proof.
  intros Hn F Hi. unfold own_keys, info_of. rewrite (split_text names info rest Hn F Hi). split; [|reflexivity]. destruct kind; cbn [fst keys_of key_of]; try tauto.
  rewrite in_flat_map. split.
  - intros (n & H & P). apply in_prefixes in P. destruct P as (P & t & ->). split; [exact P|]. now exists (k ++ t), t.
  - intros (P & n & t & H & ->). exists (k ++ t). split; [exact H|]. apply in_prefixes. split; [exact P|now exists t].
Qed.
Lemma colon_joined names info : Forall plain_name names ->
  before_colon (joined names ++ match info with Some t => colon :: t | None => [] end) = joined names.
Proof.
  intros F. assert (P : ~ In colon (joined names)).
  { induction names as [|n r IH]; [intros []|]. inversion F as [|? ? [P1 [P2 P3]] F']; subst. destruct r as [|m r]; [exact P2|].
    change (joined (n :: m :: r)) with (n ++ comma :: joined (m :: r)). intros H. apply in_app_or in H. destruct H as [H|[H|H]]; [tauto|discriminate H|]. now apply IH. }
  induction (joined names) as [|x r IH]; cbn [app before_colon]; [destruct info; reflexivity|].
  destruct (byte_eqb x colon) eqn:E; [apply byte_eqb_spec in E; subst; destruct P; now left|]. rewrite IH; [reflexivity|]. intros I'. apply P. now right.
Qed.
Lemma reg_keys_others id keys : forall p q k, reg_keys id keys p = Ok q -> ~ In k keys -> pr_map q k = pr_map p k.
Proof.
  induction keys as [|a r IH]; intros p q k H N; cbn [reg_keys] in H; [now injection H as <-|].
  destruct (reg_key id a p) as [p1| |] eqn:E; cbn [obind] in H; [|discriminate H|discriminate H].
  rewrite (IH p1 q k H) by (intros I'; apply N; now right).
  assert (X : bytes_eqb k a = false). { destruct (bytes_eqb k a) eqn:X; [|reflexivity]. apply bytes_eqb_spec in X. subst. destruct N. now left. }
  unfold reg_key, del_obj in E. destruct (pr_map p a) as [o|] eqn:M; [destruct (o =? id); [|destruct (pr_obj p o)]|]; cbn [obind] in E; try discriminate E;
    injection E as <-; cbn [pr_map]; unfold upd_map; rewrite ?X; reflexivity.
Qed.
(** A registration: the new option is found under each of its keys, nothing changes for other keys, and the help text gets one entry. *)
Lemma registered kind names info rest d3 d4 p q : names <> [] -> Forall plain_name names -> (forall t, info = Some t -> ~ In nul t) -> kind <> ALeft ->
  add_option true (reg_text names info rest) kind d3 d4 p = Ok q ->
  (forall k, key_of kind names k -> pr_map q k = Some (pr_next p)) /\ (forall k, ~ key_of kind names k -> pr_map q k = pr_map p k) /\
  pr_vect q = pr_vect p ++ [(joined names, str_or_empty info, pr_next p)] /\
  exists o, pr_obj q (pr_next p) = Some o /\ ob_kind o = kind /\ ob_found o = false /\ ob_help o = str_or_empty info.
Proof.
  intros Hn F Hi Hk. pose proof (fun k => proj1 (names_text kind names info rest k Hn F Hi)) as K. pose proof (split_text names info rest Hn F Hi) as S.
  assert (B : before_colon (c_str (reg_text names info rest)) = joined names).
  { rewrite <- (colon_joined names info F). f_equal. pose proof (joined_plain names F) as J. unfold reg_text.
    assert (Q : ~ In nul (joined names ++ match info with Some t => colon :: t | None => [] end)).
    { intros H. apply in_app_or in H. destruct H as [H|H]; [tauto|]. destruct info as [t|]; [|destruct H]. destruct H as [H|H]; [discriminate H|]. exact (Hi t eq_refl H). }
    rewrite app_assoc. destruct rest as [t|]; [now rewrite c_str_cut by assumption|now rewrite app_nil_r, c_str_plain by assumption]. }
  unfold own_keys in K. rewrite S in K. cbn [fst] in K. unfold add_option. rewrite S, B. cbv zeta.
  assert (O : exists o, new_opt kind d3 d4 (str_or_empty info) = Some o /\ ob_kind o = kind /\ ob_found o = false /\ ob_help o = str_or_empty info)
    by (destruct kind; try congruence; eexists; cbn; repeat split; reflexivity).
  destruct O as (o & -> & O). destruct (reg_keys _ _ _) as [p2| |] eqn:E; cbn [obind]; intros H; [|discriminate H|discriminate H].
  assert (K' : forall k, In k (keys_of kind names) <-> key_of kind names k) by (intros k; rewrite <- K; destruct kind; (congruence || reflexivity)).
  pose proof (fun k => reg_keys_others _ _ _ _ k E) as R. apply reg_keys_fields in E. destruct E as (_ & Ev & _ & Eo & Em). cbn [pr_map pr_vect pr_obj] in *. rewrite upd_obj_same in Eo.
  injection H as <-. cbn [pr_map pr_vect pr_obj]. repeat split.
  - intros k I'. apply Em. left. now apply K'.
  - intros k I'. apply R. rewrite K'. exact I'.
  - now rewrite Ev.
  - exists o. now split.
Qed.
Lemma ex_names : let names := [b "-x"%string; b "--ex"%string] in names <> [] /\ Forall plain_name names /\
  reg_text names (Some (b "a,b: c"%string)) (Some (b "!"%string)) = b "-x,--ex:a,b: c"%string ++ [nul] ++ b "!"%string /\
  ~ In nul (b "a,b: c"%string) /\ key_of ABoth names (b "--"%string) /\ ~ key_of ANo names (b "--"%string) /\
  exists q, add_option true (reg_text names (Some (b "a,b: c"%string)) (Some (b "!"%string))) ABoth None None prs_new = Ok q.
Proof.
  split; [discriminate|]. split; [repeat constructor; cbv; intuition discriminate|]. split; [reflexivity|]. split; [cbv; intuition discriminate|].
  split; [split; [discriminate|]; exists (b "--ex"%string), (b "ex"%string); split; [right; now left|reflexivity]|].
  split; [cbv; intuition discriminate|]. eexists. vm_compute. reflexivity.
Qed.
