(** ArchiveFacts.v: the directory walk writes exactly the records of the specification; decoding them. *)
From Coq Require Import Lia.
From Verif Require Import Base Format Zlib LLCompress CompressFacts Compress Parser ParserProofs ParserFacts ArchiveSpec.

(** ** Reading a file *)
Lemma read_loop_spec : forall k data rderr content b, read_loop k data rderr = (content, b) ->
  b = rderr /\ prefix (concat content) data /\ (rderr = false -> concat content = data) /\
  (lenN data < N.of_nat (S k) * DEF_CHUNK_SIZE -> Forall (fun d => lenN d < two32) content).
Proof.
  induction k as [|k IH]; intros data rderr content b H; cbn [read_loop] in H.
  - destruct rderr; injection H as <- <-.
    + split; [reflexivity|]. split; [apply prefix_nil|]. split; [discriminate|]. constructor.
    + split; [reflexivity|]. cbn [concat]. rewrite app_nil_r. split; [apply prefix_refl|]. split; [reflexivity|].
      intro L. constructor; [|constructor]. unfold DEF_CHUNK_SIZE, two32 in *. lia.
  - destruct (read_loop k (dropN DEF_CHUNK_SIZE data) rderr) as [r b0] eqn:E. injection H as <- <-.
    destruct (IH _ _ _ _ E) as (-> & P & C & L). split; [reflexivity|]. cbn [concat]. split; [|split].
    + rewrite <- (takeN_dropN _ DEF_CHUNK_SIZE data) at 2. apply prefix_app_l, P.
    + intro R. rewrite (C R). apply takeN_dropN.
    + intro L0. constructor.
      * rewrite lenN_takeN. unfold DEF_CHUNK_SIZE, two32. lia.
      * apply L. rewrite lenN_dropN. rewrite Nat2N.inj_succ in L0 |- *. rewrite Nat2N.inj_succ in L0. unfold DEF_CHUNK_SIZE in *. lia.
Qed.

Lemma read_file_spec data rderr content b : read_file data rderr = (content, b) ->
  b = rderr /\ prefix (concat content) data /\ (rderr = false -> concat content = data) /\
  Forall (fun d => lenN d < two32) content.
Proof.
  intro H. destruct (read_loop_spec _ _ _ _ _ H) as (A & B & D & E). repeat (split; [assumption|]). apply E.
  rewrite Nat2N.inj_succ, N2Nat.id. pose proof (N.div_mod (lenN data) DEF_CHUNK_SIZE) as Q.
  assert (Hc : DEF_CHUNK_SIZE <> 0) by discriminate. specialize (Q Hc).
  pose proof (N.mod_lt (lenN data) DEF_CHUNK_SIZE Hc). lia.
Qed.

(** ** Encodings *)
Lemma encodes_app a : forall x, encodes a x -> forall b y, encodes b y -> encodes (a ++ b) (x ++ y).
Proof.
  induction 1; intros bb y Hb; cbn [app]; rewrite <- ?app_assoc; [exact Hb| | | | |];
    constructor; auto.
Qed.

Lemma encodes_nonempty rs b : encodes rs b -> rs <> [] -> b <> [].
Proof.
  intros H Hn. destruct H; [now destruct Hn| | | | |]; intro Q; apply (f_equal lenN) in Q; rewrite lenN_app in Q;
   rewrite ?lenN_dir_item, ?lenN_file_item, ?lenN_link_item, ?lenN_dir_end_item in Q by assumption; rewrite lenN_nil in Q; lia.
Qed.

Lemma name_writes_padded name : lenN name + 8 < two32 ->
  concat (name_writes name) = padded name /\ Forall (fun d => lenN d < two32) (name_writes name).
Proof.
  intro H. unfold name_writes, padded. destruct (norm_len32_spec _ H) as (_ & A & B).
  rewrite u32_small by lia. rewrite takeN_all by lia.
  assert (E : sub32 (norm_len32 (lenN name)) (lenN name) = norm_len32 (lenN name) - lenN name).
  { unfold sub32. replace (norm_len32 (lenN name) + two32 - lenN name) with ((norm_len32 (lenN name) - lenN name) + 1 * two32) by lia.
    rewrite N.mod_add by (unfold two32; lia). apply N.mod_small. unfold two32 in *; lia. }
  rewrite E. cbn [concat]. rewrite app_nil_r. split; [reflexivity|].
  constructor; [lia|]. constructor; [|constructor]. rewrite lenN_zeros. unfold two32 in *; lia.
Qed.

Lemma sub64_pad size : size + 8 < two64 -> sub64 (norm_len64 size) size = norm_len64 size - size /\ norm_len64 size - size < two32.
Proof.
  intro H. destruct (norm_len64_spec _ H) as (_ & A & B). split; [|unfold two32; lia]. unfold sub64.
  replace (norm_len64 size + two64 - size) with ((norm_len64 size - size) + 1 * two64) by lia.
  rewrite N.mod_add by (unfold two64; lia). apply N.mod_small. unfold two64 in *; lia.
Qed.

Definition small_writes (ws : list bytes) : Prop := Forall (fun d => lenN d < two32) ws.

Lemma small_app a b : small_writes a -> small_writes b -> small_writes (a ++ b).
Proof. intros. apply Forall_app. auto. Qed.

Lemma file_writes_ok e name mode size junk content : lenN junk = 40 -> lenN name + 8 < two32 -> size + 8 < two64 ->
  small_writes content ->
  encodes [AFile name mode size (concat content)] (concat (file_writes e name mode size junk content false)) /\
  encodes [ABroken name mode size (concat content)] (concat (file_writes e name mode size junk content true)) /\
  small_writes (file_writes e name mode size junk content true) /\
  small_writes (file_writes e name mode size junk content false).
Proof.
  intros Hj Hn Hs Hc. destruct (name_writes_padded name Hn) as [P1 P2]. destruct (sub64_pad _ Hs) as [S1 S2].
  unfold file_writes. rewrite u32_small by lia. cbn [concat]. rewrite !concat_app, P1, S1. cbn [concat]. rewrite app_nil_r.
  split; [|split; [|split]].
  - rewrite <- (app_nil_r (zeros _)). constructor; [exact Hj|constructor].
  - constructor; [exact Hj|constructor].
  - constructor; [rewrite lenN_file_item by exact Hj; unfold two32; lia|]. apply small_app; [exact P2|]. apply small_app; [exact Hc|constructor].
  - constructor; [rewrite lenN_file_item by exact Hj; unfold two32; lia|]. apply small_app; [exact P2|]. apply small_app; [exact Hc|].
    constructor; [|constructor]. rewrite lenN_zeros. exact S2.
Qed.

(** ** Walk *)
Definition wfilt (w : wev) : list visit := match w with WFilter d n k a => [Visit d n k a] | WData _ => [] end.
Definition wdata (w : wev) : list bytes := match w with WFilter _ _ _ _ => [] | WData d => [d] end.
Definition visits (evs : list wev) : list visit := concat (map wfilt evs).
Definition datas (evs : list wev) : list bytes := concat (map wdata evs).

Lemma visits_app a b : visits (a ++ b) = visits a ++ visits b.
Proof. unfold visits. now rewrite map_app, concat_app. Qed.
Lemma datas_app a b : datas (a ++ b) = datas a ++ datas b.
Proof. unfold datas. now rewrite map_app, concat_app. Qed.
Lemma visits_data ws : visits (map WData ws) = [].
Proof. induction ws; [reflexivity|exact IHws]. Qed.
Lemma datas_data ws : datas (map WData ws) = ws.
Proof. induction ws as [|w ws IH]; [reflexivity|]. cbn. f_equal. exact IH. Qed.

Lemma is_dot_spec name : is_dot name = true <-> dotted name.
Proof.
  unfold is_dot, dotted. rewrite Bool.orb_true_iff, !bytes_eqb_spec. reflexivity.
Qed.
Lemma is_dot_false name : is_dot name = false -> ~ dotted name.
Proof. intros H Q. apply is_dot_spec in Q. congruence. Qed.

Section SNodeInd.
Variable P : snode -> Prop.
Hypothesis Hf : forall o s m z d r, P (SFile o s m z d r).
Hypothesis Hd : forall m es, Forall (fun x => P (snd x)) es -> P (SDir m es).
Hypothesis Hl : forall m z t, P (SLink m z t).
Hypothesis Ho : P SOther.
Fixpoint snode_ind2 (nd : snode) : P nd :=
  match nd with
  | SFile o s m z d r => Hf o s m z d r
  | SDir m es => Hd m es ((fix go es : Forall (fun x => P (snd x)) es :=
      match es with [] => Forall_nil _ | x :: r => Forall_cons x (snode_ind2 (snd x)) (go r) end) es)
  | SLink m z t => Hl m z t
  | SOther => Ho
  end.
End SNodeInd.

Section Walk.
Context {F : Type} (e : endian) (filt : F -> list bytes -> bytes -> skind -> Z * F).
Context (jk : N -> bytes) (hj : N -> N -> bytes).
Hypothesis Hjk : forall n, lenN (jk n) = 40.
Hypothesis Hhj : forall n k, lenN (hj n k) = k.
Notation wst := (@wst F).
Notation trav := (trav filt).

Definition clean (s : wst) : Prop := w_dead s = false /\ w_err s = false /\ w_exit s = false.
Definition tend_of (s : wst) : tend :=
  if w_dead s then Died else if w_err s then Failed else if w_exit s then Stopped else Done.
Definition closing (t : tend) (js : list job) : list arec := match t with Died => [] | _ => ends js end.

Lemma clean_done s : clean s <-> tend_of s = Done.
Proof.
  unfold clean, tend_of. destruct (w_dead s), (w_err s), (w_exit s); intuition (try discriminate).
Qed.

Lemma walk_flagged dir name nd s : tend_of s <> Done -> walk_node e filt jk hj dir name nd s = (DIRITER_EXIT_ALL, s, []).
Proof.
  intro H. assert (E : w_dead s || w_err s || w_exit s = true).
  { unfold tend_of in H. destruct (w_dead s), (w_err s), (w_exit s); try reflexivity. now destruct H. }
  destruct nd; cbn [walk_node]; rewrite E; reflexivity.
Qed.

(** One entry ([X] = the entry as a job). *)
Definition step_ok (X : list job) (s s' : wst) (evs : list wev) : Prop :=
  exists recs, encodes recs (concat (datas evs)) /\ small_writes (datas evs) /\
    (tend_of s' = Done -> forall js f' v r t, trav (w_f s') js f' v r t ->
       trav (w_f s) (X ++ js) f' (visits evs ++ v) (recs ++ r) t) /\
    (tend_of s' <> Done -> forall js,
       trav (w_f s) (X ++ js) (w_f s') (visits evs) (recs ++ closing (tend_of s') js) (tend_of s')).

Lemma iter_cons (w : bytes -> snode -> wst -> Z * wst * list wev) n x r s : iter_with w ((n, x) :: r) s =
  let '(ret, s1, ev1) := w n x s in
  if (ret =? DIRITER_EXIT_ALL)%Z then (s1, ev1)
  else let '(s2, ev2) := iter_with w r s1 in (s2, ev1 ++ ev2).
Proof. reflexivity. Qed.

Lemma step_seq X Y s s1 s2 ev1 ev2 : step_ok X s s1 ev1 -> tend_of s1 = Done -> step_ok Y s1 s2 ev2 -> ends Y = [] ->
  step_ok (X ++ Y) s s2 (ev1 ++ ev2).
Proof.
  intros (r1 & E1 & W1 & A1 & _) D (r2 & E2 & W2 & A2 & B2) HY. exists (r1 ++ r2).
  rewrite datas_app, concat_app, visits_app. split; [now apply encodes_app|]. split; [now apply small_app|]. split.
  - intros D2 js f' v r t T. rewrite <- !app_assoc. apply A1; [exact D|]. apply A2; assumption.
  - intros D2 js. rewrite <- !app_assoc. apply A1; [exact D|]. apply B2; assumption.
Qed.

Lemma ends_jobs dir es js : ends (jobs dir es ++ js) = ends js.
Proof. induction es as [|x es IH]; [reflexivity|exact IH]. Qed.

Lemma iter_ok dir es : Forall (fun x => forall s ret s' evs, tend_of s = Done ->
    walk_node e filt jk hj dir (fst x) (snd x) s = (ret, s', evs) ->
    step_ok [JEntry dir (fst x) (snd x)] s s' evs /\ (ret = DIRITER_EXIT_ALL -> tend_of s' <> Done)) es ->
  forall s s' evs, tend_of s = Done -> iter_with (walk_node e filt jk hj dir) es s = (s', evs) ->
  step_ok (jobs dir es) s s' evs.
Proof.
  induction 1 as [|[n x] es Hx Hes IH]; intros s s' evs D H.
  - cbn in H. injection H as <- <-. exists []. split; [constructor|]. split; [constructor|]. split; [auto|]. intros Q; contradiction.
  - rewrite iter_cons in H. destruct (walk_node e filt jk hj dir n x s) as [[ret s1] ev1] eqn:E.
    destruct (Hx _ _ _ _ D E) as [S1 R1]. cbn [fst snd] in S1.
    destruct (ret =? DIRITER_EXIT_ALL)%Z eqn:R.
    + apply Z.eqb_eq in R. injection H as <- <-. specialize (R1 R).
      destruct S1 as (r1 & E1 & W1 & _ & B1). exists r1. split; [exact E1|]. split; [exact W1|]. split; [intro Q; contradiction|].
      intros _ js. specialize (B1 R1 (jobs dir es ++ js)). cbn [jobs map fst snd app] in *.
      replace (closing (tend_of s1) js) with (closing (tend_of s1) (jobs dir es ++ js)); [exact B1|].
      unfold closing. now rewrite ends_jobs.
    + destruct (iter_with (walk_node e filt jk hj dir) es s1) as [s2 ev2] eqn:E2.
      injection H as <- <-.
      destruct (tend_of s1) eqn:D1.
      1:{ specialize (IH _ _ _ D1 E2). apply (step_seq [JEntry dir n x] (jobs dir es) s s1 s2); auto.
          rewrite <- (app_nil_r (jobs dir es)), ends_jobs. reflexivity. }
      all: assert (Q : tend_of s1 <> Done) by congruence;
        assert (Q2 : s2 = s1 /\ ev2 = []) by
        (destruct es as [|[n2 x2] es2]; [now injection E2|];
         rewrite iter_cons in E2; rewrite (walk_flagged _ _ _ _ Q) in E2; cbn in E2; now injection E2);
        destruct Q2 as [-> ->]; rewrite app_nil_r;
        destruct S1 as (r1 & Q1 & W1 & _ & B1); exists r1; (split; [exact Q1|]); (split; [exact W1|]); (split; [intro; contradiction|]);
        intros _ js; specialize (B1 Q (jobs dir es ++ js)); cbn [jobs map fst snd app] in *;
        replace (closing (tend_of s1) js) with (closing (tend_of s1) (jobs dir es ++ js)); [exact B1|];
        unfold closing; now rewrite ends_jobs.
Qed.

Lemma tend_setf f s : tend_of (w_setf f s) = tend_of s. Proof. reflexivity. Qed.
Lemma tend_next s : tend_of (w_next s) = tend_of s. Proof. reflexivity. Qed.

Lemma pair3 {A B C} (a a' : A) (b b' : B) (c c' : C) : (a, b, c) = (a', b', c') -> a = a' /\ b = b' /\ c = c'.
Proof. intro H. now injection H. Qed.

Lemma walk_node_ok : forall nd dir name s ret s' evs, fits name nd -> tend_of s = Done ->
  walk_node e filt jk hj dir name nd s = (ret, s', evs) ->
  step_ok [JEntry dir name nd] s s' evs /\ (ret = DIRITER_EXIT_ALL -> tend_of s' <> Done).
Proof.
  induction nd as [o st m sz d r|m es IH|m sz t|] using snode_ind2; intros dir name s ret s' evs Ft D H;
    pose proof (proj2 (clean_done s) D) as (D1 & D2 & D3); cbn [walk_node] in H; rewrite D1, D2, D3 in H; cbn [orb] in H;
    (destruct (is_dot name) eqn:Ed;
     [ apply pair3 in H; destruct H as (<- & <- & <-); split; [|discriminate];
       exists []; split; [constructor|]; split; [constructor|]; split; [|intro; contradiction];
       intros _ js f' v r' t' T; cbn [app visits map concat]; apply tr_dot; [now apply is_dot_spec|exact T] |]);
    apply is_dot_false in Ed; cbn [kind_of] in H;
    (match type of H with context [filt ?a ?b ?c ?k] => destruct (filt a b c k) as [a0 f0] eqn:Ef end);
    (destruct (a0 =? DIRITER_EXIT_ALL)%Z eqn:Ea;
     [ apply Z.eqb_eq in Ea; subst a0; apply pair3 in H; destruct H as (<- & <- & <-);
       (assert (T1 : tend_of (w_stop (w_setf f0 s)) = Stopped) by (unfold tend_of; cbn; now rewrite D1, D2));
       (split; [|intros _ Q; congruence]);
       exists []; split; [constructor|]; split; [constructor|]; split; [intro Q; congruence|];
       intros _ js; rewrite T1; cbn [app visits map concat wfilt closing w_f w_stop w_setf];
       match goal with |- trav _ (JEntry _ _ ?nd :: _) _ _ _ _ => apply (tr_stop filt _ _ _ nd) end; [exact Ed|exact Ef] |]);
    apply Z.eqb_neq in Ea;
    (destruct (a0 =? 0)%Z eqn:Ea0; cbn [negb] in H;
     [ apply Z.eqb_eq in Ea0; subst a0 | apply Z.eqb_neq in Ea0; apply pair3 in H; destruct H as (<- & <- & <-); split; [|discriminate];
       exists []; split; [constructor|]; split; [constructor|]; split; [|rewrite tend_setf; intro; contradiction];
       intros _ js f' v r' t' T; cbn [app visits map concat wfilt];
       match goal with |- trav _ (JEntry _ _ ?nd :: _) _ _ _ _ => eapply (tr_skip filt _ _ _ nd) end; eauto ]).
  - (* file *)
    inversion Ft as [? ? ? ? ? ? ? Hn Hm Hs| | |]; subst.
    destruct (negb o || negb st) eqn:Eo.
    + apply pair3 in H; destruct H as (<- & <- & <-).
      assert (T1 : tend_of (w_fail (w_setf f0 s)) = Failed) by (unfold tend_of; cbn; now rewrite D1).
      split; [|intros _ Q; congruence]. exists []; split; [constructor|]; split; [constructor|]; split; [intro Q; congruence|].
      intros _ js; rewrite T1; cbn [app visits map concat wfilt closing w_f w_fail w_setf].
      apply tr_fail; [exact Ed|exact Ef|]. destruct o, st; cbn in Eo; auto; discriminate.
    + assert (o = true /\ st = true) as [-> ->] by (destruct o, st; cbn in Eo; auto; discriminate).
      destruct (read_file d r) as [content failed] eqn:Er.
      destruct (read_file_spec _ _ _ _ Er) as (-> & P & C & W).
      destruct (file_writes_ok e name m sz (jk (w_n (w_setf f0 s))) content (Hjk _) Hn Hs W) as (F1 & F2 & F3 & F4).
      apply pair3 in H; destruct H as (<- & <- & <-). destruct r.
      * assert (T1 : tend_of (w_fail (w_next (w_setf f0 s))) = Failed) by (unfold tend_of; cbn; now rewrite D1).
        split; [|intros _ Q; congruence]. exists [ABroken name m sz (concat content)].
        match goal with |- context [datas (WFilter ?a ?b ?c ?g :: ?x)] => change (datas (WFilter a b c g :: x)) with (datas x) end.
        rewrite datas_data. split; [exact F2|]. split; [exact F3|]. split; [intro Q; congruence|].
        intros _ js. rewrite T1. match goal with |- context [visits (WFilter ?a ?b ?c ?g :: ?x)] => change (visits (WFilter a b c g :: x)) with (Visit a b c g :: visits x) end.
        rewrite visits_data. cbn [app closing w_f w_fail w_next w_setf]. apply tr_read; assumption.
      * split; [|discriminate]. exists [AFile name m sz (concat content)].
        match goal with |- context [datas (WFilter ?a ?b ?c ?g :: ?x)] => change (datas (WFilter a b c g :: x)) with (datas x) end.
        rewrite datas_data. split; [exact F1|]. split; [exact F4|].
        split; [|intro Q; rewrite tend_next, tend_setf in Q; contradiction].
        intros _ js f' v r' t' T. match goal with |- context [visits (WFilter ?a ?b ?c ?g :: ?x)] => change (visits (WFilter a b c g :: x)) with (Visit a b c g :: visits x) end.
        rewrite visits_data. cbn [app]. rewrite (C eq_refl). eapply tr_file; eauto.
  - (* directory *)
    inversion Ft as [|? ? ? Hn Hm Hes| |]; subst.
    destruct (iter_with (walk_node e filt jk hj (dir ++ [name])) es (w_next (w_setf f0 s))) as [s1 ev1] eqn:E1.
    apply pair3 in H; destruct H as (<- & <- & <-).
    assert (S1 : step_ok (jobs (dir ++ [name]) es) (w_next (w_setf f0 s)) s1 ev1).
    { apply iter_ok; [|exact D|exact E1]. clear E1. induction es as [|x es IHe]; [constructor|].
      inversion IH; inversion Hes; subst. constructor; [|apply IHe; auto; now constructor].
      intros; eauto. }
    split; [|discriminate]. destruct S1 as (recs & G1 & G2 & G3 & G4).
    destruct (name_writes_padded name Hn) as [P1 P2].
    set (j := jk (w_n (w_setf f0 s))) in *. pose proof (Hjk (w_n (w_setf f0 s))) as Hj. fold j in Hj.
    set (tl := if w_dead s1 then [] else [WData (dir_end_item e (u32 (lenN name)) m j)]).
    exists (ADir name m :: recs ++ (if w_dead s1 then [] else [AEnd])).
    match goal with |- context [datas (WFilter ?a ?b ?c ?g :: ?x)] => change (datas (WFilter a b c g :: x)) with (datas x) end.
    match goal with |- context [visits (WFilter ?a ?b ?c ?g :: ?x)] => change (visits (WFilter a b c g :: x)) with (Visit a b c g :: visits x) end.
    rewrite !datas_app, !visits_app, visits_data, datas_data. cbn [app concat]. rewrite !concat_app, P1.
    rewrite u32_small by lia.
    assert (Htl : visits tl = [] /\ encodes (if w_dead s1 then [] else [AEnd]) (concat (datas tl)) /\ small_writes (datas tl)).
    { unfold tl. destruct (w_dead s1); [split; [reflexivity|]; split; constructor|].
      split; [reflexivity|]. cbn [datas map concat wdata app]. rewrite app_nil_r. split.
      - rewrite <- (app_nil_r (dir_end_item _ _ _ _)). constructor; [exact Hj|constructor].
      - constructor; [|constructor]. rewrite lenN_dir_end_item by exact Hj. unfold two32; lia. }
    destruct Htl as (V1 & V2 & V3). rewrite V1, app_nil_r.
    split; [|split; [|split]].
    + constructor; [exact Hj|]. apply encodes_app; assumption.
    + change (dir_item e (lenN name) m j :: name_writes name ++ datas ev1 ++ datas tl) with
        ([dir_item e (lenN name) m j] ++ name_writes name ++ datas ev1 ++ datas tl).
      apply small_app; [constructor; [|constructor]; rewrite lenN_dir_item by exact Hj; unfold two32; lia|].
      apply small_app; [exact P2|]. apply small_app; assumption.
    + intros D0 js f' v r' t' T. assert (Hd : w_dead s1 = false) by (apply clean_done in D0; apply D0). rewrite Hd.
      cbn [app]. rewrite <- !app_assoc. eapply tr_dir; eauto. apply (G3 D0 (JEnd :: js)). cbn [app]. now apply tr_end.
    + intros D0 js. cbn [app]. rewrite <- app_assoc.
      eapply tr_dir; eauto. specialize (G4 D0 (JEnd :: js)).
      replace ((if w_dead s1 then [] else [AEnd]) ++ closing (tend_of s1) js) with (closing (tend_of s1) (JEnd :: js)); [exact G4|].
      unfold tend_of. destruct (w_dead s1); [reflexivity|]. destruct (w_err s1), (w_exit s1); reflexivity.
  - (* link *)
    inversion Ft as [| |? ? ? ? Hn Hm Hs|]; subst. destruct t as [tg|].
    + destruct (sz <? lenN tg) eqn:El.
      * apply N.ltb_lt in El. apply pair3 in H; destruct H as (<- & <- & <-).
        assert (T1 : tend_of (w_die (w_setf f0 s)) = Died) by reflexivity.
        split; [|discriminate]. exists []; split; [constructor|]; split; [constructor|]; split; [intro Q; congruence|].
        intros _ js; rewrite T1; cbn [app visits map concat wfilt closing w_f w_die w_setf]. apply tr_die; assumption.
      * apply N.ltb_ge in El. apply pair3 in H; destruct H as (<- & <- & <-). split; [|discriminate].
        set (jn := hj (w_n (w_setf f0 s)) (sz - lenN tg)). assert (Lj : lenN jn = sz - lenN tg) by apply Hhj.
        assert (Lt : lenN (tg ++ jn) = sz) by (rewrite lenN_app; lia).
        destruct (name_writes_padded name Hn) as [P1 P2]. destruct (sub64_pad sz) as [S1 S2]; [unfold two32, two64 in *; lia|].
        set (j := jk (w_n (w_setf f0 s))) in *. pose proof (Hjk (w_n (w_setf f0 s))) as Hj. fold j in Hj.
        exists [ALink name m (tg ++ jn)].
        match goal with |- context [datas (WFilter ?a ?b ?c ?g :: ?x)] => change (datas (WFilter a b c g :: x)) with (datas x) end.
        match goal with |- context [visits (WFilter ?a ?b ?c ?g :: ?x)] => change (visits (WFilter a b c g :: x)) with (Visit a b c g :: visits x) end.
        rewrite datas_data, visits_data. cbn [concat]. rewrite concat_app, P1, S1, u32_small by lia. cbn [concat]. rewrite app_nil_r.
        split; [|split; [|split]].
        -- pose proof (en_link name m (tg ++ jn) [] [] e j Hj en_nil) as Q. rewrite Lt, app_nil_r in Q. exact Q.
        -- constructor; [rewrite lenN_link_item by exact Hj; unfold two32; lia|]. apply small_app; [exact P2|].
           constructor; [lia|]. constructor; [|constructor]. rewrite lenN_zeros. exact S2.
        -- intros _ js f' v r' t' T. cbn [app]. destruct jn as [|j0 jr].
           ++ rewrite app_nil_r in *. rewrite <- Lt. eapply tr_link; eauto.
           ++ eapply tr_shorter; eauto; [lia|discriminate].
        -- rewrite tend_next, tend_setf; intro; contradiction.
    + apply pair3 in H; destruct H as (<- & <- & <-).
      assert (T1 : tend_of (w_die (w_setf f0 s)) = Died) by reflexivity.
      split; [|discriminate]. exists []; split; [constructor|]; split; [constructor|]; split; [intro Q; congruence|].
      intros _ js; rewrite T1; cbn [app visits map concat wfilt closing w_f w_die w_setf]. apply tr_die; auto.
  - apply pair3 in H; destruct H as (<- & <- & <-). split; [|discriminate].
    exists []; split; [constructor|]; split; [constructor|]; split; [|rewrite tend_setf; intro; contradiction].
    intros _ js f' v r' t' T; cbn [app visits map concat wfilt]. eapply tr_other; eauto.
Qed.

(** The whole walk. *)
Lemma walk_ok dir es s s' evs : Forall (fun x => fits (fst x) (snd x)) es -> tend_of s = Done ->
  walk e filt jk hj dir es s = (s', evs) ->
  exists recs, encodes recs (concat (datas evs)) /\ small_writes (datas evs) /\
    trav (w_f s) (jobs dir es) (w_f s') (visits evs) recs (tend_of s').
Proof.
  intros Ft D H. unfold walk in H.
  assert (S1 : step_ok (jobs dir es) s s' evs).
  { apply iter_ok; [|exact D|exact H]. clear H. induction Ft; constructor; auto. intros. eapply walk_node_ok; eauto. }
  destruct S1 as (recs & A & B & G1 & G2). exists recs. split; [exact A|]. split; [exact B|].
  destruct (tend_of s') eqn:T.
  - specialize (G1 eq_refl [] _ _ _ _ (tr_nil filt (w_f s'))). now rewrite !app_nil_r in G1.
  - specialize (G2 ltac:(discriminate) []). cbn in G2. now rewrite !app_nil_r in G2.
  - specialize (G2 ltac:(discriminate) []). cbn in G2. now rewrite !app_nil_r in G2.
  - specialize (G2 ltac:(discriminate) []). cbn in G2. now rewrite !app_nil_r in G2.
Qed.

End Walk.
