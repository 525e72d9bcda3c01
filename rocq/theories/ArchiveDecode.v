(** ArchiveDecode.v: consequences of the traversal specification; decoding of archives. *)
From Coq Require Import Lia.
From Verif Require Import Base Format Zlib LLCompress CompressFacts Compress Parser ParserProofs ParserFacts
  Decompress DecompressProofs MidProofs MidFacts ArchiveSpec ArchiveFacts.

(** ** Decoding records *)
Definition rec_ok (r : arec) : Prop :=
  match r with
  | ADir name mode => lenN name + 8 < two32 /\ mode < two32
  | AFile name mode size data => lenN name + 8 < two32 /\ mode < two32 /\ size = lenN data /\ size + 8 < two64
  | ALink name mode target => lenN name + 8 < two32 /\ mode < two32 /\ lenN target + 8 < two64
  | AEnd => True
  | ABroken _ _ _ _ => False
  end.

Section Decode.
Context (e : endian) (alloc : N -> N -> bool).
Hypothesis Halloc : forall k n, alloc k n = true.
Notation parse := (parse e alloc).
Notation at_hdr := (at_hdr e).
Notation parse_chunks := (parse_chunks e alloc).

Lemma decode_recs recs b : encodes recs b -> Forall rec_ok recs -> forall s, at_hdr s ->
  exists s1, at_hdr s1 /\ forall t rest, exists evs, shows recs (flat evs) /\
    parse t s (b ++ rest) = do (s2, ev2) <- parse t s1 rest; Ok (s2, evs ++ ev2).
Proof.
  induction 1 as [|name mode rs b e' junk Hj En IH|name mode size data rs b e' junk Hj En IH|
    name mode target rs b e' junk Hj En IH|rs b e' nlen mode junk Hj En IH|name mode size data rs b e' junk Hj En IH];
    intros Ok0 s Hs.
  - exists s. split; [exact Hs|]. intros t rest. exists []. split; [constructor|]. cbn [app].
    destruct (parse t s rest) as [[s2 ev2]| |]; reflexivity.
  - inversion Ok0 as [|? ? Hr Hrs]; subst. destruct Hr as [H1 H2].
    destruct (dir_record e alloc Halloc s e' name mode junk (zeros (norm_len32 (lenN name) - lenN name))) as (s1 & it & A1 & I1 & I2 & I3 & I4 & P);
      auto; [apply lenN_zeros|].
    destruct (IH Hrs s1 A1) as (s2 & A2 & Q). exists s2. split; [exact A2|]. intros t rest.
    destruct (Q t rest) as (evs & Sh & E). exists (EvEntry FtDir it (padded name) :: evs). split.
    + rewrite flat_cons. cbn [flat1 app]. now constructor.
    + rewrite <- !app_assoc. specialize (P t (b ++ rest)). unfold padded. rewrite P, E.
      destruct (parse t s2 rest) as [[s3 ev3]| |]; reflexivity.
  - inversion Ok0 as [|? ? Hr Hrs]; subst. destruct Hr as (H1 & H2 & -> & H3).
    destruct (file_record e alloc Halloc s e' name mode data junk (zeros (norm_len32 (lenN name) - lenN name))
      (zeros (norm_len64 (lenN data) - lenN data))) as (s1 & A1 & P); auto; [apply lenN_zeros|apply lenN_zeros|].
    destruct (IH Hrs s1 A1) as (s2 & A2 & Q). exists s2. split; [exact A2|]. intros t rest.
    destruct (Q t rest) as (evs & Sh & E).
    exists ([EvEntry FtFile (rec_item (lenN name) (lenN data) mode CT_FILE) (padded name); EvRead data; EvFileEnd] ++ evs). split.
    + rewrite flat_app. cbn [flat map flat1 concat app]. rewrite <- app_assoc. cbn [app]. now constructor.
    + rewrite <- !app_assoc. specialize (P t (b ++ rest)). unfold padded. rewrite P, E.
      destruct (parse t s2 rest) as [[s3 ev3]| |]; reflexivity.
  - inversion Ok0 as [|? ? Hr Hrs]; subst. destruct Hr as (H1 & H2 & H3).
    destruct (link_record e alloc Halloc s e' name mode target junk (zeros (norm_len32 (lenN name) - lenN name))
      (zeros (norm_len64 (lenN target) - lenN target))) as (s1 & A1 & P); auto; [apply lenN_zeros|apply lenN_zeros|].
    destruct (IH Hrs s1 A1) as (s2 & A2 & Q). exists s2. split; [exact A2|]. intros t rest.
    destruct (Q t rest) as (evs & Sh & E).
    specialize (P t (b ++ rest)). rewrite E in P.
    eexists ([EvEntry FtSymLink (rec_item (lenN name) (lenN target) mode CT_SYM_LINK) (padded name); EvSym target _] ++ evs). split.
    + rewrite flat_app. cbn [flat map flat1 concat app]. now constructor.
    + rewrite <- !app_assoc. unfold padded. rewrite P. destruct (parse t s2 rest) as [[s3 ev3]| |]; reflexivity.
  - inversion Ok0 as [|? ? Hr Hrs]; subst.
    destruct (dir_end_record e alloc Halloc s e' nlen mode junk Hs Hj) as (s1 & A1 & P).
    destruct (IH Hrs s1 A1) as (s2 & A2 & Q). exists s2. split; [exact A2|]. intros t rest.
    destruct (Q t rest) as (evs & Sh & E). exists (EvDirEnd :: evs). split.
    + rewrite flat_cons. cbn [flat1 app]. now constructor.
    + rewrite <- !app_assoc. rewrite P, E. destruct (parse t s2 rest) as [[s3 ev3]| |]; reflexivity.
  - inversion Ok0 as [|? ? Hr Hrs]; subst. destruct Hr.
Qed.

Lemma decode_chunks recs chunks s s' evs : at_hdr s -> encodes recs (ctext chunks) -> Forall rec_ok recs ->
  parse_chunks s chunks = Ok (s', evs) -> shows recs (flat evs).
Proof.
  intros Hs En Ok0 H. destruct recs as [|r0 recs].
  - inversion En. rewrite (parse_chunks_nils e alloc s) in H; [|intro; now apply parse_at_hdr_nil|congruence].
    injection H as <- <-. constructor.
  - assert (Hne : ctext chunks <> []) by (eapply encodes_nonempty; [exact En|discriminate]).
    destruct (ctext_last chunks Hne) as (c1 & d & t & c2 & -> & Hd & E2).
    assert (Ec : ctext (c1 ++ [(d, t)] ++ c2) = ctext c1 ++ d).
    { rewrite !ctext_app, E2. change (ctext [(d, t)]) with (d ++ []). now rewrite !app_nil_r. }
    rewrite Ec in En. destruct (decode_recs _ _ En Ok0 s Hs) as (s1 & A1 & P).
    destruct (P [] []) as (ev1 & Sh & E). rewrite (parse_at_hdr_nil e alloc [] s1 A1) in E. cbn [obind] in E.
    rewrite !app_nil_r in E.
    destruct (parse_chunks_whole e alloc c1 d t [] s (proj1 Hs) Hd) as (s2 & ea & eb & Ea & Eb & Fl).
    rewrite E in Eb. injection Eb as <- <-.
    rewrite app_assoc, parse_chunks_app, Ea in H. cbn [obind] in H.
    rewrite (parse_chunks_nils e alloc s1) in H; [|intro; now apply parse_at_hdr_nil|exact E2].
    cbn [obind] in H. injection H as <- <-. rewrite app_nil_r, Fl. exact Sh.
Qed.
End Decode.

(** ** Traversal corollaries *)
Definition job_all (P : bytes -> snode -> Prop) (j : job) : Prop :=
  match j with JEntry _ name nd => P name nd | JEnd => True end.

Lemma jobs_all (P : bytes -> snode -> Prop) dir es : Forall (fun x => P (fst x) (snd x)) es -> Forall (job_all P) (jobs dir es).
Proof. unfold jobs. induction 1; constructor; auto. Qed.

(** No file changes its size. *)
Inductive steady : snode -> Prop :=
| sd_file o s mode data r : steady (SFile o s mode (lenN data) data r)
| sd_dir mode es : Forall (fun x => steady (snd x)) es -> steady (SDir mode es)
| sd_link mode size target : steady (SLink mode size target)
| sd_other : steady SOther.

(** Every file can be opened and read. *)
Inductive readable : snode -> Prop :=
| rd_file mode size data : readable (SFile true true mode size data false)
| rd_dir mode es : Forall (fun x => readable (snd x)) es -> readable (SDir mode es)
| rd_link mode size target : readable (SLink mode size target)
| rd_other : readable SOther.

Section TravFacts.
Context {F : Type} (filt : F -> list bytes -> bytes -> skind -> Z * F).
Notation trav := (trav filt).

Lemma Forall_entries (P : bytes -> snode -> Prop) dir es js : Forall (fun x => P (fst x) (snd x)) es -> Forall (job_all P) js ->
  Forall (job_all P) (jobs dir es ++ JEnd :: js).
Proof. intros A B. apply Forall_app. split; [now apply jobs_all|]. constructor; [exact I|exact B]. Qed.

Lemma ends_ok js : Forall rec_ok (ends js).
Proof. induction js as [|[d n x|] js IH]; cbn [ends]; [constructor|exact IH|]. constructor; [exact I|exact IH]. Qed.

Lemma trav_rec_ok f js f' vs rs t : trav f js f' vs rs t ->
  Forall (job_all (fun n x => fits n x /\ steady x)) js -> t = Failed \/ Forall rec_ok rs.
Proof.
  induction 1; intro Fj; try (inversion Fj as [|? ? Hj Fjs]; subst).
  - right; constructor.
  - destruct (IHtrav Fjs) as [->|Q]; [auto|]. right. constructor; [exact I|exact Q].
  - auto.
  - right. apply ends_ok.
  - auto.
  - destruct Hj as [Hf Hs]. inversion Hf; inversion Hs; subst.
    destruct IHtrav as [->|Q].
    { apply Forall_entries; [|exact Fjs]. rewrite Forall_forall in *. intros x Hx. split; auto. }
    { auto. } right. constructor; [|exact Q]. split; assumption.
  - destruct Hj as [Hf Hs]. inversion Hf; inversion Hs; subst. destruct (IHtrav Fjs) as [->|Q]; [auto|].
    right. constructor; [|exact Q]. cbn. auto.
  - left; reflexivity.
  - left; reflexivity.
  - destruct Hj as [Hf Hs]. inversion Hf; subst. destruct (IHtrav Fjs) as [->|Q]; [auto|].
    right. constructor; [|exact Q]. cbn. unfold two32, two64 in *. repeat split; try assumption; lia.
  - destruct Hj as [Hf Hs]. inversion Hf; subst. destruct (IHtrav Fjs) as [->|Q]; [auto|].
    right. constructor; [|exact Q]. cbn. rewrite lenN_app. unfold two32, two64 in *. repeat split; try assumption; lia.
  - right; constructor.
  - auto.
Qed.

(** Number of open directories. *)
Fixpoint opened (js : list job) : nat :=
  match js with [] => O | JEnd :: r => S (opened r) | JEntry _ _ _ :: r => opened r end.

Lemma opened_jobs dir es js : opened (jobs dir es ++ js) = opened js.
Proof. induction es; [reflexivity|assumption]. Qed.

Lemma ends_balanced js : balanced (opened js) (ends js).
Proof. induction js as [|[d n x|] js IH]; cbn [opened ends balanced]; auto. Qed.

Lemma trav_balanced f js f' vs rs t : trav f js f' vs rs t -> t <> Died -> balanced (opened js) rs.
Proof.
  induction 1; intro Ht; cbn [opened balanced]; auto using ends_balanced.
  - specialize (IHtrav Ht). rewrite opened_jobs in IHtrav. exact IHtrav.
  - now destruct Ht.
Qed.

(** Accepted entries and archived entries. *)
Definition accepted (vs : list visit) : list (bytes * skind) :=
  concat (map (fun v => if (v_answer v =? 0)%Z then match v_kind v with KOther => [] | k => [(v_name v, k)] end else []) vs).
Definition archived (rs : list arec) : list (bytes * skind) :=
  concat (map (fun r => match r with ADir n _ => [(n, KDir)] | AFile n _ _ _ => [(n, KFile)] | ALink n _ _ => [(n, KLink)]
                        | AEnd => [] | ABroken n _ _ _ => [(n, KFile)] end) rs).

Lemma archived_ends js : archived (ends js) = [].
Proof. induction js as [|[d n x|] js IH]; auto. Qed.

Lemma accepted_cons v vs : accepted (v :: vs) = accepted [v] ++ accepted vs.
Proof. unfold accepted. cbn [map concat]. now rewrite app_nil_r. Qed.
Lemma archived_cons v vs : archived (v :: vs) = archived [v] ++ archived vs.
Proof. unfold archived. cbn [map concat]. now rewrite app_nil_r. Qed.

Lemma trav_accepted f js f' vs rs t : trav f js f' vs rs t -> t = Done \/ t = Stopped -> archived rs = accepted vs.
Proof.
  induction 1; intro Ht; auto.
  - rewrite archived_ends. reflexivity.
  - rewrite accepted_cons. unfold accepted at 1. cbn [map concat v_answer v_kind v_name].
    destruct (a =? 0)%Z eqn:E; [apply Z.eqb_eq in E; contradiction|]. cbn [app]. auto.
  - rewrite archived_cons, accepted_cons. rewrite (IHtrav Ht). reflexivity.
  - rewrite archived_cons, accepted_cons. rewrite (IHtrav Ht). reflexivity.
  - destruct Ht; discriminate.
  - destruct Ht; discriminate.
  - rewrite archived_cons, accepted_cons. rewrite (IHtrav Ht). reflexivity.
  - rewrite archived_cons, accepted_cons. rewrite (IHtrav Ht). reflexivity.
  - destruct Ht; discriminate.
Qed.

(** The filter is not called again after it answered 387, and only then is the run stopped. *)
Lemma trav_stop f js f' vs rs t : trav f js f' vs rs t ->
  (t = Stopped -> exists vs' v, vs = vs' ++ [v] /\ v_answer v = 387%Z /\ Forall (fun v => v_answer v <> 387%Z) vs') /\
  (t <> Stopped -> Forall (fun v => v_answer v <> 387%Z) vs).
Proof.
  induction 1; try exact IHtrav.
  - split; [discriminate|constructor].
  - split; [|intro Q; now destruct Q]. intros _. eexists [], _. split; [reflexivity|]. split; [reflexivity|constructor].
  - destruct IHtrav as [A B]. split.
    + intro Ht. destruct (A Ht) as (vs' & v & -> & Hv & Hf). exists (Visit dir name (kind_of nd) a :: vs'), v.
      split; [reflexivity|]. split; [exact Hv|]. constructor; assumption.
    + intro Ht. constructor; auto.
  - destruct IHtrav as [A B]. split.
    + intro Ht. destruct (A Ht) as (vs' & v & -> & Hv & Hf). eexists (_ :: vs'), v.
      split; [reflexivity|]. split; [exact Hv|]. constructor; [discriminate|assumption].
    + intro Ht. constructor; [discriminate|auto].
  - destruct IHtrav as [A B]. split.
    + intro Ht. destruct (A Ht) as (vs' & v & -> & Hv & Hf). eexists (_ :: vs'), v.
      split; [reflexivity|]. split; [exact Hv|]. constructor; [discriminate|assumption].
    + intro Ht. constructor; [discriminate|auto].
  - split; [discriminate|]. intros _. constructor; [discriminate|constructor].
  - split; [discriminate|]. intros _. constructor; [discriminate|constructor].
  - destruct IHtrav as [A B]. split.
    + intro Ht. destruct (A Ht) as (vs' & v & -> & Hv & Hf). eexists (_ :: vs'), v.
      split; [reflexivity|]. split; [exact Hv|]. constructor; [discriminate|assumption].
    + intro Ht. constructor; [discriminate|auto].
  - destruct IHtrav as [A B]. split.
    + intro Ht. destruct (A Ht) as (vs' & v & -> & Hv & Hf). eexists (_ :: vs'), v.
      split; [reflexivity|]. split; [exact Hv|]. constructor; [discriminate|assumption].
    + intro Ht. constructor; [discriminate|auto].
  - split; [discriminate|]. intros _. constructor; [discriminate|constructor].
  - destruct IHtrav as [A B]. split.
    + intro Ht. destruct (A Ht) as (vs' & v & -> & Hv & Hf). eexists (_ :: vs'), v.
      split; [reflexivity|]. split; [exact Hv|]. constructor; [discriminate|assumption].
    + intro Ht. constructor; [discriminate|auto].
Qed.

Lemma trav_readable f js f' vs rs t : trav f js f' vs rs t -> Forall (job_all (fun _ x => readable x)) js -> t <> Failed.
Proof.
  induction 1; intro Fj; try (inversion Fj as [|? ? Hj Fjs]; subst); try discriminate; auto.
  - inversion Hj; subst. apply IHtrav. apply Forall_entries; assumption.
  - inversion Hj; subst. destruct H1; discriminate.
  - inversion Hj.
Qed.

(** A run fails at an accepted file that cannot be opened, inspected or read, and archives and asks nothing after it. *)
Lemma trav_failed f js f' vs rs t : trav f js f' vs rs t -> t = Failed ->
  exists vs' d n, vs = vs' ++ [Visit d n KFile 0] /\
    exists rs' last k, rs = rs' ++ last ++ repeat AEnd k /\ archived rs' = accepted vs' /\
      (last = [] \/ exists mode size data, last = [ABroken n mode size data]).
Proof.
  assert (Ee : forall js, exists k, ends js = repeat AEnd k).
  { induction js0 as [|[d n x|] js0 [k IH]]; [exists O; reflexivity|exists k; exact IH|exists (S k); cbn; congruence]. }
  induction 1; intro Ht; try discriminate; auto.
  - destruct (IHtrav Ht) as (vs' & d & n & -> & rs' & last & k & -> & Q1 & Q2). exists vs', d, n. split; [reflexivity|].
    exists (AEnd :: rs'), last, k. split; [reflexivity|]. auto.
  - destruct (IHtrav Ht) as (vs' & d & n & -> & rs' & last & k & -> & Q1 & Q2).
    exists (Visit dir name (kind_of nd) a :: vs'), d, n. split; [reflexivity|].
    exists rs', last, k. split; [reflexivity|]. split; [|exact Q2].
    rewrite accepted_cons, <- Q1. unfold accepted. cbn [map concat v_answer]. destruct (a =? 0)%Z eqn:E; [apply Z.eqb_eq in E; contradiction|reflexivity].
  - destruct (IHtrav Ht) as (vs' & d & n & -> & rs' & last & k & -> & Q1 & Q2). eexists (_ :: vs'), d, n. split; [reflexivity|].
    eexists (_ :: rs'), last, k. split; [reflexivity|]. split; [|exact Q2]. rewrite accepted_cons, archived_cons, Q1. reflexivity.
  - destruct (IHtrav Ht) as (vs' & d & n & -> & rs' & last & k & -> & Q1 & Q2). eexists (_ :: vs'), d, n. split; [reflexivity|].
    eexists (_ :: rs'), last, k. split; [reflexivity|]. split; [|exact Q2]. rewrite accepted_cons, archived_cons, Q1. reflexivity.
  - exists [], dir, name. split; [reflexivity|]. destruct (Ee js) as [k Ek]. exists [], [], k. split; [exact Ek|]. auto.
  - exists [], dir, name. split; [reflexivity|]. destruct (Ee js) as [k Ek]. eexists [], [_], k. rewrite Ek. split; [reflexivity|].
    split; [reflexivity|]. right. eauto.
  - destruct (IHtrav Ht) as (vs' & d & n & -> & rs' & last & k & -> & Q1 & Q2). eexists (_ :: vs'), d, n. split; [reflexivity|].
    eexists (_ :: rs'), last, k. split; [reflexivity|]. split; [|exact Q2]. rewrite accepted_cons, archived_cons, Q1. reflexivity.
  - destruct (IHtrav Ht) as (vs' & d & n & -> & rs' & last & k & -> & Q1 & Q2). eexists (_ :: vs'), d, n. split; [reflexivity|].
    eexists (_ :: rs'), last, k. split; [reflexivity|]. split; [|exact Q2]. rewrite accepted_cons, archived_cons, Q1. reflexivity.
  - destruct (IHtrav Ht) as (vs' & d & n & -> & rs' & last & k & -> & Q1 & Q2). eexists (_ :: vs'), d, n. split; [reflexivity|].
    exists rs', last, k. split; [reflexivity|]. split; [|exact Q2]. rewrite accepted_cons, Q1. reflexivity.
Qed.
End TravFacts.

(** ** Filters that only depend on the entry *)
Section Pure.
Context (ans : list bytes -> bytes -> skind -> Z).
(** What the filter is asked, and what is archived, written down recursively. *)
Fixpoint asked1 (dir : list bytes) (name : bytes) (nd : snode) : list visit :=
  if dotb name then []
  else Visit dir name (kind_of nd) (ans dir name (kind_of nd)) ::
       (if (ans dir name (kind_of nd) =? 0)%Z then
          match nd with SDir _ es => concat (map (fun x => asked1 (dir ++ [name]) (fst x) (snd x)) es) | _ => [] end
        else []).
Definition asked (dir : list bytes) (es : list (bytes * snode)) : list visit :=
  concat (map (fun x => asked1 dir (fst x) (snd x)) es).
Fixpoint kept1 (dir : list bytes) (name : bytes) (nd : snode) : list arec :=
  if dotb name then []
  else if (ans dir name (kind_of nd) =? 0)%Z then
    match nd with
    | SFile _ _ mode size data _ => [AFile name mode size data]
    | SDir mode es => ADir name mode :: concat (map (fun x => kept1 (dir ++ [name]) (fst x) (snd x)) es) ++ [AEnd]
    | SLink mode _ (Some target) => [ALink name mode target]
    | SLink _ _ None => []
    | SOther => []
    end
  else [].
Definition kept (dir : list bytes) (es : list (bytes * snode)) : list arec :=
  concat (map (fun x => kept1 dir (fst x) (snd x)) es).

Definition asked_job (j : job) := match j with JEntry d n x => asked1 d n x | JEnd => [] end.
Definition kept_job (j : job) := match j with JEntry d n x => kept1 d n x | JEnd => [AEnd] end.

Lemma asked_jobs dir es : concat (map asked_job (jobs dir es)) = asked dir es.
Proof. unfold asked, jobs. rewrite map_map. reflexivity. Qed.
Lemma kept_jobs dir es : concat (map kept_job (jobs dir es)) = kept dir es.
Proof. unfold kept, jobs. rewrite map_map. reflexivity. Qed.

Lemma dotb_spec name : dotb name = true <-> dotted name.
Proof. unfold dotb, dotted. cbn [existsb]. rewrite !Bool.orb_true_iff, !bytes_eqb_spec. intuition discriminate. Qed.
Lemma dot_no name : ~ dotted name -> dotb name = false.
Proof. intro H. destruct (dotb name) eqn:E; [|reflexivity]. apply dotb_spec in E. contradiction. Qed.

Lemma trav_pure {F} (filt : F -> list bytes -> bytes -> skind -> Z * F) :
  (forall f d n k, fst (filt f d n k) = ans d n k) -> (forall d n k, ans d n k <> 387%Z) ->
  forall f js f' vs rs t, trav filt f js f' vs rs t -> Forall (job_all (fun _ x => quiet x)) js ->
  t = Done /\ vs = concat (map asked_job js) /\ rs = concat (map kept_job js).
Proof.
  intros Hf Hn. assert (Ha : forall f d n k a f1, filt f d n k = (a, f1) -> ans d n k = a).
  { intros. rewrite <- (Hf f). now rewrite H. }
  induction 1; intro Fj; try (inversion Fj as [|? ? Hj Fjs]; subst); cbn [map concat].
  - auto.
  - destruct (IHtrav Fjs) as (A & B & D). split; [exact A|]. cbn [asked_job kept_job app]. split; congruence.
  - destruct (IHtrav Fjs) as (A & B & D). split; [exact A|]. cbn [asked_job kept_job app].
    apply dotb_spec in H. destruct nd; cbn [asked1 kept1]; rewrite H; cbn [app]; split; congruence.
  - apply Ha in H0. now apply Hn in H0.
  - destruct (IHtrav Fjs) as (A & B & D). split; [exact A|]. cbn [asked_job kept_job app]. apply Ha in H0. apply dot_no in H.
    apply Z.eqb_neq in H2. destruct nd; cbn [asked1 kept1 kind_of] in *; rewrite H, H0, H2; cbn [app]; split; congruence.
  - inversion Hj; subst. destruct IHtrav as (A & B & D). { now apply (Forall_entries (fun _ x => quiet x)). }
    rewrite map_app, concat_app, asked_jobs in B. rewrite map_app, concat_app, kept_jobs in D. cbn [map concat asked_job kept_job app] in B, D.
    split; [exact A|]. cbn [asked_job kept_job asked1 kept1 kind_of]. apply Ha in H0. apply dot_no in H. rewrite H, H0. cbn [Z.eqb].
    split; [rewrite B; reflexivity|]. rewrite D. cbn [app]. rewrite <- app_assoc. reflexivity.
  - inversion Hj; subst. destruct (IHtrav Fjs) as (A & B & D). split; [exact A|].
    cbn [asked_job kept_job asked1 kept1 kind_of]. apply Ha in H0. apply dot_no in H. rewrite H, H0. cbn [Z.eqb app]. split; congruence.
  - inversion Hj; subst. destruct H1; discriminate.
  - inversion Hj.
  - inversion Hj; subst. destruct (IHtrav Fjs) as (A & B & D). split; [exact A|].
    cbn [asked_job kept_job asked1 kept1 kind_of]. apply Ha in H0. apply dot_no in H. rewrite H, H0. cbn [Z.eqb app]. split; congruence.
  - inversion Hj; subst. destruct junk; [contradiction|]. match goal with Q : context [lenN (_ :: _)] |- _ => rewrite lenN_cons in Q; lia end.
  - inversion Hj; subst. lia.
  - destruct (IHtrav Fjs) as (A & B & D). split; [exact A|].
    cbn [asked_job kept_job asked1 kept1 kind_of]. apply Ha in H0. apply dot_no in H. rewrite H, H0. cbn [Z.eqb app]. split; congruence.
Qed.
End Pure.

Lemma kept1_all : forall nd dir name, kept1 (fun _ _ _ => 0%Z) dir name nd = preorder1 name nd.
Proof.
  induction nd as [o st m sz d r|m es IH|m sz t|] using snode_ind2; intros dir name; cbn [kept1 preorder1 Z.eqb]; try reflexivity.
  destruct (dotb name); [reflexivity|]. do 2 f_equal. generalize (dir ++ [name]). intro dd.
  induction IH as [|x es Hx Hes IHes]; [reflexivity|]. cbn [map concat]. rewrite Hx. f_equal. exact IHes.
Qed.
Lemma kept_all dir es : kept (fun _ _ _ => 0%Z) dir es = preorder es.
Proof. unfold kept, preorder. f_equal. apply map_ext. intro. apply kept1_all. Qed.
