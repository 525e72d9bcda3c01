(** EnvFacts.v: an extraction is not disturbed by processes that work elsewhere. *)
From Verif Require Import Base Format Zlib RleZlib LLCompress Compress Parser ParserProofs ParserFacts Decompress DecompressProofs
  DecompressFacts MidProofs MidFacts ArchiveSpec ArchiveFacts ArchiveDecode ArchiveEntry ArchiveProps
  FS FSFacts HL HLSpec HLFacts HLDrive HLProps HLSafe MkdirFacts HLTame HLMkdir HLMore Conc ConcFacts ConcTame Env.

Lemma disturbed_sim {X} t u n : strip u t = None -> strip t u = None -> forall (p : prog X) A w b A' w',
  disturbed u n p A w b A' w' -> forall S a E, along (alone t u) p S -> frame u S A -> o_fds A = o_fds S -> o_next A = o_next S ->
  o_free S <= o_free A -> o_free S <= n -> touches t w A -> exec p S = Ok (a, E) ->
  b = a /\ frame u E A' /\ o_fds A' = o_fds E /\ touches t w' A'.
Proof.
  intros Tu Ut p A w b A' w' D. induction D as [b A w|p A A1 w b A' w' El D IH|c k A w b A' w' D IH]; intros S a E Al Fr Ef En Le Ln Tw X1.
  - cbn [exec] in X1. injection X1 as <- <-. auto.
  - destruct El as (E1 & E2 & E3 & E4 & E5 & E6 & E7). apply (IH S a E Al); try congruence; try lia.
    + destruct Fr as (F1 & F2 & F3 & F4). repeat split; try congruence. intros q Hq. rewrite E7, F4 by exact Hq. reflexivity.
    + apply touches_refl.
  - cbn [along exec] in Al, X1. destruct Al as [[L Cm] Al].
    destruct (sim_step t u Tu Ut c S A L Cm Fr Ef En Le) as (Q1 & Q2 & Q3 & Q4 & (T1 & T2 & T3 & T4) & Q6). pose proof (free_local _ _ _ _ L) as Fl.
    destruct (sys c S) as [r S1]. cbn [fst snd] in *. rewrite Q1 in *. apply (IH S1 a E Al); auto; try lia.
    destruct Tw as (W1 & W2 & W3 & W4). repeat split; try congruence. intros q Hq. rewrite T4, W4 by exact Hq. reflexivity.
Qed.

Lemma without_frame u o b : frame u (with_free b (without u o)) o.
Proof. repeat split. intros q Hq. cbn [o_fs with_free without]. now rewrite Hq. Qed.

(** ** Any archive that stays below its target *)
Lemma undisturbed z (C : zlib_contract z) (x : job z) t u o n r o1 : proper C x t (without u o) -> apart t u ->
  exec (extraction x) (with_free n (without u o)) = Ok (r, o1) -> 0 < o_free o1 -> n <= o_free o ->
  forall r' o' w, disturbed u n (extraction x) o o r' o' w ->
    r' = r /\ o_cwd o' = o_cwd o /\
    forall q, o_fs o' q = match strip t q, strip u q with Some _, _ => o_fs o1 q | None, Some _ => o_fs w q | None, None => o_fs o q end.
Proof.
  intros P Ap X1 F1 Le r' o' w D.
  assert (Fu : forall r, o_fs (without u o) (u ++ r) = None). { intro y. cbn [o_fs without]. now rewrite strip_app. }
  pose proof (proper_alone _ _ _ _ _ _ _ _ _ P Ap Fu X1 F1) as A1. destruct Ap as [Tu Ut].
  destruct (disturbed_sim t u n Ut Tu _ _ _ _ _ _ D _ _ _ A1 (without_frame _ _ _) eq_refl eq_refl Le (N.le_refl _) (touches_refl _ _) X1)
    as (-> & (G1 & _ & _ & G2) & _ & (_ & _ & _ & T1)).
  pose proof (run_touches _ _ Ut Tu _ _ _ _ A1 X1) as (Q1 & _ & _ & Q2).
  split; [reflexivity|]. split; [rewrite G1, Q1; reflexivity|]. intro q.
  destruct (strip t q) as [y|] eqn:S1.
  - apply G2. apply strip_spec in S1. subst q. now apply strip_none_app.
  - destruct (strip u q) as [y|] eqn:S2; [now apply T1|]. rewrite (G2 q S2), (Q2 q S1). cbn [o_fs with_free without]. now rewrite S2.
Qed.

(** ** Archives written by the library *)
Lemma undisturbed_tree z (C : zlib_contract z) (x : job z) es F t u o n : own_job x es F t (without u o) -> apart t u ->
  volume (preorder es) + 1 <= n -> n <= o_free o ->
  exists d0, forall d, (d0 <= d)%nat -> exists ret s h ds, room_left s -> ret = ContentDirectory /\
    forall r o' w, disturbed u n (extraction (with_dfuel d x)) o o r o' w -> r = (ret, Some (s, h, ds)) /\ o_cwd o' = o_cwd o /\
      forall q, o_fs o' q = match strip u q with Some _ => o_fs w q | None => overlay t (dir_tree (o_umask o) es) (o_fs o) q end.
Proof.
  intros O1 Ap V Le. pose proof O1 as (Cm & A & In & Hf & Ha & Ne & Q & ND & X & Fs & Sl & U & Ft).
  destruct (disk_dir_free z C es F (j_e x) (j_alloc x) (j_hal x) (j_al x) (j_stk x) (j_obuf x) (j_hjunk x) (j_pjunk x) (j_target x) (j_archive x) (j_input x) t
      (with_free n (without u o)) (j_fuel x) A In Hf Cm Ha Ne Q ND X Fs U Ft ltac:(cbn [o_free with_free]; lia)) as (d0 & H).
  exists d0. intros d Hd. destruct (H d Hd) as (ret & s & h & ds & o1 & E & R). exists ret, s, h, ds.
  intro Rl. destruct (R Rl) as (R1 & R2 & R3 & R4). split; [exact R1|]. intros r o' w D.
  assert (Pos : 0 < o_free o1). { rewrite R3. cbn [o_free with_free]. lia. }
  destruct (undisturbed z C (with_dfuel d x) t u o n _ o1 (own_proper z C _ _ _ _ _ O1) Ap E Pos Le r o' w D) as (H1 & H2 & H3).
  split; [exact H1|]. split; [exact H2|]. intro q. rewrite H3. destruct Ap as [A1 A2].
  destruct (strip t q) as [y|] eqn:S1.
  - rewrite R4. pose proof S1 as S1'. apply strip_spec in S1'. subst q. rewrite (strip_none_app u t y A2 A1).
    unfold overlay. rewrite S1. cbn [o_fs with_free without o_umask]. now rewrite (strip_none_app u t y A2 A1).
  - destruct (strip u q); [reflexivity|]. unfold overlay. now rewrite S1.
Qed.

(** ** Running disturbed programs *)

(** The program after [k] system calls. *)
Fixpoint after {A} (k : nat) (p : prog A) (o : os) : prog A * os :=
  match k, p with S j, PSys c q => after j (q (fst (sys c o))) (snd (sys c o)) | _, _ => (p, o) end.

Lemma exec_disturbed {A} u n (p : prog A) : forall o w a o', exec p o = Ok (a, o') -> disturbed u n p o w a o' w.
Proof.
  induction p as [a| | |c k IH]; intros o w a' o' X; cbn [exec] in X; try discriminate.
  - injection X as <- <-. apply di_ret.
  - apply di_step. destruct (sys c o) as [r o1]. apply IH. exact X.
Qed.

Lemma after_disturbed {A} u n : forall k (p : prog A) o w o1 a o', elsewhere u n (snd (after k p o)) o1 ->
  exec (fst (after k p o)) o1 = Ok (a, o') -> disturbed u n p o w a o' o1.
Proof.
  induction k as [|k IH]; intros p o w o1 a o' El X.
  - apply (di_other _ _ _ _ o1); [exact El|]. now apply exec_disturbed.
  - destruct p as [b| | |c q]; try (apply (di_other _ _ _ _ o1); [exact El|]; now apply exec_disturbed).
    apply di_step. cbn [after] in El, X. now apply IH.
Qed.
