(** ToolsCut.v: the self extract tool on a disk that fills up (C66). *)
From Coq Require Import Lia Strings.String.
From Verif Require Import Base Format Zlib Compress ArchiveSpec ArchiveFacts FS ArgParser Tools ToolsSpec ToolsFacts ToolsExamples.
Local Open Scope list_scope.

(** A disk: after a write that did not store everything nothing is stored any more. *)
Definition fills (wr : N -> N -> N) : Prop := forall k n k' n', wr k n < n -> k < k' -> wr k' n' = 0.

(** The file written, compared with the one that all writes together would give; [k]: number of writes so far. *)
Definition behind (wr : N -> N -> N) (k : N) (w w' : wfile) : Prop :=
  w = w' \/ (prefix (wf_data w) (wf_data w') /\ forall k' n, k <= k' -> wr k' n = 0).
Definition at_end (w : wfile) : Prop := lenN (wf_data w) <= wf_pos w.

Lemma write_end d w : at_end w -> d <> [] -> wf_data (wf_write d w) = wf_data w ++ zeros (wf_pos w - lenN (wf_data w)) ++ d /\ at_end (wf_write d w).
Proof.
  unfold at_end. intros E H. destruct d as [|b d]; [congruence|]. cbn [wf_write wf_data wf_pos]. generalize (b :: d). intro x.
  assert (L : lenN (wf_data w ++ zeros (wf_pos w - lenN (wf_data w))) = wf_pos w) by (rewrite lenN_app, lenN_zeros; lia).
  assert (O : overwrite (wf_pos w) x (wf_data w ++ zeros (wf_pos w - lenN (wf_data w))) = (wf_data w ++ zeros (wf_pos w - lenN (wf_data w))) ++ x).
  { unfold overwrite. rewrite takeN_all by lia. rewrite dropN_all by lia. now rewrite app_nil_r. }
  rewrite O. split; [now rewrite app_assoc|]. rewrite lenN_app, L. lia.
Qed.
Lemma write_grows d w : at_end w -> prefix (wf_data w) (wf_data (wf_write d w)) /\ at_end (wf_write d w).
Proof.
  intro E. destruct d as [|b d]; [split; [exists []; now rewrite app_nil_r|exact E]|].
  destruct (write_end (b :: d) w E) as [A B]; [discriminate|]. split; [rewrite A; eexists; reflexivity|exact B].
Qed.
Lemma behind_write wr k d w w' : fills wr -> at_end w' -> behind wr k w w' ->
  behind wr (k + 1) (wf_write (takeN (wr k (lenN d)) d) w) (wf_write d w').
Proof.
  intros Fi E B. destruct B as [->|[P Z]].
  - destruct (N.lt_ge_cases (wr k (lenN d)) (lenN d)) as [Sh|Sh].
    + right. split; [|intros k' n Hk; apply (Fi k (lenN d)); [exact Sh|lia]].
      destruct (takeN (wr k (lenN d)) d) as [|b x] eqn:Et; [apply (write_grows d w' E)|].
      assert (Nd : d <> []) by (intros ->; cbn in Sh; lia).
      rewrite <- Et. rewrite (proj1 (write_end _ w' E Nd)). rewrite (proj1 (write_end (takeN (wr k (lenN d)) d) w' E ltac:(rewrite Et; discriminate))).
      exists (dropN (wr k (lenN d)) d). rewrite <- !app_assoc. do 2 f_equal. symmetry. apply takeN_dropN.
    + left. now rewrite takeN_all.
  - right. rewrite (Z k) by lia. rewrite takeN_0. cbn [wf_write]. split; [|intros k' n Hk; apply Z; lia].
    eapply prefix_trans; [exact P|]. apply (write_grows d w' E).
Qed.
Lemma copy_behind rd wr (Fi : fills wr) fuel : forall k n rest w w', at_end w' -> behind wr n w w' ->
  match se_copy rd wr fuel k n rest w, se_copy rd (fun _ n => n) fuel k n rest w' with
  | Ok (a, i), Ok (b, j) => i = j /\ at_end b /\ behind wr i a b
  | NoFuel, NoFuel => True
  | _, _ => False
  end.
Proof.
  induction fuel as [|fuel IH]; intros k n rest w w' E B; cbn [se_copy]; [exact I|]. destruct rest as [|b rest]; [auto|].
  set (next := N.min (lenN (b :: rest)) VC_BUFFER_SIZE). set (got := N.min next (rd k next)).
  assert (Lg : lenN (takeN got (b :: rest)) = got) by (rewrite lenN_takeN; unfold got, next; lia).
  destruct (0 <? got); [|apply IH; assumption]. rewrite takeN_all with (n := got) (l := takeN got (b :: rest)) by lia. apply IH.
  - now apply write_grows.
  - pose proof (behind_write wr n (takeN got (b :: rest)) w w' Fi E B) as Q. now rewrite Lg in Q.
Qed.
Lemma writes_behind wr (Fi : fills wr) ds : forall n w w', at_end w' -> behind wr n w w' ->
  prefix (wf_data (se_writes wr n ds w)) (wf_data (se_writes (fun _ n => n) n ds w')).
Proof.
  induction ds as [|d ds IH]; intros n w w' E B; cbn [se_writes].
  - destruct B as [->|[P _]]; [exists []; now rewrite app_nil_r|exact P].
  - rewrite (takeN_all _ (lenN d) d) by lia. apply IH; [now apply write_grows|]. apply behind_write; auto.
Qed.
Lemma full_copy_len rd fuel : forall k n rest w a i, wf_pos w = lenN (wf_data w) -> se_copy rd (fun _ n => n) fuel k n rest w = Ok (a, i) ->
  lenN (wf_data a) = lenN (wf_data w) + lenN rest.
Proof.
  induction fuel as [|fuel IH]; intros k n rest w a i E H; cbn [se_copy] in H; [discriminate H|]. destruct rest as [|b rest].
  { injection H as <- <-. rewrite lenN_nil. lia. }
  set (next := N.min (lenN (b :: rest)) VC_BUFFER_SIZE) in *. set (got := N.min next (rd k next)) in *.
  assert (Lg : lenN (takeN got (b :: rest)) = got) by (rewrite lenN_takeN; unfold got, next; lia).
  destruct (0 <? got) eqn:Eg; [|eapply IH; eauto]. apply N.ltb_lt in Eg. rewrite takeN_all with (n := got) (l := takeN got (b :: rest)) in H by lia.
  assert (Nn : takeN got (b :: rest) <> []) by (intro Q; rewrite Q in Lg; cbn in Lg; lia).
  destruct (write_end (takeN got (b :: rest)) w ltac:(unfold at_end; lia) Nn) as [A _].
  assert (P : wf_pos (wf_write (takeN got (b :: rest)) w) = wf_pos w + got).
  { destruct (takeN got (b :: rest)) eqn:Et; [congruence|]. cbn [wf_write wf_pos]. now rewrite <- Lg. }
  apply IH in H.
  - rewrite H, A, !lenN_app, lenN_zeros, lenN_dropN, Lg. assert (got <= lenN (b :: rest)) by (unfold got, next; lia). lia.
  - rewrite P, A, !lenN_app, lenN_zeros, Lg. lia.
Qed.

(** C66 *)
Lemma se_full_disk z e jk hj xjk hjunk al ls rd wr opn ndebug cfuel fuel argv0 exe r out : fills wr ->
  se_main z e jk hj xjk hjunk al ls rd wr opn ndebug cfuel fuel argv0 exe = Ok (SeBuild r out) ->
  exists out', se_main z e jk hj xjk hjunk al ls rd (fun _ n => n) opn ndebug cfuel fuel argv0 exe = Ok (SeBuild r out') /\ prefix out out'.
Proof.
  intros Fi H. destruct exe as [x|]; [|discriminate H]. cbn [se_main] in *. destruct (max_exe ndebug <? lenN x) eqn:Ex; [discriminate H|].
  apply N.ltb_ge in Ex. destruct (se_name_dir argv0) as [name dir]. destruct (opn 0); cbn [negb] in *; [|discriminate H].
  pose proof (copy_behind rd wr Fi cfuel 0 0 x (WF [] 0) (WF [] 0) ltac:(unfold at_end; cbn; lia) (or_introl eq_refl)) as Q.
  destruct (se_copy rd wr cfuel 0 0 x (WF [] 0)) as [[a i]| |]; cbn [obind] in H; try discriminate H.
  destruct (se_copy rd (fun _ n => n) cfuel 0 0 x (WF [] 0)) as [[b j]| |] eqn:Eb; try contradiction. destruct Q as (<- & Ea & B).
  assert (P : prefix (wf_data a) (wf_data b)) by (destruct B as [->|[P _]]; [exists []; now rewrite app_nil_r|exact P]).
  cbn [obind]. unfold icon_to_app in *. destruct (opn 1); cbn [negb] in *.
  2: { injection H as <- <-. eexists. split; [reflexivity|exact P]. }
  destruct (compress_dir z e (se_filter name) jk hj xjk hjunk al fuel Z_BEST_COMPRESSION 1 false [] (ls dir) (true, true))
    as [[[[[r0 cevs] ws] wx] led]| |]; cbn [obind] in *; try discriminate H. injection H as <- <-. eexists. split; [reflexivity|].
  apply writes_behind; [exact Fi| |].
  - apply full_copy_len in Eb; [|reflexivity]. unfold at_end. cbn [wf_data wf_pos] in *. rewrite Eb, lenN_nil. lia.
  - destruct B as [->|[P0 Z]]; [left; reflexivity|right]. split; [exact P0|exact Z].
Qed.

Lemma ex_c66_fills : fills se_full /\ se_run se_tree se_full 9 (list_byte_of_string "./tool") (Some (list_byte_of_string "TOOL")) =
    Ok (SeBuild (CRet 0) (list_byte_of_string "TOOL")).
Proof.
  split; [|exact (proj1 ex_c66)]. intros k n k' n' H L. unfold se_full in *. destruct (k <? 2) eqn:E; [lia|]. apply N.ltb_ge in E.
  now rewrite (proj2 (N.ltb_ge k' 2)) by lia.
Qed.
