(** BothFacts.v: the same archive extracted on Unix and on Windows (C147). *)
From Coq Require Import Lia.
From Verif Require Import Base Format Zlib RleZlib LLCompress Compress Parser ParserProofs ParserFacts Decompress DecompressProofs
  DecompressFacts MidProofs MidFacts DecompressExamples ArchiveSpec ArchiveFacts ArchiveDecode ArchiveEntry ArchiveProps ArchiveExamples
  FS FSFacts HL HLSpec HLFacts HLDrive HLProps HLSafe MkdirFacts HLTame HLMkdir HLMore HLExamples WinTools WinExtract WinExtractSpec WinExtractFacts
  WinExtractTame WinExtractExamples.

(** ** Specification *)

(** The same kind of entry, the same contents; read-only on Windows if the owner may not write on Unix. *)
Definition alike (i : inode) (x : xnode) : Prop :=
  match i, x with
  | IDir _, XDir => True
  | IFile mode data, XFile ro data' => data = data' /\ ro = negb (N.testbit mode 7)
  | _, _ => False
  end.
(** The entries below [t] of the one file system are those below [v] of the other, whose names have no case. *)
Definition same_tree (fs : fstree) (t : path) (ws : xtree) (v : path) : Prop :=
  (forall r i, fs (t ++ r) = Some i -> exists x, ws (v ++ map fold_case r) = Some x /\ alike i x) /\
  (forall p x, ws (v ++ p) = Some x -> exists r i, map fold_case r = p /\ fs (t ++ r) = Some i /\ alike i x).

(** ** Entries *)

Lemma up_entry c es nd : entry_of c es = Some nd -> dotb c = false -> NoDup (map (fun x => fold_case (fst x)) es) ->
  win_entry (fold_case c) es = Some nd.
Proof.
  induction es as [|[n d] es IH]; intros H Nc ND; cbn [entry_of win_entry map fst] in *; [discriminate H|].
  apply NoDup_cons_iff in ND. destruct ND as [Nn ND]. destruct (bytes_eqb n c) eqn:E.
  - apply bytes_eqb_spec in E. subst n. rewrite Nc, (proj2 (bytes_eqb_spec (fold_case c) (fold_case c)) eq_refl). exact H.
  - rewrite (IH H Nc ND). destruct (bytes_eqb (fold_case n) (fold_case c)) eqn:F; [|now rewrite andb_false_r].
    apply bytes_eqb_spec in F. exfalso. apply Nn. rewrite F. clear -H. induction es as [|[m d'] es IH]; cbn [entry_of map fst] in *; [discriminate H|].
    destruct (bytes_eqb m c) eqn:E; [apply bytes_eqb_spec in E; subst m; now left|right; auto].
Qed.
Lemma down_entry p es nd : win_entry p es = Some nd -> NoDup (map fst es) ->
  exists c, fold_case c = p /\ dotb c = false /\ entry_of c es = Some nd.
Proof.
  induction es as [|[n d] es IH]; intros H ND; cbn [entry_of win_entry map fst] in *; [discriminate H|].
  apply NoDup_cons_iff in ND. destruct ND as [Nn ND]. destruct (negb (dotb n) && bytes_eqb (fold_case n) p) eqn:E.
  - apply andb_prop in E. destruct E as [E1 E2]. apply negb_true_iff in E1. apply bytes_eqb_spec in E2. exists n.
    rewrite (proj2 (bytes_eqb_spec n n) eq_refl). auto.
  - destruct (IH H ND) as (c & F & Nc & Ec). exists c. split; [exact F|]. split; [exact Nc|].
    destruct (bytes_eqb n c) eqn:G; [|exact Ec]. apply bytes_eqb_spec in G. subst n. exfalso. apply Nn. clear -Ec.
    induction es as [|[m d'] es IH]; cbn [entry_of map fst] in *; [discriminate Ec|].
    destruct (bytes_eqb m c) eqn:E; [apply bytes_eqb_spec in E; subst m; now left|right; auto].
Qed.
Lemma entry_in c es nd : entry_of c es = Some nd -> In (c, nd) es.
Proof.
  induction es as [|[m d'] es IH]; cbn [entry_of]; [discriminate|]. destruct (bytes_eqb m c) eqn:E; [|right; auto].
  apply bytes_eqb_spec in E. subst m. intro H. injection H as ->. now left.
Qed.
Lemma nodup_fold es : NoDup (map (fun x : bytes * snode => fold_case (fst x)) es) -> NoDup (map fst es).
Proof.
  intro H. apply (NoDup_map_inv fold_case). rewrite map_map. exact H.
Qed.

Section Trees.
Context (maxd maxf um : N).
Hypothesis Um : N.testbit um 7 = false.

Lemma perm_write mode : N.testbit (file_perm um mode) 7 = N.testbit mode 7.
Proof.
  unfold file_perm. rewrite N.ldiff_spec, N.land_spec, Um. change (N.testbit 511 7) with true. now rewrite !andb_true_r.
Qed.

Lemma tree_up r : forall L es i, NoDup (map (fun x => fold_case (fst x)) es) -> Forall (fun x => wextractable maxd maxf L (fst x) (snd x)) es ->
  tree_at um r es = Some i -> exists x, win_at (map fold_case r) es = Some x /\ alike i x.
Proof.
  induction r as [|c r IH]; intros L es i ND X H; cbn [tree_at map win_at] in *; [discriminate H|].
  destruct (dotb c) eqn:Dc; [discriminate H|]. destruct (entry_of c es) as [nd|] eqn:Ec; [|discriminate H].
  rewrite (up_entry _ _ _ Ec Dc ND). pose proof (entry_in _ _ _ Ec) as I. rewrite Forall_forall in X. specialize (X _ I). cbn [fst snd] in X.
  destruct nd as [o s mode size data rd|mode es'|mode size target|]; [| |discriminate H|discriminate H].
  - destruct r as [|c' r]; [|discriminate H]. injection H as <-. cbn [map]. eexists. split; [reflexivity|]. cbn [alike]. now rewrite perm_write.
  - destruct r as [|c' r].
    + injection H as <-. cbn [map]. eexists. split; [reflexivity|exact Logic.I].
    + inversion X; subst; [match goal with D : dotted c |- _ => apply dotb_spec in D; congruence end|].
      change (map fold_case (c' :: r)) with (fold_case c' :: map fold_case r) at 1. cbv iota. eapply IH; eassumption.
Qed.
Lemma tree_down p : forall L es x, NoDup (map (fun x => fold_case (fst x)) es) -> Forall (fun x => wextractable maxd maxf L (fst x) (snd x)) es ->
  win_at p es = Some x -> exists r i, map fold_case r = p /\ tree_at um r es = Some i /\ alike i x.
Proof.
  induction p as [|c p IH]; intros L es x ND X H; cbn [win_at] in H; [discriminate H|].
  destruct (win_entry c es) as [nd|] eqn:Ec; [|discriminate H].
  destruct (down_entry _ _ _ Ec (nodup_fold _ ND)) as (n & F & Dn & En). pose proof (entry_in _ _ _ En) as I. rewrite Forall_forall in X.
  specialize (X _ I). cbn [fst snd] in X. destruct nd as [o s mode size data rd|mode es'|mode size target|]; [| |discriminate H|discriminate H].
  - destruct p as [|c' p]; [|discriminate H]. injection H as <-. exists [n], (IFile (file_perm um mode) data). cbn [map tree_at alike].
    rewrite Dn, En, F, perm_write. auto.
  - destruct p as [|c' p].
    + injection H as <-. exists [n], (IDir (dir_perm um mode)). cbn [map tree_at alike]. rewrite Dn, En, F. auto.
    + inversion X; subst; [match goal with D : dotted n |- _ => apply dotb_spec in D; congruence end|].
      destruct (IH (L + 1 + lenN n) es' x) as (r & i & Fr & Tr & A); [assumption|assumption|exact H|].
      exists (n :: r), i. cbn [map]. rewrite Fr. split; [reflexivity|]. split; [|exact A]. cbn [tree_at]. rewrite Dn, En.
      destruct r as [|c0 r0]; [discriminate Fr|exact Tr].
Qed.
End Trees.

Lemma both_trees maxd maxf um L es fs t ws v : N.testbit um 7 = false -> NoDup (map (fun x => fold_case (fst x)) es) ->
  Forall (fun x => wextractable maxd maxf L (fst x) (snd x)) es -> (forall r, fs (t ++ r) = None) -> (forall r, ws (v ++ r) = None) ->
  same_tree (overlay t (dir_tree um es) fs) t (xoverlay v (win_tree es) ws) v.
Proof.
  intros Um ND X Ft Fv. split.
  - intros r i H. unfold overlay in H. rewrite strip_app, Ft in H. unfold xoverlay. rewrite strip_app. destruct r as [|c r]; cbn [dir_tree] in H.
    + injection H as <-. exists XDir. split; [reflexivity|exact I].
    + destruct (tree_at um (c :: r) es) as [j|] eqn:E; [|discriminate H]. injection H as ->.
      destruct (tree_up maxd maxf um Um _ L es i ND X E) as (x & W & A). exists x. cbn [map win_tree]. cbn [map] in W. rewrite W. auto.
  - intros p x H. unfold xoverlay in H. rewrite strip_app, Fv in H. destruct p as [|c p]; cbn [win_tree] in H.
    + injection H as <-. exists [], (IDir (dir_perm um MODE_BASE_DIR)). split; [reflexivity|]. unfold overlay. rewrite strip_app. split; [reflexivity|exact I].
    + destruct (win_at (c :: p) es) as [j|] eqn:E; [|discriminate H]. injection H as ->.
      destruct (tree_down maxd maxf um Um _ L es x ND X E) as (r & i & F & T & A). exists r, i. split; [exact F|]. split; [|exact A].
      unfold overlay. rewrite strip_app. destruct r as [|c0 r0]; [discriminate F|]. cbn [dir_tree]. now rewrite T.
Qed.

Lemma both_disks z (C : zlib_contract z) es F e alloc hal al stk obuf hjunk pjunk T archive inp t o fuel
    we walloc whal wal wstk wobuf whjunk wpjunk maxd maxf deny V v w :
  archives_dir z es F -> input_of archive F inp -> (length inp < fuel)%nat -> preorder es <> [] -> Forall (fun x => quiet (snd x)) es ->
  calm z hal al stk obuf hjunk pjunk -> (forall k n, alloc k n = true) ->
  Forall (fun x => extractable (o_priv o) (o_umask o) (lenN T) (fst x) (snd x)) es ->
  free_spot o T t -> usable_dir (o_priv o) (o_umask o) MODE_BASE_DIR -> (forall r, o_fs o (t ++ r) = None) ->
  volume (preorder es) <= o_free o -> N.testbit (o_umask o) 7 = false ->
  calm z whal wal wstk wobuf whjunk wpjunk -> (forall k n, walloc k n = true) -> (forall q, deny q = false) -> maxf <= PATH_MAX ->
  NoDup (map (fun x => fold_case (fst x)) es) -> Forall (fun x => wextractable maxd maxf (lenN V) (fst x) (snd x)) es -> wfree maxd w V v ->
  exists dfuel0, forall dfuel, (dfuel0 <= dfuel)%nat -> exists ret s h ds o' wret ws wh wds w',
    exec (extract T hal stk z e alloc archive fuel dfuel al obuf hjunk pjunk inp false) o = Ok ((ret, Some (s, h, ds)), o') /\
    xextract maxd maxf deny V whal wstk z we walloc archive fuel dfuel wal wobuf whjunk wpjunk inp false w = Ok (Some wret, Some (ws, wh, wds), w') /\
    (room_left s -> room_left ws -> ret = wret /\ same_tree (o_fs o') t (w_fs w') v).
Proof.
  intros A I Hf Ne Q Ca Ha X Fs Ub Em Vo Um Wca Wha De Ln ND WX Wf.
  destruct (disk_dir z C es F e alloc hal al stk obuf hjunk pjunk T archive inp t o fuel A I Hf Ca Ha Ne Q (nodup_fold _ ND) X Fs Ub Em Vo) as (d1 & K1).
  destruct (wdisk_dir maxd maxf deny z C es F we walloc whal wal wstk wobuf whjunk wpjunk V archive inp v w fuel A I Hf Wca Wha De Ln Ne Q ND WX Wf) as (d2 & K2).
  exists (max d1 d2). intros d Hd. destruct (K1 d ltac:(lia)) as (ret & s & h & ds & o' & E1 & R1). destruct (K2 d ltac:(lia)) as (wret & ws & wh & wds & w' & E2 & R2).
  exists ret, s, h, ds, o', wret, ws, wh, wds, w'. split; [exact E1|]. split; [exact E2|]. intros L1 L2.
  destruct (R1 L1) as (-> & _ & G1). destruct (R2 L2) as (-> & _ & G2). split; [reflexivity|].
  destruct Wf as (_ & _ & _ & _ & _ & Wem & _).
  pose proof (both_trees maxd maxf (o_umask o) (lenN V) es (o_fs o) t (w_fs w) v Um ND WX Em Wem) as [S1 S2]. split.
  - intros r i H. rewrite G1 in H. destruct (S1 r i H) as (x & Hx & Al). exists x. rewrite G2. auto.
  - intros p x H. rewrite G2 in H. destruct (S2 p x H) as (r & i & Fr & Hi & Al). exists r, i. rewrite G1. auto.
Qed.
