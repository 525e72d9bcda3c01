(** CutFacts.v: extracting the beginning of an archive. *)
From Coq Require Import Lia.
From Verif Require Import Base Format Zlib Compress Parser ParserProofs ParserFacts Decompress DecompressProofs MidProofs MidFacts
  ArchiveSpec ArchiveFacts ArchiveDecode FS FSFacts HL HLSpec HLFacts HLDrive HLProps HLSafe MkdirFacts HLTame CutSpec.

(** ** What a sequence of observations puts on disk *)

Fixpoint leading (os : list obs) : bytes := match os with OByte b :: r => b :: leading r | _ => [] end.
Lemma leading_bytes d r : leading (map OByte d ++ OFileEnd :: r) = d.
Proof. induction d as [|b d IH]; cbn; [reflexivity|]. now f_equal. Qed.
Lemma leading_map d : leading (map OByte d) = d.
Proof. induction d as [|b d IH]; cbn; [reflexivity|]. now f_equal. Qed.

Section Trace.
Context (um : N).
Fixpoint trace (cs : path) (os : list obs) : list (path * inode) :=
  match os with
  | [] => []
  | OEntry FtDir it nm :: r => let n := takeN (it_nlen it) nm in (cs ++ [n], IDir (dir_perm um (it_mode it))) :: trace (cs ++ [n]) r
  | OEntry FtFile it nm :: r => (cs ++ [takeN (it_nlen it) nm], IFile (file_perm um (it_mode it)) (leading r)) :: trace cs r
  | ODirEnd :: r => trace (removelast cs) r
  | _ :: r => trace cs r
  end.
Lemma trace_bytes cs d r : trace cs (map OByte d ++ r) = trace cs r.
Proof. induction d; cbn; auto. Qed.

Fixpoint end_cs (cs : path) (rs : list arec) : path :=
  match rs with
  | [] => cs
  | ADir n _ :: r => end_cs (cs ++ [n]) r
  | AEnd :: r => end_cs (removelast cs) r
  | _ :: r => end_cs cs r
  end.

(** A part that presents records completely. *)
Lemma trace_shows rs o1 : shows rs o1 -> forall cs o2, trace cs (o1 ++ o2) = places um cs rs ++ trace (end_cs cs rs) o2.
Proof.
  induction 1 as [|name mode rs o it H1 H2 H3 H4 H IH|name mode data rs o H IH|name mode target rs o H IH|rs o H IH]; intros cs o2.
  - reflexivity.
  - cbn [app trace places end_cs]. rewrite H1, padded_take, H3, IH. reflexivity.
  - cbn [app trace places end_cs it_nlen it_mode]. rewrite padded_take, <- app_assoc. cbn [app].
    rewrite leading_bytes, trace_bytes. cbn [trace app]. rewrite IH. reflexivity.
  - cbn [app trace places end_cs]. apply IH.
  - cbn [app trace places end_cs]. apply IH.
Qed.

(** A beginning. *)
Lemma bytes_cut d : forall o1 o2 r, o1 ++ o2 = map OByte d ++ OFileEnd :: r ->
  (exists x, o1 = map OByte x /\ prefix x d) \/ exists o3, o1 = map OByte d ++ OFileEnd :: o3 /\ o3 ++ o2 = r.
Proof.
  induction d as [|b d IH]; intros o1 o2 r H.
  - destruct o1 as [|a o1]; [left; exists []; split; [reflexivity|now exists []]|]. cbn in H. injection H as -> H. right. exists o1. auto.
  - destruct o1 as [|a o1]; [left; exists []; split; [reflexivity|now exists (b :: d)]|]. cbn in H. injection H as -> H.
    destruct (IH _ _ _ H) as [(x & -> & [y ->])|(o3 & -> & E)].
    + left. exists (b :: x). split; [reflexivity|now exists y].
    + right. exists o3. auto.
Qed.
Lemma trace_begun rs o : shows rs o -> forall o1 o2, o = o1 ++ o2 -> forall cs, begun (trace cs o1) (places um cs rs).
Proof.
  induction 1 as [|name mode rs o it H1 H2 H3 H4 H IH|name mode data rs o H IH|name mode target rs o H IH|rs o H IH]; intros o1 o2 E cs.
  - destruct o1; [constructor|discriminate].
  - destruct o1 as [|a o1]; [constructor|]. cbn in E. injection E as <- E. cbn [trace places]. rewrite H1, padded_take, H3.
    constructor. eapply IH, E.
  - destruct o1 as [|a o1]; [constructor|]. cbn in E. injection E as <- E. cbn [trace places it_nlen it_mode]. rewrite padded_take.
    destruct (bytes_cut _ _ _ _ (eq_sym E)) as [(x & -> & Px)|(o3 & -> & E3)].
    + rewrite leading_map. replace (map OByte x) with (map OByte x ++ []) by apply app_nil_r. rewrite trace_bytes. now constructor.
    + rewrite leading_bytes, trace_bytes. cbn [trace]. constructor. eapply IH. symmetry. exact E3.
  - destruct o1 as [|a o1]; [constructor|]. cbn in E. injection E as <- E. cbn [trace places].
    destruct o1 as [|a o1]; [constructor|]. cbn in E. injection E as <- E. cbn [trace]. eapply IH, E.
  - destruct o1 as [|a o1]; [constructor|]. cbn in E. injection E as <- E. cbn [trace places]. eapply IH, E.
Qed.
End Trace.

(** ** Lists of entries *)

Lemma begun_fst l l' : begun l l' -> prefix (map fst l) (map fst l').
Proof.
  induction 1 as [l|p m x d l P|x l l' H [c IH]]; cbn [map fst].
  - now exists (map fst l).
  - now exists (map fst l).
  - exists c. cbn. now rewrite IH.
Qed.
Lemma fill_fst l : forall free, map fst (fill free l) = map fst l.
Proof. induction l as [|[p [m|m d|x]] l IH]; intro free; cbn [fill map fst]; [reflexivity| | |]; now rewrite IH. Qed.
Lemma look_none p l : ~ In p (map fst l) -> look p l = None.
Proof.
  induction l as [|[q i] l IH]; intro H; [reflexivity|]. cbn [look]. rewrite path_eqb_neq; [|intros ->; apply H; now left].
  apply IH. intro Q. apply H. now right.
Qed.
Lemma look_in p l i : look p l = Some i -> In (p, i) l.
Proof.
  induction l as [|[q j] l IH]; [discriminate|]. cbn [look]. destruct (path_eqb p q) eqn:E; [|right; auto].
  apply path_eqb_spec in E. intro Q. injection Q as ->. subst q. now left.
Qed.
Lemma look_fst p l : look p l <> None -> In p (map fst l).
Proof. destruct (look p l) as [i|] eqn:E; [|easy]. intros _. apply look_in in E. now apply (in_map fst) in E. Qed.

(** ** Writing with little space *)
Section Write.
Context (target : bytes) (hal : N -> bool) (stk : N).
Notation cb := (cb target hal stk).
Notation cbs := (cbs target hal stk).

Lemma write_some ds : forall h o n p x m fds, h_fd h = Some n -> o_fds o = (n, (p, lenN x)) :: fds ->
  o_fs o p = Some (IFile m x) ->
  exists o' off, exec (cbs (map EvRead ds) h) o = Ok (h, o') /\ (forall q, o_fs o' q = upd (o_fs o) p (IFile m (x ++ takeN (o_free o) (concat ds))) q) /\
    o_free o' = o_free o - lenN (concat ds) /\ o_cwd o' = o_cwd o /\ o_umask o' = o_umask o /\ o_priv o' = o_priv o /\
    o_fds o' = (n, (p, off)) :: fds.
Proof.
  induction ds as [|d ds IH]; intros h o n p x m fds Hf E F.
  - exists o, (lenN x). cbn. rewrite app_nil_r, N.sub_0_r. repeat split; auto.
    intro q. destruct (path_dec q p) as [->|Hn]; [now rewrite upd_same|now rewrite upd_other].
  - cbn [map concat]. rewrite exec_cbs_cons. unfold HL.cb, cb_read. rewrite exec_sys, Hf. cbn [sys]. unfold sys_write.
    rewrite E. cbn [find_fd]. rewrite N.eqb_refl, F.
    replace (lenN x - lenN x) with 0 by lia. rewrite N.add_0_l. set (k := N.min (lenN d) (o_free o)).
    destruct ((k =? 0) && negb (lenN d =? 0)) eqn:Ek.
    + cbn [snd exec obind]. apply andb_true_iff in Ek. destruct Ek as [Ek1 Ek2]. apply N.eqb_eq in Ek1. apply negb_true_iff, N.eqb_neq in Ek2.
      assert (Fz : o_free o = 0) by lia.
      destruct (IH h o n p x m fds Hf E F) as (o' & off & X & Y & Z & A). exists o', off. split; [exact X|]. rewrite Fz in *.
      rewrite takeN_0 in *. split; [exact Y|]. split; [lia|exact A].
    + assert (Ov : overwrite (lenN x) (takeN k d) x = x ++ takeN k d).
      { unfold overwrite. rewrite takeN_all by lia. rewrite dropN_all by lia. now rewrite app_nil_r. }
      rewrite Ov. cbn [snd exec obind].
      match goal with |- context [exec _ ?oo] => destruct (IH h oo n p (x ++ takeN k d) m fds Hf) as (o' & off & X & Y & Z & A1 & A2 & A3 & A4) end.
      * cbn [o_fds set_fd]. rewrite N.eqb_refl. do 3 f_equal. rewrite lenN_app, lenN_takeN. lia.
      * cbn [o_fs]. apply upd_same.
      * exists o', off. split; [exact X|]. cbn [o_fs o_free o_cwd o_umask o_priv] in *.
        assert (Lf : o_free o - (lenN (x ++ takeN k d) - lenN x) = o_free o - lenN d) by (rewrite lenN_app, lenN_takeN; lia).
        rewrite Lf in *.
        assert (Tk : (x ++ takeN k d) ++ takeN (o_free o - lenN d) (concat ds) = x ++ takeN (o_free o) (d ++ concat ds)).
        { rewrite takeN_app, <- app_assoc. f_equal. f_equal. unfold k. destruct (N.le_gt_cases (lenN d) (o_free o)).
          - rewrite N.min_l by lia. rewrite !takeN_all by lia. reflexivity.
          - now rewrite N.min_r by lia. }
        rewrite Tk in Y.
        split. { intro q. rewrite Y. destruct (path_dec q p) as [->|Hn]; [now rewrite !upd_same|now rewrite !upd_other]. }
        split. { rewrite Z, lenN_app. lia. } auto.
Qed.
End Write.
