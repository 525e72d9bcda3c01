(** WinArchiveExamples.v: concrete runs for C135-C137. *)
From Coq Require Import Lia.
From Verif Require Import Base Format Zlib RleZlib LLCompress Compress Parser ParserProofs ParserFacts Decompress DecompressProofs
  DecompressFacts MidProofs MidFacts DecompressExamples ArchiveSpec ArchiveFacts ArchiveDecode ArchiveEntry ArchiveProps ArchiveExamples
  FS FSFacts HL HLSpec HLFacts HLDrive HLProps HLSafe MkdirFacts HLTame HLMkdir HLMore HLExamples WinArchive WinArchiveSpec WinArchiveFacts WinArchiveProps WinCopy
  WinTools WinExtract WinExtractSpec WinExtractFacts WinExtractTame WinExtractExamples.

Definition wa_run (locked : list bytes -> bool) (es : list (bytes * snode)) :=
  wcompress_dir rle_zlib LE ax_all (ax_jk x11) ax_xjk ax_hjunk ax_al locked 3 9 7 false [] (Some es) tt.
Definition wa_free (p : list bytes) : bool := false.
Definition wa_arch (locked : list bytes -> bool) (es : list (bytes * snode)) : bytes :=
  match wa_run locked es with Ok (_, cevs, _, _, _) => cev_bytes cevs | _ => [] end.

Lemma wa_junk : junk_ok (ax_jk x11) (fun _ n => zeros n) ax_xjk ax_hjunk.
Proof. destruct (ax_junk x11) as (A & _ & B & D). split; [exact A|]. split; [intros; apply lenN_zeros|]. split; [exact B|exact D]. Qed.
Lemma wa_arch_ok es : tree_fits (Some es) ->
  match wa_run wa_free es with
  | Ok (CRet r, cevs, _, _, _) => (r =? 0)%Z && forallb (fun c => lenN (ce_data c) <? ce_room c) cevs
  | _ => false
  end = true -> warchives_dir rle_zlib es (wa_arch wa_free es).
Proof.
  intros Ft H. unfold wa_arch. destruct (wa_run wa_free es) as [[[[[[r|] cevs] ws] wx] led]| |] eqn:E; try discriminate H.
  apply andb_prop in H. destruct H as [H1 H2]. apply Z.eqb_eq in H1. subst r.
  exists LE, unit, ax_all, (ax_jk x11), ax_xjk, ax_hjunk, ax_al, wa_free, 3%nat, 9%Z, 7, tt, cevs, ws, wx, led.
  split; [exact E|]. split; [exact wa_junk|]. split; [exact Ft|]. split; [exact ax_accepts|].
  split; [repeat split; discriminate|]. split; [now apply ax_not_full|reflexivity].
Qed.

(** ** C135: [wx_tree] has a directory with a file, and a link *)
Lemma wa_archived : warchives_dir rle_zlib wx_tree (wa_arch wa_free wx_tree).
Proof. apply wa_arch_ok; [exact wx_fits|vm_compute; reflexivity]. Qed.
Lemma wx_extractable : Forall (fun x => extractable false 18 1 (fst x) (snd x)) (unlinked_all wx_tree).
Proof.
  unfold unlinked_all, wx_tree. cbn [map fst snd unlinked]. repeat apply Forall_cons; cbn [fst snd]; [|apply xt_other|apply Forall_nil].
  apply xt_dir; [plain_case|reflexivity|split; reflexivity|cbn [map fst]; nodup_case|].
  repeat apply Forall_cons; cbn [fst snd]; [|apply Forall_nil]. apply xt_file; [plain_case|reflexivity].
Qed.
Lemma ex_c135_refuted : exists ret o', warchives_dir rle_zlib wx_tree (wa_arch wa_free wx_tree) /\ Forall (fun x => quiet (snd x)) wx_tree /\
  In (ALink [x6c] 511 [x62]) (preorder wx_tree) /\
  calm rle_zlib hx_hal ax_al hx_stk (zeros DEF_CHUNK_SIZE) ax_hjunk ex_pj /\ free_spot (hx_os 1000) [x6f] [[x77]; [x6f]] /\
  did_all (hx_extract [x6f] 0 (wa_arch wa_free wx_tree) (hx_os 1000)) ret o' /\ ret = ContentDirectory /\ o_fs o' [[x77]; [x6f]; [x6c]] = None.
Proof.
  destruct (did_all_of (hx_extract [x6f] 0 (wa_arch wa_free wx_tree) (hx_os 1000)) (fun ret o' =>
    (ret =? ContentDirectory) && at_eqb o' [[x77]; [x6f]; [x6c]] None)) as (ret & o' & D & H); [vm_compute; reflexivity|].
  apply andb_prop in H. destruct H as [H1 H2]. exists ret, o'. split; [exact wa_archived|]. split; [exact wx_quiet|].
  split; [vm_compute; auto|]. split; [exact hx_calm|]. split; [apply hx_spot|]. split; [exact D|]. split; [now apply N.eqb_eq|now apply at_eqb_ok].
Qed.
Lemma ex_c135 : exists ret o', warchives_dir rle_zlib wx_tree (wa_arch wa_free wx_tree) /\ preorder (unlinked_all wx_tree) <> [] /\
  Forall (fun x => quiet (snd x)) wx_tree /\ NoDup (map fst wx_tree) /\
  Forall (fun x => extractable false 18 1 (fst x) (snd x)) (unlinked_all wx_tree) /\
  calm rle_zlib hx_hal ax_al hx_stk (zeros DEF_CHUNK_SIZE) ax_hjunk ex_pj /\ free_spot (hx_os 1000) [x6f] [[x77]; [x6f]] /\
  usable_dir false 18 MODE_BASE_DIR /\ (forall r, o_fs (hx_os 1000) ([[x77]; [x6f]] ++ r) = None) /\ volume (preorder (unlinked_all wx_tree)) = 1 /\
  did_all (hx_extract [x6f] 0 (wa_arch wa_free wx_tree) (hx_os 1000)) ret o' /\
  o_fs o' [[x77]; [x6f]; [x44]] = Some (IDir 493) /\ o_fs o' [[x77]; [x6f]; [x44]; [x62;x2e;x54;x58;x54]] = Some (IFile 292 [x31]).
Proof.
  destruct (did_all_of (hx_extract [x6f] 0 (wa_arch wa_free wx_tree) (hx_os 1000)) (fun ret o' =>
    at_eqb o' [[x77]; [x6f]; [x44]] (Some (IDir 493)) && at_eqb o' [[x77]; [x6f]; [x44]; [x62;x2e;x54;x58;x54]] (Some (IFile 292 [x31]))))
    as (ret & o' & D & H); [vm_compute; reflexivity|].
  apply andb_prop in H. destruct H as [H1 H2]. exists ret, o'. split; [exact wa_archived|]. split; [discriminate|]. split; [exact wx_quiet|].
  split; [cbn [wx_tree map fst]; nodup_case|]. split; [exact wx_extractable|]. split; [exact hx_calm|]. split; [apply hx_spot|]. split; [exact hx_base|].
  split; [apply hx_empty|]. split; [reflexivity|]. split; [exact D|]. split; now apply at_eqb_ok.
Qed.

(** ** C136: the file b.TXT in the directory D is in use *)
Definition wa_locked (p : list bytes) : bool := path_eqb p [[x44]; [x62;x2e;x54;x58;x54]].
Definition ends_with (x : outcome (cres * list cev * Compress.wst (F := unit) * list wev * list lev)) (v : Z) : bool :=
  match x with Ok (CRet r, _, _, _, _) => (r =? v)%Z | _ => false end.
Lemma ends_with_ok x v : ends_with x v = true -> exists cevs ws wx led, x = Ok (CRet v, cevs, ws, wx, led).
Proof.
  destruct x as [[[[[[r|] cevs] ws] wx] led]| |]; try discriminate. intro H. apply Z.eqb_eq in H. subst r. now exists cevs, ws, wx, led.
Qed.
Lemma ex_c136 : exists cevs ws wx led, junk_ok (ax_jk x11) (fun _ n => zeros n) ax_xjk ax_hjunk /\ accepts ax_all /\ tree_fits (Some wx_tree) /\ created rle_zlib ax_al 9 /\
  Forall (fun x => sound (fst x) (snd x)) wx_tree /\ wa_run wa_locked wx_tree = Ok (CRet 2, cevs, ws, wx, led).
Proof.
  destruct (ends_with_ok (wa_run wa_locked wx_tree) 2) as (cevs & ws & wx & led & E); [vm_compute; reflexivity|].
  exists cevs, ws, wx, led. split; [exact wa_junk|]. split; [exact ax_accepts|]. split; [exact wx_fits|]. split; [repeat split; discriminate|]. split; [|exact E].
  unfold wx_tree. repeat apply Forall_cons; cbn [fst snd]; [|apply so_link|apply Forall_nil]. apply so_dir. repeat apply Forall_cons; cbn [fst snd]; [|apply Forall_nil]. apply so_file.
Qed.

(** ** C137: \s has the directory D with the read-only file b.TXT and the file e *)
Definition wc_list : list (path * xnode) :=
  [([], XDir); ([[x77]], XDir); ([[x73]], XDir); ([[x73]; [x64]], XDir); ([[x73]; [x64]; [x62;x2e;x74;x78;x74]], XFile true [x31]);
   ([[x73]; [x65]], XFile false [x32;x33])].
Fixpoint xlook (p : path) (l : list (path * xnode)) : option xnode :=
  match l with [] => None | (q, i) :: r => if path_eqb p q then Some i else xlook p r end.
Definition wc_w : wst := WS (fun p => xlook p wc_list) [[x77]] [] 3 false.
(** As the iterator may list it. *)
Definition wc_tree : list (bytes * snode) :=
  [([x2e], SLink 0 0 (Some [])); ([x65], SFile true true 33206 2 [x32;x33] false); ([x44], SDir 16895 [([x62;x2e;x54;x58;x54], SFile true true 33060 1 [x31] false)])].
Lemma xlook_in p l i : xlook p l = Some i -> In (p, i) l.
Proof.
  induction l as [|[q j] l IH]; intro H; [discriminate H|]. cbn [xlook] in H. destruct (path_eqb p q) eqn:E; [|right; auto].
  injection H as ->. apply path_eqb_spec in E. subst. now left.
Qed.
Definition xsane_list (l : list (path * xnode)) : bool :=
  forallb (fun x => match fst x with
                    | [] => true
                    | q => bytes_eqb (fold_case (last q [])) (last q []) && negb (dotb (last q [])) &&
                           match removelast q, xlook (removelast q) l with [], _ => true | _, Some XDir => true | _, _ => false end
                    end) l.
Lemma xsane_ok l : xsane_list l = true -> wsane (fun p => xlook p l).
Proof.
  intros H p c i E. apply xlook_in in E. unfold xsane_list in H. rewrite forallb_forall in H. specialize (H _ E). cbn [fst] in H.
  destruct (p ++ [c]) as [|a q] eqn:Ea; [now destruct p|]. rewrite <- Ea, last_last, removelast_last in H.
  apply andb_prop in H. destruct H as [H H3]. apply andb_prop in H. destruct H as [H1 H2].
  split; [now apply bytes_eqb_spec|]. split; [intro D; apply dotb_spec in D; rewrite D in H2; discriminate H2|].
  destruct p as [|b p]; [now left|]. right. destruct (xlook (b :: p) l) as [[|]|]; [reflexivity|discriminate H3|discriminate H3].
Qed.
Lemma wc_sane : wsane (w_fs wc_w).
Proof. apply xsane_ok. vm_compute. reflexivity. Qed.
Ltac nodot := match goal with H : dotted _ |- _ => destruct H as [H|H]; discriminate H | _ => idtac end.
Lemma wc_lists : wlists (w_fs wc_w) [[x73]] wc_tree.
Proof.
  exists 16895. apply ws_dir; [reflexivity|reflexivity|cbn [wc_tree map fst]; nodup_case| | | |].
  - intros c nd [H|[H|[H|[]]]] D; injection H as <- <-; nodot. apply (q_link 0 []).
  - intros c nd [H|[H|[H|[]]]] D; injection H as <- <-; [destruct D; left; reflexivity|reflexivity|reflexivity].
  - intros c nd [H|[H|[H|[]]]] D; injection H as <- <-; [destruct D; left; reflexivity| |].
    + apply (ws_file _ _ false 33206 [x32;x33]); [reflexivity|split; reflexivity|reflexivity].
    + apply ws_dir; [reflexivity|reflexivity|cbn [map fst]; nodup_case| | | |].
      * intros c nd [H|[]] Dt; injection H as <- <-; nodot.
      * intros c nd [H|[]] Dt; injection H as <- <-; reflexivity.
      * intros c nd [H|[]] Dt; injection H as <- <-. apply (ws_file _ _ true 33060 [x31]); [reflexivity|split; reflexivity|reflexivity].
      * intros c Hc. cbn [w_fs wc_w] in Hc. destruct (xlook _ wc_list) as [i|] eqn:E; [|congruence]. apply xlook_in in E. cbn in E.
        repeat (destruct E as [E|E]; [first [discriminate E|injection E; intros; subst; eexists; split; [now left|reflexivity]]|]). destruct E.
  - intros c Hc. cbn [w_fs wc_w] in Hc. destruct (xlook _ wc_list) as [i|] eqn:E; [|congruence]. apply xlook_in in E. cbn in E.
    repeat (destruct E as [E|E]; [first [discriminate E|injection E; intros; subst; first [exists [x44]; split; [cbn; tauto|reflexivity]|exists [x65]; split; [cbn; tauto|reflexivity]]]|]).
    destruct E.
Qed.
Lemma wc_suitable : wsuitable 248 260 1 (w_fs wc_w) [[x73]].
Proof.
  intros r i Hr H. cbn [w_fs wc_w] in H. apply xlook_in in H. cbn in H.
  repeat (destruct H as [E|H]; [first [discriminate E|injection E; intros; subst; first [congruence|vm_compute; reflexivity]]|]). destruct H.
Qed.
Lemma wc_free : wfree 248 wc_w [x6f] [[x77]; [x6f]].
Proof.
  split; [intros [H|[]]; discriminate|]. split; [discriminate|]. split; [reflexivity|]. split; [reflexivity|]. split; [reflexivity|].
  split; [|reflexivity]. intro r. reflexivity.
Qed.
Lemma wc_arch : warchives_dir rle_zlib wc_tree (wa_arch wa_free wc_tree).
Proof. apply wa_arch_ok; [unfold tree_fits, listing, wc_tree; fits_case|vm_compute; reflexivity]. Qed.
Lemma ex_c137 : exists ret w', wsane (w_fs wc_w) /\ wlists (w_fs wc_w) [[x73]] wc_tree /\ wsuitable 248 260 1 (w_fs wc_w) [[x73]] /\
  w_fs wc_w [[x73]; [x64]] <> None /\ warchives_dir rle_zlib wc_tree (wa_arch wa_free wc_tree) /\
  calm rle_zlib hx_hal ax_al hx_stk (zeros DEF_CHUNK_SIZE) ax_hjunk ex_pj /\ wfree 248 wc_w [x6f] [[x77]; [x6f]] /\
  wdid_all (wx_extract [x6f] (wa_arch wa_free wc_tree) wc_w) ret w' /\ ret = Some ContentDirectory /\
  w_fs w' [[x77]; [x6f]; [x64]; [x62;x2e;x74;x78;x74]] = Some (XFile true [x31]) /\ w_fs w' [[x77]; [x6f]; [x65]] = Some (XFile false [x32;x33]).
Proof.
  destruct (wdid_all_of (wx_extract [x6f] (wa_arch wa_free wc_tree) wc_w) (fun ret w' => is_ret ret ContentDirectory &&
    (xat w' [[x77]; [x6f]; [x64]; [x62;x2e;x74;x78;x74]] (Some (XFile true [x31])) && xat w' [[x77]; [x6f]; [x65]] (Some (XFile false [x32;x33])))))
    as (ret & w' & D & H); [vm_compute; reflexivity|].
  apply andb_prop in H. destruct H as [H1 H]. apply andb_prop in H. destruct H as [H2 H3].
  exists ret, w'. split; [exact wc_sane|]. split; [exact wc_lists|]. split; [exact wc_suitable|]. split; [discriminate|]. split; [exact wc_arch|].
  split; [exact hx_calm|]. split; [exact wc_free|]. split; [exact D|]. split; [now apply is_ret_ok|]. split; now apply xat_ok.
Qed.
