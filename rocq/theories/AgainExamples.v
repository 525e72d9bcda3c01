(** AgainExamples.v: concrete cases for AgainFacts.v. *)
From Coq Require Import Lia.
From Verif Require Import Base Format Zlib RleZlib LLCompress Compress Parser ParserProofs ParserFacts Decompress DecompressProofs MidProofs MidFacts
  DecompressExamples ArchiveSpec ArchiveFacts ArchiveDecode ArchiveEntry ArchiveProps ArchiveExamples FS FSFacts HL HLSpec HLFacts HLDrive HLProps HLSafe MkdirFacts
  HLTame HLMore HLExamples LinkFacts LinkExamples LinkMore LinkMoreExamples CutSpec CopySpec CopyFacts CopyExamples PathWalk PathFacts PathExamples FuelFacts AgainFacts.

(** ** The directory /s of CopyExamples.v, umask 022: the mode 0666 of a file becomes 0644 *)
Definition ag_t : path := [[x77]; [x6f]].
Definition ag_ls : path -> list bytes := again_ls px_ls [[x73]] ag_t.
Definition ag_differs (x : outcome (cres * list cev * wst (F := unit) * list wev * list lev)) (a : bytes) : bool :=
  match x with Ok (CRet r, cevs, _, _, _) => (r =? 0)%Z && forallb (fun c => lenN (ce_data c) <? ce_room c) cevs && negb (bytes_eqb (cev_bytes cevs) a) | _ => false end.
Lemma ag_differs_ok x a : ag_differs x a = true -> exists cevs ws wx led, x = Ok (CRet 0%Z, cevs, ws, wx, led) /\ last_not_full cevs /\ cev_bytes cevs <> a.
Proof.
  unfold ag_differs. destruct x as [[[[[[r|] cevs] ws] wx] led]| |]; try discriminate. intro H. apply andb_prop in H. destruct H as [H H3].
  apply andb_prop in H. destruct H as [H1 H2]. apply Z.eqb_eq in H1. subst r. exists cevs, ws, wx, led. split; [reflexivity|]. split; [exact (ax_not_full _ H2)|].
  intro Q. apply negb_true_iff in H3. assert (bytes_eqb (cev_bytes cevs) a = true) by (now apply bytes_eqb_spec). congruence.
Qed.
Lemma ag_rights l um s : forallb (fun x => match strip s (fst x) with Some (_ :: _) => match masked um (snd x) with
    IDir m => can_r false m && can_x false m | IFile m _ => can_r false m | ILink _ => true end | _ => true end) l = true ->
  forall r, r <> [] -> match option_map (masked um) (look (s ++ r) l) with
     | Some (IDir m) => can_r false m = true /\ can_x false m = true | Some (IFile m _) => can_r false m = true | _ => True end.
Proof.
  intros H r Hr. rewrite forallb_forall in H. destruct (look (s ++ r) l) as [i|] eqn:E; [|exact Logic.I]. apply look_in in E. apply H in E. cbn [fst snd] in E.
  rewrite strip_app in E. destruct r as [|a r]; [now destruct Hr|]. cbn [option_map]. destruct (masked um i) as [m|m x|x]; [now apply andb_prop|exact E|exact Logic.I].
Qed.
Lemma ag_uncut l T s : forallb (fun x => match strip s (fst x) with Some r => lenN (below T r) <=? 4094 | None => true end) l = true ->
  forall r c, look (s ++ r ++ [c]) l <> None -> lenN (below T (r ++ [c])) <= 4094.
Proof.
  intros H r c E. rewrite forallb_forall in H. destruct (look (s ++ r ++ [c]) l) as [i|] eqn:Q; [|congruence]. apply look_in in Q. apply H in Q. cbn [fst] in Q.
  rewrite strip_app in Q. now apply N.leb_le.
Qed.

Lemma px_unfold fuel pfuel o ls src : px_compress fuel pfuel o ls src =
  compress_path rle_zlib LE px_all (ax_jk x11) ax_hj ax_xjk ax_hjunk ax_al o ls (fun _ => 4096) (fun _ => 0) fuel pfuel 9 7 false [] src tt.
Proof. reflexivity. Qed.
Lemma hx_unfold T archive inp o : hx_extract T archive inp o =
  exec (extract T hx_hal hx_stk rle_zlib LE ex_alloc archive 4000 4000 ax_al (zeros DEF_CHUNK_SIZE) ax_hjunk ex_pj inp false) o.
Proof. reflexivity. Qed.
Lemma ag_arch : exists cevs ws wx led, px_compress 3 5 (cp_os cp_link) px_ls px_src = Ok (CRet 0%Z, cevs, ws, wx, led) /\ last_not_full cevs /\
  archives_dir rle_zlib (tree (o_fs (cp_os cp_link)) px_ls 2 [[x73]]) (cev_bytes cevs) /\ px_arch = cev_bytes cevs.
Proof.
  destruct ex_c111_case as (cevs & ws & wx & led & J & Ha & Ar & Cr & E & L).
  assert (Q : forall fuel pfuel clbk src r, (2 < pfuel)%nat -> archivable (cp_os cp_link) px_ls src [[x73]] 2 ->
    compress_path rle_zlib LE px_all (ax_jk x11) ax_hj ax_xjk ax_hjunk ax_al (cp_os cp_link) px_ls (fun _ => 4096) (fun _ => 0) fuel pfuel 9 clbk false [] src tt
      = Ok (r, cevs, ws, wx, led) -> archives_dir rle_zlib (tree (o_fs (cp_os cp_link)) px_ls 2 [[x73]]) (cev_bytes cevs)).
  { intros fuel pfuel clbk src r Hp Ar' E'. refine (proj2 (path_archived_tree rle_zlib LE px_all (ax_jk x11) ax_hj ax_xjk ax_hjunk ax_al (cp_os cp_link) px_ls
      (fun _ => 4096) (fun _ => 0) rle_contract fuel pfuel 9 clbk src tt [[x73]] 2 r cevs ws wx led J Ha Ar' Hp Cr E') L). }
  assert (Eb : px_arch = cev_bytes cevs) by (unfold px_arch; rewrite E; reflexivity).
  exists cevs, ws, wx, led. split; [exact E|]. split; [exact L|]. split; [|exact Eb].
  rewrite px_unfold in E. exact (Q 3%nat 5%nat 7 px_src (CRet 0%Z) (le_S _ _ (le_S _ _ (le_n _))) Ar E).
Qed.
Lemma ag_made x o' : archives_dir rle_zlib (tree (o_fs (cp_os cp_link)) px_ls 2 [[x73]]) px_arch -> hx_extract [x6f] 0 px_arch (cp_os cp_link) = Ok (x, o') ->
  same_env (cp_os cp_link) o' /\ copy 18 (o_fs (cp_os cp_link)) [[x73]] (o_fs o') ag_t /\ o_fs o' ag_t = Some (IDir (dir_perm 18 MODE_BASE_DIR)).
Proof.
  intros A D.
  destruct (lm_calls_of px_arch (fun evs => wholeb (payloads evs) (link_sizes evs))) as (q0 & evs & K & R0 & U); [vm_compute; reflexivity|].
  assert (L4 : (4000 <= 5000)%nat) by (apply Nat.leb_le; vm_compute; reflexivity).
  assert (Hl : (length px_arch < 5000)%nat) by (apply Nat.ltb_lt; vm_compute; reflexivity).
  assert (Al : forall k n, ex_alloc k n = true) by (intros; reflexivity).
  assert (Ne : exists c, o_fs (cp_os cp_link) ([[x73]] ++ [c]) <> None) by (exists [x65]; discriminate).
  assert (Vo : volume (preorder (tree (o_fs (cp_os cp_link)) px_ls 2 [[x73]])) <= 1000) by (vm_compute; discriminate).
  rewrite hx_unfold in D. revert A D K Hl. generalize px_arch. intros arch A D K Hl.
  assert (Ip : input_of 0 arch arch) by (left; split; reflexivity).
  exact (copied_ended rle_zlib rle_contract [[x73]] (tree (o_fs (cp_os cp_link)) px_ls 2 [[x73]]) arch LE ex_alloc hx_hal ax_al hx_stk (zeros DEF_CHUNK_SIZE) ax_hjunk
    ex_pj [x6f] 0 arch ag_t (cp_os cp_link) 5000 5000 q0 evs 4000 4000 x o' (proj1 px_archivable) (path_lists _ _ _ _ _ px_archivable)
    (cp_suitable cp_link (or_intror eq_refl)) Ne A cp_homely Ip Hl hx_calm Al (cp_spot cp_link (or_intror eq_refl)) cp_base Vo K R0 (wholeb_ok _ U) D L4).
Qed.
Lemma ag_again o' : same_env (cp_os cp_link) o' -> copy 18 (o_fs (cp_os cp_link)) [[x73]] (o_fs o') ag_t -> o_fs o' ag_t = Some (IDir (dir_perm 18 MODE_BASE_DIR)) ->
  archivable o' ag_ls [x6f] ag_t 2.
Proof.
  intros En Cp Em.
  apply (copy_archivable (cp_os cp_link) px_ls px_src [[x73]] 2 [x6f] ag_t o' ag_ls px_archivable (cp_spot cp_link (or_intror eq_refl)) Cp En).
  - apply (ag_rights (cp_list cp_link) 18 [[x73]]). vm_compute. reflexivity.
  - apply (copy_reports 18 (o_fs (cp_os cp_link)) [[x73]] (o_fs o') [[x77]] [x6f] 493 px_ls (proj1 px_archivable) Cp (proj1 (proj2 px_archivable))).
    + exists 493. reflexivity.
    + apply plainb_ok. vm_compute. reflexivity.
    + reflexivity.
    + reflexivity.
  - exists 493. split; [exact Em|]. repeat split.
  - apply (ag_uncut (cp_list cp_link)). vm_compute. reflexivity.
Qed.
Lemma ag_copied : exists cevs ws wx led q h ds o' cevs' ws' wx' led', let o := cp_os cp_link in
  archivable o px_ls px_src [[x73]] 2 /\ px_compress 3 5 o px_ls px_src = Ok (CRet 0%Z, cevs, ws, wx, led) /\ last_not_full cevs /\
  hx_extract [x6f] 0 (cev_bytes cevs) o = Ok ((ContentDirectory, Some (q, h, ds)), o') /\ room_left q /\ copy 18 (o_fs o) [[x73]] (o_fs o') ag_t /\
  archivable o' ag_ls [x6f] ag_t 2 /\ (forall p, ag_ls (ag_t ++ p) = px_ls ([[x73]] ++ p)) /\
  px_compress 3 5 o' ag_ls [x6f] = Ok (CRet 0%Z, cevs', ws', wx', led') /\ last_not_full cevs' /\ cev_bytes cevs' <> cev_bytes cevs.
Proof.
  destruct ag_arch as (cevs & ws & wx & led & E & L & A & Eb).
  destruct (did_all_of (hx_extract [x6f] 0 px_arch (cp_os cp_link)) (fun ret o' => (ret =? ContentDirectory) && ag_differs (px_compress 3 5 o' ag_ls [x6f]) px_arch))
    as (ret & o' & (q & h & ds & D & R) & H'); [vm_compute; reflexivity|].
  apply andb_prop in H'. destruct H' as [H1 H2]. apply N.eqb_eq in H1. subst ret. apply ag_differs_ok in H2.
  destruct H2 as (cevs' & ws' & wx' & led' & E' & L' & Df). rewrite <- Eb in A. destruct (ag_made _ _ A D) as (En & Cp & Em). rewrite Eb in D, Df.
  exists cevs, ws, wx, led, q, h, ds, o', cevs', ws', wx', led'. cbv zeta.
  exact (conj px_archivable (conj E (conj L (conj D (conj R (conj Cp (conj (ag_again o' En Cp Em) (conj (again_ls_copy px_ls [[x73]] ag_t) (conj E' (conj L' Df)))))))))).
Qed.

(** ** A directory /s that an extraction with the umask 022 may have made *)
Definition as_list : list (path * inode) :=
  [([], IDir 493); ([[x77]], IDir 493); ([[x73]], IDir 493); ([[x73]; [x64]], IDir 1005); ([[x73]; [x64]; [x61;x62;x63]], IFile 420 [x31;x32;x33]);
   ([[x73]; [x65]], IDir 493); ([[x73]; [x6c]], ILink [x64;x2f;x61;x62;x63])].
Definition as_os : os := OS (fun p => look p as_list) 1000 [[x77]] 18 false [] 3.
Lemma as_sane : sane (o_fs as_os).
Proof. apply sane_list. vm_compute. reflexivity. Qed.
Lemma as_archivable : archivable as_os (names_in as_list) px_src [[x73]] 2.
Proof.
  split; [exact as_sane|]. split; [apply reports_list; vm_compute; reflexivity|]. split; [apply modest_list; vm_compute; reflexivity|].
  split. { split; [discriminate|]. split; [exists 493; split; reflexivity|]. right. exists [], [x73], 493. split; vm_compute; reflexivity. }
  split; [apply readable_list; vm_compute; reflexivity|]. split; [apply uncut_list; vm_compute; reflexivity|]. apply deep_list; vm_compute; reflexivity.
Qed.
Lemma as_settled : settled 18 (o_fs as_os) [[x73]].
Proof.
  intros r i Hr E. cbn [o_fs as_os] in E. apply look_in in E. unfold as_list in E.
  repeat (destruct E as [E|E]; [injection E; intros; try discriminate; subst; try congruence; reflexivity|]). destruct E.
Qed.
Lemma as_suitable : suitable false 18 1 (o_fs as_os) [[x73]].
Proof.
  split.
  - intros r Hr H. cbn [o_fs as_os] in H. destruct (look ([[x73]] ++ r) as_list) as [i|] eqn:E; [|congruence]. apply look_in in E. clear H.
    cbn in E; repeat (destruct E as [E|E]; [injection E; intros; try discriminate; subst; vm_compute; reflexivity|]); destruct E.
  - intros r m Hr H. cbn [o_fs as_os] in H. apply look_in in H.
    cbn in H; repeat (destruct H as [E|H]; [injection E; intros; try discriminate; subst; try congruence; split; vm_compute; reflexivity|]); destruct H.
Qed.
Lemma as_homely : homely as_os.
Proof.
  split; [|vm_compute; reflexivity]. split; [apply Forall_cons; [plain_case|apply Forall_nil]|]. cbn [o_cwd as_os].
  intros p q E. destruct p as [|a [|b p]]; [exists 493; split; reflexivity| |]; [injection E as <- <-; exists 493; split; reflexivity|discriminate E].
Qed.
Lemma as_spot : free_spot as_os [x6f] ag_t.
Proof. split; [intros [H|[]]; discriminate|]. exists [[x77]], [x6f]. split; [reflexivity|]. split; vm_compute; reflexivity. Qed.
Definition as_ls : path -> list bytes := again_ls (names_in as_list) [[x73]] ag_t.
Definition as_arch : bytes := match px_compress 3 5 as_os (names_in as_list) px_src with Ok (_, cevs, _, _, _) => cev_bytes cevs | _ => [] end.
Definition as_equal (x : outcome (cres * list cev * wst (F := unit) * list wev * list lev)) (a : bytes) : bool :=
  match x with Ok (CRet r, cevs, _, _, _) => (r =? 0)%Z && bytes_eqb (cev_bytes cevs) a | _ => false end.
Lemma as_equal_ok x a : as_equal x a = true -> exists cevs ws wx led, x = Ok (CRet 0%Z, cevs, ws, wx, led) /\ cev_bytes cevs = a.
Proof.
  unfold as_equal. destruct x as [[[[[[r|] cevs] ws] wx] led]| |]; try discriminate. intro H. apply andb_prop in H. destruct H as [H1 H2].
  apply Z.eqb_eq in H1. subst r. exists cevs, ws, wx, led. split; [reflexivity|now apply bytes_eqb_spec].
Qed.
Lemma ex_c145_case : exists cevs ws wx led q evs ret o' cevs' ws' wx' led', archivable as_os (names_in as_list) px_src [[x73]] 2 /\ created rle_zlib ax_al 9 /\
  px_compress 3 5 as_os (names_in as_list) px_src = Ok (CRet 0%Z, cevs, ws, wx, led) /\ last_not_full cevs /\ homely as_os /\
  suitable false 18 1 (o_fs as_os) [[x73]] /\ settled 18 (o_fs as_os) [[x73]] /\ free_spot as_os [x6f] ag_t /\ usable_dir false 18 MODE_BASE_DIR /\
  can_r false (dir_perm 18 MODE_BASE_DIR) = true /\ volume (preorder (tree (o_fs as_os) (names_in as_list) 2 [[x73]])) <= 1000 /\
  calls rle_zlib LE ex_alloc ax_al (zeros DEF_CHUNK_SIZE) ax_hjunk ex_pj 5000 5000 0 (cev_bytes cevs) q evs /\ room_left q /\ unsplit evs /\
  did_all (hx_extract [x6f] 0 (cev_bytes cevs) as_os) ret o' /\ ret = ContentDirectory /\
  px_compress 3 5 o' as_ls [x6f] = Ok (CRet 0%Z, cevs', ws', wx', led') /\ cev_bytes cevs' = cev_bytes cevs.
Proof.
  assert (E : match px_compress 3 5 as_os (names_in as_list) px_src with
    | Ok (CRet r, cevs, _, _, _) => (r =? 0)%Z && forallb (fun c => lenN (ce_data c) <? ce_room c) cevs | _ => false end = true) by (vm_compute; reflexivity).
  destruct (px_compress 3 5 as_os (names_in as_list) px_src) as [[[[[[r|] cevs] ws] wx] led]| |] eqn:Ec; try discriminate E.
  apply andb_prop in E. destruct E as [E1 E2]. apply Z.eqb_eq in E1. subst r.
  assert (Eb : as_arch = cev_bytes cevs) by (unfold as_arch; rewrite Ec; reflexivity).
  destruct (lm_calls_of as_arch (fun evs => wholeb (payloads evs) (link_sizes evs))) as (q0 & evs & K & R0 & U); [vm_compute; reflexivity|].
  destruct (did_all_of (hx_extract [x6f] 0 as_arch as_os) (fun ret o' => (ret =? ContentDirectory) && as_equal (px_compress 3 5 o' as_ls [x6f]) as_arch))
    as (ret & o' & D & H'); [vm_compute; reflexivity|].
  apply andb_prop in H'. destruct H' as [H1 H2]. apply as_equal_ok in H2. destruct H2 as (cevs' & ws' & wx' & led' & E' & Eq). rewrite Eb in K, D, Eq.
  exists cevs, ws, wx, led, q0, evs, ret, o', cevs', ws', wx', led'. split; [exact as_archivable|]. split; [exact px_created|]. split; [reflexivity|].
  split; [exact (ax_not_full _ E2)|]. split; [exact as_homely|]. split; [exact as_suitable|]. split; [exact as_settled|]. split; [exact as_spot|].
  split; [exact cp_base|]. split; [reflexivity|]. split; [vm_compute; discriminate|]. split; [exact K|]. split; [exact R0|]. split; [exact (wholeb_ok _ U)|].
  split; [exact D|]. split; [now apply N.eqb_eq|]. split; [exact E'|exact Eq].
Qed.
Lemma ex_c145_copy : exists o', copy 18 (o_fs (cp_os cp_link)) [[x73]] (o_fs o') ag_t /\ ~ settled 18 (o_fs (cp_os cp_link)) [[x73]].
Proof.
  destruct ag_copied as (cevs & ws & wx & led & q & h & ds & o' & cevs' & ws' & wx' & led' & _ & _ & _ & _ & _ & Cp & _). exists o'. split; [exact Cp|].
  intro St. assert (Q : masked 18 (IFile 438 [x31;x32;x33]) = IFile 438 [x31;x32;x33]).
  { apply (St [[x64]; [x61;x62;x63]]); [discriminate|reflexivity]. }
  discriminate Q.
Qed.
