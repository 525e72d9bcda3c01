(** PathExamples.v: concrete cases for PathFacts.v. *)
From Coq Require Import Lia.
From Verif Require Import Base Format Zlib RleZlib LLCompress Compress Parser ParserProofs ParserFacts Decompress DecompressProofs MidProofs MidFacts
  DecompressExamples ArchiveSpec ArchiveFacts ArchiveDecode ArchiveEntry ArchiveProps ArchiveExamples FS FSFacts HL HLSpec HLFacts HLDrive HLProps HLSafe MkdirFacts
  HLTame HLMore HLExamples LinkFacts LinkExamples LinkMore LinkMoreExamples CutSpec CopySpec CopyFacts CopyExamples PathWalk PathFacts.

(** ** File systems given as lists *)
Definition names_in (l : list (path * inode)) (d : path) : list bytes :=
  flat_map (fun x => match strip d (fst x) with Some [c] => [c] | _ => [] end) l.
Fixpoint nodupb (l : list bytes) : bool := match l with [] => true | c :: r => negb (existsb (bytes_eqb c) r) && nodupb r end.
Lemma nodupb_ok l : nodupb l = true -> NoDup l.
Proof.
  induction l as [|c r IH]; cbn [nodupb]; intro H; [constructor|]. apply andb_prop in H. destruct H as [H1 H2]. constructor; [|auto].
  intro Q. apply negb_true_iff in H1. assert (existsb (bytes_eqb c) r = true); [|congruence]. apply existsb_exists. exists c. split; [exact Q|now apply bytes_eqb_spec].
Qed.
Lemma in_look p i l : In (p, i) l -> look p l <> None.
Proof. induction l as [|[q j] l IH]; [intros []|]. cbn [look]. intros H Q. destruct (path_eqb p q) eqn:E; [discriminate Q|].
  destruct H as [H|H]; [injection H as -> ->; now rewrite path_eqb_refl in E|]. now apply IH. Qed.
Lemma strip_eq d q r : strip d q = Some r -> q = d ++ r.
Proof.
  revert q. induction d as [|c d IH]; intros q H; cbn [strip] in H; [now injection H as ->|].
  destruct q as [|c' q]; [discriminate H|]. destruct (bytes_eqb c c') eqn:E.
  - apply bytes_eqb_spec in E. subst. cbn [app]. f_equal. now apply IH.
  - discriminate H.
Qed.
Lemma reports_list l : forallb (fun x => nodupb (names_in l (fst x))) l = true -> reports (fun p => look p l) (names_in l).
Proof.
  intros H p m E. rewrite forallb_forall in H. split; [|split].
  - apply nodupb_ok. apply look_in in E. exact (H _ E).
  - intros c Hc. destruct (look (p ++ [c]) l) as [i|] eqn:Q; [|congruence]. apply look_in in Q. apply in_flat_map. exists (p ++ [c], i).
    split; [exact Q|]. cbn [fst]. rewrite strip_app. now left.
  - intros c Hc. left. apply in_flat_map in Hc. destruct Hc as ([q i] & Hi & Hc). cbn [fst] in Hc.
    destruct (strip p q) as [[|c' [|c2 r]]|] eqn:Q; cbn [In] in Hc; try contradiction Hc. destruct Hc as [Hc|[]]. subst c'.
    apply strip_eq in Q. subst q. now apply in_look in Hi.
Qed.
Lemma modest_list l : forallb (fun x => match snd x with IDir m => m <? 4096 | IFile m d => (m <? 4096) && (lenN d <? 1000000) | ILink _ => true end) l = true ->
  modest (fun p => look p l).
Proof.
  intros H p. rewrite forallb_forall in H. destruct (look p l) as [i|] eqn:E; [|exact Logic.I]. apply look_in in E. apply H in E. cbn [snd] in E.
  destruct i as [m|m x|x]; [now apply N.ltb_lt| |exact Logic.I]. apply andb_prop in E. destruct E as [E1 E2]. apply N.ltb_lt in E1, E2. unfold two64. split; [exact E1|lia].
Qed.
Lemma readable_list l d free cwd um fds nx : forallb (fun x => match snd x with IDir m => can_r false m && can_x false m | IFile m _ => can_r false m | ILink _ => true end) l = true ->
  readable (OS (fun p => look p l) free cwd um false fds nx) d.
Proof.
  intros H r. cbn [o_fs o_priv]. rewrite forallb_forall in H. destruct (look (d ++ r) l) as [i|] eqn:E; [|exact Logic.I]. apply look_in in E. apply H in E. cbn [snd] in E.
  destruct i as [m|m x|x]; [now apply andb_prop|exact E|exact Logic.I].
Qed.
Lemma deep_list l n d : forallb (fun x => match strip d (fst x) with Some r => Nat.leb (length r) n | None => true end) l = true -> deep (fun p => look p l) n d.
Proof.
  intros H r E. rewrite forallb_forall in H. destruct (look (d ++ r) l) as [i|] eqn:Q; [|congruence]. apply look_in in Q. apply H in Q. cbn [fst] in Q.
  rewrite strip_app in Q. now apply Nat.leb_le.
Qed.
Lemma uncut_list l src d free cwd um priv fds nx : lenN src <? PATH_MAX = true ->
  forallb (fun x => match strip d (fst x) with Some r => lenN (below src r) <=? 4094 | None => true end) l = true ->
  uncut (OS (fun p => look p l) free cwd um priv fds nx) src d.
Proof.
  intros H0 H. split; [now apply N.ltb_lt|]. intros r c E. cbn [o_fs] in E. rewrite forallb_forall in H. destruct (look (d ++ r ++ [c]) l) as [i|] eqn:Q; [|congruence].
  apply look_in in Q. apply H in Q. cbn [fst] in Q. rewrite strip_app in Q. now apply N.leb_le.
Qed.

Definition px_all (f : unit) (d n : bytes) (k : skind) : Z * unit := (0%Z, tt).
Lemma px_accepts : accepts_path px_all. Proof. intros f d n k. reflexivity. Qed.
Definition px_compress (fuel pfuel : nat) (o : os) (ls : path -> list bytes) (src : bytes) :=
  compress_path rle_zlib LE px_all (ax_jk x11) ax_hj ax_xjk ax_hjunk ax_al o ls (fun _ => 4096) (fun _ => 0) fuel pfuel 9 7 false [] src tt.

(** ** The directory /s, called "../s" *)
Definition px_src : bytes := [x2e;x2e;x2f;x73].
Definition px_ls (d : path) : list bytes := [x2e] :: [x2e;x2e] :: names_in (cp_list cp_link) d.
Lemma px_dir links : links = [] \/ links = cp_link -> dir_at (cp_os links) px_src [[x73]].
Proof.
  intros L. split; [discriminate|]. split; [exists 493; destruct L as [->| ->]; split; reflexivity|]. right. exists [], [x73], 493.
  destruct L as [->| ->]; split; vm_compute; reflexivity.
Qed.
Lemma reports_dots fs ls : sane fs -> reports fs ls -> (forall p, ~ In [x2e] (ls p) /\ ~ In [x2e;x2e] (ls p)) ->
  reports fs (fun d => [x2e] :: [x2e;x2e] :: ls d).
Proof.
  intros Sn R Nd p m E. destruct (R p m E) as (R1 & R2 & R3). destruct (Nd p) as [N1 N2]. split; [|split].
  - constructor; [intros [Q|Q]; [discriminate Q|contradiction]|]. constructor; assumption.
  - intros c Hc. right. right. auto.
  - intros c [<-|[<-|H]]; [right; left; reflexivity|right; right; reflexivity|auto].
Qed.
Lemma px_archivable : archivable (cp_os cp_link) px_ls px_src [[x73]] 2.
Proof.
  split; [apply cp_sane; now right|]. split.
  { apply reports_dots; [apply (cp_sane cp_link); now right|apply reports_list; vm_compute; reflexivity|].
    intros p. assert (Q : forall c, In c (names_in (cp_list cp_link) p) -> plain c).
    { intros c Hc. apply in_flat_map in Hc. destruct Hc as ([q i] & Hi & Hc). cbn [fst] in Hc.
      destruct (strip p q) as [[|c' [|c2 r]]|] eqn:Q; cbn [In] in Hc; try contradiction Hc. destruct Hc as [Hc|[]]. subst c'.
      apply strip_eq in Q. subst q. apply in_look in Hi. destruct (look (p ++ [c]) (cp_list cp_link)) as [j|] eqn:Ej; [|congruence].
      exact (proj1 (proj1 (cp_sane cp_link (or_intror eq_refl)) _ _ _ Ej)). }
    split; intro H; apply Q in H; destruct H as (_ & _ & _ & P4 & P5 & _); congruence. }
  split; [apply modest_list; vm_compute; reflexivity|]. split; [apply px_dir; now right|].
  split; [apply readable_list; vm_compute; reflexivity|]. split; [apply uncut_list; vm_compute; reflexivity|]. apply deep_list; vm_compute; reflexivity.
Qed.

(** ** Long paths: /A…/A…/…/A… *)
Definition lg_base (n : nat) : path := repeat (repeat x41 254) 16 ++ [repeat x41 n].
Fixpoint inits_of {A} (l : list A) : list (list A) := match l with [] => [[]] | x :: r => [] :: map (cons x) (inits_of r) end.
Definition lg_list (n : nat) (es : list (bytes * inode)) : list (path * inode) :=
  map (fun p => (p, IDir 493)) (inits_of (lg_base n)) ++ map (fun x => (lg_base n ++ [fst x], snd x)) es.
Definition lg_os (n : nat) (es : list (bytes * inode)) : os := OS (fun p => look p (lg_list n es)) 1000 [] 18 false [] 3.
Definition lg_src (n : nat) : bytes := path_string (lg_base n).

(** A directory with the path of 4093 bytes and one subdirectory. *)
Definition lg_sub : list (bytes * inode) := [([x64], IDir 493)].
Lemma lg_endless_case : let o := lg_os 12 lg_sub in let ls := names_in (lg_list 12 lg_sub) in
  sane (o_fs o) /\ reports (o_fs o) ls /\ modest (o_fs o) /\ dir_at o (lg_src 12) (lg_base 12) /\ readable o (lg_base 12) /\ deep (o_fs o) 1 (lg_base 12) /\
  lenN (lg_src 12) = 4093 /\ ls (lg_base 12) = [[x64]].
Proof.
  cbv zeta. split; [apply sane_list; vm_compute; reflexivity|]. split; [apply reports_list; vm_compute; reflexivity|].
  split; [apply modest_list; vm_compute; reflexivity|].
  split. { split; [intro Q; apply (f_equal lenN) in Q; vm_compute in Q; discriminate Q|]. split; [exists 493; split; vm_compute; reflexivity|]. right.
    exists (removelast (lg_base 12)), (last (lg_base 12) []), 493. split; vm_compute; reflexivity. }
  split; [apply readable_list; vm_compute; reflexivity|]. split; [apply deep_list; vm_compute; reflexivity|]. split; vm_compute; reflexivity.
Qed.

Lemma px_created : created rle_zlib ax_al 9.
Proof. repeat split. discriminate. Qed.

Lemma lg_never : forall fuel pfuel r, px_compress fuel pfuel (lg_os 12 lg_sub) (names_in (lg_list 12 lg_sub)) (lg_src 12) <> Ok r.
Proof.
  destruct lg_endless_case as (_ & _ & _ & Da & _ & _ & L & Hl). intros fuel pfuel r.
  apply (path_endless rle_zlib LE px_all (ax_jk x11) ax_hj ax_xjk ax_hjunk ax_al (lg_os 12 lg_sub) (names_in (lg_list 12 lg_sub)) (fun _ => 4096) (fun _ => 0)
    rle_contract fuel pfuel 9 7 (lg_src 12) tt (lg_base 12) 493 [] [x64] [] 493 (ax_junk x11) px_accepts px_created Da L).
  - vm_compute. reflexivity.
  - reflexivity.
  - exact Hl.
  - constructor.
  - apply plainb_ok. vm_compute. reflexivity.
  - vm_compute. reflexivity.
  - constructor.
Qed.
Lemma ex_c112 : exists o ls src d, sane (o_fs o) /\ reports (o_fs o) ls /\ modest (o_fs o) /\ dir_at o src d /\ readable o d /\ deep (o_fs o) 1 d /\
  forall fuel pfuel r, px_compress fuel pfuel o ls src <> Ok r.
Proof.
  exists (lg_os 12 lg_sub), (names_in (lg_list 12 lg_sub)), (lg_src 12), (lg_base 12).
  destruct lg_endless_case as (H1 & H2 & H3 & H4 & H5 & H6 & _ & _).
  split; [exact H1|]. split; [exact H2|]. split; [exact H3|]. split; [exact H4|]. split; [exact H5|]. split; [exact H6|exact lg_never].
Qed.
Lemma ex_c112_case : exists o ls src d, accepts_path px_all /\ created rle_zlib ax_al 9 /\ junk_ok (ax_jk x11) ax_hj ax_xjk ax_hjunk /\ dir_at o src d /\ lenN src = 4093 /\
  o_fs o d = Some (IDir 493) /\ can_r (o_priv o) 493 = true /\ ls d = [] ++ [x64] :: [] /\ plain [x64] /\ o_fs o (d ++ [[x64]]) = Some (IDir 493).
Proof.
  exists (lg_os 12 lg_sub), (names_in (lg_list 12 lg_sub)), (lg_src 12), (lg_base 12).
  destruct lg_endless_case as (_ & _ & _ & Da & _ & _ & L & Hl).
  split; [exact px_accepts|]. split; [exact px_created|]. split; [apply ax_junk|]. split; [exact Da|]. split; [exact L|]. split; [vm_compute; reflexivity|].
  split; [reflexivity|]. split; [exact Hl|]. split; [apply plainb_ok; vm_compute; reflexivity|]. vm_compute. reflexivity.
Qed.

(** A directory with the path of 4092 bytes and the files "a" and "ab". *)
Definition lg_ab : list (bytes * inode) := [([x61], IFile 420 [x31]); ([x61;x62], IFile 420 [x32;x33])].
Definition lg_wrong : list (bytes * snode) :=
  [([x61], SFile true true 33188 1 [x31] false); ([x61;x62], SFile true true 33188 1 [x31] false)].
Lemma ex_c111 : exists o ls src d cevs ws wx led es, sane (o_fs o) /\ reports (o_fs o) ls /\ modest (o_fs o) /\ dir_at o src d /\ readable o d /\ deep (o_fs o) 1 d /\
  px_compress 3 5 o ls src = Ok (CRet 0%Z, cevs, ws, wx, led) /\ archives_dir rle_zlib es (cev_bytes cevs) /\
  In ([x61;x62], SFile true true 33188 1 [x31] false) es /\ o_fs o (d ++ [[x61;x62]]) = Some (IFile 420 [x32;x33]).
Proof.
  exists (lg_os 11 lg_ab), (names_in (lg_list 11 lg_ab)), (lg_src 11), (lg_base 11).
  assert (E : match px_compress 3 5 (lg_os 11 lg_ab) (names_in (lg_list 11 lg_ab)) (lg_src 11) with
    | Ok (CRet r, cevs, _, _, _) => (r =? 0)%Z && bytes_eqb (cev_bytes cevs) (hx_arch lg_wrong) | _ => false end = true) by (vm_compute; reflexivity).
  destruct (px_compress 3 5 (lg_os 11 lg_ab) (names_in (lg_list 11 lg_ab)) (lg_src 11)) as [[[[[[r|] cevs] ws] wx] led]| |] eqn:Ec; try discriminate E.
  apply andb_prop in E. destruct E as [E1 E2]. apply Z.eqb_eq in E1. apply bytes_eqb_spec in E2. subst r.
  exists cevs, ws, wx, led, lg_wrong.
  split; [apply sane_list; vm_compute; reflexivity|]. split; [apply reports_list; vm_compute; reflexivity|]. split; [apply modest_list; vm_compute; reflexivity|].
  split. { split; [intro Q; apply (f_equal lenN) in Q; vm_compute in Q; discriminate Q|]. split; [exists 493; split; vm_compute; reflexivity|]. right.
    exists (removelast (lg_base 11)), (last (lg_base 11) []), 493. split; vm_compute; reflexivity. }
  split; [apply readable_list; vm_compute; reflexivity|]. split; [apply deep_list; vm_compute; reflexivity|]. split; [reflexivity|].
  split; [rewrite E2; apply hx_arch_ok; [unfold tree_fits, listing, lg_wrong; fits_case|vm_compute; reflexivity]|].
  split; [right; now left|]. vm_compute. reflexivity.
Qed.

Lemma ex_c111_case : exists cevs ws wx led, junk_ok (ax_jk x11) ax_hj ax_xjk ax_hjunk /\ accepts_path px_all /\
  archivable (cp_os cp_link) px_ls px_src [[x73]] 2 /\ created rle_zlib ax_al 9 /\
  px_compress 3 5 (cp_os cp_link) px_ls px_src = Ok (CRet 0%Z, cevs, ws, wx, led) /\ last_not_full cevs.
Proof.
  assert (E : match px_compress 3 5 (cp_os cp_link) px_ls px_src with
    | Ok (CRet r, cevs, _, _, _) => (r =? 0)%Z && forallb (fun c => lenN (ce_data c) <? ce_room c) cevs | _ => false end = true) by (vm_compute; reflexivity).
  destruct (px_compress 3 5 (cp_os cp_link) px_ls px_src) as [[[[[[r|] cevs] ws] wx] led]| |] eqn:Ec; try discriminate E.
  apply andb_prop in E. destruct E as [E1 E2]. apply Z.eqb_eq in E1. subst r. exists cevs, ws, wx, led.
  split; [apply ax_junk|]. split; [exact px_accepts|]. split; [exact px_archivable|]. split; [exact px_created|]. split; [reflexivity|].
  apply (ax_not_full _ E2).
Qed.

Definition px_arch : bytes := match px_compress 3 5 (cp_os cp_link) px_ls px_src with Ok (_, cevs, _, _, _) => cev_bytes cevs | _ => [] end.
Lemma ex_c113 : exists cevs ws wx led q evs ret o', archivable (cp_os cp_link) px_ls px_src [[x73]] 2 /\ created rle_zlib ax_al 9 /\
  px_compress 3 5 (cp_os cp_link) px_ls px_src = Ok (CRet 0%Z, cevs, ws, wx, led) /\ last_not_full cevs /\ homely (cp_os cp_link) /\
  suitable false 18 1 (o_fs (cp_os cp_link)) [[x73]] /\ free_spot (cp_os cp_link) [x6f] [[x77]; [x6f]] /\ usable_dir false 18 MODE_BASE_DIR /\
  volume (preorder (tree (o_fs (cp_os cp_link)) px_ls 2 [[x73]])) <= 1000 /\
  calls rle_zlib LE ex_alloc ax_al (zeros DEF_CHUNK_SIZE) ax_hjunk ex_pj 5000 5000 0 (cev_bytes cevs) q evs /\ room_left q /\ unsplit evs /\
  did_all (hx_extract [x6f] 0 (cev_bytes cevs) (cp_os cp_link)) ret o' /\ ret = ContentDirectory /\
  o_fs o' [[x77]; [x6f]; [x64]; [x61;x62;x63]] = Some (IFile 420 [x31;x32;x33]) /\ o_fs o' [[x77]; [x6f]; [x6c]] = Some (ILink [x64;x2f;x61;x62;x63]).
Proof.
  destruct ex_c111_case as (cevs & ws & wx & led & _ & _ & Ar & Cr & E & L). exists cevs, ws, wx, led.
  assert (Eb : px_arch = cev_bytes cevs) by (unfold px_arch; rewrite E; reflexivity).
  destruct (lm_calls_of px_arch (fun evs => wholeb (payloads evs) (link_sizes evs))) as (q & evs & K & R & H); [vm_compute; reflexivity|].
  destruct (did_all_of (hx_extract [x6f] 0 px_arch (cp_os cp_link)) (fun ret o' => (ret =? ContentDirectory) &&
    (at_eqb o' [[x77]; [x6f]; [x64]; [x61;x62;x63]] (Some (IFile 420 [x31;x32;x33])) && at_eqb o' [[x77]; [x6f]; [x6c]] (Some (ILink [x64;x2f;x61;x62;x63])))))
    as (ret & o' & D & H'); [vm_compute; reflexivity|].
  apply andb_prop in H'. destruct H' as [H1 H2]. apply andb_prop in H2. destruct H2 as [H2 H3]. rewrite Eb in K, D.
  exists q, evs, ret, o'. split; [exact Ar|]. split; [exact Cr|]. split; [exact E|]. split; [exact L|]. split; [exact cp_homely|].
  split; [apply cp_suitable; auto|]. split; [apply cp_spot; auto|]. split; [exact cp_base|]. split; [vm_compute; discriminate|].
  split; [exact K|]. split; [exact R|]. split; [now apply wholeb_ok|]. split; [exact D|]. split; [now apply N.eqb_eq|]. split; now apply at_eqb_ok.
Qed.
