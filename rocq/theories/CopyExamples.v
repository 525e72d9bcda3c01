(** CopyExamples.v: concrete cases for CopyFacts.v. *)
From Coq Require Import Lia.
From Verif Require Import Base Format Zlib RleZlib Compress Parser ParserProofs ParserFacts Decompress DecompressProofs MidProofs MidFacts
  DecompressExamples ArchiveSpec ArchiveFacts ArchiveDecode ArchiveEntry ArchiveProps ArchiveExamples FS FSFacts HL HLSpec HLFacts HLDrive HLProps HLSafe MkdirFacts
  HLTame HLMore HLExamples LinkFacts LinkExamples LinkMore LinkMoreExamples CutSpec CopySpec CopyFacts.

(** ** File systems given as lists *)
Definition plainb (c : bytes) : bool :=
  nonempty c && negb (existsb (byte_eqb x2f) c) && negb (existsb (byte_eqb x00) c) && negb (dotb c) && (lenN c <=? NAME_MAX).
Lemma existsb_in b c : existsb (byte_eqb b) c = false -> ~ In b c.
Proof.
  intros H Hi. assert (existsb (byte_eqb b) c = true); [|congruence]. apply existsb_exists. exists b. split; [exact Hi|now apply byte_eqb_spec].
Qed.
Lemma plainb_ok c : plainb c = true -> plain c.
Proof.
  unfold plainb. intro H. apply andb_prop in H. destruct H as [H H5]. apply andb_prop in H. destruct H as [H H4]. apply andb_prop in H. destruct H as [H H3].
  apply andb_prop in H. destruct H as [H1 H2]. apply negb_true_iff in H2, H3, H4.
  assert (Nd : ~ dotted c) by (intro Q; apply dotb_spec in Q; congruence). unfold dotted in Nd.
  split; [intros ->; discriminate H1|]. split; [now apply existsb_in|]. split; [now apply existsb_in|]. split; [tauto|]. split; [tauto|now apply N.leb_le].
Qed.
Definition entryb (l : list (path * inode)) (x : path * inode) : bool :=
  match fst x with
  | [] => true
  | _ => plainb (last (fst x) []) && match look (removelast (fst x)) l with Some (IDir _) => true | _ => false end
  end &&
  match snd x with ILink t => nonempty t && negb (existsb (byte_eqb x00) t) && (lenN t <? PATH_MAX) | _ => true end.
Lemma look_in p l i : look p l = Some i -> In (p, i) l.
Proof.
  induction l as [|[q j] l IH]; cbn [look]; intro H; [discriminate H|]. destruct (path_eqb p q) eqn:E; [|right; auto].
  apply path_eqb_spec in E. subst. injection H as ->. now left.
Qed.
Lemma sane_list l : forallb (entryb l) l = true -> sane (fun p => look p l).
Proof.
  intro H. rewrite forallb_forall in H. split.
  - intros p c i E. apply look_in in E. apply H in E. unfold entryb in E. cbn [fst snd] in E. destruct (p ++ [c]) as [|a r] eqn:Ep; [now destruct p|].
    rewrite <- Ep in E. apply andb_prop in E. destruct E as [E _]. apply andb_prop in E. destruct E as [E1 E2]. rewrite last_last in E1. rewrite removelast_last in E2.
    split; [now apply plainb_ok|]. destruct (look p l) as [[m| |]|]; try discriminate E2. now exists m.
  - intros p x E. apply look_in in E. apply H in E. unfold entryb in E. cbn [fst snd] in E. apply andb_prop in E. destruct E as [_ E].
    apply andb_prop in E. destruct E as [E E3]. apply andb_prop in E. destruct E as [E1 E2]. apply negb_true_iff in E2.
    split; [intros ->; discriminate E1|]. split; [now apply existsb_in|now apply N.ltb_lt].
Qed.

(** ** A directory /s with a directory d (mode 03755, with a file abc of mode 0666), an empty directory e and, perhaps, a link *)
Definition cp_list (links : list (path * inode)) : list (path * inode) :=
  [([], IDir 493); ([[x77]], IDir 493); ([[x73]], IDir 493); ([[x73]; [x64]], IDir 2029); ([[x73]; [x64]; [x61;x62;x63]], IFile 438 [x31;x32;x33]);
   ([[x73]; [x65]], IDir 493)] ++ links.
Definition cp_os links : os := OS (fun p => look p (cp_list links)) 1000 [[x77]] 18 false [] 3.
Definition cp_link : list (path * inode) := [([[x73]; [x6c]], ILink [x64;x2f;x61;x62;x63])].
(** As the iterator may list it. *)
Definition cp_tree : list (bytes * snode) :=
  [([x65], SDir 16877 []); ([x2e], SOther); ([x64], SDir 18413 [([x61;x62;x63], SFile true true 33206 3 [x31;x32;x33] false)])].
Definition cp_ltree : list (bytes * snode) := ([x6c], SLink 41471 5 (Some [x64;x2f;x61;x62;x63])) :: cp_tree.
Ltac nodot := match goal with H : dotted _ |- _ => destruct H as [H|H]; discriminate H | _ => idtac end.
Lemma look_none p l : (forall i, ~ In (p, i) l) -> look p l = None.
Proof. intro H. destruct (look p l) as [i|] eqn:E; [|reflexivity]. apply look_in in E. now destruct (H i). Qed.
Lemma cp_complete p l es : (forallb (fun x => match strip p (fst x) with Some [c] => existsb (bytes_eqb c) (map fst es) | _ => true end) l = true) ->
  forall c, look (p ++ [c]) l <> None -> In c (map fst (es : list (bytes * snode))).
Proof.
  intros H c Hc. destruct (look (p ++ [c]) l) as [i|] eqn:E; [|congruence]. apply look_in in E. rewrite forallb_forall in H. apply H in E. cbn [fst] in E.
  rewrite strip_app in E. apply existsb_exists in E. destruct E as (x & Hi & Q). apply bytes_eqb_spec in Q. now subst.
Qed.
Lemma cp_sees links : links = [] \/ links = cp_link -> 
  (forall c nd, In (c, nd) cp_tree -> dotted c -> quiet nd) /\
  (forall c nd, In (c, nd) cp_tree -> ~ dotted c -> sees (fun p => look p (cp_list links)) ([[x73]] ++ [c]) nd).
Proof.
  intro L. split.
  - intros c nd [H|[H|[H|[]]]] D; injection H as <- <-; nodot. apply q_other.
  - intros c nd [H|[H|[H|[]]]] D; injection H as <- <-.
    + apply (se_dir _ _ 493); [reflexivity|constructor|intros ? ? []|intros ? ? []|]. apply cp_complete. destruct L as [->| ->]; reflexivity.
    + destruct D. now left.
    + apply (se_dir _ _ 2029); [reflexivity|nodup_case|intros c nd [H|[]] D2; injection H as <- <-; nodot| |].
      * intros c nd [H|[]] D2; injection H as <- <-. apply (se_file _ _ 438 [x31;x32;x33]). reflexivity.
      * apply cp_complete. destruct L as [->| ->]; reflexivity.
Qed.
Lemma cp_lists : lists (o_fs (cp_os [])) [[x73]] cp_tree.
Proof.
  exists 16877. destruct (cp_sees [] (or_introl eq_refl)) as [A B]. apply (se_dir _ _ 493); [reflexivity|nodup_case|exact A|exact B|].
  apply cp_complete. reflexivity.
Qed.
Lemma cp_llists : lists (o_fs (cp_os cp_link)) [[x73]] cp_ltree.
Proof.
  exists 16877. destruct (cp_sees cp_link (or_intror eq_refl)) as [A B].
  apply (se_dir _ _ 493); [reflexivity|nodup_case| | |apply cp_complete; reflexivity].
  - intros c nd [H|H] D; [injection H as <- <-; nodot|now apply (A c)].
  - intros c nd [H|H] D; [injection H as <- <-|now apply B]. apply (se_link _ _ [x64;x2f;x61;x62;x63]). reflexivity.
Qed.
Lemma cp_sane links : links = [] \/ links = cp_link -> sane (o_fs (cp_os links)).
Proof. intros [->| ->]; apply sane_list; vm_compute; reflexivity. Qed.
Lemma cp_suitable links : links = [] \/ links = cp_link -> suitable false 18 1 (o_fs (cp_os links)) [[x73]].
Proof.
  intro L. split.
  - intros r Hr H. cbn [o_fs cp_os] in H. destruct (look ([[x73]] ++ r) (cp_list links)) as [i|] eqn:E; [|congruence]. apply look_in in E. clear H.
    destruct L as [->| ->]; cbn in E; repeat (destruct E as [E|E]; [injection E; intros; try discriminate; subst; vm_compute; reflexivity|]); destruct E.
  - intros r m Hr H. cbn [o_fs cp_os] in H. apply look_in in H.
    destruct L as [->| ->]; cbn in H; repeat (destruct H as [E|H]; [injection E; intros; try discriminate; subst; try congruence; split; vm_compute; reflexivity|]); destruct H.
Qed.
Lemma cp_nolinks : no_links (o_fs (cp_os [])) [[x73]].
Proof.
  intros r x H. cbn [o_fs cp_os] in H. apply look_in in H. cbn in H. repeat (destruct H as [E|H]; [discriminate E|]). destruct H.
Qed.
Lemma cp_arch : archives_dir rle_zlib cp_tree (hx_arch cp_tree).
Proof. apply hx_arch_ok; [unfold tree_fits, listing, cp_tree; fits_case|vm_compute; reflexivity]. Qed.
Lemma cp_larch : archives_dir rle_zlib cp_ltree (hx_arch cp_ltree).
Proof. apply hx_arch_ok; [unfold tree_fits, listing, cp_ltree, cp_tree; fits_case|vm_compute; reflexivity]. Qed.
Lemma cp_spot links : links = [] \/ links = cp_link -> free_spot (cp_os links) [x6f] [[x77]; [x6f]].
Proof.
  intro L. split; [intros [H|[]]; discriminate|]. exists [[x77]], [x6f]. split; [reflexivity|]. destruct L as [->| ->]; split; vm_compute; reflexivity.
Qed.
Lemma cp_base : usable_dir false 18 MODE_BASE_DIR.
Proof. exact hx_base. Qed.

Lemma ex_c104 : exists ret o', sane (o_fs (cp_os [])) /\ lists (o_fs (cp_os [])) [[x73]] cp_tree /\ no_links (o_fs (cp_os [])) [[x73]] /\
  suitable false 18 1 (o_fs (cp_os [])) [[x73]] /\ archives_dir rle_zlib cp_tree (hx_arch cp_tree) /\ free_spot (cp_os []) [x6f] [[x77]; [x6f]] /\
  usable_dir false 18 MODE_BASE_DIR /\ volume (preorder cp_tree) <= 1000 /\
  did_all (hx_extract [x6f] 0 (hx_arch cp_tree) (cp_os [])) ret o' /\ ret = ContentDirectory /\
  o_fs o' [[x77]; [x6f]; [x64]] = Some (IDir 1005) /\ o_fs o' [[x77]; [x6f]; [x64]; [x61;x62;x63]] = Some (IFile 420 [x31;x32;x33]) /\
  o_fs o' [[x77]; [x6f]; [x65]] = Some (IDir 493).
Proof.
  destruct (did_all_of (hx_extract [x6f] 0 (hx_arch cp_tree) (cp_os [])) (fun ret o' => (ret =? ContentDirectory) &&
    (at_eqb o' [[x77]; [x6f]; [x64]] (Some (IDir 1005)) && (at_eqb o' [[x77]; [x6f]; [x64]; [x61;x62;x63]] (Some (IFile 420 [x31;x32;x33])) &&
     at_eqb o' [[x77]; [x6f]; [x65]] (Some (IDir 493)))))) as (ret & o' & D & H); [vm_compute; reflexivity|].
  apply andb_prop in H. destruct H as [H1 H]. apply andb_prop in H. destruct H as [H2 H]. apply andb_prop in H. destruct H as [H3 H4].
  exists ret, o'. split; [apply cp_sane; auto|]. split; [exact cp_lists|]. split; [exact cp_nolinks|]. split; [apply cp_suitable; auto|].
  split; [exact cp_arch|]. split; [apply cp_spot; auto|]. split; [exact cp_base|]. split; [vm_compute; discriminate|]. split; [exact D|].
  split; [now apply N.eqb_eq|]. split; [now apply at_eqb_ok|]. split; now apply at_eqb_ok.
Qed.
Lemma cp_homely : homely (cp_os cp_link).
Proof.
  split; [|vm_compute; reflexivity]. split; [apply Forall_cons; [plain_case|apply Forall_nil]|]. cbn [o_cwd cp_os].
  intros p q E. destruct p as [|a [|b p]]; [exists 493; split; reflexivity| |]; [injection E as <- <-; exists 493; split; reflexivity|discriminate E].
Qed.
Lemma ex_c104_links : exists ret o', sane (o_fs (cp_os cp_link)) /\ lists (o_fs (cp_os cp_link)) [[x73]] cp_ltree /\
  suitable false 18 1 (o_fs (cp_os cp_link)) [[x73]] /\ archives_dir rle_zlib cp_ltree (hx_arch cp_ltree) /\ homely (cp_os cp_link) /\
  lenN (hx_arch cp_ltree) < DEF_CHUNK_SIZE /\ lenN (zc_dec rle_contract (hx_arch cp_ltree)) < 128 + DEF_CHUNK_SIZE /\
  free_spot (cp_os cp_link) [x6f] [[x77]; [x6f]] /\
  did_all (hx_extract [x6f] 0 (hx_arch cp_ltree) (cp_os cp_link)) ret o' /\ ret = ContentDirectory /\
  o_fs o' [[x77]; [x6f]; [x6c]] = Some (ILink [x64;x2f;x61;x62;x63]).
Proof.
  destruct (did_all_of (hx_extract [x6f] 0 (hx_arch cp_ltree) (cp_os cp_link)) (fun ret o' => (ret =? ContentDirectory) &&
    at_eqb o' [[x77]; [x6f]; [x6c]] (Some (ILink [x64;x2f;x61;x62;x63])))) as (ret & o' & D & H); [vm_compute; reflexivity|].
  apply andb_prop in H. destruct H as [H1 H2].
  exists ret, o'. split; [apply cp_sane; auto|]. split; [exact cp_llists|]. split; [apply cp_suitable; auto|].
  split; [exact cp_larch|]. split; [|split; [vm_compute; reflexivity|split; [vm_compute; reflexivity|split; [apply cp_spot; auto|split; [exact D|split; [now apply N.eqb_eq|now apply at_eqb_ok]]]]]].
  exact cp_homely.
Qed.
Lemma ex_c104_whole : exists q evs, sane (o_fs (cp_os cp_link)) /\ lists (o_fs (cp_os cp_link)) [[x73]] cp_ltree /\
  suitable false 18 1 (o_fs (cp_os cp_link)) [[x73]] /\ archives_dir rle_zlib cp_ltree (hx_arch cp_ltree) /\ homely (cp_os cp_link) /\
  free_spot (cp_os cp_link) [x6f] [[x77]; [x6f]] /\
  calls rle_zlib LE ex_alloc ax_al (zeros DEF_CHUNK_SIZE) ax_hjunk ex_pj 5000 5000 0 (hx_arch cp_ltree) q evs /\ room_left q /\
  unsplit evs /\ link_sizes evs <> [].
Proof.
  destruct (lm_calls_of (hx_arch cp_ltree) (fun evs => wholeb (payloads evs) (link_sizes evs) && negb (lenN (link_sizes evs) =? 0)))
    as (q & evs & K & R & H); [vm_compute; reflexivity|].
  apply andb_prop in H. destruct H as [H1 H2].
  exists q, evs. split; [apply cp_sane; auto|]. split; [exact cp_llists|]. split; [apply cp_suitable; auto|].
  split; [exact cp_larch|]. split; [exact cp_homely|]. split; [apply cp_spot; auto|]. split; [exact K|]. split; [exact R|].
  split; [now apply wholeb_ok|]. destruct (link_sizes evs); [discriminate H2|discriminate].
Qed.

(** ** /w/o is the copy of /s, and is copied again *)
Definition cp_sub : list (path * inode) := [([[x64]], IDir 2029); ([[x64]; [x61;x62;x63]], IFile 438 [x31;x32;x33]); ([[x65]], IDir 493)].
Definition cp_list2 : list (path * inode) :=
  cp_list [] ++ ([[x77]; [x6f]], IDir 493) :: map (fun x => ([[x77]; [x6f]] ++ fst x, masked 18 (snd x))) cp_sub.
Definition cp_os2 : os := OS (fun p => look p cp_list2) 1000 [[x77]] 18 false [] 3.
Definition cp_tree2 : list (bytes * snode) :=
  [([x2e;x2e], SOther); ([x64], SDir 17389 [([x61;x62;x63], SFile true true 33188 3 [x31;x32;x33] false)]); ([x65], SDir 16877 [])].
Lemma look_app p a b : look p (a ++ b) = match look p a with Some i => Some i | None => look p b end.
Proof. induction a as [|[q i] a IH]; [reflexivity|]. cbn [app look]. destruct (path_eqb p q); [reflexivity|exact IH]. Qed.
Lemma path_eqb_app t : forall a b, path_eqb (t ++ a) (t ++ b) = path_eqb a b.
Proof. induction t as [|c t IH]; intros a b; [reflexivity|]. cbn [app path_eqb]. rewrite (proj2 (bytes_eqb_spec c c) eq_refl). apply IH. Qed.
Lemma look_below t f r sub : look (t ++ r) (map (fun x => (t ++ fst x, f (snd x))) sub) = option_map f (look r sub).
Proof.
  induction sub as [|[q i] l IH]; [reflexivity|]. cbn [map look fst snd]. rewrite path_eqb_app. destruct (path_eqb r q); [reflexivity|exact IH].
Qed.
Lemma look_outside q l : forallb (fun x => match strip q (fst x) with Some _ => false | None => true end) l = true -> forall r, look (q ++ r) l = None.
Proof.
  intros H r. destruct (look (q ++ r) l) as [i|] eqn:E; [|reflexivity]. apply look_in in E. rewrite forallb_forall in H. apply H in E. cbn [fst] in E.
  rewrite strip_app in E. discriminate E.
Qed.
Lemma look_inside q l : forallb (fun x => match strip q (fst x) with Some _ => true | None => false end) l = true -> forall p, (forall r, p <> q ++ r) -> look p l = None.
Proof.
  intros H p Hp. destruct (look p l) as [i|] eqn:E; [|reflexivity]. apply look_in in E. rewrite forallb_forall in H. apply H in E. cbn [fst] in E.
  destruct (strip q p) as [r|] eqn:St; [|discriminate E]. apply strip_spec in St. now destruct (Hp r).
Qed.
Lemma cp_copy : copy 18 (o_fs (cp_os [])) [[x73]] (o_fs cp_os2) [[x77]; [x6f]].
Proof.
  cbn [o_fs cp_os cp_os2]. unfold cp_list2. split; [exists 493; reflexivity|]. split.
  - intros r Hr. rewrite look_app, (look_outside [[x77]; [x6f]]) by reflexivity.
    change (look ([[x77]; [x6f]] ++ r) (([[x77]; [x6f]], IDir 493) :: map (fun x => ([[x77]; [x6f]] ++ fst x, masked 18 (snd x))) cp_sub))
      with (if path_eqb ([[x77]; [x6f]] ++ r) [[x77]; [x6f]] then Some (IDir 493) else
            look ([[x77]; [x6f]] ++ r) (map (fun x => ([[x77]; [x6f]] ++ fst x, masked 18 (snd x))) cp_sub)).
    destruct (path_eqb _ _) eqn:E.
    { apply path_eqb_spec in E. destruct r as [|a r]; [congruence|]. discriminate E. }
    rewrite look_below. f_equal.
    change (look ([[x73]] ++ r) (cp_list []))
      with (look ([[x73]] ++ r) ([([], IDir 493); ([[x77]], IDir 493); ([[x73]], IDir 493)] ++ map (fun x => ([[x73]] ++ fst x, snd x)) cp_sub)).
    rewrite look_app. pose proof (look_below [[x73]] (fun i => i) r cp_sub) as Q. cbv beta in Q. rewrite Q. clear Q.
    replace (look ([[x73]] ++ r) [([], IDir 493); ([[x77]], IDir 493); ([[x73]], IDir 493)]) with (@None inode).
    { destruct (look r cp_sub); reflexivity. }
    symmetry. apply look_none. intros i [H|[H|[H|[]]]]; [discriminate H|discriminate H|]. destruct r; [congruence|discriminate H].
  - intros q Hq. rewrite look_app. rewrite (look_inside [[x77]; [x6f]] (_ :: _)) by (reflexivity || exact Hq). destruct (look q (cp_list [])); reflexivity.
Qed.
Lemma cp_lists2 : lists (o_fs cp_os2) [[x77]; [x6f]] cp_tree2.
Proof.
  exists 16877. apply (se_dir _ _ 493); [reflexivity|nodup_case| | |apply cp_complete; reflexivity].
  - intros c nd [H|[H|[H|[]]]] D; injection H as <- <-; nodot. apply q_other.
  - intros c nd [H|[H|[H|[]]]] D; injection H as <- <-.
    + destruct D. now right.
    + apply (se_dir _ _ 1005); [reflexivity|nodup_case|intros c nd [H|[]] D2; injection H as <- <-; nodot| |apply cp_complete; reflexivity].
      intros c nd [H|[]] D2; injection H as <- <-. apply (se_file _ _ 420 [x31;x32;x33]). reflexivity.
    + apply (se_dir _ _ 493); [reflexivity|constructor|intros ? ? []|intros ? ? []|]. apply cp_complete; reflexivity.
Qed.
Lemma cp_arch2 : archives_dir rle_zlib cp_tree2 (hx_arch cp_tree2).
Proof. apply hx_arch_ok; [unfold tree_fits, listing, cp_tree2; fits_case|vm_compute; reflexivity]. Qed.
Lemma ex_c104_again : exists ret o', sane (o_fs (cp_os [])) /\ no_links (o_fs (cp_os [])) [[x73]] /\ suitable false 18 2 (o_fs (cp_os [])) [[x73]] /\
  copy 18 (o_fs (cp_os [])) [[x73]] (o_fs cp_os2) [[x77]; [x6f]] /\ plain [x6f] /\ o_fs (cp_os []) [[x77]] = Some (IDir 493) /\
  lists (o_fs cp_os2) [[x77]; [x6f]] cp_tree2 /\ archives_dir rle_zlib cp_tree2 (hx_arch cp_tree2) /\ free_spot cp_os2 [x6f;x6f] [[x77]; [x6f;x6f]] /\
  did_all (hx_extract [x6f;x6f] 0 (hx_arch cp_tree2) cp_os2) ret o' /\ ret = ContentDirectory /\
  o_fs o' [[x77]; [x6f;x6f]; [x64]] = Some (IDir 1005) /\ o_fs o' [[x77]; [x6f;x6f]; [x64]; [x61;x62;x63]] = Some (IFile 420 [x31;x32;x33]).
Proof.
  destruct (did_all_of (hx_extract [x6f;x6f] 0 (hx_arch cp_tree2) cp_os2) (fun ret o' => (ret =? ContentDirectory) &&
    (at_eqb o' [[x77]; [x6f;x6f]; [x64]] (Some (IDir 1005)) && at_eqb o' [[x77]; [x6f;x6f]; [x64]; [x61;x62;x63]] (Some (IFile 420 [x31;x32;x33])))))
     as (ret & o' & D & H); [vm_compute; reflexivity|].
  apply andb_prop in H. destruct H as [H1 H]. apply andb_prop in H. destruct H as [H2 H3].
  exists ret, o'. split; [apply cp_sane; auto|]. split; [exact cp_nolinks|].
  split; [destruct (cp_suitable [] (or_introl eq_refl)) as [A B]; split; [|exact B]|].
  { intros r Hr Q. cbn [o_fs cp_os] in Q. destruct (look ([[x73]] ++ r) (cp_list [])) as [i|] eqn:E; [|congruence]. apply look_in in E. clear Q.
    cbn in E; repeat (destruct E as [E|E]; [injection E; intros; try discriminate; subst; vm_compute; reflexivity|]); destruct E. }
  split; [exact cp_copy|]. split; [plain_case|]. split; [reflexivity|]. split; [exact cp_lists2|]. split; [exact cp_arch2|].
  split; [split; [intros [Q|[Q|[]]]; discriminate|]; exists [[x77]], [x6f;x6f]; split; [reflexivity|]; split; vm_compute; reflexivity|].
  split; [exact D|]. split; [now apply N.eqb_eq|]. split; now apply at_eqb_ok.
Qed.

(** The longest names. *)
Lemma ex_longest_name : plain (repeat x61 255) /\ ~ plain (repeat x61 256).
Proof.
  split; [apply plainb_ok; vm_compute; reflexivity|]. intros (_ & _ & _ & _ & _ & H). apply N.leb_le in H. vm_compute in H. discriminate H.
Qed.
