(** AptMore.v: what the installer tool does for a command line (C146). *)
From Coq Require Import String Lia.
From Verif Require Import Base AptGet AptGetFacts AptGetExamples Icon.
Local Notation b := list_byte_of_string.

(** Where a package comes from and where it is put first. *)
Definition package_url (package : bytes) : bytes :=
  b "https://desycloud.desy.de/index.php/s/XvNhzouZlV5s12W/download?path=%2FARM&files=" ++ package ++ b ".dsi".
Definition package_dir : bytes := b "C:\.dsi-tmp".

Lemma no_command W argv : (length argv < 2)%nat -> apt_main W argv = Ok ((-1)%Z, []).
Proof. destruct argv as [|a [|c r]]; cbn [length apt_main]; intro H; [reflexivity|reflexivity|lia]. Qed.

Lemma other_command W prog cmd more : (more = [] \/ cmd <> b "install") -> apt_main W (prog :: cmd :: more) = Ok (0%Z, []).
Proof.
  intro H. destruct more as [|p more]; [reflexivity|]. cbn [apt_main]. destruct (bytes_eqb cmd INSTALL) eqn:E; [|reflexivity].
  destruct H as [H|H]; [discriminate H|]. apply bytes_eqb_spec in E. contradiction.
Qed.

Lemma cstr_written v r s : ~ In x00 v -> cstr (map Some v ++ r) = Ok s -> exists s', cstr r = Ok s' /\ s = v ++ s'.
Proof.
  revert s. induction v as [|x v IH]; intros s Nv H; cbn [map app cstr] in *; [exists s; auto|].
  rewrite beqb_neq in H by (intros ->; apply Nv; left; reflexivity).
  destruct (cstr (map Some v ++ r)) as [s1| |] eqn:E; cbn [obind] in H; try discriminate H. injection H as <-.
  destruct (IH s1) as (s' & E' & ->); [intro; apply Nv; right; assumption|reflexivity|]. exists s'. auto.
Qed.

Lemma no_nul s : existsb (byte_eqb x00) s = false -> ~ In x00 s.
Proof. intros H I. assert (existsb (byte_eqb x00) s = true); [apply existsb_exists; exists x00; auto|congruence]. Qed.
Lemma takeN_In A n (l : list A) x : In x (takeN n l) -> In x l.
Proof. intro H. rewrite <- (takeN_dropN _ n l). apply in_or_app. now left. Qed.
Lemma print_whole s tmp url : ~ In x00 s ->
  ms_snprintf 0 REMOTE_URI_MIN1 s (repeat None (N.to_nat (REMOTE_URI_MIN1 + 1))) = Ok tmp -> str_at 0 tmp = Ok url -> url = s.
Proof.
  intros Ns. unfold ms_snprintf, store. set (none := repeat None _).
  assert (Ld : dropN 1023 none = [None]) by (vm_compute; reflexivity).
  assert (Lt : takeN 0 none = []) by (vm_compute; reflexivity). clearbody none.
  destruct (lenN s <? REMOTE_URI_MIN1) eqn:E; unfold REMOTE_URI_MIN1 in E.
  - apply N.ltb_lt in E. rewrite takeN_all by (unfold REMOTE_URI_MIN1; lia).
    destruct (0 + lenN (s ++ [x00]) <=? lenN none); [|discriminate]. intro H. injection H as <-. 
    rewrite Lt, app_nil_l. rewrite ?N.add_0_l. generalize (dropN (lenN (s ++ [x00])) none). intro r.
    intro H. pose proof (str_at_ok [] s [] r Ns) as K. change (lenN (@nil byte)) with 0 in K. cbn [app] in K. rewrite K in H. injection H as <-. reflexivity.
  - apply N.ltb_ge in E. rewrite app_nil_r. destruct (0 + lenN (takeN REMOTE_URI_MIN1 s) <=? lenN none); [|discriminate].
    intro H. injection H as <-. rewrite Lt, app_nil_l.
    assert (L : lenN (takeN REMOTE_URI_MIN1 s) = 1023) by (rewrite lenN_takeN; unfold REMOTE_URI_MIN1; lia).
    rewrite ?N.add_0_l, L, Ld.
    unfold str_at. rewrite dropN_0.
    intro H. destruct (cstr_written _ _ _ (fun I => Ns (takeN_In _ _ _ _ I)) H) as (s' & Q & _). discriminate Q.
Qed.

Lemma first_download W prog package more r log : ~ In x00 package ->
  apt_main W (prog :: b "install" :: package :: more) = Ok (r, log) ->
  exists log', log = AWeb (package_url package) package_dir :: log' /\
    (w_web W (package_url package) package_dir <> 0%Z -> r = w_web W (package_url package) package_dir /\ log' = []).
Proof.
  intros Np. change (b "install") with INSTALL. change package_dir with TEMPORARY_DIR.
  change (package_url package) with (URL_HEAD ++ package ++ URL_TAIL).
  assert (Nu : ~ In x00 (URL_HEAD ++ package ++ URL_TAIL)).
  { rewrite !in_app_iff. intros [H|[H|H]]; [|exact (Np H)|]; apply no_nul in H; [exact H|reflexivity|exact H|reflexivity]. }
  cbn [apt_main]. change (bytes_eqb INSTALL INSTALL) with true. cbv iota. unfold install. generalize dependent (URL_HEAD ++ package ++ URL_TAIL). intros u Nu H.
  destruct (ms_snprintf _ _ _ _) as [tmp| |] eqn:Ep; cbn [obind] in H; try discriminate H.
  destruct (str_at 0 tmp) as [url| |] eqn:Eu; cbn [obind] in H; try discriminate H.
  rewrite (print_whole _ _ _ Nu Ep Eu) in *. destruct (w_web W u TEMPORARY_DIR =? 0)%Z eqn:Ew; cbn [negb] in H.
  2: { injection H as <- <-. exists []. auto. }
  apply Z.eqb_eq in Ew. cut (exists log', log = AWeb u TEMPORARY_DIR :: log').
  { intros (log' & ->). exists log'. split; [reflexivity|]. intro Q. contradiction. }
  clear Ep Eu.
  repeat match type of H with
  | Ok _ = Ok _ => injection H as <- <-
  | UB = Ok _ => discriminate H
  | NoFuel = Ok _ => discriminate H
  | obind ?o _ = Ok _ => destruct o as [?| |]; cbn [obind] in H; try discriminate H
  | (let (_, _) := ?p in _) = Ok _ => destruct p
  | match ?p with _ => _ end = Ok _ => destruct p; cbn [negb andb] in H
  end;
  repeat match goal with
  | |- context [if ?b then _ else _] => destruct b
  end; cbn [app]; eexists; reflexivity.
Qed.

(** The package p with the steps root: C:\app and run: a.exe; the name of the file with the steps is s. *)
Lemma ex_c146 :
  apt_main (ag_world (Some (b "root: C:\app" ++ [x0a] ++ b "run: a.exe" ++ [x0a])) true [Some x00]) [b "apt-get"; b "install"; b "p"] =
    Ok (0%Z, [AWeb (package_url (b "p")) (b "C:\.dsi-tmp"); AOpen (b "C:\.dsi-tmp\s"); ADelete (b "C:\.dsi-tmp\s"); AMove (b "C:\.dsi-tmp") (b "C:\app");
      AStart (b "C:\app\a.exe /Install"); AWait]) /\
  apt_main (ag_world None true [Some x00]) [b "apt-get"] = Ok ((-1)%Z, []) /\
  apt_main (ag_world None true [Some x00]) [b "apt-get"; b "remove"; b "p"] = Ok (0%Z, []).
Proof. split; [vm_compute; reflexivity|split; reflexivity]. Qed.

(** Icons are not supported on Unix. *)
Lemma icon_unix p r p' : set_icon_unix p = (r, p') -> r = 1%Z /\ p' = p.
Proof. intro H. injection H as <- <-. auto. Qed.

Lemma icon_result W p r p' : set_icon W p = Ok (r, p') ->
  (r = 0%Z /\ iw_file W <> None /\ iw_size W <> None /\ iw_malloc W && iw_begin W && iw_icon W && iw_group W = true) \/
  (r = 1%Z /\ (iw_file W = None \/ iw_size W = None \/ iw_malloc W && iw_begin W && iw_icon W && iw_group W = false)).
Proof.
  unfold set_icon. destruct (iw_file W) as [d|]; [|intro H; injection H as <- <-; auto]. destruct (iw_size W) as [n|]; [|intro H; injection H as <- <-; auto].
  destruct (iw_malloc W); cbn [negb andb]; [|intro H; injection H as <- <-; auto].
  destruct (iw_begin W); cbn [negb andb]; [|intro H; injection H as <- <-; auto]. destruct (n <? 22); [discriminate|].
  destruct (iw_icon W); cbn [negb andb]; [|intro H; injection H as <- <-; auto].
  destruct (iw_group W); cbn [negb andb]; intro H; injection H as <- <-; [left|auto]. repeat split; discriminate.
Qed.
