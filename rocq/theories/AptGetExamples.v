(** AptGetExamples.v: concrete runs of the installer tool. *)
From Coq Require Import Lia.
From Verif Require Import Base AptGet AptGetFacts.

Definition ag_world (steps : option bytes) (moved : bool) (behind : cells) : world :=
  World (fun _ _ => 0%Z) steps [x73] (fun _ _ => moved) (fun _ => 0%Z) behind behind.
(** C:\app and a.exe *)
Definition ag_root : bytes := [x43;x3a;x5c;x61;x70;x70].
Definition ag_run : bytes := [x61;x2e;x65;x78;x65].
(** root: C:\app, run: a.exe on two lines. *)
Definition ag_steps : bytes := ROOT_KEY ++ [x20] ++ ag_root ++ [x0a] ++ RUN_KEY ++ [x20] ++ ag_run ++ [x0a].
(** Values of 500 and 513 bytes. *)
Definition ag_long : bytes := ROOT_KEY ++ repeat x61 500 ++ [x0a] ++ RUN_KEY ++ repeat x62 513.
Definition ag_argv (package : bytes) : list bytes := [[x61]; INSTALL; package].

Lemma ag_padded steps moved : padded (ag_world steps moved [Some x00]).
Proof. split; eexists; reflexivity. Qed.
Lemma ag_short : short_name [x70].
Proof. split; [intros [H|[]]; discriminate H|vm_compute; reflexivity]. Qed.

Lemma ends_dec b : mem svcTermStr2 b = false -> ~ ends_value b.
Proof. intros H E. apply mem_ends in E. congruence. Qed.
Lemma first_key key s i : strstr s key = Some i -> forall a b, a ++ key ++ b = s -> i <= lenN a.
Proof. intro H. destruct (strstr_some _ _ _ H) as (_ & _ & _ & _ & F). exact F. Qed.
Ltac values := repeat (apply Forall_cons; [apply ends_dec; vm_compute; reflexivity|]); apply Forall_nil.
Lemma ag_root_value : key_value ROOT_KEY ag_steps ag_root.
Proof.
  exists [], [x20], ([x0a] ++ RUN_KEY ++ [x20] ++ ag_run ++ [x0a]). split; [reflexivity|].
  split; [exact (first_key ROOT_KEY ag_steps 0 eq_refl)|]. split; [repeat constructor|]. split; [discriminate|].
  split; [unfold ag_root; values|]. right. left. reflexivity.
Qed.
Lemma ag_run_value : key_value RUN_KEY ag_steps ag_run.
Proof.
  exists (ROOT_KEY ++ [x20] ++ ag_root ++ [x0a]), [x20], [x0a]. split; [reflexivity|].
  split; [exact (first_key RUN_KEY ag_steps 13 eq_refl)|]. split; [repeat constructor|]. split; [discriminate|].
  split; [unfold ag_run; values|]. right. left. reflexivity.
Qed.
Lemma ag_repeat b n : mem svcTermStr2 b = false -> Forall (fun b => ~ ends_value b) (repeat b n).
Proof. intro H. induction n; [apply Forall_nil|apply Forall_cons; [apply ends_dec, H|exact IHn]]. Qed.
Lemma ag_long_values : key_value ROOT_KEY ag_long (repeat x61 500) /\ key_value RUN_KEY ag_long (repeat x62 513).
Proof.
  split.
  - exists [], [], ([x0a] ++ RUN_KEY ++ repeat x62 513). split; [reflexivity|].
    split; [refine (first_key ROOT_KEY ag_long 0 _); vm_compute; reflexivity|]. split; [constructor|]. split; [discriminate|].
    split; [apply ag_repeat; reflexivity|]. right. left. reflexivity.
  - exists (ROOT_KEY ++ repeat x61 500 ++ [x0a]), [], []. split; [unfold ag_long; rewrite <- !app_assoc, app_nil_r; reflexivity|].
    split; [refine (first_key RUN_KEY ag_long _ _); vm_compute; reflexivity|]. split; [constructor|]. split; [discriminate|].
    split; [apply ag_repeat; reflexivity|exact I].
Qed.

Lemma ex_c84_strict : exists W, strict_c W /\ short_name [x70] /\ w_steps W = Some ag_steps /\ apt_main W (ag_argv [x70]) = UB.
Proof.
  exists (ag_world (Some ag_steps) true []). split; [split; reflexivity|]. split; [exact ag_short|]. split; [reflexivity|].
  vm_compute. reflexivity.
Qed.
Lemma ex_c84_long : exists W package, padded W /\ ~ In x00 package /\ lenN package = 1000 /\ apt_main W (ag_argv package) = UB.
Proof.
  exists (ag_world (Some ag_steps) true [Some x00]), (repeat x70 1000). split; [apply ag_padded|].
  split; [intro H; apply repeat_spec in H; discriminate H|]. split; vm_compute; reflexivity.
Qed.
Lemma ex_c84 : exists r log, padded (ag_world (Some ag_steps) true [Some x00]) /\ short_name [x70] /\
  apt_main (ag_world (Some ag_steps) true [Some x00]) (ag_argv [x70]) = Ok (r, log).
Proof. do 2 eexists. split; [apply ag_padded|]. split; [exact ag_short|]. vm_compute. reflexivity. Qed.

Lemma ex_c85_no_steps : exists url file,
  apt_main (ag_world None true [Some x00]) (ag_argv [x70]) = Ok (0%Z, [AWeb url TEMPORARY_DIR; AOpen file]).
Proof. do 2 eexists. vm_compute. reflexivity. Qed.
Lemma ex_c85_not_moved : exists url file,
  apt_main (ag_world (Some ag_steps) false [Some x00]) (ag_argv [x70]) =
    Ok (0%Z, [AWeb url TEMPORARY_DIR; AOpen file; ADelete file; AMove TEMPORARY_DIR ag_root]) /\
  w_move (ag_world (Some ag_steps) false [Some x00]) TEMPORARY_DIR ag_root = false.
Proof. do 2 eexists. split; [vm_compute; reflexivity|reflexivity]. Qed.

Lemma ex_c86_cut : exists url file, key_value ROOT_KEY ag_long (repeat x61 500) /\ key_value RUN_KEY ag_long (repeat x62 513) /\
  lenN ag_long = 1023 /\
  apt_main (ag_world (Some ag_long) true [Some x00]) (ag_argv [x70]) =
    Ok (0%Z, [AWeb url TEMPORARY_DIR; AOpen file; ADelete file; AMove TEMPORARY_DIR (repeat x61 500);
      AStart (repeat x61 500 ++ [backslash] ++ repeat x62 513 ++ [x20;x2f;x49;x6e;x73;x74;x61;x6c]); AWait]).
Proof.
  do 2 eexists. split; [apply ag_long_values|]. split; [apply ag_long_values|]. split; vm_compute; reflexivity.
Qed.
Lemma ex_c86 : exists url file, key_value ROOT_KEY ag_steps ag_root /\ key_value RUN_KEY ag_steps ag_run /\ lenN ag_steps <= 1023 /\
  ~ In x00 ag_steps /\ ag_root <> TEMPORARY_DIR /\ lenN ag_root + lenN ag_run <= 1012 /\
  apt_main (ag_world (Some ag_steps) true [Some x00]) (ag_argv [x70]) =
    Ok (0%Z, [AWeb url TEMPORARY_DIR; AOpen file; ADelete file; AMove TEMPORARY_DIR ag_root;
      AStart (ag_root ++ [backslash] ++ ag_run ++ [x20;x2f;x49;x6e;x73;x74;x61;x6c;x6c]); AWait]).
Proof.
  do 2 eexists. split; [exact ag_root_value|]. split; [exact ag_run_value|]. split; [vm_compute; discriminate|].
  split; [vm_compute; intuition discriminate|]. split; [discriminate|]. split; [vm_compute; discriminate|]. vm_compute. reflexivity.
Qed.
