(** IconFacts.v: lemmas and concrete cases about setting icons (C87 to C89). *)
From Coq Require Import Lia.
From Verif Require Import Base AptGet Icon.

(** ** Specification *)

(** An icon file with one image: reserved, type, count, then width, height, colours, reserved, planes, bits per pixel, size of
    the image and its offset, then the image. *)
Definition icon_file (w h : byte) (colours planes bits : N) (image : bytes) : bytes :=
  le_enc 2 0 ++ le_enc 2 1 ++ le_enc 2 1 ++ [w; h] ++ le_enc 1 colours ++ [x00] ++ le_enc 2 planes ++ le_enc 2 bits ++
  le_enc 4 (lenN image) ++ le_enc 4 22 ++ image.
(** The group entry for it: the same fields, then the number of the icon instead of the offset. *)
Definition group_entry (w h : byte) (colours planes bits : N) (image : bytes) (id : N) : bytes :=
  le_enc 2 0 ++ le_enc 2 1 ++ le_enc 2 1 ++ [w; h] ++ le_enc 1 colours ++ [x00] ++ le_enc 2 planes ++ le_enc 2 bits ++
  le_enc 4 (lenN image) ++ le_enc 4 id.

(** ** Lemmas *)

Lemma icon_safe W p : (forall size, iw_size W = Some size -> 22 <= size) -> set_icon W p <> UB.
Proof.
  intro H. unfold set_icon. destruct (iw_file W) as [data|]; [|discriminate]. destruct (iw_size W) as [size|]; [|discriminate].
  rewrite (proj2 (N.ltb_ge _ _) (H _ eq_refl)).
  destruct (iw_malloc W), (iw_begin W), (iw_icon W), (iw_group W); discriminate.
Qed.

Lemma icon_unchanged W p r p' : set_icon W p = Ok (r, p') -> (r = 0%Z -> False) -> (iw_icon W = true -> iw_group W = true) -> p' = p.
Proof.
  unfold set_icon, end_update. intros H Hr Hg. destruct (iw_file W) as [data|]; [|congruence]. destruct (iw_size W) as [size|]; [|congruence].
  destruct (iw_malloc W), (iw_begin W); cbn [negb] in H; try congruence. destruct (size <? 22); [discriminate H|].
  destruct (iw_icon W); cbn [negb] in H.
  - rewrite (Hg eq_refl) in H. cbn [negb] in H. exfalso. apply Hr. congruence.
  - destruct (iw_end W); congruence.
Qed.

Lemma ok_snd A B (a : A) (b c : B) : Ok (a, b) = Ok (a, c) -> c = b.
Proof. intro H. injection H as ->. reflexivity. Qed.
Lemma icon_set W p p' w h colours planes bits image : iw_file W = Some (icon_file w h colours planes bits image) ->
  iw_size W = Some (lenN (icon_file w h colours planes bits image)) -> lenN image < two32 - 22 -> iw_end W = true ->
  set_icon W p = Ok (0%Z, p') ->
  p' RIcon = Some (map Some image) /\ p' RGroup = Some (map Some (group_entry x20 x20 0 2 32 image 1)).
Proof.
  intros Ef Es L Ee H. unfold set_icon, end_update in H. rewrite Ef, Es, Ee in H.
  set (f := icon_file w h colours planes bits image) in *.
  assert (Lf : lenN f = 22 + lenN image).
  { unfold f, icon_file. rewrite !lenN_app. change (lenN (le_enc 2 0)) with 2. change (lenN (le_enc 2 1)) with 2.
    change (lenN [w; h]) with 2. change (lenN [x00]) with 1. change (lenN (le_enc 1 colours)) with 1.
    change (lenN (le_enc 2 planes)) with 2. change (lenN (le_enc 2 bits)) with 2. change (lenN (le_enc 4 (lenN image))) with 4.
    change (lenN (le_enc 4 22)) with 4. lia. }
  destruct (iw_malloc W), (iw_begin W); cbn [negb] in H; try discriminate H.
  rewrite (proj2 (N.ltb_ge _ _)) in H by lia. destruct (iw_icon W), (iw_group W); cbn [negb] in H; try discriminate H.
  apply ok_snd in H. subst p'. rewrite takeN_all by lia. rewrite N.sub_diag. cbn [N.to_nat repeat]. rewrite app_nil_r. cbn [put]. split.
  - f_equal. replace f with ((le_enc 2 0 ++ le_enc 2 1 ++ le_enc 2 1 ++ [w; h] ++ le_enc 1 colours ++ [x00] ++ le_enc 2 planes ++
      le_enc 2 bits ++ le_enc 4 (lenN image) ++ le_enc 4 22) ++ image) by (unfold f, icon_file; rewrite <- !app_assoc; reflexivity).
    rewrite map_app. apply dropN_app_exact. reflexivity.
  - do 2 f_equal. unfold icon_entry, group_entry. replace (u32 (sub64 (lenN f) 22)) with (lenN image); [reflexivity|].
    rewrite Lf. unfold u32, sub64, two32, two64 in *. lia.
Qed.

(** ** Concrete cases *)

Definition ic_world (file : bytes) (size : N) (group fin : bool) : iworld := IWorld (Some file) (Some size) true true true group fin.
Definition ic_prog : program := fun _ => None.
Definition ic_file : bytes := icon_file x20 x20 0 2 32 [x41; x42].

Lemma ex_c87_short : set_icon (ic_world [x41] 1 true true) ic_prog = UB.
Proof. vm_compute. reflexivity. Qed.
Lemma ex_c87 : exists p', (forall size, iw_size (ic_world ic_file 24 true true) = Some size -> 22 <= size) /\
  set_icon (ic_world ic_file 24 true true) ic_prog = Ok (0%Z, p').
Proof. eexists. split; [intros size H; injection H as <-; vm_compute; discriminate|]. vm_compute. reflexivity. Qed.
Lemma ex_c88_half : exists p', set_icon (ic_world ic_file 24 false true) ic_prog = Ok (1%Z, p') /\
  p' RIcon = Some [Some x41; Some x42] /\ p' RGroup = None /\ ic_prog RIcon = None.
Proof. eexists. split; [vm_compute; reflexivity|]. split; [reflexivity|]. split; reflexivity. Qed.
Lemma ex_c88_not_written : exists p', set_icon (ic_world ic_file 24 true false) ic_prog = Ok (0%Z, p') /\
  p' RIcon = None /\ p' RGroup = None.
Proof. eexists. split; [vm_compute; reflexivity|]. split; reflexivity. Qed.
Lemma ex_c88 : exists p', set_icon (IWorld (Some ic_file) (Some 24) true true false true true) ic_prog = Ok (1%Z, p') /\ p' RIcon = ic_prog RIcon.
Proof. eexists. split; [vm_compute; reflexivity|]. reflexivity. Qed.
(** An icon of 48 by 48 pixels. *)
Lemma ex_c89_size : exists p', set_icon (ic_world (icon_file x30 x30 0 1 32 [x41; x42]) 24 true true) ic_prog = Ok (0%Z, p') /\
  p' RGroup = Some (map Some (group_entry x20 x20 0 2 32 [x41; x42] 1)) /\
  p' RGroup <> Some (map Some (group_entry x30 x30 0 1 32 [x41; x42] 1)).
Proof. eexists. split; [vm_compute; reflexivity|]. split; [vm_compute; reflexivity|]. vm_compute. discriminate. Qed.
(** The file became shorter after fstat: contents of memory get into the program. *)
Lemma ex_c89_memory : exists p', set_icon (ic_world ic_file 25 true true) ic_prog = Ok (0%Z, p') /\
  p' RIcon = Some [Some x41; Some x42; None].
Proof. eexists. split; vm_compute; reflexivity. Qed.
Lemma ex_c89 : exists p', iw_file (ic_world ic_file 24 true true) = Some ic_file /\ iw_size (ic_world ic_file 24 true true) = Some (lenN ic_file) /\
  set_icon (ic_world ic_file 24 true true) ic_prog = Ok (0%Z, p') /\ p' RIcon = Some [Some x41; Some x42] /\
  p' RGroup = Some (map Some (group_entry x20 x20 0 2 32 [x41; x42] 1)).
Proof. eexists. split; [reflexivity|]. split; [vm_compute; reflexivity|]. split; [vm_compute; reflexivity|]. split; vm_compute; reflexivity. Qed.
