(** WinExamples.v: concrete runs of the Windows branches. *)
From Verif Require Import Base HL HLFacts WinTools WinFacts.

(** The current directory holds the file f and the directory d. *)
Definition wx_fs : wtree := fun p => if wpath_eqb p [[x66]] then Some WnFile else if wpath_eqb p [[x64]] then Some WnDir else None.
Definition wx_any (p : list bytes) : bool := false.
Definition wnode_eqb (a b : option wnode) : bool :=
  match a, b with None, None | Some WnDir, Some WnDir | Some WnFile, Some WnFile => true | _, _ => false end.
Lemma wnode_eqb_ok a b : wnode_eqb a b = true -> a = b.
Proof. destruct a as [[]|], b as [[]|]; cbn; congruence. Qed.

Definition wx_run (r : outcome (Z * wtree)) (v : Z) (P : wtree -> bool) : bool := match r with Ok (x, fs) => (x =? v)%Z && P fs | _ => false end.
Lemma wx_run_ok r v P : wx_run r v P = true -> exists fs, r = Ok (v, fs) /\ P fs = true.
Proof.
  unfold wx_run. destruct r as [[x fs]| |]; [|discriminate|discriminate]. intro H. apply andb_prop in H. destruct H as [H1 H2].
  apply Z.eqb_eq in H1. subst x. exists fs. auto.
Qed.

Lemma wx_two r (g : wtree -> outcome (Z * wtree)) p :
  wx_run r 0 (fun fs1 => wx_run (g fs1) 0 (fun fs2 => wnode_eqb (fs2 p) (Some WnDir))) = true ->
  exists fs1, r = Ok (0%Z, fs1) /\ exists fs2, g fs1 = Ok (0%Z, fs2) /\ fs2 p = Some WnDir.
Proof.
  intro H. destruct (wx_run_ok _ _ _ H) as (fs1 & E1 & H1). destruct (wx_run_ok _ _ _ H1) as (fs2 & E2 & H2).
  exists fs1. split; [exact E1|]. exists fs2. split; [exact E2|]. now apply wnode_eqb_ok.
Qed.

(** d/a\b: a can be created, then b; but not by one call. *)
Lemma ex_c117_mixed : (exists fs1, wmkdir_recurse wx_any [x64;x5c;x61] wx_fs = Ok (0%Z, fs1) /\
    exists fs2, wmkdir_recurse wx_any [x64;x2f;x61;x5c;x62] fs1 = Ok (0%Z, fs2) /\ fs2 [[x64];[x61];[x62]] = Some WnDir) /\
  exists fs', wmkdir_recurse wx_any [x64;x2f;x61;x5c;x62] wx_fs = Ok ((-1)%Z, fs') /\ fs' [[x64];[x61]] = None.
Proof.
  split.
  - apply (wx_two (wmkdir_recurse wx_any [x64;x5c;x61] wx_fs) (wmkdir_recurse wx_any [x64;x2f;x61;x5c;x62]) [[x64];[x61];[x62]]). vm_compute. reflexivity.
  - destruct (wx_run_ok (wmkdir_recurse wx_any [x64;x2f;x61;x5c;x62] wx_fs) (-1) (fun fs => wnode_eqb (fs [[x64];[x61]]) None)) as (fs & E & H);
      [vm_compute; reflexivity|]. exists fs. split; [exact E|]. now apply wnode_eqb_ok.
Qed.
(** d\a\b\c with d\a missing. *)
Lemma ex_c117 : uniform x5c [x64;x5c;x61] /\ ~ In x00 [x64;x5c;x61] /\ wcomps [x64;x5c;x61] = [[x64];[x61]] /\ Forall wname [[x62];[x63]] /\
  wdir wx_fs (removelast (wcomps [x64;x5c;x61])) = true /\ (forall r, wx_fs (wcomps [x64;x5c;x61] ++ r) = None) /\
  spelled x5c [x64;x5c;x61] [[x62];[x63]] = [x64;x5c;x61;x5c;x62;x5c;x63] /\
  exists fs', wmkdir_recurse wx_any [x64;x5c;x61;x5c;x62;x5c;x63] wx_fs = Ok (0%Z, fs') /\ fs' [[x64];[x61];[x62];[x63]] = Some WnDir.
Proof.
  split; [right; split; [reflexivity|cbn; intuition discriminate]|]. split; [cbn; intuition discriminate|]. split; [reflexivity|].
  split; [repeat apply Forall_cons; try apply Forall_nil; (split; [discriminate|]; cbn; intuition discriminate)|].
  split; [reflexivity|]. split; [intro r; reflexivity|]. split; [reflexivity|].
  destruct (wx_run_ok (wmkdir_recurse wx_any [x64;x5c;x61;x5c;x62;x5c;x63] wx_fs) 0 (fun fs => wnode_eqb (fs [[x64];[x61];[x62];[x63]]) (Some WnDir)))
    as (fs & E & H); [vm_compute; reflexivity|]. exists fs. split; [exact E|]. now apply wnode_eqb_ok.
Qed.

(** f is a file. *)
Lemma ex_c118_file : wmkdir_recurse wx_any [x66] wx_fs = Ok (1%Z, wx_fs) /\ wx_fs [[x66]] = Some WnFile.
Proof. split; reflexivity. Qed.
Lemma ex_c118 : ~ In x00 [x64;x5c] /\ wmkdir_recurse wx_any [x64;x5c] wx_fs = Ok (1%Z, wx_fs) /\
  ~ In x00 [x64;x2f;x61] /\ exists fs', wmkdir_recurse wx_any [x64;x2f;x61] wx_fs = Ok (0%Z, fs') /\ fs' [[x64];[x61]] = Some WnDir.
Proof.
  split; [cbn; intuition discriminate|]. split; [reflexivity|]. split; [cbn; intuition discriminate|].
  destruct (wx_run_ok (wmkdir_recurse wx_any [x64;x2f;x61] wx_fs) 0 (fun fs => wnode_eqb (fs [[x64];[x61]]) (Some WnDir))) as (fs & E & H); [vm_compute; reflexivity|].
  exists fs. split; [exact E|]. now apply wnode_eqb_ok.
Qed.

Definition wx_rm (r : outcome wtree) (P : wtree -> bool) : bool := match r with Ok fs => P fs | _ => false end.
Lemma wx_rm_ok r P : wx_rm r P = true -> exists fs, r = Ok fs /\ P fs = true.
Proof. destruct r as [fs| |]; [|discriminate|discriminate]. intro H. now exists fs. Qed.

(** The file "main.ico" and the directory ".out_dir" with "maind.exe". *)
Definition wx_icon : bytes := [x6d;x61;x69;x6e;x2e;x69;x63;x6f].
Definition wx_maind : bytes := [x6d;x61;x69;x6e;x64;x2e;x65;x78;x65].
Definition wx_fs2 : wtree := fun p =>
  if wpath_eqb p [wx_icon] then Some WnFile else if wpath_eqb p [out_folder] then Some WnDir else
  if wpath_eqb p [out_folder; wx_maind] then Some WnFile else None.
(** The literal "main.ico" of line 35 follows the literal ".out_dir" in memory. *)
Lemma ex_c119_more : exists fs', wremove (wx_icon ++ [x00; x00]) wx_fs2 = Ok fs' /\ wx_fs2 [wx_icon] = Some WnFile /\ fs' [wx_icon] = None.
Proof.
  destruct (wx_rm_ok (wremove (wx_icon ++ [x00; x00]) wx_fs2) (fun fs => wnode_eqb (fs [wx_icon]) None)) as (fs & E & H); [vm_compute; reflexivity|].
  exists fs. split; [exact E|]. split; [reflexivity|]. now apply wnode_eqb_ok.
Qed.
Lemma ex_c119_end : wremove [] wx_fs2 = UB.
Proof. vm_compute. reflexivity. Qed.
Lemma ex_c119 : exists fs', wremove [x00;x70] wx_fs2 = Ok fs' /\ wx_fs2 [out_folder; wx_maind] = Some WnFile /\
  fs' [out_folder; wx_maind] = None /\ fs' [wx_icon] = Some WnFile.
Proof.
  destruct (wx_rm_ok (wremove [x00;x70] wx_fs2) (fun fs => wnode_eqb (fs [out_folder; wx_maind]) None && wnode_eqb (fs [wx_icon]) (Some WnFile)))
    as (fs & E & H); [vm_compute; reflexivity|]. apply andb_prop in H. destruct H as [H1 H2].
  exists fs. split; [exact E|]. split; [reflexivity|]. split; now apply wnode_eqb_ok.
Qed.
