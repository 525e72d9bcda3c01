(** MkdirMoreExamples.v: results of MkdirRecurseInline on concrete file systems. *)
From Verif Require Import Base Format Zlib Parser Decompress FS FSFacts HL HLSpec HLFacts HLProps MkdirFacts HLExamples MkdirMore.

(** An unprivileged process in /w, which it cannot write; /w/a can be written. *)
Definition mm_fs : fstree := fun p =>
  if path_eqb p [] then Some (IDir 493) else if path_eqb p [[x77]] then Some (IDir 365)
  else if path_eqb p [[x77];[x61]] then Some (IDir 493) else None.
Definition mm_os : os := OS mm_fs 1000 [[x77]] 18 false [] 3.
Definition mm_long : bytes := repeat x79 256.

(** [B]: the path of the call; [q]: looked up afterwards. *)
Definition mm_test (o : os) (B : bytes) (r : Z) (dir : bool) (q : path) : bool :=
  match exec (mkdir_recurse true B 493) o with
  | Ok (r', o') => (r' =? r)%Z && Bool.eqb (match namei true o' B with WDir _ | WAt _ _ (Some (IDir _)) => true | _ => false end) dir &&
      match o_fs o q, o_fs o' q with None, Some (IDir m) => m =? 493 | _, _ => false end
  | _ => false
  end.
Lemma mm_ok o B r dir q : mm_test o B r dir q = true ->
  exists o', exec (mkdir_recurse true B 493) o = Ok (r, o') /\ (if dir then is_dir o' B else ~ is_dir o' B) /\ o_fs o q = None /\ o_fs o' q = Some (IDir 493).
Proof.
  unfold mm_test. destruct (exec (mkdir_recurse true B 493) o) as [[r' o']| |]; [|discriminate|discriminate]. intro H.
  apply Bool.andb_true_iff in H. destruct H as [H H3]. apply Bool.andb_true_iff in H. destruct H as [H1 H2]. apply Z.eqb_eq in H1. subst r'.
  apply Bool.eqb_prop in H2. exists o'. split; [reflexivity|]. split.
  - subst dir. unfold is_dir. destruct (namei true o' B) as [er|d|d c [[m|m x|x]|]]; try (intros [[? Q]|(? & ? & ? & Q)]; discriminate Q); eauto.
  - destruct (o_fs o q); [discriminate|]. split; [reflexivity|]. destruct (o_fs o' q) as [[m| |]|]; try discriminate. apply N.eqb_eq in H3. now subst m.
Qed.

Lemma ex_c121 : exists o B o' , ~ In x00 B /\ exec (mkdir_recurse true B 493) o = Ok (0%Z, o') /\ ~ is_dir o' B.
Proof.
  destruct (mm_ok mm_os [x61;x5c;x62] 0%Z false [[x77];[x61];[x62]]) as (o' & E & D & _); [vm_compute; reflexivity|].
  exists mm_os, [x61;x5c;x62], o'. split; [|split; [exact E|exact D]]. intros [Q|[Q|[Q|[]]]]; discriminate Q.
Qed.
Lemma ex_c121_case : exists o', ~ In x5c [x61;x2f;x62] /\ exec (mkdir_recurse true [x61;x2f;x62] 493) mm_os = Ok (0%Z, o') /\ is_dir o' [x61;x2f;x62] /\
  is_dir mm_os [x61].
Proof.
  destruct (mm_ok mm_os [x61;x2f;x62] 0%Z true [[x77];[x61];[x62]]) as (o' & E & D & _); [vm_compute; reflexivity|].
  exists o'. split; [intros [Q|[Q|[Q|[]]]]; discriminate Q|]. split; [exact E|]. split; [exact D|].
  right. exists [[x77]], [x61], 493. vm_compute. reflexivity.
Qed.
Lemma ex_c122 : exists o', exec (mkdir_recurse true [x78;x2f;x79] 493) (hx_os 1000) = Ok (0%Z, o') /\
  o_fs (hx_os 1000) [[x77];[x78]] = None /\ o_fs o' [[x77];[x78]] = Some (IDir 493).
Proof.
  destruct (mm_ok (hx_os 1000) [x78;x2f;x79] 0%Z true [[x77];[x78]]) as (o' & E & D & Q1 & Q2); [vm_compute; reflexivity|]. exists o'. auto.
Qed.
Lemma ex_c123 : exists o B o', ~ In x00 B /\ exec (mkdir_recurse true B 493) o = Ok ((-1)%Z, o') /\
  exists q, o_fs o q = None /\ o_fs o' q <> None.
Proof.
  destruct (mm_ok (hx_os 1000) ([x78;x2f] ++ mm_long) (-1)%Z false [[x77];[x78]]) as (o' & E & D & Q1 & Q2); [vm_compute; reflexivity|].
  exists (hx_os 1000), ([x78;x2f] ++ mm_long), o'. split; [|split; [exact E|exists [[x77];[x78]]; split; [exact Q1|congruence]]].
  intro Q. apply in_app_iff in Q. destruct Q as [[Q|[Q|[]]]|Q]; try discriminate Q. apply repeat_spec in Q. discriminate Q.
Qed.
Lemma ex_c123_case : dir_at (hx_os 1000) [x2f] [] /\ exec (mkdir_recurse true ([x2f] ++ x2f :: mm_long) 493) (hx_os 1000) = Ok ((-1)%Z, hx_os 1000).
Proof.
  split.
  - split; [discriminate|]. split; [exists 493; split; reflexivity|]. left. vm_compute. reflexivity.
  - vm_compute. reflexivity.
Qed.
