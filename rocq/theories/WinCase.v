(** WinCase.v: which names are one name on Windows. *)
From Coq Require Import String.
From Verif Require Import Base WinExtract WinExtractSpec.

(** The letters, each with its small form. *)
Definition LARGE : bytes := list_byte_of_string "ABCDEFGHIJKLMNOPQRSTUVWXYZ".
Definition SMALL : bytes := list_byte_of_string "abcdefghijklmnopqrstuvwxyz".
Inductive same_letter : byte -> byte -> Prop :=
| sl_same c : same_letter c c
| sl_small k a b : nth_error LARGE k = Some a -> nth_error SMALL k = Some b -> same_letter a b
| sl_large k a b : nth_error LARGE k = Some a -> nth_error SMALL k = Some b -> same_letter b a.

Definition pairs : list (byte * byte) := combine LARGE SMALL.
Definition letterb (a b : byte) : bool := byte_eqb a b || existsb (fun p => byte_eqb (fst p) a && byte_eqb (snd p) b || byte_eqb (fst p) b && byte_eqb (snd p) a) pairs.
Lemma pairs_nth (l1 : bytes) : forall (l2 : bytes) a b, In (a, b) (combine l1 l2) <-> exists k, nth_error l1 k = Some a /\ nth_error l2 k = Some b.
Proof.
  induction l1 as [|x l1 IH]; intros [|y l2] a b; cbn [combine In].
  - split; [intros []|]. intros ([|k] & A & B); discriminate A.
  - split; [intros []|]. intros ([|k] & A & B); discriminate A.
  - split; [intros []|]. intros ([|k] & A & B); discriminate B.
  - rewrite IH. split.
    + intros [E|(k & A & B)]; [injection E as <- <-; now exists 0%nat|]. now exists (S k).
    + intros ([|k] & A & B); cbn [nth_error] in A, B; [left; congruence|]. right. now exists k.
Qed.
Lemma letterb_ok a b : letterb a b = true <-> same_letter a b.
Proof.
  unfold letterb. rewrite orb_true_iff, existsb_exists, byte_eqb_spec. split.
  - intros [->|([x y] & Hi & H)]; [constructor|]. cbn [fst snd] in H. apply pairs_nth in Hi. destruct Hi as (k & A & B). apply orb_prop in H.
    destruct H as [H|H]; apply andb_prop in H; destruct H as [H1 H2]; apply byte_eqb_spec in H1, H2; subst; [exact (sl_small k _ _ A B)|exact (sl_large k _ _ A B)].
  - intros [c|k x y A B|k x y A B]; [now left| |]; right; exists (x, y); (split; [apply pairs_nth; now exists k|]); cbn [fst snd]; apply orb_true_iff;
    [left|right]; apply andb_true_iff; split; now apply byte_eqb_spec.
Qed.
Definition all_bytes : list byte := map val_byte (map N.of_nat (seq 0 256)).
Lemma all_bytes_in c : In c all_bytes.
Proof. apply (nth_error_In _ (N.to_nat (byte_val c))). destruct c; vm_compute; reflexivity. Qed.
Lemma lower_letter a b : lower a = lower b <-> same_letter a b.
Proof.
  rewrite <- letterb_ok. assert (H : forallb (fun x => forallb (fun y => Bool.eqb (byte_eqb (lower x) (lower y)) (letterb x y)) all_bytes) all_bytes = true) by (vm_compute; reflexivity).
  rewrite forallb_forall in H. specialize (H a (all_bytes_in a)). rewrite forallb_forall in H. specialize (H b (all_bytes_in b)). apply Bool.eqb_prop in H.
  rewrite <- H. symmetry. apply byte_eqb_spec.
Qed.
Lemma fold_letters n : forall m, fold_case n = fold_case m <-> Forall2 same_letter n m.
Proof.
  unfold fold_case. induction n as [|a n IH]; intros [|c m]; cbn [map].
  - split; constructor.
  - split; intro H; [discriminate H|inversion H].
  - split; intro H; [discriminate H|inversion H].
  - split; intro H.
    + injection H as H1 H2. constructor; [now apply lower_letter|now apply IH].
    + inversion H as [|? ? ? ? H1 H2]; subst. f_equal; [now apply lower_letter|now apply IH].
Qed.
Lemma ex_letters : Forall2 same_letter (list_byte_of_string "aZ1.-") (list_byte_of_string "Az1.-") /\ ~ Forall2 same_letter (list_byte_of_string "[") (list_byte_of_string "{").
Proof. split; [apply fold_letters; reflexivity|]. intro H. apply fold_letters in H. discriminate H. Qed.
