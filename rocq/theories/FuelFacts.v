(** FuelFacts.v: a run that ends does not depend on the fuel. *)
From Coq Require Import Lia.
From Verif Require Import Base Format Zlib Parser Decompress FS FSFacts HL LinkMore.

(** [a] is the outcome of a run, [a'] the outcome with more fuel. *)
Definition refines {A} (a a' : outcome A) : Prop := a <> NoFuel -> a' = a.
Lemma refines_refl {A} (a : outcome A) : refines a a. Proof. now intros _. Qed.
Lemma refines_bind {A B} (a a' : outcome A) (k k' : A -> outcome B) : refines a a' -> (forall x, refines (k x) (k' x)) -> refines (obind a k) (obind a' k').
Proof.
  intros H K Hn. destruct a as [x| |]; cbn [obind] in *.
  - rewrite (H (fun Q => ltac:(discriminate Q))). cbn [obind]. now apply K.
  - now rewrite (H (fun Q => ltac:(discriminate Q))).
  - congruence.
Qed.

Section Run.
Context {z : zlib} (e : endian) (alloc : N -> N -> bool).
Lemma run_more f : forall f' m flush (s : dsess z), (f <= f')%nat -> refines (run e alloc f m flush s) (run e alloc f' m flush s).
Proof.
  induction f as [|f IH]; intros f' m flush s Hf; [intro Q; now destruct Q|]. destruct f' as [|f']; [lia|]. assert (Hf' : (f <= f')%nat) by lia.
  cbn [run]. destruct (_ || _); [apply refines_refl|]. apply refines_bind; [apply refines_refl|]. intros [ret s1].
  destruct (negb _); [apply refines_refl|]. apply refines_bind.
  - destruct (d_cb s1); try apply refines_refl. apply refines_bind; [apply refines_refl|]. intros [[|] s2]; [|apply refines_refl].
    apply refines_bind; [now apply IH|]. intros [[? ?] ?]. apply refines_refl.
  - intros [s3 evs]. apply refines_bind; [now apply IH|]. intros [[? ?] ?]. apply refines_refl.
Qed.
Lemma decompress_more f f' flush d (s : dsess z) : (f <= f')%nat -> refines (decompress e alloc f flush d s) (decompress e alloc f' flush d s).
Proof. intro H. unfold decompress. destruct (d_inited s); now apply run_more. Qed.
Lemma run_dops_more f f' ops : (f <= f')%nat -> forall s : dsess z, refines (run_dops e alloc f s ops) (run_dops e alloc f' s ops).
Proof.
  intro Hf. induction ops as [|[fl d|b n] r IH]; intro s; cbn [run_dops]; [apply refines_refl| |apply IH].
  apply refines_bind; [now apply decompress_more|]. intros [[ret s1] ev1]. apply refines_bind; [apply IH|]. intros [[? ?] ?]. apply refines_refl.
Qed.
Lemma calls_more al obuf hjunk pjunk f f' fuel archive inp (q : dsess z) evs : (f <= f')%nat ->
  calls z e alloc al obuf hjunk pjunk f fuel archive inp q evs -> calls z e alloc al obuf hjunk pjunk f' fuel archive inp q evs.
Proof.
  intros Hf (s0 & rets & Hc & H). exists s0, rets. split; [exact Hc|]. rewrite <- H. apply (run_dops_more f f' _ Hf s0). intro Q. rewrite H in Q. discriminate Q.
Qed.
End Run.

Definition exec_more {A} (p p' : prog A) : Prop := forall o, refines (exec p o) (exec p' o).
Lemma exec_more_refl {A} (p : prog A) : exec_more p p. Proof. intro o. apply refines_refl. Qed.
Lemma exec_more_bind {A B} (p p' : prog A) (k k' : A -> prog B) : exec_more p p' -> (forall x, exec_more (k x) (k' x)) -> exec_more (pbind p k) (pbind p' k').
Proof. intros H K o. rewrite !exec_bind. apply refines_bind; [apply H|]. intros [a o1]. apply K. Qed.
Lemma exec_more_lift {A} (a a' : outcome A) : refines a a' -> exec_more (plift a) (plift a').
Proof. intros H o Hn. destruct a as [x| |]; cbn [plift exec] in *; [| |congruence]; rewrite H by discriminate; reflexivity. Qed.

Section Ex.
Context (T : bytes) (hal : N -> bool) (stk : N) (z : zlib) (e : endian) (alloc : N -> N -> bool) (archive : N).
Lemma extract_loop_more fuel : forall fuel' df df' inp rderr total idx (s : dsess z) h, (fuel <= fuel')%nat -> (df <= df')%nat ->
  exec_more (extract_loop T hal stk z e alloc archive fuel df inp rderr total idx s h) (extract_loop T hal stk z e alloc archive fuel' df' inp rderr total idx s h).
Proof.
  induction fuel as [|fuel IH]; intros fuel' df df' inp rderr total idx s h Hf Hd; [intros o Q; now destruct Q|]. destruct fuel' as [|fuel']; [lia|].
  cbn [extract_loop]. destruct (_ <? 1); [apply exec_more_refl|]. destruct (_ && rderr); [apply exec_more_refl|].
  apply exec_more_bind; [apply exec_more_lift; now apply decompress_more|]. intros [[ret s1] evs]. apply exec_more_bind; [apply exec_more_refl|]. intro h1.
  destruct (_ || h_err h1); [apply exec_more_refl|]. apply exec_more_bind; [apply IH; [lia|exact Hd]|]. intros [[[ok s2] h2] ds]. apply exec_more_refl.
Qed.
Lemma extract_more fuel fuel' df df' al obuf hjunk pjunk inp rderr : (fuel <= fuel')%nat -> (df <= df')%nat ->
  exec_more (extract T hal stk z e alloc archive fuel df al obuf hjunk pjunk inp rderr) (extract T hal stk z e alloc archive fuel' df' al obuf hjunk pjunk inp rderr).
Proof.
  intros Hf Hd. unfold extract. destruct (_ || _); [apply exec_more_refl|]. destruct (create _ _ _ _ _ _) as [s0|]; [|apply exec_more_refl].
  apply exec_more_bind; [now apply extract_loop_more|]. intros [[[ok s] h] ds]. apply exec_more_refl.
Qed.
Lemma extract_ended fuel fuel' df df' al obuf hjunk pjunk inp rderr o r : exec (extract T hal stk z e alloc archive fuel df al obuf hjunk pjunk inp rderr) o = Ok r ->
  (fuel <= fuel')%nat -> (df <= df')%nat -> exec (extract T hal stk z e alloc archive fuel' df' al obuf hjunk pjunk inp rderr) o = Ok r.
Proof.
  intros H Hf Hd. pose proof (extract_more fuel fuel' df df' al obuf hjunk pjunk inp rderr Hf Hd o) as R. unfold refines in R. rewrite H in R. apply R. discriminate.
Qed.
End Ex.
