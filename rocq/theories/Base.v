(** Base.v: byte strings, sizes, little endian codecs and outcomes.
    General vocabulary used by all the other files; nothing here is specific to
    one C file except where a definition says so. *)
From Coq Require Export List NArith ZArith Bool Lia.
From Coq Require Export ZifyBool ZifyNat ZifyN.
From Coq Require Export Strings.Byte.
Export ListNotations.
Ltac Zify.zify_post_hook ::= Z.div_mod_to_equations.

Open Scope list_scope.
Open Scope N_scope.

(** Byte strings.  C: [char]/[Bytef] arrays. *)
Notation bytes := (list byte).

(** Widths of [uInt]/[uint32_t] (32 bits) and [size_t]/[uint64_t] (64 bits), LP64. *)
Definition two32 : N := 4294967296.
Definition two64 : N := 18446744073709551616.
(** C cast to [uInt] / [uint32_t]. *)
Definition u32 (n : N) : N := n mod two32.
(** C cast to [size_t] / [uint64_t]. *)
Definition u64 (n : N) : N := n mod two64.
(** C subtraction on [uint32_t] (arguments below 2^32). *)
Definition sub32 (a b : N) : N := (a + two32 - b) mod two32.
(** C subtraction on [uint64_t]/[size_t] (arguments below 2^64). *)
Definition sub64 (a b : N) : N := (a + two64 - b) mod two64.

Definition lenN {A} (l : list A) : N := N.of_nat (length l).

(** First [n] elements, [n] a (possibly huge, untrusted) [N]. *)
Fixpoint takeN {A} (n : N) (l : list A) : list A :=
  match l with
  | [] => []
  | x :: r => if n =? 0 then [] else x :: takeN (N.pred n) r
  end.

Fixpoint dropN {A} (n : N) (l : list A) : list A :=
  match l with
  | [] => []
  | x :: r => if n =? 0 then x :: r else dropN (N.pred n) r
  end.

(** [memcpy(mem+off, data, |data|)] on a memory block given by its contents; the caller checks
    bounds. *)
Definition write_at (off : N) (data mem : bytes) : bytes :=
  takeN off mem ++ data ++ dropN (off + lenN data) mem.

Definition slice {A} (off len : N) (l : list A) : list A := takeN len (dropN off l).

Definition nul : byte := x00.
(** [s_vcDummyBuffer] style zero fill. *)
Definition zeros (n : N) : bytes := repeat x00 (N.to_nat n).

Definition byte_val (b : byte) : N := Byte.to_N b.
Definition val_byte (n : N) : byte :=
  match Byte.of_N (n mod 256) with Some b => b | None => x00 end.

(** Little endian encoding in [k] bytes, and decoding. *)
Fixpoint le_enc (k : nat) (v : N) : bytes :=
  match k with
  | O => []
  | S k' => val_byte v :: le_enc k' (v / 256)
  end.

Fixpoint le_dec (l : bytes) : N :=
  match l with
  | [] => 0
  | b :: r => byte_val b + 256 * le_dec r
  end.

(** Outcome of executing C code.  [UB]: undefined behaviour or a failed assertion was reached.
    [NoFuel]: the fuel given to the interpreter did not suffice (not a result of the program). *)
Inductive outcome (A : Type) : Type :=
| Ok (a : A)
| UB
| NoFuel.
Arguments Ok {A} a.
Arguments UB {A}.
Arguments NoFuel {A}.

Definition obind {A B} (o : outcome A) (f : A -> outcome B) : outcome B :=
  match o with Ok a => f a | UB => UB | NoFuel => NoFuel end.
Notation "'do' x <- o ; k" := (obind o (fun x => k))
  (at level 200, x pattern, o at level 100, k at level 200, right associativity).

Definition byte_eqb (a b : byte) : bool := Byte.eqb a b.
Fixpoint bytes_eqb (a b : bytes) : bool :=
  match a, b with
  | [], [] => true
  | x :: a', y :: b' => byte_eqb x y && bytes_eqb a' b'
  | _, _ => false
  end.

(** [a] is a prefix of [b]. *)
Definition prefix {A} (a b : list A) : Prop := exists c, b = a ++ c.

(** ** Lemmas *)

Lemma lenN_nil A : lenN (@nil A) = 0. Proof. reflexivity. Qed.
Lemma lenN_cons A (x : A) l : lenN (x :: l) = 1 + lenN l.
Proof. unfold lenN; cbn [length]; lia. Qed.
Lemma lenN_app A (a b : list A) : lenN (a ++ b) = lenN a + lenN b.
Proof. unfold lenN; rewrite app_length; lia. Qed.
Lemma lenN_0 A (l : list A) : lenN l = 0 -> l = [].
Proof. destruct l; [reflexivity|rewrite lenN_cons; lia]. Qed.

Lemma takeN_firstn A n (l : list A) : takeN n l = firstn (N.to_nat n) l.
Proof.
  revert n; induction l as [|x r IH]; intro n; cbn [takeN].
  - now rewrite firstn_nil.
  - destruct (N.eqb_spec n 0) as [->|H]; [reflexivity|].
    replace (N.to_nat n) with (S (N.to_nat (N.pred n))) by lia.
    cbn [firstn]. now rewrite IH.
Qed.

Lemma dropN_skipn A n (l : list A) : dropN n l = skipn (N.to_nat n) l.
Proof.
  revert n; induction l as [|x r IH]; intro n; cbn [dropN].
  - now rewrite skipn_nil.
  - destruct (N.eqb_spec n 0) as [->|H]; [reflexivity|].
    replace (N.to_nat n) with (S (N.to_nat (N.pred n))) by lia.
    cbn [skipn]. now rewrite IH.
Qed.

Lemma takeN_dropN A n (l : list A) : takeN n l ++ dropN n l = l.
Proof. rewrite takeN_firstn, dropN_skipn. apply firstn_skipn. Qed.

Lemma lenN_takeN A n (l : list A) : lenN (takeN n l) = N.min n (lenN l).
Proof. rewrite takeN_firstn. unfold lenN. rewrite firstn_length. lia. Qed.

Lemma lenN_dropN A n (l : list A) : lenN (dropN n l) = lenN l - n.
Proof. rewrite dropN_skipn. unfold lenN. rewrite skipn_length. lia. Qed.

Lemma takeN_all A n (l : list A) : lenN l <= n -> takeN n l = l.
Proof. intro H. rewrite takeN_firstn. apply firstn_all2. unfold lenN in H. lia. Qed.

Lemma dropN_all A n (l : list A) : lenN l <= n -> dropN n l = [].
Proof. intro H. rewrite dropN_skipn. apply skipn_all2. unfold lenN in H. lia. Qed.

Lemma takeN_0 A (l : list A) : takeN 0 l = [].
Proof. destruct l; reflexivity. Qed.
Lemma dropN_0 A (l : list A) : dropN 0 l = l.
Proof. destruct l; reflexivity. Qed.
Lemma takeN_nil A n : takeN n (@nil A) = []. Proof. reflexivity. Qed.
Lemma dropN_nil A n : dropN n (@nil A) = []. Proof. reflexivity. Qed.

Lemma takeN_app A n (a b : list A) : takeN n (a ++ b) = takeN n a ++ takeN (n - lenN a) b.
Proof.
  rewrite !takeN_firstn, firstn_app. unfold lenN.
  repeat f_equal. lia.
Qed.

Lemma dropN_app A n (a b : list A) : dropN n (a ++ b) = dropN n a ++ dropN (n - lenN a) b.
Proof.
  rewrite !dropN_skipn, skipn_app. unfold lenN.
  repeat f_equal. lia.
Qed.

Lemma takeN_app_exact A n (a b : list A) : n = lenN a -> takeN n (a ++ b) = a.
Proof.
  intros ->. rewrite takeN_app, N.sub_diag, takeN_0, app_nil_r. apply takeN_all; lia.
Qed.

Lemma dropN_app_exact A n (a b : list A) : n = lenN a -> dropN n (a ++ b) = b.
Proof.
  intros ->. rewrite dropN_app, N.sub_diag, dropN_0, dropN_all by lia. reflexivity.
Qed.

Lemma dropN_dropN A n m (l : list A) : dropN n (dropN m l) = dropN (m + n) l.
Proof.
  rewrite !dropN_skipn.
  replace (N.to_nat (m + n)) with (N.to_nat n + N.to_nat m)%nat by lia.
  generalize (N.to_nat n) (N.to_nat m); clear n m; intros n m.
  revert l; induction m as [|m IH]; intro l.
  - now rewrite Nat.add_0_r.
  - destruct l as [|x r]; [now rewrite !skipn_nil|].
    rewrite Nat.add_succ_r. cbn [skipn]. apply IH.
Qed.

Lemma takeN_takeN A n m (l : list A) : takeN n (takeN m l) = takeN (N.min n m) l.
Proof.
  rewrite !takeN_firstn, firstn_firstn. f_equal. lia.
Qed.

Lemma takeN_plus A n m (l : list A) : takeN (n + m) l = takeN n l ++ takeN m (dropN n l).
Proof.
  rewrite <- (takeN_dropN _ n l) at 1.
  rewrite takeN_app, lenN_takeN.
  destruct (N.le_gt_cases n (lenN l)) as [H|H].
  - rewrite takeN_all by (rewrite lenN_takeN; lia). do 2 f_equal. lia.
  - rewrite (dropN_all _ n) by lia. cbn. rewrite takeN_all by (rewrite lenN_takeN; lia). reflexivity.
Qed.

Lemma lenN_slice A off len (l : list A) : lenN (slice off len l) = N.min len (lenN l - off).
Proof. unfold slice. now rewrite lenN_takeN, lenN_dropN. Qed.

Lemma lenN_zeros n : lenN (zeros n) = n.
Proof. unfold lenN, zeros. rewrite repeat_length. lia. Qed.

Lemma lenN_write_at off data mem :
  off + lenN data <= lenN mem -> lenN (write_at off data mem) = lenN mem.
Proof.
  intro H. unfold write_at. rewrite !lenN_app, lenN_takeN, lenN_dropN. lia.
Qed.

Lemma write_at_nil off mem : write_at off [] mem = mem.
Proof.
  unfold write_at. cbn [app]. rewrite lenN_nil, N.add_0_r. apply takeN_dropN.
Qed.

Lemma write_at_app off a b mem :
  off + lenN a + lenN b <= lenN mem ->
  write_at (off + lenN a) b (write_at off a mem) = write_at off (a ++ b) mem.
Proof.
  intro H. unfold write_at.
  assert (Ht : lenN (takeN off mem) = off) by (rewrite lenN_takeN; lia).
  rewrite takeN_app, Ht.
  rewrite (takeN_all _ (off + lenN a) (takeN off mem)) by lia.
  rewrite takeN_app.
  rewrite (takeN_all _ (off + lenN a - off) a) by lia.
  replace (off + lenN a - off - lenN a) with 0 by lia. rewrite takeN_0, app_nil_r.
  rewrite !dropN_app, Ht.
  rewrite (dropN_all _ _ (takeN off mem)) by lia.
  rewrite (dropN_all _ _ a) by lia. cbn [app].
  rewrite dropN_dropN, lenN_app, <- !app_assoc.
  do 3 f_equal. f_equal. lia.
Qed.

Lemma write_at_whole data mem : lenN data = lenN mem -> write_at 0 data mem = data.
Proof.
  intro H. unfold write_at. rewrite takeN_0, dropN_all by lia. cbn. apply app_nil_r.
Qed.

Lemma byte_val_lt b : byte_val b < 256.
Proof. unfold byte_val. pose proof (Byte.to_N_bounded b). lia. Qed.

Lemma byte_val_val_byte n : byte_val (val_byte n) = n mod 256.
Proof.
  unfold val_byte.
  destruct (Byte.of_N (n mod 256)) eqn:E.
  - unfold byte_val. now apply Byte.to_of_N.
  - apply Byte.of_N_None_iff in E. lia.
Qed.

Lemma val_byte_byte_val b : val_byte (byte_val b) = b.
Proof.
  unfold val_byte. rewrite N.mod_small by apply byte_val_lt.
  unfold byte_val. now rewrite Byte.of_to_N.
Qed.

Lemma length_le_enc k v : length (le_enc k v) = k.
Proof. revert v; induction k; intro v; cbn; [reflexivity|now rewrite IHk]. Qed.

Lemma lenN_le_enc k v : lenN (le_enc k v) = N.of_nat k.
Proof. unfold lenN. now rewrite length_le_enc. Qed.

Lemma le_dec_enc k v : le_dec (le_enc k v) = v mod (256 ^ N.of_nat k).
Proof.
  revert v; induction k as [|k IH]; intro v; cbn [le_enc le_dec].
  - cbn. now rewrite N.mod_1_r.
  - rewrite byte_val_val_byte, IH.
    replace (N.of_nat (S k)) with (N.succ (N.of_nat k)) by lia.
    rewrite N.pow_succ_r'.
    assert (256 ^ N.of_nat k <> 0) by (apply N.pow_nonzero; lia).
    rewrite N.mod_mul_r; [reflexivity|lia|assumption].
Qed.

Lemma le_dec_lt l : le_dec l < 256 ^ lenN l.
Proof.
  induction l as [|b r IH]; cbn [le_dec].
  - cbn. lia.
  - rewrite lenN_cons, N.add_1_l, N.pow_succ_r'.
    pose proof (byte_val_lt b). lia.
Qed.

Lemma le_enc_dec l : le_enc (length l) (le_dec l) = l.
Proof.
  induction l as [|b r IH]; cbn [length le_enc le_dec]; [reflexivity|].
  pose proof (byte_val_lt b) as Hb.
  f_equal.
  - transitivity (val_byte (byte_val b)); [|apply val_byte_byte_val].
    unfold val_byte.
    replace ((byte_val b + 256 * le_dec r) mod 256) with (byte_val b mod 256) by lia.
    reflexivity.
  - replace ((byte_val b + 256 * le_dec r) / 256) with (le_dec r) by lia. exact IH.
Qed.

Lemma byte_eqb_spec a b : byte_eqb a b = true <-> a = b.
Proof.
  unfold byte_eqb. split; intro H.
  - apply Byte.byte_dec_bl; exact H.
  - apply Byte.byte_dec_lb; exact H.
Qed.

Lemma bytes_eqb_spec a b : bytes_eqb a b = true <-> a = b.
Proof.
  revert b; induction a as [|x a IH]; intros [|y b]; cbn; split; intro H;
    try reflexivity; try discriminate.
  - apply andb_true_iff in H as [H1 H2]. apply byte_eqb_spec in H1. apply IH in H2. congruence.
  - injection H as -> ->. apply andb_true_iff; split; [now apply byte_eqb_spec|now apply IH].
Qed.

Lemma prefix_refl A (a : list A) : prefix a a.
Proof. exists []. now rewrite app_nil_r. Qed.
Lemma prefix_nil A (a : list A) : prefix [] a.
Proof. now exists a. Qed.
Lemma prefix_trans A (a b c : list A) : prefix a b -> prefix b c -> prefix a c.
Proof. intros [x ->] [y ->]. exists (x ++ y). now rewrite app_assoc. Qed.
Lemma prefix_app A (a b : list A) : prefix a (a ++ b).
Proof. now exists b. Qed.
Lemma prefix_app_l A (a b c : list A) : prefix b c -> prefix (a ++ b) (a ++ c).
Proof. intros [x ->]. exists x. now rewrite app_assoc. Qed.
Lemma prefix_len_eq A (a b : list A) : prefix a b -> lenN b <= lenN a -> a = b.
Proof.
  intros [c ->] H. rewrite lenN_app in H.
  rewrite (lenN_0 _ c) by lia. now rewrite app_nil_r.
Qed.
Lemma prefix_len A (a b : list A) : prefix a b -> lenN a <= lenN b.
Proof. intros [c ->]. rewrite lenN_app. lia. Qed.
Lemma prefix_takeN A n (l : list A) : prefix (takeN n l) l.
Proof. exists (dropN n l). symmetry; apply takeN_dropN. Qed.
Lemma prefix_same A (a b c : list A) :
  prefix a c -> prefix b c -> lenN a <= lenN b -> prefix a b.
Proof.
  intros [x ->] [y Hy] H.
  exists (takeN (lenN b - lenN a) x).
  assert (Hb : b = takeN (lenN b) (a ++ x)) by (rewrite Hy; now rewrite takeN_app_exact).
  rewrite Hb at 1. rewrite takeN_app. f_equal. apply takeN_all; lia.
Qed.
