(** ResourceFacts.v: memory blocks of an extraction; size of the content of an archive. *)
From Verif Require Import Base Format Zlib LLCompress Compress Parser ParserProofs ParserFacts Decompress MidFacts ArchiveSpec ArchiveFacts
  ArchiveDecode ArchiveProps FS FSFacts HL HLFacts HLProps.

(** ** Blocks *)

(** ZlibWtCreateTypedCompressSession, zlibwt_ll_compression_routines.c:42-66: the block of the session (number 3) when the
    function returns; [made]: malloc succeeded, [init]: deflateInit returned Z_OK, [written]: the header was written. *)
Definition csession_led (made init written : bool) : list lev :=
  if negb made then [] else if negb init then [LMalloc 3; LFree 3] else if negb written then [LMalloc 3; LFree 3] else [LMalloc 3].

(** ZlibWtCreateLLDecompressSession, zlibwt_ll_decompress_routines.c:28-50: the same for inflateInit; line 38 returns without
    releasing the block. *)
Definition dsession_led (made init : bool) : list lev := if negb made then [] else if negb init then [LMalloc 3] else [LMalloc 3].

(** ZlibWtDecompressFileOrDirEx, zlibwt_hl_decompress_routines.c:255-303: pcBufferOut (1), pcBufferIn (2) and the session, on each
    of the return paths; the last one is taken with and without a read error (lines 284-290, 297-303). *)
Definition extract_led (al : N -> bool) (init : bool) : list lev :=
  if negb (al 1) then []
  else if negb (al 2) then [LMalloc 1; LFree 1]
  else LMalloc 1 :: LMalloc 2 :: dsession_led (al 3) init ++ (if al 3 && init then [LFree 3] else []) ++ [LFree 2; LFree 1].

Definition inits (z : zlib) : bool := match inflateInit z with Some _ => true | None => false end.

(** The function of HL.v follows the same paths. *)
Lemma extract_led_paths T hal stk z e alloc archive fuel dfuel al obuf hjunk pjunk inp rderr o ret st o' :
  exec (extract T hal stk z e alloc archive fuel dfuel al obuf hjunk pjunk inp rderr) o = Ok ((ret, st), o') ->
  (st <> None <-> al 1 && al 2 && al 3 && inits z = true).
Proof.
  intro H. unfold extract in H.
  destruct (al 1); cbn [negb orb andb] in *; [|injection H as <- <- <-; split; [congruence|discriminate]].
  destruct (al 2); cbn [negb orb andb] in *; [|injection H as <- <- <-; split; [congruence|discriminate]].
  unfold create in H. destruct (al 3); cbn [andb]; [|injection H as <- <- <-; split; [congruence|discriminate]].
  unfold inits. destruct (inflateInit z) as [i|]; [|injection H as <- <- <-; split; [congruence|discriminate]].
  split; [reflexivity|]. intros _.
  rewrite exec_bind in H. destruct (exec _ o) as [[[[[ok s] h] ds] o1]| |] eqn:E1; try discriminate H. clear E1. cbn [obind] in H.
  rewrite exec_bind in H. destruct (exec (close_fp h) o1) as [[u o2]| |]; try discriminate H. cbn [obind] in H.
  rewrite exec_bind in H. destruct (exec (plift (destroy s)) o2) as [[s' o3]| |]; try discriminate H.
  injection H as <- <- <-. discriminate.
Qed.

Lemma released_nil : released [].
Proof. intro i. reflexivity. Qed.
Lemma released4 : released [LMalloc 1; LMalloc 2; LFree 2; LFree 1].
Proof. intro i. unfold allocated, freed. cbn [filter]. destruct (i =? 1), (i =? 2); reflexivity. Qed.

Lemma extract_releases al init : (al 1 && al 2 && al 3 = true -> init = true) -> released (extract_led al init).
Proof.
  intro H. unfold extract_led, dsession_led. destruct (al 1); [|exact released_nil]. destruct (al 2); [|exact released2].
  cbn [negb andb] in *. destruct (al 3); [|exact released4]. rewrite H by reflexivity. exact released6.
Qed.
Lemma extract_keeps al init : al 1 = true -> al 2 = true -> al 3 = true -> init = false -> ~ released (extract_led al init).
Proof. intros A1 A2 A3 -> R. unfold extract_led, dsession_led in R. rewrite A1, A2, A3 in R. specialize (R 3). discriminate R. Qed.

Lemma csession_null made init written : made && init && written = false -> released (csession_led made init written).
Proof.
  destruct made, init, written; intro H; try discriminate H; intro i; unfold allocated, freed; cbn; try reflexivity;
    destruct (i =? 3); reflexivity.
Qed.

(** ** Sizes *)

(** The next multiple of eight. *)
Definition pad8 (n : N) : N := n + (8 - n mod 8).

Definition rec_size (r : arec) : N :=
  match r with
  | ADir n _ => 40 + pad8 (lenN n)
  | AFile n _ size _ => 40 + pad8 (lenN n) + pad8 size
  | ALink n _ tg => 40 + pad8 (lenN n) + pad8 (lenN tg)
  | AEnd => 40
  | ABroken n _ _ d => 40 + pad8 (lenN n) + lenN d
  end.
Definition sum (l : list N) : N := fold_right N.add 0 l.
Lemma sum_app a b : sum (a ++ b) = sum a + sum b.
Proof. induction a as [|x a IH]; [reflexivity|]. cbn [app sum fold_right] in *. fold (sum (a ++ b)). fold (sum a). rewrite IH. lia. Qed.

(** A directory entry: a record of 40 bytes, its name and its contents, each filled up with one to eight bytes; for a directory
    40 bytes more at its end. *)
Fixpoint node_size (name : bytes) (nd : snode) : N :=
  if dotb name then 0
  else match nd with
  | SFile _ _ _ size _ _ => 40 + pad8 (lenN name) + pad8 size
  | SDir _ es => 40 + pad8 (lenN name) + sum (map (fun x => node_size (fst x) (snd x)) es) + 40
  | SLink _ _ (Some target) => 40 + pad8 (lenN name) + pad8 (lenN target)
  | SLink _ _ None => 0
  | SOther => 0
  end.
Definition tree_size (es : list (bytes * snode)) : N := sum (map (fun x => node_size (fst x) (snd x)) es).

Lemma norm32 n : n + 8 < two32 -> norm_len32 n = pad8 n.
Proof. unfold norm_len32, pad8, two32. lia. Qed.
Lemma norm64 n : n + 8 < two64 -> norm_len64 n = pad8 n.
Proof. unfold norm_len64, pad8, two64. lia. Qed.

Lemma encodes_size recs b : encodes recs b -> Forall rec_ok recs -> lenN b = sum (map rec_size recs).
Proof.
  assert (P : forall n, lenN n + 8 < two32 -> lenN (padded n) = pad8 (lenN n)).
  { intros n H. unfold padded. rewrite lenN_app, lenN_zeros, norm32 by exact H. unfold pad8. lia. }
  assert (Z : forall n, n + 8 < two64 -> n + lenN (zeros (norm_len64 n - n)) = pad8 n).
  { intros n H. rewrite lenN_zeros, norm64 by exact H. unfold pad8. lia. }
  induction 1 as [|name mode rs b e' junk Hj En IH|name mode size data rs b e' junk Hj En IH|
    name mode target rs b e' junk Hj En IH|rs b e' nlen mode junk Hj En IH|name mode size data rs b e' junk Hj En IH];
    intro R; [reflexivity|..]; apply Forall_cons_iff in R; destruct R as [R1 R]; specialize (IH R); cbn [map sum fold_right rec_size];
    fold (sum (map rec_size rs)); rewrite <- IH, !lenN_app.
  - destruct R1 as [R1 _]. rewrite lenN_dir_item by exact Hj. rewrite P by exact R1. lia.
  - destruct R1 as (R1 & _ & R2 & R3). rewrite lenN_file_item by exact Hj. rewrite P by exact R1.
    rewrite <- (Z size R3). rewrite <- R2. lia.
  - destruct R1 as (R1 & _ & R3). rewrite lenN_link_item by exact Hj. rewrite P by exact R1. rewrite <- (Z _ R3). lia.
  - rewrite lenN_dir_end_item by exact Hj. lia.
  - destruct R1.
Qed.

Lemma preorder1_size : forall nd name, sum (map rec_size (preorder1 name nd)) = node_size name nd.
Proof.
  fix IH 1. intros [o s mode size data r|mode es|mode size [target|]|] name; cbn [preorder1 node_size]; destruct (dotb name);
    try reflexivity.
  - cbn. lia.
  - cbn [map sum fold_right rec_size]. fold (sum (map rec_size (concat (map (fun x => preorder1 (fst x) (snd x)) es) ++ [AEnd]))).
    rewrite map_app, sum_app. cbn [map sum fold_right rec_size].
    assert (Q : sum (map rec_size (concat (map (fun x => preorder1 (fst x) (snd x)) es))) = sum (map (fun x => node_size (fst x) (snd x)) es)).
    { induction es as [|[n x] es IHes]; [reflexivity|]. cbn [map concat fst snd]. rewrite map_app, sum_app, IHes.
      rewrite IH. reflexivity. }
    rewrite Q. lia.
  - cbn. lia.
Qed.

Lemma preorder_size es : sum (map rec_size (preorder es)) = tree_size es.
Proof.
  unfold preorder, tree_size. induction es as [|[n x] es IH]; [reflexivity|]. cbn [map concat fst snd].
  rewrite map_app, sum_app, IH, preorder1_size. reflexivity.
Qed.

Lemma content_size z (C : zlib_contract z) es F : archives_dir z es F -> Forall (fun x => quiet (snd x)) es ->
  lenN (zc_dec C F) = 128 + tree_size es.
Proof.
  intros A Q. destruct (dir_archived z C es F A Q) as (_ & _ & Ar & En & Ro).
  pose proof (encodes_size _ _ En Ro) as L. rewrite lenN_dropN, preorder_size in L. destruct Ar as [Ar _]. lia.
Qed.
