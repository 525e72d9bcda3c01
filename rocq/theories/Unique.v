(** Unique.v: an archive determines what was archived. *)
From Coq Require Import Lia.
From Verif Require Import Base Format Zlib Compress Parser ParserProofs ParserFacts Decompress DecompressProofs MidProofs MidFacts
  ArchiveSpec ArchiveFacts ArchiveDecode FS FSFacts HL HLSpec HLFacts HLDrive HLProps.

(** Every entry is archived: no "." and "..", no devices and the like. *)
Inductive complete : bytes -> snode -> Prop :=
| co_file name o s mode size data r : ~ dotted name -> complete name (SFile o s mode size data r)
| co_dir name mode es : ~ dotted name -> Forall (fun x => complete (fst x) (snd x)) es -> complete name (SDir mode es)
| co_link name mode size target : ~ dotted name -> complete name (SLink mode size (Some target)).

(** ** Records *)

Lemma app_split {A} (a : list A) : forall b x y, a ++ x = b ++ y -> lenN a = lenN b -> a = b /\ x = y.
Proof.
  induction a as [|c a IH]; intros [|d b] x y H L; rewrite ?lenN_cons, ?lenN_nil in L; try lia; cbn in H.
  - auto.
  - injection H as -> H. destruct (IH _ _ _ H ltac:(lia)) as [-> ->]. auto.
Qed.
Lemma padded_eq (a b : bytes) : lenN a = lenN b -> lenN (padded a) = lenN (padded b).
Proof. intro H. unfold padded. rewrite !lenN_app, !lenN_zeros, H. reflexivity. Qed.
Lemma padded_inj (a b : bytes) : lenN a = lenN b -> padded a = padded b -> a = b.
Proof. intros L H. unfold padded in H. now destruct (app_split _ _ _ _ H L). Qed.

(** The first item of a sequence of records. *)
Inductive fields : arec -> bytes -> Prop :=
| fl_dir name mode m : (forall e, get_nlen e m = lenN name /\ get_mode e m = mode) -> get_ctype m = CT_DIR_START -> fields (ADir name mode) m
| fl_file name mode size data m : (forall e, get_nlen e m = lenN name /\ get_mode e m = mode /\ get_size e m = size) -> get_ctype m = CT_FILE ->
    fields (AFile name mode size data) m
| fl_link name mode target m : (forall e, get_nlen e m = lenN name /\ get_mode e m = mode /\ get_size e m = lenN target) -> get_ctype m = CT_SYM_LINK ->
    fields (ALink name mode target) m
| fl_end m : get_ctype m = CT_DIR_END -> fields AEnd m.
Definition body (r : arec) : bytes :=
  match r with
  | ADir name _ => padded name
  | AFile name _ size data => padded name ++ data ++ zeros (norm_len64 size - size)
  | ALink name _ target => padded name ++ target ++ zeros (norm_len64 (lenN target) - lenN target)
  | _ => []
  end.

Lemma encodes_inv r rs b : encodes (r :: rs) b -> rec_ok r -> exists m b', b = m ++ body r ++ b' /\ lenN m = 40 /\ fields r m /\ encodes rs b'.
Proof.
  intros H K. inversion H as [|name mode rs0 b0 e junk J En|name mode size data rs0 b0 e junk J En|name mode target rs0 b0 e junk J En
    |rs0 b0 e nlen mode junk J En|name mode size data rs0 b0 e junk J En]; subst; cbn [rec_ok body] in *; try contradiction.
  - destruct K as [K1 K2]. exists (dir_item e (lenN name) mode junk), b0. split; [reflexivity|]. split; [now apply lenN_dir_item|]. split; [|assumption].
    constructor; [intro e'; destruct (dir_item_fields e e' (lenN name) mode junk) as (Q1 & _ & Q2 & _); auto; lia|].
    destruct (dir_item_fields e LE (lenN name) mode junk) as (_ & _ & _ & Q); auto; lia.
  - destruct K as (K1 & K2 & K3 & K4). exists (file_item e (lenN name) mode size junk), b0. split; [rewrite <- !app_assoc; reflexivity|]. split; [now apply lenN_file_item|]. split; [|assumption].
    constructor; [intro e'; destruct (file_item_fields e e' (lenN name) mode size junk) as (Q0 & _ & Q1 & _ & Q2 & _); auto; lia|].
    destruct (file_item_fields e LE (lenN name) mode size junk) as (_ & _ & _ & _ & _ & Q); auto; lia.
  - destruct K as (K1 & K2 & K3). exists (link_item e (lenN name) mode (lenN target) junk), b0. split; [rewrite <- !app_assoc; reflexivity|]. split; [now apply lenN_link_item|]. split; [|assumption].
    assert (lenN target < two64) by (unfold two32, two64 in *; lia).
    constructor; [intro e'; destruct (link_item_fields e e' (lenN name) mode (lenN target) junk) as (Q0 & _ & Q1 & _ & Q2 & _); auto; lia|].
    destruct (link_item_fields e LE (lenN name) mode (lenN target) junk) as (_ & _ & _ & _ & _ & Q); auto; lia.
  - exists (dir_end_item e nlen mode junk), b0. split; [reflexivity|]. split; [now apply lenN_dir_end_item|]. split; [|assumption].
    constructor. now apply dir_end_item_ctype.
Qed.

Lemma fields_inj r r' m b b' : fields r m -> fields r' m -> rec_ok r -> rec_ok r' -> body r ++ b = body r' ++ b' -> r = r' /\ b = b'.
Proof.
  intros F F' K K' H. inversion F as [n o m0 A T|n o z d m0 A T|n o d m0 A T|m0 T]; subst;
    inversion F' as [n' o' m0 A' T'|n' o' z' d' m0 A' T'|n' o' d' m0 A' T'|m0 T']; subst; try (rewrite T in T'; discriminate T');
    cbn [body rec_ok] in *; rewrite <- ?app_assoc in H.
  - destruct (A LE) as [A1 A2]. destruct (A' LE) as [A1' A2']. assert (L : lenN n = lenN n') by congruence.
    destruct (app_split _ _ _ _ H (padded_eq _ _ L)) as [H1 ->]. apply padded_inj in H1; [|exact L]. subst. auto.
  - destruct (A LE) as (A1 & A2 & A3). destruct (A' LE) as (A1' & A2' & A3'). assert (L : lenN n = lenN n') by congruence.
    destruct (app_split _ _ _ _ H (padded_eq _ _ L)) as [H1 H2]. apply padded_inj in H1; [|exact L].
    assert (Ez : z = z') by congruence. destruct K as (_ & _ & Kz & _). destruct K' as (_ & _ & Kz' & _).
    destruct (app_split _ _ _ _ H2 ltac:(congruence)) as [H3 H4].
    destruct (app_split _ _ _ _ H4 ltac:(now rewrite Ez)) as [_ ->]. split; [congruence|reflexivity].
  - destruct (A LE) as (A1 & A2 & A3). destruct (A' LE) as (A1' & A2' & A3'). assert (L : lenN n = lenN n') by congruence.
    destruct (app_split _ _ _ _ H (padded_eq _ _ L)) as [H1 H2]. apply padded_inj in H1; [|exact L].
    assert (Ed : lenN d = lenN d') by congruence.
    destruct (app_split _ _ _ _ H2 Ed) as [H3 H4].
    destruct (app_split _ _ _ _ H4 ltac:(now rewrite Ed)) as [_ ->]. split; [congruence|reflexivity].
  - auto.
Qed.

Lemma encodes_inj rs : forall rs' b, encodes rs b -> encodes rs' b -> Forall rec_ok rs -> Forall rec_ok rs' -> rs = rs'.
Proof.
  induction rs as [|r rs IH]; intros [|r' rs'] b H H' K K'.
  - reflexivity.
  - inversion H; subst. exfalso. exact (encodes_nonempty _ _ H' ltac:(discriminate) eq_refl).
  - inversion H'; subst. exfalso. exact (encodes_nonempty _ _ H ltac:(discriminate) eq_refl).
  - inversion K as [|? ? K1 K2]; inversion K' as [|? ? K1' K2']; subst.
    destruct (encodes_inv _ _ _ H K1) as (m & c & E & L & F & N1). destruct (encodes_inv _ _ _ H' K1') as (m' & c' & E' & L' & F' & N1').
    rewrite E in E'. destruct (app_split _ _ _ _ E' ltac:(congruence)) as [<- E2].
    destruct (fields_inj _ _ _ _ _ F F' K1 K1' E2) as [<- <-]. f_equal. eapply IH; eauto.
Qed.

(** ** Trees *)

Definition stops (rs : list arec) : Prop := match rs with [] => True | AEnd :: _ => True | _ => False end.
Definition node_inj (nd : snode) : Prop := forall n n' nd' r r', complete n nd -> complete n' nd' -> quiet nd -> quiet nd' ->
  preorder1 n nd ++ r = preorder1 n' nd' ++ r' -> n = n' /\ nd = nd' /\ r = r'.

Lemma starts n nd : complete n nd -> exists x r, preorder1 n nd = x :: r /\ x <> AEnd.
Proof.
  intro H. inversion H as [? ? ? ? ? ? ? D|? ? ? D|? ? ? ? D]; subst; cbn [preorder1]; rewrite (dot_no _ D); eexists _, _; (split; [reflexivity|discriminate]).
Qed.
Lemma list_inj es : Forall (fun x => node_inj (snd x)) es -> forall es' r r', stops r -> stops r' ->
  Forall (fun x => complete (fst x) (snd x)) es -> Forall (fun x => complete (fst x) (snd x)) es' ->
  Forall (fun x => quiet (snd x)) es -> Forall (fun x => quiet (snd x)) es' ->
  preorder es ++ r = preorder es' ++ r' -> es = es' /\ r = r'.
Proof.
  induction 1 as [|[n nd] es Hx He IH]; intros [|[n' nd'] es'] r r' S S' C C' Q Q' H.
  - auto.
  - exfalso. inversion C' as [|? ? C1 _]; subst. destruct (starts _ _ C1) as (x & l & E & Nx). cbn in H, E. unfold preorder in H. cbn in H.
    rewrite E in H. subst r. cbn in S. destruct x; contradiction.
  - exfalso. inversion C as [|? ? C1 _]; subst. destruct (starts _ _ C1) as (x & l & E & Nx). cbn in H, E. unfold preorder in H. cbn in H.
    rewrite E in H. subst r'. cbn in S'. destruct x; contradiction.
  - inversion C as [|? ? C1 C2]; inversion C' as [|? ? C1' C2']; inversion Q as [|? ? Q1 Q2]; inversion Q' as [|? ? Q1' Q2']; subst.
    rewrite !preorder_cons, <- !app_assoc in H. cbn [fst snd] in *.
    destruct (Hx _ _ _ _ _ C1 C1' Q1 Q1' H) as (-> & -> & H2).
    destruct (IH _ _ _ S S' C2 C2' Q2 Q2' H2) as [-> ->]. auto.
Qed.
Lemma node_inj_all : forall nd, node_inj nd.
Proof.
  induction nd as [o st m sz d r0|m es IH|m sz tg|] using snode_ind2; intros n n' nd' r r' C C' Q Q' H.
  - inversion C as [? ? ? ? ? ? ? D| |]; inversion C' as [? ? ? ? ? ? ? D'|? ? ? D' F'|? ? ? ? D']; subst; cbn [preorder1] in H; rewrite (dot_no _ D), (dot_no _ D') in H; cbn in H; try discriminate.
    inversion Q; inversion Q'; subst. injection H as -> -> _ -> ->. auto.
  - inversion C as [|? ? ? D F|]; inversion C' as [? ? ? ? ? ? ? D'|? ? ? D' F'|? ? ? ? D']; subst; cbn [preorder1] in H; rewrite (dot_no _ D), (dot_no _ D') in H; cbn [app] in H; try discriminate.
    injection H as -> -> H. rewrite <- !app_assoc in H. cbn [app] in H. inversion Q as [|? ? Qe| |]; inversion Q' as [|? ? Qe'| |]; subst.
    destruct (list_inj es IH _ (AEnd :: r) (AEnd :: r') I I F F' Qe Qe' H) as [-> E]. injection E as ->. auto.
  - inversion C as [| |? ? ? ? D]; inversion C' as [? ? ? ? ? ? ? D'|? ? ? D' F'|? ? ? ? D']; subst; cbn [preorder1] in H; rewrite (dot_no _ D), (dot_no _ D') in H; cbn in H; try discriminate.
    inversion Q; inversion Q'; subst. injection H as -> -> -> ->. auto.
  - inversion C.
Qed.
Lemma preorder_inj es es' : Forall (fun x => complete (fst x) (snd x)) es -> Forall (fun x => complete (fst x) (snd x)) es' ->
  Forall (fun x => quiet (snd x)) es -> Forall (fun x => quiet (snd x)) es' -> preorder es = preorder es' -> es = es'.
Proof.
  intros C C' Q Q' H. destruct (list_inj es ltac:(apply Forall_forall; intros; apply node_inj_all) es' [] [] I I C C' Q Q'); [|assumption].
  now rewrite !app_nil_r.
Qed.

(** C102 *)
Lemma archive_unique z (C : zlib_contract z) F F' : zc_dec C F = zc_dec C F' ->
  (forall es es', archives_dir z es F -> archives_dir z es' F' ->
     Forall (fun x => complete (fst x) (snd x)) es -> Forall (fun x => complete (fst x) (snd x)) es' ->
     Forall (fun x => quiet (snd x)) es -> Forall (fun x => quiet (snd x)) es' -> es = es') /\
  (forall d d', archives_file z d F -> archives_file z d' F' -> d = d') /\
  (forall es d, archives_dir z es F -> Forall (fun x => quiet (snd x)) es -> archives_file z d F' -> False).
Proof.
  intro E. split; [|split].
  - intros es es' A A' Co Co' Q Q'. destruct (dir_archived z C es F A Q) as (_ & _ & _ & En & K).
    destruct (dir_archived z C es' F' A' Q') as (_ & _ & _ & En' & K'). rewrite <- E in En'.
    apply preorder_inj; auto. eapply encodes_inj; eauto.
  - intros d d' A A'. destruct (file_archived z C d F A) as (_ & _ & _ & D). destruct (file_archived z C d' F' A') as (_ & _ & _ & D'). congruence.
  - intros es d A Q A'. destruct (dir_archived z C es F A Q) as (_ & _ & (_ & _ & T) & _). destruct (file_archived z C d F' A') as (_ & _ & (_ & _ & T') & _).
    rewrite E, T' in T. discriminate.
Qed.
