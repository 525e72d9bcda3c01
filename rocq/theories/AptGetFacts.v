(** AptGetFacts.v: lemmas about the installer tool (C84 to C86). *)
From Coq Require Import Lia.
From Verif Require Import Base AptGet.

(** ** Specification *)

(** There is a NUL behind each of the two arrays. *)
Definition padded (W : world) : Prop :=
  (exists r, w_behind W = Some x00 :: r) /\ (exists r, w_behind2 W = Some x00 :: r).
(** Nothing is known to be behind the arrays: C as defined by its standard. *)
Definition strict_c (W : world) : Prop := w_behind W = [] /\ w_behind2 W = [].
(** The address of the package fits into the buffer. *)
Definition short_name (package : bytes) : Prop :=
  ~ In x00 package /\ lenN URL_HEAD + lenN package + lenN URL_TAIL < 1023.

Definition blank (b : byte) : Prop := b = x20 \/ b = x09.
Definition ends_value (b : byte) : Prop := blank b \/ b = x0a \/ b = x0d.
(** In the text [s] the first occurrence of [key] is followed by blanks and the value [v]. *)
Definition key_value (key s v : bytes) : Prop := exists before blanks rest,
  s = before ++ key ++ blanks ++ v ++ rest /\ (forall a b, a ++ key ++ b = s -> lenN before <= lenN a) /\
  Forall blank blanks /\ v <> [] /\ Forall (fun b => ~ ends_value b) v /\
  match rest with [] => True | b :: _ => ends_value b end.

(** ** Buffers *)

Lemma beqb_eq a b : byte_eqb a b = true <-> a = b.
Proof. unfold byte_eqb. split; [apply Byte.byte_dec_bl|apply Byte.byte_dec_lb]. Qed.
Lemma beqb_neq a b : a <> b -> byte_eqb a b = false.
Proof. intro H. destruct (byte_eqb a b) eqn:E; [apply beqb_eq in E; contradiction|reflexivity]. Qed.

Lemma cstr_ok v b r : ~ In x00 v -> cstr (map Some (v ++ x00 :: b) ++ r) = Ok v.
Proof.
  induction v as [|x v IH]; intro H; cbn [app map cstr].
  - reflexivity.
  - rewrite beqb_neq by (intros ->; apply H; left; reflexivity).
    rewrite IH by (intro; apply H; right; assumption). reflexivity.
Qed.
Lemma drop_buf a b (r : cells) : dropN (lenN a) (map Some (a ++ b) ++ r) = map Some b ++ r.
Proof.
  rewrite map_app, <- app_assoc. apply dropN_app_exact. unfold lenN. now rewrite map_length.
Qed.
Lemma take_buf a b (r : cells) : takeN (lenN a) (map Some (a ++ b) ++ r) = map Some a.
Proof.
  rewrite map_app, <- app_assoc. apply takeN_app_exact. unfold lenN. now rewrite map_length.
Qed.
Lemma str_at_ok a v b r : ~ In x00 v -> str_at (lenN a) (map Some (a ++ v ++ x00 :: b) ++ r) = Ok v.
Proof. intro H. unfold str_at. rewrite drop_buf. apply cstr_ok, H. Qed.
Lemma load_ok a x b r : load (lenN a) (map Some (a ++ x :: b) ++ r) = Ok x.
Proof. unfold load. rewrite drop_buf. reflexivity. Qed.
Lemma store_ok a x y b r : lenN x = lenN y ->
  store (lenN a) y (map Some (a ++ x ++ b) ++ r) = Ok (map Some (a ++ y ++ b) ++ r).
Proof.
  intro E. unfold store. rewrite take_buf.
  assert (L : lenN (map Some (a ++ x ++ b) ++ r) = lenN a + lenN x + lenN b + lenN r).
  { rewrite lenN_app. unfold lenN at 1. rewrite map_length, app_length, app_length. unfold lenN. lia. }
  rewrite (proj2 (N.leb_le _ _)) by lia.
  replace (lenN a + lenN y) with (lenN (a ++ x)) by (rewrite lenN_app; lia).
  replace (a ++ x ++ b) with ((a ++ x) ++ b) by (symmetry; apply app_assoc). rewrite drop_buf, !map_app, <- !app_assoc. reflexivity.
Qed.
Lemma all_written_ok v : all_written (map Some v) = Ok v.
Proof. induction v as [|x v IH]; [reflexivity|]. cbn [map all_written]. now rewrite IH. Qed.
Lemma block_ok a v b r : block (lenN a) (lenN v) (map Some (a ++ v ++ b) ++ r) = Ok v.
Proof.
  unfold block, slice. rewrite drop_buf.
  assert (L : lenN (map Some (a ++ v ++ b) ++ r) = lenN a + lenN v + lenN b + lenN r).
  { rewrite lenN_app. unfold lenN at 1. rewrite map_length, app_length, app_length. unfold lenN. lia. }
  rewrite (proj2 (N.leb_le _ _)) by lia. rewrite take_buf. apply all_written_ok.
Qed.
Lemma store_fresh x y r : store (lenN x) y (map Some x ++ r) = if lenN y <=? lenN r then Ok (map Some (x ++ y) ++ dropN (lenN y) r) else UB.
Proof.
  unfold store. rewrite lenN_app. replace (lenN (map Some x)) with (lenN x) by (unfold lenN; now rewrite map_length).
  replace (lenN x + lenN y <=? lenN x + lenN r) with (lenN y <=? lenN r) by lia.
  destruct (lenN y <=? lenN r); [|reflexivity].
  rewrite takeN_app_exact by (unfold lenN; now rewrite map_length).
  rewrite dropN_app. replace (lenN (map Some x)) with (lenN x) by (unfold lenN; now rewrite map_length).
  rewrite dropN_all by (unfold lenN; rewrite map_length; lia). rewrite map_app, <- app_assoc. do 3 f_equal. cbn [app]. f_equal. lia.
Qed.

(** ** Texts *)

Fixpoint until0 (l : bytes) : bytes :=
  match l with b :: r => if byte_eqb b x00 then [] else b :: until0 r | [] => [] end.
Lemma until0_clean l : ~ In x00 (until0 l).
Proof.
  induction l as [|b r IH]; cbn [until0]; [intros []|]. destruct (byte_eqb b x00) eqn:E; [intros []|].
  intros [->|H]; [discriminate E|exact (IH H)].
Qed.
Lemma until0_split l : exists t, l ++ [x00] = until0 l ++ x00 :: t.
Proof.
  induction l as [|b r (t & IH)]; cbn [until0 app]; [now exists []|]. destruct (byte_eqb b x00) eqn:E.
  - apply beqb_eq in E as ->. now exists (r ++ [x00]).
  - exists t. cbn [app]. now rewrite IH.
Qed.
Lemma until0_len l : lenN (until0 l) <= lenN l.
Proof. induction l as [|b r IH]; cbn [until0]; [lia|]. destruct (byte_eqb b x00); rewrite ?lenN_cons, ?lenN_nil; lia. Qed.
Lemma until0_id l : ~ In x00 l -> until0 l = l.
Proof.
  induction l as [|b r IH]; intro H; cbn [until0]; [reflexivity|].
  rewrite beqb_neq by (intros ->; apply H; left; reflexivity). f_equal. apply IH. intro; apply H; right; assumption.
Qed.

Lemma starts_with_ok k s : starts_with k s = true <-> exists r, s = k ++ r.
Proof.
  revert s; induction k as [|x k IH]; intro s; cbn [starts_with app].
  - split; [exists s; reflexivity|reflexivity].
  - destruct s as [|y s]; [split; [discriminate|intros (r & E); discriminate E]|].
    rewrite andb_true_iff, beqb_eq, IH. split.
    + intros (-> & r & ->). now exists r.
    + intros (r & E). injection E as -> ->. split; [reflexivity|now exists r].
Qed.
Lemma strstr_some s k i : strstr s k = Some i ->
  exists a b, s = a ++ k ++ b /\ lenN a = i /\ forall a' b', a' ++ k ++ b' = s -> i <= lenN a'.
Proof.
  revert i; induction s as [|x s IH]; intros i H; cbn [strstr] in H.
  - destruct (starts_with k []) eqn:E; [|discriminate H]. injection H as <-. apply starts_with_ok in E as (r & E).
    exists [], r. split; [exact E|]. split; [reflexivity|]. intros; lia.
  - destruct (starts_with k (x :: s)) eqn:E.
    + injection H as <-. apply starts_with_ok in E as (r & E). exists [], r. split; [exact E|].
      split; [reflexivity|]. intros; lia.
    + destruct (strstr s k) as [j|] eqn:Ej; [|discriminate H]. assert (i = 1 + j) as -> by congruence.
      destruct (IH _ eq_refl) as (a & b & -> & La & Hf). exists (x :: a), b. split; [reflexivity|].
      split; [rewrite lenN_cons; lia|]. intros [|y a'] b' E'.
      * exfalso. cbn [app] in E'. assert (starts_with k (x :: a ++ k ++ b) = true) as C by (apply starts_with_ok; exists b'; now rewrite <- E').
        congruence.
      * cbn [app] in E'. injection E' as -> E'. rewrite lenN_cons. specialize (Hf _ _ E'). lia.
Qed.
Lemma strstr_none s k : strstr s k = None -> forall a b, a ++ k ++ b <> s.
Proof.
  induction s as [|x s IH]; intros H a b E; cbn [strstr] in H.
  - destruct (starts_with k []) eqn:E1; [discriminate H|]. apply app_eq_nil in E as (-> & E). apply app_eq_nil in E as (-> & ->). discriminate E1.
  - destruct (starts_with k (x :: s)) eqn:E1; [discriminate H|]. destruct (strstr s k) eqn:E2; [discriminate H|].
    destruct a as [|y a]; cbn [app] in E.
    + rewrite <- E in E1. rewrite (proj2 (starts_with_ok _ _)) in E1; [discriminate E1|now exists b].
    + injection E as -> E. exact (IH eq_refl _ _ E).
Qed.

Lemma strspn_split s set : exists a b, s = a ++ b /\ lenN a = strspn s set.
Proof.
  induction s as [|x s (a & b & E & L)]; cbn [strspn]; [now exists [], []|]. destruct (mem set x).
  - exists (x :: a), b. rewrite lenN_cons, E at 1. split; [reflexivity|lia].
  - now exists [], (x :: s).
Qed.
Lemma strcspn_split s set : exists a b, s = a ++ b /\ lenN a = strcspn s set.
Proof.
  induction s as [|x s (a & b & E & L)]; cbn [strcspn]; [now exists [], []|]. destruct (mem set x).
  - now exists [], (x :: s).
  - exists (x :: a), b. rewrite lenN_cons, E at 1. split; [reflexivity|lia].
Qed.

(** The value of a key behind position [p]. *)
Definition value (s : bytes) : bytes :=
  let s' := dropN (strspn s svcTermStr) s in takeN (strcspn s' svcTermStr2) s'.

Lemma app_same_len (a b c d : bytes) : a ++ b = c ++ d -> lenN a = lenN c -> a = c /\ b = d.
Proof.
  intros E L. assert (a = c) as -> by (rewrite <- (takeN_app_exact _ (lenN a) a b), E by reflexivity; apply takeN_app_exact; exact L).
  split; [reflexivity|]. now apply app_inv_head in E.
Qed.

Lemma value_at_split W a0 s1 t r : padded W -> ~ In x00 s1 ->
  exists ws w, s1 = ws ++ value s1 ++ w /\
  value_at W (lenN a0) (map Some (a0 ++ s1 ++ x00 :: t) ++ r) = Ok (lenN (a0 ++ ws), lenN (value s1)).
Proof.
  intros ((r1 & E1) & (r2 & E2)) H1. unfold value_at. rewrite str_at_ok by exact H1. cbn [obind].
  rewrite E1, E2. change (cstr (map Some svcTermStr ++ Some x00 :: r1)) with (@Ok bytes svcTermStr).
  change (cstr (map Some svcTermStr2 ++ Some x00 :: r2)) with (@Ok bytes svcTermStr2). cbn [obind].
  destruct (strspn_split s1 svcTermStr) as (ws & s2 & Es1 & Lws). rewrite <- Lws.
  assert (H2 : ~ In x00 s2) by (intro H; apply H1; rewrite Es1; apply in_or_app; right; exact H).
  rewrite <- lenN_app. replace (a0 ++ s1 ++ x00 :: t) with ((a0 ++ ws) ++ s2 ++ x00 :: t)
    by (rewrite Es1, <- !app_assoc; reflexivity).
  rewrite str_at_ok by exact H2. cbn [obind].
  assert (Ev : value s1 = takeN (strcspn s2 svcTermStr2) s2).
  { unfold value. rewrite <- Lws. rewrite Es1. rewrite dropN_app_exact by reflexivity. reflexivity. }
  rewrite Ev. destruct (strcspn_split s2 svcTermStr2) as (v & w & Es2 & Lv). rewrite <- Lv.
  assert (Et : takeN (lenN v) s2 = v) by (rewrite Es2; apply takeN_app_exact; reflexivity). rewrite Et.
  exists ws, w. split; [rewrite <- Es2; exact Es1|]. reflexivity.
Qed.
Lemma value_at_ok W s t r p : padded W -> ~ In x00 s -> p <= lenN s ->
  exists a w, s = a ++ value (dropN p s) ++ w /\ p <= lenN a /\
  value_at W p (map Some (s ++ x00 :: t) ++ r) = Ok (lenN a, lenN (value (dropN p s))).
Proof.
  intros Pad Hs Hp. pose proof (takeN_dropN _ p s) as Es.
  assert (La : lenN (takeN p s) = p) by (rewrite lenN_takeN; lia).
  assert (H1 : ~ In x00 (dropN p s)) by (intro H; apply Hs; rewrite <- Es; apply in_or_app; right; exact H).
  destruct (value_at_split W (takeN p s) (dropN p s) t r Pad H1) as (ws & w & E1 & E2).
  exists (takeN p s ++ ws), w. split; [rewrite <- app_assoc, <- E1; symmetry; exact Es|]. split; [rewrite lenN_app; lia|].
  rewrite La, app_assoc, Es in E2. exact E2.
Qed.

Lemma mem_blank b : mem svcTermStr b = true <-> blank b.
Proof.
  unfold mem, svcTermStr, blank. cbn [existsb]. rewrite !orb_true_iff, !beqb_eq. intuition discriminate.
Qed.
Lemma mem_ends b : mem svcTermStr2 b = true <-> ends_value b.
Proof.
  unfold mem, svcTermStr2, ends_value, blank. cbn [existsb]. rewrite !orb_true_iff, !beqb_eq. intuition discriminate.
Qed.
Lemma strspn_exact ws s : Forall blank ws -> match s with [] => True | b :: _ => ~ blank b end -> strspn (ws ++ s) svcTermStr = lenN ws.
Proof.
  intros H E. induction H as [|x ws Hx H IH]; cbn [app strspn].
  - destruct s as [|b s]; [reflexivity|]. cbn [strspn]. destruct (mem svcTermStr b) eqn:M; [apply mem_blank in M; contradiction|reflexivity].
  - rewrite (proj2 (mem_blank x) Hx), IH, lenN_cons. reflexivity.
Qed.
Lemma strcspn_exact v s : Forall (fun b => ~ ends_value b) v -> match s with [] => True | b :: _ => ends_value b end ->
  strcspn (v ++ s) svcTermStr2 = lenN v.
Proof.
  intros H E. induction H as [|x v Hx H IH]; cbn [app strcspn].
  - destruct s as [|b s]; [reflexivity|]. cbn [strcspn]. rewrite (proj2 (mem_ends b) E). reflexivity.
  - destruct (mem svcTermStr2 x) eqn:M; [apply mem_ends in M; contradiction|]. rewrite IH, lenN_cons. reflexivity.
Qed.

Lemma value_key key s v : key_value key s v -> exists i, strstr s key = Some i /\ value (dropN (i + lenN key) s) = v.
Proof.
  intros (a & ws & rest & E & First & Hws & Nv & Hv & Hr). destruct (strstr s key) as [i|] eqn:Ei.
  - exists i. split; [reflexivity|]. destruct (strstr_some _ _ _ Ei) as (a' & b' & E' & L' & First').
    assert (La : lenN a = i).
    { specialize (First a' b' (eq_sym E')). specialize (First' a (ws ++ v ++ rest) (eq_sym E)). lia. }
    rewrite E, app_assoc, dropN_app_exact by (rewrite lenN_app; lia). unfold value.
    rewrite strspn_exact; [|exact Hws|].
    + rewrite dropN_app_exact by reflexivity. rewrite strcspn_exact by assumption. apply takeN_app_exact. reflexivity.
    + destruct v as [|x v]; [contradiction|]. cbn [app]. inversion_clear Hv. intro B. apply H. left. exact B.
  - exfalso. exact (strstr_none _ _ Ei a (ws ++ v ++ rest) (eq_sym E)).
Qed.

(** ** The command install *)

(** What the command does, in terms of texts. *)
Definition package_url (package : bytes) : bytes := URL_HEAD ++ package ++ URL_TAIL.
Definition steps_path (W : world) : bytes := TEMPORARY_DIR ++ [backslash] ++ w_step_name W.
Definition start_of (W : world) (root prog : bytes) : list action :=
  let command := root ++ [backslash] ++ takeN (1021 - lenN root) (prog ++ INSTALL_ARG) in
  AStart command :: if (w_start W command =? 0)%Z then [AWait] else [].
Definition move_of (root : bytes) : list action := if bytes_eqb TEMPORARY_DIR root then [] else [AMove TEMPORARY_DIR root].
Definition install_text (W : world) (package : bytes) : Z * list action :=
  let url := package_url package in
  let got := AWeb url TEMPORARY_DIR in
  if negb (w_web W url TEMPORARY_DIR =? 0)%Z then (w_web W url TEMPORARY_DIR, [got])
  else match w_steps W with
  | None => (0%Z, [got; AOpen (steps_path W)])
  | Some file =>
    let s := until0 (takeN 1023 file) in
    let log := [got; AOpen (steps_path W); ADelete (steps_path W)] in
    match strstr s ROOT_KEY with
    | None => (0%Z, log)
    | Some i =>
      let root := value (dropN (i + lenN ROOT_KEY) s) in
      let log := log ++ move_of root in
      if negb (bytes_eqb TEMPORARY_DIR root) && negb (w_move W TEMPORARY_DIR root) then (0%Z, log)
      else match strstr s RUN_KEY with
      | None => (0%Z, log)
      | Some j => (0%Z, log ++ start_of W root (value (dropN (j + lenN RUN_KEY) s)))
      end
    end
  end.

Lemma store_zero x y : store 0 x y = store (lenN (@nil byte)) x (map Some [] ++ y).
Proof. reflexivity. Qed.
Lemma strstr_bound s k i : strstr s k = Some i -> i + lenN k <= lenN s.
Proof. intro H. destruct (strstr_some _ _ _ H) as (a & b & -> & L & _). rewrite !lenN_app. lia. Qed.
Lemma value_len s : lenN (value s) <= lenN s.
Proof. unfold value. rewrite lenN_takeN, lenN_dropN. lia. Qed.
Lemma value_clean s : ~ In x00 s -> ~ In x00 (value s).
Proof.
  intros H I. apply H. unfold value in I. destruct (strspn_split s svcTermStr) as (a & b & E & L). rewrite <- L in I.
  rewrite E in I at 2. rewrite dropN_app_exact in I by reflexivity. rewrite E. apply in_or_app. right.
  rewrite <- (takeN_dropN _ (strcspn (dropN (lenN a) s) svcTermStr2) b). apply in_or_app. left.
  rewrite E in I. rewrite dropN_app_exact in I by reflexivity. rewrite E. rewrite dropN_app_exact by reflexivity. exact I.
Qed.

Lemma install_padded W package : padded W -> short_name package -> install W package = Ok (install_text W package).
Proof.
  intros Pad (Np & Lp). unfold install, install_text. unfold REMOTE_URI_MIN1.
  fold (steps_path W). set (none := repeat None (N.to_nat (1023 + 1))).
  assert (Ln : lenN none = 1024) by (unfold lenN, none; rewrite repeat_length; lia).
  fold (package_url package). set (url := package_url package).
  assert (Lu : lenN url = lenN URL_HEAD + lenN package + lenN URL_TAIL) by (unfold url, package_url; rewrite !lenN_app; lia).
  assert (Hu : ~ In x00 url).
  { unfold url, package_url. rewrite !in_app_iff. intros [H|[H|H]]; [|exact (Np H)|]; vm_compute in H; intuition discriminate. }
  unfold ms_snprintf. rewrite (proj2 (N.ltb_lt (lenN url) 1023)) by lia. rewrite takeN_all by lia.
  rewrite store_zero, store_fresh. rewrite (proj2 (N.leb_le _ _)) by (rewrite lenN_app, lenN_cons, lenN_nil; lia).
  cbn [obind app]. set (r0 := dropN _ none).
  assert (Lr0 : lenN (map Some (url ++ [x00]) ++ r0) = 1024).
  { unfold r0. rewrite lenN_app, lenN_dropN. unfold lenN at 1. rewrite map_length. fold (lenN (url ++ [x00])).
    rewrite !lenN_app, lenN_cons, lenN_nil. lia. }
  change 0 with (lenN (@nil byte)) at 1. rewrite (str_at_ok [] url [] r0 Hu : str_at (lenN []) (map Some (url ++ [x00]) ++ r0) = Ok url).
  cbn [obind]. destruct (w_web W url TEMPORARY_DIR =? 0)%Z eqn:Ew; cbn [negb]; [|reflexivity].
  apply Z.eqb_eq in Ew. rewrite Ew. destruct (w_steps W) as [file|]; [|reflexivity].
  set (data := takeN 1023 file). assert (Ld : lenN data <= 1023) by (unfold data; rewrite lenN_takeN; lia).
  generalize dependent (map Some (url ++ [x00]) ++ r0). intros tmp0 Lt.
  rewrite store_zero, store_fresh. rewrite (proj2 (N.leb_le _ _)) by lia. cbn [obind app].
  rewrite store_fresh. rewrite (proj2 (N.leb_le _ _)) by (rewrite lenN_dropN, lenN_cons, lenN_nil; lia). cbn [obind].
  destruct (until0_split data) as (t & Et). rewrite Et. pose proof (until0_clean data) as Hs. pose proof (until0_len data) as Ls.
  set (s := until0 data) in *. clearbody s. set (r := dropN _ (dropN _ tmp0)).
  change (str_at 0) with (str_at (lenN (@nil byte))).
  rewrite (str_at_ok [] s t r Hs : str_at (lenN []) (map Some (s ++ x00 :: t) ++ r) = Ok s). cbn [obind].
  destruct (strstr s ROOT_KEY) as [i|] eqn:Ei; [|reflexivity]. pose proof (strstr_bound _ _ _ Ei) as Bi.
  destruct (value_at_ok W s t r _ Pad Hs Bi) as (a & w & Es & La & Ev). rewrite Ev. cbn [obind].
  set (root := value (dropN (i + lenN ROOT_KEY) s)) in *. 
  assert (Lroot : lenN root <= 1018).
  { unfold root. pose proof (value_len (dropN (i + lenN ROOT_KEY) s)). rewrite lenN_dropN in H. change (lenN ROOT_KEY) with 5 in *. lia. }
  clearbody root.
  assert (Hroot : ~ In x00 root) by (intro H; apply Hs; rewrite Es; apply in_or_app; right; apply in_or_app; left; exact H).
  assert (exists x b, s ++ x00 :: t = (a ++ root) ++ x :: b) as (x & b & Eb).
  { destruct w as [|x w]; rewrite Es.
    - exists x00, t. now rewrite app_nil_r.
    - exists x, (w ++ x00 :: t). rewrite <- !app_assoc. reflexivity. }
  rewrite <- lenN_app, Eb, load_ok. cbn [obind].
  rewrite (store_ok (a ++ root) [x] [x00] b r eq_refl : store (lenN (a ++ root)) [x00] (map Some ((a ++ root) ++ x :: b) ++ r) =
     Ok (map Some ((a ++ root) ++ x00 :: b) ++ r)). cbn [obind].
  rewrite (proj2 (N.ltb_ge _ _)) by lia. rewrite <- app_assoc. rewrite block_ok. cbn [obind].
  rewrite store_zero, store_fresh, (proj2 (N.leb_le _ _)) by lia. cbn [obind app].
  rewrite store_fresh. rewrite (proj2 (N.leb_le _ _)) by (rewrite lenN_dropN, lenN_cons, lenN_nil; lia). cbn [obind].
  rewrite str_at_ok by exact Hroot. cbn [obind].
  rewrite (app_assoc a root (x00 :: b)).
  rewrite (store_ok (a ++ root) [x00] [x] b r eq_refl : store (lenN (a ++ root)) [x] (map Some ((a ++ root) ++ x00 :: b) ++ r) =
     Ok (map Some ((a ++ root) ++ x :: b) ++ r)). cbn [obind]. rewrite <- Eb.
  rewrite (str_at_ok [] s t r Hs : str_at (lenN []) (map Some (s ++ x00 :: t) ++ r) = Ok s). cbn [obind].
  assert (El : (if bytes_eqb TEMPORARY_DIR root then [AWeb url TEMPORARY_DIR; AOpen (steps_path W); ADelete (steps_path W)]
    else [AWeb url TEMPORARY_DIR; AOpen (steps_path W); ADelete (steps_path W); AMove TEMPORARY_DIR root]) =
    [AWeb url TEMPORARY_DIR; AOpen (steps_path W); ADelete (steps_path W)] ++ move_of root)
    by (unfold move_of; destruct (bytes_eqb TEMPORARY_DIR root); reflexivity).
  rewrite El. destruct (negb _ && negb _); [reflexivity|].
  destruct (strstr s RUN_KEY) as [j|] eqn:Ej; [|reflexivity]. pose proof (strstr_bound _ _ _ Ej) as Bj.
  destruct (value_at_ok W s t r _ Pad Hs Bj) as (a' & w' & Es' & La' & Ev'). rewrite Ev'. cbn [obind].
  set (prog := value (dropN (j + lenN RUN_KEY) s)) in *. clearbody prog.
  assert (Hprog : ~ In x00 prog) by (intro H; apply Hs; rewrite Es'; apply in_or_app; right; apply in_or_app; left; exact H).
  assert (exists x b, s ++ x00 :: t = (a' ++ prog) ++ x :: b) as (x' & b' & Eb').
  { destruct w' as [|x' w']; rewrite Es'.
    - exists x00, t. now rewrite app_nil_r.
    - exists x', (w' ++ x00 :: t). rewrite <- !app_assoc. reflexivity. }
  rewrite <- lenN_app, Eb'.
  rewrite (store_ok (a' ++ prog) [x'] [x00] b' r eq_refl : store (lenN (a' ++ prog)) [x00] (map Some ((a' ++ prog) ++ x' :: b') ++ r) =
     Ok (map Some ((a' ++ prog) ++ x00 :: b') ++ r)). cbn [obind].
  rewrite <- app_assoc, str_at_ok by exact Hprog. cbn [obind].
  unfold c_snprintf. rewrite (proj2 (N.eqb_neq _ 0)) by lia.
  replace (lenN root + 1) with (lenN (root ++ [backslash])) by (rewrite lenN_app; reflexivity).
  rewrite store_fresh. rewrite (proj2 (N.leb_le _ _)) by (rewrite !lenN_dropN, lenN_app, lenN_takeN, !lenN_cons, !lenN_nil; lia).
  cbn [obind]. replace (1023 - lenN root - 1 - 1) with (1021 - lenN root) by lia.
  unfold start_of. set (text := takeN (1021 - lenN root) (prog ++ INSTALL_ARG)).
  assert (Ht : ~ In x00 ((root ++ [backslash]) ++ text)).
  { rewrite !in_app_iff. intros [[H|[H|[]]]|H]; [exact (Hroot H)|discriminate H|].
    assert (I : In x00 (prog ++ INSTALL_ARG)).
    { rewrite <- (takeN_dropN _ (1021 - lenN root) (prog ++ INSTALL_ARG)). apply in_or_app. left. exact H. }
    apply in_app_or in I as [I|I]; [exact (Hprog I)|vm_compute in I; intuition discriminate]. }
  match goal with |- context [map Some ?l ++ ?q] => replace l with ([] ++ ((root ++ [backslash]) ++ text) ++ [x00])
    by (cbn [app]; rewrite <- !app_assoc; reflexivity); rewrite (str_at_ok [] _ [] q Ht) end.
  cbn [obind]. rewrite <- app_assoc. destruct (w_start W _ =? 0)%Z; rewrite <- ?app_assoc; reflexivity.
Qed.

(** ** The properties *)

Lemma installer_safe W argv : padded W -> (forall package, In package argv -> short_name package) -> apt_main W argv <> UB.
Proof.
  intros Pad H. destruct argv as [|a [|b [|c r]]]; cbn [apt_main]; try discriminate.
  destruct (bytes_eqb b INSTALL); [|discriminate]. rewrite install_padded; [discriminate|exact Pad|].
  apply H. right. right. left. reflexivity.
Qed.

Lemma installer_never_safe W package prog more : strict_c W -> short_name package ->
  w_web W (package_url package) TEMPORARY_DIR = 0%Z ->
  (exists file before rest, w_steps W = Some file /\ lenN file <= 1023 /\ ~ In x00 file /\ file = before ++ ROOT_KEY ++ rest) ->
  apt_main W (prog :: INSTALL :: package :: more) = UB.
Proof.
  intros (E1 & E2) (Np & Lp) Ew (file & before & rest & Ef & Lf & Nf & Ek). cbn [apt_main].
  change (bytes_eqb INSTALL INSTALL) with true. cbv iota. unfold install, REMOTE_URI_MIN1.
  fold (steps_path W). set (none := repeat None (N.to_nat (1023 + 1))).
  assert (Ln : lenN none = 1024) by (unfold lenN, none; rewrite repeat_length; lia).
  fold (package_url package). set (url := package_url package) in *.
  assert (Lu : lenN url = lenN URL_HEAD + lenN package + lenN URL_TAIL) by (unfold url, package_url; rewrite !lenN_app; lia).
  assert (Hu : ~ In x00 url).
  { unfold url, package_url. rewrite !in_app_iff. intros [H|[H|H]]; [|exact (Np H)|]; vm_compute in H; intuition discriminate. }
  unfold ms_snprintf. rewrite (proj2 (N.ltb_lt (lenN url) 1023)) by lia. rewrite takeN_all by lia.
  rewrite store_zero, store_fresh. rewrite (proj2 (N.leb_le _ _)) by (rewrite lenN_app, lenN_cons, lenN_nil; lia).
  cbn [obind app]. set (r0 := dropN _ none).
  assert (Lr0 : lenN (map Some (url ++ [x00]) ++ r0) = 1024).
  { unfold r0. rewrite lenN_app, lenN_dropN. unfold lenN at 1. rewrite map_length. fold (lenN (url ++ [x00])).
    rewrite !lenN_app, lenN_cons, lenN_nil. lia. }
  change (str_at 0) with (str_at (lenN (@nil byte))). rewrite (str_at_ok [] url [] r0 Hu : str_at (lenN []) (map Some (url ++ [x00]) ++ r0) = Ok url).
  cbn [obind]. rewrite Ew. cbn [Z.eqb negb]. rewrite Ef.
  generalize dependent (map Some (url ++ [x00]) ++ r0). intros tmp0 Lt. rewrite takeN_all by exact Lf.
  rewrite store_zero, store_fresh. rewrite (proj2 (N.leb_le _ _)) by lia. cbn [obind app].
  rewrite store_fresh. rewrite (proj2 (N.leb_le _ _)) by (rewrite lenN_dropN, lenN_cons, lenN_nil; lia). cbn [obind].
  set (r := dropN _ (dropN _ tmp0)).
  rewrite (str_at_ok [] file [] r Nf : str_at (lenN []) (map Some (file ++ [x00]) ++ r) = Ok file). cbn [obind].
  destruct (strstr file ROOT_KEY) as [i|] eqn:Ei; [|exfalso; exact (strstr_none _ _ Ei _ _ (eq_sym Ek))].
  unfold value_at. rewrite E1. change (cstr (map Some svcTermStr ++ [])) with (@UB bytes).
  destruct (strstr_some _ _ _ Ei) as (a & b & -> & La & _). rewrite <- La, <- lenN_app.
  replace ((a ++ ROOT_KEY ++ b) ++ [x00]) with ((a ++ ROOT_KEY) ++ b ++ [x00]) by (rewrite <- !app_assoc; reflexivity).
  rewrite str_at_ok; [reflexivity|]. intro H. apply Nf. rewrite !in_app_iff. right. right. exact H.
Qed.

Lemma exit_status W prog package more r log : apt_main W (prog :: INSTALL :: package :: more) = Ok (r, log) ->
  exists url log', log = AWeb url TEMPORARY_DIR :: log' /\ (r = 0%Z <-> w_web W url TEMPORARY_DIR = 0%Z).
Proof.
  cbn [apt_main]. change (bytes_eqb INSTALL INSTALL) with true. cbv iota. unfold install. intro H.
  destruct (ms_snprintf _ _ _ _) as [tmp| |]; cbn [obind] in H; try discriminate H.
  destruct (str_at 0 tmp) as [url| |]; cbn [obind] in H; try discriminate H.
  exists url. destruct (w_web W url TEMPORARY_DIR =? 0)%Z eqn:Ew; cbn [negb] in H.
  2: { injection H as <- <-. exists []. split; [reflexivity|reflexivity]. }
  apply Z.eqb_eq in Ew. rewrite Ew in *. cut (r = 0%Z /\ exists log', log = AWeb url TEMPORARY_DIR :: log').
  { intros (-> & log' & ->). exists log'. split; [reflexivity|split; intros _; reflexivity]. }
  repeat match type of H with
  | Ok _ = Ok _ => injection H as <- <-; split; [reflexivity|]
  | UB = Ok _ => discriminate H
  | NoFuel = Ok _ => discriminate H
  | obind ?o _ = Ok _ => destruct o as [?| |]; cbn [obind] in H; try discriminate H
  | (let (_, _) := ?p in _) = Ok _ => destruct p
  | match ?p with _ => _ end = Ok _ => destruct p; cbn [negb andb] in H
  end;
  repeat match goal with
  | |- context [if ?b then _ else _] => destruct b
  end; cbn [app]; eexists; reflexivity.
Qed.

Lemma program_started W prog package more file root run : padded W -> short_name package ->
  (forall u d, w_web W u d = 0%Z) -> w_steps W = Some file -> lenN file <= 1023 -> ~ In x00 file ->
  key_value ROOT_KEY file root -> key_value RUN_KEY file run -> root <> TEMPORARY_DIR -> w_move W TEMPORARY_DIR root = true ->
  lenN root + lenN run <= 1012 ->
  exists log, apt_main W (prog :: INSTALL :: package :: more) = Ok (0%Z, log) /\
    filter (fun a => match a with AMove _ _ => true | AStart _ => true | _ => false end) log =
      [AMove TEMPORARY_DIR root; AStart (root ++ [backslash] ++ run ++ INSTALL_ARG)].
Proof.
  intros Pad Sn Ew Es Lf Nf Kr Kp Nt Em Len. cbn [apt_main]. change (bytes_eqb INSTALL INSTALL) with true. cbv iota.
  rewrite install_padded by assumption. unfold install_text. rewrite Ew. cbn [Z.eqb negb]. rewrite Es.
  rewrite takeN_all by exact Lf. rewrite until0_id by exact Nf.
  destruct (value_key _ _ _ Kr) as (i & Ei & Vi). destruct (value_key _ _ _ Kp) as (j & Ej & Vj).
  rewrite Ei, Vi, Em, Ej, Vj, andb_false_r. unfold move_of.
  assert (Eb : bytes_eqb TEMPORARY_DIR root = false).
  { destruct (bytes_eqb TEMPORARY_DIR root) eqn:E; [|reflexivity]. exfalso. apply Nt. symmetry.
    clear - E. revert root E. generalize TEMPORARY_DIR. intro l. induction l as [|x l IH]; intros [|y r] E; cbn [bytes_eqb] in E; try discriminate E; [reflexivity|].
    apply andb_true_iff in E as (E1 & E2). apply beqb_eq in E1 as ->. f_equal. apply IH, E2. }
  rewrite Eb. eexists. split; [reflexivity|]. unfold start_of.
  rewrite takeN_all by (rewrite lenN_app; change (lenN INSTALL_ARG) with 9; lia).
  cbn [app filter]. destruct (w_start W _ =? 0)%Z; reflexivity.
Qed.
