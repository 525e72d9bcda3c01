(** BehindFacts.v: bytes behind an archive (C152). *)
From Coq Require Import Lia ZifyN.
From Verif Require Import Base Format Zlib Parser Decompress FS FSFacts HL HLSpec HLFacts HLDrive HLProps HLMore WinExtract.

Lemma take_front (F G : bytes) n : n <= lenN F -> takeN n (F ++ G) = takeN n F.
Proof. intro H. rewrite takeN_app. replace (n - lenN F) with 0 by lia. now rewrite takeN_0, app_nil_r. Qed.
Lemma drop_front (F G : bytes) n : n <= lenN F -> dropN n (F ++ G) = dropN n F ++ G.
Proof. intro H. rewrite dropN_app. replace (n - lenN F) with 0 by lia. now rewrite dropN_0. Qed.
Lemma next_le archive total L : archive <> 0 -> L + total = archive -> next_size archive total <= L.
Proof. intros A H. unfold next_size. destruct (N.ltb_spec 0 archive); [|lia]. destruct (N.ltb_spec total archive); lia. Qed.

Section Behind.
Context (z : zlib) (e : endian) (alloc : N -> N -> bool) (archive : N).

Lemma behind_loop target hal stk fuel dfuel (G : bytes) rd1 rd2 : archive <> 0 -> forall (F : bytes) total idx (s : dsess z) h o, lenN F + total = archive ->
  exec (extract_loop target hal stk z e alloc archive fuel dfuel (F ++ G) rd1 total idx s h) o =
  exec (extract_loop target hal stk z e alloc archive fuel dfuel F rd2 total idx s h) o.
Proof.
  intro A. induction fuel as [|fuel IH]; intros F total idx s h o L; [reflexivity|]. cbn [extract_loop].
  pose proof (next_le archive total (lenN F) A L) as Hn. set (n := next_size archive total) in *. clearbody n.
  destruct (n <? 1); [reflexivity|]. rewrite (take_front F G n Hn), (drop_front F G n Hn).
  assert (Lt : lenN (takeN n F) = n) by (rewrite lenN_takeN; lia). rewrite Lt, N.ltb_irrefl. cbn [andb orb].
  rewrite !exec_bind. destruct (exec (plift _) o) as [[[[ret s1] evs] o1]| |]; try reflexivity. cbn [obind].
  rewrite !exec_bind. destruct (exec (cbs _ _ _ _ _) o1) as [[h1 o2]| |]; try reflexivity. cbn [obind].
  destruct (h_err h1); [reflexivity|]. rewrite !exec_bind, IH; [reflexivity|]. rewrite lenN_dropN. lia.
Qed.
Lemma behind target hal stk fuel dfuel al obuf hjunk pjunk F G rd1 rd2 o : F <> [] -> archive = lenN F ->
  exec (extract target hal stk z e alloc archive fuel dfuel al obuf hjunk pjunk (F ++ G) rd1) o =
  exec (extract target hal stk z e alloc archive fuel dfuel al obuf hjunk pjunk F rd2) o.
Proof.
  intros N0 A. assert (A0 : archive <> 0) by (rewrite A; destruct F; [congruence|unfold lenN; cbn [length]; lia]). unfold extract.
  destruct (negb (al 1) || negb (al 2)); [reflexivity|]. destruct (create _ _ _ _ _ _) as [s0|]; [|reflexivity].
  rewrite !exec_bind, (behind_loop _ _ _ _ _ G rd1 rd2 A0) by lia. reflexivity.
Qed.

Lemma behind_win_loop maxd maxf deny target hal stk fuel dfuel (G : bytes) rd1 rd2 : archive <> 0 -> forall (F : bytes) total idx (s : dsess z) h w, lenN F + total = archive ->
  xextract_loop maxd maxf deny target hal stk z e alloc archive fuel dfuel (F ++ G) rd1 total idx s h w =
  xextract_loop maxd maxf deny target hal stk z e alloc archive fuel dfuel F rd2 total idx s h w.
Proof.
  intro A. induction fuel as [|fuel IH]; intros F total idx s h w L; [reflexivity|]. cbn [xextract_loop].
  pose proof (next_le archive total (lenN F) A L) as Hn. set (n := next_size archive total) in *. clearbody n.
  destruct (n <? 1); [reflexivity|]. rewrite (take_front F G n Hn), (drop_front F G n Hn).
  assert (Lt : lenN (takeN n F) = n) by (rewrite lenN_takeN; lia). rewrite Lt, N.ltb_irrefl. cbn [andb orb].
  destruct (decompress _ _ _ _ _ _) as [[[ret s1] evs]| |]; try reflexivity. cbn [obind].
  destruct (xcbs _ _ _ _ _ _ _ _ _) as [[h1 w1]| |]; try reflexivity. cbn [obind].
  destruct (w_dead w1); [reflexivity|]. destruct (h_err h1); [reflexivity|]. rewrite IH; [reflexivity|]. rewrite lenN_dropN. lia.
Qed.
Lemma behind_win maxd maxf deny target hal stk fuel dfuel al obuf hjunk pjunk F G rd1 rd2 w : F <> [] -> archive = lenN F ->
  xextract maxd maxf deny target hal stk z e alloc archive fuel dfuel al obuf hjunk pjunk (F ++ G) rd1 w =
  xextract maxd maxf deny target hal stk z e alloc archive fuel dfuel al obuf hjunk pjunk F rd2 w.
Proof.
  intros N0 A. assert (A0 : archive <> 0) by (rewrite A; destruct F; [congruence|unfold lenN; cbn [length]; lia]). unfold xextract.
  destruct (negb (al 1) || negb (al 2)); [reflexivity|]. destruct (create _ _ _ _ _ _) as [s0|]; [|reflexivity].
  rewrite (behind_win_loop _ _ _ _ _ _ _ _ G rd1 rd2 A0) by lia. reflexivity.
Qed.
End Behind.
