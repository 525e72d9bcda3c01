(** ToolsFacts.v: lemmas on the tools. *)
From Coq Require Import Lia Strings.String.
From Verif Require Import Base Format Zlib LLCompress CompressFacts Compress Parser ParserProofs ParserFacts Decompress DecompressProofs
  MidProofs MidFacts ArchiveSpec ArchiveFacts ArchiveDecode ArchiveEntry ArchiveProps FS
  ArgParser ArgSpec ArgFacts ArgMore Tools ToolsSpec.

(** ** Archives of quiet trees *)
Section Archive.
Context (z : zlib) (C : zlib_contract z) {F : Type} (e : endian) (filt : F -> list bytes -> bytes -> skind -> Z * F)
  (jk : N -> bytes) (hj : N -> N -> bytes) (xjk : N -> N -> bytes) (hjunk : bytes) (al : N -> bool).

Lemma dir_created fuel level clbk nested xs root f0 cevs ws wx led : junk_ok jk hj xjk hjunk -> tree_fits root -> Forall xb_ok xs ->
  compress_dir z e filt jk hj xjk hjunk al fuel level clbk nested xs root f0 = Ok (CRet 0, cevs, ws, wx, led) ->
  created z al level.
Proof.
  intros J Ft Fx H. destruct (compress_dir_spec z C e filt jk hj xjk hjunk al _ _ _ _ _ _ _ _ _ _ _ _ J Ft Fx H) as [(_ & Q & _)|(Q & _)];
    [discriminate|exact Q].
Qed.

Lemma dir_unpacks fuel level clbk root f0 cevs ws wx led : junk_ok jk hj xjk hjunk -> tree_fits root ->
  Forall (fun x => quiet (snd x)) (listing root) -> last_not_full cevs ->
  compress_dir z e filt jk hj xjk hjunk al fuel level clbk false [] root f0 = Ok (CRet 0, cevs, ws, wx, led) ->
  exists recs f1 t, trav filt f0 (jobs [] (listing root)) f1 (visits wx) recs t /\ unpacks z (cev_bytes cevs) recs.
Proof.
  intros J Ft Q L H.
  assert (Cr : created z al level) by (eapply dir_created; eauto).
  destruct (compress_dir_spec z C e filt jk hj xjk hjunk al _ _ _ _ _ _ _ _ _ _ _ _ J Ft (Forall_nil _) H) as [(_ & E & _)|(_ & xr & recs & content & X & T & _)];
    [discriminate|].
  exists recs, (w_f ws), (tend_of ws). split; [exact T|].
  intros e' alloc fuel' s0 ops rets s evs Ha Hs Ho Hd Hr Rl.
  destruct (dir_round_trip z C e filt jk hj xjk hjunk al _ _ _ _ _ _ _ _ _ _ _ _ _ _ _ _ _ _ _ _ J Ft
    ltac:(unfold tree_steady; eapply Forall_impl; [|exact Q]; intros; now apply quiet_steady) (Forall_nil _) H Cr L Ha Hs Ho Hd Hr Rl)
    as (_ & xr' & recs' & f1' & t' & X' & T' & R' & P').
  cbn in X'. subst xr'. 
  destruct (trav_det filt _ _ _ _ _ _ T (jobs_all (fun _ x => quiet x) _ _ Q) _ _ _ _ T') as (_ & _ & -> & <-).
  destruct P' as [P'|P']; [|exact P']. rewrite P' in R'. discriminate.
Qed.

Lemma dir_nonempty fuel level clbk root f0 cevs ws wx led : junk_ok jk hj xjk hjunk -> tree_fits root -> last_not_full cevs ->
  compress_dir z e filt jk hj xjk hjunk al fuel level clbk false [] root f0 = Ok (CRet 0, cevs, ws, wx, led) ->
  cev_bytes cevs <> [].
Proof.
  intros J Ft L H.
  destruct (compress_dir_spec z C e filt jk hj xjk hjunk al _ _ _ _ _ _ _ _ _ _ _ _ J Ft (Forall_nil _) H) as [(_ & E & _)|(_ & xr & recs & content & _ & _ & _ & _ & _ & _ & _ & Q)];
    [discriminate|].
  specialize (Q L). intro E. rewrite E, zc_dec_nil in Q. destruct J as (_ & _ & _ & J4).
  apply (f_equal (@lenN byte)) in Q. rewrite lenN_app, lenN_header_image, lenN_nil in Q by exact J4. lia.
Qed.
End Archive.

(** ** The self extract tool: files *)
Lemma wf_write_end d w : wf_pos w = lenN (wf_data w) -> wf_write d w = WF (wf_data w ++ d) (wf_pos w + lenN d).
Proof.
  intro H. destruct d as [|b d]; [cbn [wf_write]; rewrite app_nil_r, lenN_nil, N.add_0_r; now destruct w|].
  unfold wf_write. rewrite H, N.sub_diag. cbn [zeros N.to_nat repeat]. rewrite app_nil_r. unfold overwrite.
  rewrite takeN_all by lia. rewrite (dropN_all _ _ (wf_data w)) by lia. now rewrite app_nil_r.
Qed.

Section Build.
Context (wr : N -> N -> N).
Hypothesis Hwr : forall k n, wr k n = n.

Lemma se_writes_end : forall ds n w, wf_pos w = lenN (wf_data w) -> wf_data (se_writes wr n ds w) = wf_data w ++ concat ds.
Proof.
  induction ds as [|d ds IH]; intros n w Hp; cbn [se_writes concat]; [now rewrite app_nil_r|].
  rewrite Hwr, takeN_all by lia. rewrite wf_write_end by exact Hp. rewrite IH; [|cbn [wf_pos wf_data]; rewrite lenN_app; lia].
  cbn [wf_data]. now rewrite app_assoc.
Qed.

Lemma se_writes_hole : forall ds n w, lenN (wf_data w) <= wf_pos w -> concat ds <> [] ->
  wf_data (se_writes wr n ds w) = wf_data w ++ zeros (wf_pos w - lenN (wf_data w)) ++ concat ds.
Proof.
  induction ds as [|d ds IH]; intros n w Hp Hd; [now elim Hd|]. cbn [se_writes concat] in *.
  rewrite Hwr, takeN_all by lia. destruct d as [|b d]; [apply IH; assumption|].
  unfold wf_write. set (x := wf_data w ++ zeros (wf_pos w - lenN (wf_data w))).
  assert (Lx : lenN x = wf_pos w) by (unfold x; rewrite lenN_app, lenN_zeros; lia).
  unfold overwrite. rewrite takeN_all by lia. rewrite (dropN_all _ _ x) by lia. rewrite app_nil_r.
  rewrite se_writes_end; cbn [wf_data wf_pos]; [|rewrite lenN_app; lia].
  unfold x. now rewrite <- !app_assoc.
Qed.

Context (rd : N -> N -> N).
Lemma se_copy_whole : forall fuel k n rest w w' n', se_copy rd wr fuel k n rest w = Ok (w', n') ->
  wf_pos w = lenN (wf_data w) -> wf_data w' = wf_data w ++ rest.
Proof.
  induction fuel as [|fuel IH]; intros k n rest w w' n' H Hp; [discriminate|].
  cbn [se_copy] in H. destruct rest as [|b rest]; [injection H as <- <-; now rewrite app_nil_r|].
  set (r := b :: rest) in *. set (got := N.min (N.min (lenN r) VC_BUFFER_SIZE) (rd k (N.min (lenN r) VC_BUFFER_SIZE))) in *.
  destruct (0 <? got) eqn:Hg; [|now apply IH in H].
  rewrite Hwr in H. rewrite takeN_takeN, N.min_id in H. rewrite wf_write_end in H by exact Hp.
  apply IH in H; [|cbn [wf_pos wf_data]; rewrite lenN_app; lia]. cbn [wf_data] in H.
  rewrite H, <- app_assoc, takeN_dropN. reflexivity.
Qed.
End Build.

Section SelfExtract.
Context (z : zlib) (C : zlib_contract z) (e : endian) (jk : N -> bytes) (hj : N -> N -> bytes) (xjk : N -> N -> bytes)
  (hjunk : bytes) (al : N -> bool) (ls : bytes -> option (list (bytes * snode)))
  (rd wr : N -> N -> N) (opn : N -> bool) (ndebug : bool).
Local Notation main := (se_main z e jk hj xjk hjunk al ls rd wr opn ndebug).

Lemma se_main_layout cfuel fuel argv0 exe r out : lenN exe <= max_exe ndebug -> (forall k n, wr k n = n) ->
  main cfuel fuel argv0 (Some exe) = Ok (SeBuild r out) -> r <> CRet 1 ->
  exists cevs ws wx led,
    compress_dir z e (se_filter (fst (se_name_dir argv0))) jk hj xjk hjunk al fuel Z_BEST_COMPRESSION 1 false []
      (ls (snd (se_name_dir argv0))) (true, true) = Ok (r, cevs, ws, wx, led) /\
    prefix exe out /\ dropN (max_exe ndebug) out = cev_bytes cevs.
Proof.
  intros Hx Hw H Hr. unfold se_main in H.
  destruct (max_exe ndebug <? lenN exe) eqn:E; [lia|].
  destruct (se_name_dir argv0) as [name dir]. cbn [fst snd].
  destruct (opn 0); cbn [negb] in H; [|discriminate].
  destruct (se_copy rd wr cfuel 0 0 exe (WF [] 0)) as [[w n]| |] eqn:Ec; try discriminate H. cbn [obind] in H.
  apply se_copy_whole in Ec; [|exact Hw|reflexivity]. cbn [wf_data app] in Ec. unfold icon_to_app in H. rewrite Ec in H.
  destruct (opn 1); cbn [negb] in H; [|injection H as <- <-; now elim Hr].
  destruct (compress_dir _ _ _ _ _ _ _ _ _ _ _ _ _ _ _) as [[[[[r' cevs] ws] wx] led]| |]; try discriminate H.
  cbn [obind] in H. injection H as -> <-. exists cevs, ws, wx, led. split; [reflexivity|].
  destruct (cev_bytes cevs) as [|b0 bs] eqn:Eb.
  - assert (W : forall ds n w, concat ds = [] -> se_writes wr n ds w = w).
    { induction ds as [|d ds IH]; intros n' w' Hd; [reflexivity|]. cbn [concat] in Hd. apply app_eq_nil in Hd. destruct Hd as [-> Hd].
      cbn [se_writes]. rewrite takeN_nil. cbn [wf_write]. now apply IH. }
    rewrite W by exact Eb. cbn [wf_data]. split; [apply prefix_refl|]. apply dropN_all. lia.
  - unfold cev_bytes in Eb. rewrite se_writes_hole; cbn [wf_data wf_pos]; [|exact Hw|lia|rewrite Eb; discriminate]. rewrite Eb.
    split; [apply prefix_app|]. rewrite app_assoc. apply dropN_app_exact. rewrite lenN_app, lenN_zeros. lia.
Qed.

(** Forward version for concrete cases. *)
Lemma se_main_builds cfuel fuel argv0 exe r cevs ws wx led w n : lenN exe <= max_exe ndebug -> (forall k n, wr k n = n) ->
  opn 0 = true -> opn 1 = true -> se_copy rd wr cfuel 0 0 exe (WF [] 0) = Ok (w, n) ->
  compress_dir z e (se_filter (fst (se_name_dir argv0))) jk hj xjk hjunk al fuel Z_BEST_COMPRESSION 1 false []
      (ls (snd (se_name_dir argv0))) (true, true) = Ok (r, cevs, ws, wx, led) -> cev_bytes cevs <> [] ->
  main cfuel fuel argv0 (Some exe) = Ok (SeBuild r (exe ++ zeros (max_exe ndebug - lenN exe) ++ cev_bytes cevs)).
Proof.
  intros Hx Hw H0 H1 Ec Hc Hn. unfold se_main.
  destruct (max_exe ndebug <? lenN exe) eqn:E; [lia|].
  destruct (se_name_dir argv0) as [name dir]. cbn [fst snd] in Hc. rewrite H0, Ec. cbn [negb obind].
  apply se_copy_whole in Ec; [|exact Hw|reflexivity]. cbn [wf_data app] in Ec. unfold icon_to_app. rewrite Ec, H1, Hc. cbn [negb obind].
  rewrite se_writes_hole; cbn [wf_data wf_pos]; [reflexivity|exact Hw|lia|exact Hn].
Qed.

(** C62 *)
Lemma se_layout cfuel fuel argv0 exe out : lenN exe <= max_exe ndebug -> (forall k n, wr k n = n) ->
  main cfuel fuel argv0 (Some exe) = Ok (SeBuild (CRet 0) out) ->
  exists cevs ws wx led,
    compress_dir z e (se_filter (fst (se_name_dir argv0))) jk hj xjk hjunk al fuel Z_BEST_COMPRESSION 1 false []
      (ls (snd (se_name_dir argv0))) (true, true) = Ok (CRet 0, cevs, ws, wx, led) /\
    prefix exe out /\ dropN (max_exe ndebug) out = cev_bytes cevs /\
    (junk_ok jk hj xjk hjunk -> tree_fits (ls (snd (se_name_dir argv0))) -> last_not_full cevs ->
     forall cfuel' fuel' argv0', main cfuel' fuel' argv0' (Some out) = Ok (SeRun (cev_bytes cevs))).
Proof.
  intros Hx Hw H. destruct (se_main_layout _ _ _ _ _ _ Hx Hw H ltac:(discriminate)) as (cevs & ws & wx & led & Hc & P & D).
  exists cevs, ws, wx, led. split; [exact Hc|]. split; [exact P|]. split; [exact D|].
  intros J Ft L cf' f' a'. pose proof (dir_nonempty z C e _ jk hj xjk hjunk al _ _ _ _ _ _ _ _ _ J Ft L Hc) as Hn.
  unfold se_main. rewrite <- D in Hn |- *. destruct (max_exe ndebug <? lenN out) eqn:E; [reflexivity|].
  elim Hn. apply dropN_all. lia.
Qed.

(** ** C63 *)
Definition own_ans (exe : bytes) (d : list bytes) (n : bytes) (k : skind) : Z :=
  match d, k with
  | [], KDir => 0%Z
  | [], _ => if bytes_eqb n exe || bytes_eqb n se_out then 1%Z else 0%Z
  | _, _ => 0%Z
  end.

Lemma own_ans_not exe d n k : own_ans exe d n k <> 387%Z.
Proof. unfold own_ans. destruct d, k; try discriminate; destruct (bytes_eqb n exe || bytes_eqb n se_out)%bool; discriminate. Qed.

Definition hit (nm : bytes) (j : job) : bool :=
  match j with JEntry d n nd => not_dir nd && bytes_eqb n nm | JEnd => false end.
Definition hits (nm : bytes) (js : list job) : nat := List.length (filter (hit nm) js).
Definition clean (nm : bytes) (j : job) : Prop :=
  match j with
  | JEntry d n nd => below_free nm nd /\ (d <> [] -> not_dir nd = true -> n <> nm)
  | JEnd => True
  end.
Definition left_ok (flag : bool) (n : nat) : Prop := (n <= if flag then 1 else 0)%nat.

Lemma below_entries nm dir name mode es js : below_free nm (SDir mode es) ->
  Forall (clean nm) js -> Forall (clean nm) (jobs (dir ++ [name]) es ++ JEnd :: js) /\
  hits nm (jobs (dir ++ [name]) es ++ JEnd :: js) = hits nm js.
Proof.
  intros Hb Fj. inversion Hb as [nd Hn|m es' Hes]; subst; [discriminate|].
  induction Hes as [|[n x] es [H1 H2] Hes IH]; cbn [jobs map app].
  - split; [constructor; [exact I|exact Fj]|reflexivity].
  - destruct IH as [A B]; [constructor; exact Hes|]. cbn [fst snd] in *. fold (jobs (dir ++ [name]) es). split.
    + constructor; [|exact A]. cbn [clean]. split; [exact H2|]. intros _. exact H1.
    + unfold hits in *. cbn [filter hit]. destruct (not_dir x) eqn:En; cbn [andb]; [|exact B].
      destruct (bytes_eqb n nm) eqn:E; [|exact B]. apply bytes_eqb_spec in E. now elim (H1 eq_refl).
Qed.

Lemma se_trav exe : forall f js f' vs rs t, trav (se_filter exe) f js f' vs rs t ->
  Forall (clean exe) js -> Forall (clean se_out) js -> left_ok (fst f) (hits exe js) -> left_ok (snd f) (hits se_out js) ->
  trav (fun (_ : unit) d n k => (own_ans exe d n k, tt)) tt js tt vs rs t.
Proof.
  assert (Step : forall f d n nd js, Forall (clean exe) (JEntry d n nd :: js) -> Forall (clean se_out) (JEntry d n nd :: js) ->
    left_ok (fst f) (hits exe (JEntry d n nd :: js)) -> left_ok (snd f) (hits se_out (JEntry d n nd :: js)) ->
    forall a f1, se_filter exe f d n (kind_of nd) = (a, f1) ->
    own_ans exe d n (kind_of nd) = a /\ left_ok (fst f1) (hits exe js) /\ left_ok (snd f1) (hits se_out js)).
  { intros [own out] d n nd js C1 C2 L1 L2 a f1 H. apply Forall_cons_iff in C1, C2. destruct C1 as [[_ C1] _], C2 as [[_ C2] _].
    cbn [fst snd] in *. unfold left_ok, hits in *. cbn [filter hit] in L1, L2. unfold se_filter in H.
    assert (En : (match kind_of nd with KDir => true | _ => false end) = negb (not_dir nd)) by (destruct nd; reflexivity).
    rewrite En, Bool.negb_involutive in H.
    assert (Es : forall x y, bytes_eqb x y = bytes_eqb y x).
    { intros x y. apply Bool.eq_iff_eq_true. rewrite !bytes_eqb_spec. split; congruence. }
    rewrite (Es exe n), (Es se_out n) in H.
    assert (Ea : own_ans exe d n (kind_of nd) = if match d with [] => true | _ => false end && not_dir nd && (bytes_eqb n exe || bytes_eqb n se_out) then 1%Z else 0%Z).
    { destruct d, nd; reflexivity. }
    rewrite Ea. clear Ea En.
    destruct (not_dir nd) eqn:En; cbn [andb] in *.
    2:{ rewrite !Bool.andb_false_r in H. cbn [andb] in H. injection H as <- <-. rewrite Bool.andb_false_r. auto. }
    rewrite !Bool.andb_true_r in *.
    assert (Ed : d <> [] -> bytes_eqb n exe = false /\ bytes_eqb n se_out = false).
    { intro Hd. specialize (C1 Hd eq_refl). specialize (C2 Hd eq_refl).
      split; [destruct (bytes_eqb n exe) eqn:E|destruct (bytes_eqb n se_out) eqn:E]; try reflexivity; apply bytes_eqb_spec in E; contradiction. }
    assert (El : (bytes_eqb n exe || bytes_eqb n se_out)%bool = true -> d = []).
    { intro Q. destruct d as [|d0 d]; [reflexivity|]. destruct (Ed ltac:(discriminate)) as [Z1 Z2]. rewrite Z1, Z2 in Q. discriminate. }
    destruct (bytes_eqb n exe) eqn:E1.
    - rewrite (El eq_refl). cbn [andb orb]. cbn [List.length] in L1. destruct own; cbn [andb] in *; [|lia].
      injection H as <- <-. cbn [fst snd]. split; [reflexivity|]. split; [lia|].
      destruct (bytes_eqb n se_out); [cbn [List.length] in L2; lia|exact L2].
    - rewrite Bool.andb_false_r in H. destruct (bytes_eqb n se_out) eqn:E2; cbn [orb].
      + rewrite (El eq_refl). cbn [andb]. cbn [List.length] in L2. destruct out; cbn [andb] in *; [|lia].
        injection H as <- <-. cbn [fst snd]. split; [reflexivity|]. split; [lia|]. lia.
      + rewrite Bool.andb_false_r in H |- *. injection H as <- <-. auto. }
  assert (Rest : forall j js f, left_ok (fst f) (hits exe (j :: js)) /\ left_ok (snd f) (hits se_out (j :: js)) ->
                  left_ok (fst f) (hits exe js) /\ left_ok (snd f) (hits se_out js)).
  { intros j js f [A B]. unfold left_ok, hits in *. cbn [filter] in A, B.
    split; [destruct (hit exe j)|destruct (hit se_out j)]; cbn [List.length] in *; lia. }
  induction 1; intros C1 C2 L1 L2;
    [constructor|apply tr_end|apply tr_dot; [assumption|]|..];
    try (pose proof (proj2 (proj1 (Forall_cons_iff _ _ _) C1)) as C1'; pose proof (proj2 (proj1 (Forall_cons_iff _ _ _) C2)) as C2').
  1,2: destruct (Rest _ _ _ (conj L1 L2)); now apply IHtrav.
  - destruct (Step _ _ _ _ _ C1 C2 L1 L2 _ _ H0) as (A & B & D). apply tr_stop; [assumption|]. cbn. now rewrite A.
  - destruct (Step _ _ _ _ _ C1 C2 L1 L2 _ _ H0) as (A & B & D). eapply tr_skip; [assumption| |assumption|assumption|now apply IHtrav]. cbn. now rewrite A.
  - destruct (Step _ _ _ (SDir mode es) _ C1 C2 L1 L2 _ _ H0) as (A & B & D).
    apply Forall_cons_iff in C1, C2. destruct C1 as [[C1 _] _], C2 as [[C2 _] _].
    destruct (below_entries exe dir name mode es js C1 C1') as [X1 X2]. destruct (below_entries se_out dir name mode es js C2 C2') as [Y1 Y2].
    eapply tr_dir; [assumption|cbn [kind_of] in A; now rewrite A|]. apply IHtrav; try assumption; [now rewrite X2|now rewrite Y2].
  - destruct (Step _ _ _ (SFile true true mode size data false) _ C1 C2 L1 L2 _ _ H0) as (A & B & D).
    eapply tr_file; [assumption|cbn [kind_of] in A; now rewrite A|now apply IHtrav].
  - destruct (Step _ _ _ (SFile openok statok mode size data rderr) _ C1 C2 L1 L2 _ _ H0) as (A & B & D).
    eapply tr_fail; [assumption|cbn [kind_of] in A; now rewrite A|assumption].
  - destruct (Step _ _ _ (SFile true true mode size data true) _ C1 C2 L1 L2 _ _ H0) as (A & B & D).
    eapply tr_read; [assumption|cbn [kind_of] in A; now rewrite A|assumption].
  - destruct (Step _ _ _ (SLink mode (lenN target) (Some target)) _ C1 C2 L1 L2 _ _ H0) as (A & B & D).
    eapply tr_link; [assumption|cbn [kind_of] in A; now rewrite A|now apply IHtrav].
  - destruct (Step _ _ _ (SLink mode size (Some target)) _ C1 C2 L1 L2 _ _ H0) as (A & B & D).
    eapply tr_shorter; [assumption|cbn [kind_of] in A; now rewrite A|eassumption|assumption|now apply IHtrav].
  - destruct (Step _ _ _ (SLink mode size target) _ C1 C2 L1 L2 _ _ H0) as (A & B & D).
    eapply tr_die; [assumption|cbn [kind_of] in A; now rewrite A|assumption].
  - destruct (Step _ _ _ SOther _ C1 C2 L1 L2 _ _ H0) as (A & B & D).
    eapply tr_other; [assumption|cbn [kind_of] in A; now rewrite A|now apply IHtrav].
Qed.

Lemma kept1_deep exe : forall nd d n, d <> [] -> kept1 (own_ans exe) d n nd = preorder1 n nd.
Proof.
  induction nd as [o st m sz dt r|m es IH|m sz t|] using snode_ind2; intros d n Hd;
    (destruct d as [|d0 d]; [now elim Hd|]); cbn [kept1 preorder1 own_ans kind_of Z.eqb]; try reflexivity.
  destruct (dotb n); [reflexivity|]. do 2 f_equal. set (dd := (d0 :: d) ++ [n]). assert (Hdd : dd <> []) by discriminate. clearbody dd.
  induction IH as [|x es Hx Hes IHes]; [reflexivity|]. cbn [map concat]. rewrite Hx by exact Hdd. f_equal. exact IHes.
Qed.

Lemma kept_own exe es : kept (own_ans exe) [] es = preorder (without_own exe es).
Proof.
  induction es as [|[n x] es IH]; [reflexivity|]. unfold kept, preorder, without_own in *. cbn [map concat filter].
  rewrite IH. unfold its_own at 2. cbn [fst snd].
  assert (E : kept1 (own_ans exe) [] n x = if its_own exe (n, x) then [] else preorder1 n x).
  { unfold its_own. cbn [fst snd]. destruct x as [o st m sz dt r|m es'|m sz t|]; cbn [kept1 preorder1 own_ans kind_of not_dir andb Z.eqb];
      try (destruct (bytes_eqb n exe || bytes_eqb n se_out); cbn [Z.eqb]; [now destruct (dotb n)|reflexivity]).
    destruct (dotb n); [reflexivity|]. do 2 f_equal. cbn [app]. clear.
    induction es' as [|x es IH]; [reflexivity|]. cbn [map concat]. rewrite kept1_deep by discriminate. f_equal. exact IH. }
  rewrite E. unfold its_own. cbn [fst snd]. destruct (not_dir x && (bytes_eqb n exe || bytes_eqb n se_out)); reflexivity.
Qed.

Lemma hits_nodup nm d es : NoDup (map fst es) -> (hits nm (jobs d es) <= 1)%nat.
Proof.
  induction es as [|[n x] es IH]; intro H; [cbn; lia|]. inversion H as [|? ? Hn Hd]; subst. specialize (IH Hd).
  unfold hits, jobs in *. cbn [map filter fst snd hit] in *.
  destruct (not_dir x && bytes_eqb n nm) eqn:E; [|exact IH]. cbn [List.length].
  apply Bool.andb_true_iff in E. destruct E as [_ E]. apply bytes_eqb_spec in E. subst nm.
  enough (Z : filter (hit n) (map (fun y => JEntry d (fst y) (snd y)) es) = []) by (rewrite Z; cbn; lia).
  clear - Hn. induction es as [|[m y] es IH]; [reflexivity|]. cbn [map filter fst snd hit] in *.
  destruct (bytes_eqb m n) eqn:E.
  - apply bytes_eqb_spec in E. subst m. elim Hn. now left.
  - rewrite Bool.andb_false_r. apply IH. intro Q. apply Hn. now right.
Qed.

Lemma se_packs cfuel fuel argv0 exe out es : lenN exe <= max_exe ndebug -> (forall k n, wr k n = n) ->
  main cfuel fuel argv0 (Some exe) = Ok (SeBuild (CRet 0) out) ->
  let '(name, dir) := se_name_dir argv0 in
  ls dir = Some es -> junk_ok jk hj xjk hjunk -> tree_fits (Some es) -> Forall (fun x => quiet (snd x)) es ->
  NoDup (map fst es) -> Forall (fun x => below_free name (snd x)) es -> Forall (fun x => below_free se_out (snd x)) es ->
  exists cevs, dropN (max_exe ndebug) out = cev_bytes cevs /\
    (last_not_full cevs -> unpacks z (dropN (max_exe ndebug) out) (preorder (without_own name es))).
Proof.
  intros Hx Hw H. destruct (se_layout _ _ _ _ _ Hx Hw H) as (cevs & ws & wx & led & Hc & _ & D & _).
  destruct (se_name_dir argv0) as [name dir]. cbn [fst snd] in Hc. intros Hl J Ft Q Nd B1 B2. rewrite Hl in Hc.
  exists cevs. split; [exact D|]. intro L. rewrite D.
  destruct (dir_unpacks z C e _ jk hj xjk hjunk al _ _ _ (Some es) _ _ _ _ _ J Ft Q L Hc) as (recs & f1 & t & T & U).
  cbn [listing] in T. apply se_trav in T; cycle 1.
  { clear - B1. induction B1; constructor; [|assumption]. cbn [clean]. split; [assumption|]. intro Z; now elim Z. }
  { clear - B2. induction B2; constructor; [|assumption]. cbn [clean]. split; [assumption|]. intro Z; now elim Z. }
  { unfold left_ok. cbn [fst]. now apply hits_nodup. }
  { unfold left_ok. cbn [snd]. now apply hits_nodup. }
  destruct (trav_pure (own_ans name) (fun (_ : unit) d n k => (own_ans name d n k, tt)) (fun _ d n k => eq_refl) (own_ans_not name)
    _ _ _ _ _ _ T (jobs_all (fun _ x => quiet x) _ _ Q)) as (_ & _ & E).
  rewrite kept_jobs, kept_own in E. now rewrite E in U.
Qed.
End SelfExtract.

(** ** C64 *)
Section CompressDir.
Context (z : zlib) (C : zlib_contract z) (e : endian) (jk : N -> bytes) (hj : N -> N -> bytes) (xjk : N -> N -> bytes)
  (hjunk : bytes) (al : N -> bool) (opn : bytes -> bool) (ls : bytes -> option (list (bytes * snode))) (room : N).
Local Notation b := list_byte_of_string.

Lemma cd_archive_zero fuel dir data : cd_archive z e jk hj xjk hjunk al ls room fuel dir = Ok (CRet 0, data) ->
  exists cevs ws wx led,
    compress_dir z e cd_filter jk hj xjk hjunk al fuel Z_BEST_COMPRESSION 1 false [] (ls dir) tt = Ok (CRet 0, cevs, ws, wx, led) /\
    data = takeN room (cev_bytes cevs).
Proof.
  intro A. unfold cd_archive in A. destruct (compress_dir _ _ _ _ _ _ _ _ _ _ _ _ _ _ _) as [[[[[r cevs] ws] wx] led]| |] eqn:Ec; try discriminate A.
  cbn [obind] in A. injection A as -> <-. exists cevs, ws, wx, led. auto.
Qed.

Lemma cd_decide_zero fuel h o i c argc cells file :
  cd_decide z e jk hj xjk hjunk al opn ls room fuel h o i c argc cells = Ok (CRet 0, file) ->
  ((exists v, h = Some v) /\ file = None) \/
  exists out data, o = Some out /\ opn out = true /\ file = Some (out, data) /\
    ((i = None /\ (exists v, c = Some v) /\ argc = 0 /\ data = []) \/
     exists dir cevs ws wx led,
       (i = Some dir \/ i = None /\ 0 < argc /\ arg_at 0 cells = Ok dir) /\
       compress_dir z e cd_filter jk hj xjk hjunk al fuel Z_BEST_COMPRESSION 1 false [] (ls dir) tt =
         Ok (CRet 0, cevs, ws, wx, led) /\
       data = takeN room (cev_bytes cevs)).
Proof.
  intro H. unfold cd_decide in H. destruct h as [h|]; [left; injection H as <-; eauto|].
  right. destruct o as [out|]; [|discriminate H]. exists out.
  destruct ((match i, c with None, None => true | _, _ => false end) && (argc =? 0))%bool eqn:E1; [discriminate H|].
  destruct (opn out) eqn:E2; cbn [negb] in H; [|discriminate H].
  destruct i as [dir|].
  - destruct (cd_archive _ _ _ _ _ _ _ _ _ _ dir) as [[r data]| |] eqn:Ea; try discriminate H. cbn [obind] in H. injection H as -> <-.
    destruct (cd_archive_zero _ _ _ Ea) as (cevs & ws & wx & led & A & B). exists data.
    split; [reflexivity|]. split; [reflexivity|]. split; [reflexivity|]. right. exists dir, cevs, ws, wx, led. auto.
  - destruct (argc =? 0) eqn:E3; cbn [negb] in H.
    + injection H as <-. exists []. split; [reflexivity|]. split; [reflexivity|]. split; [reflexivity|]. left. destruct c as [v|]; [|discriminate E1].
      split; [reflexivity|]. split; [now exists v|]. split; [lia|reflexivity].
    + destruct (arg_at 0 cells) as [dir| |] eqn:Ed; try discriminate H. cbn [obind] in H.
      destruct (cd_archive _ _ _ _ _ _ _ _ _ _ dir) as [[r data]| |] eqn:Ea; try discriminate H. cbn [obind] in H. injection H as -> <-.
      destruct (cd_archive_zero _ _ _ Ea) as (cevs & ws & wx & led & A & B). exists data.
      split; [reflexivity|]. split; [reflexivity|]. split; [reflexivity|]. right. exists dir, cevs, ws, wx, led. split; [|auto].
      right. split; [reflexivity|]. split; [lia|reflexivity].
Qed.

Lemma cd_after_zero fuel s file : cd_after z e jk hj xjk hjunk al opn ls room fuel s = Ok (CRet 0, file) ->
  exists h o i c, value_right (b "-h") (ps_prs s) = Ok h /\ value_right (b "-of") (ps_prs s) = Ok o /\
    value_right (b "-if") (ps_prs s) = Ok i /\ value_right (b "-cf") (ps_prs s) = Ok c /\
    cd_decide z e jk hj xjk hjunk al opn ls room fuel h o i c (ps_argc s) (ps_cells s) = Ok (CRet 0, file).
Proof.
  intro H. unfold cd_after in H. cbv zeta in H.
  destruct (value_right (b "-h") (ps_prs s)) as [h| |]; try discriminate H.
  destruct (value_right (b "-of") (ps_prs s)) as [o| |]; try discriminate H.
  destruct (value_right (b "-if") (ps_prs s)) as [i| |]; try discriminate H.
  destruct (value_right (b "-cf") (ps_prs s)) as [c| |]; try discriminate H. cbn [obind] in H.
  exists h, o, i, c. do 4 (split; [reflexivity|]).
  destruct (cd_decide z e jk hj xjk hjunk al opn ls room fuel h o i c (ps_argc s) (ps_cells s)) as [[r f]| |]; try discriminate H.
  cbn [obind fst] in H. destruct r; [destruct (clear (ps_prs s)); try discriminate H|]; cbn [obind] in H; congruence.
Qed.

Lemma cd_complete fuel dir es cevs ws wx led : ls dir = Some es -> junk_ok jk hj xjk hjunk -> tree_fits (Some es) ->
  Forall (fun x => quiet (snd x)) es -> last_not_full cevs -> lenN (cev_bytes cevs) <= room ->
  compress_dir z e cd_filter jk hj xjk hjunk al fuel Z_BEST_COMPRESSION 1 false [] (ls dir) tt =
         Ok (CRet 0, cevs, ws, wx, led) -> unpacks z (takeN room (cev_bytes cevs)) (preorder es).
Proof.
  intros Hl J Ft Q L Hr Hc. rewrite takeN_all by exact Hr. rewrite Hl in Hc.
  destruct (dir_unpacks z C e _ jk hj xjk hjunk al _ _ _ (Some es) _ _ _ _ _ J Ft Q L Hc) as (recs & f1 & t & T & U).
  cbn [listing] in T.
  destruct (trav_pure (fun _ _ _ => 0%Z) cd_filter (fun _ _ _ _ => eq_refl) ltac:(discriminate) _ _ _ _ _ _ T (jobs_all (fun _ x => quiet x) _ _ Q)) as (_ & _ & E).
  rewrite kept_jobs, kept_all in E. now rewrite E in U.
Qed.

(** C64 *)
Lemma cd_after_status fuel s file : junk_ok jk hj xjk hjunk ->
  cd_after z e jk hj xjk hjunk al opn ls room fuel s = Ok (CRet 0, file) ->
  let given o := value_right (b o) (ps_prs s) in
  ((exists v, given "-h"%string = Ok (Some v)) /\ file = None) \/
  exists out data, given "-of"%string = Ok (Some out) /\ opn out = true /\ file = Some (out, data) /\
    ((given "-if"%string = Ok None /\ (exists v, given "-cf"%string = Ok (Some v)) /\ ps_argc s = 0 /\ data = []) \/
     exists dir cevs,
       (given "-if"%string = Ok (Some dir) \/
        given "-if"%string = Ok None /\ 0 < ps_argc s /\ arg_at 0 (ps_cells s) = Ok dir) /\
       data = takeN room (cev_bytes cevs) /\
       forall es, ls dir = Some es -> tree_fits (Some es) -> Forall (fun x => quiet (snd x)) es ->
         last_not_full cevs -> lenN (cev_bytes cevs) <= room -> unpacks z data (preorder es)).
Proof.
  intros J H. destruct (cd_after_zero _ _ _ H) as (h & o & i & c & Eh & Eo & Ei & Ec & D). cbv beta zeta.
  rewrite Eh, Eo, Ei, Ec. apply cd_decide_zero in D.
  destruct D as [[[v ->] ->]|(out & data & -> & B & D & Q)]; [left; eauto|right]. exists out, data.
  split; [reflexivity|]. split; [exact B|]. split; [exact D|].
  destruct Q as [(-> & [v ->] & Q)|(dir & cevs & ws & wx & led & A1 & A2 & A3)]; [left; eauto|right]. exists dir, cevs.
  split; [destruct A1 as [->|(-> & A1)]; auto|]. split; [exact A3|]. intros es Hl Ft Hq L Hr. subst data. eapply cd_complete; eauto.
Qed.

Lemma cd_status_any pfuel fuel args file rp : junk_ok jk hj xjk hjunk ->
  (do p <- rp; do s <- parse_args pfuel args p; cd_after z e jk hj xjk hjunk al opn ls room fuel s) = Ok (CRet 0, file) ->
  exists p s, rp = Ok p /\ parse_args pfuel args p = Ok s /\
  let given o := value_right (b o) (ps_prs s) in
  ((exists v, given "-h"%string = Ok (Some v)) /\ file = None) \/
  exists out data, given "-of"%string = Ok (Some out) /\ opn out = true /\ file = Some (out, data) /\
    ((given "-if"%string = Ok None /\ (exists v, given "-cf"%string = Ok (Some v)) /\ ps_argc s = 0 /\ data = []) \/
     exists dir cevs,
       (given "-if"%string = Ok (Some dir) \/
        given "-if"%string = Ok None /\ 0 < ps_argc s /\ arg_at 0 (ps_cells s) = Ok dir) /\
       data = takeN room (cev_bytes cevs) /\
       forall es, ls dir = Some es -> tree_fits (Some es) -> Forall (fun x => quiet (snd x)) es ->
         last_not_full cevs -> lenN (cev_bytes cevs) <= room -> unpacks z data (preorder es)).
Proof.
  intros J H.
  destruct rp as [p| |]; try discriminate H. cbn [obind] in H. exists p.
  destruct (parse_args pfuel args p) as [s| |] eqn:E; try discriminate H. cbn [obind] in H. exists s.
  split; [reflexivity|]. split; [reflexivity|]. exact (cd_after_status fuel s file J H).
Qed.

Lemma cd_status pfuel fuel args file : junk_ok jk hj xjk hjunk ->
  cd_main z e jk hj xjk hjunk al opn ls room pfuel fuel args = Ok (CRet 0, file) ->
  exists p s, run_aops cd_options prs_new = Ok p /\ parse_args pfuel args p = Ok s /\
  let given o := value_right (b o) (ps_prs s) in
  ((exists v, given "-h"%string = Ok (Some v)) /\ file = None) \/
  exists out data, given "-of"%string = Ok (Some out) /\ opn out = true /\ file = Some (out, data) /\
    ((given "-if"%string = Ok None /\ (exists v, given "-cf"%string = Ok (Some v)) /\ ps_argc s = 0 /\ data = []) \/
     exists dir cevs,
       (given "-if"%string = Ok (Some dir) \/
        given "-if"%string = Ok None /\ 0 < ps_argc s /\ arg_at 0 (ps_cells s) = Ok dir) /\
       data = takeN room (cev_bytes cevs) /\
       forall es, ls dir = Some es -> tree_fits (Some es) -> Forall (fun x => quiet (snd x)) es ->
         last_not_full cevs -> lenN (cev_bytes cevs) <= room -> unpacks z data (preorder es)).
Proof. exact (cd_status_any pfuel fuel args file (run_aops cd_options prs_new)). Qed.
End CompressDir.
