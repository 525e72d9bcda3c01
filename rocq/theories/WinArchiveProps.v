(** WinArchiveProps.v: archiving on Windows (C135-C137). *)
From Coq Require Import Lia.
From Verif Require Import Base Format Zlib LLCompress Compress Parser ParserProofs ParserFacts Decompress DecompressProofs MidProofs MidFacts
  ArchiveSpec ArchiveFacts ArchiveDecode ArchiveEntry ArchiveProps FS FSFacts HL HLSpec HLFacts HLDrive HLProps WinArchive WinArchiveSpec WinArchiveFacts.

Lemma Forall_map_pair (P Q : bytes -> snode -> Prop) (g : bytes -> snode -> snode) (es : list (bytes * snode)) :
  Forall (fun x => P (fst x) (snd x) -> Q (fst x) (g (fst x) (snd x))) es -> Forall (fun x => P (fst x) (snd x)) es ->
  Forall (fun x => Q (fst x) (snd x)) (map (fun x => (fst x, g (fst x) (snd x))) es).
Proof. induction es as [|x es IH]; intros A B; cbn [map]; [apply Forall_nil|]. inversion A; inversion B; subst. apply Forall_cons; auto. Qed.

Lemma unlinked_fits nd : forall n, fits n nd -> fits n (unlinked nd).
Proof.
  induction nd as [o st m sz d r|m es IH|m sz t|] using snode_ind2; intros n H; cbn [unlinked]; auto; [|apply ft_other].
  inversion H; subst. apply ft_dir; auto. apply (Forall_map_pair fits fits (fun _ => unlinked)); [|assumption].
  rewrite Forall_forall in *. intros x Hx. apply IH, Hx.
Qed.
Lemma win_fits locked nd : forall dir n, fits n nd -> fits n (on_win locked dir n nd).
Proof.
  induction nd as [o st m sz d r|m es IH|m sz t|] using snode_ind2; intros dir n H; cbn [on_win]; (destruct (dotb n); [now apply unlinked_fits|]); auto; try apply ft_other.
  - inversion H; subst. now apply ft_file.
  - inversion H; subst. apply ft_dir; auto. apply (Forall_map_pair fits fits (on_win locked (dir ++ [n]))); [|assumption].
    rewrite Forall_forall in *. intros x Hx. apply IH, Hx.
Qed.
Lemma win_all_fits locked es : tree_fits (Some es) -> tree_fits (Some (on_win_all locked [] es)).
Proof.
  unfold tree_fits. cbn [listing]. intro H. apply (Forall_map_pair fits fits (on_win locked [])); [|exact H].
  apply Forall_forall. intros x _. apply win_fits.
Qed.

Lemma Forall_map_any (P : snode -> Prop) (g : bytes -> snode -> snode) (es : list (bytes * snode)) :
  Forall (fun x => P (g (fst x) (snd x))) es -> Forall (fun x => P (snd x)) (map (fun x => (fst x, g (fst x) (snd x))) es).
Proof. induction es as [|x es IH]; intros A; cbn [map]; [apply Forall_nil|]. inversion A; subst. apply Forall_cons; auto. Qed.
Lemma unlinked_hold nd : links_hold (unlinked nd).
Proof.
  induction nd as [o st m sz d r|m es IH|m sz t|] using snode_ind2; cbn [unlinked]; try constructor.
  now apply (Forall_map_any links_hold (fun _ => unlinked)).
Qed.
Lemma win_hold locked nd : forall dir n, links_hold (on_win locked dir n nd).
Proof.
  induction nd as [o st m sz d r|m es IH|m sz t|] using snode_ind2; intros dir n; cbn [on_win]; (destruct (dotb n); [apply unlinked_hold|]); try constructor.
  apply (Forall_map_any links_hold (on_win locked (dir ++ [n]))). rewrite Forall_forall in *. intros x Hx. apply IH, Hx.
Qed.

Lemma Forall_map_iff (P Q : bytes -> snode -> Prop) (g : bytes -> snode -> snode) (es : list (bytes * snode)) :
  Forall (fun x => P (fst x) (g (fst x) (snd x)) <-> Q (fst x) (snd x)) es ->
  (Forall (fun x => P (fst x) (snd x)) (map (fun x => (fst x, g (fst x) (snd x))) es) <-> Forall (fun x => Q (fst x) (snd x)) es).
Proof.
  induction es as [|x es IH]; intros A; cbn [map]; [split; intro; apply Forall_nil|]. inversion A as [|? ? A1 A2]; subst. specialize (IH A2).
  split; intro H; inversion H; subst; apply Forall_cons; tauto.
Qed.
Lemma win_sound locked nd : forall dir n, sound n (on_win locked dir n nd) <-> wsound locked dir n nd.
Proof.
  induction nd as [o st m sz d r|m es IH|m sz t|] using snode_ind2; intros dir n; cbn [on_win];
    (destruct (dotb n) eqn:D; [apply dotb_spec in D; split; intros _; [now apply wso_dot|now apply so_dot]|]);
    (assert (Nd : ~ dotted n) by (intro Q; apply dotb_spec in Q; congruence)).
  - split; intro H; inversion H; subst; try contradiction.
    + match goal with Q : true = o && negb _ |- _ => symmetry in Q; apply andb_prop in Q; destruct Q as [-> Q]; apply Bool.negb_true_iff in Q end. now apply wso_file.
    + match goal with Q : locked _ = false |- _ => rewrite Q end. apply so_file.
  - assert (E : Forall (fun x => sound (fst x) (snd x)) (map (fun x => (fst x, on_win locked (dir ++ [n]) (fst x) (snd x))) es) <->
      Forall (fun x => wsound locked (dir ++ [n]) (fst x) (snd x)) es).
    { apply (Forall_map_iff sound (wsound locked (dir ++ [n])) (on_win locked (dir ++ [n]))). rewrite Forall_forall in *. intros x Hx. apply IH, Hx. }
    split; intro H; inversion H; subst; try contradiction; [apply wso_dir|apply so_dir]; tauto.
  - split; intros _; [apply wso_link|apply so_other].
  - split; intros _; [apply wso_other|apply so_other].
Qed.
Lemma win_all_sound locked es : Forall (fun x => sound (fst x) (snd x)) (on_win_all locked [] es) <-> Forall (fun x => wsound locked [] (fst x) (snd x)) es.
Proof. apply (Forall_map_iff sound (wsound locked []) (on_win locked [])). apply Forall_forall. intros x _. apply win_sound. Qed.

Lemma sound_unlinked locked nd : forall dir n, wsound locked dir n nd -> on_win locked dir n nd = unlinked nd.
Proof.
  induction nd as [o st m sz d r|m es IH|m sz t|] using snode_ind2; intros dir n H; cbn [on_win];
    (destruct (dotb n) eqn:D; [reflexivity|]);
    (assert (Nd : ~ dotted n) by (intro Q; apply dotb_spec in Q; congruence)); inversion H as [| | ? ? ? ? Fa | |]; subst; try contradiction; try reflexivity.
  - match goal with Q : locked _ = false |- _ => rewrite Q end. reflexivity.
  - cbn [unlinked]. f_equal. apply map_ext_in. intros x Hx. rewrite Forall_forall in *. f_equal. apply (IH x Hx), Fa, Hx.
Qed.

(** The filter that takes everything. *)
Definition take_all (_ : unit) (_ : list bytes) (_ : bytes) (_ : skind) : Z * unit := (0%Z, tt).

Lemma take_alike F (filt : F -> list bytes -> bytes -> skind -> Z * F) : accepts filt -> forall f g d n k, True ->
  fst (filt f d n k) = fst (take_all g d n (nolink k)) /\ True.
Proof. intros A f g d n k _. split; [apply A|exact I]. Qed.

Section Runs.
Context (z : zlib) (C : zlib_contract z) (F : Type) (e : endian) (filt : F -> list bytes -> bytes -> skind -> Z * F).
Context (jk : N -> bytes) (xjk : N -> N -> bytes) (hjunk : bytes) (al : N -> bool) (locked : list bytes -> bool).
Context (J : junk_ok jk (fun _ n => zeros n) xjk hjunk).

(** It returns. *)
Lemma win_returns level clbk nested xs es f0 : accepts filt -> tree_fits (Some es) -> Forall xb_ok xs ->
  exists fuel r cevs ws wx led, wcompress_dir z e filt jk xjk hjunk al locked fuel level clbk nested xs (Some es) f0 = Ok (r, cevs, ws, wx, led).
Proof.
  intros A Ft Fx.
  destruct (compress_dir_total z C e take_all jk (fun _ n => zeros n) xjk hjunk al level clbk nested xs (Some (on_win_all locked [] es)) tt J (win_all_fits locked es Ft) Fx)
    as (fuel & r & E).
  exists fuel.
  pose proof (compress_win e filt take_all (fun _ _ => True) jk (fun _ n => zeros n) locked (take_alike F filt A) z xjk hjunk al fuel level clbk nested xs (Some es) f0 tt I) as Q.
  cbn [option_map] in Q. destruct (wcompress_dir z e filt jk xjk hjunk al locked fuel level clbk nested xs (Some es) f0) as [[[[[r' cevs] ws] wx] led]| |].
  - now exists r', cevs, ws, wx, led.
  - rewrite Q in E. discriminate E.
  - rewrite Q in E. discriminate E.
Qed.

(** The result tells whether every file could be read. *)
Lemma win_reported fuel level clbk nested xs es f0 r cevs ws wx led : accepts filt -> tree_fits (Some es) -> Forall xb_ok xs -> created z al level ->
  wcompress_dir z e filt jk xjk hjunk al locked fuel level clbk nested xs (Some es) f0 = Ok (r, cevs, ws, wx, led) ->
  (r = CRet 0 /\ Forall (fun x => wsound locked [] (fst x) (snd x)) es) \/ (r = CRet 2 /\ ~ Forall (fun x => wsound locked [] (fst x) (snd x)) es).
Proof.
  intros A Ft Fx Cr E.
  pose proof (compress_win e filt take_all (fun _ _ => True) jk (fun _ n => zeros n) locked (take_alike F filt A) z xjk hjunk al fuel level clbk nested xs (Some es) f0 tt I) as Q.
  rewrite E in Q. cbn [option_map] in Q. destruct Q as (ws' & _ & Q).
  destruct (failures_reported z C e take_all _ _ _ _ _ _ _ _ _ _ _ _ _ _ _ _ _ J (win_all_fits locked es Ft) Fx Cr Q) as (P1 & _ & P3).
  cbn [listing] in P1, P3. rewrite (win_all_sound locked es) in P1, P3.
  destruct P3 as [P3|P3]; [intros ? ? ? ?; reflexivity| |left; exact P3|right].
  - apply (Forall_map_any links_hold (on_win locked [])). apply Forall_forall. intros x _. apply win_hold.
  - split; [exact P3|]. intro S. now apply (P1 S).
Qed.

Lemma win_archived fuel level clbk es f0 cevs ws wx led : accepts filt -> tree_fits (Some es) -> created z al level -> last_not_full cevs ->
  wcompress_dir z e filt jk xjk hjunk al locked fuel level clbk false [] (Some es) f0 = Ok (CRet 0, cevs, ws, wx, led) ->
  archives_dir z (unlinked_all es) (cev_bytes cevs).
Proof.
  intros A Ft Cr Ln E.
  destruct (win_reported _ _ _ _ _ _ _ _ _ _ _ _ A Ft (Forall_nil _) Cr E) as [[_ S]|[Q _]]; [|discriminate Q].
  pose proof (compress_win e filt take_all (fun _ _ => True) jk (fun _ n => zeros n) locked (take_alike F filt A) z xjk hjunk al fuel level clbk false [] (Some es) f0 tt I) as Q.
  rewrite E in Q. cbn [option_map] in Q. destruct Q as (ws' & _ & Q).
  assert (Eu : on_win_all locked [] es = unlinked_all es).
  { unfold on_win_all, unlinked_all. apply map_ext_in. intros x Hx. rewrite Forall_forall in S. f_equal. exact (sound_unlinked locked _ _ _ (S x Hx)). }
  pose proof (win_all_fits locked es Ft) as Ft'. rewrite Eu in Q, Ft'.
  exists unit, take_all, e, jk, (fun _ n => zeros n), xjk, hjunk, al, fuel, level, clbk, tt, cevs, ws', (map relabel wx), led.
  split; [exact J|]. split; [exact Ft'|]. split; [intros ? ? ? ?; reflexivity|]. split; [exact Q|]. auto.
Qed.
End Runs.

Lemma windows_archive z (C : zlib_contract z) es F : warchives_dir z es F -> archives_dir z (unlinked_all es) F.
Proof.
  intros (e & A & filt & jk & xjk & hjunk & al & locked & fuel & level & clbk & f0 & cevs & ws & wx & led & E & J & Ft & Ac & Cr & Ln & ->).
  exact (win_archived z C A e filt jk xjk hjunk al locked J _ _ _ _ _ _ _ _ _ Ac Ft Cr Ln E).
Qed.

(** It can be extracted on Unix. *)
Lemma unlinked_quiet nd : quiet nd -> quiet (unlinked nd).
Proof.
  induction nd as [o st m sz d r|m es IH|m sz t|] using snode_ind2; intro H; cbn [unlinked]; auto; [|apply q_other].
  inversion H; subst. apply q_dir. apply (Forall_map_any quiet (fun _ => unlinked)). rewrite Forall_forall in *. intros x Hx. apply (IH x Hx). auto.
Qed.
Lemma win_to_unix z (C : zlib_contract z) es F e alloc hal al stk obuf hjunk pjunk T archive inp t o fuel :
  warchives_dir z es F -> input_of archive F inp -> (length inp < fuel)%nat ->
  calm z hal al stk obuf hjunk pjunk -> (forall k n, alloc k n = true) ->
  preorder (unlinked_all es) <> [] -> Forall (fun x => quiet (snd x)) es -> NoDup (map fst es) ->
  Forall (fun x => extractable (o_priv o) (o_umask o) (lenN T) (fst x) (snd x)) (unlinked_all es) ->
  free_spot o T t -> usable_dir (o_priv o) (o_umask o) MODE_BASE_DIR -> (forall r, o_fs o (t ++ r) = None) ->
  volume (preorder (unlinked_all es)) <= o_free o ->
  exists dfuel0, forall dfuel, (dfuel0 <= dfuel)%nat -> exists ret s h ds o',
    exec (extract T hal stk z e alloc archive fuel dfuel al obuf hjunk pjunk inp false) o = Ok ((ret, Some (s, h, ds)), o') /\
    (room_left s -> ret = ContentDirectory /\ same_env o o' /\
       forall q, o_fs o' q = overlay t (dir_tree (o_umask o) (unlinked_all es)) (o_fs o) q).
Proof.
  intros A I Hf Ca Ha Ne Q ND X Fs U Fr V. apply (windows_archive z C) in A. apply (disk_dir z C _ F); auto.
  - apply (Forall_map_any quiet (fun _ => unlinked)). eapply Forall_impl; [|exact Q]. intros x. apply unlinked_quiet.
  - unfold unlinked_all. now rewrite map_map.
Qed.
