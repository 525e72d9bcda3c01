(** WinCdFacts.v: compressdir on Windows does what it does on Unix for a folder without links, where the files in use cannot be opened. *)
From Coq Require Import Lia Strings.String.
From Verif Require Import Base Format Zlib LLCompress Compress Parser ParserProofs ParserFacts Decompress DecompressProofs MidProofs MidFacts
  ArchiveSpec ArchiveFacts ArchiveDecode ArchiveEntry ArchiveProps FS HLProps ArgParser ArgSpec ArgFacts ArgMore Tools ToolsSpec ToolsFacts
  WinArchive WinArchiveSpec WinArchiveFacts WinArchiveProps WinCd WinCdSpec.

Local Notation b := list_byte_of_string.

Lemma sound_file locked p es : file_at p es -> forall dir, Forall (fun x => wsound locked dir (fst x) (snd x)) es -> locked (dir ++ p) = false.
Proof.
  induction 1 as [n o st m sz d r es Nd Hi|n m sub p es Nd Hi Hp IH]; intros dir Fa; rewrite Forall_forall in Fa; specialize (Fa _ Hi); cbn [fst snd] in Fa; inversion Fa; subst; try contradiction; auto.
  match goal with Q : Forall _ sub |- _ => specialize (IH _ Q) end. rewrite <- app_assoc in IH. exact IH.
Qed.

Section Runs.
Context (z : zlib) (C : zlib_contract z) (e : endian) (jk : N -> bytes) (xjk : N -> N -> bytes)
  (hjunk : bytes) (al : N -> bool) (opn : bytes -> bool) (ls : bytes -> option (list (bytes * snode)))
  (locked : bytes -> bytes -> list bytes -> bool) (room : N).

Definition seen_ls (out dir : bytes) : option (list (bytes * snode)) := option_map (on_win_all (locked out dir) []) (ls dir).
Let hj : N -> N -> bytes := fun _ n => zeros n.

Lemma archive_same fuel out dir : wcd_archive z e jk xjk hjunk al ls locked room fuel out dir =
  cd_archive z e jk hj xjk hjunk al (seen_ls out) room fuel dir.
Proof.
  unfold wcd_archive, cd_archive, seen_ls.
  pose proof (compress_win e cd_filter cd_filter (fun _ _ => True) jk hj (locked out dir) (fun _ _ _ _ _ _ => conj eq_refl I) z xjk hjunk al fuel Z_BEST_COMPRESSION 1 false [] (ls dir) tt tt I) as Q.
  destruct (wcompress_dir z e cd_filter jk xjk hjunk al (locked out dir) fuel Z_BEST_COMPRESSION 1 false [] (ls dir) tt) as [[[[[r cevs] ws] wx] led]| |].
  - destruct Q as (ws' & _ & ->). reflexivity.
  - rewrite Q. reflexivity.
  - rewrite Q. reflexivity.
Qed.

Lemma decide_same fuel h of inf cf argc cells out : (of = None \/ of = Some out) ->
  wcd_decide z e jk xjk hjunk al opn ls locked room fuel h of inf cf argc cells = cd_decide z e jk hj xjk hjunk al opn (seen_ls out) room fuel h of inf cf argc cells.
Proof.
  intro Ho. unfold wcd_decide, cd_decide. destruct h; [reflexivity|]. destruct of as [o|]; [|reflexivity].
  destruct Ho as [Q|Q]; [discriminate Q|injection Q as ->]. destruct (_ && _); [reflexivity|]. destruct (negb (opn out)); [reflexivity|].
  destruct inf; [now rewrite archive_same|]. destruct (negb _); [|reflexivity]. destruct (arg_at 0 cells); [|reflexivity|reflexivity]. cbn [obind]. now rewrite archive_same.
Qed.

Lemma after_same fuel s of out : value_right (b "-of") (ps_prs s) = Ok of -> (of = None \/ of = Some out) ->
  wcd_after z e jk xjk hjunk al opn ls locked room fuel s = cd_after z e jk hj xjk hjunk al opn (seen_ls out) room fuel s.
Proof.
  intros E Ho. unfold wcd_after, cd_after. cbv zeta. destruct (value_right (b "-h") (ps_prs s)); [|reflexivity|reflexivity]. cbn [obind].
  rewrite E. cbn [obind]. destruct (value_right (b "-if") (ps_prs s)); [|reflexivity|reflexivity]. cbn [obind].
  destruct (value_right (b "-cf") (ps_prs s)); [|reflexivity|reflexivity]. cbn [obind]. now rewrite (decide_same _ _ _ _ _ _ _ out Ho).
Qed.

Lemma wcd_after_status fuel s file : junk_ok jk hj xjk hjunk ->
  wcd_after z e jk xjk hjunk al opn ls locked room fuel s = Ok (CRet 0, file) ->
  let given o := value_right (b o) (ps_prs s) in
  ((exists v, given "-h"%string = Ok (Some v)) /\ file = None) \/
  exists out data, given "-of"%string = Ok (Some out) /\ opn out = true /\ file = Some (out, data) /\
    ((given "-if"%string = Ok None /\ (exists v, given "-cf"%string = Ok (Some v)) /\ ps_argc s = 0 /\ data = []) \/
     exists dir cevs,
       (given "-if"%string = Ok (Some dir) \/
        given "-if"%string = Ok None /\ 0 < ps_argc s /\ arg_at 0 (ps_cells s) = Ok dir) /\
       data = takeN room (cev_bytes cevs) /\
       forall es, ls dir = Some es -> tree_fits (Some es) ->
         (forall p, file_at p es -> locked out dir p = false) /\
         (Forall (fun x => quiet (snd x)) es -> last_not_full cevs -> lenN (cev_bytes cevs) <= room -> unpacks z data (preorder (unlinked_all es)))).
Proof.
  intros J H. cbv zeta.
  assert (Ex : exists of out, value_right (b "-of") (ps_prs s) = Ok of /\ (of = None \/ of = Some out)).
  { unfold wcd_after in H. cbv zeta in H. destruct (value_right (b "-h") (ps_prs s)); try discriminate H. cbn [obind] in H.
    destruct (value_right (b "-of") (ps_prs s)) as [[o|]| |]; try discriminate H; [exists (Some o), o|exists None, []]; auto. }
  destruct Ex as (of & out0 & Eof & Ho). rewrite (after_same fuel s of out0 Eof Ho) in H.
  destruct (cd_after_zero z e jk hj xjk hjunk al opn (seen_ls out0) room _ _ _ H) as (h & o & i & c & Eh & Eo & Ei & Ec & D).
  rewrite Eof in Eo. injection Eo as <-.
  rewrite Eh, Eof, Ei, Ec. apply cd_decide_zero in D.
  destruct D as [[[v ->] ->]|(out & data & -> & B & D & Q)]; [left; eauto|right]. exists out, data.
  destruct Ho as [Ho|Ho]; [discriminate Ho|injection Ho as <-].
  split; [reflexivity|]. split; [exact B|]. split; [exact D|].
  destruct Q as [(-> & [v ->] & Q)|(dir & cevs & ws & wx & led & A1 & A2 & A3)]; [left; eauto|right]. exists dir, cevs.
  split; [destruct A1 as [->|(-> & A1)]; auto|]. split; [exact A3|]. intros es Hl Ft.
  assert (Sl : seen_ls out dir = Some (on_win_all (locked out dir) [] es)) by (unfold seen_ls; now rewrite Hl).
  pose proof (win_all_fits (locked out dir) es Ft) as Ft'.
  assert (S : Forall (fun x => wsound (locked out dir) [] (fst x) (snd x)) es).
  { rewrite Sl in A2. 
    assert (Cr : created z al Z_BEST_COMPRESSION).
    { destruct (compress_dir_spec z C e cd_filter jk hj xjk hjunk al _ _ _ _ _ _ _ _ _ _ _ _ J Ft' (Forall_nil _) A2) as [(_ & Q & _)|(Q & _)]; [discriminate Q|exact Q]. }
    destruct (failures_reported z C e cd_filter _ _ _ _ _ _ _ _ _ _ _ _ _ _ _ _ _ J Ft' (Forall_nil _) Cr A2) as (_ & _ & P3).
    cbn [listing] in P3. rewrite (win_all_sound (locked out dir) es) in P3. destruct P3 as [P3|P3]; [intros ? ? ? ?; reflexivity| |apply P3|discriminate P3].
    apply (Forall_map_any links_hold (on_win (locked out dir) [])). apply Forall_forall. intros x _. apply win_hold. }
  split.
  - intros p Hp. exact (sound_file _ _ _ Hp [] S).
  - intros Hq L Hr. subst data.
    assert (Eu : on_win_all (locked out dir) [] es = unlinked_all es).
    { unfold on_win_all, unlinked_all. apply map_ext_in. intros x Hx. rewrite Forall_forall in S. f_equal. exact (sound_unlinked _ _ _ _ (S x Hx)). }
    rewrite Eu in *. eapply (cd_complete z C e jk hj xjk hjunk al (seen_ls out) room); eauto.
    apply (Forall_map_any quiet (fun _ => unlinked)). eapply Forall_impl; [|exact Hq]. intros x. apply unlinked_quiet.
Qed.

Lemma wcd_status_any pfuel fuel args file rp : junk_ok jk hj xjk hjunk ->
  (do p <- rp; do s <- parse_args pfuel args p; wcd_after z e jk xjk hjunk al opn ls locked room fuel s) = Ok (CRet 0, file) ->
  exists p s, rp = Ok p /\ parse_args pfuel args p = Ok s /\
  let given o := value_right (b o) (ps_prs s) in
  ((exists v, given "-h"%string = Ok (Some v)) /\ file = None) \/
  exists out data, given "-of"%string = Ok (Some out) /\ opn out = true /\ file = Some (out, data) /\
    ((given "-if"%string = Ok None /\ (exists v, given "-cf"%string = Ok (Some v)) /\ ps_argc s = 0 /\ data = []) \/
     exists dir cevs,
       (given "-if"%string = Ok (Some dir) \/
        given "-if"%string = Ok None /\ 0 < ps_argc s /\ arg_at 0 (ps_cells s) = Ok dir) /\
       data = takeN room (cev_bytes cevs) /\
       forall es, ls dir = Some es -> tree_fits (Some es) ->
         (forall p, file_at p es -> locked out dir p = false) /\
         (Forall (fun x => quiet (snd x)) es -> last_not_full cevs -> lenN (cev_bytes cevs) <= room -> unpacks z data (preorder (unlinked_all es)))).
Proof.
  intros J H.
  destruct rp as [p| |]; try discriminate H. cbn [obind] in H. exists p.
  destruct (parse_args pfuel args p) as [s| |] eqn:E; try discriminate H. cbn [obind] in H. exists s.
  split; [reflexivity|]. split; [reflexivity|]. exact (wcd_after_status fuel s file J H).
Qed.
Lemma wcd_status pfuel fuel args file : junk_ok jk hj xjk hjunk ->
  wcd_main z e jk xjk hjunk al opn ls locked room pfuel fuel args = Ok (CRet 0, file) ->
  exists p s, run_aops cd_options prs_new = Ok p /\ parse_args pfuel args p = Ok s /\
  let given o := value_right (b o) (ps_prs s) in
  ((exists v, given "-h"%string = Ok (Some v)) /\ file = None) \/
  exists out data, given "-of"%string = Ok (Some out) /\ opn out = true /\ file = Some (out, data) /\
    ((given "-if"%string = Ok None /\ (exists v, given "-cf"%string = Ok (Some v)) /\ ps_argc s = 0 /\ data = []) \/
     exists dir cevs,
       (given "-if"%string = Ok (Some dir) \/
        given "-if"%string = Ok None /\ 0 < ps_argc s /\ arg_at 0 (ps_cells s) = Ok dir) /\
       data = takeN room (cev_bytes cevs) /\
       forall es, ls dir = Some es -> tree_fits (Some es) ->
         (forall p, file_at p es -> locked out dir p = false) /\
         (Forall (fun x => quiet (snd x)) es -> last_not_full cevs -> lenN (cev_bytes cevs) <= room -> unpacks z data (preorder (unlinked_all es)))).
Proof. exact (wcd_status_any pfuel fuel args file (run_aops cd_options prs_new)). Qed.
End Runs.
