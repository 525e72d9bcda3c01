(** SelfRunFacts.v: running the executables made by the self extract tool; extracting what compressdir wrote. *)
From Coq Require Import Lia Strings.String.
From Verif Require Import Base Format Zlib LLCompress Compress Parser ParserProofs ParserFacts Decompress DecompressProofs MidProofs MidFacts
  ArchiveSpec ArchiveFacts ArchiveDecode ArchiveEntry ArchiveProps FS FSFacts HL HLSpec HLFacts HLDrive HLProps HLMore ArgParser ArgSpec
  Tools ToolsSpec ToolsFacts SelfRun.
Local Notation b := list_byte_of_string.

Section Archive.
Context (z : zlib) (C : zlib_contract z) (e : endian) {St : Type} (filt : St -> list bytes -> bytes -> skind -> Z * St)
  (jk : N -> bytes) (hj : N -> N -> bytes) (xjk : N -> N -> bytes) (hjunk : bytes) (al : N -> bool).

Lemma dir_written fuel level clbk es f0 cevs ws wx led : junk_ok jk hj xjk hjunk -> tree_fits (Some es) ->
  Forall (fun x => quiet (snd x)) es -> last_not_full cevs ->
  compress_dir z e filt jk hj xjk hjunk al fuel level clbk false [] (Some es) f0 = Ok (CRet 0, cevs, ws, wx, led) ->
  exists recs f1 t, trav filt f0 (jobs [] es) f1 (visits wx) recs t /\ dir_archive C (cev_bytes cevs) recs.
Proof.
  intros J Ft Q L H.
  destruct (compress_dir_spec z C e filt jk hj xjk hjunk al _ _ _ _ _ _ _ _ _ _ _ _ J Ft (Forall_nil _) H)
    as [(_ & Q' & _)|(_ & xr & recs & content & X1 & T & En & R & P & B & Fi & Q')]; [discriminate|].
  specialize (Q' L). cbn in X1. subst xr. cbn [app] in En.
  destruct (header_archive e ContentDirectory hjunk content (proj2 (proj2 (proj2 J))) eq_refl) as [Ar Dr]. rewrite <- Q' in Ar, Dr.
  exists recs, (w_f ws), (tend_of ws). split; [exact T|].
  assert (Ok1 : Forall rec_ok recs).
  { destruct (trav_rec_ok filt _ _ _ _ _ _ T) as [Q1|Q1]; [| |exact Q1].
    - apply jobs_all. unfold tree_fits in Ft. cbn [listing] in *. rewrite Forall_forall in *. intros x Hx. split; [auto|]. apply quiet_steady. auto.
    - rewrite Q1 in R. discriminate. }
  split; [exact B|]. split; [exact Fi|]. split; [exact Ar|]. split; [now rewrite Dr|exact Ok1].
Qed.
End Archive.

(** ** The self extract tool: from the directory to .out_dir *)

Lemma filter_Forall {A} (P : A -> Prop) f l : Forall P l -> Forall P (filter f l).
Proof. induction 1; cbn [filter]; [constructor|]. destruct (f x); [constructor|]; assumption. Qed.
Lemma filter_names {A B} (g : A -> B) f l : NoDup (map g l) -> NoDup (map g (filter f l)).
Proof.
  induction l as [|x l IH]; intro H; [constructor|]. cbn [map filter] in *. inversion H as [|? ? Hn Hd]; subst.
  destruct (f x); [|auto]. cbn [map]. constructor; [|auto]. intro Q. apply Hn. apply in_map_iff in Q. destruct Q as (y & <- & Hy).
  apply in_map. now apply filter_In in Hy.
Qed.

Section Build.
Context (z : zlib) (C : zlib_contract z) (e : endian) (jk : N -> bytes) (hj : N -> N -> bytes) (xjk : N -> N -> bytes)
  (hjunk : bytes) (al : N -> bool) (ls : bytes -> option (list (bytes * snode))) (rd wr : N -> N -> N) (opn : N -> bool) (ndebug : bool).
Local Notation main := (se_main z e jk hj xjk hjunk al ls rd wr opn ndebug).

Lemma se_archived cfuel fuel argv0 exe out es : lenN exe <= max_exe ndebug -> (forall k n, wr k n = n) ->
  main cfuel fuel argv0 (Some exe) = Ok (SeBuild (CRet 0) out) ->
  ls (snd (se_name_dir argv0)) = Some es -> junk_ok jk hj xjk hjunk -> tree_fits (Some es) -> Forall (fun x => quiet (snd x)) es ->
  NoDup (map fst es) -> Forall (fun x => below_free (fst (se_name_dir argv0)) (snd x)) es -> Forall (fun x => below_free se_out (snd x)) es ->
  exists cevs, dropN (max_exe ndebug) out = cev_bytes cevs /\
    (last_not_full cevs -> dir_archive C (dropN (max_exe ndebug) out) (preorder (without_own (fst (se_name_dir argv0)) es)) /\
       forall cfuel' fuel' argv0', main cfuel' fuel' argv0' (Some out) = Ok (SeRun (dropN (max_exe ndebug) out))).
Proof.
  intros Hx Hw H. destruct (se_layout z C e jk hj xjk hjunk al ls rd wr opn ndebug _ _ _ _ _ Hx Hw H) as (cevs & ws & wx & led & Hc & _ & D & Run).
  destruct (se_name_dir argv0) as [name dir]. cbn [fst snd] in *. intros Hl J Ft Q Nd B1 B2. rewrite Hl in Hc, Run.
  exists cevs. split; [exact D|]. intro L. rewrite D. split; [|exact (Run J Ft L)].
  destruct (dir_written z C e _ jk hj xjk hjunk al _ _ _ es _ _ _ _ _ J Ft Q L Hc) as (recs & f1 & t & T & U).
  apply (se_trav ls) in T; cycle 1.
  { clear - B1. induction B1; constructor; [|assumption]. cbn [clean]. split; [assumption|]. intro Z; now elim Z. }
  { clear - B2. induction B2; constructor; [|assumption]. cbn [clean]. split; [assumption|]. intro Z; now elim Z. }
  { unfold left_ok. cbn [fst]. now apply (hits_nodup ls). }
  { unfold left_ok. cbn [snd]. now apply (hits_nodup ls). }
  destruct (trav_pure (own_ans name) (fun (_ : unit) d n k => (own_ans name d n k, tt)) (fun _ d n k => eq_refl) (own_ans_not name)
    _ _ _ _ _ _ T (jobs_all (fun _ x => quiet x) _ _ Q)) as (_ & _ & E).
  rewrite kept_jobs, kept_own in E. now rewrite E in U.
Qed.
End Build.

Lemma se_first : cstr se_arg0 = Some (b ".out_dir/maind.exe").
Proof. vm_compute. reflexivity. Qed.
Lemma se_second : cstr (se_patch se_arg0) = Some (b ".out_dir/main.exe").
Proof. vm_compute. reflexivity. Qed.

Section Go.
Context (hal : N -> bool) (stk : N) (z : zlib) (e : endian) (alloc : N -> N -> bool) (fuel dfuel : nat) (al : N -> bool)
  (obuf hjunk : bytes) (pjunk : Parser.pst) (dup : bool) (remove : os -> os) (start : N -> bytes -> os -> option Z * os).
Local Notation go := (se_go hal stk z e alloc fuel dfuel al obuf hjunk pjunk dup remove start).
Local Notation unpack := (extract se_dir hal stk z e alloc 0 fuel dfuel al obuf hjunk pjunk).

(** What is done after a successful extraction that left the state [o2]. *)
Definition se_after (sess : option (dsess z)) (o2 : os) : se_ran z :=
  let '(c1, o3) := start 0 (b ".out_dir/maind.exe") o2 in
  match c1 with
  | Some 0%Z => SR 0 [(b ".out_dir/maind.exe", o2)] (remove o3) sess
  | _ => SR 0 [(b ".out_dir/maind.exe", o2); (b ".out_dir/main.exe", o3)] (snd (start 1 (b ".out_dir/main.exe") o3)) sess
  end.

Lemma se_go_eq inp o : go inp o =
  if negb dup then Ok (SR 1 [] o None)
  else
    do (x, o2) <- exec (unpack inp false) (remove o);
    let '(ret, st) := x in
    let sess := match st with Some (s, _, _) => Some s | None => None end in
    Ok (if ret =? ContentDirectory then se_after sess o2 else SR 1 [] o2 sess).
Proof.
  unfold se_go. destruct dup; cbn [negb]; [|reflexivity].
  destruct (exec _ _) as [[[ret st] o2]| |]; cbn [obind]; try reflexivity. cbn zeta.
  destruct (ret =? ContentDirectory); cbn [negb]; [|reflexivity].
  unfold se_start, se_after. rewrite se_first, se_second. cbn [obind].
  destruct (start 0 _ o2) as [[c|] o3]; cbn [obind].
  - destruct c; cbn; try reflexivity; destruct (start 1 _ o3); reflexivity.
  - cbn. destruct (start 1 _ o3); reflexivity.
Qed.

Lemma se_go_cases inp o r : go inp o = Ok r ->
  (sr_started r = [] /\ sr_ret r = 1%Z) \/
  exists s h ds o2, exec (unpack inp false) (remove o) = Ok ((ContentDirectory, Some (s, h, ds)), o2) /\ r = se_after (Some s) o2.
Proof.
  rewrite se_go_eq. destruct dup; cbn [negb]; [|injection 1 as <-; auto].
  destruct (exec _ _) as [[[ret st] o2]| |] eqn:E; cbn [obind]; try discriminate. injection 1 as <-.
  destruct (N.eqb_spec ret ContentDirectory) as [->|]; [|auto]. right.
  destruct st as [[[s h] ds]|]; [eauto 9|]. exfalso. revert E. unfold extract.
  destruct (negb (al 1) || negb (al 2)); [discriminate|]. destruct (create _ _ _ _ _ _); [|discriminate].
  rewrite exec_bind. destruct (exec _ _) as [[[[[ok s] h] ds] o3]| |]; cbn [obind]; try discriminate.
  rewrite exec_bind. destruct (exec _ _) as [[u o4]| |]; cbn [obind]; try discriminate.
  rewrite exec_bind. destruct (exec _ _) as [[u' o5]| |]; cbn [obind]; discriminate.
Qed.
End Go.

Section Statements.
Context (z : zlib) (C : zlib_contract z).

(** C68 *)
Lemma self_round_trip e jk hj xjk hjunk al ls rd wr opn ndebug cfuel fuel argv0 exe out es
  hal stk e' alloc al' obuf hjunk' pjunk remove start o t efuel :
  lenN exe <= max_exe ndebug -> (forall k n, wr k n = n) ->
  se_main z e jk hj xjk hjunk al ls rd wr opn ndebug cfuel fuel argv0 (Some exe) = Ok (SeBuild (CRet 0) out) ->
  ls (snd (se_name_dir argv0)) = Some es -> junk_ok jk hj xjk hjunk -> tree_fits (Some es) -> Forall (fun x => quiet (snd x)) es ->
  NoDup (map fst es) -> Forall (fun x => below_free (fst (se_name_dir argv0)) (snd x)) es -> Forall (fun x => below_free se_out (snd x)) es ->
  let packed := without_own (fst (se_name_dir argv0)) es in let o1 := remove o in
  calm z hal al' stk obuf hjunk' pjunk -> (forall k n, alloc k n = true) -> (length (dropN (max_exe ndebug) out) < efuel)%nat -> preorder packed <> [] ->
  Forall (fun x => extractable (o_priv o1) (o_umask o1) (lenN se_dir) (fst x) (snd x)) packed ->
  free_spot o1 se_dir t -> usable_dir (o_priv o1) (o_umask o1) MODE_BASE_DIR -> (forall r, o_fs o1 (t ++ r) = None) ->
  volume (preorder packed) <= o_free o1 ->
  exists cevs, dropN (max_exe ndebug) out = cev_bytes cevs /\ (last_not_full cevs ->
    (forall cfuel' fuel' argv0', se_main z e jk hj xjk hjunk al ls rd wr opn ndebug cfuel' fuel' argv0' (Some out) =
       Ok (SeRun (cev_bytes cevs))) /\
    exists dfuel0, forall dfuel, (dfuel0 <= dfuel)%nat -> exists r s,
      se_go hal stk z e' alloc efuel dfuel al' obuf hjunk' pjunk true remove start (cev_bytes cevs) o = Ok r /\ sr_sess r = Some s /\
      (room_left s -> exists o2 more, sr_started r = (b ".out_dir/maind.exe", o2) :: more /\ same_env o1 o2 /\
         forall q, o_fs o2 q = overlay t (dir_tree (o_umask o1) packed) (o_fs o1) q)).
Proof.
  intros Hx Hw H Hl J Ft Q Nd B1 B2 packed o1 Ca Ha Hf Ne X Fs U Fr V.
  destruct (se_archived z C e jk hj xjk hjunk al ls rd wr opn ndebug _ _ _ _ _ _ Hx Hw H Hl J Ft Q Nd B1 B2) as (cevs & D & K).
  exists cevs. split; [exact D|]. intro L. destruct (K L) as [A R]. rewrite D in A, R. split; [exact R|].
  assert (Hlen : (length (cev_bytes cevs) < efuel)%nat).
  { now rewrite <- D. }
  fold packed in A.
  destruct (extract_dir z C e' alloc hal al' stk obuf hjunk' pjunk Ca se_dir 0 (cev_bytes cevs) packed t o1 efuel Ha Hlen) as (d0 & E); try assumption.
  { now apply filter_Forall. }
  { now apply filter_names. }
  exists d0. intros d Hd. destruct (E d Hd) as (ret & s & h & ds & o2 & Ex & G).
  rewrite se_go_eq. cbn [negb]. fold o1. rewrite Ex. cbn [obind].
  eexists _, s. split; [reflexivity|].
  assert (Q1 : sr_sess (se_after z remove start (Some s) o2) = Some s).
  { unfold se_after. destruct (start 0 _ o2) as [[[| |]|] o3]; reflexivity. }
  destruct (N.eqb_spec ret ContentDirectory) as [->|Nr].
  - split; [exact Q1|]. intro Rl. destruct (G Rl) as (_ & G1 & _ & G2).
    assert (Q2 : exists more, sr_started (se_after z remove start (Some s) o2) = (b ".out_dir/maind.exe", o2) :: more).
    { unfold se_after. destruct (start 0 _ o2) as [[[| |]|] o3]; eexists; reflexivity. }
    destruct Q2 as [more Q2]. exists o2, more. auto.
  - split; [reflexivity|]. intro Rl. destruct (G Rl) as [G0 _]. contradiction.
Qed.

(** C69 *)
Lemma self_status hal stk e alloc fuel dfuel al obuf hjunk pjunk dup remove start inp o r :
  se_go hal stk z e alloc fuel dfuel al obuf hjunk pjunk dup remove start inp o = Ok r ->
  (sr_ret r = 0%Z /\ sr_started r <> []) \/ (sr_ret r = 1%Z /\ sr_started r = []).
Proof.
  intro H. destruct (se_go_cases _ _ _ _ _ _ _ _ _ _ _ _ _ _ _ _ _ H) as [[A B]|(s & h & ds & o2 & _ & ->)]; [auto|left].
  unfold se_after. destruct (start 0 _ o2) as [[[| |]|] o3]; split; try reflexivity; discriminate.
Qed.

(** C70, C71 *)
Lemma self_programs hal stk e alloc fuel dfuel al obuf hjunk pjunk dup remove start inp o r :
  se_go hal stk z e alloc fuel dfuel al obuf hjunk pjunk dup remove start inp o = Ok r ->
  sr_started r = [] \/
  exists o2, let '(c1, o3) := start 0 (b ".out_dir/maind.exe") o2 in
    (c1 = Some 0%Z /\ sr_started r = [(b ".out_dir/maind.exe", o2)] /\ sr_os r = remove o3) \/
    (c1 <> Some 0%Z /\ sr_started r = [(b ".out_dir/maind.exe", o2); (b ".out_dir/main.exe", o3)] /\
     sr_os r = snd (start 1 (b ".out_dir/main.exe") o3)).
Proof.
  intro H. destruct (se_go_cases _ _ _ _ _ _ _ _ _ _ _ _ _ _ _ _ _ H) as [[A B]|(s & h & ds & o2 & _ & ->)]; [auto|right].
  exists o2. unfold se_after. destruct (start 0 _ o2) as [[[| |]|] o3]; cbn; try (right; split; [discriminate|]); auto.
Qed.

(** C72 *)
Lemma self_started_type hal stk e alloc fuel dfuel al obuf hjunk pjunk dup remove start inp o r :
  calm z hal al stk obuf hjunk pjunk -> supported z C inp ->
  se_go hal stk z e alloc fuel dfuel al obuf hjunk pjunk dup remove start inp o = Ok r -> sr_started r <> [] ->
  archive_of ContentDirectory (zc_dec C inp).
Proof.
  intros Ca S H N. destruct (se_go_cases _ _ _ _ _ _ _ _ _ _ _ _ _ _ _ _ _ H) as [[A B]|(s & h & ds & o2 & E & _)]; [contradiction|].
  destruct (extract_type z C e alloc hal al stk obuf hjunk pjunk Ca se_dir 0 fuel dfuel inp false _ _ _ _ S E ltac:(discriminate))
    as (typ & A & [[_ ->]|[Q _]]); [exact A|discriminate].
Qed.
End Statements.

(** ** compressdir and extraction (C73) *)
Section Dir.
Context (z : zlib) (C : zlib_contract z) (e : endian) (jk : N -> bytes) (hj : N -> N -> bytes) (xjk : N -> N -> bytes)
  (hjunk : bytes) (al : N -> bool) (opn : bytes -> bool) (ls : bytes -> option (list (bytes * snode))) (room : N).

Lemma cd_wrote_any pfuel fuel args out data rp : junk_ok jk hj xjk hjunk ->
  (do p <- rp; do s <- parse_args pfuel args p; cd_after z e jk hj xjk hjunk al opn ls room fuel s) = Ok (CRet 0, Some (out, data)) -> data <> [] ->
  exists p s dir cevs, rp = Ok p /\ parse_args pfuel args p = Ok s /\
    (value_right (b "-if") (ps_prs s) = Ok (Some dir) \/
     value_right (b "-if") (ps_prs s) = Ok None /\ 0 < ps_argc s /\ arg_at 0 (ps_cells s) = Ok dir) /\
    data = takeN room (cev_bytes cevs) /\
    forall es, ls dir = Some es -> tree_fits (Some es) -> last_not_full cevs -> lenN data < room -> archives_dir z es data.
Proof.
  intros J H Hd. destruct rp as [p| |]; try discriminate H. cbn [obind] in H. exists p.
  destruct (parse_args pfuel args p) as [s| |] eqn:E; try discriminate H. cbn [obind] in H. exists s.
  destruct (cd_after_zero z e jk hj xjk hjunk al opn ls room _ _ _ H) as (h & o & i & c & Eh & Eo & Ei & Ec & D).
  destruct (cd_decide_zero z e jk hj xjk hjunk al opn ls room _ _ _ _ _ _ _ _ D) as [[_ Q]|(out' & data' & -> & B & D' & Q)]; [discriminate|].
  injection D' as <- <-.
  destruct Q as [(_ & _ & _ & Q)|(dir & cevs & ws & wx & led & A1 & A2 & A3)]; [contradiction|].
  exists dir, cevs. split; [reflexivity|]. split; [reflexivity|]. split; [rewrite Ei; destruct A1 as [->|(-> & A1)]; auto|].
  split; [exact A3|]. intros es Hl Ft L Hr. rewrite Hl in A2.
  assert (Hb : data = cev_bytes cevs).
  { rewrite A3. apply takeN_all. rewrite A3, lenN_takeN in Hr. lia. }
  exists unit, cd_filter, e, jk, hj, xjk, hjunk, al, fuel, Z_BEST_COMPRESSION, 1, tt, cevs, ws, wx, led.
  split; [exact J|]. split; [exact Ft|]. split; [intros ? ? ? ?; reflexivity|]. split; [exact A2|].
  split; [|split; [exact L|exact Hb]]. eapply (dir_created z C e cd_filter jk hj xjk hjunk al); [exact J|exact Ft|apply Forall_nil|exact A2].
Qed.

Lemma cd_round_trip_any pfuel fuel args out data rp : junk_ok jk hj xjk hjunk ->
  (do p <- rp; do s <- parse_args pfuel args p; cd_after z e jk hj xjk hjunk al opn ls room fuel s) = Ok (CRet 0, Some (out, data)) -> data <> [] ->
  exists p s dir cevs, rp = Ok p /\ parse_args pfuel args p = Ok s /\
    (value_right (b "-if") (ps_prs s) = Ok (Some dir) \/
     value_right (b "-if") (ps_prs s) = Ok None /\ 0 < ps_argc s /\ arg_at 0 (ps_cells s) = Ok dir) /\
    data = takeN room (cev_bytes cevs) /\
    forall es e' alloc hal al' stk obuf hjunk' pjunk T t o efuel,
      ls dir = Some es -> tree_fits (Some es) -> last_not_full cevs -> lenN data < room ->
      (length data < efuel)%nat -> calm z hal al' stk obuf hjunk' pjunk ->
      (forall k n, alloc k n = true) -> preorder es <> [] -> Forall (fun x => quiet (snd x)) es -> NoDup (map fst es) ->
      Forall (fun x => extractable (o_priv o) (o_umask o) (lenN T) (fst x) (snd x)) es ->
      free_spot o T t -> usable_dir (o_priv o) (o_umask o) MODE_BASE_DIR -> (forall r, o_fs o (t ++ r) = None) ->
      volume (preorder es) <= o_free o ->
      exists dfuel0, forall dfuel, (dfuel0 <= dfuel)%nat -> exists ret s h ds o',
        exec (extract T hal stk z e' alloc 0 efuel dfuel al' obuf hjunk' pjunk data false) o = Ok ((ret, Some (s, h, ds)), o') /\
        (room_left s -> ret = ContentDirectory /\ same_env o o' /\ forall q, o_fs o' q = overlay t (dir_tree (o_umask o) es) (o_fs o) q).
Proof.
  intros J H Hd. destruct (cd_wrote_any pfuel fuel args out data _ J H Hd) as (p & s & dir & cevs & E1 & E2 & E3 & E4 & K).
  exists p, s, dir, cevs. split; [exact E1|]. split; [exact E2|]. split; [exact E3|]. split; [exact E4|].
  intros es e' alloc hal al' stk obuf hjunk' pjunk T t o efuel Hl Ft L Hr Hlen Ca Ha Ne Q Nd X Fs U Fr V.
  eapply (disk_dir z C es data); eauto. left. auto.
Qed.
Lemma cd_round_trip pfuel fuel args out data : junk_ok jk hj xjk hjunk ->
  cd_main z e jk hj xjk hjunk al opn ls room pfuel fuel args = Ok (CRet 0, Some (out, data)) -> data <> [] ->
  exists p s dir cevs, run_aops cd_options prs_new = Ok p /\ parse_args pfuel args p = Ok s /\
    (value_right (b "-if") (ps_prs s) = Ok (Some dir) \/
     value_right (b "-if") (ps_prs s) = Ok None /\ 0 < ps_argc s /\ arg_at 0 (ps_cells s) = Ok dir) /\
    data = takeN room (cev_bytes cevs) /\
    forall es e' alloc hal al' stk obuf hjunk' pjunk T t o efuel,
      ls dir = Some es -> tree_fits (Some es) -> last_not_full cevs -> lenN data < room ->
      (length data < efuel)%nat -> calm z hal al' stk obuf hjunk' pjunk ->
      (forall k n, alloc k n = true) -> preorder es <> [] -> Forall (fun x => quiet (snd x)) es -> NoDup (map fst es) ->
      Forall (fun x => extractable (o_priv o) (o_umask o) (lenN T) (fst x) (snd x)) es ->
      free_spot o T t -> usable_dir (o_priv o) (o_umask o) MODE_BASE_DIR -> (forall r, o_fs o (t ++ r) = None) ->
      volume (preorder es) <= o_free o ->
      exists dfuel0, forall dfuel, (dfuel0 <= dfuel)%nat -> exists ret s h ds o',
        exec (extract T hal stk z e' alloc 0 efuel dfuel al' obuf hjunk' pjunk data false) o = Ok ((ret, Some (s, h, ds)), o') /\
        (room_left s -> ret = ContentDirectory /\ same_env o o' /\ forall q, o_fs o' q = overlay t (dir_tree (o_umask o) es) (o_fs o) q).
Proof. exact (cd_round_trip_any pfuel fuel args out data (run_aops cd_options prs_new)). Qed.
End Dir.
