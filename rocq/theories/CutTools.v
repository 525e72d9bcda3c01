(** CutTools.v: compressdir on a disk that fills up, or killed (C105). *)
From Coq Require Import Lia Strings.String.
From Verif Require Import Base Format Zlib RleZlib LLCompress CompressFacts Compress Parser ParserProofs ParserFacts Decompress DecompressProofs MidProofs MidFacts DecompressExamples
  ArchiveSpec ArchiveFacts ArchiveDecode ArchiveEntry ArchiveProps ArchiveExamples ArgParser ArgSpec Tools ToolsSpec ToolsFacts FS FSFacts HL HLSpec HLFacts HLDrive
  HLProps HLExamples SelfRun SelfRunFacts SelfRunExamples CutSpec CutFacts CutRun CutProps CutExamples.

Local Notation b := list_byte_of_string.

Section Dir.
Context (z : zlib) (C : zlib_contract z) (e : endian) (jk : N -> bytes) (hj : N -> N -> bytes) (xjk : N -> N -> bytes)
  (hjunk : bytes) (al : N -> bool) (opn : bytes -> bool) (ls : bytes -> option (list (bytes * snode))) (room : N).

Lemma cd_cut_any pfuel fuel args out data rp : junk_ok jk hj xjk hjunk ->
  (do p <- rp; do s <- parse_args pfuel args p; cd_after z e jk hj xjk hjunk al opn ls room fuel s) = Ok (CRet 0, Some (out, data)) -> data <> [] ->
  exists p s dir cevs, rp = Ok p /\ parse_args pfuel args p = Ok s /\
    (value_right (b "-if") (ps_prs s) = Ok (Some dir) \/
     value_right (b "-if") (ps_prs s) = Ok None /\ 0 < ps_argc s /\ arg_at 0 (ps_cells s) = Ok dir) /\
    data = takeN room (cev_bytes cevs) /\
    forall es, ls dir = Some es -> tree_fits (Some es) -> last_not_full cevs -> archives_dir z es (cev_bytes cevs).
Proof.
  intros J H Hd. destruct rp as [p| |]; try discriminate H. cbn [obind] in H. exists p.
  destruct (parse_args pfuel args p) as [s| |] eqn:E; try discriminate H. cbn [obind] in H. exists s.
  destruct (cd_after_zero z e jk hj xjk hjunk al opn ls room _ _ _ H) as (h & o & i & c & Eh & Eo & Ei & Ec & D).
  destruct (cd_decide_zero z e jk hj xjk hjunk al opn ls room _ _ _ _ _ _ _ _ D) as [[_ Q]|(out' & data' & -> & B & D' & Q)]; [discriminate|].
  injection D' as <- <-.
  destruct Q as [(_ & _ & _ & Q)|(dir & cevs & ws & wx & led & A1 & A2 & A3)]; [contradiction|].
  exists dir, cevs. split; [reflexivity|]. split; [reflexivity|]. split; [rewrite Ei; destruct A1 as [->|(-> & A1)]; auto|].
  split; [exact A3|]. intros es Hl Ft L. rewrite Hl in A2.
  exists unit, cd_filter, e, jk, hj, xjk, hjunk, al, fuel, Z_BEST_COMPRESSION, 1, tt, cevs, ws, wx, led.
  split; [exact J|]. split; [exact Ft|]. split; [intros ? ? ? ?; reflexivity|]. split; [exact A2|].
  split; [|split; [exact L|reflexivity]]. eapply (dir_created z C e cd_filter jk hj xjk hjunk al); [exact J|exact Ft|apply Forall_nil|exact A2].
Qed.

(** C105 *)
Lemma cd_cut_after pfuel fuel args out data rp : junk_ok jk hj xjk hjunk ->
  (do p <- rp; do s <- parse_args pfuel args p; cd_after z e jk hj xjk hjunk al opn ls room fuel s) = Ok (CRet 0, Some (out, data)) -> data <> [] ->
  exists p s dir cevs, rp = Ok p /\ parse_args pfuel args p = Ok s /\
    (value_right (b "-if") (ps_prs s) = Ok (Some dir) \/
     value_right (b "-if") (ps_prs s) = Ok None /\ 0 < ps_argc s /\ arg_at 0 (ps_cells s) = Ok dir) /\
    data = takeN room (cev_bytes cevs) /\
    forall es inp e' alloc hal al' stk obuf hjunk' pjunk T t o efuel,
      ls dir = Some es -> tree_fits (Some es) -> last_not_full cevs -> prefix inp data -> (List.length inp < efuel)%nat ->
      calm z hal al' stk obuf hjunk' pjunk -> (forall k n, alloc k n = true) -> Forall (fun x => quiet (snd x)) es -> NoDup (map fst es) ->
      Forall (fun x => extractable (o_priv o) (o_umask o) (lenN T) (fst x) (snd x)) es ->
      free_spot o T t -> usable_dir (o_priv o) (o_umask o) MODE_BASE_DIR -> (forall r, o_fs o (t ++ r) = None) ->
      (exists dfuel0, forall dfuel, (dfuel0 <= dfuel)%nat -> exists ret s h ds o',
         exec (extract T hal stk z e' alloc 0 efuel dfuel al' obuf hjunk' pjunk inp false) o = Ok ((ret, Some (s, h, ds)), o')) /\
      forall dfuel ret x o',
        exec (extract T hal stk z e' alloc 0 efuel dfuel al' obuf hjunk' pjunk inp false) o = Ok ((ret, x), o') ->
        (forall q, o_fs o' q = o_fs o q) /\ ret = ContentNone \/
        exists done, begun done (layout (o_umask o) [] es) /\ ret = ContentDirectory /\
          forall q, o_fs o' q = overlay t (target_with (IDir (dir_perm (o_umask o) MODE_BASE_DIR)) (fill (o_free o) done)) (o_fs o) q.
Proof.
  intros J H Hd. destruct (cd_cut_any pfuel fuel args out data _ J H Hd) as (p & s & dir & cevs & E1 & E2 & E3 & E4 & K).
  exists p, s, dir, cevs. split; [exact E1|]. split; [exact E2|]. split; [exact E3|]. split; [exact E4|].
  intros es inp e' alloc hal al' stk obuf hjunk' pjunk T t o efuel Hl Ft L Pi Hlen Ca Ha Q Nd X Fs U Fr.
  assert (Ci : cut_input 0 (cev_bytes cevs) inp).
  { split; [|left; reflexivity]. eapply prefix_trans; [exact Pi|]. rewrite E4. exists (dropN room (cev_bytes cevs)). symmetry. apply takeN_dropN. }
  destruct (interrupted z C es (cev_bytes cevs) e' alloc hal al' stk obuf hjunk' pjunk T 0 inp t o efuel (K es Hl Ft L) Ci Hlen Ca Ha Q Nd X Fs U Fr) as [Rt W].
  split; [exact Rt|]. intros dfuel ret x o' Ex. destruct (W _ _ _ _ _ Ex) as (s0 & h & ds & -> & _ & _ & _ & [(A & B & _)|(done & A & B & D & _)]).
  - left. auto.
  - right. exists done. auto.
Qed.
Lemma cd_cut pfuel fuel args out data : junk_ok jk hj xjk hjunk ->
  cd_main z e jk hj xjk hjunk al opn ls room pfuel fuel args = Ok (CRet 0, Some (out, data)) -> data <> [] ->
  exists p s dir cevs, run_aops cd_options prs_new = Ok p /\ parse_args pfuel args p = Ok s /\
    (value_right (b "-if") (ps_prs s) = Ok (Some dir) \/
     value_right (b "-if") (ps_prs s) = Ok None /\ 0 < ps_argc s /\ arg_at 0 (ps_cells s) = Ok dir) /\
    data = takeN room (cev_bytes cevs) /\
    forall es inp e' alloc hal al' stk obuf hjunk' pjunk T t o efuel,
      ls dir = Some es -> tree_fits (Some es) -> last_not_full cevs -> prefix inp data -> (List.length inp < efuel)%nat ->
      calm z hal al' stk obuf hjunk' pjunk -> (forall k n, alloc k n = true) -> Forall (fun x => quiet (snd x)) es -> NoDup (map fst es) ->
      Forall (fun x => extractable (o_priv o) (o_umask o) (lenN T) (fst x) (snd x)) es ->
      free_spot o T t -> usable_dir (o_priv o) (o_umask o) MODE_BASE_DIR -> (forall r, o_fs o (t ++ r) = None) ->
      (exists dfuel0, forall dfuel, (dfuel0 <= dfuel)%nat -> exists ret s h ds o',
         exec (extract T hal stk z e' alloc 0 efuel dfuel al' obuf hjunk' pjunk inp false) o = Ok ((ret, Some (s, h, ds)), o')) /\
      forall dfuel ret x o',
        exec (extract T hal stk z e' alloc 0 efuel dfuel al' obuf hjunk' pjunk inp false) o = Ok ((ret, x), o') ->
        (forall q, o_fs o' q = o_fs o q) /\ ret = ContentNone \/
        exists done, begun done (layout (o_umask o) [] es) /\ ret = ContentDirectory /\
          forall q, o_fs o' q = overlay t (target_with (IDir (dir_perm (o_umask o) MODE_BASE_DIR)) (fill (o_free o) done)) (o_fs o) q.
Proof. exact (cd_cut_after pfuel fuel args out data (run_aops cd_options prs_new)). Qed.
End Dir.

(** 69 bytes could be written. *)
Lemma ex_c105 : exists data cevs ws wx led ret o',
  junk_ok (ax_jk x11) ax_hj ax_xjk ax_hjunk /\
  gx_cd 69 (map b ["-of"; "out"; "-if"; "dir"]%string) = Ok (CRet 0, Some (b "out", data)) /\ data <> [] /\ lenN data = 69 /\
  compress_dir rle_zlib LE cd_filter (ax_jk x11) ax_hj ax_xjk ax_hjunk ax_al 3 Z_BEST_COMPRESSION 1 false [] (gx_ls (b "dir")) tt
    = Ok (CRet 0, cevs, ws, wx, led) /\ lenN (cev_bytes cevs) = 168 /\ last_not_full cevs /\ gx_ls (b "dir") = Some hx_tree /\ tree_fits (Some hx_tree) /\
  did_all (hx_extract [x6f] 0 data (hx_os 1000)) ret o' /\ ret = ContentDirectory /\
  o_fs o' [[x77]; [x6f]; [x64]; [x61;x62;x63]] = Some (IFile 420 [x31;x32]) /\ o_fs o' [[x77]; [x6f]; [x62]] = None.
Proof.
  pose (data := match gx_cd 69 (map b ["-of"; "out"; "-if"; "dir"]%string) with Ok (_, Some (_, d)) => d | _ => [] end).
  destruct (did_all_of (hx_extract [x6f] 0 data (hx_os 1000)) (fun ret o' => (ret =? ContentDirectory)%N &&
    (at_eqb o' [[x77]; [x6f]; [x64]; [x61;x62;x63]] (Some (IFile 420 [x31;x32])) && at_eqb o' [[x77]; [x6f]; [x62]] None))) as (ret & o' & D & H); [vm_compute; reflexivity|].
  apply andb_prop in H. destruct H as [H1 H]. apply andb_prop in H. destruct H as [H2 H3].
  vm_compute in data. subst data.
  eexists _, _, _, _, _, ret, o'. split; [apply ax_junk|].
  split; [vm_compute; reflexivity|]. split; [discriminate|]. split; [vm_compute; reflexivity|]. split; [vm_compute; reflexivity|]. split; [vm_compute; reflexivity|].
  split; [apply ax_not_full; vm_compute; reflexivity|]. split; [vm_compute; reflexivity|]. split; [exact hx_fits|]. split; [exact D|].
  split; [now apply N.eqb_eq|]. split; now apply at_eqb_ok.
Qed.
