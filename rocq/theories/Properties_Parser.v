(** Properties C18-C22 and C26 (the directory decoder).
    [parse_chunks e alloc (dir_fresh p) chunks]: the decoder, started on a session whose decoder fields held [p],
    is given the inflate outputs [chunks]; each is a pair of the output and of what follows it in memory.
    [ctext chunks]: the plaintext.  [flat]: the callbacks with adjacent fileRead calls merged (one
    observation per byte) and without the target of symbolic links. *)
From Verif Require Import Base Format Zlib RleZlib Parser ParserProofs ParserFacts Decompress DecompressProofs
  DecompressFacts MidProofs MidFacts DecompressExamples.

(** C18: both splittings end with a non-empty output (an empty file at the very end is only completed by
    the next output, even an empty one). *)
Theorem C18_split_independent : forall e alloc p c1 d1 t1 c2 d2 t2, leftovers p -> d1 <> [] -> d2 <> [] ->
  ctext c1 ++ d1 = ctext c2 ++ d2 ->
  exists s1 ev1 ev2, parse_chunks e alloc (dir_fresh p) (c1 ++ [(d1, t1)]) = Ok (s1, ev1) /\
    parse_chunks e alloc (dir_fresh p) (c2 ++ [(d2, t2)]) = Ok (s1, ev2) /\ flat ev1 = flat ev2.
Proof. exact fresh_split. Qed.
Print Assumptions C18_split_independent.
(** Through the session: the same archive, any two ways of feeding it, any buffers: one callback sequence
    is a prefix of the other. *)
Theorem C18_session : forall z (C : zlib_contract z) e alloc fuel1 fuel2 s0 ops1 ops2 rets1 rets2 s1 s2 evs1 evs2, started z s0 ->
  Forall dop_ok ops1 -> Forall dop_ok ops2 -> prefix (dfed ops1) (dfed ops2) ->
  archive_of ContentDirectory (zc_dec C (dfed ops2)) ->
  run_dops e alloc fuel1 s0 ops1 = Ok (rets1, s1, evs1) -> run_dops e alloc fuel2 s0 ops2 = Ok (rets2, s2, evs2) ->
  prefix (flat evs1) (flat evs2) \/ prefix (flat evs2) (flat evs1).
Proof. exact dir_session_cmp. Qed.
Print Assumptions C18_session.
Example C18_case : exists s ev1 ev2,
  parse_chunks LE ex_alloc (dir_fresh ex_left) ([(takeN 90 ex_tree, [])] ++ [(dropN 90 ex_tree, [x61])]) = Ok (s, ev1) /\
  parse_chunks LE ex_alloc (dir_fresh ex_left) (map (fun b => ([b], [])) (takeN 99 ex_tree) ++ [(dropN 99 ex_tree, [])]) = Ok (s, ev2) /\
  ev1 <> ev2 /\ length (flat ev1) = 9%nat.
Proof. exact ex_c18. Qed.

(** C19: false.  A well-formed record whose target is split over two outputs: symLinkCreate gets the second
    part only. *)
Theorem C19_link_target_refuted : exists e alloc p e' name mode target junk pn pt chunks s evs it nm data tail,
  leftovers p /\ lenN junk = 40 /\ lenN name + 8 < two32 /\ mode < two32 /\ lenN target + 8 < two64 /\
  lenN pn = norm_len32 (lenN name) - lenN name /\ lenN pt = norm_len64 (lenN target) - lenN target /\
  ctext chunks = link_item e' (lenN name) mode (lenN target) junk ++ (name ++ pn) ++ target ++ pt /\
  parse_chunks e alloc (dir_fresh p) chunks = Ok (s, evs) /\
  evs = [EvEntry FtSymLink it nm; EvSym data tail] /\ data <> target.
Proof. exact ex_c19. Qed.
Print Assumptions C19_link_target_refuted.
(** What remains of C19: it gets the target if the target lies inside one output; what follows the target
    in memory is the rest of that output. *)
Theorem C19_link_target_partial : forall e alloc p e' name mode target junk pn c1 a b t, (forall k n, alloc k n = true) ->
  leftovers p -> lenN junk = 40 -> lenN name + 8 < two32 -> mode < two32 -> lenN target + 8 < two64 ->
  lenN pn = norm_len32 (lenN name) - lenN name -> target <> [] ->
  ctext c1 ++ a = link_item e' (lenN name) mode (lenN target) junk ++ name ++ pn ->
  exists s evx ev3, parse_chunks e alloc (dir_fresh p) (c1 ++ [(a ++ target ++ b, t)]) =
      Ok (s, evx ++ EvSym target (b ++ t) :: ev3) /\
    flat evx = [OEntry FtSymLink (Item (lenN target) (norm_len64 (lenN target)) (lenN name) (norm_len32 (lenN name)) mode CT_SYM_LINK)
                  (name ++ pn)].
Proof. exact fresh_link. Qed.
Print Assumptions C19_link_target_partial.
Example C19_case : exists s it, ctext [(takeN 50 ex_linkh, [])] ++ dropN 50 ex_linkh = link_item LE (lenN [x6c]) 511 3 ex_j ++ [x6c] ++ zeros 7 /\
  parse_chunks LE ex_alloc (dir_fresh ex_left) ([(takeN 50 ex_linkh, [])] ++ [(dropN 50 ex_linkh ++ [x78;x79;x7a] ++ zeros 5, [x61])]) =
  Ok (s, [EvEntry FtSymLink it (ex_name [x6c]); EvSym [x78;x79;x7a] (zeros 5 ++ [x61])]).
Proof. exact ex_c19p. Qed.

(** C20: no [UB] and no exhausted recursion, whatever the input and whichever allocations fail. *)
Theorem C20_memory_safe : forall e alloc p chunks, leftovers p ->
  exists s evs, parse_chunks e alloc (dir_fresh p) chunks = Ok (s, evs).
Proof. exact fresh_safe. Qed.
Print Assumptions C20_memory_safe.
Theorem C20_session_safe : forall z (C : zlib_contract z) e alloc s0 ops, started z s0 -> Forall dop_ok ops -> supported z C (dfed ops) ->
  exists fuel0 r, forall fuel, (fuel0 <= fuel)%nat -> run_dops e alloc fuel s0 ops = Ok r.
Proof. exact session_returns_ok. Qed.
Print Assumptions C20_session_safe.
Example C20_case : exists s, p_err s = true /\
  parse_chunks LE (fun _ n => n <? 16) (dir_fresh ex_left) ex_garbage = Ok (s, []).
Proof. exact ex_c20. Qed.

(** C21: the callbacks are accepted by the protocol automaton [proto_run]. *)
Theorem C21_protocol : forall e alloc p chunks s evs, leftovers p ->
  parse_chunks e alloc (dir_fresh p) chunks = Ok (s, evs) -> exists st, proto_run Idle evs = Some st.
Proof. exact fresh_protocol. Qed.
Print Assumptions C21_protocol.
Theorem C21_session : forall z (C : zlib_contract z) e alloc fuel s0 ops rets s evs, started z s0 -> Forall dop_ok ops ->
  archive_of ContentDirectory (zc_dec C (dfed ops)) -> run_dops e alloc fuel s0 ops = Ok (rets, s, evs) ->
  evs = [] \/ exists evs' st, evs = EvDirBegin :: evs' /\ proto_run Idle evs' = Some st.
Proof. exact dir_session_protocol. Qed.
Print Assumptions C21_session.
Example C21_case : exists s evs, parse_chunks LE ex_alloc (dir_fresh ex_left) [(takeN 98 ex_tree, []); (dropN 98 ex_tree ++ takeN 49 ex_file, [])] = Ok (s, evs) /\
  proto_run Idle evs = Some (InFile 2) /\ length evs = 10%nat.
Proof. exact ex_c21. Qed.

(** C22 *)
Theorem C22_truncated : forall e alloc p ca cb y, leftovers p -> y <> [] -> ctext cb = ctext ca ++ y ->
  exists s1 ev1 s2 ev2, parse_chunks e alloc (dir_fresh p) ca = Ok (s1, ev1) /\
    parse_chunks e alloc (dir_fresh p) cb = Ok (s2, ev2) /\ prefix (flat ev1) (flat ev2).
Proof. exact fresh_prefix. Qed.
Print Assumptions C22_truncated.
Example C22_case : exists s evs, parse_chunks LE ex_alloc (dir_fresh ex_left) [(takeN 98 ex_tree, []); (dropN 98 ex_tree ++ takeN 49 ex_file, [])] = Ok (s, evs) /\
  proto_run Idle evs = Some (InFile 2) /\ length evs = 10%nat.
Proof. exact ex_c21. Qed.

(** C26: [fuel] bounds the nesting of decoder invocations. *)
Theorem C26_progress : forall e alloc p chunks s evs t buf, leftovers p ->
  parse_chunks e alloc (dir_fresh p) chunks = Ok (s, evs) ->
  exists r, forall fuel, (4 * length buf + 4 <= fuel)%nat -> dir_parse e alloc fuel t s buf = Ok r.
Proof. exact fresh_progress. Qed.
Print Assumptions C26_progress.
Example C26_case : exists s evs r, parse_chunks LE ex_alloc (dir_fresh ex_left) [(takeN 98 ex_tree, [])] = Ok (s, evs) /\
  dir_parse LE ex_alloc (4 * length (dropN 98 ex_tree) + 4) [] s (dropN 98 ex_tree) = Ok r.
Proof. exact ex_c26. Qed.
