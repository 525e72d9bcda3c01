(** ResourceExamples.v: cases for StackFacts.v, BlockFacts.v and ResourceFacts.v. *)
From Verif Require Import Base Format Zlib RleZlib LLCompress Compress Parser ParserProofs ParserFacts Decompress MidFacts DecompressExamples ArchiveSpec
  ArchiveDecode ArchiveProps ArchiveExamples FS HL HLProps HLExamples StackFacts BlockFacts ResourceFacts.

(** ** Many empty files *)
Fixpoint rx_bytes (names : list bytes) : bytes :=
  match names with
  | [] => []
  | n :: r => file_item LE (lenN n) 420 0 (zeros 40) ++ padded n ++ [] ++ zeros (norm_len64 0 - 0) ++ rx_bytes r
  end.
Lemma rx_encodes names : encodes (empty_files 420 names) (rx_bytes names).
Proof. induction names as [|n r IH]; cbn [empty_files map rx_bytes]; constructor; [reflexivity|exact IH]. Qed.

Lemma fresh_nests e alloc p t mode names b : leftovers p -> (forall k n, alloc k n = true) ->
  Forall (fun n => lenN n + 8 < two32) names -> mode < two32 -> names <> [] -> encodes (empty_files mode names) b ->
  nests e alloc t (dir_fresh p) b (4 * length names).
Proof. intros L A Hn Hm Ne En. exact (empty_files_nest e alloc A mode names b Hn Hm Ne En _ t (fresh_at_hdr e p L)). Qed.

Lemma rx_left : leftovers ex_left.
Proof. split; reflexivity. Qed.

Lemma rx_alloc : forall k n, ex_alloc k n = true.
Proof. reflexivity. Qed.

Lemma stack_unbounded : forall bound, exists names b, encodes (empty_files 420 names) b /\ lenN b = 56 * lenN names /\
  forall f, (f <= bound)%nat -> dir_parse LE ex_alloc f [] (dir_fresh ex_left) b = NoFuel.
Proof.
  intro bound. set (names := repeat [x66] (S bound)). exists names, (rx_bytes names). split; [apply rx_encodes|]. split.
  - unfold names. induction (S bound) as [|n IH]; [reflexivity|]. cbn [repeat rx_bytes]. rewrite !lenN_app, (lenN_cons _ [x66]), IH.
    rewrite lenN_file_item by reflexivity. change (lenN (padded [x66])) with 8. change (lenN (zeros (norm_len64 0 - 0))) with 8. rewrite lenN_nil. lia.
  - intros f Hf.
    assert (Hn : Forall (fun n => lenN n + 8 < two32) names).
    { unfold names. apply Forall_forall. intros x Hx. apply repeat_spec in Hx. subst x. reflexivity. }
    assert (Ne : names <> []) by discriminate.
    destruct (fresh_nests LE ex_alloc ex_left [] 420 names (rx_bytes names) rx_left rx_alloc Hn eq_refl Ne (rx_encodes names)) as [_ Q].
    apply Q. unfold names. rewrite repeat_length. lia.
Qed.

Lemma fresh_depth e alloc p chunks s evs t buf : leftovers p -> parse_chunks e alloc (dir_fresh p) chunks = Ok (s, evs) ->
  exists r, dir_parse e alloc (4 * N.to_nat (lenN buf / 40) + 5) t s buf = Ok r.
Proof.
  intros L H. destruct (parse_chunks_ok e alloc chunks _ (fresh_pwf e p L)) as (s1 & ev1 & E & W & _). rewrite H in E. injection E as <- <-.
  now apply depth_at_most.
Qed.

Lemma fresh_depth_chunk e alloc p chunks s evs t buf : leftovers p -> parse_chunks e alloc (dir_fresh p) chunks = Ok (s, evs) ->
  lenN buf <= DEF_CHUNK_SIZE -> exists r, dir_parse e alloc (N.to_nat 52433) t s buf = Ok r.
Proof.
  intros L H Hb. destruct (fresh_depth e alloc p chunks s evs t buf L H) as [r R]. exists r.
  refine (dir_parse_more e alloc _ _ _ _ _ _ _ R).
  assert (Q : (lenN buf / 40 <= 13107)%N) by (unfold DEF_CHUNK_SIZE in Hb; lia). lia.
Qed.

Lemma ex_c107 : encodes (empty_files 420 [[x61]; [x62]; [x63]]) (rx_bytes [[x61]; [x62]; [x63]]) /\
  dir_parse LE ex_alloc 11 [] (dir_fresh ex_left) (rx_bytes [[x61]; [x62]; [x63]]) = NoFuel /\
  exists s evs, dir_parse LE ex_alloc 12 [] (dir_fresh ex_left) (rx_bytes [[x61]; [x62]; [x63]]) = Ok (s, evs) /\ length evs = 9%nat.
Proof. split; [apply rx_encodes|]. split; [vm_compute; reflexivity|]. eexists _, _. split; [vm_compute; reflexivity|reflexivity]. Qed.

(** ** The block for names *)
Lemma block_unbounded : exists chunks s evs blk, lenN (ctext chunks) = 40 /\
  parse_chunks LE ex_alloc (dir_fresh ex_left) chunks = Ok (s, evs) /\ p_name s = Some blk /\ lenN blk = 4294967288.
Proof.
  destruct (block_huge LE ex_alloc rx_alloc (dir_fresh ex_left) LE 493 (zeros 40) [] (fresh_at_hdr LE _ rx_left) eq_refl eq_refl)
    as (s & blk & E & Hb & L).
  exists [(dir_item LE 4294967280 493 (zeros 40), [])], s, [], blk. split; [|split; [exact E|split; [exact Hb|exact L]]].
  vm_compute. reflexivity.
Qed.

Lemma fresh_block e alloc p M recs chunks y s evs blk : leftovers p -> p_name p = None -> (forall k n, alloc k n = true) ->
  encodes recs (ctext chunks ++ y) -> Forall rec_ok recs -> Forall (fun r => lenN (rec_name r) + 8 <= M) recs ->
  parse_chunks e alloc (dir_fresh p) chunks = Ok (s, evs) -> p_name s = Some blk -> lenN blk <= M.
Proof.
  intros L Hn A En Ro Na H Hb. apply (block_bounded e alloc A M recs chunks y (dir_fresh p) s evs blk); auto. now apply fresh_at_hdr.
Qed.

(** Whatever the input: less than 2^32 bytes. *)
Lemma fresh_block_32 e alloc p chunks s evs blk : leftovers p -> p_name p = None ->
  parse_chunks e alloc (dir_fresh p) chunks = Ok (s, evs) -> p_name s = Some blk -> lenN blk < two32.
Proof. intros L Hn H Hb. apply (block_32 e alloc chunks (dir_fresh p) s evs blk); auto. now apply fresh_pwf. Qed.

(** A directory of a file; 60 bytes of it have been decoded. *)
Definition rx_recs : list arec := [ADir [x64] 493; AFile [x61;x62;x63] 420 3 [x31;x32;x33]; AEnd].
Definition rx_content : bytes :=
  dir_item LE 1 493 (zeros 40) ++ padded [x64] ++ file_item LE 3 420 3 (zeros 40) ++ padded [x61;x62;x63] ++ [x31;x32;x33] ++
  zeros (norm_len64 3 - 3) ++ dir_end_item LE 1 493 (zeros 40) ++ [].
Lemma rx_content_ok : encodes rx_recs rx_content.
Proof.
  apply (en_dir [x64] 493); [reflexivity|]. apply (en_file [x61;x62;x63] 420 3 [x31;x32;x33]); [reflexivity|]. apply en_end; [reflexivity|].
  apply en_nil.
Qed.

Lemma ex_c108 : exists s evs blk, leftovers ex_left /\ p_name ex_left = None /\
  encodes rx_recs (ctext [(takeN 60 rx_content, [])] ++ dropN 60 rx_content) /\ Forall rec_ok rx_recs /\
  Forall (fun r => lenN (rec_name r) + 8 <= 11) rx_recs /\
  parse_chunks LE ex_alloc (dir_fresh ex_left) [(takeN 60 rx_content, [])] = Ok (s, evs) /\ p_name s = Some blk /\ lenN blk = 8.
Proof.
  eexists _, _, _. split; [apply rx_left|]. split; [reflexivity|].
  split. { change (ctext [(takeN 60 rx_content, [])]) with (takeN 60 rx_content ++ []). rewrite app_nil_r, takeN_dropN. apply rx_content_ok. }
  split. { repeat (constructor; [repeat split; vm_compute; reflexivity|]). constructor. }
  split. { repeat (constructor; [vm_compute; discriminate|]). constructor. }
  split; [vm_compute; reflexivity|]. split; [reflexivity|vm_compute; reflexivity].
Qed.

(** ** Blocks of an extraction *)

(** A zlib whose inflateInit fails. *)
Definition no_inflate (z : zlib) : zlib := Build_zlib (dst z) (ist z) (deflateInit z) (deflate z) None (inflate z).
Lemma ex_c109 : exists o', 
  exec (extract [x6f] hx_hal hx_stk (no_inflate rle_zlib) LE ex_alloc 0 9 9 ax_al (zeros DEF_CHUNK_SIZE) ax_hjunk ex_pj [] false) (hx_os 1000) =
    Ok ((ContentNone, None), o') /\ ~ released (extract_led ax_al (inits (no_inflate rle_zlib))).
Proof. eexists. split; [reflexivity|]. apply extract_keeps; reflexivity. Qed.
Lemma ex_c109_paths : (ax_al 1 && ax_al 2 && ax_al 3 = true -> inits rle_zlib = true) /\
  extract_led ax_al (inits rle_zlib) = [LMalloc 1; LMalloc 2; LMalloc 3; LFree 3; LFree 2; LFree 1] /\
  extract_led (fun i => negb (i =? 3)) (inits (no_inflate rle_zlib)) = [LMalloc 1; LMalloc 2; LFree 2; LFree 1].
Proof. split; [reflexivity|]. split; reflexivity. Qed.

(** The second reallocation fails: the pointer to the first block is replaced by NULL. *)
Lemma ex_c109_name : exists s evs s' evs' blk,
  parse_chunks LE (fun k _ => k <? 1) (dir_fresh (PS StHeader 0 0 (zeros 40) (Item 0 0 0 0 0 x00) None FtNone false 0)) [(takeN 60 rx_content, [])] = Ok (s, evs) /\
  p_name s = Some blk /\ lenN blk = 8 /\ p_allocs s = 1 /\
  parse_chunks LE (fun k _ => k <? 1) s [(dropN 60 rx_content, [])] = Ok (s', evs') /\ p_allocs s' = 2 /\ p_name s' = None /\ p_err s' = true.
Proof.
  eexists _, _, _, _, _. split; [vm_compute; reflexivity|]. split; [reflexivity|]. split; [vm_compute; reflexivity|]. split; [reflexivity|].
  split; [vm_compute; reflexivity|]. repeat split.
Qed.

(** ** Sizes *)
Lemma ex_c110 : archives_dir rle_zlib hx_tree (hx_arch hx_tree) /\ Forall (fun x => quiet (snd x)) hx_tree /\ tree_size hx_tree = 288.
Proof. split; [exact hx_archived|]. split; [exact hx_quiet|]. vm_compute. reflexivity. Qed.
