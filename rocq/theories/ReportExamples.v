(** ReportExamples.v: cases for C133 and C134. *)
From Verif Require Import Base Format Zlib RleZlib Compress Parser ParserFacts Decompress DecompressExamples MidProofs MidFacts
  ArchiveSpec ArchiveExamples FS HL HLSpec HLProps HLTame HLMore HLExamples WinExtract WinExtractExamples Fds Report.

Lemma ex_c133 : exists ret o', did (hx_extract [x6f] 0 (takeN 354 (rx_arch (rx_file [x78] [x31;x32;x33] 420))) (hx_os 1000)) ret o' /\
  supported rle_zlib rle_contract (first_bytes 0 (takeN 354 (rx_arch (rx_file [x78] [x31;x32;x33] 420)))) /\
  o_fds (hx_os 1000) = [] /\ map snd (o_fds o') = [([[x77]; [x6f]; [x78]], 1)].
Proof.
  destruct (did_of (hx_extract [x6f] 0 (takeN 354 (rx_arch (rx_file [x78] [x31;x32;x33] 420))) (hx_os 1000))
    (fun ret o' => match o_fds o' with [(_, ([[p1]; [p2]; [p3]], off))] => Byte.eqb p1 x77 && Byte.eqb p2 x6f && Byte.eqb p3 x78 && (off =? 1) | _ => false end)) as (ret & o' & D & H); [vm_compute; reflexivity|].
  exists ret, o'. split; [exact D|]. split; [right; vm_compute; reflexivity|]. split; [reflexivity|].
  destruct (o_fds o') as [|[n [p off]] [|]]; try discriminate H; repeat (destruct p as [|[|? [|]] p]; try discriminate H).
  repeat match goal with H : _ && _ = true |- _ => apply andb_prop in H; destruct H end.
  repeat match goal with H : Byte.eqb _ _ = true |- _ => apply Byte.byte_dec_bl in H; subst end.
  match goal with H : (_ =? _) = true |- _ => apply N.eqb_eq in H; subst end. reflexivity.
Qed.

(** The directory o is created; its file x would need more room than there is on the disk, and is not complete. *)
Lemma ex_c134 : exists r o1 ret o', archive_of ContentDirectory (zc_dec rle_contract (first_bytes 0 (rx_arch (rx_file [x78] [x31;x32;x33] 420)))) /\
  zc_bad rle_contract (first_bytes 0 (rx_arch (rx_file [x78] [x31;x32;x33] 420))) = false /\
  zc_fin rle_contract (first_bytes 0 (rx_arch (rx_file [x78] [x31;x32;x33] 420))) = false /\
  128 < lenN (zc_dec rle_contract (first_bytes 0 (rx_arch (rx_file [x78] [x31;x32;x33] 420)))) /\
  exec (mkdir_recurse true [x6f] MODE_BASE_DIR) (hx_os 2) = Ok (r, o1) /\ r = 0%Z /\
  did_all (hx_extract [x6f] 0 (rx_arch (rx_file [x78] [x31;x32;x33] 420)) (hx_os 2)) ret o' /\ ret = ContentDirectory /\
  o_fs o' [[x77]; [x6f]; [x78]] = Some (IFile 420 [x31;x32]).
Proof.
  assert (G : forall x : outcome (Z * os), match x with Ok (r, o1) => (r =? 0)%Z | _ => false end = true -> exists r o1, x = Ok (r, o1) /\ r = 0%Z).
  { intros [[r o1]| |] Q; try discriminate Q. apply Z.eqb_eq in Q. eauto. }
  destruct (G (exec (mkdir_recurse true [x6f] MODE_BASE_DIR) (hx_os 2))) as (r & o1 & E & Er); [vm_compute; reflexivity|].
  destruct (did_all_of (hx_extract [x6f] 0 (rx_arch (rx_file [x78] [x31;x32;x33] 420)) (hx_os 2))
    (fun ret o' => (ret =? ContentDirectory) && at_eqb o' [[x77]; [x6f]; [x78]] (Some (IFile 420 [x31;x32])))) as (ret & o' & D & H); [vm_compute; reflexivity|].
  apply andb_prop in H. destruct H as [H1 H2]. exists r, o1, ret, o'.
  split; [split; [vm_compute; discriminate|vm_compute; auto]|]. split; [vm_compute; reflexivity|]. split; [vm_compute; reflexivity|].
  split; [vm_compute; reflexivity|]. split; [exact E|]. split; [exact Er|]. split; [exact D|]. split; [now apply N.eqb_eq|now apply at_eqb_ok].
Qed.
Lemma ex_c134_file : exists ret o', archive_of ContentFile (zc_dec rle_contract (first_bytes 0 (hx_farch [x61;x62]))) /\
  zc_bad rle_contract (first_bytes 0 (hx_farch [x61;x62])) = false /\ zc_fin rle_contract (first_bytes 0 (hx_farch [x61;x62])) = false /\
  128 < lenN (zc_dec rle_contract (first_bytes 0 (hx_farch [x61;x62]))) /\
  did_all (hx_extract [x2f;x66] 0 (hx_farch [x61;x62]) (hx_os 1000)) ret o' /\ ret = ContentFile.
Proof.
  destruct (did_all_of (hx_extract [x2f;x66] 0 (hx_farch [x61;x62]) (hx_os 1000)) (fun ret o' => ret =? ContentFile)) as (ret & o' & D & H); [vm_compute; reflexivity|].
  exists ret, o'. split; [split; [vm_compute; discriminate|vm_compute; auto]|]. split; [vm_compute; reflexivity|]. split; [vm_compute; reflexivity|].
  split; [vm_compute; reflexivity|]. split; [exact D|now apply N.eqb_eq].
Qed.

Lemma ex_c133_windows : exists ret w', wdid (wx_extract [x6f] (takeN 354 (rx_arch (rx_file [x78] [x31;x32;x33] 420))) wx_w) ret w' /\
  ret = Some ContentDirectory /\ w_dead wx_w = false /\ w_fds wx_w = [] /\ lenN (w_fds w') = 1.
Proof.
  destruct (wdid_of (wx_extract [x6f] (takeN 354 (rx_arch (rx_file [x78] [x31;x32;x33] 420))) wx_w)
    (fun ret w' => is_ret ret ContentDirectory && (lenN (w_fds w') =? 1))) as (ret & w' & D & H); [vm_compute; reflexivity|].
  apply andb_prop in H. destruct H as [H1 H2]. exists ret, w'. split; [exact D|]. split; [now apply is_ret_ok|]. split; [reflexivity|]. split; [reflexivity|now apply N.eqb_eq].
Qed.
