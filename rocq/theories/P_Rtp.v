(** Properties C14-C18 and C45-C47: RTP and RTCP. *)
From Verif Require Import Base M_Bits L_Align M_Packet M_Cache M_H264 M_AAC M_Rtp S_Fields S_Codec S_Rtp L_Rtp L_Rtp2.

(** C14: without extension data the header fields are those of RFC 3550 and
    the cursor stops at the payload.  (Padding stays in the payload.) *)
Theorem rtp_header_exact :
  forall k payload, pk_ok k -> bytes payload -> zlen (rtp_bytes k payload) < 2 ^ 60 ->
    match pk_ext k with None => True | Some (_, d) => d = [] end ->
    exists h c, rtp_header_decode (bc_init (rtp_bytes k payload)) = Ok (h, c) /\
      rh_version h = pk_version k /\ rh_padding h = pk_padding k /\ rh_mark h = pk_mark k /\ rh_pt h = pk_pt k /\
      rh_seq h = pk_seq k /\ rh_ts h = pk_ts k /\ rh_ssrc h = pk_ssrc k /\ rh_csrc h = pk_csrc k /\
      drop (bc_pos c + 1) (rtp_bytes k payload) = payload.
Proof.
  intros k payload Hk Hp Hl He. destruct (header_decode_ok _ _ _ _ (al_init _ (rtp_bytes_bytes k payload Hk Hp) Hl) Hk) as (c & E & Ha).
  exists (dec_hdr k), c. split; [exact E|]. repeat (split; [reflexivity|]).
  destruct Ha as (_ & _ & _ & _ & _ & _ & <-). unfold dec_left. destruct (pk_ext k) as [[prof d]|]; [subst d|]; reflexivity.
Qed.
Print Assumptions rtp_header_exact.

(** C14: with extension data [d] the decoder skips a quarter of it and hands
    the other three quarters to the payload decoder. *)
Theorem rtp_extension_leaks :
  forall k prof d payload, pk_ok k -> pk_ext k = Some (prof, d) -> bytes payload -> zlen (rtp_bytes k payload) < 2 ^ 60 ->
    exists h c, rtp_header_decode (bc_init (rtp_bytes k payload)) = Ok (h, c) /\
      drop (bc_pos c + 1) (rtp_bytes k payload) = drop (zlen d / 4) d ++ payload.
Proof.
  intros k prof d payload Hk He Hp Hl. destruct (header_decode_ok _ _ _ _ (al_init _ (rtp_bytes_bytes k payload Hk Hp) Hl) Hk) as (c & E & Ha).
  exists (dec_hdr k), c. split; [exact E|]. destruct Ha as (_ & _ & _ & _ & _ & _ & <-). unfold dec_left. rewrite He. reflexivity.
Qed.
Print Assumptions rtp_extension_leaks.
Theorem rtp_payload_after_extension_refuted :
  exists k payload h c, pk_ok k /\ bytes payload /\
    rtp_header_decode (bc_init (rtp_bytes k payload)) = Ok (h, c) /\
    drop (bc_pos c + 1) (rtp_bytes k payload) <> payload.
Proof.
  exists (mkpk 2 0 0 96 7 90000 1 [] (Some (0xbede, [0x10; 0xaa; 0; 0]))), [0x65; 1; 2].
  eexists _, _. split; [|split; [|split; [vm_compute; reflexivity|vm_compute; discriminate]]].
  - split; [reflexivity|]. split; [constructor|]. vm_compute. repeat split; try discriminate.
    repeat constructor; discriminate.
  - apply bytesb_spec. reflexivity.
Qed.
Print Assumptions rtp_payload_after_extension_refuted.

(** C14, every byte string: the header is read inside it or refused. *)
Theorem rtp_header_safe :
  forall buf, bytes buf -> zlen buf < 2 ^ 60 ->
    (exists h c pre payload, rtp_header_decode (bc_init buf) = Ok (h, c) /\ buf = pre ++ payload /\ 12 <= zlen pre /\
       drop (bc_pos c + 1) buf = payload) \/
    rtp_header_decode (bc_init buf) = Err ERROR_IO_NOT_ENOUGH.
Proof.
  intros buf Hb Hl. destruct (header_decode_total _ _ _ (al_init buf Hb Hl)) as [(h & c & rest & E & Ha & used & Eb & Hu)|E]; [left|right; exact E].
  exists h, c, used, rest. split; [exact E|]. split; [exact Eb|]. split; [exact Hu|]. destruct Ha as (_ & _ & _ & _ & _ & _ & <-). reflexivity.
Qed.
Print Assumptions rtp_header_safe.
Definition rtp_ex_k : rtp_packet := mkpk 2 0 1 96 513 90000 0xdeadbeef [1; 0xffffffff] None.
Example rtp_ex_k_ok : pk_media rtp_ex_k.
Proof.
  split; [split; [reflexivity|split; [|exact I]]|split; [vm_compute; split; discriminate|exact I]].
  repeat constructor; discriminate.
Qed.
Example rtp_ex_header : rtp_bytes rtp_ex_k [0x65] =
  [0x82; 0xe0; 2; 1; 0; 1; 0x5f; 0x90; 0xde; 0xad; 0xbe; 0xef; 0; 0; 0; 1; 0xff; 0xff; 0xff; 0xff; 0x65].
Proof. vm_compute. reflexivity. Qed.

(** C15: any number of units, each cut into fragments in any way: nothing comes
    out before the last fragment of a unit, then exactly the packets of the
    original unit; the reassembler ends empty. *)
Theorem fu_reassembly :
  forall mem gs outs, 1 <= zlen mem < 2 ^ 32 ->
    Forall event_ok (concat gs) -> Forall2 (unit_group (zlen mem)) gs outs ->
    h264_rtp_run mem None (map dgram (concat gs)) = (None, concat outs).
Proof.
  intros mem gs outs Hm He Hg. destruct (run_ok mem (concat gs) None None I Hm He) as (st' & E & Hs).
  rewrite (groups_run _ _ _ Hg) in E, Hs. cbn [fst snd] in *. apply strep_none in Hs. subst st'. exact E.
Qed.
Print Assumptions fu_reassembly.
(** The packets of a reassembled slice: its bytes behind a 4-byte length. *)
Theorem fu_unit_bytes :
  forall now ts h body, 0 <= h < 128 -> h mod 32 = 1 \/ h mod 32 = 5 ->
    exists p, nal_result now ts (h :: body) = Ok [p] /\ p_data p = be 4 (zlen (h :: body)) ++ h :: body /\ p_ptype p = 1.
Proof.
  intros now ts h body Hh Ht. unfold nal_result. destruct (Z.leb_spec 128 h); [lia|].
  replace (h mod 32 =? 7) with false by (symmetry; apply Z.eqb_neq; lia). cbn [andb].
  unfold avc_packets, last_of. cbn [rev app find]. unfold is_sps, is_pps, H264_NAL_SPS, H264_NAL_PPS, nal_of. cbn [n_type nth].
  replace (h mod 32 =? 7) with false by (symmetry; apply Z.eqb_neq; lia).
  cbn [flat_map]. unfold media_pkt. cbn [n_type n_buf].
  destruct Ht as [-> | ->]; cbn [Z.eqb app]; eexists; repeat split.
Qed.
Print Assumptions fu_unit_bytes.

Definition rtp_ex_ev (mark seq : Z) (pl : list Z) : event := (7, mkpk 2 0 mark 96 seq 900 5 [] None, pl).
Definition rtp_ex_group : list event :=
  [rtp_ex_ev 0 1 [0x7c; 0x85; 1; 2]; rtp_ex_ev 0 2 [0x7c; 0x05; 3]; rtp_ex_ev 1 3 [0x7c; 0x45; 4; 5; 6]].
Lemma rtp_ex_ev_ok m s pl : (m =? 0) || (m =? 1) = true -> 0 <= s < 2 ^ 16 -> bytes pl -> zlen pl < 2 ^ 59 -> event_ok (rtp_ex_ev m s pl).
Proof.
  intros Hm Hs Hb Hl. split; [|split; [exact Hb|]].
  - split; [split; [|split; [constructor|exact I]]|split; [split; discriminate|exact I]].
    unfold fields_fit, rtp_ex_ev, pk_fields. cbn [pk_ext pk_version pk_padding pk_csrc pk_mark pk_pt pk_seq pk_ts pk_ssrc fst snd forallb].
    change (zlen (@nil Z)) with 0. lia.
  - unfold rtp_bytes, rtp_head, rtp_ex_ev. cbn [fst snd pk_csrc pk_ext ext_bytes flat_map]. rewrite !zlen_app, zlen_be.
    change (zlen (@nil Z)) with 0. lia.
Qed.
Example rtp_ex_events : Forall event_ok (concat [rtp_ex_group]).
Proof. repeat (constructor; [apply rtp_ex_ev_ok; [reflexivity|split; [discriminate|reflexivity]|apply bytesb_spec; reflexivity|reflexivity]|]). constructor. Qed.
Example rtp_ex_unit : exists p, p_data p = [0; 0; 0; 7; 0x65; 1; 2; 3; 4; 5; 6] /\ p_flags p = 0x17 /\
  unit_group 1048576 rtp_ex_group [([], Ok tt); ([], Ok tt); ([p], Ok tt)].
Proof.
  eexists. split; [|split; [|exists 0x65, [[1; 2]; [3]; [4; 5; 6]], (firstn 2 rtp_ex_group); eexists _, _, _, [_]; split; [lia|]; split; [discriminate|];
    split; [reflexivity|]; split; [reflexivity|]; split; [vm_compute; discriminate|]; split; [vm_compute; reflexivity|vm_compute; reflexivity]]]; reflexivity.
Qed.

(** C16: once the end of a unit is lost, every later start fragment is refused
    and changes nothing. *)
Theorem fu_lost_end_rejects_starts :
  forall mem h cs es starts, 1 <= zlen mem < 2 ^ 32 -> Forall event_ok (es ++ starts) ->
    0 <= h < 256 -> cs <> [] -> map snd es = fu_open h 1 cs -> 1 + zlen (concat cs) <= zlen mem ->
    Forall (fun e : event => fu_start (snd e)) starts ->
    snd (h264_rtp_run mem None (map dgram (es ++ starts))) =
      repeat ([], Ok tt) (length es) ++ repeat ([], Err ERROR_RTP_DECODER_H264) (length starts).
Proof.
  intros mem h cs es starts Hm He Hh Hne Ho Hc Hs. destruct (run_ok mem (es ++ starts) None None I Hm He) as (st' & -> & _).
  rewrite spec_run_app, (open_run _ h cs es Hh Hne Ho Hc). cbn [fst snd]. rewrite starts_rejected by assumption. reflexivity.
Qed.
Print Assumptions fu_lost_end_rejects_starts.
(** C16: and the end fragment of the next unit delivers, as one unit, the stale
    bytes followed by the next unit without its first fragment. *)
Theorem fu_lost_end_splices :
  forall mem h cs es h2 c cs2 e0 mid now k pl ps, 1 <= zlen mem < 2 ^ 32 ->
    Forall event_ok (es ++ e0 :: mid ++ [(now, k, pl)]) ->
    0 <= h < 256 -> cs <> [] -> map snd es = fu_open h 1 cs ->
    0 <= h2 < 256 -> cs2 <> [] -> map snd (e0 :: mid ++ [(now, k, pl)]) = fu_fragments h2 1 (c :: cs2) ->
    1 + zlen (concat cs) + zlen (concat cs2) <= zlen mem ->
    nal_result now (pk_ts k) ((h :: concat cs) ++ concat cs2) = Ok ps ->
    h264_rtp_run mem None (map dgram (es ++ e0 :: mid ++ [(now, k, pl)])) =
      (None, repeat ([], Ok tt) (length es) ++ ([], Err ERROR_RTP_DECODER_H264) :: repeat ([], Ok tt) (length mid) ++ [(ps, Ok tt)]).
Proof.
  intros mem h cs es h2 c cs2 e0 mid now k pl ps Hm He Hh Hne Ho Hh2 Hne2 Hf Hc Hr.
  destruct (run_ok mem _ None None I Hm He) as (st' & E & Hs).
  pose proof (zlen_nonneg (concat cs2)) as H0.
  rewrite spec_run_app, (open_run _ h cs es Hh Hne Ho) in E, Hs by lia. cbn [fst snd] in *.
  rewrite (splice_run _ h2 c cs2 e0 mid now k pl (h :: concat cs) ps Hh2 Hne2 Hf) in E, Hs; [|rewrite zlen_cons; lia|exact Hr|rewrite zlen_cons; lia|exact Hr].
  cbn [fst snd] in *. apply strep_none in Hs. subst st'. exact E.
Qed.
Print Assumptions fu_lost_end_splices.
(** A unit cut in two, its end lost, then a unit cut in three. *)
Example rtp_ex_lost : map snd [rtp_ex_ev 0 1 [0x7c; 0x85; 1; 2]] = fu_open 0x65 1 [[1; 2]] /\
  map snd [rtp_ex_ev 0 3 [0x5c; 0x81; 7]; rtp_ex_ev 0 4 [0x5c; 0x01; 8]; rtp_ex_ev 1 5 [0x5c; 0x41; 9]] = fu_fragments 0x41 1 [[7]; [8]; [9]] /\
  exists p, p_data p = [0; 0; 0; 5; 0x65; 1; 2; 8; 9] /\ nal_result 7 900 ((0x65 :: concat [[1; 2]]) ++ concat [[8]; [9]]) = Ok [p].
Proof. split; [reflexivity|split; [reflexivity|]]. eexists. split; [|vm_compute; reflexivity]. reflexivity. Qed.

(** C46: a unit that outgrows the reassembly buffer fails an assertion. *)
Theorem fu_overflow_asserts :
  forall mem h cs es e0 chunk s, 1 <= zlen mem < 2 ^ 32 -> Forall event_ok (es ++ [e0]) ->
    0 <= h < 256 -> cs <> [] -> map snd es = fu_open h 1 cs -> 1 + zlen (concat cs) <= zlen mem ->
    0 <= s < 2 -> snd e0 = fu_a h 0 s chunk -> zlen mem < 1 + zlen (concat cs) + zlen chunk ->
    snd (h264_rtp_run mem None (map dgram (es ++ [e0]))) = repeat ([], Ok tt) (length es) ++ [([], Err (-1))].
Proof.
  intros mem h cs es e0 chunk s Hm He Hh Hne Ho Hc Hs E0 Hx. destruct (run_ok mem _ None None I Hm He) as (st' & -> & _).
  rewrite spec_run_app, (open_run _ h cs es Hh Hne Ho Hc). cbn [fst snd spec_run]. rewrite E0, fu_a_step by lia.
  change (0 =? 1) with false. cbv iota. unfold fu_add. rewrite zlen_cons. destruct (Z.ltb_spec (zlen mem) (1 + zlen (concat cs) + zlen chunk)); [reflexivity|lia].
Qed.
Print Assumptions fu_overflow_asserts.
(** An allocation of four bytes. *)
Example fu_overflow_case :
  snd (h264_rtp_run [0; 0; 0; 0] None (map dgram [rtp_ex_ev 0 1 [0x7c; 0x85; 1; 2]; rtp_ex_ev 0 2 [0x7c; 0x05; 3; 4]])) =
    [([], Ok tt); ([], Err (-1))].
Proof. vm_compute. reflexivity. Qed.

(** C45: whatever datagrams arrive, no packet ever carries a picture parameter
    set: configuration records hold the sequence parameter set alone. *)
Theorem rtp_never_delivers_pps :
  forall mem ds, 1 <= zlen mem < 2 ^ 32 -> Forall (fun d => bytes (snd d) /\ zlen (snd d) < 2 ^ 60) ds ->
    Forall (fun o : list pkt * res unit => Forall no_pps_packet (fst o)) (snd (h264_rtp_run mem None ds)).
Proof.
  intros mem ds Hm HF. destruct (run_any mem ds None None I Hm HF) as (st & u & es & -> & _ & H2). cbn [snd].
  clear - H2. induction H2 as [|d o ds es (Ho & _) _ IH]; constructor; [|exact IH]. apply Forall_forall. exact Ho.
Qed.
Print Assumptions rtp_never_delivers_pps.
Example rtp_ex_pps : exists p, map fst (snd (h264_rtp_run (repeat 0 64) None (map dgram
    [rtp_ex_ev 0 1 [0x67; 0x42; 0; 0x1e; 9]; rtp_ex_ev 0 2 [0x68; 0xce; 0x38]; rtp_ex_ev 0 3 [0x65; 1; 2]]))) = [[video_pkt 0 0 0 0x17 (avc_config [0x67; 0x42; 0; 0x1e; 9] None)]; []; [p]].
Proof. eexists. vm_compute. reflexivity. Qed.

(** C46: the decoder leaves the datagram only for aggregation or
    fragmentation payloads that are too short for their type. *)
Theorem rtp_overread_only_short :
  forall mem ds, 1 <= zlen mem < 2 ^ 32 -> Forall (fun d => bytes (snd d) /\ zlen (snd d) < 2 ^ 60) ds ->
    Forall2 (fun d (o : list pkt * res unit) => snd o <> Fuel /\
      (snd o = UB -> exists pre payload st, snd d = pre ++ payload /\ 12 <= zlen pre /\ short_payload st payload))
      ds (snd (h264_rtp_run mem None ds)).
Proof.
  intros mem ds Hm HF. destruct (run_any mem ds None None I Hm HF) as (st & u & es & -> & _ & H2). cbn [snd].
  clear - H2. induction H2 as [|d o ds es (_ & Ho) _ IH]; constructor; [exact Ho|exact IH].
Qed.
Print Assumptions rtp_overread_only_short.
(** A whole unit, then an aggregation packet of one byte. *)
Example rtp_overread_case :
  map snd (snd (h264_rtp_run (repeat 0 64) None (map dgram [rtp_ex_ev 1 1 [0x65; 1; 2]; rtp_ex_ev 1 2 [0x79]]))) = [Ok tt; UB] /\
  exists st, short_payload st [0x79].
Proof. split; [vm_compute; reflexivity|]. exists None, 0x79, []. split; [reflexivity|]. left. split; reflexivity. Qed.
(** C46: and it does leave it: one payload byte is enough. *)
Theorem rtp_never_overreads_refuted :
  exists mem d1 d2 d3, bytes d1 /\ bytes d2 /\ bytes d3 /\ 1 <= zlen mem < 2 ^ 32 /\
    snd (h264_rtp_run mem None [(0, d1)]) = [([], UB)] /\ snd (h264_rtp_run mem None [(0, d2)]) = [([], UB)] /\
    snd (h264_rtp_run mem None [(0, d3)]) = [([], UB)].
Proof.
  exists (repeat 0 64), (rtp_bytes rtp_ex_k [0x79]), (rtp_bytes rtp_ex_k [0x7b; 0]), (rtp_bytes rtp_ex_k [0x7d; 0x85; 0]).
  repeat (split; [apply bytesb_spec; vm_compute; reflexivity|]). split; [vm_compute; split; [discriminate|reflexivity]|].
  split; [|split]; vm_compute; reflexivity.
Qed.
Print Assumptions rtp_never_overreads_refuted.

(** C47: aggregated units (STAP-A) of fewer than 256 bytes are all lost. *)
Theorem stap_a_units_lost :
  forall mem now k h us, 1 <= zlen mem < 2 ^ 32 -> event_ok (now, k, stap_a h us) ->
    0 <= h < 256 -> h mod 32 = 24 -> us <> [] -> Forall (fun u => 0 < zlen u < 256) us ->
    h264_rtp_run mem None [dgram (now, k, stap_a h us)] =
      (None, [([], if zlen (stap_a h us) <? h + 1 then Err ERROR_IO_NOT_ENOUGH else Ok tt)]).
Proof.
  intros mem now k h us Hm He Hh H24 Hne HF. destruct (run_ok mem [(now, k, stap_a h us)] None None I Hm) as (st' & E & Hs); [constructor; [exact He|constructor]|].
  cbn [map] in E. rewrite E. cbn [spec_run fst snd] in *.
  destruct (stap_out (zlen mem) now (pk_ts k) None h us Hh H24 Hne HF) as [E1 E2].
  destruct (payload_spec _ _ _ _ (stap_a h us)) as [st1 o]. cbn [fst snd] in *. subst st1 o. cbn [fst] in Hs. apply strep_none in Hs. subst st'. reflexivity.
Qed.
Print Assumptions stap_a_units_lost.
(** C47: so at any place of a session, also in the middle of a fragmented unit: the
    packet gives nothing, and everything before and after it is decoded as if it
    were not there. *)
Lemma spec_run_app cap a : forall u b, snd (spec_run cap u (a ++ b)) = snd (spec_run cap u a) ++ snd (spec_run cap (fst (spec_run cap u a)) b).
Proof.
  induction a as [|e a IH]; intros u b; [reflexivity|]. cbn [app spec_run].
  destruct (payload_spec _ _ _ u _) as [u1 o]. specialize (IH u1 b).
  destruct (spec_run cap u1 (a ++ b)), (spec_run cap u1 a). cbn [fst snd app] in *. f_equal. exact IH.
Qed.
Lemma spec_run_length cap a : forall u, length (snd (spec_run cap u a)) = length a.
Proof.
  induction a as [|e a IH]; intros u; [reflexivity|]. cbn [spec_run]. destruct (payload_spec _ _ _ u _) as [u1 o].
  specialize (IH u1). destruct (spec_run cap u1 a). cbn [snd length] in *. congruence.
Qed.
Theorem stap_a_anywhere :
  forall mem a b now k h us, 1 <= zlen mem < 2 ^ 32 -> Forall event_ok (a ++ b) -> event_ok (now, k, stap_a h us) ->
    0 <= h < 256 -> h mod 32 = 24 -> us <> [] -> Forall (fun u => 0 < zlen u < 256) us ->
    exists oa ob, length oa = length a /\ snd (h264_rtp_run mem None (map dgram (a ++ b))) = oa ++ ob /\
      snd (h264_rtp_run mem None (map dgram (a ++ (now, k, stap_a h us) :: b))) =
        oa ++ ([], if zlen (stap_a h us) <? h + 1 then Err ERROR_IO_NOT_ENOUGH else Ok tt) :: ob.
Proof.
  intros mem a b now k h us Hm Hab He Hh H24 Hne HF. apply Forall_app in Hab as (Ha & Hb).
  destruct (run_ok mem (a ++ b) None None I Hm) as (s1 & E1 & _); [apply Forall_app; auto|].
  destruct (run_ok mem (a ++ (now, k, stap_a h us) :: b) None None I Hm) as (s2 & E2 & _); [apply Forall_app; split; [exact Ha|constructor; assumption]|].
  rewrite E1, E2. cbn [snd]. rewrite !spec_run_app. set (u := fst (spec_run (zlen mem) None a)).
  exists (snd (spec_run (zlen mem) None a)), (snd (spec_run (zlen mem) u b)). split; [apply spec_run_length|]. split; [reflexivity|].
  f_equal. cbn [spec_run fst snd]. destruct (stap_out (zlen mem) now (pk_ts k) u h us Hh H24 Hne HF) as [F1 F2].
  destruct (payload_spec _ _ _ u (stap_a h us)) as [u1 o]. cbn [fst snd] in *. subst u1 o.
  destruct (spec_run (zlen mem) u b). reflexivity.
Qed.
Print Assumptions stap_a_anywhere.
Definition rtp_ex_mixed : list event :=
  firstn 1 rtp_ex_group ++ rtp_ex_ev 0 9 (stap_a 0x18 [repeat 7 30; [0x68; 0xce]]) :: skipn 1 rtp_ex_group.
Example stap_a_anywhere_ex : Forall event_ok rtp_ex_mixed /\
  map (fun o => (map p_data (fst o), snd o)) (snd (h264_rtp_run (repeat 0 64) None (map dgram rtp_ex_mixed))) =
    [([], Ok tt); ([], Ok tt); ([], Ok tt); ([[0; 0; 0; 7; 0x65; 1; 2; 3; 4; 5; 6]], Ok tt)].
Proof.
  split; [|vm_compute; reflexivity].
  repeat (constructor; [apply rtp_ex_ev_ok; [reflexivity|split; [discriminate|reflexivity]|apply bytesb_spec; reflexivity|reflexivity]|]). constructor.
Qed.
Example rtp_ex_stap : stap_a 0x78 [[0x67; 0x42; 0; 0x1e]; [0x68; 0xce]] = [0x78; 0; 4; 0x67; 0x42; 0; 0x1e; 0; 2; 0x68; 0xce].
Proof. reflexivity. Qed.

(** C17: every list of access units comes back, in order, one packet each, with
    the RTP timestamp in milliseconds; trailing bytes are ignored. *)
Theorem aac_units_exact :
  forall k aus extra, pk_media k -> Forall au_ok aus -> zlen aus < 2 ^ 12 -> bytes (au_payload aus ++ extra) ->
    zlen (rtp_bytes k (au_payload aus ++ extra)) < 2 ^ 60 ->
    aac_rtp_decode (rtp_bytes k (au_payload aus ++ extra)) =
      (map (fun a => audio_pkt 1 (pk_ts k / 90) (snd a)) aus, Ok tt).
Proof.
  intros k aus extra Hk HF Hn Hb Hl. assert (Hk' := Hk). destruct Hk' as (Hok & Hpt & _). unfold aac_rtp_decode.
  destruct (irtp_packet is_rtp_dynamic aac_rtp_payload tt k _ Hok Hb Hl) as (c & -> & Ha); [unfold is_rtp_dynamic; lia|].
  rewrite dec_left_media in Ha by assumption. cbn [app] in Ha. rewrite (aac_payload_ok (dec_hdr k) _ c aus extra HF Hn Ha). cbn [snd rh_ts dec_hdr].
  destruct Hok as (Hf & _). unfold fields_fit, pk_fields in Hf. cbn [forallb fst snd] in Hf. rewrite Z.quot_div_nonneg by lia. reflexivity.
Qed.
Print Assumptions aac_units_exact.
(** C17, every byte string: never outside the datagram. *)
Theorem aac_units_safe :
  forall buf, bytes buf -> zlen buf < 2 ^ 60 ->
    snd (aac_rtp_decode buf) = Ok tt \/ snd (aac_rtp_decode buf) = Err ERROR_IO_NOT_ENOUGH \/
    snd (aac_rtp_decode buf) = Err ERROR_RTP_PAYLOAD_TYPE.
Proof.
  intros buf Hb Hl. unfold aac_rtp_decode.
  destruct (irtp_total is_rtp_dynamic aac_rtp_payload tt buf Hb Hl) as [->|[->|(h & c & pre & pl & _ & _ & Ha & _ & ->)]]; [right; left; reflexivity|right; right; reflexivity|].
  destruct (aac_payload_total h _ c _ Ha); [left|right; left]; assumption.
Qed.
Print Assumptions aac_units_safe.
Definition rtp_ex_aus : list (Z * list Z) := [(0, [0x21; 0x10; 5]); (0, []); (1, [7])].
Example rtp_ex_au_ok : Forall au_ok rtp_ex_aus /\ au_payload rtp_ex_aus = [0; 48; 0; 24; 0; 0; 0; 9; 0x21; 0x10; 5; 7].
Proof.
  split; [|vm_compute; reflexivity]. unfold rtp_ex_aus.
  repeat (constructor; [split; [cbn; lia|split; [vm_compute; reflexivity|apply bytesb_spec; reflexivity]]|]). constructor.
Qed.

(** C18: sender and receiver reports: the 20-byte blocks the code expects come
    back exactly. *)
Theorem rtcp_sr_exact :
  forall v p len info bs extra,
    let buf := rtcp_head_bytes v p (zlen bs) 200 len ++ flat_map (be 4) info ++ flat_map short_block bs ++ extra in
    rtcp_fit v p (zlen bs) 200 len -> length info = 6%nat -> Forall (fun x => 0 <= x < 2 ^ 32) info ->
    Forall block_ok bs -> bytes buf -> zlen buf < 2 ^ 60 ->
    rtcp_decode buf = Ok (RtcpSR info bs).
Proof.
  intros v p len info bs extra buf Hf Hn Hi HF Hb Hl. destruct (rtcp_decode_head buf _ _ _ _ _ _ Hb Hl eq_refl Hf) as (c & Ha & ->).
  change (200 =? 200) with true. cbv iota zeta. destruct (rtcp_fit_inv _ _ _ _ _ Hf) as [Hc _].
  apply (sr_ok buf c v p len info bs extra Hn Hi HF); [lia|exact Ha].
Qed.
Print Assumptions rtcp_sr_exact.
Theorem rtcp_rr_exact :
  forall v p len ssrc bs extra,
    let buf := rtcp_head_bytes v p (zlen bs) 201 len ++ be 4 ssrc ++ flat_map short_block bs ++ extra in
    rtcp_fit v p (zlen bs) 201 len -> 0 <= ssrc < 2 ^ 32 -> Forall block_ok bs -> bytes buf -> zlen buf < 2 ^ 60 ->
    rtcp_decode buf = Ok (RtcpRR [ssrc] bs).
Proof.
  intros v p len ssrc bs extra buf Hf Hs HF Hb Hl. destruct (rtcp_decode_head buf _ _ _ _ _ _ Hb Hl eq_refl Hf) as (c & Ha & ->).
  change (201 =? 200) with false. change (201 =? 201) with true. cbv iota zeta. destruct (rtcp_fit_inv _ _ _ _ _ Hf) as [Hc _].
  apply (rr_ok buf c v p len ssrc bs extra Hs HF); [lia|exact Ha].
Qed.
Print Assumptions rtcp_rr_exact.
(** C18, every byte string: parsing is defined unless it is a source
    description with chunks, which always dereferences the end of a list. *)
Theorem rtcp_defined_iff_not_sdes :
  forall buf, bytes buf -> zlen buf < 2 ^ 60 ->
    (4 <= zlen buf /\ is_sdes buf /\ rtcp_decode buf = UB) \/
    ((zlen buf < 4 \/ ~ is_sdes buf) /\ safe (rtcp_decode buf)).
Proof. exact rtcp_total. Qed.
Print Assumptions rtcp_defined_iff_not_sdes.
(** C18: a standard report block is misread, its SSRC taken for loss counts. *)
Theorem rtcp_standard_blocks_refuted :
  exists ssrc fl cum seq jit lsr dlsr,
    rtcp_decode (rtcp_head_bytes 2 0 1 201 7 ++ be 4 9 ++ rfc_block ssrc fl cum seq jit lsr dlsr) =
      Ok (RtcpRR [9] [[0x12; 0x345678; fl * 2 ^ 24 + cum; seq; jit; lsr]]) /\
    [0x12; 0x345678; fl * 2 ^ 24 + cum; seq; jit; lsr] <> [fl; cum; seq; jit; lsr; dlsr].
Proof. exists 0x12345678, 3, 5, 100, 7, 8, 9. split; [vm_compute; reflexivity|vm_compute; discriminate]. Qed.
Print Assumptions rtcp_standard_blocks_refuted.
Example rtcp_ex_blocks : Forall block_ok [[3; 5; 100; 7; 8; 9]; [0; 0; 0; 0; 0; 0]] /\ rtcp_fit 2 0 2 200 12 /\
  is_sdes [0x81; 202; 0; 1].
Proof.
  split; [|split; [reflexivity|split; [reflexivity|discriminate]]].
  repeat (constructor; [eexists _, _, _, _, _, _; split; [reflexivity|]; repeat (split; [split; [discriminate|reflexivity]|]); split; [discriminate|reflexivity]|]). constructor.
Qed.
