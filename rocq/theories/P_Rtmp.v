(** RTMP media and the FLV byte interface: property theorems. *)
From Verif Require Import Base M_IO S_IO L_IO M_Packet M_Flv S_Flv L_Flv P_Flv M_Rtmp S_Rtmp L_Rtmp.

(** C41: one message is read exactly as its format says: skipped, refused,
    turned into a packet, or read outside its body. *)
Theorem rtmp_demux_exact :
  forall m, bytes (rm_body m) -> zlen (rm_body m) < 2 ^ 32 ->
    rtmp_demux_msg m = match spec_rtmp_msg m with
                       | RSkip => None
                       | RPacket p => Some (Ok p)
                       | RErr c => Some (Err c)
                       | ROver => Some UB
                       end.
Proof. exact rtmp_demux_msg_ok. Qed.
Print Assumptions rtmp_demux_exact.

Example rtmp_demux_exact_ex :
  rtmp_demux_msg (mkrm 9 1000 1 6 [0x17; 1; 0xff; 0xff; 0xfe; 7; 8]) =
    Some (Ok (mkpkt AV_MESSAGE_DATA AV_STREAM_TYPE_VIDEO 1 1000 998 0x17 7 [7; 8])) /\
  rtmp_demux_msg (mkrm 8 1000 1 4 [0xAF; 1; 5]) =
    Some (Ok (mkpkt AV_MESSAGE_DATA AV_STREAM_TYPE_AUDIO 1 1000 1000 0xAF 10 [5])) /\
  rtmp_demux_msg (mkrm 9 1000 1 6 [0x12; 1; 0; 0; 0; 7]) = Some (Err ERROR_FLV_VIDEO_CODECID) /\
  rtmp_demux_msg (mkrm 20 0 0 3 [2; 0; 0]) = None.
Proof. repeat split; reflexivity. Qed.

(** The payload of a packet is the rest of the message after a prefix whose
    length is fixed by the kind of packet. *)
Theorem rtmp_demux_payload_bounds :
  forall m p, bytes (rm_body m) -> zlen (rm_body m) < 2 ^ 32 -> rtmp_demux_msg m = Some (Ok p) ->
    exists prefix, rm_body m = prefix ++ p_data p /\ p_dts p = rm_ts m /\
      zlen prefix = (if p_stream p =? AV_STREAM_TYPE_AUDIO then 2
                     else if p_stream p =? AV_STREAM_TYPE_VIDEO then (if p_flags p / 16 =? 5 then 1 else 5) else 0).
Proof.
  intros m p Hb Hl H. rewrite rtmp_demux_exact in H by assumption.
  destruct (spec_rtmp_msg m) as [|q|c|] eqn:E; try discriminate. injection H as ->.
  unfold spec_rtmp_msg in E. destruct (rm_type m =? 9).
  { unfold spec_rtmp_video in E. destruct (rm_body m) as [|flag b]; [discriminate|].
    destruct (negb _ && negb _); [discriminate|]. destruct (flag / 16 =? 5) eqn:E5.
    - injection E as <-. exists [flag]. cbn [p_data p_dts p_stream p_flags]. rewrite E5. repeat split.
    - destruct b as [|ty [|c0 [|c1 [|c2 d]]]]; try discriminate. injection E as <-.
      exists [flag; ty; c0; c1; c2]. cbn [p_data p_dts p_stream p_flags]. rewrite E5. repeat split. }
  destruct (rm_type m =? 8).
  { unfold spec_rtmp_audio in E. destruct (rm_body m) as [|flag b]; [discriminate|].
    destruct (negb _); [discriminate|]. destruct b as [|ty d]; [discriminate|]. injection E as <-.
    exists [flag; ty]. repeat split. }
  destruct (_ || _); [|discriminate]. unfold spec_rtmp_script in E.
  destruct (rm_body m) as [|x b]; [discriminate|]. injection E as <-. exists []. repeat split.
Qed.
Print Assumptions rtmp_demux_payload_bounds.

Example rtmp_demux_payload_bounds_ex :
  rtmp_demux_msg (mkrm 9 7 1 6 [0x57; 1; 2]) = Some (Ok (mkpkt AV_MESSAGE_DATA AV_STREAM_TYPE_VIDEO 0 7 7 0x57 7 [1; 2])).
Proof. reflexivity. Qed.

(** The bounds hold because short messages never become packets; an AAC
    message of one byte is read outside its body, whatever its flags. *)
Theorem rtmp_demux_short_audio_outside :
  forall ts sid chan flag, byte flag -> flag / 16 = CODEC_AAC ->
    rtmp_demux_msg (mkrm 8 ts sid chan [flag]) = Some UB.
Proof.
  intros ts sid chan flag Hf Hc. rewrite rtmp_demux_exact; [|repeat (constructor; auto)|cbn; lia].
  cbn. rewrite Hc. reflexivity.
Qed.
Print Assumptions rtmp_demux_short_audio_outside.

Example rtmp_demux_short_audio_outside_ex : byte 0xAF /\ 0xAF / 16 = CODEC_AAC.
Proof. split; [unfold byte; lia|reflexivity]. Qed.

(** Nothing else is read outside, and short video messages are refused. *)
Theorem rtmp_demux_outside_only_short_audio :
  forall m, bytes (rm_body m) -> zlen (rm_body m) < 2 ^ 32 ->
    (rtmp_demux_msg m = Some UB <->
     rm_type m = 8 /\ exists flag, rm_body m = [flag] /\ flag / 16 = CODEC_AAC) /\
    (rm_type m = 9 -> 1 <= zlen (rm_body m) < 5 -> exists flag b, rm_body m = flag :: b /\
       (flag / 16 <> 5 -> exists c, rtmp_demux_msg m = Some (Err c))).
Proof.
  intros m Hb Hl. rewrite rtmp_demux_exact by assumption. split.
  - unfold spec_rtmp_msg. destruct (rm_type m =? 9) eqn:E9.
    { split; [|intros (H8 & _); lia]. unfold spec_rtmp_video. destruct (rm_body m) as [|flag b]; [discriminate|].
      destruct (negb _ && negb _); [discriminate|]. destruct (flag / 16 =? 5); [discriminate|].
      destruct b as [|ty [|c0 [|c1 [|c2 d]]]]; discriminate. }
    destruct (rm_type m =? 8) eqn:E8.
    { unfold spec_rtmp_audio. destruct (rm_body m) as [|flag b]; [split; [discriminate|intros (_ & f & [=] & _)]|].
      destruct (flag / 16 =? CODEC_AAC) eqn:Ec; cbn [negb].
      - destruct b as [|ty d].
        + split; [intros _|reflexivity]. split; [lia|]. exists flag. split; [reflexivity|lia].
        + split; [discriminate|]. intros (_ & f & [=] & _).
      - split; [discriminate|]. intros (_ & f & [= -> _] & Hf). lia. }
    split; [|intros (H8 & _); lia]. destruct (_ || _); [|discriminate]. unfold spec_rtmp_script.
    destruct (rm_body m); discriminate.
  - intros H9 Hs. unfold spec_rtmp_msg. rewrite H9. cbn [Z.eqb Pos.eqb]. unfold spec_rtmp_video.
    destruct (rm_body m) as [|flag b]; [cbn in Hs; lia|]. exists flag, b. split; [reflexivity|]. intros H5.
    destruct (negb _ && negb _); [eexists; reflexivity|]. destruct (flag / 16 =? 5) eqn:E5; [lia|].
    destruct b as [|ty [|c0 [|c1 [|c2 d]]]]; try (eexists; reflexivity).
    rewrite !zlen_cons in Hs. pose proof (zlen_nonneg d). lia.
Qed.
Print Assumptions rtmp_demux_outside_only_short_audio.

Example rtmp_demux_outside_only_short_audio_ex :
  rtmp_demux_msg (mkrm 9 0 1 6 [0x17; 1; 0]) = Some (Err ERROR_IO_BUFFER_FULL) /\
  rtmp_demux_msg (mkrm 9 0 1 6 [0x17; 1; 0; 0]) = Some (Err ERROR_IO_EOF).
Proof. split; reflexivity. Qed.

(** A whole connection: all packets up to the first problem, then the error of
    the connection. *)
Theorem rtmp_read_all_exact :
  forall ms e fuel, Forall (fun m => bytes (rm_body m) /\ zlen (rm_body m) < 2 ^ 32) ms -> (length ms < fuel)%nat ->
    rtmp_read_all fuel ms e = spec_rtmp_all ms e.
Proof. intros. now apply rtmp_read_all_ok. Qed.
Print Assumptions rtmp_read_all_exact.

Example rtmp_read_all_exact_ex :
  rtmp_read_all 5 [mkrm 20 0 0 3 [2]; mkrm 8 1 1 4 [0xAF; 0; 9]; mkrm 9 2 1 6 []; mkrm 18 3 1 4 [1; 2]] 7 =
  ([mkpkt AV_MESSAGE_DATA AV_STREAM_TYPE_AUDIO 0 1 1 0xAF 10 [9];
    mkpkt AV_MESSAGE_DATA AV_STREAM_TYPE_SUBTITLE 0 3 3 0 0 [1; 2]], Err 7).
Proof. reflexivity. Qed.

(** C40: what the muxer writes, the demuxer at the other end of a connection
    reads back as the same packets, in order. *)
Theorem rtmp_mux_demux_roundtrip :
  forall head ps out e,
    5 <= zlen head -> Forall rtmp_transportable ps ->
    Forall2 (fun p m => exists m', fst (rtmp_write_packet head p) = Ok (Some m') /\ carried m' m) ps out ->
    rtmp_read_all (S (length ps)) out e = (ps, Err e).
Proof.
  intros head ps out e Hh HF H2.
  assert (HW : forall p, rtmp_transportable p -> fst (rtmp_write_packet head p) = Ok (Some (rtmp_message p))).
  { intros p (_ & _ & _ & _ & Hk). rewrite rtmp_write_ok; [reflexivity|exact Hh|].
    unfold is_script, is_audio, is_video. destruct Hk as [(-> & _)|[(-> & _)|[(-> & _)|(-> & _)]]]; reflexivity. }
  assert (HS : forall p m, rtmp_transportable p -> carried (rtmp_message p) m ->
             bytes (rm_body m) /\ zlen (rm_body m) < 2 ^ 32 /\ spec_rtmp_msg m = RPacket p).
  { intros p m Hp (C1 & C2 & C3).
    assert (E : spec_rtmp_msg m = RPacket p).
    { unfold spec_rtmp_msg. rewrite <- C1, <- C2, <- C3. exact (demux_of_message p Hp). }
    destruct Hp as (Hb & Hl & _ & _ & Hk). rewrite <- C3. cbn [rm_body rtmp_message].
    pose proof (zlen_full_prefix p). split; [|split; [rewrite zlen_app; lia|exact E]].
    apply bytes_app. split; [|exact Hb]. unfold rtmp_full_prefix, rtmp_prefix, rtmp_cts_bytes, u8.
    assert (forall x, byte (x mod 256)) by (intros x; unfold byte; apply Z.mod_pos_bound; lia).
    destruct (is_script p); [constructor|].
    destruct (is_audio p); [constructor; [auto|constructor; [destruct (is_audio_seq p); unfold byte; lia|constructor]]|].
    destruct (negb _); [|constructor; [auto|constructor]].
    constructor; [auto|]. constructor; [destruct (is_video_seq p); unfold byte; lia|].
    repeat (constructor; [auto|]). constructor. }
  induction H2 as [|p m ps out (m' & Hm' & Hc) H2 IH]; [reflexivity|].
  pose proof (Forall_inv HF) as Hp. rewrite (HW p Hp) in Hm'. injection Hm' as <-.
  destruct (HS p m Hp Hc) as (Hb & Hl & Hs).
  cbn [length]. remember (S (length ps)) as n. cbn [rtmp_read_all rtmp_read_packet].
  specialize (IH (Forall_inv_tail HF)).
  assert (Hd : rtmp_demux_msg m = Some (Ok p)).
  { rewrite rtmp_demux_exact by assumption. rewrite Hs. reflexivity. }
  rewrite Hd, IH. reflexivity.
Qed.
Print Assumptions rtmp_mux_demux_roundtrip.

Example rtmp_mux_demux_roundtrip_ex :
  rtmp_transportable (mkpkt AV_MESSAGE_DATA AV_STREAM_TYPE_VIDEO 1 100 115 0x27 7 [1; 2; 3]) /\
  rtmp_transportable (mkpkt AV_MESSAGE_DATA AV_STREAM_TYPE_AUDIO 0 100 100 0xAF 10 [4]) /\
  fst (rtmp_write_packet (repeat 0 20) (mkpkt AV_MESSAGE_DATA AV_STREAM_TYPE_VIDEO 1 100 115 0x27 7 [1; 2; 3])) =
    Ok (Some (mkrm 9 100 1 6 [0x27; 1; 0; 0; 15; 1; 2; 3])).
Proof.
  split; [|split; [|reflexivity]].
  - split; [repeat (constructor; [unfold byte; lia|]); constructor|]. split; [cbn; lia|]. split; [cbn; lia|].
    split; [reflexivity|]. right; left. cbn. unfold rtmp_codec_ok, byte. cbn. repeat split; auto; lia.
  - split; [repeat (constructor; [unfold byte; lia|]); constructor|]. split; [cbn; lia|]. split; [cbn; lia|].
    split; [reflexivity|]. left. cbn. unfold byte. repeat split; auto; lia.
Qed.

(** The muxer sends for every media packet exactly one message of the right
    kind, whatever the shared head contained. *)
Theorem rtmp_mux_message :
  forall head p, 5 <= zlen head -> is_script p || is_audio p || is_video p = true ->
    exists m prefix, fst (rtmp_write_packet head p) = Ok (Some m) /\
      rm_type m = (if is_script p then 18 else if is_audio p then 8 else 9) /\
      rm_ts m = p_dts p mod 2 ^ 32 /\ rm_body m = prefix ++ p_data p /\
      zlen prefix = (if is_script p then 0 else if is_audio p then 2
                     else if p_flags p mod 256 / 16 =? 5 then 1 else 5).
Proof.
  intros head p Hh Hk. rewrite rtmp_write_ok by assumption. exists (rtmp_message p), (rtmp_full_prefix p).
  repeat split. unfold rtmp_full_prefix, rtmp_prefix. destruct (is_script p); [reflexivity|].
  destruct (is_audio p); [reflexivity|]. rewrite land_f0_50 by (unfold u8, byte; apply Z.mod_pos_bound; lia).
  unfold u8. destruct (_ =? 5); reflexivity.
Qed.
Print Assumptions rtmp_mux_message.

Example rtmp_mux_message_ex :
  fst (rtmp_write_packet (repeat 9 20) (mkpkt AV_MESSAGE_DATA AV_STREAM_TYPE_SUBTITLE 0 5 5 0 0 [2; 0])) =
  Ok (Some (mkrm 18 5 1 4 [2; 0])).
Proof. reflexivity. Qed.

(** Composition offsets: exactly the offsets 0..15 survive; every other one
    arrives as a different value. *)
Theorem rtmp_mux_cts_preserved_iff :
  forall head p q m, 5 <= zlen head -> is_video p = true -> byte (p_flags p) -> p_flags p / 16 <> 5 ->
    - 2 ^ 23 <= p_pts p - p_dts p < 2 ^ 23 -> 0 <= p_dts p < 2 ^ 32 ->
    bytes (p_data p) -> zlen (p_data p) < 2 ^ 24 ->
    fst (rtmp_write_packet head p) = Ok (Some m) -> rtmp_demux_msg m = Some (Ok q) ->
    p_pts q - p_dts q = rtmp_cts_seen (p_pts p - p_dts p) /\
    (p_pts q - p_dts q = p_pts p - p_dts p <-> 0 <= p_pts p - p_dts p <= 15).
Proof.
  intros head p q m Hh Hv Hf H5 Hc Hd Hb Hl Hw Hq.
  assert (Hna : is_script p = false /\ is_audio p = false).
  { unfold is_video in Hv. unfold is_script, is_audio. apply Z.eqb_eq in Hv. rewrite Hv. split; reflexivity. }
  destruct Hna as [Hs Ha].
  rewrite rtmp_write_ok in Hw by (try assumption; rewrite Hv, orb_true_r; reflexivity). injection Hw as <-.
  assert (Hu8 : u8 (p_flags p) = p_flags p) by (apply Z.mod_small; exact Hf).
  assert (Hm : rtmp_message p = mkrm 9 (p_dts p) 1 6 (p_flags p :: (if is_video_seq p then 0 else 1) ::
     0 :: ((p_pts p - p_dts p) mod 2 ^ 24 / 16) mod 16 * 16 :: (p_pts p - p_dts p) mod 16 :: p_data p)).
  { unfold rtmp_message, rtmp_type_of, rtmp_chan_of, rtmp_full_prefix, rtmp_prefix. rewrite Hs, Ha, Hu8.
    rewrite land_f0_50 by exact Hf. destruct (p_flags p / 16 =? 5) eqn:E5; [lia|]. cbn [negb orb].
    rewrite cts_bytes_ok by exact Hc. unfold u32. rewrite Z.mod_small by lia. reflexivity. }
  rewrite Hm in Hq. rewrite rtmp_demux_exact in Hq; cbn [rm_body] in *.
  2:{ pose proof (Z.mod_pos_bound ((p_pts p - p_dts p) mod 2 ^ 24 / 16) 16 eq_refl).
      pose proof (Z.mod_pos_bound (p_pts p - p_dts p) 16 eq_refl).
      constructor; [exact Hf|]. constructor; [destruct (is_video_seq p); unfold byte; lia|].
      constructor; [unfold byte; lia|]. constructor; [unfold byte; lia|]. constructor; [unfold byte; lia|exact Hb]. }
  2:{ rewrite !zlen_cons. lia. }
  unfold spec_rtmp_msg in Hq. cbn [rm_type rm_ts rm_body Z.eqb Pos.eqb] in Hq. unfold spec_rtmp_video in Hq.
  destruct (negb _ && negb _); [discriminate|]. destruct (p_flags p / 16 =? 5) eqn:E5; [lia|].
  injection Hq as <-. cbn [p_pts p_dts]. rewrite cts_seen_ok by exact Hc.
  split; [lia|]. rewrite <- cts_seen_same by exact Hc. lia.
Qed.
Print Assumptions rtmp_mux_cts_preserved_iff.

Example rtmp_mux_cts_lost_ex :
  exists m q, fst (rtmp_write_packet (repeat 0 20) (mkpkt AV_MESSAGE_DATA AV_STREAM_TYPE_VIDEO 1 1000 1040 0x27 7 [1])) = Ok (Some m) /\
    rtmp_demux_msg m = Some (Ok q) /\ p_dts q = 1000 /\ p_pts q = 1000 + 8200.
Proof. do 2 eexists. repeat split; reflexivity. Qed.

(** Any number of players writing the same shared packet send the same
    message, and the payload is not touched. *)
Theorem rtmp_shared_packet_same_for_all :
  forall n head p, 5 <= zlen head -> is_script p || is_audio p || is_video p = true ->
    exists m, fst (rtmp_write_packet head p) = Ok (Some m) /\
      fst (rtmp_write_shared n head p) = repeat (Ok (Some m)) n /\
      zlen (snd (rtmp_write_shared n head p)) = zlen head /\
      forall head', 5 <= zlen head' -> fst (rtmp_write_packet head' p) = Ok (Some m).
Proof.
  intros n head p Hh Hk. exists (rtmp_message p). split; [rewrite rtmp_write_ok by assumption; reflexivity|].
  split; [apply rtmp_write_shared_ok; assumption|]. split.
  - destruct n as [|n]; [reflexivity|]. destruct (rtmp_write_shared_ok n head p Hh Hk) as [_ ->].
    apply push_front_drop. pose proof (zlen_full_prefix p). lia.
  - intros head' Hh'. rewrite rtmp_write_ok by assumption. reflexivity.
Qed.
Print Assumptions rtmp_shared_packet_same_for_all.

Example rtmp_shared_packet_ex :
  fst (rtmp_write_shared 3 (repeat 0 20) (mkpkt AV_MESSAGE_DATA AV_STREAM_TYPE_AUDIO 1 5 5 0xAF 10 [7])) =
  repeat (Ok (Some (mkrm 8 5 1 4 [0xAF; 1; 7]))) 3.
Proof. reflexivity. Qed.

(** *** RTMP as an FLV byte stream *)

(** Reading with any buffer sizes (the first at least 13): the bytes handed
    out are a prefix of the FLV text of the messages; an error comes only when
    the whole text was delivered, and it is the error of the connection. *)
Theorem rtmp_bridge_read_prefix :
  forall ms e n sizes, Forall rmsg_wf ms -> 13 <= n -> Forall (fun k => 0 <= k) sizes ->
    match bg_run (bridge0 ms e) (n :: sizes) with
    | (ds, Ok _, _) => exists rest, flv_text ms = concat ds ++ rest /\ length ds = S (length sizes) /\
                       Forall2 (fun d k => zlen d <= k) ds (n :: sizes)
    | (ds, Err c, _) => flv_text ms = concat ds /\ c = e
    | _ => False
    end.
Proof.
  intros ms e n sizes Hw Hn Hs. cbn [bg_run].
  pose proof (bg_read_ok (bridge0 ms e) n (bg_inv0 ms e Hw) ltac:(lia)) as HR.
  destruct (bg_read (bridge0 ms e) n) as [[d|c| |] b1]; try contradiction.
  - destruct HR as (A & B & C & D & E & F). rewrite bg_rest0 in B.
    pose proof (bg_run_ok sizes b1 A E Hs) as H. destruct (bg_run b1 sizes) as [[ds x] b2].
    destruct x as [u|c| |]; try contradiction.
    + destruct H as (I1 & I2 & I3 & I4 & I5 & I6 & I7). exists (bg_rest b2). cbn [concat length].
      split; [rewrite B, I1, app_assoc; reflexivity|]. split; [lia|]. constructor; assumption.
    + destruct H as (I1 & I2). cbn [concat]. split; [congruence|]. rewrite I2, D. reflexivity.
  - destruct HR as [(_ & A & _)|(A & _)]; [lia|discriminate].
Qed.
Print Assumptions rtmp_bridge_read_prefix.

Example rtmp_bridge_read_prefix_ex :
  rmsg_wf (mkrm 8 0x01020304 1 4 [0xAF; 1; 7]) /\
  bg_run (bridge0 [mkrm 20 0 0 3 [2]; mkrm 8 0x01020304 1 4 [0xAF; 1; 7]] 5) [13; 10; 100; 9] =
  ([flv_header13; [8; 0; 0; 3; 2; 3; 4; 1; 0; 0]; [1; 0xAF; 1; 7; 0; 0; 0; 14]], Err 5,
   mkbg [] 5 None 0 true).
Proof.
  split; [|reflexivity]. split; [repeat (constructor; [unfold byte; lia|]); constructor|].
  cbn. unfold byte. lia.
Qed.

(** With buffers of at least 4 bytes every read makes progress, so the whole
    text comes out within as many reads as it has bytes. *)
Theorem rtmp_bridge_read_complete :
  forall ms e n sizes, Forall rmsg_wf ms -> 13 <= n -> Forall (fun k => 4 <= k) sizes ->
    zlen (flv_text ms) <= zlen sizes ->
    exists ds b, bg_run (bridge0 ms e) (n :: sizes) = (ds, Err e, b) /\ concat ds = flv_text ms.
Proof.
  intros ms e n sizes Hw Hn Hs Hlen.
  assert (Hs0 : Forall (fun k => 0 <= k) sizes) by (eapply Forall_impl; [|exact Hs]; cbn; lia).
  cbn [bg_run]. pose proof (bg_read_ok (bridge0 ms e) n (bg_inv0 ms e Hw) ltac:(lia)) as HR.
  destruct (bg_read (bridge0 ms e) n) as [[d|c| |] b1]; try contradiction.
  - destruct HR as (A & B & C & D & E & F). rewrite bg_rest0 in B.
    pose proof (bg_run_ok sizes b1 A E Hs0) as H. destruct (bg_run b1 sizes) as [[ds x] b2].
    destruct x as [u|c| |]; try contradiction.
    + exfalso. destruct H as (I1 & I2 & I3 & I4 & I5 & I6 & I7). specialize (I7 Hs).
      pose proof (concat_nonempty_len ds I7) as Hc. assert (zlen ds = zlen sizes) by (unfold zlen; lia).
      rewrite B, I1, !zlen_app in Hlen. specialize (F ltac:(lia)). destruct d as [|x0 d]; [congruence|].
      rewrite zlen_cons in Hlen. pose proof (zlen_nonneg d). pose proof (zlen_nonneg (bg_rest b2)). lia.
    + destruct H as (I1 & I2). exists (d :: ds), b2. cbn [concat]. split; [|congruence].
      rewrite I2, D. reflexivity.
  - destruct HR as [(_ & A & _)|(A & _)]; [lia|discriminate].
Qed.
Print Assumptions rtmp_bridge_read_complete.

Example rtmp_bridge_read_complete_ex :
  zlen (flv_text [mkrm 8 0x01020304 1 4 [0xAF; 1; 7]]) <= zlen (repeat 4096 31).
Proof. vm_compute. discriminate. Qed.

(** A buffer shorter than the back pointer never gets past it: the read
    succeeds with no bytes, again and again. *)
Theorem rtmp_bridge_small_buffer_stalls :
  forall ms e m n k, rmsg_wf m -> 0 <= n < 4 ->
    let b := mkbg ms e (Some (m, head_text m)) (zlen (rm_body m) + 11) true in
    bg_run b (repeat n k) = (repeat [] k, Ok tt, b).
Proof.
  intros ms e m n k Hm Hn b. induction k as [|k IH]; [reflexivity|].
  cbn [repeat bg_run].
  assert (Hr : bg_read b n = (Ok [], b)).
  { unfold bg_read, b. cbn [bg_head bg_cur bg_in bg_off bg_err negb].
    destruct (zlen (rm_body m) + 11 + 4 =? zlen (rm_body m) + 11) eqn:E; [lia|].
    pose proof (zlen_nonneg (rm_body m)).
    destruct (bg_copy_ok m (zlen (rm_body m) + 11) n Hm) as (d & off1 & -> & _ & _ & _ & _ & _ & _ & _ & G); try lia.
    destruct (G eq_refl ltac:(lia)) as [-> ->]. reflexivity. }
  rewrite Hr, IH. reflexivity.
Qed.
Print Assumptions rtmp_bridge_small_buffer_stalls.

Example rtmp_bridge_small_buffer_stalls_ex :
  bg_run (bridge0 [mkrm 8 0 1 4 [0xAF; 1; 7]] 5) [13; 14; 3; 3; 3] =
  ([flv_header13; [8; 0; 0; 3; 0; 0; 0; 0; 0; 0; 1; 0xAF; 1; 7]; []; []; []], Ok tt,
   mkbg [] 5 (Some (mkrm 8 0 1 4 [0xAF; 1; 7], [8; 0; 0; 3; 0; 0; 0; 0; 0; 0; 1])) 14 true).
Proof. reflexivity. Qed.

(** Writing: the messages sent are those of the FLV tags of the buffer, up to
    the first defect or failed send. *)
Theorem rtmp_bridge_write_exact :
  forall hd buf oks e, bytes buf -> zlen buf < 2 ^ 31 ->
    bg_write hd buf oks e =
    if hd then (sends (flv_parse (S (length buf)) buf) oks e, true)
    else if zlen buf <? 13 then ([], Err ERROR_FLV_TAG, false)
    else (sends (flv_parse (S (length (drop 13 buf))) (drop 13 buf)) oks e, true).
Proof. intros. apply bg_write_ok; [assumption|lia]. Qed.
Print Assumptions rtmp_bridge_write_exact.

(** Whole tags written in one call arrive as the messages they describe, on
    message stream 1, in order. *)
Theorem rtmp_bridge_write_tags :
  forall (hd : bool) hdr ms e, Forall rmsg_wf ms -> bytes hdr -> zlen hdr = (if hd then 0 else 13) ->
    zlen (hdr ++ concat (map flv_tag_text ms)) < 2 ^ 31 ->
    bg_write hd (hdr ++ concat (map flv_tag_text ms)) [] e = (map as_sent ms, Ok tt, true).
Proof.
  intros hd hdr ms e HF Hb Hz Hl.
  assert (HB : bytes (hdr ++ concat (map flv_tag_text ms))).
  { apply bytes_app. split; [exact Hb|]. clear Hl. induction ms as [|m ms IH]; [constructor|].
    cbn [map concat]. apply bytes_app. split; [|apply IH; exact (Forall_inv_tail HF)].
    destruct (Forall_inv HF) as (H1 & _ & H2 & _). unfold flv_tag_text. rewrite !bytes_app.
    repeat split; try apply be_bytes; [|exact H1]. constructor; [exact H2|constructor]. }
  assert (HP : forall k, (length ms < k)%nat -> flv_parse k (concat (map flv_tag_text ms)) = (map as_sent ms, Ok tt)).
  { intros k Hk. pose proof (flv_parse_tags [] ms k HF) as H. cbn [length] in H. rewrite app_nil_r in H.
    rewrite H by lia. replace (k - length ms)%nat with (S (k - length ms - 1)) by lia. cbn [flv_parse].
    rewrite app_nil_r. reflexivity. }
  assert (HN : forall l, (length l <= length (concat (map flv_tag_text l)))%nat).
  { induction l as [|m l IH]; [cbn; lia|]. cbn [map concat length]. rewrite app_length.
    pose proof (zlen_tag_text m) as Z. pose proof (zlen_nonneg (rm_body m)). unfold zlen at 1 in Z. lia. }
  assert (HS : forall l, send_list l (Ok tt) [] e = (l, Ok tt)).
  { induction l as [|m l IH]; [reflexivity|]. cbn [send_list tl]. rewrite IH. reflexivity. }
  rewrite rtmp_bridge_write_exact by assumption. destruct hd.
  - destruct hdr; [|rewrite zlen_cons in Hz; pose proof (zlen_nonneg hdr); lia]. cbn [app].
    rewrite HP by (specialize (HN ms); lia). unfold sends. cbn [fst snd]. rewrite HS. reflexivity.
  - pose proof (zlen_nonneg (concat (map flv_tag_text ms))). rewrite zlen_app, Hz.
    destruct (13 + _ <? 13) eqn:E; [lia|]. rewrite (drop_app_exact 13) by lia.
    rewrite HP by (specialize (HN ms); lia). unfold sends. cbn [fst snd]. rewrite HS. reflexivity.
Qed.
Print Assumptions rtmp_bridge_write_tags.

Example rtmp_bridge_write_tags_ex :
  bg_write false (flv_header13 ++ concat (map flv_tag_text [mkrm 8 5 0 0 [0xAF; 1; 7]; mkrm 9 6 0 0 [0x27]])) [] 9 =
  ([mkrm 8 5 1 4 [0xAF; 1; 7]; mkrm 9 6 1 6 [0x27]], Ok tt, true).
Proof. reflexivity. Qed.

(** Reading a connection through the interface and writing the bytes to
    another one in one call forwards exactly its media messages. *)
Theorem rtmp_bridge_forward :
  forall ms e e2 n sizes ds b, Forall rmsg_wf ms -> 13 <= n -> Forall (fun k => 0 <= k) sizes ->
    zlen (flv_text ms) < 2 ^ 31 ->
    bg_run (bridge0 ms e) (n :: sizes) = (ds, Err e, b) ->
    bg_write false (concat ds) [] e2 = (map as_sent (filter flv_media ms), Ok tt, true).
Proof.
  intros ms e e2 n sizes ds b HF Hn Hs Hl Hrun.
  pose proof (rtmp_bridge_read_prefix ms e n sizes HF Hn Hs) as H. rewrite Hrun in H. destruct H as [H _].
  rewrite <- H. unfold flv_text in *. apply rtmp_bridge_write_tags.
  - rewrite Forall_forall in *. intros m Hm. apply filter_In in Hm as [Hm _]. auto.
  - repeat (constructor; [unfold byte; lia|]). constructor.
  - reflexivity.
  - exact Hl.
Qed.
Print Assumptions rtmp_bridge_forward.

Example rtmp_bridge_forward_ex :
  bg_write false (concat [flv_header13; [8; 0; 0; 3; 2; 3; 4; 1; 0; 0]; [1; 0xAF; 1; 7; 0; 0; 0; 14]]) [] 9 =
  ([mkrm 8 0x01020304 1 4 [0xAF; 1; 7]], Ok tt, true).
Proof. reflexivity. Qed.

(** A tag split over two writes is lost: the first call fails after sending
    only the tags before it, for every split point inside the tag. *)
Theorem rtmp_bridge_split_tag_refused :
  forall ms m k e, Forall rmsg_wf ms -> rmsg_wf m -> 0 < k < zlen (flv_tag_text m) ->
    zlen (concat (map flv_tag_text ms) ++ flv_tag_text m) < 2 ^ 31 ->
    exists c, bg_write true (concat (map flv_tag_text ms) ++ take k (flv_tag_text m)) [] e =
      (map as_sent ms, Err c, true) /\ (c = ERROR_IO_NOT_ENOUGH \/ c = ERROR_FLV_TAG).
Proof.
  intros ms m k e HF Hm Hk Hl.
  assert (HB1 : forall m, rmsg_wf m -> bytes (flv_tag_text m)).
  { intros q (H1 & _ & H2 & _). unfold flv_tag_text. rewrite !bytes_app.
    repeat split; try apply be_bytes; [|exact H1]. constructor; [exact H2|constructor]. }
  assert (HB : bytes (concat (map flv_tag_text ms) ++ take k (flv_tag_text m))).
  { apply bytes_app. split; [|apply bytes_take, HB1, Hm]. clear Hl. induction ms as [|q ms IH]; [constructor|].
    cbn [map concat]. apply bytes_app. split; [apply HB1, (Forall_inv HF)|apply IH; exact (Forall_inv_tail HF)]. }
  assert (HL : zlen (take k (flv_tag_text m)) = k) by (rewrite zlen_take by lia; lia).
  rewrite rtmp_bridge_write_exact; [|exact HB|rewrite zlen_app in *; lia].
  set (tail := take k (flv_tag_text m)) in *.
  assert (HN : forall l, (length l <= length (concat (map flv_tag_text l)))%nat).
  { induction l as [|q l IH]; [cbn; lia|]. cbn [map concat length]. rewrite app_length.
    pose proof (zlen_tag_text q) as Z. pose proof (zlen_nonneg (rm_body q)). unfold zlen at 1 in Z. lia. }
  set (fuel := S (length _)).
  assert (Hfu : (length ms + length tail < fuel)%nat).
  { unfold fuel. rewrite app_length. specialize (HN ms). lia. }
  rewrite flv_parse_tags by assumption.
  assert (HT : forall f, (0 < f)%nat -> exists c, flv_parse f tail = ([], Err c) /\ (c = ERROR_IO_NOT_ENOUGH \/ c = ERROR_FLV_TAG)).
  { intros f Hf. destruct f as [|f]; [lia|].
    destruct tail as [|t [|l0 [|l1 [|l2 [|a [|b [|c [|x [|s0 [|s1 [|s2 rest]]]]]]]]]]] eqn:Et;
      try (eexists; split; [reflexivity|auto]; fail); [cbn in HL; lia|].
    exists ERROR_FLV_TAG. split; [|auto]. cbn [flv_parse].
    assert (Hd : bev [l0; l1; l2] = zlen (rm_body m)).
    { destruct Hm as (_ & Hml & _).
      pose proof (take_drop k (flv_tag_text m)) as He. fold tail in He. rewrite Et in He.
      unfold flv_tag_text in He at 2. cbn [be app] in He. injection He as _ -> -> -> _.
      change [zlen (rm_body m) / 256 / 256 mod 256; zlen (rm_body m) / 256 mod 256; zlen (rm_body m) mod 256]
        with (be 3 (zlen (rm_body m))). apply bev_be_small. pose proof (zlen_nonneg (rm_body m)).
      change (256 ^ Z.of_nat 3) with (2 ^ 24). lia. }
    rewrite Hd. rewrite zlen_tag_text in Hk. rewrite !zlen_cons in HL.
    destruct (zlen rest <? zlen (rm_body m) + 4) eqn:E; [reflexivity|lia]. }
  destruct (HT (fuel - length ms)%nat ltac:(lia)) as (c & -> & Hc). exists c. split; [|exact Hc].
  unfold sends. cbn [fst snd]. rewrite app_nil_r.
  assert (HS : forall l, send_list l (Err c) [] e = (l, Err c)).
  { induction l as [|q l IH]; [reflexivity|]. cbn [send_list tl]. rewrite IH. reflexivity. }
  rewrite HS. reflexivity.
Qed.
Print Assumptions rtmp_bridge_split_tag_refused.

Example rtmp_bridge_split_tag_refused_ex :
  bg_write true (flv_tag_text (mkrm 8 5 0 0 [0xAF; 1; 7]) ++ take 14 (flv_tag_text (mkrm 9 6 0 0 [0x27]))) [] 9 =
  ([mkrm 8 5 1 4 [0xAF; 1; 7]], Err ERROR_FLV_TAG, true).
Proof. reflexivity. Qed.

(** The server's own FLV muxer writes a header of 9 bytes in its first call,
    which the interface always refuses: the two cannot be combined. *)
Theorem rtmp_bridge_refuses_flv_muxer :
  forall h s1 oks e, flv_write_header h (mksink [] []) = (Ok tt, s1) ->
    bg_write false (sk_out s1) oks e = ([], Err ERROR_FLV_TAG, false).
Proof.
  intros h s1 oks e H. assert (Hz : zlen (sk_out s1) = 9).
  { unfold flv_write_header in H. destruct h as [p|].
    - destruct (zlen (p_data p) =? 9) eqn:E; cbn in H; [|discriminate]. injection H as <-. cbn. lia.
    - cbn in H. injection H as <-. reflexivity. }
  unfold bg_write. rewrite Hz. reflexivity.
Qed.
Print Assumptions rtmp_bridge_refuses_flv_muxer.

Example rtmp_bridge_refuses_flv_muxer_ex :
  flv_write_header None (mksink [] []) = (Ok tt, mksink [] flv_default_header).
Proof. reflexivity. Qed.

(** Reading the bridged bytes with the FLV demuxer yields the packets of the
    native RTMP demuxer (presentation time 0 where FLV has no offset), through
    any partition of the bytes, and then the error of the connection. *)
Theorem rtmp_bridge_same_packets :
  forall fill ms e t,
    15 <= zlen fill -> zlen fill < 2 ^ 62 -> Forall (bridgeable (zlen fill)) ms ->
    nonempty_chunks (t_chunks t) -> t_stream t = flv_text ms -> t_err t = e ->
    exists ps hp r1,
      rtmp_read_all (S (length ms)) ms e = (ps, Err e) /\
      flv_demux (S (length ms)) (br_new fill t) = (Ok hp, (map flv_view ps, Err e, r1)).
Proof.
  intros fill ms e t Hf1 Hf2 HF Hne Hst He.
  set (h := [0x46; 0x4C; 0x56; 1; 5; 0; 0; 0; 9]).
  set (s := [0; 0; 0; 0] ++ concat (map flv_tag_text (filter flv_media ms))).
  assert (HB : bytes s).
  { apply bytes_app. split; [repeat (constructor; [unfold byte; lia|]); constructor|].
    clear Hst. induction ms as [|m ms IH]; [constructor|]. cbn [filter].
    specialize (IH (Forall_inv_tail HF)). destruct (flv_media m); [|exact IH]. cbn [map concat].
    apply bytes_app. split; [|exact IH]. destruct (Forall_inv HF) as ((H1 & _ & H2 & _) & _).
    unfold flv_tag_text. rewrite !bytes_app. repeat split; try apply be_bytes; [|exact H1].
    constructor; [exact H2|constructor]. }
  destruct (flv_demux_arbitrary_input fill t h s (S (length ms)) Hf1 Hf2 Hne) as (hp & x & r1 & E1 & E2 & E3);
    [exact Hst|reflexivity|reflexivity|exact HB|].
  destruct (bridge_all (zlen fill) (t_err t) ms [0; 0; 0; 0] (S (length ms)) HF ltac:(lia) eq_refl) as [B1 B2].
  fold s in B1. rewrite B1 in E1, E3. cbn [fst snd] in *. unfold flv_end_ok in E3. subst x. rewrite He in *.
  exists (fst (spec_rtmp_all ms e)), hp, r1. split; [|exact E1].
  rewrite rtmp_read_all_exact; [|eapply Forall_impl; [|exact HF]; intros m ((Hb & Hl & _) & _); split; [exact Hb|lia]|lia].
  destruct (spec_rtmp_all ms e) as [ps y]. cbn [fst snd] in *. congruence.
Qed.
Print Assumptions rtmp_bridge_same_packets.

Example rtmp_bridge_same_packets_ex :
  bridgeable 64 (mkrm 9 1000 1 6 [0x27; 1; 0; 0; 40; 5]) /\ bridgeable 64 (mkrm 20 0 0 3 [2]) /\
  spec_rtmp_all [mkrm 20 0 0 3 [2]; mkrm 9 1000 1 6 [0x27; 1; 0; 0; 40; 5]] 3 =
    ([mkpkt AV_MESSAGE_DATA AV_STREAM_TYPE_VIDEO 1 1000 1040 0x27 7 [5]], Err 3).
Proof.
  split; [|split; [|reflexivity]].
  - split; [split; [repeat (constructor; [unfold byte; lia|]); constructor|cbn; unfold byte; lia]|].
    split; [cbn; lia|]. right; right; left. split; [reflexivity|]. exists 0x27, 1, 0, 0, 40, 5, [].
    split; [reflexivity|]. split; [left; reflexivity|discriminate].
  - split; [split; [repeat (constructor; [unfold byte; lia|]); constructor|cbn; unfold byte; lia]|].
    split; [cbn; lia|]. left. reflexivity.
Qed.
