(** Lemmas about packets sent to RTMP players. *)
From Verif Require Import Base M_Text M_IO M_Packet M_Flv S_Flv M_Rtmp S_Rtmp L_IO L_Flv L_Rtmp M_Cache S_Cache M_Live S_Live L_Live L_Live2 L_Live3 M_Stream S_Stream
  L_Stream P_Stream M_RtmpSess M_Url M_Conf M_Host M_RtmpRelay S_RtmpRelay L_RtmpRelay L_LiveSet M_Http M_H264 M_AAC S_Codec P_Rtmp L_Cross S_CrossR.

Lemma u8_of_land x m : 0 <= m < 256 -> u8 (Z.land x m) = Z.land (x mod 256) m.
Proof.
  intros Hm. unfold u8. change 256 with (2 ^ 8). rewrite <- !Z.land_ones by lia.
  rewrite <- !Z.land_assoc. f_equal. apply Z.land_comm.
Qed.
Lemma s32_256 v : s32 v mod 256 = v mod 256.
Proof.
  unfold s32. set (k := (v + 2 ^ 31) mod 2 ^ 32).
  pose proof (Z_div_mod_eq_full (v + 2 ^ 31) (2 ^ 32)) as E. fold k in E.
  replace (k - 2 ^ 31) with (v + (- (2 ^ 24) * ((v + 2 ^ 31) / 2 ^ 32)) * 256) by lia. apply Z_mod_plus_full.
Qed.
Lemma u32_256 v : u32 v mod 256 = v mod 256.
Proof.
  unfold u32. pose proof (Z_div_mod_eq_full v (2 ^ 32)) as E.
  replace (v mod 2 ^ 32) with (v + (- (2 ^ 24) * (v / 2 ^ 32)) * 256) by lia. apply Z_mod_plus_full.
Qed.
Lemma lxor_256 a b : b mod 256 = 0 -> Z.lxor a b mod 256 = a mod 256.
Proof.
  intros H. apply Z.bits_inj. intros n. change 256 with (2 ^ 8) in *.
  destruct (Z_lt_dec n 0); [rewrite !Z.testbit_neg_r by lia; reflexivity|].
  destruct (Z_lt_dec n 8).
  - rewrite !Z.mod_pow2_bits_low by lia. rewrite Z.lxor_spec.
    replace (Z.testbit b n) with false; [apply xorb_false_r|].
    rewrite <- (Z.mod_pow2_bits_low b 8 n) by lia. rewrite H. symmetry. apply Z.bits_0.
  - rewrite !Z.mod_pow2_bits_high by lia. reflexivity.
Qed.
(** The three bytes, whatever the offset. *)
Lemma cts_bytes_any pts dts :
  rtmp_cts_bytes pts dts = [0; (pts - dts) / 16 mod 16 * 16; (pts - dts) mod 16].
Proof.
  unfold rtmp_cts_bytes. set (c := s32 (Z.lxor _ _)).
  assert (E : c mod 256 = (pts - dts) mod 256).
  { unfold c. rewrite s32_256, lxor_256 by reflexivity. rewrite u32_256.
    rewrite Z.add_mod, s32_256 by lia. change (0xff800000 mod 256) with 0. rewrite Z.add_0_r, Z.mod_mod by lia. reflexivity. }
  f_equal; [|f_equal; [|f_equal]].
  - unfold u8. rewrite <- (Z.land_ones _ 8) by lia. rewrite <- Z.land_assoc. apply Z.land_0_r.
  - rewrite u8_of_land by lia. rewrite E, land_shift_nib. f_equal.
    rewrite (Z.div_mod (pts - dts) 256) at 2 by lia.
    replace (256 * ((pts - dts) / 256) + (pts - dts) mod 256) with ((pts - dts) mod 256 + 16 * ((pts - dts) / 256) * 16) by lia.
    rewrite Z.div_add by lia. rewrite (Z.mul_comm 16), Z_mod_plus_full. reflexivity.
  - rewrite u8_of_land by lia. rewrite E, land_0f. change 256 with (16 * 16). rewrite Z.rem_mul_r by lia.
    rewrite Z.mul_comm, Z_mod_plus_full. apply Z.mod_mod. lia.
Qed.

Lemma fit_media p : rtmp_fit p -> media p = true.
Proof. intros (_ & _ & H). unfold media, is_script, is_audio, is_video. destruct H as [->|[->| ->]]; reflexivity. Qed.
Lemma message_on p : rtmp_fit p -> on_rtmp p (rtmp_message p).
Proof.
  intros (Hf & Hd & Hs).
  assert (F : u8 (p_flags p) = p_flags p) by (apply Z.mod_small; exact Hf).
  assert (D : u32 (p_dts p) = p_dts p) by (apply Z.mod_small; exact Hd).
  unfold rtmp_message, rtmp_type_of, rtmp_chan_of, rtmp_full_prefix, rtmp_prefix, is_script, is_video_seq, is_audio_seq, is_audio, is_video.
  destruct Hs as [Hs|[Hs|Hs]]; rewrite Hs; cbn [Z.eqb Pos.eqb AV_STREAM_TYPE_AUDIO AV_STREAM_TYPE_VIDEO AV_STREAM_TYPE_SUBTITLE andb orb]; rewrite D, ?F.
  - apply on_audio; auto. 
  - rewrite land_f0_50 by exact Hf. destruct (Z.eqb_spec (p_flags p / 16) 5) as [E|E]; cbn [negb].
    + apply on_command; auto.
    + eapply on_video; auto. cbn [rm_body]. rewrite cts_bytes_any. reflexivity.
  - apply on_data; auto.
Qed.

(** What the reader makes of it. *)
Lemma nibbles o : flv_sign24 (bev [0; o / 16 mod 16 * 16; o mod 16]) = 4096 * (o / 16 mod 16) + o mod 16.
Proof.
  pose proof (Z.mod_pos_bound (o / 16) 16 eq_refl). pose proof (Z.mod_pos_bound o 16 eq_refl).
  unfold flv_sign24, bev; cbn [fold_left]. destruct (Z.ltb_spec ((((0 * 256 + 0) * 256 + o / 16 mod 16 * 16) * 256 + o mod 16)) (2 ^ 23)); lia.
Qed.
Lemma on_read p m : rtmp_taken p -> on_rtmp p m -> spec_rtmp_msg m = RPacket (as_rtmp p).
Proof.
  intros ((Hf & Hd & Hs) & Hm & Hb & Hl & Ha & Hv & Hx) H. unfold as_rtmp, spec_rtmp_msg.
  destruct H as [Es Et Eb Ed Ei|Es E5 Et Eb Ed Ei|o Es E5 Et Eo Eb Ed Ei|Es Et Eb Ed Ei]; rewrite Et, Eb, Ed, Es, Hm;
    cbn [Z.eqb Pos.eqb AV_STREAM_TYPE_AUDIO AV_STREAM_TYPE_VIDEO AV_STREAM_TYPE_SUBTITLE orb].
  - destruct (Ha Es) as [H1 H2]. unfold spec_rtmp_audio. rewrite H1, Z.eqb_refl, H2. reflexivity.
  - destruct (Hv Es) as [H1 H2]. unfold spec_rtmp_video. rewrite E5, Z.eqb_refl, H2. destruct H1 as [-> | ->]; reflexivity.
  - destruct (Hv Es) as [H1 H2]. unfold spec_rtmp_video. rewrite nibbles, <- Eo, H2.
    destruct (Z.eqb_spec (p_flags p / 16) 5); [contradiction|]. destruct H1 as [-> | ->]; reflexivity.
  - unfold spec_rtmp_script. specialize (Hx Es). destruct (p_data p); [contradiction|reflexivity].
Qed.
Lemma on_read_all ps ms e : Forall rtmp_taken ps -> Forall2 on_rtmp ps ms -> spec_rtmp_all ms e = (map as_rtmp ps, Err e).
Proof.
  intros HF H2. induction H2 as [|p m ps ms H _ IH]; [reflexivity|]. cbn [spec_rtmp_all map].
  rewrite (on_read p m (Forall_inv HF) H), IH by exact (Forall_inv_tail HF). reflexivity.
Qed.
Lemma on_wf p m : rtmp_taken p -> on_rtmp p m -> bytes (rm_body m) /\ zlen (rm_body m) < 2 ^ 32.
Proof.
  intros ((Hf & Hd & Hs) & _ & Hb & Hl & _) H.
  assert (T : byte (header_or_not (p_ptype p))) by (unfold header_or_not, byte; destruct (_ =? 0); lia).
  destruct H as [_ _ Eb _ _|_ _ _ Eb _ _|o _ _ _ _ Eb _ _|_ _ Eb _ _]; rewrite Eb; rewrite ?zlen_cons; (split; [|lia]);
    repeat first [exact Hb|constructor; [first [exact Hf|exact T|idtac]|]]; unfold byte.
  all: pose proof (Z.mod_pos_bound (o / 16) 16 eq_refl); pose proof (Z.mod_pos_bound o 16 eq_refl); lia.
Qed.

(** *** Any stream, an RTMP player *)
Lemma rtmp_player_any shape os s post pre v a name i ins outs h ctx e :
  keeps_order shape -> env_ok shape live0 os ->
  play_events shape live0 [] os = (s, post ++ (OPlay v a name, Done) :: pre) -> ~ In (OLeave v, Done) post ->
  owner name pre = Some (i, 0%nat) ->
  (forall p, In p (puts i 0 (post ++ (OPlay v a name, Done) :: pre)) -> rtmp_fit p) ->
  rc_publishing ctx = false -> cache_key (rtmp_req (rc_req ctx)) = name -> rw_taken e = registered pre ->
  fmt_find outs (str "-") = Ok (Some (str "-")) ->
  rw_dumps e = polls v post -> ~ In [] (polls v post) -> rw_sends e = [] -> (forall n, 5 <= zlen (rw_heads e n)) ->
  exists sent, rtmp_stream ins outs h ctx e = mkro None None sent /\ Forall2 on_rtmp (given v post) sent /\
    (forall p, In p (given v post) -> In p (puts i 0 (post ++ (OPlay v a name, Done) :: pre))) /\
    initial (given v post) (gop_snapshot (puts i 0 pre) ++ puts i 0 post).
Proof.
  intros Hk Henv Hev Hlv Hown HF Hpb Hkey Htk Hfm Hdu Hnp Hsd Hhd.
  destruct (viewer_stream _ _ _ _ _ _ _ _ Hk Henv Hev Hlv) as (i' & k & vx & Ho & _ & _ & Hgv).
  rewrite Hown in Ho. injection Ho as <- <-. cbn [snapshot] in Hgv.
  assert (Hg : forall p, In p (given v post) -> In p (puts i 0 (post ++ (OPlay v a name, Done) :: pre))).
  { intros p Hp. assert (Hin : In p (gop_snapshot (puts i 0 pre) ++ puts i 0 post)).
    { rewrite <- Hgv. apply in_or_app. left. exact Hp. }
    rewrite puts_app, puts_skip. apply in_or_app.
    apply in_app_or in Hin as [Hin|Hin]; [left; apply gop_snapshot_in; exact Hin|right; exact Hin]. }
  assert (Hue : forall l : list (list pkt), ~ In [] l -> until_empty l = l).
  { induction l as [|d l IH]; intros Hn; [reflexivity|]. destruct d as [|p d]; [destruct Hn; left; reflexivity|].
    cbn [until_empty]. rewrite IH; [reflexivity|]. intros Hi. apply Hn. right. exact Hi. }
  assert (Hmed : filter media (given v post) = given v post).
  { assert (forall l, (forall p, In p l -> rtmp_fit p) -> filter media l = l) as A.
    { induction l as [|p l IH]; intros Hl; [reflexivity|]. cbn [filter]. rewrite fit_media by (apply Hl; left; reflexivity).
      f_equal. apply IH. intros q Hq. apply Hl. right. exact Hq. }
    apply A. intros p Hp. apply HF, Hg, Hp. }
  destruct (rp_loop_ok (rw_heads e) (polls v post) Hhd (mkrp [] O [])) as (r & w1 & sent & Hl & Hout & Hc); [constructor|].
  cbv zeta in Hc. rewrite (Hue _ Hnp), polls_given, Hmed in Hc.
  destruct Hc as [(-> & _ & ->)|[(_ & Hc & _)|(c & _ & _ & Hc & _)]]; [|contradiction|destruct Hc].
  exists (map rtmp_message (given v post)). split.
  { unfold rtmp_stream. rewrite Hpb. unfold play_start. rewrite Htk, Hkey. unfold registered. rewrite Hown.
    cbn [negb andb orb]. change (0 =? 0) with true. cbn [negb orb]. cbn [rtmp_req rq_ext]. rewrite Hfm. cbn [bind].
    rewrite Hsd, Hdu, Hl, Hout. reflexivity. }
  split.
  { assert (forall l, (forall p, In p l -> rtmp_fit p) -> Forall2 on_rtmp l (map rtmp_message l)) as A.
    { induction l as [|p l IH]; intros Hl2; cbn [map]; constructor.
      - apply message_on, Hl2. left. reflexivity.
      - apply IH. intros q Hq. apply Hl2. right. exact Hq. }
    apply A. intros p Hp. apply HF, Hg, Hp. }
  split; [exact Hg|]. exists (v_queue vx). exact Hgv.
Qed.

(** *** Packets of transport streams and of FLV uploads *)
Lemma made_taken p : ts_made p -> rtmp_taken p.
Proof.
  intros M.
  destruct M as [d Hb Hn Hl|dts pts flags d S1 S2 Hf Hb Hn Hl|d Hb Hn Hl|dts d S1 Hb Hl];
    unfold rtmp_taken, rtmp_fit, video_pkt, audio_pkt, byte; cbn [p_stream p_flags p_codec p_msg p_dts p_data].
  - repeat split; auto; try lia; try discriminate; left; reflexivity.
  - pose proof (quot90 _ S1). repeat split; auto; try lia; try discriminate; destruct Hf as [->|[->| ->]]; try lia; try reflexivity; left; reflexivity.
  - unfold AAC_FLAGS. repeat split; auto; try lia; try discriminate.
  - pose proof (quot90 _ S1). unfold AAC_FLAGS. repeat split; auto; try lia; try discriminate.
Qed.
Lemma flv_taken cap p : cap < 2 ^ 24 -> flv_transportable cap p -> rtmp_taken p.
Proof.
  intros Hc (Hb & Hn & Hl & Hd & Hm & H).
  assert (L : zlen (p_data p) < 2 ^ 24).
  { unfold flv_body in Hl. rewrite zlen_app in Hl. match type of Hl with zlen ?l + _ <= _ => pose proof (zlen_nonneg l) end. lia. }
  unfold rtmp_taken, rtmp_fit.
  destruct H as [(Es & Hf & H1 & H2 & _)|[(Es & Hf & H1 & H2 & _)|[(Es & Hf & H1 & H2 & _)|(Es & Hf & H1 & _)]]]; rewrite Es;
    unfold byte in *; (split; [split; [lia|split; [exact Hd|auto]]|]); repeat (split; [assumption|]); (split; [|split]); intros EE; try discriminate EE; auto.
Qed.
Lemma taken_read_all ps ms e : Forall rtmp_taken ps -> Forall2 on_rtmp ps ms ->
  rtmp_read_all (S (length ms)) ms e = (map as_rtmp ps, Err e).
Proof.
  intros HF H2. rewrite rtmp_read_all_exact; [apply on_read_all; assumption| |lia].
  induction H2 as [|p m ps ms H _ IH]; constructor; [exact (on_wf p m (Forall_inv HF) H)|exact (IH (Forall_inv_tail HF))].
Qed.
