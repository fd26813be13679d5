(** Lemmas for the RTP demuxer. *)
From Verif Require Import Base M_Bits M_Fields M_Packet M_Cache M_H264 M_AAC M_Ts M_Rtp M_RtpDemux
  S_Bits S_Fields S_Codec S_Rtp S_RtpDemux L_Bits L_Pack L_Align L_IO L_Rtp L_Rtp2.

Fixpoint dec_run (mem : list Z) (d : rdec) (ds : list (Z * list Z)) : list emit :=
  match ds with
  | [] => []
  | (now, l) :: r => let '(d1, o) := rtp_datagram mem now d l in o :: dec_run mem d1 r
  end.

(** One call of read_packet with an empty queue. *)
Lemma read_flow mem e : forall ds d, Forall sized ds ->
  (exists p q d1 ds1, rtp_read mem (mkrd d []) [] ds e = (Ok p, mkrd d1 q, ds1) /\ Forall sized ds1 /\
     flow (dec_run mem d ds) e = (p :: q ++ fst (flow (dec_run mem d1 ds1) e), snd (flow (dec_run mem d1 ds1) e))) \/
  (exists x st ds1, rtp_read mem (mkrd d []) [] ds e = (x, st, ds1) /\
     ((exists c, x = Err c /\ flow (dec_run mem d ds) e = ([], Err c)) \/
      (x = UB /\ flow (dec_run mem d ds) e = ([], UB)) \/ (x = Fuel /\ flow (dec_run mem d ds) e = ([], Fuel)))).
Proof.
  induction ds as [|[now l] ds IH]; intros d Hs.
  { right. exists (Err e), (mkrd d []), []. split; [reflexivity|]. left. exists e. split; reflexivity. }
  inversion Hs as [|? ? Hl Hs']; subst. unfold sized in Hl. cbn [snd] in Hl.
  cbn [rtp_read rd_pkts rd_dec dec_run app]. change (zlen (@nil Z)) with 0. unfold RTP_MAX_LENGTH.
  destruct (Z.eqb_spec (zlen l) 0); [lia|]. rewrite take_all by lia.
  destruct (Z.ltb_spec (zlen l) 12); [lia|].
  destruct (rtp_datagram mem now d l) as [d1 [ps r]]. destruct r as [u|c| |].
  - destruct ps as [|p q].
    + destruct (IH d1 Hs') as [(p & q & d2 & ds1 & E & H1 & H2)|(x & st & ds1 & E & Hx)].
      * left. exists p, q, d2, ds1. split; [exact E|]. split; [exact H1|]. cbn [flow app]. destruct (flow (dec_run mem d1 ds) e). exact H2.
      * right. exists x, st, ds1. split; [exact E|]. cbn [flow app]. destruct (flow (dec_run mem d1 ds) e). exact Hx.
    + left. exists p, q, d1, ds. split; [destruct ds; reflexivity|]. split; [exact Hs'|]. reflexivity.
  - right. eexists _, _, _. split; [reflexivity|]. left. exists c. split; reflexivity.
  - right. eexists _, _, _. split; [reflexivity|]. right. left. split; reflexivity.
  - right. eexists _, _, _. split; [reflexivity|]. right. right. split; reflexivity.
Qed.
Lemma read_all_flow mem e : forall fuel d q ds, Forall sized ds ->
  (length q + length (fst (flow (dec_run mem d ds) e)) < fuel)%nat ->
  rtp_read_all fuel mem (mkrd d q) ds e = (q ++ fst (flow (dec_run mem d ds) e), snd (flow (dec_run mem d ds) e)).
Proof.
  induction fuel as [|f IH]; intros d q ds Hs Hf; [lia|]. cbn [rtp_read_all].
  destruct q as [|p q].
  - destruct (read_flow mem e ds d Hs) as [(p & q & d1 & ds1 & E & H1 & H2)|(x & st & ds1 & E & H)]; rewrite E.
    + rewrite H2 in Hf. cbn [fst length] in Hf. rewrite app_length in Hf. rewrite IH by (assumption || lia). rewrite H2. reflexivity.
    + destruct H as [(c & -> & ->)|[(-> & ->)|(-> & ->)]]; reflexivity.
  - assert (E : rtp_read mem (mkrd d (p :: q)) [] ds e = (Ok p, mkrd d q, ds)) by (destruct ds; reflexivity).
    rewrite E. cbn [length] in Hf. rewrite IH by (assumption || lia). reflexivity.
Qed.

(** RTCP. *)
Lemma rtcp_head_any buf : bytes buf -> 4 <= zlen buf < 2 ^ 60 -> exists v p len c, al buf c (drop 4 buf) /\
  rtcp_decode buf = (let h := mkrh v p (nth 0 buf 0 mod 32) (nth 1 buf 0) len in let pt := nth 1 buf 0 in
     if pt =? 200 then sr_decode h c else if pt =? 201 then rr_decode h c else if pt =? 202 then sdes_decode h
     else if pt =? 203 then bye_decode h c RtcpBye else if pt =? 204 then bye_decode h c RtcpApp else Err ERROR_RTP_PROBE).
Proof.
  intros Hb [H4 Hl]. assert (Ha := al_init buf Hb Hl).
  destruct buf as [|b0 [|b1 [|b2 [|b3 tl]]]]; try (exfalso; revert H4; unfold zlen; cbn [length]; lia).
  clear H4. set (hd := [b0; b1; b2; b3]). change (b0 :: b1 :: b2 :: b3 :: tl) with (hd ++ tl) in Hb, Hl, Ha.
  assert (Hbh : bytes hd) by (apply bytes_app in Hb; apply Hb).
  destruct (header_repack 4 hd rtcp_widths Hbh (eq_refl _) (eq_refl _) (eq_refl _)) as [E F].
  set (v := bval (take 2 (bits_of hd))). set (p := bval (take 1 (drop 2 (bits_of hd)))).
  pose proof Hbh as Hbb. unfold hd in Hbb. apply bytes_cons in Hbb as [B0 Hbb]. apply bytes_cons in Hbb as [B1 _].
  assert (Ef : bit_fields (bits_of hd) rtcp_widths = [v; p; b0 mod 32; b1; bval (take 16 (drop 8 (drop 5 (drop 1 (drop 2 (bits_of hd))))))]).
  { unfold rtcp_widths. cbn [bit_fields]. fold v. fold p.
    assert (E5 : bval (take 5 (drop 1 (drop 2 (bits_of hd)))) = b0 mod 32).
    { unfold hd. clear - B0.
      change (take 5 (drop 1 (drop 2 (bits_of [b0; b1; b2; b3])))) with (take 5 (drop 1 (drop 2 (bits_of [b0])))).
      apply Z.eqb_eq. revert b0 B0. apply (byte_sweep (fun b0 => bval (take 5 (drop 1 (drop 2 (bits_of [b0])))) =? b0 mod 32)). vm_compute. reflexivity. }
    assert (E8 : bval (take 8 (drop 5 (drop 1 (drop 2 (bits_of hd))))) = b1).
    { change (take 8 (drop 5 (drop 1 (drop 2 (bits_of hd))))) with (bits_of [b1]). rewrite bval_bits_of; [reflexivity|]. constructor; [exact B1|constructor]. }
    rewrite E5, E8. reflexivity. }
  set (len := bval (take 16 (drop 8 (drop 5 (drop 1 (drop 2 (bits_of hd))))))) in *.
  rewrite Ef in E, F. cbn [combine rtcp_widths] in E, F.
  assert (Hfit : rtcp_fit v p (b0 mod 32) b1 len) by exact F.
  change (b0 :: b1 :: b2 :: b3 :: tl) with (hd ++ tl) in *.
  destruct (rtcp_decode_head (hd ++ tl) v p (b0 mod 32) b1 len tl Hb Hl) as (c & Hc & Ed); [unfold rtcp_head_bytes; rewrite <- E; reflexivity|exact Hfit|].
  exists v, p, len, c. split; [exact Hc|]. rewrite Ed. reflexivity.
Qed.
Lemma report_ok l : report l -> 12 <= zlen l <= 3000 -> exists m, rtcp_decode l = Ok m.
Proof.
  intros (Hb & Hc & Hs & H1 & H2) Hl. destruct (rtcp_head_any l Hb ltac:(lia)) as (v & p & len & c & Ha & ->).
  unfold control in Hc. apply andb_prop in Hc as [C1 C2]. cbv zeta. unfold is_sdes in Hs.
  pose proof (Z.mod_pos_bound (nth 0 l 0) 32 ltac:(lia)) as M.
  set (cf := nth 0 l 0 mod 32) in *. set (pt := nth 1 l 0) in *.
  assert (Hd : zlen (drop 4 l) = zlen l - 4) by (rewrite zlen_drop by lia; lia).
  destruct (Z.eqb_spec pt 200) as [E1|E1].
  { specialize (H1 E1). unfold sr_decode. cbn [rc_cflag].
    destruct (al_acquire_cases _ _ _ (24 + cf * 20) Ha) as [[-> Hx]|E]; [lia| |rewrite (al_acquire _ _ _ _ Ha) in E by lia; destruct (Z.leb_spec (24 + cf * 20) (zlen (drop 4 l))); [discriminate|lia]]. cbn [bind].
    destruct (al_fields _ _ _ [32; 32; 32; 32; 32; 32] 24 Ha) as (c1 & X1 & Hc1); [reflexivity|reflexivity|lia|]. rewrite X1. cbn [bind fst snd].
    destruct (blocks_total _ (Z.to_nat cf) _ (drop 24 (drop 4 l)) ltac:(rewrite zlen_drop by lia; lia) Hc1) as (bs & c2 & -> & _). eexists. reflexivity. }
  destruct (Z.eqb_spec pt 201) as [E2|E2].
  { specialize (H2 E2). unfold rr_decode. cbn [rc_cflag].
    destruct (al_acquire_cases _ _ _ (4 + cf * 20) Ha) as [[-> Hx]|E]; [lia| |rewrite (al_acquire _ _ _ _ Ha) in E by lia; destruct (Z.leb_spec (4 + cf * 20) (zlen (drop 4 l))); [discriminate|lia]]. cbn [bind].
    destruct (al_fields _ _ _ [32] 4 Ha) as (c1 & X1 & Hc1); [reflexivity|reflexivity|lia|]. rewrite X1. cbn [bind fst snd].
    destruct (blocks_total _ (Z.to_nat cf) _ (drop 4 (drop 4 l)) ltac:(rewrite zlen_drop by lia; lia) Hc1) as (bs & c2 & -> & _). eexists. reflexivity. }
  destruct (Z.eqb_spec pt 202) as [E3|E3].
  { unfold sdes_decode. cbn [rc_cflag]. destruct (Z.ltb_spec 0 cf); [exfalso; apply Hs; split; [exact E3|lia]|]. eexists. reflexivity. }
  destruct (al_skip_any _ _ _ len Ha) as (c1 & Es). unfold bye_decode. cbn [rc_length]. rewrite Es. cbn [bind].
  destruct (Z.eqb_spec pt 203); [eexists; reflexivity|]. destruct (Z.eqb_spec pt 204); [eexists; reflexivity|]. lia.
Qed.
Lemma fine_sized ds : Forall fine ds -> Forall sized ds.
Proof. apply Forall_impl. intros d [H _]. exact H. Qed.
Lemma control_datagram mem now d l : fine (now, l) -> media (now, l) = false ->
  rtp_datagram mem now d l = (d, ([], Ok tt)).
Proof.
  intros [Hs Hr] Hm. specialize (Hr Hm). destruct (report_ok l Hr Hs) as (m & E). unfold media in Hm. apply negb_false_iff in Hm. cbn [snd] in Hm.
  unfold rtp_datagram, is_rtcp. unfold control in Hm. rewrite Hm, E. reflexivity.
Qed.
Lemma media_datagram mem now d l : media (now, l) = true -> d <> DNone ->
  rtp_datagram mem now d l = rtp_dec mem now d l.
Proof.
  intros Hm Hd. unfold media in Hm. apply negb_true_iff in Hm. cbn [snd] in Hm.
  unfold rtp_datagram, is_rtcp. unfold control in Hm. rewrite Hm. destruct d; [congruence|reflexivity|reflexivity|reflexivity].
Qed.
Lemma flow_skip o e : flow (([], Ok tt) :: o) e = flow o e.
Proof. cbn [flow app]. destruct (flow o e). reflexivity. Qed.
Lemma flow_cons o r1 r2 e : flow r1 e = flow r2 e -> flow (o :: r1) e = flow (o :: r2) e.
Proof. intros E. destruct o as [ps x]. cbn [flow]. rewrite E. reflexivity. Qed.
(** Reports are invisible. *)
Lemma flow_media mem e : forall ds d, Forall fine ds ->
  flow (dec_run mem d ds) e = flow (dec_run mem d (filter media ds)) e.
Proof.
  induction ds as [|[now l] ds IH]; intros d H; [reflexivity|]. inversion H as [|? ? H1 H2]; subst. cbn [dec_run filter].
  destruct (media (now, l)) eqn:Em.
  - cbn [dec_run]. destruct (rtp_datagram mem now d l) as [d1 o]. apply flow_cons, IH, H2.
  - rewrite control_datagram by assumption. rewrite flow_skip. apply IH, H2.
Qed.
Lemma filter_media ds : Forall (fun d => media d = true) (filter media ds).
Proof. apply Forall_forall. intros d H. apply filter_In in H. apply H. Qed.
Lemma run_h264 mem : forall ds st, Forall (fun d => media d = true) ds ->
  dec_run mem (DH264 st) ds = snd (h264_rtp_run mem st ds).
Proof.
  induction ds as [|[now l] ds IH]; intros st H; [reflexivity|]. inversion H as [|? ? H1 H2]; subst. cbn [dec_run h264_rtp_run].
  rewrite media_datagram by (assumption || discriminate). cbn [rtp_dec].
  destruct (h264_rtp_decode mem now st l) as [st1 o]. rewrite (IH st1 H2).
  destruct (h264_rtp_run mem st1 ds) as [st2 os]. reflexivity.
Qed.
Lemma run_aac mem : forall ds, Forall (fun d => media d = true) ds ->
  dec_run mem DAac ds = map (fun d => aac_rtp_decode (snd d)) ds.
Proof.
  induction ds as [|[now l] ds IH]; intros H; [reflexivity|]. inversion H as [|? ? H1 H2]; subst. cbn [dec_run map snd].
  rewrite media_datagram by (assumption || discriminate). cbn [rtp_dec]. rewrite IH by assumption. reflexivity.
Qed.

(** ** MPEG-TS *)
Definition addq (q : list pkt) (s : tsst) : tsst := mktss (s_progs s) (s_adts s) (q ++ s_queue s).
Lemma on_pes_complete_q q s p len b : on_pes_complete (addq q s) p len b =
  (addq q (fst (on_pes_complete s p len b)), snd (on_pes_complete s p len b)).
Proof.
  unfold on_pes_complete. cbn [addq s_progs s_adts s_queue]. destruct (ps_type p =? TS_STREAM_H264).
  - destruct (let? d := _ in _); cbn [fst snd addq s_progs s_adts s_queue]; rewrite <- ?app_assoc; reflexivity.
  - destruct (ps_type p =? TS_STREAM_AAC); [|reflexivity]. destruct (cb_contents b); try reflexivity.
    destruct (aac_encode_avc _ _ _) as [[ps hdr] r]. destruct r; cbn [fst snd addq s_progs s_adts s_queue]; rewrite <- ?app_assoc; reflexivity.
Qed.
Lemma pes_flush_q q s p : pes_flush (addq q s) p =
  (addq q (fst (fst (pes_flush s p))), snd (fst (pes_flush s p)), snd (pes_flush s p)).
Proof.
  unfold pes_flush. destruct (ps_buf p); [|reflexivity]. rewrite on_pes_complete_q.
  destruct (on_pes_complete s p _ c). reflexivity.
Qed.
Lemma pes_start_q q mem s p c : pes_start mem (addq q s) p c =
  (addq q (fst (fst (pes_start mem s p c))), snd (fst (pes_start mem s p c)), snd (pes_start mem s p c)).
Proof.
  unfold pes_start. destruct (bc_acquire c 9); try reflexivity. rewrite pes_flush_q.
  destruct (pes_flush s p) as [[s1 p1] r]. cbn [fst snd]. destruct r; try reflexivity.
  destruct (read_fields c [24; 8; 16]) as [[v c1]| | |]; try reflexivity.
  destruct (negb _); [reflexivity|]. destruct (_ =? 0xbe); [reflexivity|].
  destruct (plain_sid _); [destruct (pes_dump _ c1); reflexivity|].
  destruct (pes_header c1) as [t r2]. destruct r2; try reflexivity. destruct (pes_dump _ _); reflexivity.
Qed.
Lemma pes_decode_q q mem s p h c : pes_decode mem (addq q s) p h c =
  (addq q (fst (fst (pes_decode mem s p h c))), snd (fst (pes_decode mem s p h c)), snd (pes_decode mem s p h c)).
Proof.
  unfold pes_decode. destruct (_ && _); [reflexivity|]. destruct (negb _); [reflexivity|].
  destruct (th_pusi h =? 0); [destruct (pes_dump _ c); reflexivity|]. apply pes_start_q.
Qed.
Lemma ts_decode_q q mem s d : ts_decode mem (addq q s) d =
  (addq q (fst (fst (ts_decode mem s d))), snd (fst (ts_decode mem s d)), snd (ts_decode mem s d)).
Proof.
  unfold ts_decode. destruct (tsp_decode (bc_init d)) as [[h c]| | |]; try reflexivity.
  change (s_progs (addq q s)) with (s_progs s). destruct (s_progs s (th_pid h)) as [pr|]; [|reflexivity].
  destruct (_ && _); [reflexivity|]. destruct pr as [| | |p].
  1-3: destruct (psi_decode _ _ _ _) as [f r]; destruct r; reflexivity.
  rewrite pes_decode_q. destruct (pes_decode mem s p h c) as [[s1 p1] r]. cbn [fst snd]. destruct r; reflexivity.
Qed.
Lemma ts_run_q q mem : forall ds s, ts_run mem (addq q s) ds =
  (addq q (fst (fst (ts_run mem s ds))), snd (fst (ts_run mem s ds)), snd (ts_run mem s ds)).
Proof.
  induction ds as [|d ds IH]; intros s; [reflexivity|]. cbn [ts_run]. rewrite ts_decode_q.
  destruct (ts_decode mem s d) as [[s1 o] r]. cbn [fst snd]. destruct r; try reflexivity.
  rewrite IH. destruct (ts_run mem s1 ds) as [[s2 o2] r2]. reflexivity.
Qed.
Lemma ts_run_app mem : forall a b s, ts_run mem s (a ++ b) =
  match snd (ts_run mem s a) with
  | Ok _ => (fst (fst (ts_run mem (fst (fst (ts_run mem s a))) b)),
             snd (fst (ts_run mem s a)) ++ snd (fst (ts_run mem (fst (fst (ts_run mem s a))) b)),
             snd (ts_run mem (fst (fst (ts_run mem s a))) b))
  | _ => ts_run mem s a
  end.
Proof.
  induction a as [|d a IH]; intros b s; cbn [app ts_run fst snd]; [destruct (ts_run mem s b) as [[? ?] ?]; reflexivity|].
  destruct (ts_decode mem s d) as [[s1 o] r]. destruct r; try reflexivity.
  rewrite IH. destruct (ts_run mem s1 a) as [[s2 o2] r2]. cbn [fst snd]. destruct r2; try reflexivity.
  destruct (ts_run mem s2 b) as [[s3 o3] r3]. cbn [fst snd]. rewrite app_assoc. reflexivity.
Qed.
Lemma decode_packets_ok mem : forall ps fuel s, Forall (fun p => zlen p = 188) ps -> (length ps <= fuel)%nat ->
  ts_decode_packets fuel mem s (concat ps) = (fst (fst (ts_run mem s ps)), snd (ts_run mem s ps)).
Proof.
  induction ps as [|p ps IH]; intros fuel s HF Hn.
  - destruct fuel; reflexivity.
  - inversion HF as [|? ? Hp HF']; subst. cbn [length] in Hn. destruct fuel as [|f]; [lia|]. cbn [concat ts_decode_packets].
    rewrite zlen_app, Hp. pose proof (zlen_nonneg (concat ps)). unfold SPS_TS_PACKET_SIZE.
    destruct (Z.eqb_spec (188 + zlen (concat ps)) 0); [lia|]. destruct (Z.ltb_spec (188 + zlen (concat ps)) 188); [lia|].
    rewrite take_app_exact, drop_app_exact by lia. cbn [ts_run].
    destruct (ts_decode mem s p) as [[s1 o] r]. destruct r; try reflexivity. rewrite IH by (assumption || lia).
    destruct (ts_run mem s1 ps) as [[s2 o2] r2]. reflexivity.
Qed.
Lemma second_byte k pl : pk_ok k -> nth 1 (rtp_bytes k pl) 0 = pk_mark k * 128 + pk_pt k.
Proof.
  intros (Hf & _). unfold rtp_bytes, rtp_head.
  replace (be 12 (pack (pk_fields k))) with (be (2 + 10) (pack (pk_fields k))) by reflexivity.
  rewrite be_split. unfold fields_fit, pk_fields in Hf. cbn [forallb fst snd] in Hf.
  unfold pack, pk_fields. cbn [fold_left fst snd].
  set (hi := (((((0 * 2 ^ 2 + pk_version k) * 2 ^ 1 + pk_padding k) * 2 ^ 1 + match pk_ext k with Some _ => 1 | None => 0 end) * 2 ^ 4 + zlen (pk_csrc k)) * 2 ^ 1 + pk_mark k) * 2 ^ 7 + pk_pt k).
  change (256 ^ Z.of_nat 10) with (2 ^ 80).
  replace (((hi * 2 ^ 16 + pk_seq k) * 2 ^ 32 + pk_ts k) * 2 ^ 32 + pk_ssrc k)
    with ((pk_seq k * 2 ^ 64 + pk_ts k * 2 ^ 32 + pk_ssrc k) + hi * 2 ^ 80) by (change (2 ^ 80) with (2 ^ 16 * 2 ^ 64); change (2 ^ 64) with (2 ^ 32 * 2 ^ 32); ring).
  assert (B : 0 <= pk_seq k * 2 ^ 64 + pk_ts k * 2 ^ 32 + pk_ssrc k < 2 ^ 80) by lia.
  rewrite Z.div_add, Z.div_small by lia. rewrite Z.add_0_l.
  replace (be 2 hi) with [hi / 256 mod 256; hi mod 256] by reflexivity. cbn [app nth].
  subst hi. set (x := (((0 * 2 ^ 2 + pk_version k) * 2 ^ 1 + pk_padding k) * 2 ^ 1 + match pk_ext k with Some _ => 1 | None => 0 end) * 2 ^ 4 + zlen (pk_csrc k)).
  replace ((x * 2 ^ 1 + pk_mark k) * 2 ^ 7 + pk_pt k) with ((pk_mark k * 128 + pk_pt k) + x * 256) by (change (2 ^ 7) with 128; change (2 ^ 1) with 2; ring).
  rewrite Z.mod_add, Z.mod_small by lia. reflexivity.
Qed.
Lemma td_media t : td_ok t -> media (td_dgram t) = true.
Proof.
  intros (Hk & Hp & _). unfold media, control, td_dgram. cbn [snd]. rewrite second_byte by assumption. rewrite Hp.
  destruct Hk as (Hf & _). unfold fields_fit, pk_fields in Hf. cbn [forallb fst snd] in Hf. lia.
Qed.
Lemma zlen_concat_188 (ps : list (list Z)) : Forall (fun p => zlen p = 188) ps -> zlen (concat ps) = 188 * zlen ps.
Proof. induction 1 as [|p ps Hp _ IH]; [reflexivity|]. cbn [concat]. rewrite zlen_app, zlen_cons, IH, Hp. lia. Qed.
Lemma td_step mem t s : td_ok t -> s_queue s = [] ->
  rtp_dec mem (td_now t) (DTs s) (snd (td_dgram t)) =
    match snd (ts_run mem s (td_pkts t)) with
    | Ok _ => (DTs (mktss (s_progs (fst (fst (ts_run mem s (td_pkts t))))) (s_adts (fst (fst (ts_run mem s (td_pkts t))))) []),
               (s_queue (fst (fst (ts_run mem s (td_pkts t)))), Ok tt))
    | e => (DTs (fst (fst (ts_run mem s (td_pkts t)))), ([], e))
    end.
Proof.
  intros (Hk & Hp & He & HF & Hl) Hq. cbn [rtp_dec td_dgram snd].
  assert (Hb : bytes (concat (td_pkts t))).
  { apply Forall_concat. eapply Forall_impl; [|exact HF]. intros p [X _]. exact X. }
  assert (H188 : Forall (fun p => zlen p = 188) (td_pkts t)) by (eapply Forall_impl; [|exact HF]; intros p [_ X]; exact X).
  cbn [td_dgram snd] in Hl.
  destruct (irtp_packet is_rtp_mpegts (ts_rtp_payload mem) s (td_head t) (concat (td_pkts t)) Hk Hb ltac:(lia)) as (c & E & Ha).
  { unfold is_rtp_mpegts. lia. }
  rewrite E. assert (Dl : dec_left (td_head t) = []).
  { unfold dec_left. destruct (pk_ext (td_head t)) as [[? d]|]; [subst d|]; reflexivity. }
  rewrite Dl in Ha. cbn [app] in Ha. unfold ts_rtp_payload. rewrite (al_size _ _ _ Ha), (al_peek _ _ _ _ Ha) by (pose proof (zlen_nonneg (concat (td_pkts t))); lia).
  rewrite take_all by lia. rewrite decode_packets_ok; [|exact H188|].
  - destruct (ts_run mem s (td_pkts t)) as [[s1 o] r]. cbn [fst snd]. destruct r; reflexivity.
  - pose proof (zlen_concat_188 _ H188) as X. unfold zlen in X. lia.
Qed.
Lemma addq_clear s : s = addq (s_queue s) (mktss (s_progs s) (s_adts s) []).
Proof. destruct s. unfold addq. cbn. rewrite app_nil_r. reflexivity. Qed.
Lemma flow_ts mem e : forall tds s s' o, Forall td_ok tds -> s_queue s = [] ->
  ts_run mem s (concat (map td_pkts tds)) = (s', o, Ok tt) ->
  forall rest, flow (dec_run mem (DTs s) (map td_dgram tds ++ rest)) e =
    (s_queue s' ++ fst (flow (dec_run mem (DTs (mktss (s_progs s') (s_adts s') [])) rest) e),
     snd (flow (dec_run mem (DTs (mktss (s_progs s') (s_adts s') [])) rest) e)).
Proof.
  induction tds as [|t tds IH]; intros s s' o HF Hq E rest.
  - cbn in E. injection E as <- <-. cbn [map app]. rewrite Hq. destruct s as [f a q]. cbn in Hq. subst q. cbn [s_progs s_adts app].
    destruct (flow _ e). reflexivity.
  - inversion HF as [|? ? Ht HF']; subst. cbn [map concat] in E. rewrite ts_run_app in E.
    cbn [map app dec_run]. assert (Em := td_media t Ht). unfold td_dgram at 1. unfold td_dgram in Em.
    rewrite media_datagram by (assumption || discriminate).
    replace (rtp_bytes (td_head t) (concat (td_pkts t))) with (snd (td_dgram t)) by reflexivity.
    rewrite td_step by assumption. destruct (ts_run mem s (td_pkts t)) as [[s1 o1] r1]. cbn [fst snd] in *.
    destruct r1 as [u| | |]; try discriminate.
    rewrite (addq_clear s1), ts_run_q in E.
    destruct (ts_run mem (mktss (s_progs s1) (s_adts s1) []) (concat (map td_pkts tds))) as [[s2 o2] r2] eqn:E2. cbn [fst snd] in E.
    injection E as <- _ Er. subst r2. cbn [flow]. rewrite (IH (mktss (s_progs s1) (s_adts s1) []) s2 o2 HF' eq_refl E2 rest). cbn [fst snd addq s_queue s_progs s_adts]. rewrite app_assoc. reflexivity.
Qed.

(** ** Events *)
Lemma event_media ev : event_ok ev -> media (dgram ev) = true.
Proof.
  destruct ev as [[now k] pl]. intros (Hk & _). destruct Hk as (Hok & Hpt & _). cbn [fst snd] in *. unfold media, control, dgram. cbn [fst snd].
  rewrite second_byte by assumption. destruct Hok as (Hf & _). unfold fields_fit, pk_fields in Hf. cbn [forallb fst snd] in Hf. lia.
Qed.
Lemma group_flow cap gs outs e : Forall2 (unit_group cap) gs outs ->
  flow (concat outs) e = (flat_map fst (concat outs), Err e).
Proof.
  intros H. assert (A : Forall (fun o : list pkt * res unit => snd o = Ok tt) (concat outs)).
  { induction H as [|g o gs outs Hg _ IH]; [constructor|]. cbn [concat]. apply Forall_app. split; [|exact IH].
    destruct Hg as (h & cs & es & now & k & pl & ps & _ & _ & _ & _ & _ & _ & ->). apply Forall_app. split.
    - apply Forall_forall. intros x Hx. apply repeat_spec in Hx. subst x. reflexivity.
    - repeat constructor. }
  induction A as [|[ps r] os E _ IH]; [reflexivity|]. cbn [snd] in E. subst r. cbn [flow flat_map fst]. rewrite IH. reflexivity.
Qed.
Lemma flow_ok os e : Forall (fun o : list pkt * res unit => snd o = Ok tt) os -> flow os e = (flat_map fst os, Err e).
Proof. induction 1 as [|[ps r] os E _ IH]; [reflexivity|]. cbn [snd] in E. subst r. cbn [flow flat_map fst]. rewrite IH. reflexivity. Qed.
Lemma spec_same cap : forall es es' st, Forall2 same_content es es' -> spec_run cap st es = spec_run cap st es'.
Proof.
  intros es es' st H. revert st. induction H as [|a b es es' (E1 & E2 & E3) _ IH]; intros st; [reflexivity|].
  cbn [spec_run]. rewrite E1, E2, E3. destruct (payload_spec _ _ _ st _) as [st1 o]. rewrite IH. reflexivity.
Qed.
Lemma dec_run_first_ts mem t r : td_ok t -> pk_mark (td_head t) = 0 ->
  dec_run mem DNone (td_dgram t :: r) = dec_run mem (DTs ts_new) (td_dgram t :: r).
Proof.
  intros Ht Hm. assert (Em := td_media t Ht). destruct (td_dgram t) as [now l] eqn:E. cbn [dec_run].
  assert (E2 : nth 1 l 0 = 33).
  { replace l with (snd (td_dgram t)) by (rewrite E; reflexivity). unfold td_dgram. cbn [snd].
    destruct Ht as (Hk & Hp & _). rewrite second_byte by assumption. lia. }
  rewrite (media_datagram mem now (DTs ts_new)) by (assumption || discriminate).
  unfold rtp_datagram. rewrite E2. reflexivity.
Qed.
Lemma td_fine t : td_ok t -> fine (td_dgram t).
Proof.
  intros Ht. split.
  - destruct Ht as (Hk & _ & _ & _ & Hl). split; [|exact Hl]. unfold td_dgram. cbn [snd]. unfold rtp_bytes, rtp_head.
    rewrite !zlen_app. replace (zlen (be 12 (pack (pk_fields (td_head t))))) with 12 by (unfold zlen; rewrite be_length; reflexivity).
    repeat match goal with |- context [zlen ?x] => pose proof (zlen_nonneg x); generalize dependent (zlen x); intros end. lia.
  - rewrite td_media by assumption. discriminate.
Qed.

(** ** A datagram that ends with a part of a transport packet *)
Lemma decode_packets_part mem : forall ps fuel s x, Forall (fun p => zlen p = 188) ps -> (length ps <= fuel)%nat -> 0 < zlen x < 188 ->
  ts_decode_packets fuel mem s (concat ps ++ x) =
    (fst (fst (ts_run mem s ps)), match snd (ts_run mem s ps) with Ok _ => Err ERROR_TS_PACKET_SIZE | e => e end).
Proof.
  induction ps as [|p ps IH]; intros fuel s x HF Hn Hx.
  - cbn [concat app]. destruct fuel; cbn [ts_decode_packets]; unfold SPS_TS_PACKET_SIZE; destruct (Z.eqb_spec (zlen x) 0); try lia; destruct (Z.ltb_spec (zlen x) 188); try lia; reflexivity.
  - inversion HF as [|? ? Hp HF']; subst. cbn [length] in Hn. destruct fuel as [|f]; [lia|]. cbn [concat ts_decode_packets]. rewrite <- app_assoc.
    rewrite zlen_app, Hp. pose proof (zlen_nonneg (concat ps ++ x)). unfold SPS_TS_PACKET_SIZE.
    destruct (Z.eqb_spec (188 + zlen (concat ps ++ x)) 0); [lia|]. destruct (Z.ltb_spec (188 + zlen (concat ps ++ x)) 188); [lia|].
    rewrite take_app_exact, drop_app_exact by lia. cbn [ts_run].
    destruct (ts_decode mem s p) as [[s1 o] r]. destruct r; try reflexivity. rewrite IH by (assumption || lia).
    destruct (ts_run mem s1 ps) as [[s2 o2] r2]. reflexivity.
Qed.
Lemma td_part_step mem t x s : td_ok t -> bytes x -> 0 < zlen x < 188 -> zlen (rtp_bytes (td_head t) (concat (td_pkts t) ++ x)) <= 3000 ->
  rtp_dec mem (td_now t) (DTs s) (rtp_bytes (td_head t) (concat (td_pkts t) ++ x)) =
    (DTs (fst (fst (ts_run mem s (td_pkts t)))),
     ([], match snd (ts_run mem s (td_pkts t)) with Ok _ => Err ERROR_TS_PACKET_SIZE | e => e end)).
Proof.
  intros (Hk & Hp & He & HF & _) Hbx Hx Hl. cbn [rtp_dec].
  assert (Hb : bytes (concat (td_pkts t) ++ x)).
  { apply Forall_app. split; [|exact Hbx]. apply Forall_concat. eapply Forall_impl; [|exact HF]. intros p [X _]. exact X. }
  assert (H188 : Forall (fun p => zlen p = 188) (td_pkts t)) by (eapply Forall_impl; [|exact HF]; intros p [_ X]; exact X).
  destruct (irtp_packet is_rtp_mpegts (ts_rtp_payload mem) s (td_head t) (concat (td_pkts t) ++ x) Hk Hb ltac:(lia)) as (c & E & Ha).
  { unfold is_rtp_mpegts. lia. }
  rewrite E. assert (Dl : dec_left (td_head t) = []).
  { unfold dec_left. destruct (pk_ext (td_head t)) as [[? d]|]; [subst d|]; reflexivity. }
  rewrite Dl in Ha. cbn [app] in Ha. unfold ts_rtp_payload. rewrite (al_size _ _ _ Ha), (al_peek _ _ _ _ Ha) by (pose proof (zlen_nonneg (concat (td_pkts t) ++ x)); lia).
  rewrite take_all by lia. rewrite decode_packets_part; [|exact H188| |exact Hx].
  - destruct (ts_run mem s (td_pkts t)) as [[s1 o] r]. cbn [fst snd]. destruct r; reflexivity.
  - pose proof (zlen_concat_188 _ H188) as X. rewrite app_length. unfold zlen in X. lia.
Qed.
