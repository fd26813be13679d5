(** Lemmas about RTMP publishers in front of chains of servers. *)
From Verif Require Import Base M_Text M_IO S_IO M_Packet M_Flv S_Flv M_Rtmp S_Rtmp L_IO L_Flv L_Rtmp M_Cache S_Cache M_Live S_Live L_Live L_Live2 L_Live3 M_Conf M_Url M_Http S_Http S_Https M_Https
  M_Upload M_Stream S_Stream L_Stream P_Stream M_HttpConn S_HttpConn M_RtmpSess M_Host M_RtmpRelay S_RtmpRelay L_RtmpRelay M_Edge S_Edge L_Edge S_Mesh.

(** ** What loses its presentation time *)
Lemma untimed_kind p : is_script (untimed p) = is_script p /\ is_audio_seq (untimed p) = is_audio_seq p /\ is_video_seq (untimed p) = is_video_seq p /\
  is_keyframe (untimed p) = is_keyframe p /\ S_Cache.is_media (untimed p) = S_Cache.is_media p /\ p_flags (untimed p) = p_flags p.
Proof. unfold untimed. destruct (_ || _); repeat split; reflexivity. Qed.
Lemma untimed_tag p : flv_tag (untimed p) = flv_tag p.
Proof.
  unfold untimed. destruct (is_script p || (is_video p && flv_video_command (p_flags p))) eqn:E; [|reflexivity].
  assert (B : forall z, flv_body (mkpkt (p_msg p) (p_stream p) (p_ptype p) (p_dts p) z (p_flags p) (p_codec p) (p_data p)) = flv_body p).
  { intros z. unfold flv_body, flv_prefix. cbn [p_stream p_flags p_ptype p_data p_pts p_dts].
    apply orb_true_iff in E as [E|E].
    - unfold is_script in E. apply Z.eqb_eq in E. rewrite E. reflexivity.
    - apply andb_true_iff in E as [E1 E2]. unfold is_video in E1. apply Z.eqb_eq in E1. rewrite E1, E2. reflexivity. }
  unfold flv_tag. rewrite B. reflexivity.
Qed.
Lemma command_flag f : byte f -> flv_video_command f = (f / 16 =? 5).
Proof.
  intros Hf. unfold byte in Hf. unfold flv_video_command. rewrite (Z.mod_small (f / 16)); [reflexivity|].
  split; [apply Z.div_pos; lia|apply Z.div_lt_upper_bound; lia].
Qed.
Lemma untimed_message p : byte (p_flags p) -> rtmp_message (untimed p) = rtmp_message p.
Proof.
  intros Hf. unfold untimed. destruct (is_script p || (is_video p && flv_video_command (p_flags p))) eqn:E; [|reflexivity].
  unfold rtmp_message, rtmp_type_of, rtmp_chan_of, rtmp_full_prefix, rtmp_prefix, is_script, is_video_seq, is_audio_seq, is_audio, is_video in *.
  cbn [p_stream p_flags p_ptype p_data p_pts p_dts].
  apply orb_true_iff in E as [E|E].
  - apply Z.eqb_eq in E. rewrite E. reflexivity.
  - apply andb_true_iff in E as [E1 E2]. apply Z.eqb_eq in E1. rewrite E1, flag_16, land_f0_50 by exact Hf.
    rewrite (command_flag _ Hf) in E2. rewrite E2. reflexivity.
Qed.
Lemma untimed_layout ps : forall prev, flv_layout prev (map untimed ps) = flv_layout prev ps.
Proof. induction ps as [|p ps IH]; intros prev; [reflexivity|]. cbn [map flv_layout]. rewrite untimed_tag, IH. reflexivity. Qed.
Lemma transportable_untimed cap p : flv_transportable cap p -> untimed p = p.
Proof.
  intros (_ & _ & _ & _ & _ & H). unfold untimed, is_script, is_video. destruct p as [mg st ty dts pts fl co da].
  cbn [p_msg p_stream p_ptype p_dts p_pts p_flags p_codec p_data] in *.
  destruct H as [(-> & _)|[(-> & Hf & _ & _ & H5 & _)|[(-> & _ & _ & _ & _ & _ & ->)|(-> & _ & _ & _ & ->)]]].
  - reflexivity.
  - rewrite (command_flag _ Hf). apply Z.eqb_neq in H5. rewrite H5. reflexivity.
  - destruct (flv_video_command fl); reflexivity.
  - reflexivity.
Qed.
Lemma fits_untimed p : flv_fits (untimed p) -> flv_fits p.
Proof.
  unfold flv_fits, untimed. destruct (is_script p || (is_video p && flv_video_command (p_flags p))) eqn:E; [|tauto].
  unfold flv_known, flv_body, flv_prefix. cbn [p_stream p_flags p_ptype p_data p_pts p_dts].
  apply orb_true_iff in E as [E|E].
  - unfold is_script in E. apply Z.eqb_eq in E. rewrite E. tauto.
  - apply andb_true_iff in E as [E1 E2]. unfold is_video in E1. apply Z.eqb_eq in E1. rewrite E1, E2. tauto.
Qed.

(** ** Snapshots *)
Lemma last_such_map f h : (forall p, f (untimed p) = f p) -> last_such f (map untimed h) = option_map untimed (last_such f h).
Proof.
  intros Hf. induction h as [|p l IH]; [reflexivity|]. cbn [map last_such]. rewrite IH, Hf. destruct (last_such f l); [reflexivity|]. destruct (f p); reflexivity.
Qed.
Lemma filter_map_same (f : pkt -> bool) h : (forall p, f (untimed p) = f p) -> filter f (map untimed h) = map untimed (filter f h).
Proof.
  intros Hf. induction h as [|p l IH]; [reflexivity|]. cbn [map filter]. rewrite Hf, IH. destruct (f p); reflexivity.
Qed.
Lemma existsb_map_same (f : pkt -> bool) h : (forall p, f (untimed p) = f p) -> existsb f (map untimed h) = existsb f h.
Proof. intros Hf. induction h as [|p l IH]; [reflexivity|]. cbn [map existsb]. rewrite Hf, IH. reflexivity. Qed.
Lemma from_last_key_map h : from_last_key (map untimed h) = map untimed (from_last_key h).
Proof.
  induction h as [|p l IH]; [reflexivity|]. cbn [map from_last_key].
  rewrite existsb_map_same by apply untimed_kind. rewrite IH. destruct (untimed_kind p) as (_ & _ & _ & -> & _).
  destruct (existsb is_keyframe l); [reflexivity|]. destruct (is_keyframe p); reflexivity.
Qed.
Lemma maybe_map o : maybe (option_map untimed o) = map untimed (maybe o).
Proof. destruct o; reflexivity. Qed.
Lemma snapshot_map h : gop_snapshot (map untimed h) = map untimed (gop_snapshot h).
Proof.
  unfold gop_snapshot. rewrite !last_such_map, !filter_map_same by (intros q; apply untimed_kind).
  rewrite !maybe_map, from_last_key_map, !map_app. reflexivity.
Qed.
Lemma initial_map_inv : forall (a b : list pkt), initial a (map untimed b) -> exists b', initial b' b /\ a = map untimed b'.
Proof.
  intros a b (x & Hx). symmetry in Hx. apply map_eq_app in Hx as (b1 & b2 & -> & <- & _). exists b1. split; [exists b2; reflexivity|reflexivity].
Qed.
Lemma view_map ps q : view ps q -> view (map untimed ps) (map untimed q).
Proof.
  intros (pre & post & -> & x & Hx). exists (map untimed pre), (map untimed post). split; [apply map_app|].
  exists (map untimed x). rewrite snapshot_map, <- !map_app, Hx. reflexivity.
Qed.
Lemma view_map_inv ps q : view (map untimed ps) q -> exists q', view ps q' /\ q = map untimed q'.
Proof.
  intros (pre & post & He & Hi). symmetry in He. symmetry in He. apply map_eq_app in He as (pre' & post' & -> & <- & <-).
  rewrite snapshot_map, <- map_app in Hi. apply initial_map_inv in Hi as (q' & Hi & ->).
  exists q'. split; [exists pre', post'; split; [reflexivity|exact Hi]|reflexivity].
Qed.

(** ** Chains *)
Definition crosses (cap : Z) (p : pkt) : Prop := flv_transportable cap (untimed p).
Lemma crosses_fits cap p : cap < 2 ^ 24 -> crosses cap p -> flv_fits p.
Proof. intros Hc H. apply fits_untimed. exact (transportable_fits cap _ Hc H). Qed.
Lemma crosses_map cap ps : Forall (crosses cap) ps -> Forall (flv_transportable cap) (map untimed ps).
Proof. intros H. apply Forall_map. exact H. Qed.
Lemma pulled_untimed cap ds ps : 15 <= cap < 2 ^ 24 -> Forall (crosses cap) (concat ds) -> pulled cap ds ps -> initial ps (map untimed (concat ds)).
Proof.
  intros Hc HF (reason & ins & outs & h & r & e & sk & ret & sk1 & bts & lib & fmts & f & decode & fuel & fill & q & t & o & x & ps' & o1 &
    Hm & Ht & Hfm & Hd & He1 & He2 & Hp & Hpl & Hs & Hsk & Hn & Hi & Hlib & Hfi & Hdec & Hfill & Hedge & Hps).
  pose proof (initial_forall _ _ _ (until_empty_initial ds) HF) as HF'. pose proof (crosses_map _ _ HF') as HM.
  destruct (http_player_ends reason ins outs h r e sk Hm Ht Hfm) as (ret' & sk1' & sent & A1 & A2 & A3); [|exact He1|exact He2|].
  { rewrite Hd. eapply Forall_impl; [|exact HF']. intros p Hpp. eapply crosses_fits; [|exact Hpp]. lia. }
  rewrite Hd in A3. rewrite Hs in A1. injection A1 as <- <-. assert (Hb : bts = sent) by (apply (app_inv_head (sk_out sk)); congruence). subst sent.
  assert (Hfull : initial bts (response_head reason rsp200 ++ flv_default_header ++ flv_layout 0 (concat (until_empty ds)))).
  { destruct A3 as [(_ & _ & ->)|[(_ & _ & ->)|(_ & _ & A3)]]; [apply initial_refl|apply initial_refl|exact A3]. }
  rewrite <- untimed_layout in Hfull.
  destruct (initial_trans _ _ _ Hi Hfull) as (miss & Hmiss). destruct (head200 reason Hp Hpl) as (K1 & K2).
  destruct (head200_read reason lib Hp Hlib) as (n & fs & Hnn & Hri).
  apply (initial_trans _ _ _ Hps). apply (initial_trans _ (map untimed (concat (until_empty ds))) _).
  2: { destruct (until_empty_initial ds) as (y & Hy). exists (map untimed y). rewrite <- map_app, Hy. reflexivity. }
  refine (initial_trans _ _ _ (edge_partial lib fmts decode q t o miss _ _ n _ f fuel fill _ flv_default_header (flv_layout 0 (map untimed (concat (until_empty ds)))) x ps' o1 0
    Hn K1 K2 Hmiss Hri Hfi Hdec _ eq_refl eq_refl eq_refl (flv_layout_bytes _ _ HM 0) ltac:(lia) Hedge) _).
  - right. cbn. split; [reflexivity|]. split; [lia|reflexivity].
  - rewrite Hfill. apply layout_any_fuel; [lia|exact HM].
Qed.
Lemma crosses_of_map cap ps : Forall (flv_transportable cap) (map untimed ps) -> Forall (crosses cap) ps.
Proof. intros H. exact (proj1 (Forall_map untimed (flv_transportable cap) ps) H). Qed.
Lemma cluster_untimed cap n ps ds : 15 <= cap < 2 ^ 24 -> Forall (crosses cap) ps -> cluster cap n ps ds ->
  view (map untimed ps) (map untimed (concat ds)).
Proof.
  intros Hc HF H. induction H as [ps ds H|n ps ds ps' ds' H IH Hp Hs]; [exact (view_map _ _ (served_view _ _ H))|]. specialize (IH HF).
  pose proof (view_forall _ _ _ IH (crosses_map _ _ HF)) as HV.
  pose proof (pulled_untimed _ _ _ Hc (crosses_of_map _ _ HV) Hp) as Hi.
  assert (HT : Forall (flv_transportable cap) ps') by exact (initial_forall _ _ _ Hi HV).
  assert (HU : map untimed (concat ds') = concat ds').
  { pose proof (view_forall _ _ _ (served_view _ _ Hs) HT) as HD. clear -HD. induction (concat ds') as [|p l IHl]; [reflexivity|].
    inversion_clear HD as [|? ? H1 H2]. cbn [map]. rewrite (transportable_untimed _ _ H1), (IHl H2). reflexivity. }
  rewrite HU. exact (view_trans _ _ _ (view_initial _ _ _ IH Hi) (served_view _ _ Hs)).
Qed.

(** ** Packets of RTMP messages *)
Lemma message_crosses cap m p : message_ok m -> substantial cap m -> spec_rtmp_msg m = RPacket p -> crosses cap p /\ byte (p_flags p).
Proof.
  intros Hok (Hlo & Hhi) H. pose proof (spec_tag m p Hok H) as (_ & _ & Hfit & _).
  destruct Hok as (Hb & Hl & Hts). unfold crosses, flv_transportable, untimed.
  unfold fields in Hlo. unfold spec_rtmp_msg in H. destruct (rm_type m =? 9) eqn:E9.
  { unfold spec_rtmp_video in H. destruct (rm_body m) as [|flag b] eqn:Eb; [discriminate|].
    destruct (negb (flag mod 16 =? CODEC_H264) && negb (flag mod 16 =? CODEC_H265)) eqn:Ec; [discriminate|]. pose proof (Forall_inv Hb) as Hf.
    assert (Hco : flag mod 16 = CODEC_H264 \/ flag mod 16 = CODEC_H265).
    { destruct (Z.eqb_spec (flag mod 16) CODEC_H264); [left; assumption|]. destruct (Z.eqb_spec (flag mod 16) CODEC_H265); [right; assumption|discriminate Ec]. }
    pose proof (command_flag _ Hf) as Hcf. destruct (Z.eqb_spec (flag / 16) 5) as [E5|E5].
    - injection H as <-. unfold is_script, is_video. cbn [p_stream p_flags]. change (AV_STREAM_TYPE_VIDEO =? AV_STREAM_TYPE_SUBTITLE) with false.
      change (AV_STREAM_TYPE_VIDEO =? AV_STREAM_TYPE_VIDEO) with true. rewrite Hcf. cbn [andb orb p_data p_dts p_msg p_stream p_ptype p_pts p_flags p_codec].
      rewrite zlen_cons in *. split; [|exact Hf]. split; [exact (Forall_inv_tail Hb)|]. split; [intros ->; cbn in Hlo; lia|]. split.
      { unfold flv_body, flv_prefix. cbn [p_stream p_flags p_data]. change (AV_STREAM_TYPE_VIDEO =? AV_STREAM_TYPE_AUDIO) with false.
        change (AV_STREAM_TYPE_VIDEO =? AV_STREAM_TYPE_VIDEO) with true. rewrite Hcf. cbn iota. rewrite zlen_app. change (zlen [_]) with 1. lia. }
      split; [exact Hts|]. split; [reflexivity|]. right; right; left. repeat split; auto; apply Hf.
    - destruct b as [|ty [|c0 [|c1 [|c2 d]]]]; try discriminate. injection H as <-.
      unfold is_script, is_video. cbn [p_stream p_flags]. change (AV_STREAM_TYPE_VIDEO =? AV_STREAM_TYPE_SUBTITLE) with false.
      change (AV_STREAM_TYPE_VIDEO =? AV_STREAM_TYPE_VIDEO) with true. rewrite Hcf. cbn [andb orb p_data p_dts p_msg p_stream p_ptype p_pts p_flags p_codec].
      rewrite !zlen_cons in *. peel_bytes Hb. split; [|exact Hf]. split; [exact Hb|]. split; [intros ->; cbn in Hlo; lia|]. split.
      { unfold flv_body, flv_prefix. cbn [p_stream p_flags p_data p_ptype p_pts p_dts]. change (AV_STREAM_TYPE_VIDEO =? AV_STREAM_TYPE_AUDIO) with false.
        change (AV_STREAM_TYPE_VIDEO =? AV_STREAM_TYPE_VIDEO) with true. rewrite Hcf. cbn iota. rewrite !zlen_app, zlen_be. change (zlen [_; _]) with 2. lia. }
      split; [exact Hts|]. split; [reflexivity|]. right; left. unfold byte in *.
      assert (Hv : bev [c0; c1; c2] = c0 * 65536 + c1 * 256 + c2) by (unfold bev; cbn [fold_left]; lia).
      assert (Hs : - 2 ^ 23 <= flv_sign24 (bev [c0; c1; c2]) < 2 ^ 23) by (rewrite Hv; unfold flv_sign24; destruct (_ <? _) eqn:E; lia).
      repeat split; auto; try lia. }
  destruct (rm_type m =? 8) eqn:E8.
  { unfold spec_rtmp_audio in H. destruct (rm_body m) as [|flag b] eqn:Eb; [discriminate|].
    destruct (Z.eqb_spec (flag / 16) CODEC_AAC) as [Ea|Ea]; [|discriminate]. cbn [negb] in H. destruct b as [|ty d]; [discriminate|]. injection H as <-.
    unfold is_script, is_video. cbn [p_stream p_flags]. change (AV_STREAM_TYPE_AUDIO =? AV_STREAM_TYPE_SUBTITLE) with false.
    change (AV_STREAM_TYPE_AUDIO =? AV_STREAM_TYPE_VIDEO) with false. cbn [andb orb p_data p_dts p_msg p_stream p_ptype p_pts p_flags p_codec].
    rewrite !zlen_cons in *. peel_bytes Hb. split; [|assumption]. split; [exact Hb|]. split; [intros ->; cbn in Hlo; lia|]. split.
    { unfold flv_body, flv_prefix. cbn [p_stream p_flags p_data p_ptype p_pts p_dts]. change (AV_STREAM_TYPE_AUDIO =? AV_STREAM_TYPE_AUDIO) with true. cbn iota.
      rewrite zlen_app. change (zlen [_; _]) with 2. lia. }
    split; [exact Hts|]. split; [reflexivity|]. left. repeat split; auto; try (unfold byte in *; lia). }
  destruct ((rm_type m =? 18) || (rm_type m =? 15)) eqn:Es; [|discriminate].
  unfold spec_rtmp_script in H. destruct (rm_body m) as [|c b] eqn:Eb; [discriminate|]. injection H as <-.
  unfold is_script, is_video. cbn [p_stream p_flags]. change (AV_STREAM_TYPE_SUBTITLE =? AV_STREAM_TYPE_SUBTITLE) with true.
  cbn [andb orb p_data p_dts p_msg p_stream p_ptype p_pts p_flags p_codec]. split; [|unfold byte; lia].
  split; [exact Hb|]. split; [discriminate|]. split; [unfold flv_body, flv_prefix; cbn [p_stream]; exact Hhi|]. split; [exact Hts|]. split; [reflexivity|].
  right; right; right. repeat split; reflexivity.
Qed.

Lemma mesh cap n ps ds sp evs pd x s1 : 15 <= cap < 2 ^ 24 -> Forall message_ok (messages evs) ->
  (forall m p, In m (messages evs) -> spec_rtmp_msg m = RPacket p -> substantial cap m) ->
  rtmp_decode sp evs = (pd, x, s1) -> initial ps pd -> cluster cap n ps ds ->
  exists us qs, view ps qs /\ (forall m, In m us -> In m (messages evs)) /\ Forall2 (fun m p => spec_rtmp_msg m = RPacket p) us qs /\
    map untimed (concat ds) = map untimed qs /\ Forall (crosses cap) qs.
Proof.
  intros Hc HF HS Hd Hi Hcl. destruct (rtmp_decode_prefix evs sp pd x s1 0 HF Hd) as [z Hz]. destruct Hi as [y Hy].
  assert (Hin : forall p, In p ps -> In p (fst (spec_rtmp_all (messages evs) 0))).
  { intros p Hp. rewrite <- Hz, <- Hy. apply in_or_app. left. apply in_or_app. left. exact Hp. }
  assert (HC : Forall (crosses cap) ps).
  { rewrite Forall_forall in *. intros p Hp. destruct (spec_all_from _ _ _ (Hin p Hp)) as (m & Hm & Hs).
    exact (proj1 (message_crosses cap m p (HF m Hm) (HS m p Hm Hs) Hs)). }
  destruct (view_map_inv _ _ (cluster_untimed _ _ _ _ Hc HC Hcl)) as (qs & Hv & Hq).
  destruct (packets_from (messages evs) 0 qs) as (us & HU).
  { intros p Hp. apply Hin. exact (view_in _ _ _ Hv Hp). }
  exists us, qs. split; [exact Hv|]. split.
  { clear - HU. induction HU as [|m p us ps (Hi & _) _ IH]; intros m' H; [destruct H|]. destruct H as [<-|H]; auto. }
  split. { clear - HU. induction HU as [|m p us ps (_ & Hs) _ IH]; constructor; auto. }
  split; [exact Hq|exact (view_forall _ _ _ Hv HC)].
Qed.
Lemma until_full (l : list (list pkt)) : ~ In [] l -> until_empty l = l.
Proof.
  induction l as [|d l IH]; intros Hn; [reflexivity|]. destruct d as [|p d]; [destruct Hn; left; reflexivity|].
  cbn [until_empty]. rewrite IH; [reflexivity|]. intros Hi. apply Hn. right. exact Hi.
Qed.
Lemma untimed_media p : media (untimed p) = media p.
Proof. unfold untimed. destruct (_ || _); reflexivity. Qed.
(** The messages made of packets that differ in such times only. *)
Lemma untimed_messages a b : map untimed a = map untimed b -> (forall p, In p b -> byte (p_flags p)) -> map rtmp_message (filter media a) = map rtmp_message (filter media b).
Proof.
  revert b. induction a as [|p a IH]; intros [|q b] H HB; try discriminate; [reflexivity|]. cbn [map] in H. injection H as H1 H2.
  cbn [filter]. rewrite <- (untimed_media p), <- (untimed_media q), H1.
  assert (E : rtmp_message p = rtmp_message q).
  { assert (Hq : byte (p_flags q)) by (apply HB; left; reflexivity).
    assert (Hp : byte (p_flags p)).
    { destruct (untimed_kind p) as (_ & _ & _ & _ & _ & <-). rewrite H1. destruct (untimed_kind q) as (_ & _ & _ & _ & _ & ->). exact Hq. }
    rewrite <- (untimed_message p Hp), <- (untimed_message q Hq), H1. reflexivity. }
  specialize (IH b H2 (fun r Hr => HB r (or_intror Hr))). destruct (media (untimed q)); cbn [map]; [rewrite E|]; rewrite IH; reflexivity.
Qed.

(** ** Messages with nothing behind the fields *)
Lemma next_body cap e p prev more : 15 <= cap < 2 ^ 24 -> zlen (flv_body p) <= cap -> exists d,
  spec_flv_next cap e (flv_layout prev (p :: more)) =
    (if flv_type_byte p =? 8 then flv_audio_body d (flv_body p) (flv_layout (zlen (flv_tag p)) more)
     else if flv_type_byte p =? 9 then flv_video_body d (flv_body p) (flv_layout (zlen (flv_tag p)) more)
     else if flv_type_byte p =? 18 then flv_script_body d (flv_body p) (flv_layout (zlen (flv_tag p)) more)
     else FErr ERROR_FLV_UNKNOWN_TAG_TYPE).
Proof.
  intros Hc Hl. cbn [flv_layout]. set (rest := flv_layout _ more). pose proof (zlen_nonneg rest). pose proof (zlen_nonneg (flv_body p)). unfold flv_tag.
  destruct (be4 prev) as (x0 & x1 & x2 & x3 & ->). destruct (be3 (p_dts p)) as (y0 & y1 & y2 & ->). rewrite be_1.
  assert (Hs : bev (be 3 (zlen (flv_body p))) = zlen (flv_body p)).
  { rewrite bev_be. apply Z.mod_small. change (256 ^ Z.of_nat 3) with (2 ^ 24). lia. }
  destruct (be3 (zlen (flv_body p))) as (s0 & s1 & s2 & Es). rewrite Es in Hs |- *.
  eexists. cbn [app]. unfold spec_flv_next. cbv zeta. rewrite Hs.
  destruct (Z.ltb_spec cap (zlen (flv_body p))); [lia|].
  rewrite zlen_app. destruct (Z.ltb_spec (zlen (flv_body p) + zlen rest) (zlen (flv_body p))); [lia|].
  rewrite take_app_exact, drop_app_exact by reflexivity. reflexivity.
Qed.
Lemma bare_next cap e m p prev more : 15 <= cap < 2 ^ 24 -> message_ok m -> spec_rtmp_msg m = RPacket p -> zlen (rm_body m) = fields m ->
  spec_flv_next cap e (flv_layout prev (p :: more)) = FErr ERROR_FLV_TAG.
Proof.
  intros Hc (Hb & Hl & Hts) H Hz.
  assert (Hbody : zlen (flv_body p) <= 5 /\ ((flv_type_byte p = 8 /\ exists f ty, f / 16 = CODEC_AAC /\ flv_body p = [f; ty]) \/
    (flv_type_byte p = 9 /\ exists f, (f mod 16 = CODEC_H264 \/ f mod 16 = CODEC_H265) /\
       ((f / 16 = 5 /\ flv_body p = [f]) \/ (f / 16 <> 5 /\ exists ty c0 c1 c2, flv_body p = [f; ty; c0; c1; c2]))))).
  { unfold fields in Hz. unfold spec_rtmp_msg in H. destruct (rm_type m =? 9) eqn:E9.
    { unfold spec_rtmp_video in H. destruct (rm_body m) as [|flag b] eqn:Eb; [discriminate|].
      destruct (negb (flag mod 16 =? CODEC_H264) && negb (flag mod 16 =? CODEC_H265)) eqn:Ec; [discriminate|]. pose proof (Forall_inv Hb) as Hf.
      assert (Hco : flag mod 16 = CODEC_H264 \/ flag mod 16 = CODEC_H265).
      { destruct (Z.eqb_spec (flag mod 16) CODEC_H264); [left; assumption|]. destruct (Z.eqb_spec (flag mod 16) CODEC_H265); [right; assumption|discriminate Ec]. }
      pose proof (command_flag _ Hf) as Hcf. unfold byte in Hf. destruct (Z.eqb_spec (flag / 16) 5) as [E5|E5].
      - injection H as <-. rewrite zlen_cons in Hz. assert (b = []) as -> by (apply zlen_0_nil; lia).
        unfold flv_body, flv_prefix, flv_type_byte. cbn [p_stream p_flags p_data]. change (AV_STREAM_TYPE_VIDEO =? AV_STREAM_TYPE_AUDIO) with false.
        change (AV_STREAM_TYPE_VIDEO =? AV_STREAM_TYPE_VIDEO) with true. rewrite Hcf. cbn iota. rewrite (Z.mod_small flag) by lia.
        split; [cbn; lia|]. right. split; [reflexivity|]. exists flag. split; [exact Hco|]. left. split; [exact E5|reflexivity].
      - destruct b as [|ty [|c0 [|c1 [|c2 d]]]]; try discriminate. injection H as <-. rewrite !zlen_cons in Hz. assert (d = []) as -> by (apply zlen_0_nil; lia).
        unfold flv_body, flv_prefix, flv_type_byte. cbn [p_stream p_flags p_data p_ptype p_pts p_dts]. change (AV_STREAM_TYPE_VIDEO =? AV_STREAM_TYPE_AUDIO) with false.
        change (AV_STREAM_TYPE_VIDEO =? AV_STREAM_TYPE_VIDEO) with true. rewrite Hcf. cbn iota. rewrite (Z.mod_small flag) by lia.
        match goal with |- context [be 3 ?z] => destruct (be3 z) as (y0 & y1 & y2 & ->) end.
        split; [cbn; lia|]. right. split; [reflexivity|]. exists flag. split; [exact Hco|]. right. split; [exact E5|]. repeat eexists. }
    destruct (rm_type m =? 8) eqn:E8.
    { unfold spec_rtmp_audio in H. destruct (rm_body m) as [|flag b] eqn:Eb; [discriminate|]. pose proof (Forall_inv Hb) as Hf. unfold byte in Hf.
      destruct (Z.eqb_spec (flag / 16) CODEC_AAC) as [Ea|Ea]; [|discriminate]. cbn [negb] in H. destruct b as [|ty d]; [discriminate|]. injection H as <-.
      rewrite !zlen_cons in Hz. assert (d = []) as -> by (apply zlen_0_nil; lia).
      unfold flv_body, flv_prefix, flv_type_byte. cbn [p_stream p_flags p_data p_ptype]. change (AV_STREAM_TYPE_AUDIO =? AV_STREAM_TYPE_AUDIO) with true. cbn iota.
      rewrite (Z.mod_small flag) by lia. split; [cbn; lia|]. left. split; [reflexivity|]. repeat eexists. exact Ea. }
    destruct ((rm_type m =? 18) || (rm_type m =? 15)) eqn:Es; [|discriminate].
    unfold spec_rtmp_script in H. destruct (rm_body m) as [|c b] eqn:Eb; [discriminate|]. exfalso. rewrite zlen_cons in Hz. pose proof (zlen_nonneg b). lia. }
  destruct Hbody as (H5 & Hbody). destruct (next_body cap e p prev more Hc ltac:(lia)) as (d & ->).
  destruct Hbody as [(-> & f & ty & Ha & ->)|(-> & f & Hco & [(E5 & ->)|(E5 & ty & c0 & c1 & c2 & ->)])].
  - cbn [Z.eqb Pos.eqb]. unfold flv_audio_body. rewrite Ha. reflexivity.
  - cbn [Z.eqb Pos.eqb]. unfold flv_video_body. rewrite E5. destruct Hco as [-> | ->]; reflexivity.
  - cbn [Z.eqb Pos.eqb]. unfold flv_video_body. apply Z.eqb_neq in E5. rewrite E5. destruct Hco as [-> | ->]; reflexivity.
Qed.
Lemma bare_all cap e m p ps more : 15 <= cap < 2 ^ 24 -> message_ok m -> spec_rtmp_msg m = RPacket p -> zlen (rm_body m) = fields m ->
  Forall (flv_transportable cap) ps -> forall prev fuel, spec_flv_all (S (length ps + fuel)) cap e (flv_layout prev (ps ++ p :: more)) = (ps, EErr ERROR_FLV_TAG).
Proof.
  intros Hc Hok Hs Hz. induction ps as [|q ps IH]; intros HF prev fuel.
  - cbn [app length]. remember (0 + fuel)%nat as f. cbn [spec_flv_all]. rewrite (bare_next cap e m p prev more Hc Hok Hs Hz). reflexivity.
  - inversion_clear HF as [|? ? Hp HF']. cbn [flv_layout length app Nat.add].
    remember (S (length ps + fuel)) as f. cbn [spec_flv_all].
    rewrite spec_flv_next_tag by (assumption || lia). subst f. rewrite IH by assumption. reflexivity.
Qed.
Lemma publishes_split ms1 m p ms2 : (forall m1, In m1 ms1 -> spec_rtmp_msg m1 = RSkip \/ exists q, spec_rtmp_msg m1 = RPacket q) -> spec_rtmp_msg m = RPacket p ->
  exists more, publishes (ms1 ++ m :: ms2) = publishes ms1 ++ p :: more.
Proof.
  unfold publishes. intros H Hs. induction ms1 as [|m1 ms1 IH].
  - cbn [app spec_rtmp_all]. rewrite Hs. destruct (spec_rtmp_all ms2 0) as [qs y]. exists qs. reflexivity.
  - destruct (IH (fun m' Hm' => H m' (or_intror Hm'))) as (more & E). exists more.
    cbn [app spec_rtmp_all]. destruct (H m1 (or_introl eq_refl)) as [-> |(q & ->)]; [exact E|].
    destruct (spec_rtmp_all ms1 0) as [qs y]. destruct (spec_rtmp_all (ms1 ++ m :: ms2) 0) as [qs2 y2]. cbn [fst] in *. rewrite E. reflexivity.
Qed.
Lemma message_bytes m p : bytes (rm_body m) -> spec_rtmp_msg m = RPacket p -> bytes (p_data p).
Proof.
  intros Hb H. unfold spec_rtmp_msg in H. destruct (rm_type m =? 9).
  { unfold spec_rtmp_video in H. destruct (rm_body m) as [|flag b]; [discriminate|]. destruct (_ && _); [discriminate|].
    destruct (_ =? 5); [injection H as <-; exact (Forall_inv_tail Hb)|]. destruct b as [|ty [|c0 [|c1 [|c2 d]]]]; try discriminate. injection H as <-.
    peel_bytes Hb. exact Hb. }
  destruct (rm_type m =? 8).
  { unfold spec_rtmp_audio in H. destruct (rm_body m) as [|flag b]; [discriminate|]. destruct (negb _); [discriminate|]. destruct b as [|ty d]; [discriminate|]. injection H as <-.
    peel_bytes Hb. exact Hb. }
  destruct (_ || _); [|discriminate]. unfold spec_rtmp_script in H. destruct (rm_body m) as [|c b]; [discriminate|]. injection H as <-. exact Hb.
Qed.
Lemma layout_bytes_of ps : Forall (fun p => bytes (p_data p)) ps -> forall prev, bytes (flv_layout prev ps).
Proof.
  induction 1 as [|p ps Hp HF IH]; intros prev; cbn [flv_layout]; [apply bytes_nil|].
  apply bytes_app. split; [apply be_bytes|]. apply bytes_app. split; [|apply IH].
  unfold flv_tag, flv_body.
  repeat (apply bytes_app; split; try apply be_bytes; try exact Hp; try apply bytes_prefix).
  - apply bytes_cons; split; [|apply bytes_nil]. unfold flv_type_byte. destruct (_ =? _); [|destruct (_ =? _)]; split; lia.
  - apply bytesb_spec. reflexivity.
Qed.
Lemma publishes_length ms : (length (publishes ms) <= length ms)%nat.
Proof.
  unfold publishes. induction ms as [|m ms IH]; [apply le_n|]. cbn [spec_rtmp_all]. destruct (spec_rtmp_msg m); cbn [length]; try (cbn; lia).
  destruct (spec_rtmp_all ms 0) as [qs y]. cbn [fst length] in *. lia.
Qed.
