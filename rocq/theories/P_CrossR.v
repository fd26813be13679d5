(** Properties C207-C210: RTMP players of streams that came in another way. *)
From Coq Require Import Sorting.Sorted.
From Verif Require Import Base M_Text M_IO S_IO L_IO M_Packet M_Flv S_Flv L_Flv M_Rtmp S_Rtmp L_Rtmp P_Rtmp M_Url S_Url L_Url M_RtmpSess S_RtmpSess M_Conf M_Host
  M_Http L_Http3 M_Cache S_Cache M_H264 M_AAC S_Codec M_Ts S_Ts M_Live S_Live L_Live L_Live2 L_Live3 L_LiveSet M_Stream S_Stream L_Stream P_Stream M_RtmpRelay
  S_RtmpRelay L_RtmpRelay P_RtmpRelay L_Cache P_Codec L_Ts L_TsEx P_Ts S_Cross L_Cross P_Cross S_CrossR L_CrossR.

(** ** C207: transport stream in, RTMP out *)
(** A publisher sends any bytes as transport stream packets; a player asks for
    the stream over RTMP.  It is sent one message for every packet handed to it,
    and this project's own reader makes of these messages the packets with the
    composition offsets that are left of them.  Empty AAC frames do no harm. *)
Theorem ts_to_rtmp_player :
  forall shape os s post pre v a name i (* the server's events *)
         mem ds ts o x                  (* the publisher *)
         ins outs h ctx e               (* the player *),
  keeps_order shape -> env_ok shape live0 os ->
  play_events shape live0 [] os = (s, post ++ (OPlay v a name, Done) :: pre) -> ~ In (OLeave v, Done) post ->
  owner name pre = Some (i, 0%nat) ->
  bytes mem -> Forall bytes ds -> ts_run mem ts_new ds = (ts, o, x) ->
  initial (puts i 0 (post ++ (OPlay v a name, Done) :: pre)) (s_queue ts) ->
  rc_publishing ctx = false -> cache_key (rtmp_req (rc_req ctx)) = name -> rw_taken e = registered pre ->
  fmt_find outs (str "-") = Ok (Some (str "-")) ->
  rw_dumps e = polls v post -> ~ In [] (polls v post) -> rw_sends e = [] -> (forall n, 5 <= zlen (rw_heads e n)) ->
  exists sent, rtmp_stream ins outs h ctx e = mkro None None sent /\ Forall2 on_rtmp (given v post) sent /\
    (forall c, rtmp_read_all (S (length sent)) sent c = (map as_rtmp (given v post), Err c)) /\
    initial (given v post) (gop_snapshot (puts i 0 pre) ++ puts i 0 post).
Proof.
  intros shape os s post pre v a name i mem ds ts o x ins outs h ctx e
    Hk Henv Hev Hlv Hown Hmem Hds Hrun Hup Hpb Hkey Htk Hfm Hdu Hnp Hsd Hhd.
  assert (HT : forall p, In p (puts i 0 (post ++ (OPlay v a name, Done) :: pre)) -> rtmp_taken p).
  { destruct (run_sane mem ds ts_new ts o x Hmem Hds new_ts_sane Hrun) as [_ HF]. rewrite Forall_forall in HF.
    intros p Hp. apply made_taken, HF. destruct Hup as [z <-]. apply in_or_app. left. exact Hp. }
  destruct (rtmp_player_any shape os s post pre v a name i ins outs h ctx e) as (sent & E & H2 & Hin & Hi); auto.
  { intros p Hp. apply HT in Hp. apply Hp. }
  exists sent. split; [exact E|]. split; [exact H2|]. split; [|exact Hi].
  intros c. apply taken_read_all; [|exact H2]. apply Forall_forall. auto.
Qed.
Print Assumptions ts_to_rtmp_player.
(** The events of C203's example, watched over RTMP. *)
Example ts_to_rtmp_player_case :
  let os := [OPublish 0 exs_name; OPut 0 0 exx_c; OPut 0 0 exx_s; OPut 0 0 exx_k; OPlay 0 50 exs_name; OPoll 0; OPut 0 0 exx_p; OPoll 0] in
  let '(ts, _, x) := ts_run (repeat 0 200) ts_new exx_ds in
  env_ok exs_shape live0 os /\
  snd (play_events exs_shape live0 [] os) = exx_post ++ (OPlay 0 50 exs_name, Done) :: exx_pre /\
  owner exs_name exx_pre = Some (0%nat, 0%nat) /\ Forall bytes exx_ds /\
  puts 0 0 (exx_post ++ (OPlay 0 50 exs_name, Done) :: exx_pre) = s_queue ts /\
  exists ctx out, exr_play 3073 = (POk ctx, out) /\ rc_publishing ctx = false /\
    rtmp_stream [] [str "-"; str "flv"] (CMod [] [] [] []) ctx (exr_world (fun _ => true) (polls 0 exx_post) []) =
      mkro None None [mkrm 9 0 1 6 ([0x17; 0; 0; 0; 0] ++ avc_config [0x67; 1; 2; 3] (Some [0x68; 9]));
        mkrm 9 0 1 6 ([0x17; 1; 0; 0; 0] ++ [0; 0; 0; 10; 0x65; 12; 0; 0; 0; 0; 0; 0; 0; 0]);
        mkrm 9 0 1 6 ([0x27; 1; 0; 0; 0] ++ [0; 0; 0; 10; 0x41; 9; 0; 0; 0; 0; 0; 0; 0; 0])].
Proof.
  pose proof ts_to_flv_player_case as C. cbv zeta in C |- *. destruct (ts_run _ _ exx_ds) as [[ts o] x].
  destruct C as (C1 & C2 & C3 & _ & C5 & _ & _ & C8 & _). do 5 (split; [assumption|]).
  do 2 eexists. split; [vm_compute; reflexivity|]. split; vm_compute; reflexivity.
Qed.

(** ** C208: FLV in, RTMP out *)
(** The same for a stream uploaded, or pulled from another server, as FLV. *)
Theorem flv_to_rtmp_player :
  forall shape os s post pre v a name i  (* the server's events *)
         fill t hdr body fuel hp x r1 up (* the upload *)
         ins outs h ctx e                (* the player *),
  keeps_order shape -> env_ok shape live0 os ->
  play_events shape live0 [] os = (s, post ++ (OPlay v a name, Done) :: pre) -> ~ In (OLeave v, Done) post ->
  owner name pre = Some (i, 0%nat) ->
  15 <= zlen fill < 2 ^ 24 -> nonempty_chunks (t_chunks t) -> t_stream t = hdr ++ body -> zlen hdr = 9 ->
  take 3 hdr = [0x46; 0x4C; 0x56] -> bytes body ->
  flv_demux fuel (br_new fill t) = (Ok hp, (up, x, r1)) ->
  initial (puts i 0 (post ++ (OPlay v a name, Done) :: pre)) up ->
  rc_publishing ctx = false -> cache_key (rtmp_req (rc_req ctx)) = name -> rw_taken e = registered pre ->
  fmt_find outs (str "-") = Ok (Some (str "-")) ->
  rw_dumps e = polls v post -> ~ In [] (polls v post) -> rw_sends e = [] -> (forall n, 5 <= zlen (rw_heads e n)) ->
  exists sent, rtmp_stream ins outs h ctx e = mkro None None sent /\ Forall2 on_rtmp (given v post) sent /\
    (forall c, rtmp_read_all (S (length sent)) sent c = (map as_rtmp (given v post), Err c)) /\
    initial (given v post) (gop_snapshot (puts i 0 pre) ++ puts i 0 post).
Proof.
  intros shape os s post pre v a name i fill t hdr body fuel hp x r1 up ins outs h ctx e
    Hk Henv Hev Hlv Hown Hfill Hne Hts Hh9 Hh3 Hby Hdm Hup Hpb Hkey Htk Hfm Hdu Hnp Hsd Hhd.
  assert (HT : forall p, In p (puts i 0 (post ++ (OPlay v a name, Done) :: pre)) -> rtmp_taken p).
  { destruct (flv_demux_stream fill t hdr body fuel) as (hp' & x' & r' & Hd & _ & _); try assumption; try lia.
    rewrite Hd in Hdm. injection Hdm as _ Hps _ _.
    pose proof (spec_flv_all_transportable (zlen fill) (t_err t) fuel (proj2 Hfill) body Hby) as HF.
    rewrite Hps in HF. rewrite Forall_forall in HF. intros p Hp. apply (flv_taken (zlen fill)); [lia|].
    apply HF. destruct Hup as [z <-]. apply in_or_app. left. exact Hp. }
  destruct (rtmp_player_any shape os s post pre v a name i ins outs h ctx e) as (sent & E & H2 & Hin & Hi); auto.
  { intros p Hp. apply HT in Hp. apply Hp. }
  exists sent. split; [exact E|]. split; [exact H2|]. split; [|exact Hi].
  intros c. apply taken_read_all; [|exact H2]. apply Forall_forall. auto.
Qed.
Print Assumptions flv_to_rtmp_player.
(** C121's upload, watched over RTMP: the offset of 40 ms of the key frames
    arrives as 8200 ms. *)
Example flv_to_rtmp_player_case :
  env_ok exs_shape live0 exs_os /\ bytes exs_body /\
  (exists hp x r1, flv_demux 20 (br_new (repeat 0 64) (mktr [flv_default_header; exs_body] (-5))) = (Ok hp, (exs_up, x, r1))) /\
  puts 0 0 (exs_post ++ (OPlay 0 50 exs_name, Done) :: exs_pre) = exs_up /\
  (exists ctx out sent, exr_play 3073 = (POk ctx, out) /\ rc_publishing ctx = false /\
    rtmp_stream [] [str "-"; str "flv"] (CMod [] [] [] []) ctx (exr_world (fun _ => true) (polls 0 exs_post) []) = mkro None None sent /\
    Forall2 on_rtmp (given 0 exs_post) sent) /\
  map p_pts (given 0 exs_post) = [40; 40; 80; 160] /\ map p_pts (map as_rtmp (given 0 exs_post)) = [8200; 40; 80; 8320].
Proof.
  destruct flv_relay_case as (_ & C1 & _ & _ & C4 & C5 & C6 & _). do 4 (split; [assumption|]). split.
  { do 3 eexists. split; [vm_compute; reflexivity|]. split; [vm_compute; reflexivity|]. split; [vm_compute; reflexivity|].
    repeat (constructor; [eapply on_video; try reflexivity; discriminate|]). constructor. }
  split; reflexivity.
Qed.

(** ** C209: FLV and RTMP players of one stream disagree about time *)
(** For every picture of a transport stream: what an FLV player and an RTMP
    player are told of decoding time and content is the same; of the time of
    presentation it is the same exactly when this is 0 to 15 ms after decoding. *)
Theorem players_agree_iff :
  forall dts pts flags d, let p := video_pkt 1 dts pts flags d in
  flags = 0x17 \/ flags = 0x27 -> - 2 ^ 23 <= pts - dts < 2 ^ 23 ->
  p_dts (as_rtmp p) = p_dts (as_flv p) /\ p_data (as_rtmp p) = p_data (as_flv p) /\ p_flags (as_rtmp p) = p_flags (as_flv p) /\
  p_pts (as_flv p) = pts /\ (p_pts (as_rtmp p) = pts <-> 0 <= pts - dts <= 15).
Proof.
  intros dts pts flags d p Hf Ho.
  assert (A : as_rtmp p = video_pkt 1 dts (dts + (4096 * ((pts - dts) / 16 mod 16) + (pts - dts) mod 16)) flags d).
  { destruct Hf as [-> | ->]; reflexivity. }
  assert (B : as_flv p = video_pkt 1 dts (dts + flv_sign24 ((pts - dts) mod 2 ^ 24)) flags d).
  { destruct Hf as [-> | ->]; reflexivity. }
  rewrite A, B. unfold video_pkt; cbn [p_dts p_data p_flags p_pts]. do 3 (split; [reflexivity|]). split.
  - unfold flv_sign24. destruct (Z_lt_dec (pts - dts) 0).
    + replace ((pts - dts) mod 2 ^ 24) with (pts - dts + 2 ^ 24) by (apply (Z.mod_unique _ _ (-1)); lia).
      destruct (Z.ltb_spec (pts - dts + 2 ^ 24) (2 ^ 23)); lia.
    + rewrite Z.mod_small by lia. destruct (Z.ltb_spec (pts - dts) (2 ^ 23)); lia.
  - set (c := pts - dts) in *. pose proof (Z_div_mod_eq_full c 16). pose proof (Z_div_mod_eq_full (c / 16) 16).
    pose proof (Z.mod_pos_bound c 16 eq_refl). pose proof (Z.mod_pos_bound (c / 16) 16 eq_refl). subst c. split; lia.
Qed.
Print Assumptions players_agree_iff.
(** Frames 40 ms apart, one of them presented two frames later. *)
Example players_agree_case :
  map (fun p => (p_pts (as_flv p), p_pts (as_rtmp p))) [video_pkt 1 1000 1080 0x27 [1]; video_pkt 1 1040 1040 0x27 [2]; video_pkt 1 1080 1095 0x27 [3]] =
    [(1080, 21480); (1040, 1040); (1095, 1095)].
Proof. reflexivity. Qed.

(** ** C210: parameter sets within a transport stream turn the clock back *)
(** An access unit with a sequence parameter set is preceded by a configuration
    packet stamped 0, whatever its own time.  So after the first packet with a
    positive time, FLV and RTMP players alike see times fall. *)
Theorem stamps_fall_back :
  forall h ctx ns p n, In p h -> 0 < p_dts p -> In n ns -> n_type n = 7 ->
  ~ StronglySorted Z.le (map p_dts (map as_flv (h ++ avc_packets ctx ns))) /\
  ~ StronglySorted Z.le (map p_dts (map as_rtmp (h ++ avc_packets ctx ns))).
Proof.
  intros h ctx ns p n Hp Hd Hn Tn.
  assert (A : forall l, map p_dts (map as_flv l) = map p_dts l).
  { intros l. rewrite map_map. apply map_ext. intros q. unfold as_flv. destruct (_ =? _); [destruct (flv_video_command _)|]; reflexivity. }
  assert (B : forall l, map p_dts (map as_rtmp l) = map p_dts l).
  { intros l. rewrite map_map. apply map_ext. intros q. unfold as_rtmp. destruct (_ =? _); [reflexivity|]. destruct (_ =? _); [destruct (_ =? 5)|]; reflexivity. }
  rewrite A, B.
  assert (C : exists d, In (video_pkt 0 0 0 0x17 d) (avc_packets ctx ns)).
  { unfold avc_packets, last_of. destruct (find is_sps (List.rev ns)) as [q|] eqn:F.
    - eexists. left. reflexivity.
    - exfalso. pose proof (find_none _ _ F n) as G. rewrite <- in_rev in G. specialize (G Hn).
      unfold is_sps, H264_NAL_SPS in G. rewrite Tn in G. discriminate. }
  destruct C as [d C].
  assert (N : ~ StronglySorted Z.le (map p_dts (h ++ avc_packets ctx ns))); [|split; exact N].
  rewrite map_app. apply (in_map p_dts) in Hp, C. cbn [video_pkt p_dts] in C. revert Hp C. generalize (map p_dts (avc_packets ctx ns)).
  generalize (map p_dts h). clear - Hd. intros a b. induction a as [|z a IH]; intros Hp C S; [destruct Hp|].
  cbn [app] in S. apply StronglySorted_inv in S as [S HF]. rewrite Forall_forall in HF. destruct Hp as [->|Hp]; [|exact (IH Hp C S)].
  specialize (HF 0 (in_or_app _ _ _ (or_intror C))). lia.
Qed.
Print Assumptions stamps_fall_back.
(** A key picture at 10 s that repeats its parameter sets. *)
Example stamps_fall_back_case :
  let h := [video_pkt 1 9960 9960 0x27 [1]] in
  let ns := [exx_nal [0x67; 1; 2; 3]; exx_nal [0x68; 9]; exx_nal [0x65; 12]] in
  map p_dts (map as_flv (h ++ avc_packets (mkav 900000 900000 90) ns)) = [9960; 0; 10000].
Proof. reflexivity. Qed.
