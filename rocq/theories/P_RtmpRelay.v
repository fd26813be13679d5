(** Properties C130-C134: RTMP publishers and players. *)
From Verif Require Import Base M_Text M_IO M_Packet M_Flv S_Flv M_Rtmp S_Rtmp L_Rtmp M_Url S_Url L_Url P_Url M_RtmpSess S_RtmpSess L_RtmpSess
  M_Conf M_Host L_IO L_Flv M_Http L_Http3 M_Cache S_Cache M_Live S_Live L_Live L_Live2 L_Live3 L_LiveSet M_Stream S_Stream L_Stream P_Stream M_RtmpRelay
  S_RtmpRelay L_RtmpRelay S_Http.

(** ** C130: what a publisher's messages become *)
(** Reading a publisher that keeps to the protocol: every message is turned
    into the packet it holds, in order; messages that are no media are skipped;
    the publisher is read until a message cannot be used, and then ends with
    that message's error. *)
Theorem rtmp_publish_exact : forall evs,
  Forall calm evs -> Forall message_ok (messages evs) -> wire evs + 5000000 < 2 ^ 31 ->
  exists s1, rtmp_decode (mkse hook_new [] []) evs =
    (publishes (messages evs),
     match problem (messages evs) with Err c => if c =? 0 then DWait else DEnd c | _ => DUB end, s1).
Proof.
  intros evs HC HF Hw. apply rtmp_decode_calm; [exact HC|exact HF|split; [reflexivity|split; [reflexivity|cbn; lia]]|].
  cbn [se_h hook_new hk_bytes]. lia.
Qed.
Print Assumptions rtmp_publish_exact.
Definition exr_v (ts n : Z) := mkrm 9 ts 1 6 [0x17; 1; 0; 0; 2; n].
Definition exr_a (ts n : Z) := mkrm 8 ts 1 4 [0xAF; 1; n; n].
Definition exr_meta := mkrm 15 0 1 4 [2; 0; 0].
Definition exr_ev (m : rmsg) := RvMsg m 60.
Example rtmp_publish_exact_case :
  let evs := [exr_ev exr_meta; exr_ev (mkrm 4 0 0 2 [0; 3; 0; 0; 0; 1]); exr_ev (exr_v 0 7); exr_ev (exr_a 20 8); exr_ev (mkrm 8 30 1 4 [0x20; 0; 1]); exr_ev (exr_v 40 9)] in
  Forall calm evs /\ Forall message_ok (messages evs) /\
  publishes (messages evs) =
    [mkpkt AV_MESSAGE_DATA AV_STREAM_TYPE_SUBTITLE 0 0 0 0 0 [2; 0; 0];
     mkpkt AV_MESSAGE_DATA AV_STREAM_TYPE_VIDEO 1 0 2 0x17 7 [7];
     mkpkt AV_MESSAGE_DATA AV_STREAM_TYPE_AUDIO 1 20 20 0xAF 10 [8; 8]] /\
  exists c, problem (messages evs) = Err c /\ c <> 0.
Proof.
  cbv zeta. split.
  { repeat (constructor; [eexists; eexists; split; [reflexivity|]; split; [lia|]; split; [discriminate|discriminate]|]). constructor. }
  split. { repeat (constructor; [split; [apply bytesb_spec; vm_compute; reflexivity|split; vm_compute; [reflexivity|split; [discriminate|reflexivity]]]|]). constructor. }
  split; [vm_compute; reflexivity|]. eexists. split; [vm_compute; reflexivity|discriminate].
Qed.
(** Whatever the client and the network do, only packets of messages the client
    sent get into the stream, in order. *)
Theorem rtmp_publish_prefix : forall s evs ps x s1, Forall message_ok (messages evs) ->
  rtmp_decode s evs = (ps, x, s1) -> initial ps (publishes (messages evs)).
Proof. intros s evs ps x s1 HF H. exact (rtmp_decode_prefix evs s ps x s1 0 HF H). Qed.
Print Assumptions rtmp_publish_prefix.
(** The connection breaks after the first video message. *)
Example rtmp_publish_prefix_case :
  let evs := [exr_ev exr_meta; exr_ev (exr_v 0 7); RvFail (-104) 0 0; exr_ev (exr_a 20 8)] in
  exists ps s1 c, rtmp_decode (sess0 3073 []) evs = (ps, c, s1) /\
    map p_data ps = [[2; 0; 0]; [7]] /\ map p_data (publishes (messages evs)) = [[2; 0; 0]; [7]; [8; 8]].
Proof. do 3 eexists. split; [vm_compute; reflexivity|]. split; vm_compute; reflexivity. Qed.
(** The server never learns that the RTMP library gave up for a reason of its
    own: it goes on reading, the stream stays and gets nothing. *)
Theorem rtmp_publish_library_failure : forall s (l : list (Z * Z)),
  rtmp_decode s (map (fun '(t, sz) => RvFail 0 t sz) l) = ([], DWait, s).
Proof. intros s l. induction l as [|[t sz] l IH]; [reflexivity|]. cbn [map rtmp_decode hk_recv Z.eqb negb]. exact IH. Qed.
Print Assumptions rtmp_publish_library_failure.

(** ** C131: RTMP publisher to RTMP player *)
(** A client publishes any messages; a player joins while the server goes on.
    Each message sent to the player is the republished form of a message the
    publisher sent.  The packets are those handed to the player, which are the
    beginning of: the snapshot when it joined, then everything published since. *)
Theorem rtmp_relay_end_to_end :
  forall shape os s post pre v a name i (* the server's events *)
         sp evs ps x s1                 (* the publisher *)
         ins outs h ctx e               (* the player *),
  keeps_order shape -> env_ok shape live0 os ->
  play_events shape live0 [] os = (s, post ++ (OPlay v a name, Done) :: pre) -> ~ In (OLeave v, Done) post ->
  owner name pre = Some (i, 0%nat) ->
  Forall message_ok (messages evs) -> rtmp_decode sp evs = (ps, x, s1) ->
  initial (puts i 0 (post ++ (OPlay v a name, Done) :: pre)) ps ->
  rc_publishing ctx = false -> cache_key (rtmp_req (rc_req ctx)) = name -> rw_taken e = registered pre ->
  fmt_find outs (str "-") = Ok (Some (str "-")) ->
  rw_dumps e = polls v post -> ~ In [] (polls v post) -> rw_sends e = [] -> (forall n, 5 <= zlen (rw_heads e n)) ->
  exists sent us, rtmp_stream ins outs h ctx e = mkro None None sent /\
    (forall m, In m us -> In m (messages evs)) /\ Forall2 resent us sent /\
    Forall2 (fun m p => spec_rtmp_msg m = RPacket p) us (given v post) /\
    initial (given v post) (gop_snapshot (puts i 0 pre) ++ puts i 0 post).
Proof.
  intros shape os s post pre v a name i sp evs ps x s1 ins outs h ctx e
    Hk Henv Hev Hlv Hown HF Hdm Hup Hpb Hkey Htk Hfm Hdu Hnp Hsd Hhd.
  destruct (viewer_stream _ _ _ _ _ _ _ _ Hk Henv Hev Hlv) as (i' & k & vx & Ho & _ & _ & Hgv).
  rewrite Hown in Ho. injection Ho as <- <-. cbn [snapshot] in Hgv.
  assert (Hpub : initial (puts i 0 (post ++ (OPlay v a name, Done) :: pre)) (publishes (messages evs))).
  { destruct (rtmp_decode_prefix evs sp ps x s1 0 HF Hdm) as [z Hz]. destruct Hup as [y Hy]. exists (y ++ z).
    rewrite app_assoc, Hy. exact Hz. }
  assert (Hg : forall p, In p (given v post) -> In p (publishes (messages evs))).
  { intros p Hp. assert (Hin : In p (gop_snapshot (puts i 0 pre) ++ puts i 0 post)).
    { rewrite <- Hgv. apply in_or_app. left. exact Hp. }
    destruct Hpub as [z <-]. apply in_or_app. left. rewrite puts_app, puts_skip. apply in_or_app.
    apply in_app_or in Hin as [Hin|Hin]; [left; apply gop_snapshot_in; exact Hin|right; exact Hin]. }
  destruct (packets_from (messages evs) 0 (given v post) Hg) as (us & HU).
  assert (Hue : forall l : list (list pkt), ~ In [] l -> until_empty l = l).
  { induction l as [|d l IH]; intros Hn; [reflexivity|]. destruct d as [|p d]; [destruct Hn; left; reflexivity|].
    cbn [until_empty]. rewrite IH; [reflexivity|]. intros Hi. apply Hn. right. exact Hi. }
  assert (Hmed : filter media (given v post) = given v post).
  { clear - HU HF. induction HU as [|m p us ps (Hi & Hs) _ IH]; [reflexivity|]. cbn [filter].
    rewrite Forall_forall in HF. destruct (spec_resent m p (HF m Hi) Hs) as [-> _]. f_equal. exact IH. }
  destruct (rp_loop_ok (rw_heads e) (polls v post) Hhd (mkrp [] O [])) as (r & w1 & sent & Hl & Hout & Hc); [constructor|].
  cbv zeta in Hc. rewrite (Hue _ Hnp), polls_given, Hmed in Hc.
  destruct Hc as [(-> & _ & ->)|[(_ & Hc & _)|(c & _ & _ & Hc & _)]]; [|contradiction|destruct Hc].
  exists (map rtmp_message (given v post)), us. split.
  { unfold rtmp_stream. rewrite Hpb. unfold play_start. rewrite Htk, Hkey. unfold registered. rewrite Hown.
    cbn [negb andb orb]. change (0 =? 0) with true. cbn [negb orb]. cbn [rtmp_req rq_ext]. rewrite Hfm. cbn [bind].
    rewrite Hsd, Hdu, Hl, Hout. reflexivity. }
  split. { clear - HU. induction HU as [|m p us ps (Hi & _) _ IH]; intros m' H; [destruct H|]. destruct H as [<-|H]; auto. }
  split. { rewrite Forall_forall in HF. clear - HU HF. induction HU as [|m p us ps (Hi & Hs) _ IH]; [constructor|]. cbn [map].
           constructor; [exact (proj2 (spec_resent m p (HF m Hi) Hs))|exact IH]. }
  split. { clear - HU. induction HU as [|m p us ps (_ & Hs) _ IH]; constructor; auto. }
  exists (v_queue vx). exact Hgv.
Qed.
Print Assumptions rtmp_relay_end_to_end.
(** Republishing is byte for byte exactly where packet types are 0 or 1 and
    composition offsets at most 15; a player sees everything else changed. *)
Theorem rtmp_resent_verbatim : forall m m', message_ok m -> resent m m' -> survives m ->
  rm_body m' = rm_body m /\ rm_ts m' = rm_ts m /\ (rm_type m <> 15 -> rm_type m' = rm_type m).
Proof.
  intros m m' (Hb & _) Hr (H8 & H9). destruct Hr as [Ht Ht' Eb Ets _|flag ty d Ht Ht' Eb Eb' Ets _|flag d Ht Ht' Hf Eb Eb' Ets _|flag ty c0 c1 c2 d Ht Ht' Hf Eb Eb' Ets _].
  - repeat split; auto. intros. lia.
  - specialize (H8 Ht _ _ _ Eb). rewrite Eb, Eb'. repeat split; auto; [|lia]. rewrite Z.min_l by lia. reflexivity.
  - rewrite Eb, Eb'. repeat split; auto; lia.
  - destruct (H9 Ht _ _ _ _ _ _ Eb Hf) as (H1 & -> & -> & H2). rewrite Eb, Eb'. repeat split; auto; [|lia].
    rewrite Eb in Hb. apply bytes_cons in Hb as [_ Hb]. apply bytes_cons in Hb as [_ Hb]. do 2 apply bytes_cons in Hb as [_ Hb].
    apply bytes_cons in Hb as [Hb _]. unfold byte in Hb. rewrite Z.min_l, Z.div_small, Z.mod_small by lia. reflexivity.
Qed.
Print Assumptions rtmp_resent_verbatim.
Theorem rtmp_resent_changed : forall m m', message_ok m -> resent m m' -> ~ survives m -> rm_body m' <> rm_body m.
Proof.
  intros m m' (Hb & _) Hr Hn E. apply Hn. clear Hn. destruct Hr as [Ht Ht' Eb Ets _|flag ty d Ht Ht' Eb Eb' Ets _|flag d Ht Ht' Hf Eb Eb' Ets _|flag ty c0 c1 c2 d Ht Ht' Hf Eb Eb' Ets _].
  - split; intros; lia.
  - split; intros H; [|lia]. intros f t d' E'. rewrite Eb in E'. injection E' as <- <- <-. rewrite Eb, Eb' in E.
    injection E as E. lia.
  - split; intros H; [lia|]. intros f t c0 c1 c2 d' E' Hf'. rewrite Eb in E'. injection E' as <- _. contradiction.
  - split; intros H; [lia|]. intros f t c0' c1' c2' d' E' Hf'. rewrite Eb in E'. injection E' as <- <- <- <- <- <-.
    rewrite Eb, Eb' in E. injection E as E1 E2 E3 E4.
    rewrite Eb in Hb. do 4 apply bytes_cons in Hb as [_ Hb]. apply bytes_cons in Hb as [Hb _]. unfold byte in Hb.
    pose proof (Z_div_mod_eq_full c2 16). pose proof (Z.mod_pos_bound c2 16 ltac:(lia)). lia.
Qed.
Print Assumptions rtmp_resent_changed.
(** So a B-frame stream, whose offsets are 40 ms and more, arrives changed. *)
Example rtmp_resent_case :
  resent (mkrm 9 80 1 6 [0x27; 1; 0; 0; 80; 5]) (mkrm 9 80 1 6 [0x27; 1; 0; 80; 0; 5]) /\
  ~ survives (mkrm 9 80 1 6 [0x27; 1; 0; 0; 80; 5]) /\ survives (exr_v 0 7) /\ resent (exr_v 0 7) (mkrm 9 0 1 6 [0x17; 1; 0; 0; 2; 7]).
Proof.
  split. { apply (rs_video _ _ 0x27 1 0 0 80 [5]); try reflexivity. discriminate. }
  split. { intros (_ & H). destruct (H eq_refl 0x27 1 0 0 80 [5] eq_refl ltac:(discriminate)) as (_ & _ & _ & H'). lia. }
  split. { split; [discriminate|]. intros _ f t c0 c1 c2 d E _. injection E as <- <- <- <- <- <-. lia. }
  apply (rs_video _ _ 0x17 1 0 0 2 [7]); try reflexivity. discriminate.
Qed.

(** The hypotheses of the relay theorem, met by the events of C121's example
    with an RTMP publisher. *)
Definition exr_k (n t : Z) := mkpkt AV_MESSAGE_DATA AV_STREAM_TYPE_VIDEO 1 t (t + 40) 0x17 CODEC_H264 [n].
Definition exr_msgs : list rmsg :=
  [mkrm 9 0 1 6 [0x17; 1; 0; 0; 40; 1]; mkrm 9 40 1 6 [0x27; 1; 0; 0; 0; 2; 2]; mkrm 9 80 1 6 [0x27; 1; 0; 0; 0; 3; 3];
   mkrm 9 120 1 6 [0x17; 1; 0; 0; 40; 4]; mkrm 9 160 1 6 [0x27; 1; 0; 0; 0; 5; 5]].
Definition exr_play (n0 : Z) := rtmp_prepare ex_amf hp_url (Some n0) [] [ex_cmd 1; ex_cmd 2; ex_cmd 4].
Definition exr_world (taken : list Z -> bool) (dumps : list (list pkt)) (sends : list sres) :=
  mkrw taken (0, false) [] sends dumps (fun _ => repeat 0 5%nat).
Example rtmp_relay_case :
  Forall message_ok exr_msgs /\
  (exists x s1, rtmp_decode (mkse hook_new [] []) (map exr_ev exr_msgs) = (exs_up, x, s1)) /\
  messages (map exr_ev exr_msgs) = exr_msgs /\
  exists ctx out, exr_play 3073 = (POk ctx, out) /\ rc_publishing ctx = false /\ cache_key (rtmp_req (rc_req ctx)) = str "h/live/a" /\
    fmt_find [str "-"; str "flv"] (str "-") = Ok (Some (str "-")) /\
    rtmp_stream [] [str "-"; str "flv"] (CMod [] [] [] []) ctx (exr_world (fun _ => true) (polls 0 exs_post) []) =
      mkro None None [mkrm 9 0 1 6 [0x17; 1; 0; 32; 8; 1]; mkrm 9 40 1 6 [0x27; 1; 0; 0; 0; 2; 2]; mkrm 9 80 1 6 [0x27; 1; 0; 0; 0; 3; 3];
        mkrm 9 120 1 6 [0x17; 1; 0; 32; 8; 4]].
Proof.
  split. { repeat (constructor; [split; [apply bytesb_spec; vm_compute; reflexivity|split; vm_compute; [reflexivity|split; [discriminate|reflexivity]]]|]). constructor. }
  split. { do 2 eexists. vm_compute. reflexivity. }
  split; [reflexivity|]. do 2 eexists. split; [vm_compute; reflexivity|]. repeat split; vm_compute; reflexivity.
Qed.

(** ** C132: how an RTMP player ends *)
(** If every failed send is the socket's failure, a player ends in two ways
    only: nothing came for 10 seconds, after everything was sent; or a send
    failed, after a first part, and the connection ends with its error. *)
Theorem rtmp_player_ends : forall ins outs h ctx e,
  rc_publishing ctx = false -> rw_taken e (cache_key (rtmp_req (rc_req ctx))) = true ->
  fmt_find outs (str "-") = Ok (Some (str "-")) -> (forall n, 5 <= zlen (rw_heads e n)) -> no_silent (rw_sends e) ->
  let full := map rtmp_message (filter media (concat (until_empty (rw_dumps e)))) in
  exists ret sent, rtmp_stream ins outs h ctx e = mkro ret None sent /\
    ((ret = None /\ ~ In [] (rw_dumps e) /\ sent = full) \/
     (ret = Some (Ok ERROR_SOCKET_TIMEOUT) /\ In [] (rw_dumps e) /\ sent = full) \/
     (exists c, ret = Some (Ok c) /\ c <> 0 /\ In (SFail c) (rw_sends e) /\ initial sent full)).
Proof.
  intros ins outs h ctx e Hpb Htk Hfm Hhd Hns full.
  destruct (rp_loop_ok (rw_heads e) (rw_dumps e) Hhd (mkrp (rw_sends e) O [])) as (r & w1 & sent & Hl & Hout & Hc); [exact Hns|].
  cbv zeta in Hc. fold full in Hc. exists r, sent. split; [|exact Hc].
  unfold rtmp_stream. rewrite Hpb. unfold play_start. rewrite Htk.
  cbn [negb andb orb]. change (0 =? 0) with true. cbn [negb orb]. cbn [rtmp_req rq_ext]. rewrite Hfm. cbn [bind].
  rewrite Hl, Hout. reflexivity.
Qed.
Print Assumptions rtmp_player_ends.
Example rtmp_player_ends_case : exists ctx out, exr_play 3073 = (POk ctx, out) /\
  rtmp_stream [] [str "-"; str "flv"] (CMod [] [] [] []) ctx (exr_world (fun _ => true) [[exs_k 1 0]; []] []) =
    mkro (Some (Ok ERROR_SOCKET_TIMEOUT)) None [mkrm 9 0 1 6 [0x17; 1; 0; 32; 8; 1]] /\
  rtmp_stream [] [str "-"; str "flv"] (CMod [] [] [] []) ctx (exr_world (fun _ => true) [[exs_k 1 0; exs_k 2 1]; []] [SOk; SFail 104]) =
    mkro (Some (Ok 104)) None [mkrm 9 0 1 6 [0x17; 1; 0; 32; 8; 1]].
Proof. do 2 eexists. split; [vm_compute; reflexivity|]. split; vm_compute; reflexivity. Qed.
(** Without that: a send the library itself refuses is dropped, and the player
    goes on with a hole in its stream. *)
Theorem rtmp_player_hole_refuted : exists ctx out, exr_play 3073 = (POk ctx, out) /\
  rtmp_stream [] [str "-"; str "flv"] (CMod [] [] [] []) ctx (exr_world (fun _ => true) [[exs_k 1 0; exs_k 2 1; exs_k 3 2]] [SOk; SFail 0]) =
    mkro None None [rtmp_message (exs_k 1 0); rtmp_message (exs_k 3 2)].
Proof. do 2 eexists. split; vm_compute; reflexivity. Qed.
Print Assumptions rtmp_player_hole_refuted.

(** ** C133: RTMP publisher to HTTP-FLV player *)
(** The file an HTTP player downloads of an RTMP stream is, but for the size of
    the last tag, the FLV file with one tag per message handed to it: type (AMF3
    data as AMF0), timestamp and body exactly the publisher's. *)
Theorem rtmp_to_flv_player :
  forall shape os s post pre v a name i (* the server's events *)
         sp evs ps x s1                 (* the publisher *)
         reason ins outs h r e sk       (* the player *),
  keeps_order shape -> env_ok shape live0 os ->
  play_events shape live0 [] os = (s, post ++ (OPlay v a name, Done) :: pre) -> ~ In (OLeave v, Done) post ->
  owner name pre = Some (i, 0%nat) ->
  Forall message_ok (messages evs) -> rtmp_decode sp evs = (ps, x, s1) ->
  initial (puts i 0 (post ++ (OPlay v a name, Done) :: pre)) ps ->
  rq_method r <> str "POST" -> cache_key r = name -> w_taken e = registered pre ->
  fmt_find outs (rq_ext r) = Ok (Some (str "flv")) ->
  w_dumps e = polls v post -> ~ In [] (polls v post) -> sk_room sk = None -> S_Http.plain (reason 200) ->
  exists sk1 file us last, http_stream reason ins outs h r e sk = (None, sk1) /\
    (exists head, sk_out sk1 = sk_out sk ++ head ++ file /\
       read_message (head ++ file) = Some (str "HTTP/1.1 200 " ++ reason 200, [(str "Server", str "sps")], file)) /\
    file ++ be 4 last = flv_text (map as_tag us) /\
    (forall m, In m us -> In m (messages evs)) /\
    Forall2 (fun m p => spec_rtmp_msg m = RPacket p) us (given v post) /\
    initial (given v post) (gop_snapshot (puts i 0 pre) ++ puts i 0 post).
Proof.
  intros shape os s post pre v a name i sp evs ps x s1 reason ins outs h r e sk
    Hk Henv Hev Hlv Hown HF Hdm Hup Hm Hkey Htk Hfm Hdu Hnp Hroom Hre.
  destruct (viewer_stream _ _ _ _ _ _ _ _ Hk Henv Hev Hlv) as (i' & k & vx & Ho & _ & _ & Hgv).
  rewrite Hown in Ho. injection Ho as <- <-. cbn [snapshot] in Hgv.
  assert (Hpub : initial (puts i 0 (post ++ (OPlay v a name, Done) :: pre)) (publishes (messages evs))).
  { destruct (rtmp_decode_prefix evs sp ps x s1 0 HF Hdm) as [z Hz]. destruct Hup as [y Hy]. exists (y ++ z).
    rewrite app_assoc, Hy. exact Hz. }
  assert (Hg : forall p, In p (given v post) -> In p (publishes (messages evs))).
  { intros p Hp. assert (Hin : In p (gop_snapshot (puts i 0 pre) ++ puts i 0 post)).
    { rewrite <- Hgv. apply in_or_app. left. exact Hp. }
    destruct Hpub as [z <-]. apply in_or_app. left. rewrite puts_app, puts_skip. apply in_or_app.
    apply in_app_or in Hin as [Hin|Hin]; [left; apply gop_snapshot_in; exact Hin|right; exact Hin]. }
  destruct (packets_from (messages evs) 0 (given v post) Hg) as (us & HU).
  assert (Hue : forall l : list (list pkt), ~ In [] l -> until_empty l = l).
  { induction l as [|d l IH]; intros Hn; [reflexivity|]. destruct d as [|p d]; [destruct Hn; left; reflexivity|].
    cbn [until_empty]. rewrite IH; [reflexivity|]. intros Hi. apply Hn. right. exact Hi. }
  pose proof (Hue _ Hnp) as Hu. rewrite Forall_forall in HF.
  assert (Hfit : Forall flv_fits (given v post)).
  { clear - HU HF. induction HU as [|m p us ps (Hi & Hs) _ IH]; constructor; [|exact IH].
    destruct (spec_tag m p (HF m Hi) Hs) as (_ & _ & H & _). exact H. }
  destruct (encode_flv_any reason (polls v post) sk) as (ret & w & out & He & Hout & Hcases).
  { rewrite Hu, polls_given. exact Hfit. }
  cbv zeta in Hcases. rewrite Hu, polls_given in Hcases.
  destruct Hcases as [(-> & _ & ->)|[(_ & Hc & _)|(_ & Hc & _)]]; [|congruence|congruence].
  assert (Hst : stream_request reason ins outs h r e (rsp200, sk) = (None, w)).
  { unfold stream_request. rewrite eqb_list_neq by exact Hm. unfold play_start.
    rewrite Htk, Hkey. unfold registered. rewrite Hown. cbn [negb andb orb]. change (0 =? 0) with true. cbn [negb orb].
    rewrite Hfm. cbn [bind]. rewrite Hdu. exact He. }
  assert (Hin : forall m, In m us -> In m (messages evs)).
  { clear - HU. induction HU as [|m p us ps (Hi & _) _ IH]; intros m' H; [destruct H|]. destruct H as [<-|H]; auto. }
  assert (HU2 : Forall2 (fun m p => spec_rtmp_msg m = RPacket p) us (given v post)).
  { clear - HU. induction HU as [|m p us ps (_ & Hs) _ IH]; constructor; auto. }
  destruct (layout_text us (given v post) 0) as (lst & Hlast).
  { rewrite Forall_forall. intros m Hm'. apply HF, Hin, Hm'. }
  { exact HU2. }
  assert (Hfil : filter flv_media (map as_tag us) = map as_tag us).
  { clear - HU HF. induction HU as [|m p us ps (Hi & Hs) _ IH]; [reflexivity|]. cbn [map filter].
    destruct (spec_tag m p (HF m Hi) Hs) as (_ & H & _).
    replace (flv_media (as_tag m)) with true; [f_equal; exact IH|]. symmetry. revert H. unfold flv_media, as_tag. cbn [rm_type rm_body].
    destruct (rm_type m =? 15) eqn:E; [|rewrite E; intros H; exact H]. intros H. apply andb_prop in H as [-> _]. reflexivity. }
  exists (snd w), (flv_default_header ++ flv_layout 0 (given v post)), us, lst.
  split; [unfold http_stream; rewrite Hst; reflexivity|]. split.
  { exists (response_head reason rsp200). split; [exact Hout|].
    rewrite response_head_message; [reflexivity|cbn; lia|exact Hre|constructor]. }
  split. { rewrite <- app_assoc, Hlast. unfold flv_text. rewrite Hfil. reflexivity. }
  split; [exact Hin|]. split; [exact HU2|]. exists (v_queue vx). exact Hgv.
Qed.
Print Assumptions rtmp_to_flv_player.
Example rtmp_to_flv_case :
  snd (http_stream (fun _ => str "OK") [] output_exts (CMod [] [] [] []) exs_req
    (mkw (fun _ => true) (0, false) (polls 0 exs_post) None) (mksk [] None (-5))) =
  mksk (str "HTTP/1.1 200 OK" ++ [13; 10] ++ str "Server: sps" ++ [13; 10; 13; 10] ++
        take (13 + (15 + 6) + (15 + 7) + (15 + 7) + (15 + 6) - 4) (flv_text (map as_tag exr_msgs))) None (-5).
Proof. vm_compute. reflexivity. Qed.

(** ** C134: who may publish over RTMP *)
(** After the connect phase a publisher's stream is registered exactly if the
    host is known and a source, its format is "all" or "-", the format exists
    and no stream has the name. *)
Theorem rtmp_publish_rule : forall lib ul ins outs rt n0 sends evs e ctx out,
  rtmp_prepare lib ul n0 sends evs = (POk ctx, out) -> rc_publishing ctx = true ->
  ((exists o ps, rtmp_conn lib ul ins outs rt n0 sends evs e = (RcStream o, out) /\ ro_put o = Some ps) <->
   exists h f, find_host rt (rq_host (rc_req ctx)) = Some h /\ opt_str h (str "role") = str "source" /\
     (opt_str h (str "edge_avformat") = str "all" \/ opt_str h (str "edge_avformat") = str "-") /\
     fmt_find ins (str "-") = Ok (Some f) /\ rw_taken e (cache_key (rtmp_req (rc_req ctx))) = false).
Proof.
  intros lib ul ins outs rt n0 sends evs e ctx out Hp Hpb. unfold rtmp_conn. rewrite Hp.
  destruct (find_host rt (rq_host (rc_req ctx))) as [h|].
  2: { split; [intros (o & ps & H & _); discriminate|intros (h & f & H & _); discriminate]. }
  split.
  - intros (o & ps & H & Hput). assert (Ho : o = rtmp_stream ins outs h ctx e) by congruence. subst o.
    unfold rtmp_stream in Hput. rewrite Hpb in Hput.
    destruct (publish_start ins h (rtmp_req (rc_req ctx)) (rw_taken e)) as [f|c| |] eqn:Es; try discriminate.
    apply http_publish_rule in Es. cbn [rtmp_req rq_ext] in Es. exists h, f. tauto.
  - intros (h' & f & Hh & H). injection Hh as <-.
    assert (Hs : publish_start ins h (rtmp_req (rc_req ctx)) (rw_taken e) = Ok f) by (apply http_publish_rule; exact H).
    unfold rtmp_stream. rewrite Hpb, Hs. destruct (rtmp_decode _ _) as [[ps x] s1]. exists (mkro (match x with DWait => None | DUB => Some UB | DEnd c => Some (Ok c) end) (Some ps) []), ps.
    split; reflexivity.
Qed.
Print Assumptions rtmp_publish_rule.
Definition exr_rt (h : cmod) : hrouter := mkrt [(str "h", h)] [] None.
Definition exr_pub := [ex_cmd 1; ex_cmd 2; ex_cmd 3].
Example rtmp_publish_rule_case : exists o out,
  rtmp_conn ex_amf hp_url [str "-"; str "flv"] [] (exr_rt (exs_host (str "source") (str "all"))) (Some 3073) [] exr_pub
    (mkrw (fun _ => false) (0, false) (map exr_ev exr_msgs) [] [] (fun _ => [])) = (RcStream o, out) /\ ro_put o = Some exs_up /\ ro_ret o = None.
Proof. do 2 eexists. split; [vm_compute; reflexivity|]. split; reflexivity. Qed.
(** Whoever names a host that is not configured is refused with an error after the connect
    phase, having heard nothing else; only then. *)
Theorem rtmp_unknown_host : forall lib ul ins outs rt n0 sends evs e ctx out,
  rtmp_prepare lib ul n0 sends evs = (POk ctx, out) ->
  (find_host rt (rq_host (rc_req ctx)) = None <-> exists c, rtmp_conn lib ul ins outs rt n0 sends evs e = (RcErr c, out) /\ c <> 0).
Proof.
  intros lib ul ins outs rt n0 sends evs e ctx out Hp. unfold rtmp_conn. rewrite Hp. destruct (find_host rt (rq_host (rc_req ctx))) as [h|].
  - split; [discriminate|]. intros (c & H & _). discriminate.
  - split; [|reflexivity]. intros _. eexists. split; [reflexivity|discriminate].
Qed.
Print Assumptions rtmp_unknown_host.
Example rtmp_unknown_host_case : exists ctx out, rtmp_prepare ex_amf hp_url (Some 3073) [] exr_pub = (POk ctx, out) /\ find_host (mkrt [] [] None) (rq_host (rc_req ctx)) = None.
Proof. do 2 eexists. split; [vm_compute; reflexivity|reflexivity]. Qed.
(** The client is told that it publishes before any of this is looked at: it
    hears "NetStream.Publish.Start" and is then refused. *)
Theorem rtmp_publish_start_means_published_refuted : exists rt e c out,
  let '(r, replies) := rtmp_conn ex_amf hp_url [str "-"; str "flv"] [] rt (Some 3073) [] exr_pub e in
  r = RcStream (mkro (Some (Ok c)) None []) /\ replies = out /\ In (RPublishStart 3) out /\ c = ERROR_STREAM_PUBLISH_NOT_SUPPORT.
Proof.
  exists (exr_rt (exs_host (str "edge") (str "all"))), (mkrw (fun _ => false) (0, false) [] [] [] (fun _ => [])), ERROR_STREAM_PUBLISH_NOT_SUPPORT.
  eexists. vm_compute. split; [reflexivity|]. split; [reflexivity|]. split; [|reflexivity]. intuition.
Qed.
Print Assumptions rtmp_publish_start_means_published_refuted.
