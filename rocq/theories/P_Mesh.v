(** Properties C230, C231: RTMP publishers in front of chains of servers. *)
From Verif Require Import Base M_Text M_IO S_IO M_Packet M_Flv S_Flv M_Rtmp S_Rtmp L_IO L_Flv L_Rtmp M_Cache S_Cache M_Live S_Live L_Live L_Live2 L_Live3 M_Conf M_Url P_Url M_Http S_Http L_Http3 S_Https M_Https
  M_Upload M_Stream S_Stream L_Stream P_Stream M_HttpConn S_HttpConn M_RtmpSess M_Host M_RtmpRelay S_RtmpRelay L_RtmpRelay P_RtmpRelay M_Edge S_Edge L_Edge P_Edge S_Mesh L_Mesh.

(** C230: an RTMP publisher streams to the first of any number of servers, each of
    which pulls the stream from the one before as HTTP-FLV.  An RTMP player of the
    last is sent the republished forms of the publisher's messages.  The messages
    are those of packets [qs] a player of the first server may get: a snapshot and
    what was published since, up to some point. *)
Theorem rtmp_cluster_rtmp_player : forall cap n sp evs pd x s1 ps ds ins outs h ctx e,
  15 <= cap < 2 ^ 24 -> Forall message_ok (messages evs) ->
  (forall m p, In m (messages evs) -> spec_rtmp_msg m = RPacket p -> substantial cap m) ->
  rtmp_decode sp evs = (pd, x, s1) -> initial ps pd -> cluster cap n ps ds ->
  rc_publishing ctx = false -> rw_taken e (cache_key (rtmp_req (rc_req ctx))) = true -> fmt_find outs (str "-") = Ok (Some (str "-")) ->
  rw_dumps e = ds -> ~ In [] ds -> rw_sends e = [] -> (forall n, 5 <= zlen (rw_heads e n)) ->
  exists sent us qs, rtmp_stream ins outs h ctx e = mkro None None sent /\
    (forall m, In m us -> In m (messages evs)) /\ Forall2 resent us sent /\
    Forall2 (fun m p => spec_rtmp_msg m = RPacket p) us qs /\ view ps qs.
Proof.
  intros cap n sp evs pd x s1 ps ds ins outs h ctx e Hc HF HS Hd Hi Hcl Hpb Htk Hfm Hdu Hnp Hsd Hhd.
  destruct (mesh cap n ps ds sp evs pd x s1 Hc HF HS Hd Hi Hcl) as (us & qs & Hv & Hin & H2 & Hq & _).
  destruct (rtmp_player_ends ins outs h ctx e Hpb Htk Hfm Hhd) as (ret & sent & A & B); [rewrite Hsd; constructor|].
  rewrite Hsd, Hdu, (until_full _ Hnp) in B. destruct B as [(-> & _ & ->)|[(_ & B & _)|(c & _ & _ & B & _)]]; [|contradiction|destruct B].
  exists (map rtmp_message (filter media (concat ds))), us, qs. split; [exact A|]. split; [exact Hin|]. rewrite Forall_forall in HF.
  assert (HU : Forall2 (fun m p => In m (messages evs) /\ spec_rtmp_msg m = RPacket p) us qs).
  { clear - H2 Hin. induction H2 as [|m p us ps Hs _ IH]; constructor; [split; [apply Hin; left; reflexivity|exact Hs]|]. apply IH. intros m' Hm'. apply Hin. right. exact Hm'. }
  split; [|split; [exact H2|exact Hv]].
  rewrite (untimed_messages _ _ Hq).
  - clear - HU HF. induction HU as [|m p us ps (Hi & Hs) _ IH]; [constructor|]. cbn [filter]. destruct (spec_resent m p (HF m Hi) Hs) as [-> Hr].
    cbn [map]. constructor; [exact Hr|exact IH].
  - clear - HU HF HS. induction HU as [|m p us ps (Hi & Hs) _ IH]; intros q Hp; [destruct Hp|]. destruct Hp as [<-|Hp]; [|exact (IH q Hp)].
    exact (proj2 (message_crosses cap m p (HF m Hi) (HS m p Hi Hs) Hs)).
Qed.
Print Assumptions rtmp_cluster_rtmp_player.
(** An HTTP player of the last server downloads, but for the size of the last tag,
    the FLV file of these messages: type (AMF3 data as AMF0), timestamp and body
    of each are exactly the publisher's, offsets included. *)
Theorem rtmp_cluster_http_player : forall cap n sp evs pd x s1 ps ds reason ins outs h r e sk,
  15 <= cap < 2 ^ 24 -> Forall message_ok (messages evs) ->
  (forall m p, In m (messages evs) -> spec_rtmp_msg m = RPacket p -> substantial cap m) ->
  rtmp_decode sp evs = (pd, x, s1) -> initial ps pd -> cluster cap n ps ds ->
  rq_method r <> str "POST" -> w_taken e (cache_key r) = true -> fmt_find outs (rq_ext r) = Ok (Some (str "flv")) -> w_dumps e = ds -> ~ In [] ds ->
  sk_room sk = None -> sk_err sk <> ERROR_STREAM_PUBLISH_NOT_SUPPORT -> sk_err sk <> ERROR_STREAM_SOURCE_NOT_EXITS -> S_Http.plain (reason 200) ->
  exists sk1 head file us qs last, http_stream reason ins outs h r e sk = (None, sk1) /\ sk_out sk1 = sk_out sk ++ head ++ file /\
    read_message (head ++ file) = Some (str "HTTP/1.1 200 " ++ reason 200, [(str "Server", str "sps")], file) /\
    file ++ be 4 last = flv_text (map as_tag us) /\
    (forall m, In m us -> In m (messages evs)) /\ Forall2 (fun m p => spec_rtmp_msg m = RPacket p) us qs /\ view ps qs.
Proof.
  intros cap n sp evs pd x s1 ps ds reason ins outs h r e sk Hc HF HS Hd Hi Hcl Hm Ht Hf Hdu Hne Hroom He1 He2 Hre.
  destruct (mesh cap n ps ds sp evs pd x s1 Hc HF HS Hd Hi Hcl) as (us & qs & Hv & Hin & H2 & Hq & HC).
  assert (HC' : Forall (crosses cap) (concat ds)) by (apply crosses_of_map; rewrite Hq; apply crosses_map; exact HC).
  destruct (http_player_ends reason ins outs h r e sk Hm Ht Hf) as (ret & sk1 & sent & A1 & A2 & A3); [|exact He1|exact He2|].
  { rewrite Hdu, (until_full _ Hne). eapply Forall_impl; [|exact HC']. intros p Hpp. eapply crosses_fits; [|exact Hpp]. lia. }
  rewrite Hdu, (until_full _ Hne) in A3. destruct A3 as [(-> & _ & ->)|[(_ & K & _)|(_ & K & _)]]; [|contradiction|congruence].
  assert (HL : flv_layout 0 (concat ds) = flv_layout 0 qs) by (rewrite <- untimed_layout, Hq, untimed_layout; reflexivity).
  rewrite Forall_forall in HF. destruct (layout_text us qs 0) as (lst & Hlast).
  { rewrite Forall_forall. intros m Hm'. apply HF, Hin, Hm'. }
  { exact H2. }
  assert (Hfil : filter flv_media (map as_tag us) = map as_tag us).
  { clear - H2 HF Hin. induction H2 as [|m p us ps Hs _ IH]; [reflexivity|]. cbn [map filter].
    destruct (spec_tag m p (HF m (Hin m (or_introl eq_refl))) Hs) as (_ & H & _). specialize (IH (fun m' Hm' => Hin m' (or_intror Hm'))).
    replace (flv_media (as_tag m)) with true; [f_equal; exact IH|]. symmetry. revert H. unfold flv_media, as_tag. cbn [rm_type rm_body].
    destruct (rm_type m =? 15) eqn:E; [|rewrite E; intros H; exact H]. intros H. apply andb_prop in H as [-> _]. reflexivity. }
  exists sk1, (response_head reason rsp200), (flv_default_header ++ flv_layout 0 (concat ds)), us, qs, lst.
  split; [exact A1|]. split; [exact A2|]. split; [exact (response_head_message reason rsp200 _ ltac:(cbn; lia) Hre (Forall_nil _))|].
  split. { rewrite HL, <- app_assoc, Hlast. unfold flv_text. rewrite Hfil. reflexivity. }
  split; [exact Hin|]. split; [exact H2|exact Hv].
Qed.
Print Assumptions rtmp_cluster_http_player.
(** The two servers of C158's example with an RTMP publisher; the edge's player has
    got the second key frame. *)
Example rtmp_cluster_case :
  Forall message_ok (messages (map exr_ev exr_msgs)) /\
  (forall m p, In m (messages (map exr_ev exr_msgs)) -> spec_rtmp_msg m = RPacket p -> substantial 64 m) /\
  (exists x s1, rtmp_decode (mkse hook_new [] []) (map exr_ev exr_msgs) = (exs_up, x, s1)) /\
  cluster 64 1 exs_up [[exs_k 4 120]] /\ ~ In [] [[exs_k 4 120]] /\
  (exists ctx out, exr_play 3073 = (POk ctx, out) /\ rc_publishing ctx = false /\
    rtmp_stream [] [str "-"; str "flv"] (CMod [] [] [] []) ctx (exr_world (fun _ => true) [[exs_k 4 120]] []) =
      mkro None None [mkrm 9 120 1 6 [0x17; 1; 0; 32; 8; 4]]) /\
  resent (mkrm 9 120 1 6 [0x17; 1; 0; 0; 40; 4]) (mkrm 9 120 1 6 [0x17; 1; 0; 32; 8; 4]).
Proof.
  split. { exact (proj1 rtmp_relay_case). }
  split. { intros m p Hm _. cbn in Hm. unfold substantial. repeat (destruct Hm as [<-|Hm]; [split; vm_compute; [reflexivity|discriminate]|]). destruct Hm. }
  split. { exact (proj1 (proj2 rtmp_relay_case)). }
  split. { exact (proj1 (proj2 cluster_case)). }
  split. { intros [H|[]]; discriminate. }
  split. { do 2 eexists. split; [vm_compute; reflexivity|]. split; vm_compute; reflexivity. }
  apply (rs_video _ _ 0x17 1 0 0 40 [4]); try reflexivity. discriminate.
Qed.

(** C231: a message with nothing behind its fields, as encoders send at the end of
    an H.264 sequence.  It is published and sent to RTMP and HTTP players; the next
    server's FLV reader refuses its tag, and its pull ends there: nothing published
    after it reaches the servers behind. *)
Theorem rtmp_bare_message_ends_pull : forall lib fmts decode q t o h wire n ri f fuel fill o1 ms1 m p ms2,
  nonempty_chunks (t_chunks t) -> is_head h -> zlen h <= MAX_HEADER -> t_stream t = h ++ wire -> lib h = (n, ri) -> 0 < n -> ri_status ri = 200 ->
  fmt_find fmts (rq_ext q) = Ok (Some f) -> decode f = flv_decode_prog fuel fill -> sk_write o (pull_text q) = (Ok tt, o1) -> 15 <= zlen fill < 2 ^ 24 ->
  Forall message_ok (ms1 ++ m :: ms2) ->
  (forall m1, In m1 ms1 -> spec_rtmp_msg m1 = RSkip \/ (substantial (zlen fill) m1 /\ exists p1, spec_rtmp_msg m1 = RPacket p1)) ->
  spec_rtmp_msg m = RPacket p -> zlen (rm_body m) = fields m ->
  answer_body (ri_chunked ri) (ri_cl ri) wire (flv_default_header ++ flv_layout 0 (publishes (ms1 ++ m :: ms2))) ->
  (length ms1 < fuel)%nat ->
  edge_http lib fmts decode q true t o = (Ok ERROR_FLV_TAG, Some (map untimed (publishes ms1)), o1).
Proof.
  intros lib fmts decode q t o h wire n ri f fuel fill o1 ms1 m p ms2 Hn Hh Hmh Hst Hl Hn0 Hri Hfi Hdec Hw Hfill Hok H1 Hs Hz Hb Hfu.
  destruct (publishes_split ms1 m p ms2) as (more & Hsp); [intros m1 Hm1; destruct (H1 m1 Hm1) as [E|(_ & E)]; auto|exact Hs|].
  assert (Hin : forall r, In r (publishes (ms1 ++ m :: ms2)) -> exists mm, message_ok mm /\ spec_rtmp_msg mm = RPacket r).
  { intros r Hr. destruct (spec_all_from _ _ _ Hr) as (mm & Hmm & Hsm). rewrite Forall_forall in Hok. eauto. }
  assert (HT : Forall (flv_transportable (zlen fill)) (map untimed (publishes ms1))).
  { apply crosses_map. rewrite Forall_forall in *. intros r Hr. destruct (spec_all_from _ _ _ Hr) as (mm & Hmm & Hsm).
    destruct (H1 mm Hmm) as [E|(Hsub & _)]; [congruence|]. refine (proj1 (message_crosses _ mm r (Hok mm _) Hsub Hsm)). apply in_or_app. left. exact Hmm. }
  set (s := flv_layout 0 (map untimed (publishes ms1) ++ p :: more)).
  assert (Es : flv_layout 0 (publishes (ms1 ++ m :: ms2)) = s).
  { unfold s. rewrite Hsp, <- (untimed_layout (publishes ms1 ++ p :: more)), <- (untimed_layout (map untimed (publishes ms1) ++ p :: more)), !map_app, map_map. do 2 f_equal.
    apply map_ext. intros r. unfold untimed at 2. destruct (untimed_kind r) as (E1 & _ & _ & _ & _ & E6).
    assert (E2 : is_video (untimed r) = is_video r) by (unfold untimed; destruct (_ || _); reflexivity). rewrite E1, E2, E6.
    unfold untimed. destruct (is_script r || (is_video r && flv_video_command (p_flags r))); reflexivity. }
  rewrite Es in Hb.
  assert (Hby : bytes s).
  { rewrite <- Es. assert (HB : Forall (fun r => bytes (p_data r)) (publishes (ms1 ++ m :: ms2))).
    { rewrite Forall_forall. intros r Hr. destruct (Hin r Hr) as (mm & (Hmb & _) & Hsm). exact (message_bytes mm r Hmb Hsm). }
    exact (layout_bytes_of _ HB 0). }
  assert (Hlen : (length (publishes ms1) <= length ms1)%nat) by apply publishes_length.
  assert (Hpl : fuel = S (length (map untimed (publishes ms1)) + (fuel - S (length (publishes ms1))))%nat) by (rewrite map_length; lia).
  destruct (edge_publishes_answer lib fmts decode q t o h wire n ri f fuel fill _ flv_default_header s o1 Hn Hh Hmh Hst Hl Hn0 Hri Hfi Hdec Hb eq_refl eq_refl eq_refl Hby ltac:(lia) Hw) as (y & E & Hend).
  assert (Hmo : message_ok m) by (rewrite Forall_forall in Hok; apply Hok, in_or_app; right; left; reflexivity).
  unfold s in E, Hend. rewrite Hpl in E, Hend. rewrite (bare_all (zlen fill) _ m p _ more ltac:(lia) Hmo Hs Hz HT) in E, Hend.
  cbn [fst snd flv_end_ok] in E, Hend. subst y. exact E.
Qed.
Print Assumptions rtmp_bare_message_ends_pull.
(** Metadata, a key frame, the end of the sequence, sound.  Four packets get to the
    first server's players; the edge's get two, the metadata without its
    presentation time (25 at the first server). *)
Definition exm_m1 := [mkrm 18 25 1 4 [2; 0; 0]; mkrm 9 40 1 6 [0x17; 1; 0; 0; 40; 1]].
Definition exm_end := mkrm 9 80 1 6 [0x17; 2; 0; 0; 0].
Definition exm_flv := flv_default_header ++ flv_layout 0 (publishes (exm_m1 ++ exm_end :: [exr_a 90 8])).
Example rtmp_bare_case :
  Forall message_ok (exm_m1 ++ exm_end :: [exr_a 90 8]) /\
  (forall m1, In m1 exm_m1 -> spec_rtmp_msg m1 = RSkip \/ (substantial 64 m1 /\ exists p1, spec_rtmp_msg m1 = RPacket p1)) /\
  zlen (rm_body exm_end) = fields exm_end /\ (exists p, spec_rtmp_msg exm_end = RPacket p) /\ length (publishes (exm_m1 ++ exm_end :: [exr_a 90 8])) = 4%nat /\
  is_head ex_plain /\ answer_body false (-1) exm_flv exm_flv /\ map p_pts (publishes exm_m1) = [25; 80] /\ map p_pts (map untimed (publishes exm_m1)) = [0; 80] /\
  edge_http ex_lib input_exts ex_dec ex_q true (mktr [ex_plain; take 30 exm_flv; drop 30 exm_flv] 1004) (mksk [] None 7) =
    (Ok ERROR_FLV_TAG, Some (map untimed (publishes exm_m1)), mksk (pull_text ex_q) None 7).
Proof.
  split. { repeat (constructor; [split; [apply bytesb_spec; vm_compute; reflexivity|split; vm_compute; [reflexivity|split; [discriminate|reflexivity]]]|]). constructor. }
  split. { intros m1 [<-|[<-|[]]]; right; (split; [split; vm_compute; [reflexivity|discriminate]|eexists; reflexivity]). }
  split; [reflexivity|]. split; [eexists; reflexivity|]. split; [reflexivity|].
  split. { exists [str "HTTP/1.1 200 OK"]. split; [discriminate|]. split; [|reflexivity]. constructor; [split; [discriminate|apply plain_lit; reflexivity]|constructor]. }
  split; [right; split; [reflexivity|split; [lia|reflexivity]]|]. split; [reflexivity|]. split; [reflexivity|]. vm_compute. reflexivity.
Qed.
