(** Properties C203-...: one protocol in, another out. *)
From Verif Require Import Base M_Text M_IO S_IO L_IO M_Packet M_Flv S_Flv L_Flv M_Http L_Http2 L_Http3 M_Conf L_Conf L_Host M_Url S_Url
  L_Url M_Host S_Host M_Cache S_Cache M_H264 M_AAC S_Codec M_Ts S_Ts M_Srt M_Live S_Live L_Live L_Live2 L_Live3 L_LiveSet M_Stream S_Stream L_Stream S_Http
  P_Stream L_Cache P_Codec S_Header L_Ts L_TsEx P_Ts S_Cross L_Cross.

(** ** C203: transport stream in, HTTP-FLV out *)
(** A publisher sends any bytes as transport stream packets; a player asks for
    the stream over HTTP as FLV.  If no AAC frame was empty, the player receives
    an FLV file that holds, whatever pieces it is read in, exactly the packets
    handed to it, as the format shows them. *)
Theorem ts_to_flv_player :
  forall shape os s post pre v a name i  (* the server's events *)
         mem ds ts o x                   (* the publisher *)
         reason ins outs h r e sk        (* the request *),
  keeps_order shape -> env_ok shape live0 os ->
  play_events shape live0 [] os = (s, post ++ (OPlay v a name, Done) :: pre) -> ~ In (OLeave v, Done) post ->
  owner name pre = Some (i, 0%nat) ->
  bytes mem -> Forall bytes ds -> ts_run mem ts_new ds = (ts, o, x) ->
  initial (puts i 0 (post ++ (OPlay v a name, Done) :: pre)) (s_queue ts) -> (forall p, In p (s_queue ts) -> p_data p <> []) ->
  rq_method r <> str "POST" -> cache_key r = name -> w_taken e = registered pre ->
  fmt_find outs (rq_ext r) = Ok (Some (str "flv")) ->
  w_dumps e = polls v post -> ~ In [] (polls v post) -> sk_room sk = None -> S_Http.plain (reason 200) ->
  exists sk1 file, http_stream reason ins outs h r e sk = (None, sk1) /\
    (exists head, sk_out sk1 = sk_out sk ++ head ++ file /\
       read_message (head ++ file) = Some (str "HTTP/1.1 200 " ++ reason 200, [(str "Server", str "sps")], file)) /\
    (forall fill t, 2 ^ 18 <= zlen fill < 2 ^ 24 -> nonempty_chunks (t_chunks t) -> t_stream t = file ->
       exists hp r2, flv_demux (S (length (given v post))) (br_new fill t) = (Ok hp, (map as_flv (given v post), Err (t_err t), r2))) /\
    initial (given v post) (gop_snapshot (puts i 0 pre) ++ puts i 0 post).
Proof.
  intros shape os s post pre v a name i mem ds ts o x reason ins outs h r e sk
    Hk Henv Hev Hlv Hown Hmem Hds Hrun Hup Hde Hm Hkey Htk Hfm Hdu Hnp Hroom Hre.
  destruct (viewer_stream _ _ _ _ _ _ _ _ Hk Henv Hev Hlv) as (i' & k & vx & Ho & _ & _ & Hgv).
  rewrite Hown in Ho. injection Ho as <- <-. cbn [snapshot] in Hgv.
  assert (Htr : Forall (fun p => ts_made p /\ p_data p <> []) (puts i 0 (post ++ (OPlay v a name, Done) :: pre))).
  { destruct (run_sane mem ds ts_new ts o x Hmem Hds new_ts_sane Hrun) as [_ HF].
    assert (HF2 : Forall (fun p => ts_made p /\ p_data p <> []) (s_queue ts)).
    { rewrite Forall_forall in HF |- *. auto. }
    destruct Hup as [z Hz]. rewrite <- Hz in HF2. apply Forall_app in HF2. tauto. }
  assert (Hg0 : Forall (fun p => ts_made p /\ p_data p <> []) (given v post)).
  { rewrite puts_app, puts_skip in Htr. apply Forall_app in Htr as [Hp1 Hp2].
    assert (HF : Forall (fun p => ts_made p /\ p_data p <> []) (given v post ++ v_queue vx)).
    { rewrite Hgv. apply Forall_app. split; [|exact Hp2]. rewrite Forall_forall in Hp1 |- *.
      intros p Hp. apply Hp1. apply gop_snapshot_in. exact Hp. }
    apply Forall_app in HF. tauto. }
  assert (Hg : Forall (fun p => flv_transportable (2 ^ 18) (as_flv p) /\ flv_tag p = flv_tag (as_flv p) /\ flv_fits p) (given v post)).
  { eapply Forall_impl; [|exact Hg0]. intros p [H1 H2]. apply made_as_flv; assumption. }
  assert (Hue : forall l : list (list pkt), ~ In [] l -> until_empty l = l).
  { induction l as [|d l IH]; intros Hn; [reflexivity|]. destruct d as [|p d]; [destruct Hn; left; reflexivity|].
    cbn [until_empty]. rewrite IH; [reflexivity|]. intros Hi. apply Hn. right. exact Hi. }
  pose proof (Hue _ Hnp) as Hu.
  destruct (encode_flv_any reason (polls v post) sk) as (ret & w & out & He & Hout & Hcases).
  { rewrite Hu, polls_given. eapply Forall_impl; [|exact Hg]. intros p Hp. apply Hp. }
  cbv zeta in Hcases. rewrite Hu, polls_given in Hcases.
  destruct Hcases as [(-> & _ & ->)|[(_ & Hc & _)|(_ & Hc & _)]]; [|congruence|congruence].
  assert (Hst : stream_request reason ins outs h r e (rsp200, sk) = (None, w)).
  { unfold stream_request. rewrite eqb_list_neq by exact Hm. unfold play_start.
    rewrite Htk, Hkey. unfold registered. rewrite Hown. cbn [negb andb orb]. change (0 =? 0) with true. cbn [negb orb].
    rewrite Hfm. cbn [bind]. rewrite Hdu. exact He. }
  exists (snd w), (flv_default_header ++ flv_layout 0 (given v post)).
  split; [unfold http_stream; rewrite Hst; reflexivity|]. split.
  { exists (response_head reason rsp200). split; [exact Hout|].
    rewrite response_head_message; [reflexivity|cbn; lia|exact Hre|constructor]. }
  split; [|exists (v_queue vx); exact Hgv].
  intros fill2 t2 Hf2 Hn2 Ht2.
  assert (Hlay : forall l n, Forall (fun p => flv_transportable (2 ^ 18) (as_flv p) /\ flv_tag p = flv_tag (as_flv p) /\ flv_fits p) l ->
    flv_layout n l = flv_layout n (map as_flv l)).
  { induction l as [|p l IH]; intros n HF; [reflexivity|]. inversion HF as [|? ? (_ & E & _) HF']; subst. cbn [map flv_layout].
    rewrite <- E. rewrite (IH _ HF'). reflexivity. }
  rewrite (Hlay _ _ Hg) in Ht2.
  assert (Hg2 : Forall (flv_transportable (2 ^ 18)) (map as_flv (given v post))).
  { rewrite Forall_map. eapply Forall_impl; [|exact Hg]. intros p Hp. apply Hp. }
  destruct (flv_write_all_ok (map as_flv (given v post)) flvmux0 flv_default_header) as [pv Hv].
  { eapply Forall_impl; [|exact Hg2]. intros p Hp. apply (transportable_fits (2 ^ 18)); [lia|exact Hp]. }
  rewrite (filter_all (flv_kept flvmux0)) in Hv by (intros q; unfold flv_kept; cbn [flvmux0 fm_fvideo fm_faudio fm_fmeta]; rewrite !andb_false_r; reflexivity).
  rewrite <- (map_length as_flv).
  refine (flv_roundtrip fill2 t2 (map as_flv (given v post)) _ _ Hn2 _ _ _ eq_refl Hv Ht2); [lia|].
  eapply Forall_impl; [|exact Hg2]. intros p Hp. eapply transportable_mono; [|exact Hp]. lia.
Qed.
Print Assumptions ts_to_flv_player.

(** A key picture with configuration and SEI, then two more pictures; a player
    joins after the first.  The units' declared lengths let the last slice carry
    eight bytes of what was in the buffer (C50). *)
Definition exx_unit (len : Z) : pesu := mkpu 0xe0 len 0x80 0x80 [0x21; 0; 1; 0; 1].
Definition exx_tp (cc : Z) (d : list Z) : tsp := ex_pk 256 1 cc (pes_head (exx_unit (8 + zlen d)) ++ d).
Definition exx_ds : list (list Z) := map ts_bytes
  [ex_pat; ex_pmt; exx_tp 0 ([0; 0; 1; 0x67; 1; 2; 3] ++ [0; 0; 1; 0x68; 9] ++ [0; 0; 1; 6; 5] ++ [0; 0; 1; 0x65; 12]);
   exx_tp 1 [0; 0; 1; 0x41; 9]; exx_tp 2 [0; 0; 1; 0x41; 10]].
Definition exx_c := video_pkt 0 0 0 0x17 (avc_config [0x67; 1; 2; 3] (Some [0x68; 9])).
Definition exx_s := video_pkt 1 0 0 0x57 [0; 0; 0; 2; 6; 5].
Definition exx_k := video_pkt 1 0 0 0x17 [0; 0; 0; 10; 0x65; 12; 0; 0; 0; 0; 0; 0; 0; 0].
Definition exx_p := video_pkt 1 0 0 0x27 [0; 0; 0; 10; 0x41; 9; 0; 0; 0; 0; 0; 0; 0; 0].
Definition exx_pre : hist :=
  [(OPut 0 0 exx_k, Done); (OPut 0 0 exx_s, Done); (OPut 0 0 exx_c, Done); (OPublish 0 exs_name, Done)].
Definition exx_post : hist := [(OPoll 0, Given [exx_p]); (OPut 0 0 exx_p, Done); (OPoll 0, Given [exx_c; exx_k])].
Example ts_to_flv_player_case :
  let os := [OPublish 0 exs_name; OPut 0 0 exx_c; OPut 0 0 exx_s; OPut 0 0 exx_k; OPlay 0 50 exs_name; OPoll 0; OPut 0 0 exx_p; OPoll 0] in
  let '(ts, _, x) := ts_run (repeat 0 200) ts_new exx_ds in
  env_ok exs_shape live0 os /\
  snd (play_events exs_shape live0 [] os) = exx_post ++ (OPlay 0 50 exs_name, Done) :: exx_pre /\
  owner exs_name exx_pre = Some (0%nat, 0%nat) /\ bytes (repeat 0 200) /\ Forall bytes exx_ds /\ x = Ok tt /\
  s_queue ts = [exx_c; exx_s; exx_k; exx_p] /\ puts 0 0 (exx_post ++ (OPlay 0 50 exs_name, Done) :: exx_pre) = s_queue ts /\
  (forall p, In p (s_queue ts) -> p_data p <> []) /\
  polls 0 exx_post = [[exx_c; exx_k]; [exx_p]] /\
  map as_flv (given 0 exx_post) = [exx_c; exx_k; exx_p] /\ as_flv exx_s = video_pkt 0 0 0 0x57 [0; 0; 0; 2; 6; 5].
Proof.
  intros os.
  assert (E : exists ts o, ts_run (repeat 0 200) ts_new exx_ds = (ts, o, Ok tt) /\ s_queue ts = [exx_c; exx_s; exx_k; exx_p]).
  { eexists _, _. split; vm_compute; reflexivity. }
  destruct E as (ts & o & E & Q). rewrite E.
  split. { apply (env_b_ok0 3). vm_compute. reflexivity. }
  split; [vm_compute; reflexivity|]. split; [reflexivity|]. split; [apply bytesb_spec; reflexivity|].
  split. { apply Forall_forall. intros d Hd. apply bytesb_spec. revert d Hd. apply forallb_forall. vm_compute. reflexivity. }
  split; [reflexivity|]. split; [exact Q|]. rewrite Q. split; [reflexivity|].
  split; [intros p [<-|[<-|[<-|[<-|[]]]]]; discriminate|]. split; [reflexivity|]. split; reflexivity.
Qed.

(** ** C204: an AAC frame without data ends the reading of the file *)
(** ADTS allows a frame that is a header only.  The parser makes a packet
    without data of it; the FLV muxer writes a tag for it; the project's own FLV
    reader refuses the tag, so that whatever follows is never read. *)
Theorem empty_aac_frame_ends_flv :
  forall ctx hdr cur fs1 f fs2 before after fill t fuel,
  av_tb ctx <> 0 -> hdr_rep hdr cur -> Forall frame_ok (fs1 ++ f :: fs2) -> bytes (flat_map adts_bytes (fs1 ++ f :: fs2)) ->
  zlen (flat_map adts_bytes (fs1 ++ f :: fs2)) < 2 ^ 60 -> 0 <= Z.quot (av_dts ctx) (av_tb ctx) < 2 ^ 32 ->
  Forall (fun g => fr_raw g <> []) fs1 -> fr_raw f = [] ->
  2 ^ 13 <= zlen fill < 2 ^ 24 -> Forall (flv_transportable (zlen fill)) before -> Forall (fun p => bytes (p_data p)) after ->
  exists ps hdr', aac_encode_avc ctx hdr (flat_map adts_bytes (fs1 ++ f :: fs2)) = (ps, hdr', Ok tt) /\
    (nonempty_chunks (t_chunks t) -> t_stream t = flv_default_header ++ flv_layout 0 (before ++ ps ++ after) ->
     exists ps1 ps2 hp r2, ps = ps1 ++ audio_pkt 1 (Z.quot (av_dts ctx) (av_tb ctx)) [] :: ps2 /\
       (length fs1 <= length ps1)%nat /\
       flv_demux (S (length (before ++ ps1) + fuel)) (br_new fill t) = (Ok hp, (before ++ ps1, Err ERROR_FLV_TAG, r2))).
Proof.
  intros ctx hdr cur fs1 f fs2 before after fill t fuel Htb Hrep HF Hb Hl Hts Hne He Hfill Hbef Haft.
  destruct (adts_split_exact ctx hdr cur _ Htb Hrep HF Hb Hl) as [hdr' E].
  destruct (aac_empty_at _ f fs2 fs1 Hts HF Hne He cur) as (ps1 & ps2 & E2 & L & F1 & F2).
  eexists _, hdr'. split; [exact E|]. intros Hn Ht. rewrite E2 in Ht |- *. exists ps1, ps2.
  replace (before ++ (ps1 ++ audio_pkt 1 (Z.quot (av_dts ctx) (av_tb ctx)) [] :: ps2) ++ after)
    with ((before ++ ps1) ++ audio_pkt 1 (Z.quot (av_dts ctx) (av_tb ctx)) [] :: (ps2 ++ after)) in Ht by (rewrite <- !app_assoc; reflexivity).
  destruct (flv_empty_audio fill t (before ++ ps1) (Z.quot (av_dts ctx) (av_tb ctx)) (ps2 ++ after) fuel) as (hp & r2 & D); try assumption; try lia.
  - apply Forall_app. split; [exact Hbef|]. eapply Forall_impl; [|exact F1]. intros p Hp. eapply transportable_mono; [|exact Hp]. lia.
  - apply Forall_app. split; assumption.
  - exists hp, r2. split; [reflexivity|]. split; [exact L|exact D].
Qed.
Print Assumptions empty_aac_frame_ends_flv.
(** Two frames, the second a header only: the packet after them is not read. *)
Definition exx_frame (raw : list Z) := mkframe 0 0 1 1 4 0 2 0 0 0 0 2047 0 [] raw.
Example empty_aac_frame_case :
  let ps := fst (fst (aac_encode_avc (mkav 9000 9000 90) None (flat_map adts_bytes [exx_frame [1; 2; 3]; exx_frame []; exx_frame [4]]))) in
  let file := flv_default_header ++ flv_layout 0 ps in
  Forall frame_ok [exx_frame [1; 2; 3]; exx_frame []; exx_frame [4]] /\
  ps = [audio_pkt 0 0 [18; 16]; audio_pkt 1 100 [1; 2; 3]; audio_pkt 1 100 []; audio_pkt 1 100 [4]] /\
  match flv_demux 10 (br_new (repeat 0 64) (mktr [file] (-5))) with
  | (Ok _, (qs, x, _)) => qs = [audio_pkt 0 0 [18; 16]; audio_pkt 1 100 [1; 2; 3]] /\ x = Err ERROR_FLV_TAG
  | _ => False
  end.
Proof.
  split; [|split; vm_compute; [reflexivity|split; reflexivity]].
  constructor; [|constructor; [|constructor; [|constructor]]]; (split; [split; [vm_compute; reflexivity|split; apply bytesb_spec; reflexivity]|reflexivity]).
Qed.

(** ** C205: a key picture in several slices *)
(** Every slice of a key picture is a packet of its own that counts as a key
    frame.  A newcomer who joins after such a picture is given nothing of it
    but its last key slice and what follows: earlier slices are missing. *)
Theorem newcomer_lacks_key_slices :
  forall h ctx l1 a l2,
  n_type a = 5 -> (exists b, In b l2 /\ n_type b = 5) ->
  forall p, In p (gop_snapshot (h ++ avc_packets ctx (l1 ++ a :: l2))) -> is_media p = true ->
  exists b, In b l2 /\ p_data p = be 4 (zlen (n_buf b)) ++ n_buf b.
Proof.
  intros h ctx l1 a l2 Ha (b & Hb & Tb) p Hp Hm. unfold gop_snapshot in Hp.
  assert (N : forall f x, maybe (last_such f x) = [] \/ exists q, maybe (last_such f x) = [q] /\ f q = true).
  { intros f x. destruct (last_such f x) as [q|] eqn:E; [|left; reflexivity]. right. exists q. split; [reflexivity|].
    apply (last_such_both _ _ _ E). }
  assert (K : In p (from_last_key (filter is_media (h ++ avc_packets ctx (l1 ++ a :: l2))))).
  { unfold is_media in Hm. apply negb_true_iff, orb_false_iff in Hm as [Hm M3]. apply orb_false_iff in Hm as [M1 M2].
    apply in_app_or in Hp as [Hp|Hp]; [|apply in_app_or in Hp as [Hp|Hp]; [|apply in_app_or in Hp as [Hp|Hp]; [|exact Hp]]];
      match type of Hp with In _ (maybe (last_such ?f ?x)) => destruct (N f x) as [E|(q & E & Fq)]; rewrite E in Hp; [destruct Hp|destruct Hp as [->|[]]; congruence] end. }
  clear Hp N. unfold avc_packets in K. rewrite flat_map_app in K. cbn [flat_map] in K. rewrite !app_assoc in K.
  rewrite filter_app, from_last_key_app in K.
  - apply from_last_key_in, filter_In in K as [K _]. apply in_flat_map in K as (n & Hn & Kn).
    exists n. split; [exact Hn|]. apply media_pkt_made in Kn. tauto.
  - apply existsb_exists. exists (video_pkt 1 (Z.quot (av_dts ctx) (av_tb ctx)) (Z.quot (av_pts ctx) (av_tb ctx)) 0x17 (be 4 (zlen (n_buf b)) ++ n_buf b)).
    split; [|reflexivity]. apply filter_In. split; [|reflexivity]. apply in_flat_map. exists b. split; [exact Hb|].
    unfold media_pkt. rewrite Tb. left. reflexivity.
Qed.
Print Assumptions newcomer_lacks_key_slices.
Definition exx_nal (b : list Z) : nal := nal_of b.
Example newcomer_lacks_key_slices_case :
  let ns := [exx_nal [0x67; 1; 2; 3]; exx_nal [0x68; 9]; exx_nal [0x65; 11]; exx_nal [0x65; 12]; exx_nal [0x41; 13]] in
  map p_data (gop_snapshot (avc_packets (mkav 9000 9000 90) ns)) =
    [avc_config [0x67; 1; 2; 3] (Some [0x68; 9]); [0; 0; 0; 2; 0x65; 12]; [0; 0; 0; 2; 0x41; 13]].
Proof. reflexivity. Qed.

(** ** C206: supplemental information hides the configuration one server on *)
(** A server that pulls the stream as FLV from this one gets the packets as the
    format shows them.  After a picture with supplemental information (SEI) it
    has no decoder configuration for its newcomers: what it gives them in that
    place is the SEI. *)
Theorem sei_hides_config_downstream :
  forall h ctx ns, Forall ts_made h -> (exists n, In n ns /\ n_type n = 6) ->
  forall p, In p (gop_snapshot (map as_flv (h ++ avc_packets ctx ns))) -> ~ tag_video_header p.
Proof.
  intros h ctx ns Hh (n & Hn & Tn) p Hp Ht.
  set (ms := map as_flv (flat_map (media_pkt ctx) ns)).
  assert (V : exists q, last_such is_video_seq (map as_flv (h ++ avc_packets ctx ns)) = Some q /\ In q ms /\ is_video_seq q = true).
  { unfold avc_packets. rewrite !map_app, app_assoc, last_such_app. fold ms.
    destruct (last_such_has is_video_seq ms) as (q & E & I & F); [|rewrite E; eauto].
    apply existsb_exists.
    exists (as_flv (video_pkt 1 (Z.quot (av_dts ctx) (av_tb ctx)) (Z.quot (av_pts ctx) (av_tb ctx)) 0x57 (be 4 (zlen (n_buf n)) ++ n_buf n))).
    split; [|reflexivity]. unfold ms. apply in_map, in_flat_map. exists n. split; [exact Hn|]. unfold media_pkt. rewrite Tn. left. reflexivity. }
  destruct V as (q & E & I & F).
  assert (B : forall x, In x (map as_flv (h ++ avc_packets ctx ns)) -> is_video_seq x = false -> ~ tag_video_header x).
  { intros x Hx Fx (T9 & T5 & T0). apply in_map_iff in Hx as (y & <- & Hy). apply in_app_or in Hy as [Hy|Hy].
    - rewrite Forall_forall in Hh. destruct (Hh _ Hy) as [d _ _ _|dts pts fl d _ _ Hfl _ _ _|d _ _ _|dts d _ _ _]; try discriminate.
      destruct Hfl as [->|[->| ->]]; discriminate.
    - unfold avc_packets in Hy. apply in_app_or in Hy as [Hy|Hy].
      + destruct (last_of is_sps ns); [|destruct Hy]. destruct Hy as [<-|[]]. discriminate.
      + apply in_flat_map in Hy as (m & Hm & Hy). unfold media_pkt in Hy.
        destruct (n_type m =? 5); [|destruct (n_type m =? 1); [|destruct (n_type m =? 6); [|destruct Hy]]]; destruct Hy as [<-|[]]; discriminate. }
  assert (S : forall f x y, last_such f x = Some y -> In y x /\ f y = true) by (intros f x y; apply last_such_both).
  unfold gop_snapshot in Hp. rewrite E in Hp.
  apply in_app_or in Hp as [Hp|Hp]; [|apply in_app_or in Hp as [Hp|Hp]; [|apply in_app_or in Hp as [Hp|Hp]]].
  - destruct (last_such is_script _) as [y|] eqn:Y; [|destruct Hp]. destruct Hp as [<-|[]]. destruct (S _ _ _ Y) as [Iy Fy].
    apply (B y Iy); [|exact Ht]. unfold is_script in Fy. unfold is_video_seq, is_video. apply Z.eqb_eq in Fy. rewrite Fy. reflexivity.
  - destruct (last_such is_audio_seq _) as [y|] eqn:Y; [|destruct Hp]. destruct Hp as [<-|[]]. destruct (S _ _ _ Y) as [Iy Fy].
    apply (B y Iy); [|exact Ht]. unfold is_audio_seq, is_audio in Fy. apply andb_prop in Fy as [Fy _]. unfold is_video_seq, is_video. apply Z.eqb_eq in Fy. rewrite Fy. reflexivity.
  - destruct Hp as [<-|[]]. unfold ms in I. apply in_map_iff in I as (y & <- & Hy). apply in_flat_map in Hy as (m & Hm & Hy). unfold media_pkt in Hy.
    destruct (n_type m =? 5); [|destruct (n_type m =? 1); [|destruct (n_type m =? 6); [|destruct Hy]]]; destruct Hy as [<-|[]]; try discriminate F.
    destruct Ht as (_ & T5 & _). apply T5. reflexivity.
  - apply from_last_key_in, filter_In in Hp as [Ip Mp]. apply (B p Ip); [|exact Ht].
    unfold is_media in Mp. apply negb_true_iff, orb_false_iff in Mp as [Mp _]. apply orb_false_iff in Mp as [_ Mp]. exact Mp.
Qed.
Print Assumptions sei_hides_config_downstream.
(** Configuration, SEI and a key slice: the first server's newcomers get the
    configuration, the second's do not. *)
Example sei_hides_config_case :
  let ns := [exx_nal [0x67; 1; 2; 3]; exx_nal [0x68; 9]; exx_nal [6; 5]; exx_nal [0x65; 12]] in
  let ps := avc_packets (mkav 9000 9000 90) ns in
  map p_data (gop_snapshot ps) = [avc_config [0x67; 1; 2; 3] (Some [0x68; 9]); [0; 0; 0; 2; 0x65; 12]] /\
  tag_video_header (nth 0 (gop_snapshot ps) (video_pkt 1 0 0 0 [])) /\
  map p_data (gop_snapshot (map as_flv ps)) = [[0; 0; 0; 2; 6; 5]; [0; 0; 0; 2; 0x65; 12]].
Proof. split; [reflexivity|]. split; [split; [reflexivity|split; [discriminate|reflexivity]]|reflexivity]. Qed.
