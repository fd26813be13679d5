(** Property C234: transport stream publishers in front of chains of servers. *)
From Verif Require Import Base M_Text M_IO S_IO L_IO M_Packet M_Flv S_Flv L_Flv M_Rtmp S_Rtmp L_Rtmp M_Url S_Url L_Url M_RtmpSess S_RtmpSess M_Conf M_Host M_Http S_Http L_Http3 S_Https M_Https
  M_Cache S_Cache L_Cache M_H264 M_AAC S_Codec M_Ts S_Ts L_Ts L_TsEx P_Ts M_Live S_Live L_Live L_Live2 L_Live3 M_Upload M_Stream S_Stream L_Stream P_Stream M_HttpConn S_HttpConn
  M_RtmpRelay S_RtmpRelay L_RtmpRelay P_RtmpRelay M_Edge S_Edge L_Edge P_Edge S_Cross L_Cross P_Cross S_CrossR L_CrossR L_MeshT.

(** C234: a publisher sends any bytes as transport stream packets to the first of two or
    more servers, each of which pulls the stream from the one before as HTTP-FLV.  An
    HTTP player of the last downloads an FLV file of packets that a player of the stream
    [map as_flv qs] may get, where [qs] is what a player of the first server may get: the
    first hop shows the packets as FLV does, no further one changes anything. *)
Theorem ts_cluster_http_player : forall cap n mem tp ts o x ps ds reason ins outs h r e sk,
  2 ^ 18 <= cap < 2 ^ 24 -> bytes mem -> Forall bytes tp -> ts_run mem ts_new tp = (ts, o, x) ->
  initial ps (s_queue ts) -> (forall p, In p ps -> p_data p <> []) -> cluster cap (S n) ps ds ->
  rq_method r <> str "POST" -> w_taken e (cache_key r) = true -> fmt_find outs (rq_ext r) = Ok (Some (str "flv")) -> w_dumps e = ds -> ~ In [] ds ->
  sk_room sk = None -> sk_err sk <> ERROR_STREAM_PUBLISH_NOT_SUPPORT -> sk_err sk <> ERROR_STREAM_SOURCE_NOT_EXITS -> S_Http.plain (reason 200) ->
  exists sk1 head file qs, http_stream reason ins outs h r e sk = (None, sk1) /\ sk_out sk1 = sk_out sk ++ head ++ file /\
    read_message (head ++ file) = Some (str "HTTP/1.1 200 " ++ reason 200, [(str "Server", str "sps")], file) /\
    (forall fill t, cap <= zlen fill < 2 ^ 24 -> nonempty_chunks (t_chunks t) -> t_stream t = file ->
       exists hp r1, flv_demux (S (length (concat ds))) (br_new fill t) = (Ok hp, (concat ds, Err (t_err t), r1))) /\
    view ps qs /\ view (map as_flv qs) (concat ds).
Proof.
  intros cap n mem tp ts o x ps ds reason ins outs h r e sk Hc Hmem Hds Hrun Hup Hde Hcl Hm Ht Hf Hd Hne Hroom He1 He2 Hre.
  assert (HF : Forall (shows cap) ps).
  { destruct (run_sane mem tp ts_new ts o x Hmem Hds new_ts_sane Hrun) as [_ HF]. pose proof (initial_forall _ _ _ Hup HF) as HF2.
    rewrite Forall_forall in HF2 |- *. intros p Hp. apply made_shows; [lia|apply HF2; exact Hp|apply Hde; exact Hp]. }
  destruct (cluster_shown cap n ps ds ltac:(lia) HF Hcl) as (qs & V & W & HT).
  assert (Hu : until_empty ds = ds).
  { clear -Hne. induction ds as [|[|p d] l IH]; [reflexivity|destruct Hne; left; reflexivity|]. cbn [until_empty]. rewrite IH; [reflexivity|]. intros Hi. apply Hne. right. exact Hi. }
  destruct (http_player_ends reason ins outs h r e sk Hm Ht Hf) as (ret & sk1 & sent & A1 & A2 & A3); [|exact He1|exact He2|].
  { rewrite Hd, Hu. eapply Forall_impl; [|exact HT]. intros p Hpp. eapply transportable_fits; [|exact Hpp]. lia. }
  rewrite Hd, Hu in A3. destruct A3 as [(-> & _ & ->)|[(_ & K & _)|(_ & K & _)]]; [|contradiction|congruence].
  exists sk1, (response_head reason rsp200), (flv_default_header ++ flv_layout 0 (concat ds)), qs. split; [exact A1|]. split; [exact A2|]. split.
  { exact (response_head_message reason rsp200 _ ltac:(cbn; lia) Hre (Forall_nil _)). }
  split; [|split; [exact V|exact W]]. intros fill t Hfl Hnt Hst.
  assert (HF2 : Forall (flv_transportable (zlen fill)) (concat ds)) by (eapply Forall_impl; [|exact HT]; intros p Hp; eapply transportable_mono; [|exact Hp]; lia).
  destruct (flv_demux_stream fill t flv_default_header (flv_layout 0 (concat ds)) (S (length (concat ds))) ltac:(lia) ltac:(lia) Hnt Hst eq_refl eq_refl (flv_layout_bytes _ _ HT 0)) as (hp & y & r1 & B1 & _ & B2).
  rewrite (spec_flv_all_layout (zlen fill) (t_err t) (concat ds) ltac:(lia) HF2 0) in B1, B2. cbn [fst snd flv_end_ok] in B1, B2. subst y. eauto.
Qed.
Print Assumptions ts_cluster_http_player.

(** An RTMP player of the last server is sent one message for every such packet. *)
Theorem ts_cluster_rtmp_player : forall cap n mem tp ts o x ps ds ins outs h ctx e,
  2 ^ 18 <= cap < 2 ^ 24 -> bytes mem -> Forall bytes tp -> ts_run mem ts_new tp = (ts, o, x) ->
  initial ps (s_queue ts) -> (forall p, In p ps -> p_data p <> []) -> cluster cap (S n) ps ds ->
  rc_publishing ctx = false -> rw_taken e (cache_key (rtmp_req (rc_req ctx))) = true -> fmt_find outs (str "-") = Ok (Some (str "-")) ->
  rw_dumps e = ds -> ~ In [] ds -> rw_sends e = [] -> (forall n, 5 <= zlen (rw_heads e n)) ->
  exists sent qs, rtmp_stream ins outs h ctx e = mkro None None sent /\ Forall2 on_rtmp (concat ds) sent /\
    (forall c, rtmp_read_all (S (length sent)) sent c = (map as_rtmp (concat ds), Err c)) /\
    view ps qs /\ view (map as_flv qs) (concat ds).
Proof.
  intros cap n mem tp ts o x ps ds ins outs h ctx e Hc Hmem Hds Hrun Hup Hde Hcl Hpb Htk Hfm Hdu Hne Hsd Hhd.
  assert (HF : Forall (shows cap) ps).
  { destruct (run_sane mem tp ts_new ts o x Hmem Hds new_ts_sane Hrun) as [_ HF]. pose proof (initial_forall _ _ _ Hup HF) as HF2.
    rewrite Forall_forall in HF2 |- *. intros p Hp. apply made_shows; [lia|apply HF2; exact Hp|apply Hde; exact Hp]. }
  destruct (cluster_shown cap n ps ds ltac:(lia) HF Hcl) as (qs & V & W & HT).
  assert (Hu : until_empty ds = ds).
  { clear -Hne. induction ds as [|[|p d] l IH]; [reflexivity|destruct Hne; left; reflexivity|]. cbn [until_empty]. rewrite IH; [reflexivity|]. intros Hi. apply Hne. right. exact Hi. }
  assert (HK : Forall rtmp_taken (concat ds)) by (eapply Forall_impl; [|exact HT]; intros p Hp; apply (flv_taken cap); [lia|exact Hp]).
  destruct (rtmp_player_ends ins outs h ctx e Hpb Htk Hfm Hhd) as (ret & sent & A & B); [rewrite Hsd; constructor|].
  rewrite Hsd, Hdu, Hu in B. destruct B as [(-> & _ & ->)|[(_ & B & _)|(c & _ & _ & B & _)]]; [|contradiction|destruct B].
  assert (H2 : Forall2 on_rtmp (concat ds) (map rtmp_message (filter media (concat ds)))).
  { clear -HK. induction HK as [|p l Hp _ IH]; [constructor|]. cbn [filter]. rewrite fit_media by apply Hp. cbn [map]. constructor; [apply message_on, Hp|exact IH]. }
  exists (map rtmp_message (filter media (concat ds))), qs. split; [exact A|]. split; [exact H2|]. split; [|split; [exact V|exact W]].
  intros c. apply taken_read_all; assumption.
Qed.
Print Assumptions ts_cluster_rtmp_player.

(** Two servers.  The edge comes when only the configuration has been put; the unit
    the parser announced with composition time 1 is shown without one behind it. *)
Definition exmt_q : list pkt := [exx_c; exx_s; exx_k; exx_p].
Definition exmt_os1 : list op := [OPublish 0 exs_name; OPut 0 0 exx_c; OPlay 0 50 exs_name; OPoll 0; OPut 0 0 exx_s; OPut 0 0 exx_k; OPut 0 0 exx_p; OPoll 0].
Definition exmt_pre1 : hist := [(OPut 0 0 exx_c, Done); (OPublish 0 exs_name, Done)].
Definition exmt_post1 : hist := [(OPoll 0, Given [exx_s; exx_k; exx_p]); (OPut 0 0 exx_p, Done); (OPut 0 0 exx_k, Done); (OPut 0 0 exx_s, Done); (OPoll 0, Given [exx_c])].
Definition exmt_os2 : list op :=
  [OPublish 0 (str "cdn/live/x"); OPut 0 0 (as_flv exx_c); OPlay 0 50 (str "cdn/live/x"); OPoll 0; OPut 0 0 (as_flv exx_s); OPut 0 0 (as_flv exx_k); OPoll 0; OPut 0 0 (as_flv exx_p)].
Definition exmt_pre2 : hist := [(OPut 0 0 (as_flv exx_c), Done); (OPublish 0 (str "cdn/live/x"), Done)].
Definition exmt_post2 : hist :=
  [(OPut 0 0 (as_flv exx_p), Done); (OPoll 0, Given [as_flv exx_s; as_flv exx_k]); (OPut 0 0 (as_flv exx_k), Done); (OPut 0 0 (as_flv exx_s), Done); (OPoll 0, Given [as_flv exx_c])].
Definition exmt_ds : list (list pkt) := [[as_flv exx_c]; [as_flv exx_s; as_flv exx_k]].
Definition exmt_wire : list Z := str "HTTP/1.1 200 OK" ++ [13; 10] ++ str "Server: sps" ++ [13; 10; 13; 10] ++ flv_default_header ++ flv_layout 0 exmt_q.
Definition exmt_fill : list Z := repeat 0 (Z.to_nat (2 ^ 18)).
Example ts_cluster_case :
  (exists ts o, ts_run (repeat 0 200) ts_new exx_ds = (ts, o, Ok tt) /\ s_queue ts = exmt_q) /\
  (forall p, In p exmt_q -> p_data p <> []) /\ cluster (2 ^ 18) 1 exmt_q exmt_ds /\ ~ In [] exmt_ds /\
  view exmt_q [exx_c; exx_s; exx_k] /\ concat exmt_ds = map as_flv [exx_c; exx_s; exx_k] /\ as_flv exx_s <> exx_s.
Proof.
  split. { eexists _, _. split; vm_compute; reflexivity. }
  split; [intros p [<-|[<-|[<-|[<-|[]]]]]; discriminate|].
  assert (Hk : keeps_order exs_shape) by (intros n l; induction l as [|c l IH]; [reflexivity|]; cbn; f_equal; exact IH).
  split.
  2: { split; [intros [H|[H|[]]]; discriminate|]. split; [exists [exx_c], [exx_s; exx_k; exx_p]; split; [reflexivity|]; exists [exx_p]; vm_compute; reflexivity|].
       split; [reflexivity|discriminate]. }
  assert (S1 : served exmt_q [[exx_c]; [exx_s; exx_k; exx_p]]).
  { exists exs_shape, exmt_os1, (fst (play_events exs_shape live0 [] exmt_os1)), exmt_post1, exmt_pre1, 0%nat, 50, exs_name, 0%nat.
    split; [exact Hk|]. split; [apply (env_b_ok0 3); vm_compute; reflexivity|].
    split; [rewrite (surjective_pairing (play_events exs_shape live0 [] exmt_os1)) at 1; f_equal; vm_compute; reflexivity|].
    split; [cbn; intuition discriminate|]. repeat split; vm_compute; reflexivity. }
  refine (cl_hop (2 ^ 18) 0 _ _ (map as_flv exmt_q) _ (cl_one _ _ _ S1) _ _).
  - exists (fun _ => str "OK"), [], output_exts, (CMod [] [] [] []), exs_req, (mkw (fun _ => true) (0, false) [[exx_c]; [exx_s; exx_k; exx_p]] None), (mksk [] None (-5)).
    exists None, (mksk exmt_wire None (-5)), exmt_wire, ex2_lib, input_exts, (str "flv"), (fun _ => flv_decode_prog 9 exmt_fill), 9%nat, exmt_fill, ex_q, (mktr [take 5 exmt_wire; drop 5 exmt_wire] 1004), (mksk [] None 7).
    exists (Ok 1004), (map as_flv exmt_q), (mksk (pull_text ex_q) None 7).
    split; [discriminate|]. split; [reflexivity|]. split; [reflexivity|]. split; [reflexivity|]. split; [discriminate|]. split; [discriminate|]. split; [apply plain_lit; reflexivity|]. split; [reflexivity|].
    split; [vm_compute; reflexivity|]. split; [reflexivity|]. split; [repeat (constructor; [discriminate|]); constructor|]. split; [exists []; vm_compute; reflexivity|].
    split. { intros ds status re fs H D _ _.
      assert (R : read_message (response_head (fun _ : Z => str "OK") rsp200) = Some (str "HTTP/1.1 200 OK", [(str "Server", str "sps")], [])) by (vm_compute; reflexivity).
      rewrite R in H. assert (H1 : str "HTTP/1.1 200 OK" = str "HTTP/1.1 " ++ ds ++ str " " ++ re) by congruence. assert (H2 : fs = [(str "Server", str "sps")]) by congruence. subst fs.
      rewrite (status_200 _ _ _ H1 D). exists 32. split; [lia|]. vm_compute. reflexivity. }
    split; [reflexivity|]. split; [reflexivity|].
    split. { unfold exmt_fill, zlen. rewrite repeat_length. apply Z2Nat.id. lia. }
    split; [vm_compute; reflexivity|]. exists []. apply app_nil_r.
  - exists exs_shape, exmt_os2, (fst (play_events exs_shape live0 [] exmt_os2)), exmt_post2, exmt_pre2, 0%nat, 50, (str "cdn/live/x"), 0%nat.
    split; [exact Hk|]. split; [apply (env_b_ok0 3); vm_compute; reflexivity|].
    split; [rewrite (surjective_pairing (play_events exs_shape live0 [] exmt_os2)) at 1; f_equal; vm_compute; reflexivity|].
    split; [cbn; intuition discriminate|]. repeat split; vm_compute; reflexivity.
Qed.
