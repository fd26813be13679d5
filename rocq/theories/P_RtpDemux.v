(** Properties of RTP sessions. *)
From Verif Require Import Base M_Bits M_Fields M_Packet M_Cache M_H264 M_AAC M_Ts M_Rtp M_RtpDemux
  S_Bits S_Fields S_Codec S_Ts S_Rtp S_RtpDemux L_Bits L_Pack L_Align L_IO L_Rtp L_Rtp2 L_RtpDemux L_Ts L_TsEx P_Rtp.

(** C116: an H.264 session, with RTCP reports anywhere in between, delivers the
    packets of the fragmented units one unit after the other, then the error of
    the socket. *)
Theorem rtp_h264_session_exact :
  forall mem gs outs ds e fuel, 1 <= zlen mem < 2 ^ 32 ->
    Forall event_ok (concat gs) -> Forall2 (unit_group (zlen mem)) gs outs ->
    Forall fine ds -> filter media ds = map dgram (concat gs) -> (length (flat_map fst (concat outs)) < fuel)%nat ->
    rtp_read_all fuel mem (mkrd (fst (rtp_init_codec DNone 7)) []) ds e = (flat_map fst (concat outs), Err e).
Proof.
  intros mem gs outs ds e fuel Hm He Hg Hf Ed Hn.
  assert (F : flow (dec_run mem (DH264 None) ds) e = (flat_map fst (concat outs), Err e)).
  { rewrite flow_media, run_h264 by (assumption || apply filter_media). rewrite Ed.
    destruct (run_ok mem (concat gs) None None I Hm He) as (st' & E & Hs). rewrite (groups_run _ _ _ Hg) in E. rewrite E. cbn [snd].
    apply (group_flow (zlen mem) gs), Hg. }
  change (fst (rtp_init_codec DNone 7)) with (DH264 None).
  rewrite read_all_flow; rewrite ?F; [reflexivity|apply fine_sized; assumption|cbn [fst length]; lia].
Qed.
Print Assumptions rtp_h264_session_exact.
(** C116: an AAC session delivers every access unit, although choosing the codec
    is reported as a failure. *)
Theorem rtp_aac_session_exact :
  forall mem us ds e fuel,
    Forall (fun u : Z * rtp_packet * list (Z * list Z) => pk_media (snd (fst u)) /\ Forall au_ok (snd u) /\ zlen (snd u) < 2 ^ 12 /\
      bytes (au_payload (snd u))) us ->
    Forall fine ds -> filter media ds = map (fun u => (fst (fst u), rtp_bytes (snd (fst u)) (au_payload (snd u)))) us ->
    let out := flat_map (fun u => map (fun a => audio_pkt 1 (pk_ts (snd (fst u)) / 90) (snd a)) (snd u)) us in
    (length out < fuel)%nat ->
    rtp_read_all fuel mem (mkrd (fst (rtp_init_codec DNone 10)) []) ds e = (out, Err e) /\
    snd (rtp_init_codec DNone 10) = ERROR_RTP_PROBE.
Proof.
  intros mem us ds e fuel Hu Hf Ed out Hn. split; [|reflexivity].
  assert (F : flow (dec_run mem DAac ds) e = (out, Err e)).
  { rewrite flow_media, run_aac by (assumption || apply filter_media).
    assert (S : Forall sized (filter media ds)).
    { apply Forall_forall. intros d Hd. apply filter_In in Hd as [Hd _]. rewrite Forall_forall in Hf. apply (Hf d Hd). }
    rewrite Ed in *. rewrite map_map. cbn [snd].
    subst out. clear Ed Hn. induction Hu as [|[[now k] aus] us (H1 & H2 & H3 & H4) _ IH]; [reflexivity|].
    cbn [map] in S. inversion S as [|? ? S1 S2]; subst. cbn [fst snd] in *. cbn [map fst snd flow flat_map].
    assert (E := aac_units_exact k aus [] H1 H2 H3). rewrite app_nil_r in E.
    rewrite E; [|exact H4|unfold sized in S1; cbn [snd] in S1; lia]. rewrite IH by exact S2. reflexivity. }
  change (fst (rtp_init_codec DNone 10)) with DAac.
  rewrite read_all_flow; rewrite ?F; [reflexivity|apply fine_sized; assumption|cbn [fst length]; lia].
Qed.
Print Assumptions rtp_aac_session_exact.
(** C116: whatever the decoder, reports change nothing. *)
Theorem rtp_reports_invisible :
  forall mem d ds e, Forall fine ds -> exists out, forall fuel, (length (fst out) < fuel)%nat ->
    rtp_read_all fuel mem (mkrd d []) ds e = out /\ rtp_read_all fuel mem (mkrd d []) (filter media ds) e = out.
Proof.
  intros mem d ds e Hf. exists (flow (dec_run mem d ds) e). intros fuel Hn. split.
  - rewrite read_all_flow; [destruct (flow _ e); reflexivity|apply fine_sized, Hf|exact Hn].
  - rewrite flow_media in Hn |- * by assumption.
    rewrite read_all_flow; [destruct (flow _ e); reflexivity| |exact Hn].
    apply Forall_forall. intros x Hx. apply filter_In in Hx as [Hx _]. rewrite Forall_forall in Hf. apply (Hf x Hx).
Qed.
Print Assumptions rtp_reports_invisible.
(** A sender report without blocks, a goodbye. *)
Definition rd_sr : list Z := [0x80; 200; 0; 6] ++ repeat 5 24.
Definition rd_bye : list Z := [0x81; 203; 0; 2] ++ repeat 9 8.
Definition rd_ev (mark seq : Z) (pl : list Z) : event := (7, mkpk 2 0 mark 96 seq 900 5 [] None, pl).
Definition rd_group : list event := [rd_ev 0 1 [0x7c; 0x85; 1; 2]; rd_ev 0 2 [0x7c; 0x05; 3]; rd_ev 1 3 [0x7c; 0x45; 4; 5; 6]].
Definition rd_ds : list (Z * list Z) :=
  [(1, rd_sr); dgram (rd_ev 0 1 [0x7c; 0x85; 1; 2]); dgram (rd_ev 0 2 [0x7c; 0x05; 3]); (7, rd_sr);
   dgram (rd_ev 1 3 [0x7c; 0x45; 4; 5; 6]); (9, rd_bye)].
Example rtp_session_case :
  exists p, p_data p = [0; 0; 0; 7; 0x65; 1; 2; 3; 4; 5; 6] /\ Forall fine rd_ds /\
    filter media rd_ds = map dgram (concat [rd_group]) /\
    Forall2 (unit_group 64) [rd_group] [[([], Ok tt); ([], Ok tt); ([p], Ok tt)]] /\
    rtp_read_all 3 (repeat 0 64) (mkrd (fst (rtp_init_codec DNone 7)) []) rd_ds ERROR_SOCKET_TIMEOUT = ([p], Err ERROR_SOCKET_TIMEOUT).
Proof.
  eexists. split; [|split; [|split; [vm_compute; reflexivity|split; [|vm_compute; reflexivity]]]].
  - reflexivity.
  - unfold rd_ds. repeat constructor; try (vm_compute; discriminate); try (intros H; vm_compute in H; discriminate H);
      try (apply bytesb_spec; reflexivity); try (intros S; vm_compute in S; intuition discriminate); try (intros H; vm_compute in H |- *; discriminate).
  - constructor; [|constructor]. exists 0x65, [[1; 2]; [3]; [4; 5; 6]], (firstn 2 rd_group). eexists _, _, _, [_].
    split; [lia|]. split; [discriminate|]. split; [reflexivity|]. split; [reflexivity|]. split; [vm_compute; discriminate|].
    split; vm_compute; reflexivity.
Qed.
Example rtp_aac_case :
  Forall fine [(0, rtp_bytes rtp_ex_k (au_payload rtp_ex_aus)); (1, rd_bye)] /\
  rtp_read_all 9 [] (mkrd (fst (rtp_init_codec DNone 10)) []) [(0, rtp_bytes rtp_ex_k (au_payload rtp_ex_aus)); (1, rd_bye)] ERROR_SOCKET_TIMEOUT =
    (map (fun a => audio_pkt 1 1000 (snd a)) rtp_ex_aus, Err ERROR_SOCKET_TIMEOUT).
Proof.
  split; [|vm_compute; reflexivity].
  repeat constructor; try (vm_compute; discriminate); try (intros H; vm_compute in H; discriminate H);
      try (apply bytesb_spec; reflexivity); try (intros S; vm_compute in S; intuition discriminate); try (intros H; vm_compute in H |- *; discriminate).
Qed.
(** C116: a source description with chunks in the session is undefined. *)
Theorem rtp_sdes_undefined :
  forall mem d now l ds e fuel, bytes l -> sized (now, l) -> is_sdes l ->
    rtp_read_all (S fuel) mem (mkrd d []) ((now, l) :: ds) e = ([], UB).
Proof.
  intros mem d now l ds e fuel Hb Hs Hd. cbn [rtp_read_all]. unfold sized in Hs. cbn [snd] in Hs.
  cbn [rtp_read rd_pkts]. destruct (Z.eqb_spec (zlen l) 0); [lia|]. cbn [app zlen length]. change (RTP_MAX_LENGTH - zlen (@nil Z)) with 3000.
  rewrite take_all by lia. destruct (Z.ltb_spec (zlen l) 12); [lia|]. unfold rtp_datagram, is_rtcp.
  assert (Hd' := Hd). unfold is_sdes in Hd'. replace (nth 1 l 0) with 202 by lia. cbn [Z.leb andb Z.compare Pos.compare Pos.compare_cont].
  destruct (rtcp_head_any l Hb ltac:(lia)) as (v & p & len & c & Ha & E).
  replace (rtcp_decode l) with (@UB rtcp_msg); [reflexivity|]. rewrite E. cbv zeta.
  replace (nth 1 l 0) with 202 by lia. cbn [Z.eqb Pos.eqb]. unfold sdes_decode. cbn [rc_cflag]. pose proof (Z.mod_pos_bound (nth 0 l 0) 32 ltac:(lia)); destruct (Z.ltb_spec 0 (nth 0 l 0 mod 32)); [reflexivity|lia].
Qed.
Print Assumptions rtp_sdes_undefined.
Example rtp_sdes_case : let l := [0x81; 202; 0; 3; 0; 0; 0; 1; 1; 2; 97; 98; 0; 0; 0; 0] in
  bytes l /\ sized (0, l) /\ is_sdes l.
Proof. split; [apply bytesb_spec; reflexivity|]. split; [vm_compute; split; discriminate|vm_compute]. intuition discriminate. Qed.

(** * MPEG-TS over RTP (C117) *)

(** The session is the transport stream: nothing lost, doubled or reordered,
    wherever the datagram borders lie. *)
Theorem rtp_ts_session_exact :
  forall mem tds ds s' o e fuel, Forall td_ok tds ->
    match tds with [] => True | t :: _ => pk_mark (td_head t) = 0 end ->
    Forall fine ds -> filter media ds = map td_dgram tds ->
    ts_run mem ts_new (concat (map td_pkts tds)) = (s', o, Ok tt) -> (length (s_queue s') < fuel)%nat ->
    rtp_read_all fuel mem (mkrd DNone []) ds e = (s_queue s', Err e).
Proof.
  intros mem tds ds s' o e fuel Ht Hm Hf Ed Er Hn.
  assert (F : flow (dec_run mem DNone ds) e = (s_queue s', Err e)).
  { rewrite flow_media by assumption. rewrite Ed. destruct tds as [|t tds].
    - cbn in Er |- *. injection Er as <- _. reflexivity.
    - cbn [map]. rewrite dec_run_first_ts by (inversion Ht; assumption).
      pose proof (flow_ts mem e (t :: tds) ts_new s' o Ht eq_refl Er []) as G. rewrite app_nil_r in G. cbn [map] in G. rewrite G.
      cbn [dec_run flow fst snd]. rewrite app_nil_r. reflexivity. }
  rewrite read_all_flow; rewrite ?F; [reflexivity|apply fine_sized; assumption|cbn [fst length]; lia].
Qed.
Print Assumptions rtp_ts_session_exact.
(** The first datagram with a bad transport packet ends the session with that
    error: the packets completed earlier in the same datagram are lost. *)
Theorem rtp_ts_session_stops :
  forall mem tds t more ds s1 o1 s2 o2 c e fuel, Forall td_ok (tds ++ [t]) ->
    match tds ++ [t] with [] => True | t0 :: _ => pk_mark (td_head t0) = 0 end ->
    Forall fine ds -> filter media ds = map td_dgram (tds ++ [t]) ++ more ->
    ts_run mem ts_new (concat (map td_pkts tds)) = (s1, o1, Ok tt) ->
    ts_run mem s1 (td_pkts t) = (s2, o2, Err c) -> (length (s_queue s1) < fuel)%nat ->
    rtp_read_all fuel mem (mkrd DNone []) ds e = (s_queue s1, Err c).
Proof.
  intros mem tds t more ds s1 o1 s2 o2 c e fuel Ht Hm Hf Ed E1 E2 Hn.
  assert (F : flow (dec_run mem DNone ds) e = (s_queue s1, Err c)).
  { rewrite flow_media by assumption. rewrite Ed.
    assert (H0 : dec_run mem DNone (map td_dgram (tds ++ [t]) ++ more) = dec_run mem (DTs ts_new) (map td_dgram (tds ++ [t]) ++ more)).
    { destruct tds as [|t0 tds]; cbn [app map] in *; apply dec_run_first_ts; try assumption; inversion Ht; assumption. }
    rewrite H0, map_app, <- app_assoc. apply Forall_app in Ht as [Ht Ht1]. assert (Ht2 := Forall_inv Ht1).
    rewrite (flow_ts mem e tds ts_new s1 o1 Ht eq_refl E1). cbn [map app dec_run].
    assert (Em := td_media t Ht2). unfold td_dgram at 1 2. unfold td_dgram in Em.
    rewrite media_datagram by (assumption || discriminate).
    replace (rtp_bytes (td_head t) (concat (td_pkts t))) with (snd (td_dgram t)) by reflexivity.
    rewrite td_step by (assumption || reflexivity).
    rewrite (addq_clear s1), ts_run_q in E2.
    destruct (ts_run mem (mktss (s_progs s1) (s_adts s1) []) (td_pkts t)) as [[s3 o3] r3]. cbn [fst snd] in E2 |- *.
    injection E2 as _ _ ->. cbn [flow fst snd]. rewrite app_nil_r. reflexivity. }
  rewrite read_all_flow; rewrite ?F; [reflexivity|apply fine_sized; assumption|cbn [fst length]; lia].
Qed.
Print Assumptions rtp_ts_session_stops.
(** A datagram that carries whole transport packets and then a part of one ends the
    session: the part is neither kept nor skipped, and the packets completed in the
    same datagram are lost. *)
Theorem rtp_ts_part_stops :
  forall mem tds t x more ds s1 o1 s2 o2 e fuel, Forall td_ok (tds ++ [t]) -> bytes x -> 0 < zlen x < 188 ->
    zlen (rtp_bytes (td_head t) (concat (td_pkts t) ++ x)) <= 3000 ->
    match tds ++ [t] with [] => True | t0 :: _ => pk_mark (td_head t0) = 0 end ->
    Forall fine ds -> filter media ds = map td_dgram tds ++ (td_now t, rtp_bytes (td_head t) (concat (td_pkts t) ++ x)) :: more ->
    ts_run mem ts_new (concat (map td_pkts tds)) = (s1, o1, Ok tt) ->
    ts_run mem s1 (td_pkts t) = (s2, o2, Ok tt) -> (length (s_queue s1) < fuel)%nat ->
    rtp_read_all fuel mem (mkrd DNone []) ds e = (s_queue s1, Err ERROR_TS_PACKET_SIZE).
Proof.
  intros mem tds t x more ds s1 o1 s2 o2 e fuel Ht Hbx Hx Hlen Hm Hf Ed E1 E2 Hn.
  assert (F : flow (dec_run mem DNone ds) e = (s_queue s1, Err ERROR_TS_PACKET_SIZE)).
  { rewrite flow_media by assumption. rewrite Ed.
    assert (Ht2 : td_ok t) by (apply Forall_app in Ht as [_ Ht1]; exact (Forall_inv Ht1)).
    assert (Em : media (td_now t, rtp_bytes (td_head t) (concat (td_pkts t) ++ x)) = true).
    { destruct Ht2 as (Hk & Hp & _). unfold media, control. cbn [snd]. rewrite second_byte by assumption. rewrite Hp.
      destruct Hk as (Hfit & _). unfold fields_fit, pk_fields in Hfit. cbn [forallb fst snd] in Hfit. lia. }
    assert (H0 : dec_run mem DNone (map td_dgram tds ++ (td_now t, rtp_bytes (td_head t) (concat (td_pkts t) ++ x)) :: more)
               = dec_run mem (DTs ts_new) (map td_dgram tds ++ (td_now t, rtp_bytes (td_head t) (concat (td_pkts t) ++ x)) :: more)).
    { destruct tds as [|t0 tds]; [|cbn [app map] in *; apply dec_run_first_ts; try assumption; inversion Ht; assumption].
      cbn [app map dec_run] in *. rewrite (media_datagram mem (td_now t) (DTs ts_new)) by (assumption || discriminate).
      unfold rtp_datagram. destruct Ht2 as (Hk & Hp & _). rewrite second_byte by assumption. rewrite Hm, Hp. reflexivity. }
    rewrite H0. apply Forall_app in Ht as [Ht _].
    rewrite (flow_ts mem e tds ts_new s1 o1 Ht eq_refl E1). cbn [dec_run].
    rewrite media_datagram by (assumption || discriminate).
    rewrite td_part_step by assumption.
    rewrite (addq_clear s1), ts_run_q in E2.
    destruct (ts_run mem (mktss (s_progs s1) (s_adts s1) []) (td_pkts t)) as [[s3 o3] r3]. cbn [fst snd] in E2 |- *.
    injection E2 as _ _ ->. cbn [flow fst snd]. rewrite app_nil_r. reflexivity. }
  rewrite read_all_flow; rewrite ?F; [reflexivity|apply fine_sized; assumption|cbn [fst length]; lia].
Qed.
Print Assumptions rtp_ts_part_stops.
(** A table and two pictures of 16 declared bytes, three packets in the first
    datagram and two in the second; a report in between. *)
Definition rd_pat : tsp := mktsp 0 1 0 0 0 0 None true
  (section true 0 1 0 0 0 (pat_tbl [(1, 4096)]) [1; 2; 3; 4] (repeat 255 (184 - 17))).
Definition rd_pmt : tsp := mktsp 0 1 0 4096 0 0 None true
  (section true 2 1 0 0 0 (pmt_tbl 256 [] [(0x1b, 256, [])]) [1; 2; 3; 4] (repeat 255 (184 - 22))).
Definition rd_k (mark seq : Z) : rtp_packet := mkpk 2 0 mark 33 seq 900 5 [] None.
Definition rd_td (mark seq : Z) (ps : list tsp) : tsdg := mktd 7 (rd_k mark seq) (map ts_bytes ps).
Definition rd_tds : list tsdg :=
  [rd_td 0 1 [rd_pat; rd_pmt; tu_first (ex_tu 16 0)]; rd_td 1 2 (tu_more (ex_tu 16 0) ++ [tu_first (ex_tu 16 2)])].
Lemma rd_td_ok mark seq ps : fields_fit (pk_fields (rd_k mark seq)) && forallb (fun p => bytesb (ts_bytes p) && (zlen (ts_bytes p) =? 188)) ps &&
   (zlen (snd (td_dgram (rd_td mark seq ps))) <=? 3000) = true -> td_ok (rd_td mark seq ps).
Proof.
  intros H. apply andb_prop in H as [H H3]. apply andb_prop in H as [H1 H2].
  split; [split; [exact H1|split; [constructor|exact I]]|]. split; [reflexivity|]. split; [exact I|]. split; [|lia].
  cbn [td_pkts rd_td]. apply Forall_forall. intros p Hp. apply in_map_iff in Hp as (k & <- & Hk).
  rewrite forallb_forall in H2. specialize (H2 k Hk). apply andb_prop in H2 as [A B]. split; [apply bytesb_spec, A|lia].
Qed.
Example rtp_ts_case : exists s' o p,
  Forall td_ok rd_tds /\ ts_run (repeat 0 16) ts_new (concat (map td_pkts rd_tds)) = (s', o, Ok tt) /\
  s_queue s' = [p] /\ firstn 8 (p_data p) = [0; 0; 0; 12; 0x65; 1; 2; 3].
Proof.
  eexists _, _, _. split; [|split; [vm_compute; reflexivity|split; vm_compute; reflexivity]].
  constructor; [|constructor; [|constructor]]; apply rd_td_ok; vm_compute; reflexivity.
Qed.
(** A second datagram that completes the picture and then loses sync. *)
Example rtp_ts_stop_case : exists s1 o1 s2 o2 c,
  let t := mktd 7 (rd_k 1 2) (map ts_bytes (tu_more (ex_tu 16 0) ++ [tu_first (ex_tu 16 2)]) ++ [repeat 0 188]) in
  ts_run (repeat 0 16) ts_new (td_pkts (rd_td 0 1 [rd_pat; rd_pmt; tu_first (ex_tu 16 0)])) = (s1, o1, Ok tt) /\
  ts_run (repeat 0 16) s1 (td_pkts t) = (s2, o2, Err c) /\ s_queue s1 = [] /\ length (s_queue s2) = 1%nat.
Proof. eexists _, _, _, _, _. cbv zeta. split; [vm_compute; reflexivity|]. split; [vm_compute; reflexivity|]. split; reflexivity. Qed.

(** The first of the datagrams above, then one that completes the picture and has half
    a packet behind it. *)
Example rtp_ts_part_case :
  let t := rd_td 1 2 (tu_more (ex_tu 16 0)) in
  rtp_read_all 9 (repeat 0 16) (mkrd DNone []) [td_dgram (rd_td 0 1 [rd_pat; rd_pmt; tu_first (ex_tu 16 0)]); (7, rtp_bytes (td_head t) (concat (td_pkts t) ++ repeat 71 94))] 5
    = ([], Err ERROR_TS_PACKET_SIZE) /\
  Forall td_ok [rd_td 0 1 [rd_pat; rd_pmt; tu_first (ex_tu 16 0)]; t].
Proof. cbv zeta. split; [vm_compute; reflexivity|]. constructor; [|constructor; [|constructor]]; apply rd_td_ok; vm_compute; reflexivity. Qed.

(** * Choosing the decoder (C118) *)

(** Without a chosen codec only payload type 33 with a clear marker bit is
    accepted: any other first media datagram ends the session. *)
Theorem rtp_first_datagram_decides :
  forall mem k pl now ds e fuel, pk_ok k -> bytes pl -> media (now, rtp_bytes k pl) = true -> sized (now, rtp_bytes k pl) ->
    pk_pt k <> 33 \/ pk_mark k = 1 ->
    rtp_read_all (S fuel) mem (mkrd DNone []) ((now, rtp_bytes k pl) :: ds) e = ([], Err ERROR_RTP_PROBE).
Proof.
  intros mem k pl now ds e fuel Hk Hb Hm Hs Hp. cbn [rtp_read_all]. unfold sized in Hs. cbn [snd] in Hs.
  cbn [rtp_read rd_pkts]. destruct (Z.eqb_spec (zlen (rtp_bytes k pl)) 0); [lia|]. cbn [app]. change (RTP_MAX_LENGTH - zlen (@nil Z)) with 3000.
  rewrite take_all by lia. destruct (Z.ltb_spec (zlen (rtp_bytes k pl)) 12); [lia|]. cbn [rd_dec]. unfold rtp_datagram.
  unfold media, control in Hm. cbn [snd] in Hm. apply negb_true_iff in Hm. unfold is_rtcp. rewrite Hm.
  rewrite second_byte by assumption. destruct Hk as (Hf & _). unfold fields_fit, pk_fields in Hf. cbn [forallb fst snd] in Hf.
  destruct (Z.eqb_spec (pk_mark k * 128 + pk_pt k) 33); [lia|]. reflexivity.
Qed.
Print Assumptions rtp_first_datagram_decides.
(** Once a decoder is chosen, a media datagram of a payload type that is not its
    own (96 to 127 for H.264 and AAC, 33 for transport streams) ends the session. *)
Theorem rtp_other_payload_ends :
  forall mem d k pl now ds e fuel, pk_ok k -> bytes pl -> media (now, rtp_bytes k pl) = true -> sized (now, rtp_bytes k pl) ->
    match d with DNone => False | DTs _ => pk_pt k <> 33 | _ => pk_pt k < 96 end ->
    rtp_read_all (S fuel) mem (mkrd d []) ((now, rtp_bytes k pl) :: ds) e = ([], Err ERROR_RTP_PAYLOAD_TYPE).
Proof.
  intros mem d k pl now ds e fuel Hk Hb Hm Hs Hp. cbn [rtp_read_all]. unfold sized in Hs. cbn [snd] in Hs.
  cbn [rtp_read rd_pkts]. destruct (Z.eqb_spec (zlen (rtp_bytes k pl)) 0); [lia|]. cbn [app]. change (RTP_MAX_LENGTH - zlen (@nil Z)) with 3000.
  rewrite take_all by lia. destruct (Z.ltb_spec (zlen (rtp_bytes k pl)) 12); [lia|]. cbn [rd_dec]. unfold rtp_datagram.
  unfold media, control in Hm. cbn [snd] in Hm. apply negb_true_iff in Hm. unfold is_rtcp. rewrite Hm.
  assert (G : forall S mtch (dec : rtp_hdr -> S -> bitctx -> S * emit) st, mtch (pk_pt k) = false ->
    irtp_decode mtch dec st (rtp_bytes k pl) = (st, ([], Err ERROR_RTP_PAYLOAD_TYPE))).
  { intros S mtch dec st Em. assert (Ha := al_init _ (rtp_bytes_bytes k pl Hk Hb) ltac:(lia)).
    destruct (header_decode_ok _ _ _ _ Ha Hk) as (c' & E & _). unfold irtp_decode.
    rewrite (al_acquire_ok _ _ _ 12 Ha) by lia. cbn [bind]. rewrite E. cbn [rh_pt dec_hdr]. rewrite Em. reflexivity. }
  destruct d as [|st| |s]; [destruct Hp|..]; unfold rtp_dec, h264_rtp_decode, aac_rtp_decode; rewrite G; try reflexivity;
    unfold is_rtp_dynamic, is_rtp_mpegts; lia.
Qed.
Print Assumptions rtp_other_payload_ends.
Example rtp_other_payload_case :
  rtp_read_all 3 (repeat 0 64) (mkrd (DH264 None) []) [(7, rtp_bytes (mkpk 2 0 1 95 1 900 5 [] None) [0x65; 1; 2])] ERROR_SOCKET_TIMEOUT
    = ([], Err ERROR_RTP_PAYLOAD_TYPE) /\
  media (7, rtp_bytes (mkpk 2 0 1 95 1 900 5 [] None) [0x65; 1; 2]) = true /\ sized (7, rtp_bytes (mkpk 2 0 1 95 1 900 5 [] None) [0x65; 1; 2]).
Proof. split; [vm_compute; reflexivity|]. split; [vm_compute; reflexivity|]. unfold sized. vm_compute. split; discriminate. Qed.

(** A valid transport stream whose first datagram carries the marker bit
    (RFC 2250: set after a discontinuity) is refused altogether. *)
Theorem rtp_ts_session_accepted_refuted :
  exists mem tds s' o p, Forall td_ok tds /\ ts_run mem ts_new (concat (map td_pkts tds)) = (s', o, Ok tt) /\ s_queue s' = [p] /\
    forall fuel e, rtp_read_all (S fuel) mem (mkrd DNone []) (map td_dgram tds) e = ([], Err ERROR_RTP_PROBE).
Proof.
  exists (repeat 0 16), [rd_td 1 1 [rd_pat; rd_pmt; tu_first (ex_tu 16 0)]; rd_td 1 2 (tu_more (ex_tu 16 0) ++ [tu_first (ex_tu 16 2)])].
  eexists _, _, _. assert (A : td_ok (rd_td 1 1 [rd_pat; rd_pmt; tu_first (ex_tu 16 0)])) by (apply rd_td_ok; vm_compute; reflexivity).
  split; [constructor; [exact A|constructor; [|constructor]]; apply rd_td_ok; vm_compute; reflexivity|].
  split; [vm_compute; reflexivity|]. split; [vm_compute; reflexivity|].
  intros fuel e. cbn [map]. unfold td_dgram at 1. apply rtp_first_datagram_decides.
  - apply A.
  - apply bytesb_spec. vm_compute. reflexivity.
  - vm_compute. reflexivity.
  - vm_compute. split; discriminate.
  - right. reflexivity.
Qed.
Print Assumptions rtp_ts_session_accepted_refuted.
Example rtp_first_case : media (0, rtp_bytes rtp_ex_k [0x65; 1]) = true /\ sized (0, rtp_bytes rtp_ex_k [0x65; 1]) /\ pk_pt rtp_ex_k <> 33.
Proof. split; [vm_compute; reflexivity|]. split; [vm_compute; split; discriminate|discriminate]. Qed.

(** * Datagram sizes (C119) *)

(** A datagram shorter than an RTP header is not dropped: it is put in front of
    the next datagram. *)
Theorem rtp_short_merges :
  forall mem d now s now' l ds e fuel, 1 <= zlen s < 12 -> 1 <= zlen l -> zlen s + zlen l <= 3000 ->
    rtp_read_all fuel mem (mkrd d []) ((now, s) :: (now', l) :: ds) e = rtp_read_all fuel mem (mkrd d []) ((now', s ++ l) :: ds) e.
Proof.
  intros mem d now s now' l ds e [|fuel] H1 H2 H3; [reflexivity|]. cbn [rtp_read_all].
  replace (rtp_read mem (mkrd d []) [] ((now, s) :: (now', l) :: ds) e) with (rtp_read mem (mkrd d []) [] ((now', s ++ l) :: ds) e); [reflexivity|].
  cbn [rtp_read rd_pkts rd_dec]. rewrite zlen_app. change (RTP_MAX_LENGTH - zlen (@nil Z)) with 3000.
  destruct (Z.eqb_spec (zlen s) 0); [lia|]. destruct (Z.eqb_spec (zlen s + zlen l) 0); [lia|]. cbn [app].
  rewrite (take_all 3000 s) by lia. destruct (Z.ltb_spec (zlen s) 12); [|lia]. destruct (Z.eqb_spec (zlen l) 0); [lia|].
  rewrite (take_all 3000 (s ++ l)) by (rewrite zlen_app; lia). unfold RTP_MAX_LENGTH. rewrite (take_all (3000 - zlen s) l) by lia. reflexivity.
Qed.
Print Assumptions rtp_short_merges.
(** Five bytes and the rest of the packet: one packet comes out. *)
Example rtp_short_merges_case : let l := rtp_bytes rtp_ex_k [0x65; 1; 2] in
  exists p, rtp_read_all 3 (repeat 0 64) (mkrd (DH264 None) []) [(0, take 5 l); (0, drop 5 l)] ERROR_SOCKET_TIMEOUT = ([p], Err ERROR_SOCKET_TIMEOUT).
Proof. eexists. vm_compute. reflexivity. Qed.
(** So one stray datagram spoils a good one. *)
Theorem rtp_stray_ignored_refuted :
  exists mem l p, rtp_read_all 3 mem (mkrd (DH264 None) []) [(0, l)] ERROR_SOCKET_TIMEOUT = ([p], Err ERROR_SOCKET_TIMEOUT) /\
    rtp_read_all 3 mem (mkrd (DH264 None) []) [(0, [0]); (0, l)] ERROR_SOCKET_TIMEOUT = ([], Err ERROR_RTP_PAYLOAD_TYPE).
Proof. exists (repeat 0 64), (rtp_bytes rtp_ex_k [0x65; 1; 2]). eexists. split; vm_compute; reflexivity. Qed.
Print Assumptions rtp_stray_ignored_refuted.
(** A longer datagram is cut to 3000 bytes without notice; an empty one ends the
    session. *)
Theorem rtp_long_cut :
  forall mem d now l ds e fuel, 3000 <= zlen l ->
    rtp_read_all fuel mem (mkrd d []) ((now, l) :: ds) e = rtp_read_all fuel mem (mkrd d []) ((now, take 3000 l) :: ds) e.
Proof.
  intros mem d now l ds e [|fuel] H; [reflexivity|]. cbn [rtp_read_all].
  replace (rtp_read mem (mkrd d []) [] ((now, l) :: ds) e) with (rtp_read mem (mkrd d []) [] ((now, take 3000 l) :: ds) e); [reflexivity|].
  assert (L : zlen (take 3000 l) = 3000) by (rewrite zlen_take by lia; lia).
  cbn [rtp_read rd_pkts rd_dec]. change (RTP_MAX_LENGTH - zlen (@nil Z)) with 3000. rewrite (take_all 3000 (take 3000 l)) by lia. rewrite L.
  destruct (Z.eqb_spec (zlen l) 0); [lia|]. reflexivity.
Qed.
Print Assumptions rtp_long_cut.
Example rtp_long_cut_case : let l := rtp_bytes rtp_ex_k (0x65 :: repeat 1 4000) in
  map (fun p => zlen (p_data p)) (fst (rtp_read_all 3 (repeat 0 64) (mkrd (DH264 None) []) [(0, l)] ERROR_SOCKET_TIMEOUT)) = [2984].
Proof. vm_compute. reflexivity. Qed.
Theorem rtp_empty_ends :
  forall mem d now ds e fuel, rtp_read_all (S fuel) mem (mkrd d []) ((now, []) :: ds) e = ([], Err ERROR_SOCKET_READ).
Proof. reflexivity. Qed.
Print Assumptions rtp_empty_ends.

(** * Header fields (C120) *)

(** Neither sequence numbers nor the source are looked at: sessions that agree
    in timestamps and payloads are indistinguishable. *)
Theorem rtp_h264_ignores_headers :
  forall mem es es' e, 1 <= zlen mem < 2 ^ 32 -> Forall event_ok es -> Forall event_ok es' -> Forall2 same_content es es' ->
    Forall sized (map dgram es) -> Forall sized (map dgram es') ->
    exists out, forall fuel, (length (fst out) < fuel)%nat ->
      rtp_read_all fuel mem (mkrd (DH264 None) []) (map dgram es) e = out /\
      rtp_read_all fuel mem (mkrd (DH264 None) []) (map dgram es') e = out.
Proof.
  intros mem es es' e Hm H1 H2 HS Z1 Z2.
  assert (M : forall l, Forall event_ok l -> Forall (fun d => media d = true) (map dgram l)).
  { intros l H. apply Forall_forall. intros d Hd. apply in_map_iff in Hd as (ev & <- & Hi). apply event_media. rewrite Forall_forall in H. auto. }
  exists (flow (dec_run mem (DH264 None) (map dgram es)) e). intros fuel Hn.
  assert (E : flow (dec_run mem (DH264 None) (map dgram es')) e = flow (dec_run mem (DH264 None) (map dgram es)) e).
  { rewrite !run_h264 by auto. destruct (run_ok mem es None None I Hm H1) as (s1 & -> & _). destruct (run_ok mem es' None None I Hm H2) as (s2 & -> & _).
    cbn [snd]. rewrite (spec_same _ es es' None HS). reflexivity. }
  split; rewrite read_all_flow; rewrite ?E; try assumption; destruct (flow _ e); reflexivity.
Qed.
Print Assumptions rtp_h264_ignores_headers.
(** Two units of which the second fragment of the first and the first of the
    second belong to different senders: the loss of datagram 2 and the change of
    source go unnoticed and the unit is delivered. *)
Theorem rtp_gap_detected_refuted :
  exists mem es p, Forall event_ok es /\ map (fun e => pk_seq (snd (fst e))) es = [1; 900] /\
    map (fun e => pk_ssrc (snd (fst e))) es = [5; 6] /\
    rtp_read_all 3 mem (mkrd (DH264 None) []) (map dgram es) ERROR_SOCKET_TIMEOUT = ([p], Err ERROR_SOCKET_TIMEOUT) /\
    p_data p = [0; 0; 0; 4; 0x65; 1; 2; 9].
Proof.
  exists (repeat 0 64), [(7, mkpk 2 0 0 96 1 900 5 [] None, [0x7c; 0x85; 1; 2]); (7, mkpk 2 0 1 96 900 900 6 [] None, [0x7c; 0x45; 9])].
  eexists. split.
  - repeat constructor; try (vm_compute; discriminate); apply bytesb_spec; reflexivity.
  - split; [reflexivity|]. split; [reflexivity|]. split; vm_compute; reflexivity.
Qed.
Print Assumptions rtp_gap_detected_refuted.
Example rtp_headers_case : Forall2 same_content [rd_ev 0 1 [0x65; 1]; rd_ev 1 2 [0x41; 2]]
  [(7, mkpk 2 1 1 97 60000 900 77 [3] None, [0x65; 1]); (7, mkpk 0 0 0 127 9 900 5 [] None, [0x41; 2])].
Proof. repeat constructor. Qed.
