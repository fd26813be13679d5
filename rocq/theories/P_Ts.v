(** MPEG-TS demultiplexer: property theorems. *)
From Verif Require Import Base M_Bits S_Bits L_Bits M_Fields L_Align S_Fields L_Pack M_Packet M_IO S_IO L_IO M_Cache L_Cache
  M_H264 M_AAC L_Rtp M_Ts S_Ts L_Ts L_Ts2 L_Ts3 L_Ts4 L_Ts5 L_Ts6 L_TsEx.

(** * Continuity counter (C22) *)

(** A packet with payload for an elementary stream [p]: without a unit in
    progress a continuation is refused; a counter other than the next one is
    refused and changes nothing; with the next one the counter moves on. *)
Theorem ts_continuity_step :
  forall mem s k p, pk_fits k -> t_has k = true -> s_progs s (t_pid k) = Some (PPes p) ->
  exists s' o r, ts_decode mem s (ts_bytes k) = (s', o, r) /\
    (t_pusi k = 0 -> ps_buf p = None -> r = Err ERROR_TS_PACKET_DECODE /\ o = [] /\ same_state s s') /\
    (t_pusi k = 1 \/ ps_buf p <> None -> t_cc k <> next_cc (ps_cc p) ->
       r = Err ERROR_TS_PACKET_CC_CONTINUE /\ o = [] /\ same_state s s') /\
    (t_pusi k = 1 \/ ps_buf p <> None -> t_cc k = next_cc (ps_cc p) ->
       exists p', s_progs s' (t_pid k) = Some (PPes p') /\ ps_cc p' = t_cc k).
Proof. exact cc_step. Qed.
Print Assumptions ts_continuity_step.
Example ts_continuity_step_case :
  pk_fits (tu_first (ex_tu 0 0)) /\ s_progs ex_state (t_pid (tu_first (ex_tu 0 0))) = Some (PPes (pes_new TS_STREAM_H264)) /\
  t_cc (tu_first (ex_tu 0 0)) = next_cc (ps_cc (pes_new TS_STREAM_H264)).
Proof. split; [apply pk_check; vm_compute; reflexivity|]. split; reflexivity. Qed.

(** Whatever is interleaved, an accepted input has consecutive counters on
    every elementary stream. *)
Theorem ts_accepted_counters_consecutive :
  forall mem s l s' o pid p p', Forall ts_ok l ->
    (forall k, In k l -> t_pid k = pid -> t_has k = true -> pk_fits k) ->
    ts_run mem s (map ts_bytes l) = (s', o, Ok tt) ->
    s_progs s pid = Some (PPes p) -> s_progs s' pid = Some (PPes p') ->
    consecutive (ps_cc p) (counters pid l).
Proof. intros. eapply run_pes; eassumption. Qed.
Print Assumptions ts_accepted_counters_consecutive.

(** [j] lost packets, 1 <= j <= 15: the next [16 - j] packets of the stream are
    all refused, one by one, even if the caller goes on after the first error. *)
Theorem ts_loss_rejects_following :
  forall mem s pid p j l, 1 <= j <= 15 ->
    s_progs s pid = Some (PPes p) -> ps_buf p <> None ->
    (forall n k, nthz l n = Some k ->
       pk_fits k /\ t_pid k = pid /\ t_has k = true /\ t_cc k = (ps_cc p + 1 + j + n) mod 16) ->
    zlen l <= 16 - j ->
    exists s', ts_feed mem s (map ts_bytes l) = (s', map (fun _ => Err ERROR_TS_PACKET_CC_CONTINUE) l) /\ same_state s s'.
Proof.
  intros mem s pid p j l Hj Ep Hb Hl Hlen. apply (feed_rejected mem pid p l s (j + 1) Ep Hb); [|lia|lia].
  intros n k Hn. destruct (Hl n k Hn) as (A & B & C & D). split; [exact A|]. split; [exact B|]. split; [exact C|]. rewrite D. f_equal; lia.
Qed.
Print Assumptions ts_loss_rejects_following.
(** One lost packet: the 15 packets after it. *)
Example ts_loss_case : let p := pes_init ex_mem (pes_new TS_STREAM_H264) 16 in
  let s := set_progs ex_state (add_program (s_progs ex_state) 256 (PPes p)) in
  exists s', ts_feed ex_mem s (map ts_bytes (ex_fulls 15 0)) = (s', repeat (Err ERROR_TS_PACKET_CC_CONTINUE) 15) /\ same_state s s'.
Proof.
  intros p s. destruct (ts_loss_rejects_following ex_mem s 256 p 1 (ex_fulls 15 0)) as (s' & E & H); [lia|apply add_same|discriminate| | |eauto].
  - assert (S : forall i, In i (seq 0 15) -> nthz (ex_fulls 15 0) (Z.of_nat i) = Some (ex_full ((15 + 1 + 1 + Z.of_nat i) mod 16))).
    { intros i Hi. repeat (destruct Hi as [<-|Hi]; [reflexivity|]). destruct Hi. }
    intros n k Hn. pose proof (nthz_some_range _ _ _ Hn) as R. change (zlen (ex_fulls 15 0)) with 15 in R.
    specialize (S (Z.to_nat n)). rewrite Z2Nat.id in S by lia. rewrite S in Hn by (apply in_seq; lia). injection Hn as <-.
    split; [apply ex_full_ok; apply Z.mod_pos_bound; lia|]. auto.
  - change (zlen (ex_fulls 15 0)) with 15. lia.
Qed.

(** A repeated packet, which ISO/IEC 13818-1 allows, is refused as well. *)
Theorem ts_duplicate_refused :
  forall mem s k p, pk_fits k -> t_has k = true -> 0 <= t_cc k < 16 ->
    s_progs s (t_pid k) = Some (PPes p) -> ps_cc p = t_cc k -> ps_buf p <> None ->
    exists s', ts_decode mem s (ts_bytes k) = (s', [], Err ERROR_TS_PACKET_CC_CONTINUE) /\ same_state s s'.
Proof.
  intros mem s k p Hf Hh Hc Ep Ecc Hb. destruct (cc_step mem s k p Hf Hh Ep) as (s' & o & r & E & _ & C & _).
  destruct (C (or_intror Hb)) as (-> & -> & H).
  - rewrite Ecc. unfold next_cc. clear - Hc. pose proof (Z.div_mod (t_cc k + 1) 16 ltac:(lia)). lia.
  - eauto.
Qed.
Print Assumptions ts_duplicate_refused.
Example ts_duplicate_case : let p := set_cc (pes_init ex_mem (pes_new TS_STREAM_H264) 16) 3 in
  let s := set_progs ex_state (add_program (s_progs ex_state) 256 (PPes p)) in
  exists s', ts_decode ex_mem s (ts_bytes (ex_full 3)) = (s', [], Err ERROR_TS_PACKET_CC_CONTINUE) /\ same_state s s'.
Proof. intros p s. apply (ts_duplicate_refused ex_mem s (ex_full 3) p); [apply ex_full_ok; lia|reflexivity|cbn; lia|apply add_same|reflexivity|discriminate]. Qed.

(** A stream just announced by a program map is refused unless its first
    counter is 0: a publisher whose counter starts elsewhere, or that is joined
    midway, is never accepted. *)
Theorem ts_first_counter_must_be_zero :
  forall mem s k tp, pk_fits k -> t_has k = true -> s_progs s (t_pid k) = Some (PPes (pes_new tp)) ->
    0 <= t_cc k < 16 -> t_cc k <> 0 ->
    exists s' e, ts_decode mem s (ts_bytes k) = (s', [], Err e) /\ same_state s s'.
Proof.
  intros mem s k tp Hf Hh Ep Hc Hn. destruct (cc_step mem s k _ Hf Hh Ep) as (s' & o & r & E & C1 & C2 & _).
  destruct (pusi_01 k (proj1 Hf)) as [U|U].
  - destruct (C1 U eq_refl) as (-> & -> & H). eauto.
  - destruct (C2 (or_introl U)) as (-> & -> & H); [exact Hn|]. eauto.
Qed.
Print Assumptions ts_first_counter_must_be_zero.
Example ts_first_counter_case :
  exists s' e, ts_decode ex_mem ex_state (ts_bytes (tu_first (ex_tu 0 2))) = (s', [], Err e) /\ same_state ex_state s'.
Proof.
  apply (ts_first_counter_must_be_zero ex_mem ex_state _ TS_STREAM_H264); [apply pk_check; vm_compute; reflexivity|reflexivity|reflexivity|cbn; lia|discriminate].
Qed.

(** Packets without payload do not touch an elementary stream. *)
Theorem ts_no_payload_ignored :
  forall mem s k p, pk_fits k -> t_has k = false -> s_progs s (t_pid k) = Some (PPes p) ->
    ts_decode mem s (ts_bytes k) = (s, [], Ok tt).
Proof.
  intros mem s k p Hf Hh Ep. destruct (ts_decode_fits mem s k Hf) as (c & _ & _ & ->). unfold ts_after. rewrite Ep, Hh. reflexivity.
Qed.
Print Assumptions ts_no_payload_ignored.
Example ts_no_payload_case : let k := mktsp 0 0 0 256 0 9 (Some (0 :: repeat 255 182)) false [] in
  ts_decode ex_mem ex_state (ts_bytes k) = (ex_state, [], Ok tt).
Proof. intros k. apply (ts_no_payload_ignored _ _ k (pes_new TS_STREAM_H264)); [apply pk_check; vm_compute; reflexivity|reflexivity|reflexivity]. Qed.

(** * Reassembly (C23) *)

(** A stream of H.264 units without declared length, each below 64 KiB, in any
    packetization with consecutive counters: every packet is accepted and
    forwarded, and the parser is given exactly the units' data, in order, with
    their stamps - except the last unit, which stays in the demuxer. *)
Theorem ts_h264_stream_delivered :
  forall mem s pid p ts z outs, mem_ok mem ->
    s_progs s pid = Some (PPes p) -> ps_type p = TS_STREAM_H264 -> ps_buf p = None ->
    Forall (tu_ok pid) (ts ++ [z]) ->
    Forall (fun t => pu_len (tu_pes t) = 0 /\ zlen (tu_data t) < 65536) (ts ++ [z]) ->
    Forall2 (fun t out => h264_encode_avc (mkav (pu_dts (tu_pes t)) (pu_pts (tu_pes t)) 90) (-1) (tu_data t) = Ok out) ts outs ->
    consecutive (ps_cc p) (map t_cc (flat_map tu_packets (ts ++ [z]))) ->
    exists s' o, ts_run mem s (map ts_bytes (flat_map tu_packets (ts ++ [z]))) = (s', o, Ok tt) /\
      s_queue s' = s_queue s ++ concat outs /\
      map p_data o = map ts_bytes (flat_map tu_packets (ts ++ [z])).
Proof.
  intros mem s pid p ts z outs Hm Ep Htp Hb Hok Hsz Hout Hcc.
  apply Forall_app in Hsz as [Hsz Hz]. inversion Hz as [|? ? [Z1 Z2] _]; subst.
  destruct (stream_accept mem pid ts outs z s p [] Hm Hok) as (s' & p' & E & _ & _ & _ & Q & _); try assumption.
  - clear - Hsz Hout. induction Hout as [|t out ts outs H Hout IH]; [constructor|]. inversion Hsz as [|? ? [Z1 Z2] Hsz']; subst.
    constructor; [|auto]. split; [unfold tu_room, TS_DEFAULT_PES; lia|]. rewrite Z1. unfold codec_bytes, clip_len. cbn [Z.eqb].
    rewrite Z.eqb_refl. pose proof (zlen_nonneg (tu_data t)). rewrite Z.mod_small, take_all by lia. exact H.
  - unfold tu_room, TS_DEFAULT_PES. lia.
  - left. auto.
  - exists s', (map forwarded (flat_map tu_packets (ts ++ [z]))). split; [exact E|]. split; [exact Q|].
    rewrite map_map. reflexivity.
Qed.
Print Assumptions ts_h264_stream_delivered.
Example ts_h264_stream_case :
  exists out s' o, h264_encode_avc (mkav 0 0 90) (-1) ex_nal = Ok out /\ length out = 1%nat /\
    ts_run ex_mem ex_state (map ts_bytes (flat_map tu_packets [ex_tu 0 0; ex_tu 0 2])) = (s', o, Ok tt) /\ s_queue s' = out.
Proof.
  eexists. destruct (ts_h264_stream_delivered ex_mem ex_state 256 (pes_new TS_STREAM_H264) [ex_tu 0 0] (ex_tu 0 2)
    [match h264_encode_avc (mkav 0 0 90) (-1) ex_nal with Ok out => out | _ => [] end] ex_mem_ok) as (s' & o & E & Q & _);
    try reflexivity.
  - constructor; [exact ex_tu_ok0|constructor; [exact ex_tu_ok2|constructor]].
  - repeat constructor; vm_compute; reflexivity.
  - constructor; [vm_compute; reflexivity|constructor].
  - cbn. repeat split.
  - exists s', o. split; [vm_compute; reflexivity|]. split; [reflexivity|]. split; [exact E|]. rewrite Q. vm_compute. reflexivity.
Qed.
(** The counters of that accepted input ([ts_accepted_counters_consecutive]). *)
Example ts_accepted_counters_case :
  counters 256 (flat_map tu_packets [ex_tu 0 0; ex_tu 0 2]) = [0; 1; 2; 3] /\ Forall ts_ok (flat_map tu_packets [ex_tu 0 0; ex_tu 0 2]) /\
  forall k, In k (flat_map tu_packets [ex_tu 0 0; ex_tu 0 2]) -> pk_fits k.
Proof.
  assert (F : Forall pk_fits (flat_map tu_packets [ex_tu 0 0; ex_tu 0 2])).
  { change (flat_map tu_packets [ex_tu 0 0; ex_tu 0 2]) with [tu_first (ex_tu 0 0); ex_pk 256 0 1 [1; 2; 3]; tu_first (ex_tu 0 2); ex_pk 256 0 3 [1; 2; 3]].
    repeat (constructor; [apply pk_check; vm_compute; reflexivity|]). constructor. }
  split; [vm_compute; reflexivity|]. split; [|apply Forall_forall; exact F].
  eapply Forall_impl; [|exact F]. intros k Hk. exact (proj1 Hk).
Qed.

(** The same with anything interleaved: between the unit start [k0] and the
    next start [k1] of the pid there may be packets of any other pid.  What the
    accepted [k1] delivers is the unit, for H.264 ... *)
Theorem ts_h264_unit_interleaved :
  forall mem s s1 s2 o1 o2 pid p p1 k0 l k1 u d0, mem_ok mem ->
    s_progs s pid = Some (PPes p) -> ps_type p = TS_STREAM_H264 -> s_progs s1 pid = Some (PPes p1) ->
    pk_fits k0 -> starts_unit pid k0 -> t_body k0 = pes_head u ++ d0 -> pu_ok u ->
    Forall ts_ok l -> (forall k, In k l -> t_pid k = pid -> t_has k = true -> t_pusi k = 0 /\ pk_fits k) ->
    pk_fits k1 -> starts_unit pid k1 ->
    ts_run mem s (map ts_bytes (k0 :: l)) = (s1, o1, Ok tt) -> ts_decode mem s1 (ts_bytes k1) = (s2, o2, Ok tt) ->
    pu_len u = 0 -> zlen (d0 ++ payloads pid l) < 65536 ->
    exists ps, h264_encode_avc (mkav (pu_dts u) (pu_pts u) 90) (-1) (d0 ++ payloads pid l) = Ok ps /\
      s_queue s2 = s_queue s1 ++ ps.
Proof.
  intros mem s s1 s2 o1 o2 pid p p1 k0 l k1 u d0 Hm Ep Tp Ep1 Hf0 (P0 & H0 & U0) Eb Hpu Hl Hmid Hf1 (P1 & H1 & U1) E1 E2 Hlen Hsz.
  cbn [map ts_run] in E1. destruct (ts_decode mem s (ts_bytes k0)) as [[sa oa] ra] eqn:Ea. destruct ra as [[]| | |]; try discriminate.
  destruct (ts_run mem sa (map ts_bytes l)) as [[sb ob] rb] eqn:Er. injection E1 as <- <- ->. rewrite <- P0 in *.
  destruct (step_start _ _ _ _ _ _ _ _ Hm Hf0 H0 U0 Eb Hpu Ea Ep) as (pa & Epa & Ta & _ & Hpa).
  destruct (run_middle _ _ _ _ _ _ _ _ _ _ _ _ Hm Hl Hmid Er Epa Hpa Ep1) as (Hp1 & T1).
  rewrite <- P1 in Ep1. pose proof (step_flush _ _ _ _ _ _ _ _ _ _ Hm Hf1 H1 U1 E2 Ep1 Hp1) as D.
  unfold unit_done in D. rewrite T1, Ta, Tp, Z.eqb_refl in D. unfold codec_bytes, clip_len in D. rewrite Hlen, Z.eqb_refl in D. cbn [Z.eqb] in D.
  pose proof (zlen_nonneg (d0 ++ payloads (t_pid k0) l)). rewrite Z.mod_small, take_all in D by lia.
  destruct D as (_ & D). destruct (h264_encode_avc _ _ _) as [ps| | |]; [|destruct D; discriminate|destruct D; discriminate|destruct D; discriminate].
  exists ps. split; [reflexivity|apply D].
Qed.
Print Assumptions ts_h264_unit_interleaved.
(** ... and for AAC, with or without a declared length. *)
Theorem ts_aac_unit_interleaved :
  forall mem s s1 s2 o1 o2 pid p p1 k0 l k1 u d0, mem_ok mem ->
    s_progs s pid = Some (PPes p) -> ps_type p = TS_STREAM_AAC -> s_progs s1 pid = Some (PPes p1) ->
    pk_fits k0 -> starts_unit pid k0 -> t_body k0 = pes_head u ++ d0 -> pu_ok u ->
    Forall ts_ok l -> (forall k, In k l -> t_pid k = pid -> t_has k = true -> t_pusi k = 0 /\ pk_fits k) ->
    pk_fits k1 -> starts_unit pid k1 ->
    ts_run mem s (map ts_bytes (k0 :: l)) = (s1, o1, Ok tt) -> ts_decode mem s1 (ts_bytes k1) = (s2, o2, Ok tt) ->
    exists ps hdr, aac_encode_avc (mkav (pu_dts u) (pu_pts u) 90) (s_adts s1) (clip u (d0 ++ payloads pid l)) = (ps, hdr, Ok tt) /\
      s_queue s2 = s_queue s1 ++ ps /\ s_adts s2 = hdr.
Proof.
  intros mem s s1 s2 o1 o2 pid p p1 k0 l k1 u d0 Hm Ep Tp Ep1 Hf0 (P0 & H0 & U0) Eb Hpu Hl Hmid Hf1 (P1 & H1 & U1) E1 E2.
  cbn [map ts_run] in E1. destruct (ts_decode mem s (ts_bytes k0)) as [[sa oa] ra] eqn:Ea. destruct ra as [[]| | |]; try discriminate.
  destruct (ts_run mem sa (map ts_bytes l)) as [[sb ob] rb] eqn:Er. injection E1 as <- <- ->. rewrite <- P0 in *.
  destruct (step_start _ _ _ _ _ _ _ _ Hm Hf0 H0 U0 Eb Hpu Ea Ep) as (pa & Epa & Ta & _ & Hpa).
  destruct (run_middle _ _ _ _ _ _ _ _ _ _ _ _ Hm Hl Hmid Er Epa Hpa Ep1) as (Hp1 & T1).
  rewrite <- P1 in Ep1. pose proof (step_flush _ _ _ _ _ _ _ _ _ _ Hm Hf1 H1 U1 E2 Ep1 Hp1) as D.
  unfold unit_done in D. rewrite T1, Ta, Tp in D. change (TS_STREAM_AAC =? TS_STREAM_H264) with false in D. rewrite Z.eqb_refl in D.
  unfold codec_bytes in D. change (TS_STREAM_AAC =? TS_STREAM_H264) with false in D.
  change (clip_len (pu_len u) (d0 ++ payloads (t_pid k0) l)) with (clip u (d0 ++ payloads (t_pid k0) l)) in D.
  destruct (aac_encode_avc _ _ _) as [[ps hdr] q]. destruct D as (D1 & D2 & D3). subst q. exists ps, hdr. auto.
Qed.
Print Assumptions ts_aac_unit_interleaved.
(** A packet of pid 300 and one of the program association table between the
    packets of a unit of pid 256. *)
Example ts_interleaved_case :
  exists s1 o1 s2 o2 p1,
    ts_run ex_mem ex_state (map ts_bytes (ex_pk 256 1 0 (pes_head (ex_unit 0) ++ [0; 0; 0; 1; 0x65]) ::
        [ex_pk 300 0 7 [1]; ex_pk 256 0 1 [1; 2; 3]])) = (s1, o1, Ok tt) /\
    s_progs s1 256 = Some (PPes p1) /\
    ts_decode ex_mem s1 (ts_bytes (tu_first (ex_tu 0 2))) = (s2, o2, Ok tt).
Proof.
  set (mem := ex_mem). pose proof ex_mem_ok as Hm. fold mem in Hm.
  assert (F0 : pk_fits (tu_first (ex_tu 0 0))) by (apply pk_check; vm_compute; reflexivity).
  assert (F1 : pk_fits (ex_pk 256 0 1 [1; 2; 3])) by (apply pk_check; vm_compute; reflexivity).
  assert (F2 : pk_fits (tu_first (ex_tu 0 2))) by (apply pk_check; vm_compute; reflexivity).
  assert (F3 : pk_fits (ex_pk 300 0 7 [1])) by (apply pk_check; vm_compute; reflexivity).
  destruct (start_accept mem ex_state _ (pes_new TS_STREAM_H264) (ex_unit 0) [0; 0; 0; 1; 0x65] [] Hm F0 eq_refl eq_refl eq_refl (ex_unit_ok 0 ltac:(lia)) eq_refl
    (or_introl (conj eq_refl eq_refl)) eq_refl) as (sa & pa & Ea & Epa & Hpa & Ta & Ca & _ & _ & Oa).
  change (t_pid (tu_first (ex_tu 0 0))) with 256 in *.
  destruct (ts_decode_fits mem sa _ F3) as (c3 & _ & _ & E3). unfold ts_after in E3. change (t_pid (ex_pk 300 0 7 [1])) with 300 in E3.
  rewrite Oa in E3 by lia. change (s_progs ex_state 300) with (@None prog) in E3.
  destruct (middle_accept mem sa _ pa _ _ _ _ Hm F1 eq_refl eq_refl Epa Hpa) as (sb & pb & Eb & Epb & Hpb & Tb & Cb & _).
  { rewrite Ca. reflexivity. } { intros _. vm_compute. discriminate. }
  destruct (start_accept mem sb _ pb (ex_unit 0) [0; 0; 0; 1; 0x65] (match h264_encode_avc (mkav 0 0 90) (-1) ex_nal with Ok out => out | _ => [] end) Hm F2 eq_refl eq_refl eq_refl (ex_unit_ok 0 ltac:(lia)) Epb)
    as (sc & pc & Ec & _).
  { right. eexists _, _, _, _. split; [exact Hpb|]. split; [rewrite Tb, Ta; reflexivity|]. vm_compute. reflexivity. }
  { rewrite Cb. reflexivity. }
  exists sb. eexists _, sc, _, pb. split; [|split; [exact Epb|exact Ec]].
  cbn [map ts_run]. change (ex_pk 256 1 0 (pes_head (ex_unit 0) ++ [0; 0; 0; 1; 0x65])) with (tu_first (ex_tu 0 0)).
  rewrite Ea, E3, Eb. reflexivity.
Qed.

(** * The last unit (C48) *)

(** Only a unit start delivers anything, so the unit after the last start is
    never delivered, whatever follows it and however the stream ends. *)
Theorem ts_only_starts_deliver :
  forall mem s l s' o r, Forall ts_ok l -> Forall (fun k => t_has k = true -> t_pusi k = 0) l ->
    ts_run mem s (map ts_bytes l) = (s', o, r) -> s_queue s' = s_queue s.
Proof.
  intros mem s l. revert s. induction l as [|k l IH]; intros s s' o r Hl Hu E; cbn [map ts_run] in E; [injection E as <- <- <-; reflexivity|].
  inversion Hl as [|? ? Hk Hl']; subst. inversion Hu as [|? ? Hu0 Hu']; subst.
  assert (Q : s_queue (fst (fst (ts_decode mem s (ts_bytes k)))) = s_queue s).
  { destruct (ts_decode_any mem s k Hk) as [(c & ->)|(e & -> & _)]; [|reflexivity].
    unfold ts_after. destruct (s_progs s (t_pid k)) as [pr|]; [|reflexivity].
    destruct (negb (t_has k) && negb (is_section pr)) eqn:Ec; [reflexivity|].
    assert (Qp : s_queue (fst (ts_program mem s k c pr)) = s_queue s).
    { unfold ts_program. destruct pr as [| | |p].
      1-3: destruct (psi_decode _ _ _ _) as [f x]; reflexivity.
      change (is_section (PPes p)) with false in Ec. rewrite andb_true_r in Ec. apply negb_false_iff in Ec.
      unfold pes_decode. cbn [t_hdr th_pusi th_cc]. rewrite (Hu0 Ec). cbn [Z.eqb andb].
      destruct (negb _); [reflexivity|]. destruct (negb _); [reflexivity|]. destruct (pes_dump _ c). reflexivity. }
    destruct (ts_program mem s k c pr) as [sx rx]. destruct rx; exact Qp. }
  destruct (ts_decode mem s (ts_bytes k)) as [[s1 o1] r1]. cbn [fst] in Q. destruct r1.
  - destruct (ts_run mem s1 (map ts_bytes l)) as [[s2 o2] r2] eqn:E2. injection E as <- <- <-.
    rewrite (IH s1 s2 o2 r2 Hl' Hu' E2). exact Q.
  - injection E as <- <- <-. exact Q.
  - injection E as <- <- <-. exact Q.
  - injection E as <- <- <-. exact Q.
Qed.
Print Assumptions ts_only_starts_deliver.
Example ts_only_starts_case : let l := [ex_full 0; ex_full 1; ex_full 9] in
  Forall ts_ok l /\ Forall (fun k => t_has k = true -> t_pusi k = 0) l.
Proof.
  assert (H : forall c, 0 <= c < 16 -> ts_ok (ex_full c)) by (intros c Hc; exact (proj1 (ex_full_ok c Hc))).
  cbv zeta. split; [|repeat (constructor; [reflexivity|]); constructor]. repeat (constructor; [apply H; lia|]). constructor.
Qed.
(** A complete H.264 stream of one unit delivers nothing. *)
Theorem ts_all_units_delivered_refuted :
  exists mem s t s' o out, mem_ok mem /\ s_progs s 256 = Some (PPes (pes_new TS_STREAM_H264)) /\ tu_ok 256 t /\
    h264_encode_avc (mkav (pu_dts (tu_pes t)) (pu_pts (tu_pes t)) 90) (-1) (tu_data t) = Ok out /\ out <> [] /\
    ts_run mem s (map ts_bytes (tu_packets t)) = (s', o, Ok tt) /\ s_queue s' = [].
Proof.
  destruct (ts_h264_stream_delivered ex_mem ex_state 256 (pes_new TS_STREAM_H264) [] (ex_tu 0 0) [] ex_mem_ok) as (s' & o & E & Q & _);
    try reflexivity; try (constructor; fail).
  { constructor; [exact ex_tu_ok0|constructor]. } { repeat constructor; vm_compute; reflexivity. } { cbn. repeat split. }
  exists ex_mem, ex_state, (ex_tu 0 0), s', o. eexists. split; [apply ex_mem_ok|]. split; [reflexivity|]. split; [apply ex_tu_ok0|].
  split; [vm_compute; reflexivity|]. split; [discriminate|]. cbn [app flat_map] in E. rewrite app_nil_r in E. split; [exact E|].
  rewrite Q. reflexivity.
Qed.
Print Assumptions ts_all_units_delivered_refuted.

(** * Units of 64 KiB and more (C49) *)

(** An H.264 unit without declared length that has 65536 bytes or more is cut:
    the parser is given its length modulo 65536. *)
Theorem ts_h264_long_unit_cut :
  forall mem s pid p t z out, mem_ok mem ->
    s_progs s pid = Some (PPes p) -> ps_type p = TS_STREAM_H264 -> ps_buf p = None ->
    tu_ok pid t -> tu_ok pid z -> pu_len (tu_pes t) = 0 -> pu_len (tu_pes z) = 0 ->
    zlen (tu_data t) <= 1048576 -> zlen (tu_data z) <= 1048576 ->
    consecutive (ps_cc p) (map t_cc (tu_packets t ++ tu_packets z)) ->
    h264_encode_avc (mkav (pu_dts (tu_pes t)) (pu_pts (tu_pes t)) 90) (-1) (take (zlen (tu_data t) mod 65536) (tu_data t)) = Ok out ->
    exists s' o, ts_run mem s (map ts_bytes (tu_packets t ++ tu_packets z)) = (s', o, Ok tt) /\
      s_queue s' = s_queue s ++ out.
Proof.
  intros mem s pid p t z out Hm Ep Htp Hb Ht Hz L1 L2 S1 S2 Hcc Ho.
  destruct (stream_accept mem pid [t] [out] z s p [] Hm) as (s' & p' & E & _ & _ & _ & Q & _); try assumption.
  - constructor; [assumption|constructor; [assumption|constructor]].
  - constructor; [|constructor]. split; [unfold tu_room, TS_DEFAULT_PES; lia|]. rewrite L1. unfold codec_bytes, clip_len. exact Ho.
  - unfold tu_room, TS_DEFAULT_PES. lia.
  - left. auto.
  - cbn [app flat_map]. rewrite app_nil_r. exact Hcc.
  - cbn [app flat_map concat] in E, Q. rewrite app_nil_r in E, Q. eauto.
Qed.
Print Assumptions ts_h264_long_unit_cut.
(** A unit of 5 + 184 * 357 = 65693 bytes: the parser gets 157 of them. *)
Example ts_h264_long_unit_case : let t := ex_big 357 in
  tu_ok 256 t /\ zlen (tu_data t) = 65693 /\ consecutive 15 (map t_cc (tu_packets t)) /\
  exists out, h264_encode_avc (mkav (pu_dts (tu_pes t)) (pu_pts (tu_pes t)) 90) (-1) (take (zlen (tu_data t) mod 65536) (tu_data t)) = Ok out.
Proof.
  intros t. destruct (ex_big_ok 357) as (A & B & C). fold t in A, B, C. split; [exact A|]. change (5 + 184 * Z.of_nat 357) with 65693 in B.
  split; [exact B|]. split; [exact C|]. rewrite B. change (65693 mod 65536) with 157. eexists. vm_compute. reflexivity.
Qed.

(** * Declared lengths (C50) *)

(** A unit that declares its length (header and data, as the standard says)
    and is complete: the H.264 parser is given the data followed by as many
    stale bytes of the allocation as the header was long. *)
Theorem ts_h264_declared_length_stale :
  forall mem s pid p t z out, mem_ok mem ->
    s_progs s pid = Some (PPes p) -> ps_type p = TS_STREAM_H264 -> ps_buf p = None ->
    tu_ok pid t -> tu_ok pid z ->
    pu_len (tu_pes t) = 3 + zlen (pu_hdr (tu_pes t)) + zlen (tu_data t) ->
    pu_len (tu_pes z) = 3 + zlen (pu_hdr (tu_pes z)) + zlen (tu_data z) ->
    consecutive (ps_cc p) (map t_cc (tu_packets t ++ tu_packets z)) ->
    h264_encode_avc (mkav (pu_dts (tu_pes t)) (pu_pts (tu_pes t)) 90) (-1)
      (tu_data t ++ take (3 + zlen (pu_hdr (tu_pes t))) (drop (zlen (tu_data t)) mem)) = Ok out ->
    exists s' o, ts_run mem s (map ts_bytes (tu_packets t ++ tu_packets z)) = (s', o, Ok tt) /\
      s_queue s' = s_queue s ++ out.
Proof.
  intros mem s pid p t z out Hm Ep Htp Hb Ht Hz L1 L2 Hcc Ho.
  pose proof (zlen_nonneg (pu_hdr (tu_pes t))). pose proof (zlen_nonneg (tu_data t)).
  pose proof (zlen_nonneg (pu_hdr (tu_pes z))). pose proof (zlen_nonneg (tu_data z)).
  assert (L64 : pu_len (tu_pes t) < 65536) by (destruct Ht as (Hp & _); destruct Hp as (_ & _ & Hp & _); lia).
  destruct (stream_accept mem pid [t] [out] z s p [] Hm) as (s' & p' & E & _ & _ & _ & Q & _); try assumption.
  - constructor; [assumption|constructor; [assumption|constructor]].
  - constructor; [|constructor]. split; [unfold tu_room; lia|]. unfold codec_bytes, clip_len. rewrite Z.eqb_refl.
    destruct (Z.eqb_spec (pu_len (tu_pes t)) 0); [lia|]. rewrite (take_all (pu_len (tu_pes t)) (tu_data t)) by lia.
    replace (drop (zlen (tu_data t)) (take (pu_len (tu_pes t)) mem)) with (take (3 + zlen (pu_hdr (tu_pes t))) (drop (zlen (tu_data t)) mem)); [exact Ho|].
    unfold mem_ok, TS_DEFAULT_PES in Hm.
    rewrite <- (take_drop (zlen (tu_data t)) mem) at 2. rewrite take_app_ge by (rewrite zlen_take by lia; lia).
    rewrite zlen_take by lia. rewrite Z.min_l by lia. rewrite drop_app_exact by (rewrite zlen_take by lia; lia). f_equal; lia.
  - unfold tu_room. lia.
  - left. auto.
  - cbn [app flat_map]. rewrite app_nil_r. exact Hcc.
  - cbn [app flat_map concat] in E, Q. rewrite app_nil_r in E, Q. eauto.
Qed.
Print Assumptions ts_h264_declared_length_stale.
(** Two contents of fresh memory, one input, two different outputs. *)
Theorem ts_output_depends_on_input_only_refuted :
  exists mem1 mem2 s l s1 s2 o1 o2, mem_ok mem1 /\ mem_ok mem2 /\
    ts_run mem1 s (map ts_bytes l) = (s1, o1, Ok tt) /\ ts_run mem2 s (map ts_bytes l) = (s2, o2, Ok tt) /\
    s_queue s1 <> s_queue s2.
Proof.
  assert (Hm1 := ex_mem_ok). set (mem2 := repeat 9 (Z.to_nat TS_DEFAULT_PES)).
  assert (Hm2 : mem_ok mem2) by (unfold mem_ok, mem2, zlen; rewrite repeat_length, Z2Nat.id; unfold TS_DEFAULT_PES; lia).
  set (z := mktu (ex_unit 16) (ex_pk 256 1 2 (pes_head (ex_unit 16) ++ ex_nal)) ex_nal []).
  assert (Hz : tu_ok 256 z) by (apply tu_okb_ok; [apply ex_unit_ok; lia|vm_compute; reflexivity]).
  assert (D : forall v : Z, take 8 (drop 8 (repeat v (Z.to_nat TS_DEFAULT_PES))) = repeat v 8).
  { intros v. replace (Z.to_nat TS_DEFAULT_PES) with (16 + Z.to_nat (TS_DEFAULT_PES - 16))%nat.
    2:{ rewrite Z2Nat.inj_sub by lia. unfold TS_DEFAULT_PES. lia. }
    rewrite repeat_app. rewrite drop_app_le by (unfold zlen; rewrite repeat_length; lia).
    rewrite take_app_le by (vm_compute; discriminate). reflexivity. }
  destruct (ts_h264_declared_length_stale ex_mem ex_state 256 (pes_new TS_STREAM_H264) (ex_tu 16 0) z
    (match h264_encode_avc (mkav 0 0 90) (-1) (ex_nal ++ repeat 0 8) with Ok x => x | _ => [] end) Hm1 eq_refl eq_refl eq_refl ex_tu_ok16 Hz)
    as (s1 & o1 & E1 & Q1); [reflexivity|reflexivity|cbn; repeat split| |].
  { change (3 + zlen (pu_hdr (tu_pes (ex_tu 16 0)))) with 8. change (zlen (tu_data (ex_tu 16 0))) with 8. unfold ex_mem. rewrite D. vm_compute. reflexivity. }
  destruct (ts_h264_declared_length_stale mem2 ex_state 256 (pes_new TS_STREAM_H264) (ex_tu 16 0) z
    (match h264_encode_avc (mkav 0 0 90) (-1) (ex_nal ++ repeat 9 8) with Ok x => x | _ => [] end) Hm2 eq_refl eq_refl eq_refl ex_tu_ok16 Hz)
    as (s2 & o2 & E2 & Q2); [reflexivity|reflexivity|cbn; repeat split| |].
  { change (3 + zlen (pu_hdr (tu_pes (ex_tu 16 0)))) with 8. change (zlen (tu_data (ex_tu 16 0))) with 8. unfold mem2. rewrite D. vm_compute. reflexivity. }
  exists ex_mem, mem2, ex_state, (tu_packets (ex_tu 16 0) ++ tu_packets z), s1, s2, o1, o2.
  repeat (split; [assumption|]). rewrite Q1, Q2. vm_compute. discriminate.
Qed.
Print Assumptions ts_output_depends_on_input_only_refuted.

(** * Adaptation fields (C24) *)

(** An adaptation field whose parts lie inside it: the payload parser starts
    exactly at the payload. *)
Theorem ts_payload_after_adaptation :
  forall k, pk_fits k -> exists c,
    tsp_decode (bc_init (ts_bytes k)) = Ok (mkts (t_pusi k) (t_pid k) (t_afc k) (t_cc k), c) /\
    bc_size c = zlen (t_body k) /\ bc_peek c (zlen (t_body k)) = Ok (t_body k).
Proof.
  intros k H. destruct (tsp_decode_fits k H) as (c & E & Ha). exists c. split; [exact E|]. split; [apply (al_size _ _ _ Ha)|].
  rewrite (al_peek _ _ _ (zlen (t_body k)) Ha) by (pose proof (zlen_nonneg (t_body k)); lia). rewrite take_all by lia. reflexivity.
Qed.
Print Assumptions ts_payload_after_adaptation.
Example ts_payload_case : pk_fits (mktsp 0 1 0 256 0 3 (Some (0x10 :: repeat 1 6 ++ repeat 255 100)) true (repeat 9 76)).
Proof.
  apply pk_check; vm_compute; reflexivity.
Qed.
(** Any other adaptation field: refused, read out of bounds, or "accepted" with
    a cursor behind the packet for which every size check passes and every read
    is out of bounds. *)
Theorem ts_bad_adaptation :
  forall k a, ts_ok k -> t_af k = Some a -> ~ af_fits a ->
    let r := tsp_decode (bc_init (ts_bytes k)) in
    r = Err ERROR_IO_NOT_ENOUGH \/ r = UB \/
    exists h c, r = Ok (h, c) /\ 188 < bc_off c /\
      (forall n, 0 <= n < 2 ^ 29 -> bc_acquire c n = Ok tt) /\
      (forall n, 0 < n -> read_bits c n = UB) /\ (forall n, bc_peek c n = UB).
Proof.
  intros k a Hk Ea Hn r. destruct (tsp_decode_misfit k a Hk Ea Hn) as [E|[E|(c & E & (B1 & B2 & B3))]]; [auto|auto|].
  right. right. exists (t_hdr k), c. assert (L : zlen (ts_bytes k) = 188) by apply Hk.
  assert (Hp : bc_pos c = zlen (bc_buf c) - 1 + (bc_pos c - 187)) by (rewrite B1, L; lia).
  split; [exact E|]. split; [unfold bc_off; rewrite B2; cbn [Z.ltb Z.compare]; lia|].
  split; [apply (proj2 (out_size c (bc_pos c - 187) B2 Hp ltac:(lia)))|].
  split; [intros n Hn0; apply (out_read c (bc_pos c - 187) n B2 Hp ltac:(lia) Hn0)|intros n; apply (out_peek c (bc_pos c - 187) n B2 Hp ltac:(lia))].
Qed.
Print Assumptions ts_bad_adaptation.
(** A unit continuation whose adaptation field of one byte announces a PCR:
    demultiplexing it reads outside the packet. *)
Definition bad_af : tsp := mktsp 0 0 0 256 0 0 (Some [0x10]) true (repeat 9 182).
Theorem ts_never_reads_outside_refuted :
  exists mem s k, ts_ok k /\ snd (ts_decode mem s (ts_bytes k)) = UB.
Proof.
  exists [], (set_progs ex_state (add_program (s_progs ex_state) 256 (PPes (pes_init [1; 2; 3; 4] (pes_new TS_STREAM_H264) 4)))), bad_af.
  split; [|vm_compute; reflexivity]. split; [vm_compute; reflexivity|]. split; [apply bytesb_spec; vm_compute; reflexivity|vm_compute; reflexivity].
Qed.
Print Assumptions ts_never_reads_outside_refuted.
Example ts_bad_adaptation_case : ts_ok bad_af /\ ~ af_fits [0x10].
Proof.
  split; [split; [vm_compute; reflexivity|]; split; [apply bytesb_spec; vm_compute; reflexivity|vm_compute; reflexivity]|].
  intros [H _]. vm_compute in H. apply H. reflexivity.
Qed.

(** * Program tables (C51, C52) *)

(** A program association table registers exactly the listed pids as program
    maps, replacing whatever they were, and nothing else. *)
Theorem ts_pat_registers :
  forall mem s k tid extid ver num last es crc rest,
    pk_fits k -> s_progs s (t_pid k) = Some PPat ->
    t_body k = section (t_pusi k =? 1) tid extid ver num last (pat_tbl es) crc rest ->
    byte tid -> 0 <= extid < 65536 -> 0 <= ver < 32 -> byte num -> byte last -> zlen crc = 4 ->
    Forall (fun e => 0 <= fst e < 65536 /\ 0 <= snd e < 8192) es ->
    exists s' o, ts_decode mem s (ts_bytes k) = (s', o, Ok tt) /\ s_queue s' = s_queue s /\ map p_data o = [ts_bytes k] /\
      forall q, s_progs s' q = if existsb (Z.eqb q) (map snd es) then Some PPmt else s_progs s q.
Proof.
  intros mem s k tid extid ver num last es crc rest Hf Ep Eb H1 H2 H3 H4 H5 Hc Hes.
  destruct (ts_decode_fits mem s k Hf) as (c & Ha & Hb & E). rewrite E. unfold ts_after. rewrite Ep. cbn [is_section prog_type].
  change ((TS_PROGRAM_PAT =? TS_PROGRAM_PAT) || (TS_PROGRAM_PAT =? TS_PROGRAM_PMT)) with true. rewrite andb_false_r. unfold ts_program.
  rewrite Eb in Ha. pose proof (psi_pat _ _ _ _ _ _ _ _ _ _ _ (s_progs s) Ha Hb (conj H1 (conj H2 (conj H3 (conj H4 H5)))) Hc Hes) as P.
  replace (if t_pusi k =? 1 then 1 else 0) with (t_pusi k) in P by (destruct (pusi_01 k (proj1 Hf)) as [->| ->]; reflexivity).
  rewrite P. eexists _, _. split; [reflexivity|]. split; [reflexivity|]. split; [reflexivity|]. intros q. cbn [set_progs s_progs]. apply pat_lookup.
Qed.
Print Assumptions ts_pat_registers.
(** A program map registers, for each pid that has no program yet, the first
    listed stream of a supported type, and changes nothing else. *)
Theorem ts_pmt_registers :
  forall mem s k tid extid ver num last pcr desc es crc rest,
    pk_fits k -> s_progs s (t_pid k) = Some PPmt ->
    t_body k = section (t_pusi k =? 1) tid extid ver num last (pmt_tbl pcr desc es) crc rest ->
    byte tid -> 0 <= extid < 65536 -> 0 <= ver < 32 -> byte num -> byte last -> zlen crc = 4 -> 0 <= pcr < 8192 ->
    Forall (fun e => byte (fst (fst e)) /\ 0 <= snd (fst e) < 8192 /\ zlen (snd e) < 4096) es ->
    exists s' o, ts_decode mem s (ts_bytes k) = (s', o, Ok tt) /\ s_queue s' = s_queue s /\ map p_data o = [ts_bytes k] /\
      forall q, s_progs s' q =
        match s_progs s q with
        | Some x => Some x
        | None => match find (fun e => (((fst e =? 0x0f) || (fst e =? 0x1b) || (fst e =? 0x24)) && (snd e =? q))) (map fst es) with
                  | Some e => Some (PPes (pes_new (fst e)))
                  | None => None
                  end
        end.
Proof.
  intros mem s k tid extid ver num last pcr desc es crc rest Hf Ep Eb H1 H2 H3 H4 H5 Hc Hp Hes.
  destruct (ts_decode_fits mem s k Hf) as (c & Ha & Hb & E). rewrite E. unfold ts_after. rewrite Ep. cbn [is_section prog_type].
  change ((TS_PROGRAM_PMT =? TS_PROGRAM_PAT) || (TS_PROGRAM_PMT =? TS_PROGRAM_PMT)) with true. rewrite andb_false_r. unfold ts_program.
  rewrite Eb in Ha. pose proof (psi_pmt _ _ _ _ _ _ _ _ _ _ _ _ _ (s_progs s) Ha Hb (conj H1 (conj H2 (conj H3 (conj H4 H5)))) Hc Hp Hes) as P.
  replace (if t_pusi k =? 1 then 1 else 0) with (t_pusi k) in P by (destruct (pusi_01 k (proj1 Hf)) as [->| ->]; reflexivity).
  rewrite P. eexists _, _. split; [reflexivity|]. split; [reflexivity|]. split; [reflexivity|]. intros q. cbn [set_progs s_progs]. apply pmt_lookup.
Qed.
Print Assumptions ts_pmt_registers.
(** A fresh demuxer: a PAT naming pid 4096, then the program map there naming
    H.264 on 256, AAC on 257 and an unsupported stream on 258. *)
Definition ex_pat : tsp := mktsp 0 1 0 0 0 0 None true
  (section true 0 1 0 0 0 (pat_tbl [(1, 4096)]) [1; 2; 3; 4] (repeat 255 (184 - 17))).
Definition ex_pmt : tsp := mktsp 0 1 0 4096 0 0 None true
  (section true 2 1 0 0 0 (pmt_tbl 256 [] [(0x1b, 256, []); (0x0f, 257, [10; 0]); (0x06, 258, [])]) [1; 2; 3; 4] (repeat 255 (184 - 34))).
Example ts_tables_case :
  exists s1 o1 s2 o2, ts_decode [] ts_new (ts_bytes ex_pat) = (s1, o1, Ok tt) /\ ts_decode [] s1 (ts_bytes ex_pmt) = (s2, o2, Ok tt) /\
    s_progs s2 256 = Some (PPes (pes_new 0x1b)) /\ s_progs s2 257 = Some (PPes (pes_new 0x0f)) /\ s_progs s2 258 = None.
Proof.
  assert (B : byte 0 /\ byte 2) by (unfold byte; lia). destruct B as [B0 B2].
  destruct (ts_pat_registers [] ts_new ex_pat 0 1 0 0 0 [(1, 4096)] [1; 2; 3; 4] (repeat 255 (184 - 17))) as (s1 & o1 & E1 & _ & _ & L1); try assumption; try lia; try reflexivity.
  { apply pk_check; [vm_compute; reflexivity|exact I]. } { repeat constructor; cbn; lia. }
  destruct (ts_pmt_registers [] s1 ex_pmt 2 1 0 0 0 256 [] [(0x1b, 256, []); (0x0f, 257, [10; 0]); (0x06, 258, [])] [1; 2; 3; 4] (repeat 255 (184 - 34)))
    as (s2 & o2 & E2 & _ & _ & L2); try assumption; try lia; try reflexivity.
  { apply pk_check; [vm_compute; reflexivity|exact I]. } { rewrite L1. reflexivity. }
  { repeat constructor; unfold byte; cbn; lia. }
  exists s1, o1, s2, o2. rewrite !L2, !L1. auto 10.
Qed.

(** The pointer field is skipped but not followed: the same table placed four
    bytes further, as the pointer field says, is not seen. *)
Theorem ts_pointer_field_followed_refuted :
  exists k s' o, pk_fits k /\ t_pusi k = 1 /\
    t_body k = [4; 0; 0; 0; 0] ++ section false 0 1 0 0 0 (pat_tbl [(1, 4096)]) [1; 2; 3; 4] (repeat 255 163) /\
    ts_decode [] ts_new (ts_bytes k) = (s', o, Ok tt) /\ s_progs s' 4096 = None.
Proof.
  exists (mktsp 0 1 0 0 0 0 None true ([4; 0; 0; 0; 0] ++ section false 0 1 0 0 0 (pat_tbl [(1, 4096)]) [1; 2; 3; 4] (repeat 255 163))).
  eexists _, _. split; [apply pk_check; [vm_compute; reflexivity|exact I]|]. split; [reflexivity|]. split; [reflexivity|].
  split; [vm_compute; reflexivity|reflexivity].
Qed.
Print Assumptions ts_pointer_field_followed_refuted.
(** The CRC is not verified: one changed bit in the table is believed. *)
Theorem ts_psi_crc_ignored :
  forall mem s k k' tid extid ver num last es crc crc' rest,
    pk_fits k -> pk_fits k' -> s_progs s (t_pid k) = Some PPat -> t_pid k' = t_pid k -> t_pusi k' = t_pusi k ->
    t_body k = section (t_pusi k =? 1) tid extid ver num last (pat_tbl es) crc rest ->
    t_body k' = section (t_pusi k =? 1) tid extid ver num last (pat_tbl es) crc' rest ->
    byte tid -> 0 <= extid < 65536 -> 0 <= ver < 32 -> byte num -> byte last -> zlen crc = 4 -> zlen crc' = 4 ->
    Forall (fun e => 0 <= fst e < 65536 /\ 0 <= snd e < 8192) es ->
    exists s1 s2 o1 o2, ts_decode mem s (ts_bytes k) = (s1, o1, Ok tt) /\ ts_decode mem s (ts_bytes k') = (s2, o2, Ok tt) /\
      forall q, s_progs s1 q = s_progs s2 q.
Proof.
  intros mem s k k' tid extid ver num last es crc crc' rest Hf Hf' Ep Epid Epu Eb Eb' H1 H2 H3 H4 H5 Hc Hc' Hes.
  destruct (ts_pat_registers mem s k tid extid ver num last es crc rest) as (s1 & o1 & E1 & _ & _ & L1); try assumption.
  rewrite <- Epu in Eb'. rewrite <- Epid in Ep.
  destruct (ts_pat_registers mem s k' tid extid ver num last es crc' rest) as (s2 & o2 & E2 & _ & _ & L2); try assumption.
  exists s1, s2, o1, o2. split; [exact E1|]. split; [exact E2|]. intros q. rewrite L1, L2. reflexivity.
Qed.
Print Assumptions ts_psi_crc_ignored.
Example ts_psi_crc_case : let k c := mktsp 0 1 0 0 0 0 None true (section true 0 1 0 0 0 (pat_tbl [(1, 4096)]) c (repeat 255 (184 - 17))) in
  pk_fits (k [1; 2; 3; 4]) /\ pk_fits (k [0; 0; 0; 0]) /\
  exists s1 o1 s2 o2, ts_decode [] ts_new (ts_bytes (k [1; 2; 3; 4])) = (s1, o1, Ok tt) /\ ts_decode [] ts_new (ts_bytes (k [0; 0; 0; 0])) = (s2, o2, Ok tt) /\
    s_progs s1 4096 = Some PPmt /\ s_progs s2 4096 = Some PPmt.
Proof.
  cbv zeta. split; [apply pk_check; [vm_compute; reflexivity|exact I]|]. split; [apply pk_check; [vm_compute; reflexivity|exact I]|].
  do 4 eexists. split; [vm_compute; reflexivity|]. split; [vm_compute; reflexivity|]. split; vm_compute; reflexivity.
Qed.
(** A table whose declared length fills the packet is read past its end. *)
Theorem ts_table_stays_inside_refuted :
  exists k, ts_ok k /\ t_pid k = 0 /\ snd (ts_decode [] ts_new (ts_bytes k)) = UB.
Proof.
  exists (mktsp 0 1 0 0 0 0 None true ([0] ++ be 8 (pack [(0, 8); (1, 1); (0, 1); (3, 2); (184, 12); (1, 16); (3, 2); (0, 5); (1, 1); (0, 8); (0, 8)]) ++ repeat 0 175)).
  split; [|split; [reflexivity|vm_compute; reflexivity]]. split; [vm_compute; reflexivity|]. split; [apply bytesb_spec; vm_compute; reflexivity|vm_compute; reflexivity].
Qed.
Print Assumptions ts_table_stays_inside_refuted.

(** C52 for every packet of the program association: whatever the pointer field says, the
    eight bytes after it are the header; the entries its length covers are registered (as
    whole entries) and four more bytes are read. *)
Theorem ts_pat_any : forall mem s k hd h es rest,
  pk_fits k -> s_progs s (t_pid k) = Some PPat -> zlen hd = t_pusi k -> t_body k = hd ++ sh_bytes h ++ entries es ++ rest ->
  fields_fit (sh_fields h) = true -> entries_fit es ->
  4 * zlen es - 4 < h_len h - 9 <= 4 * zlen es \/ es = [] /\ h_len h <= 9 -> 4 <= zlen rest ->
  exists s' o, ts_decode mem s (ts_bytes k) = (s', o, Ok tt) /\ map p_data o = [ts_bytes k] /\
    forall q, s_progs s' q = if existsb (Z.eqb q) (map snd es) then Some PPmt else s_progs s q.
Proof.
  intros mem s k hd h es rest Hf Ep Hd Eb Hh Hes Hl Hr. pose proof (zlen_nonneg es).
  destruct (ts_decode_fits mem s k Hf) as (c & Ha & Hb & E). rewrite E. unfold ts_after. rewrite Ep. cbn [is_section prog_type].
  change ((TS_PROGRAM_PAT =? TS_PROGRAM_PAT) || (TS_PROGRAM_PAT =? TS_PROGRAM_PMT)) with true. rewrite andb_false_r. unfold ts_program.
  rewrite Eb in Ha. assert (0 <= zlen hd <= 1) by (destruct (pusi_01 k (proj1 Hf)); lia).
  rewrite <- Hd, (psi_pat_any _ _ hd h es rest (s_progs s) Ha Hb Hh); [|assumption..|lia].
  destruct (Z.leb_spec 4 (zlen rest)); [|lia]. eexists _, _. split; [reflexivity|]. split; [reflexivity|]. intros q. cbn [set_progs s_progs].
  apply pat_lookup.
Qed.
Print Assumptions ts_pat_any.
(** The same table one byte further than the pointer field, or behind eight bytes 0 of
    filler that the pointer field says to skip: nothing is registered. *)
Example ts_pat_any_case :
  let rest := section false 0 1 0 0 0 (pat_tbl [(1, 4096)]) [1; 2; 3; 4] (repeat 255 159) in
  let k := mktsp 0 1 0 0 0 0 None true ([8] ++ sh_bytes (mksh 0 0 0 0 0 0 0 0 0 0 0) ++ entries [] ++ rest) in
  pk_fits k /\ exists s' o, ts_decode [] ts_new (ts_bytes k) = (s', o, Ok tt) /\ s_progs s' 4096 = None.
Proof.
  intros rest k. assert (Hk : pk_fits k) by (apply pk_check; [vm_compute; reflexivity|exact I]). split; [exact Hk|].
  destruct (ts_pat_any [] ts_new k [8] (mksh 0 0 0 0 0 0 0 0 0 0 0) [] rest) as (s' & o & E & _ & L);
    try reflexivity; [exact Hk|constructor|right; split; [reflexivity|cbn; lia]|vm_compute; discriminate|].
  exists s', o. split; [exact E|]. rewrite L. reflexivity.
Qed.
(** Less than four bytes behind the entries: read past the packet. *)
Theorem ts_pat_overruns : forall mem s k hd h es rest,
  pk_fits k -> s_progs s (t_pid k) = Some PPat -> zlen hd = t_pusi k -> t_body k = hd ++ sh_bytes h ++ entries es ++ rest ->
  fields_fit (sh_fields h) = true -> entries_fit es ->
  4 * zlen es - 4 < h_len h - 9 <= 4 * zlen es \/ es = [] /\ h_len h <= 9 -> zlen rest < 4 ->
  snd (ts_decode mem s (ts_bytes k)) = UB.
Proof.
  intros mem s k hd h es rest Hf Ep Hd Eb Hh Hes Hl Hr. pose proof (zlen_nonneg es). pose proof (zlen_nonneg rest).
  destruct (ts_decode_fits mem s k Hf) as (c & Ha & Hb & E). rewrite E. unfold ts_after. rewrite Ep. cbn [is_section prog_type].
  change ((TS_PROGRAM_PAT =? TS_PROGRAM_PAT) || (TS_PROGRAM_PAT =? TS_PROGRAM_PMT)) with true. rewrite andb_false_r. unfold ts_program.
  rewrite Eb in Ha. assert (0 <= zlen hd <= 1) by (destruct (pusi_01 k (proj1 Hf)); lia).
  rewrite <- Hd, (psi_pat_any _ _ hd h es rest (s_progs s) Ha Hb Hh); [|assumption..|lia].
  destruct (Z.leb_spec 4 (zlen rest)); [lia|]. reflexivity.
Qed.
Print Assumptions ts_pat_overruns.
(** A length of more than what is left of the packet: an error. *)
Theorem ts_pat_too_long : forall mem s k hd h rest,
  pk_fits k -> s_progs s (t_pid k) = Some PPat -> zlen hd = t_pusi k -> t_body k = hd ++ sh_bytes h ++ rest ->
  fields_fit (sh_fields h) = true -> 4 <= zlen rest < h_len h - 9 ->
  ts_decode mem s (ts_bytes k) = (set_progs s (s_progs s), [], Err ERROR_IO_NOT_ENOUGH).
Proof.
  intros mem s k hd h rest Hf Ep Hd Eb Hh Hl.
  destruct (ts_decode_fits mem s k Hf) as (c & Ha & Hb & E). rewrite E. unfold ts_after. rewrite Ep. cbn [is_section prog_type].
  change ((TS_PROGRAM_PAT =? TS_PROGRAM_PAT) || (TS_PROGRAM_PAT =? TS_PROGRAM_PMT)) with true. rewrite andb_false_r. unfold ts_program.
  rewrite Eb in Ha. assert (0 <= zlen hd <= 1) by (destruct (pusi_01 k (proj1 Hf)); lia).
  assert (h_len h < 4096). { unfold fields_fit, sh_fields in Hh. cbn [forallb fst snd] in Hh. change (2 ^ 12) with 4096 in Hh. repeat match goal with H : _ && _ = true |- _ => apply andb_prop in H as (? & ?) end. lia. }
  rewrite <- Hd, (psi_pat_long _ _ hd h rest (s_progs s) Ha Hb Hh); [reflexivity|assumption|lia..].
Qed.
Print Assumptions ts_pat_too_long.
(** Filler of bytes 255 behind the pointer field declares 4095 bytes and ends the session;
    a table that fills the packet, as multiplexers send it when it is long, is the overrun. *)
Example ts_pat_too_long_case :
  let k := mktsp 0 1 0 0 0 0 None true ([8] ++ sh_bytes (mksh 255 1 1 3 4095 65535 3 31 1 255 255) ++ section false 0 1 0 0 0 (pat_tbl [(1, 4096)]) [1; 2; 3; 4] (repeat 255 159)) in
  pk_fits k /\ snd (ts_decode [] ts_new (ts_bytes k)) = Err ERROR_IO_NOT_ENOUGH.
Proof. cbv zeta. split; [apply pk_check; [vm_compute; reflexivity|exact I]|vm_compute; reflexivity]. Qed.
Example ts_pat_overruns_case :
  let es := repeat (1, 7, 256) 43 in
  let h := mksh 0 1 0 3 181 1 3 0 1 0 0 in
  let k := mktsp 0 1 0 0 0 0 None true ([0] ++ sh_bytes h ++ entries es ++ [1; 2; 3]) in
  pk_fits k /\ fields_fit (sh_fields h) = true /\ 4 * zlen es - 4 < h_len h - 9 <= 4 * zlen es /\ snd (ts_decode [] ts_new (ts_bytes k)) = UB.
Proof.
  cbv zeta. split; [apply pk_check; [vm_compute; reflexivity|exact I]|]. split; [reflexivity|]. split; [|vm_compute; reflexivity].
  change (zlen (repeat (1, 7, 256) 43)) with 43. cbn. lia.
Qed.

(** A program map that goes on in the next packet, cut within the five bytes of an entry: the
    demuxer reads on behind the packet. *)
Theorem ts_pmt_split_overruns : forall mem s k hd h pcr desc es rest,
  pk_fits k -> s_progs s (t_pid k) = Some PPmt -> zlen hd = t_pusi k -> t_body k = hd ++ sh_bytes h ++ pmt_tbl pcr desc es ++ rest ->
  fields_fit (sh_fields h) = true -> 0 <= pcr < 8192 ->
  Forall (fun e => byte (fst (fst e)) /\ 0 <= snd (fst e) < 8192 /\ zlen (snd e) < 4096) es ->
  9 + zlen (pmt_tbl pcr desc es) < h_len h -> zlen rest < 5 ->
  snd (ts_decode mem s (ts_bytes k)) = UB.
Proof.
  intros mem s k hd h pcr desc es rest Hf Ep Hd Eb Hh Hp Hes Hl Hr. unfold pmt_tbl in Hl. rewrite !zlen_app, zlen_be in Hl.
  destruct (ts_decode_fits mem s k Hf) as (c & Ha & Hb & E). rewrite E. unfold ts_after. rewrite Ep. cbn [is_section prog_type].
  change ((TS_PROGRAM_PMT =? TS_PROGRAM_PAT) || (TS_PROGRAM_PMT =? TS_PROGRAM_PMT)) with true. rewrite andb_false_r. unfold ts_program.
  rewrite Eb in Ha. assert (0 <= zlen hd <= 1) by (destruct (pusi_01 k (proj1 Hf)); lia). rewrite <- Hd.
  pose proof (psi_pmt_cut _ _ hd h pcr desc es rest (s_progs s) Ha Hb Hh ltac:(assumption) Hp Hes ltac:(lia) Hr) as R.
  destruct (psi_decode PPmt (zlen hd) (s_progs s) c) as [f r]. cbn [snd] in R. subst r. reflexivity.
Qed.
Print Assumptions ts_pmt_split_overruns.
Example ts_pmt_split_case :
  let h := mksh 2 1 0 3 400 1 3 0 1 0 0 in
  let k := mktsp 0 1 0 4096 0 0 None true ([0] ++ sh_bytes h ++ pmt_tbl 256 [] [(27, 256, repeat 9 80); (15, 257, repeat 9 79)] ++ [6; 225]) in
  pk_fits k /\ fields_fit (sh_fields h) = true /\ snd (ts_decode [] (set_progs ts_new (add_program (s_progs ts_new) 4096 PPmt)) (ts_bytes k)) = UB.
Proof. cbv zeta. split; [apply pk_check; [vm_compute; reflexivity|exact I]|]. split; vm_compute; reflexivity. Qed.

(** * Raw forwarding (C53) *)

(** What viewers of the raw stream are given: accepted packets, unchanged and
    in order. *)
Theorem ts_forwards_verbatim :
  forall mem s ds s' o r, ts_run mem s ds = (s', o, r) -> subseq (map p_data o) ds.
Proof. intros. eapply run_forwards; eassumption. Qed.
Print Assumptions ts_forwards_verbatim.
Example ts_forwards_case : exists s' o, ts_run [] ts_new (map ts_bytes [ex_pat; ex_pk 300 0 7 [1]; ex_pmt]) = (s', o, Ok tt) /\
  map p_data o = map ts_bytes [ex_pat; ex_pmt].
Proof. eexists _, _. split; vm_compute; reflexivity. Qed.
(** The packet type given with it never tells a unit start. *)
Theorem ts_unit_start_not_marked :
  forall tp pusi pusi' d, 0 <= pusi <= 1 -> 0 <= pusi' <= 1 -> ts_on_packet tp pusi d = ts_on_packet tp pusi' d.
Proof.
  intros tp pusi pusi' d H H'. unfold ts_on_packet. replace (Z.shiftr pusi 31) with 0. replace (Z.shiftr pusi' 31) with 0. reflexivity.
  - symmetry. rewrite Z.shiftr_div_pow2 by lia. apply Z.div_small. split; [lia|]. apply Z.le_lt_trans with 1; [lia|reflexivity].
  - symmetry. rewrite Z.shiftr_div_pow2 by lia. apply Z.div_small. split; [lia|]. apply Z.le_lt_trans with 1; [lia|reflexivity].
Qed.
Print Assumptions ts_unit_start_not_marked.
Example ts_unit_start_case : ts_on_packet TS_PROGRAM_PES 0 [0x47] = ts_on_packet TS_PROGRAM_PES 1 [0x47].
Proof. apply ts_unit_start_not_marked; lia. Qed.

(** * Input chunking (C54) *)

(** However the transport cuts the bytes, the demuxer handles exactly the
    188-byte packets of the stream and stops at the first refused one or, with
    the error of the transport, at its end. *)
Theorem ts_demux_chunking :
  forall fuel mem s fill t ds tail, zlen fill = 188 -> nonempty_chunks (t_chunks t) ->
    Forall (fun d => zlen d = 188) ds -> zlen tail < 188 -> concat (t_chunks t) = concat ds ++ tail ->
    (length ds < fuel)%nat ->
    ts_demux fuel mem s (ts_reader fill t) =
      let '(s', o, x) := ts_run mem s ds in (s', o, match x with Ok _ => Err (t_err t) | e => e end).
Proof.
  intros fuel mem s fill t ds tail Hfill Hne Hd Ht Es Hf.
  rewrite (demux_chunks mem ds fuel s (ts_reader fill t) tail Hf); [reflexivity| |exact Hd|exact Ht|exact Es].
  unfold idle, br_ok, ts_reader, ab_cap; cbn [br_buf br_io ab_ptr ab_end ab_rw ab_data]. repeat split; try lia; try assumption. eauto.
Qed.
Print Assumptions ts_demux_chunking.
Example ts_demux_chunking_case :
  let bs := ts_bytes ex_pat ++ ts_bytes ex_pmt in
  snd (ts_demux 3 [] ts_new (ts_reader (repeat 0 188) (mktr [take 100 bs; drop 100 bs; [0x47]] 77))) = Err 77.
Proof.
  intros bs. rewrite (ts_demux_chunking 3 [] ts_new (repeat 0 188) _ [ts_bytes ex_pat; ts_bytes ex_pmt] [0x47]); try reflexivity.
  - vm_compute. repeat constructor; discriminate.
  - repeat constructor; vm_compute; reflexivity.
  - cbn [length]. lia.
Qed.
