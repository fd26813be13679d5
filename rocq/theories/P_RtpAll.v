(** Every RTP session: the packets it is made of, and exactly when it reads outside (C237). *)
From Verif Require Import Base M_Bits M_Fields M_Packet M_IO M_Cache M_Ts M_Rtp M_RtpDemux
  S_Bits S_Fields S_Rtp S_RtpDemux S_Ts L_Align L_Ts3 L_Rtp L_RtpDemux P_Rtp S_TsAll L_TsAll L_TsOut P_TsOut S_RtpAll L_RtpAll.

(** C237: whatever datagrams arrive (any number, any lengths, empty ones included), the
    session gives what it gives on the packets of S_RtpAll.v, each of 12 to 3000 bytes. *)
Theorem rtp_session_of_packets : forall fuel mem d q ds e,
  let '(gs, e') := gathered ERROR_SOCKET_READ [] ds e in
  Forall sized gs /\ rtp_read_all fuel mem (mkrd d q) ds e = rtp_read_all fuel mem (mkrd d q) gs e'.
Proof.
  intros fuel mem d q ds e. pose proof (gathered_sized ERROR_SOCKET_READ e ds [] eq_refl) as S1. pose proof (read_all_gathered mem e fuel d q ds) as R.
  destruct (gathered ERROR_SOCKET_READ [] ds e) as [gs e']. auto.
Qed.
Print Assumptions rtp_session_of_packets.

(** C237: any such packet gives its decoder exactly the payload of S_RtpAll.v, or is
    refused: for its length, or for its payload type. *)
Theorem rtp_packet_payload : forall (S : Type) (mtch : Z -> bool) (dec : rtp_hdr -> S -> bitctx -> S * emit) st l, bytes l -> 12 <= zlen l < 2 ^ 60 ->
  match rtp_body l with
  | None => irtp_decode mtch dec st l = (st, ([], Err ERROR_IO_NOT_ENOUGH))
  | Some b => if mtch (nth 1 l 0 mod 128) then exists h c, al l c b /\ irtp_decode mtch dec st l = dec h st c
              else irtp_decode mtch dec st l = (st, ([], Err ERROR_RTP_PAYLOAD_TYPE))
  end.
Proof. intros S. exact irtp_exact. Qed.
Print Assumptions rtp_packet_payload.

(** C237: one packet, any decoder in any reachable state. *)
Theorem rtp_packet_outside : forall mem now d l, mem_ok mem -> bytes mem -> zlen mem < 2 ^ 32 -> dec_ok mem d -> bytes l -> 12 <= zlen l < 2 ^ 60 ->
  let '(d1, (ps, r)) := rtp_datagram mem now d l in
  r <> Fuel /\ (r = UB <-> datagram_outside mem d l) /\ (r = Ok tt -> dec_ok mem d1).
Proof. exact datagram_exact. Qed.
Print Assumptions rtp_packet_outside.

(** C237: a whole session of arbitrary datagrams ends, and it ends in a read outside if and
    only if one of its packets, reached with all earlier ones accepted, is such a packet. *)
Theorem rtp_session_outside_exactly : forall mem d ds e, mem_ok mem -> bytes mem -> zlen mem < 2 ^ 32 -> dec_ok mem d -> Forall (fun x => bytes (snd x)) ds ->
  exists out, (forall fuel, (length (fst out) < fuel)%nat -> rtp_read_all fuel mem (mkrd d []) ds e = out) /\ snd out <> Fuel /\
    (snd out = UB <-> exists pre now l post d1,
       fst (gathered ERROR_SOCKET_READ [] ds e) = pre ++ (now, l) :: post /\ accepted mem d pre = Some d1 /\ datagram_outside mem d1 l).
Proof.
  intros mem d ds e Hm Hb H32 Hd Hby. pose proof (gathered_sized ERROR_SOCKET_READ e ds [] eq_refl) as S1.
  assert (B0 : bytes []) by constructor. pose proof (gathered_bytes ERROR_SOCKET_READ e ds [] B0 Hby) as B1.
  set (gs := fst (gathered ERROR_SOCKET_READ [] ds e)) in *. set (e' := snd (gathered ERROR_SOCKET_READ [] ds e)).
  exists (flow (dec_run mem d gs) e'). split.
  - intros fuel Hf. rewrite read_all_gathered. fold gs e'. rewrite (read_all_flow mem e' fuel d [] gs S1 Hf). cbn [app]. destruct (flow (dec_run mem d gs) e'). reflexivity.
  - exact (flow_outside mem e' Hm Hb H32 gs d Hd S1 B1).
Qed.
Print Assumptions rtp_session_outside_exactly.

(** C237: an audio session therefore reads outside only for a source description. *)
Theorem rtp_aac_outside_only_sdes : forall mem ds e, mem_ok mem -> bytes mem -> zlen mem < 2 ^ 32 -> Forall (fun x => bytes (snd x)) ds ->
  exists out, (forall fuel, (length (fst out) < fuel)%nat -> rtp_read_all fuel mem (mkrd DAac []) ds e = out) /\
    (snd out = UB -> exists now l, In (now, l) (fst (gathered ERROR_SOCKET_READ [] ds e)) /\ is_sdes l).
Proof.
  intros mem ds e Hm Hb H32 Hby. destruct (rtp_session_outside_exactly mem DAac ds e Hm Hb H32 I Hby) as (out & A & _ & B). exists out. split; [exact A|].
  intros U. apply B in U. destruct U as (pre & now & l & post & d1 & -> & Ac & O). exists now, l. split; [apply in_elt|].
  assert (K : forall p, accepted mem DAac p = Some d1 -> d1 = DAac).
  { induction p as [|[n x] p IH]; cbn [accepted]; [congruence|]. unfold rtp_datagram. destruct (is_rtcp (nth 1 x 0)).
    - destruct (rtcp_decode x); try discriminate; exact IH.
    - cbn [rtp_dec]. destruct (aac_rtp_decode x) as [ps r]. destruct r; try discriminate; exact IH. }
  rewrite (K pre Ac) in O. unfold datagram_outside in O. destruct (control l); [exact O|]. destruct O as (b & _ & []).
Qed.
Print Assumptions rtp_aac_outside_only_sdes.

(** A new session: three datagrams of four bytes make one packet; a datagram of payload
    type 33 whose transport packet slips (C236) makes the session read outside, and so
    does a source description; a packet with fifteen sources it does not hold is refused. *)
Definition rtp_slip : list Z := [0x80; 33; 0; 1; 0; 0; 0; 2; 0; 0; 0; 3] ++ ts_bytes slip_pat.
Example rtp_all_cases :
  gathered ERROR_SOCKET_READ [] [(1, [0x80; 33; 0; 1]); (2, [0; 0; 0; 2]); (3, [0; 0; 0; 3]); (4, rtp_slip); (5, []); (6, [1])] 9 =
    ([(3, [0x80; 33; 0; 1; 0; 0; 0; 2; 0; 0; 0; 3]); (4, rtp_slip)], ERROR_SOCKET_READ) /\
  rtp_body rtp_slip = Some (ts_bytes slip_pat) /\ (forall mem, datagram_outside mem DNone rtp_slip) /\
  snd (rtp_read_all 5 [] (mkrd DNone []) [(4, rtp_slip)] 9) = UB /\
  snd (rtp_read_all 5 [] (mkrd DNone []) [(1, [0x80; 33; 0; 1]); (2, [0; 0; 0; 2]); (3, [0; 0; 0; 3]); (4, rtp_slip)] 9) = UB /\
  rtp_body (0x8F :: drop 1 (take 40 rtp_slip)) = None /\
  rtp_read_all 5 [] (mkrd DNone []) [(4, 0x8F :: drop 1 (take 40 rtp_slip))] 9 = ([], Err ERROR_IO_NOT_ENOUGH) /\
  dec_ok [] DNone /\ bytes rtp_slip /\ (exists mem, mem_ok mem /\ bytes mem /\ zlen mem < 2 ^ 32).
Proof.
  split; [vm_compute; reflexivity|]. split; [vm_compute; reflexivity|]. split.
  { intros mem. unfold datagram_outside. replace (control rtp_slip) with false by reflexivity. exists (ts_bytes slip_pat).
    split; [vm_compute; reflexivity|]. split; [reflexivity|]. exists [], slip_pat, [], ts_new, [].
    split; [rewrite app_nil_r; reflexivity|]. split; [constructor|]. split; [apply ts_out_cases|]. split; [reflexivity|].
    right.
    exact (proj1 (proj2 (proj2 ts_out_cases)) mem). }
  split; [vm_compute; reflexivity|]. split; [vm_compute; reflexivity|]. split; [vm_compute; reflexivity|]. split; [vm_compute; reflexivity|].
  split; [exact I|]. split; [apply bytesb_spec; vm_compute; reflexivity|].
  exists (repeat 0 (Z.to_nat TS_DEFAULT_PES)). unfold mem_ok. rewrite zlen_repeat, Z2Nat.id by (unfold TS_DEFAULT_PES; lia).
  split; [lia|]. split; [|reflexivity]. apply Forall_forall. intros x Hx. apply repeat_spec in Hx. subst x. split; [discriminate|reflexivity].
Qed.
