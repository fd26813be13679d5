(** Model of the RTP demuxer, src/avformat/sps_avformat_rtpdec.cpp:65-150, and
    the MPEG-TS payload decoder, src/avformat/sps_avformat_rtpdec_ts.cpp. *)
From Verif Require Import Base M_Bits M_Fields M_Packet M_Cache M_H264 M_AAC M_Ts M_Rtp.

(** RTP_MAX_LENGTH, src/avformat/sps_avformat_rtp.hpp:32. *)
Definition RTP_MAX_LENGTH : Z := 3000.

(** TsDemuxer::decode_packet, src/avformat/sps_avformat_tsdec.cpp:101-121.
    Without a packet handler (rtpdec_ts.cpp:33) nothing is forwarded. *)
Fixpoint ts_decode_packets (fuel : nat) (mem : list Z) (s : tsst) (l : list Z) : tsst * res unit :=
  if zlen l =? 0 then (s, Ok tt) else
  if zlen l <? SPS_TS_PACKET_SIZE then (s, Err ERROR_TS_PACKET_SIZE) else
  match fuel with
  | O => (s, Fuel)
  | S f =>
      let '(s1, _, r) := ts_decode mem s (take SPS_TS_PACKET_SIZE l) in
      match r with
      | Ok _ => ts_decode_packets f mem s1 (drop SPS_TS_PACKET_SIZE l)
      | e => (s1, e)
      end
  end.
(** MpegtsRtpDecodder::decode, rtpdec_ts.cpp:40-56: the queue of the TS demuxer
    is emptied (TsDemuxer::pop, tsdec.cpp:123-131) only after success. *)
Definition ts_rtp_payload (mem : list Z) (h : rtp_hdr) (s : tsst) (c : bitctx) : tsst * emit :=
  match bc_peek c (bc_size c) with
  | Ok d =>
      let '(s1, r) := ts_decode_packets (length d) mem s d in
      match r with
      | Ok _ => (mktss (s_progs s1) (s_adts s1) [], (s_queue s1, Ok tt))
      | e => (s1, ([], e))
      end
  | Err e => (s, ([], Err e)) | UB => (s, ([], UB)) | Fuel => (s, ([], Fuel))
  end.

(** The member rtp_decoder, rtpdec.hpp:85. *)
Inductive rdec := DNone | DH264 (st : option cbuf) | DAac | DTs (s : tsst).
(** RtpDemuxer::init_codec, rtpdec.cpp:71-86 (AVCODEC_H264 = 7, AVCODEC_AAC = 10,
    src/avcodec/sps_avcodec_parser.hpp:35-37): the case of AAC has no break. *)
Definition rtp_init_codec (d : rdec) (codec : Z) : rdec * Z :=
  if codec =? 7 then (DH264 None, 0)
  else if codec =? 10 then (DAac, ERROR_RTP_PROBE)
  else (d, ERROR_RTP_PROBE).
(** rtp_decoder->decode(p, len, pkts), :135. *)
Definition rtp_dec (mem : list Z) (now : Z) (d : rdec) (buf : list Z) : rdec * emit :=
  match d with
  | DNone => (DNone, ([], UB))                        (* not reached *)
  | DH264 st => let '(st1, e) := h264_rtp_decode mem now st buf in (DH264 st1, e)
  | DAac => (DAac, aac_rtp_decode buf)
  | DTs s => let '(s1, e) := irtp_decode is_rtp_mpegts (ts_rtp_payload mem) s buf in (DTs s1, e)
  end.
(** One datagram, :119-137, with init_rtp_decode, :88-96; [buf] has twelve
    bytes or more.  The text printed for RTCP packets (rtcp.cpp:231) is left out. *)
Definition rtp_datagram (mem : list Z) (now : Z) (d : rdec) (buf : list Z) : rdec * emit :=
  let pay_type := nth 1 buf 0 in
  if is_rtcp pay_type then
    (d, ([], match rtcp_decode buf with Ok _ => Ok tt | Err c => Err c | UB => UB | Fuel => Fuel end))
  else
    match d with
    | DNone => if pay_type =? 33 then rtp_dec mem now (DTs ts_new) buf else (DNone, ([], Err ERROR_RTP_PROBE))
    | _ => rtp_dec mem now d buf
    end.

(** Members of RtpDemuxer besides the buffer, which every round clears (:106). *)
Record rtpst := mkrd { rd_dec : rdec; rd_pkts : list pkt }.
(** RtpDemuxer::read_packet, :102-142, on a UDP socket
    (src/sys/st/io/sps_sys_st_io_udp.cpp:160-183: a datagram longer than the
    room is cut, an empty one is an error) that receives the datagrams [ds],
    each with the clock value of its decoding, and then fails with [e].
    [acc]: what the current round has acquired (BytesReader::acquire of 12
    bytes, src/io/sps_io_bytes.cpp:164-200; the cleared buffer needs no
    rewind).  On an error of the socket the errno cases are not told apart. *)
Fixpoint rtp_read (mem : list Z) (st : rtpst) (acc : list Z) (ds : list (Z * list Z)) (e : Z)
  : res pkt * rtpst * list (Z * list Z) :=
  match rd_pkts st with
  | p :: q => (Ok p, mkrd (rd_dec st) q, ds)
  | [] =>
      match ds with
      | [] => (Err e, st, [])
      | (now, d) :: ds' =>
          if zlen d =? 0 then (Err ERROR_SOCKET_READ, st, ds') else
          let acc1 := acc ++ take (RTP_MAX_LENGTH - zlen acc) d in
          if zlen acc1 <? 12 then rtp_read mem st acc1 ds' e else
          let '(dec1, (ps, r)) := rtp_datagram mem now (rd_dec st) acc1 in
          match r with
          | Ok _ => rtp_read mem (mkrd dec1 ps) [] ds' e
          | Err c => (Err c, mkrd dec1 ps, ds')
          | UB => (UB, mkrd dec1 ps, ds')
          | Fuel => (Fuel, mkrd dec1 ps, ds')
          end
      end
  end.
(** StreamDecoder::decode, src/module/stream/sps_stream.cpp:49-57: packets until
    the first error (stop() is not called). *)
Fixpoint rtp_read_all (fuel : nat) (mem : list Z) (st : rtpst) (ds : list (Z * list Z)) (e : Z) : list pkt * res unit :=
  match fuel with
  | O => ([], Fuel)
  | S f =>
      match rtp_read mem st [] ds e with
      | (Ok p, st1, ds1) => let '(ps, x) := rtp_read_all f mem st1 ds1 e in (p :: ps, x)
      | (Err c, _, _) => ([], Err c)
      | (UB, _, _) => ([], UB)
      | (Fuel, _, _) => ([], Fuel)
      end
  end.
