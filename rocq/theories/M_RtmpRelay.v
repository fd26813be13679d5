(** RTMP streaming after the connect phase: publishing into and playing out of
    the server (src/module/rtmp/sps_rtmp_stream_handler.cpp with
    src/module/stream/sps_stream_handler.cpp and sps_stream.cpp), and a whole
    RTMP connection (src/module/rtmp/sps_rtmp_module.cpp). *)
From Verif Require Import Base M_Text M_Packet M_Rtmp M_Url M_RtmpSess M_Conf M_Host M_Stream.

(** RtmpServerStreamHandler::handler, sps_rtmp_stream_handler.cpp:55-75, the part
    compiled without FFmpeg (:69-74): the request's extension becomes "-". *)
Definition rtmp_req (r : ureq) : ureq :=
  mkrq (rq_url r) (rq_method r) (rq_schema r) (rq_port r) (rq_host r) (rq_path r) (str "-") (rq_params r) (rq_pp r) (rq_headers r).

(** ** Publishing *)
(** How reading ends: the client has sent nothing more, undefined behaviour, or
    an error. *)
Inductive dend := DWait | DUB | DEnd (c : Z).
(** StreamDecoder::decode, sps_stream.cpp:37-60, with RtmpDemuxer::read_packet,
    src/avformat/sps_avformat_rtmpdec.cpp:45-188, over RtmpUrlProtocol::read,
    src/io/url/sps_io_url_rtmp.cpp:77-85, and RtmpHook::recv_packet: the packets
    put into the cache.  A packet without a body is no media (:84, :137, :168). *)
Fixpoint rtmp_decode (s : sess) (evs : list rev) : list pkt * dend * sess :=
  match evs with
  | [] => ([], DWait, s)
  | ev :: l =>
      match hk_recv s ev with
      | (Ok c, s1) =>
          if negb (c =? 0) then ([], DEnd c, s1) else
          match ev with
          | RvFail _ _ _ => rtmp_decode s1 l
          | RvMsg m _ =>
              match rtmp_demux_msg m with
              | None => rtmp_decode s1 l
              | Some (Ok p) => let '(ps, x, s2) := rtmp_decode s1 l in (p :: ps, x, s2)
              | Some (Err c2) => ([], DEnd c2, s1)
              | Some _ => ([], DUB, s1)
              end
          end
      | (_, s1) => ([], DUB, s1)
      end
  end.

(** ** Playing *)
(** A player's connection: the results of the sends to come (then all succeed),
    the packets written so far and the messages sent. *)
Record rplay := mkrp { rp_sends : list sres; rp_n : nat; rp_out : list rmsg }.
(** RtmpUrlProtocol::write, sps_io_url_rtmp.cpp:87-95, and RtmpHook::send_packet,
    src/avformat/sps_avformat_librtmp.cpp:557-563: media types change nothing in
    on_send_packet (:132-152); a failed send returns the socket's error, which
    is 0 when the socket did not fail. *)
Definition rp_send (w : rplay) (m : rmsg) : Z * rplay :=
  match rp_sends w with
  | SFail c :: l => (c, mkrp l (rp_n w) (rp_out w))
  | _ => (0, mkrp (tl (rp_sends w)) (rp_n w) (rp_out w ++ [m]))
  end.
(** RtmpAVMuxer::write_packet, src/avformat/sps_avformat_rtmpenc.cpp:47-152, in
    M_Rtmp.v; [heads n] is what the head room of the [n]-th packet holds. *)
Definition rp_put (heads : nat -> list Z) (w : rplay) (p : pkt) : res Z * rplay :=
  let w1 := mkrp (rp_sends w) (S (rp_n w)) (rp_out w) in
  match fst (rtmp_write_packet (heads (rp_n w)) p) with
  | Ok None => (Ok 0, w1)
  | Ok (Some m) => let '(c, w2) := rp_send w1 m in (Ok c, w2)
  | Err c => (Ok c, w1) | UB => (UB, w1) | Fuel => (Fuel, w1)
  end.
(** The packets of one dump, sps_stream.cpp:91-98. *)
Fixpoint rp_batch (heads : nat -> list Z) (w : rplay) (ps : list pkt) : res Z * rplay :=
  match ps with
  | [] => (Ok 0, w)
  | p :: ps' =>
      match rp_put heads w p with
      | (Ok c, w1) => if c =? 0 then rp_batch heads w1 ps' else (Ok c, w1)
      | e => e
      end
  end.
(** StreamEncoder::encode, sps_stream.cpp:72-102, with the RTMP muxer, whose
    header is empty (sps_avformat_rtmpenc.cpp:42-44).  [None]: it waits. *)
Fixpoint rp_loop (heads : nat -> list Z) (w : rplay) (dumps : list (list pkt)) : option (res Z) * rplay :=
  match dumps with
  | [] => (None, w)
  | [] :: _ => (Some (Ok ERROR_SOCKET_TIMEOUT), w)
  | ps :: ds =>
      match rp_batch heads w ps with
      | (Ok c, w1) => if c =? 0 then rp_loop heads w1 ds else (Some (Ok c), w1)
      | (x, w1) => (Some x, w1)
      end
  end.

(** ** The stream phase *)
(** What the handler meets: the registered streams, start_edge's result and
    whether the stream exists then, what the client sends, what the sends
    return, the player's dumps and its packets' head rooms. *)
Record rworld := mkrw {
  rw_taken : list Z -> bool; rw_edge : Z * bool; rw_evs : list rev; rw_sends : list sres;
  rw_dumps : list (list pkt); rw_heads : nat -> list Z
}.
(** What it does: the return value ([None]: still running), the packets put
    into the stream it registered ([None]: it registered none) and the media
    messages sent. *)
Record rout := mkro { ro_ret : option (res Z); ro_put : option (list pkt); ro_sent : list rmsg }.
Definition ro_end {A} (r : res A) : rout :=
  mkro (Some (match r with Err c => Ok c | Fuel => Fuel | _ => UB end)) None [].
(** StreamHandler::handler, sps_stream_handler.cpp:50-53, on an RTMP connection:
    publish :55-85, play :87-119.  Of the registered formats only RTMP's matches
    the extension "-" ([fmt_match] in M_Url.v). *)
Definition rtmp_stream (ins outs : list (list Z)) (h : cmod) (ctx : rctx) (e : rworld) : rout :=
  let r := rtmp_req (rc_req ctx) in
  if rc_publishing ctx then
    match publish_start ins h r (rw_taken e) with
    | Ok _ =>
        let '(ps, x, _) := rtmp_decode (mkse (rc_hook ctx) (rw_sends e) []) (rw_evs e) in
        mkro (match x with DWait => None | DUB => Some UB | DEnd c => Some (Ok c) end) (Some ps) []
    | x => ro_end x
    end
  else
    match play_start outs h r (rw_taken e) (rw_edge e) with
    | Ok _ =>
        let '(x, w) := rp_loop (rw_heads e) (mkrp (rw_sends e) O []) (rw_dumps e) in mkro x None (rp_out w)
    | x => ro_end x
    end.

(** ** A whole connection *)
(** The phases of an RTMP server, RtmpModule::install, sps_rtmp_module.cpp:91-99:
    connecting (M_RtmpSess.v), finding the host
    (src/module/host/sps_host_router_handler.cpp:39-53; without one
    RtmpServer404Handler::handler, sps_rtmp_server_handler.cpp:40-44), streaming.
    Result: what happened and the replies of the connect phase. *)
Inductive rconn := RcWait | RcUB | RcErr (c : Z) | RcStream (o : rout).
Definition rtmp_conn (lib : amf_lib) (ul : url_lib) (ins outs : list (list Z)) (rt : hrouter)
    (n0 : option Z) (sends : list sres) (evs : list rev) (e : rworld) : rconn * list reply :=
  let '(p, out) := rtmp_prepare lib ul n0 sends evs in
  (match p with
   | PWait => RcWait
   | PUB => RcUB
   | PErr c => RcErr c
   | POk ctx =>
       match find_host rt (rq_host (rc_req ctx)) with
       | None => RcErr ERROR_UPSTREAM_NOT_FOUND
       | Some h => RcStream (rtmp_stream ins outs h ctx e)
       end
   end, out).
