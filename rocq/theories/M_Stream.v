(** Model of the stream requests: who may publish and play
    (src/module/stream/sps_stream_handler.cpp), the player's loop
    (src/module/stream/sps_stream.cpp), the answers over HTTP
    (src/module/http/sps_http_stream_phase_handler.cpp), over SRT
    (src/module/srt/sps_srt_stream_handler.cpp), and pulling from an origin
    (src/module/stream/sps_stream_edge.cpp). *)
From Verif Require Import Base M_Text M_IO M_Packet M_Flv M_Http M_Conf M_Url M_Host M_Srt.

(** ** Decisions *)
(** HostModule::publish, src/module/host/sps_host_module.cpp:78-81. *)
Definition is_source (h : cmod) : bool := eqb_list (opt_str h (str "role")) (str "source").

(** StreamHandler::publish, sps_stream_handler.cpp:55-80, up to the new cache:
    the format the upload is read with.  [taken]: is a stream registered. *)
Definition publish_start (fmts : list (list Z)) (h : cmod) (r : ureq) (taken : list Z -> bool) : res (list Z) :=
  if negb (is_source h) || negb (support_publish h (rq_ext r)) then Err ERROR_STREAM_PUBLISH_NOT_SUPPORT else
  let? f := fmt_find fmts (rq_ext r) in
  match f with
  | None => Err ERROR_AVFORMAT_DEMUX_NOT_EXISTS
  | Some f => if taken (cache_key r) then Err ERROR_HTTP_HAS_SOURCE else Ok f
  end.
(** SrtServerStreamHandler::publish, sps_srt_stream_handler.cpp:52-68, up to
    the new caches.  The host is not consulted. *)
Definition srt_publish_start (h : cmod) (r : ureq) (taken : list Z -> bool) : res unit :=
  if taken (srt_key r) then Err ERROR_RTMP_HAS_SOURCE else Ok tt.

(** StreamHandler::play, sps_stream_handler.cpp:87-109, up to the encoder: the
    format to play.  [edge] is what start_edge returns and whether the stream
    is registered after it. *)
Definition play_start (fmts : list (list Z)) (h : cmod) (r : ureq) (taken : list Z -> bool) (edge : Z * bool)
  : res (list Z) :=
  let '(ret, present) :=
    if negb (taken (cache_key r)) && is_edge h then edge else (0, taken (cache_key r)) in
  if negb present || negb (ret =? 0) then Err ERROR_STREAM_SOURCE_NOT_EXITS else
  let? f := fmt_find fmts (rq_ext r) in
  match f with
  | None => Err ERROR_AVFORMAT_ENCODER_NOT_EXISTS
  | Some f => Ok f
  end.

(** ** The player's loop *)
(** The FLV tag head and the size of the tag's body: the part of
    FlvAVMuxer::write_packet, src/avformat/sps_avformat_flvenc.cpp:73-152, before
    the first write.  (M_Flv has the same code with its own writer;
    [flv_write_packet_head] in L_Stream.v says so.) *)
Definition flv_head (m : flvmux) (p : pkt) (tag : Z) : res (list Z * Z) :=
  let? w := wr32 (mkbw [] 29) (fm_prev m) in
  let? w := wr8 w tag in
  let? w := wr_raw w [0; 0; 0] in
  let? w := wr24 w (Z.land (p_dts p) 0x00FFFFFF) in
  let? w := wr8 w (Z.shiftr (Z.land (p_dts p) 0xFF000000) 24) in
  let? w := wr24 w 0 in
  let? x :=
    (if is_script p then Ok (w, u32 (zlen (p_data p)))
     else if is_audio p then
       let? w := wr8 w (p_flags p) in
       let? w := wr8 w (p_ptype p) in
       Ok (w, u32 (zlen (p_data p) + 2))
     else
       let? w := wr8 w (p_flags p) in
       if negb (Z.land (p_flags p) 0xf0 =? 0x50) then
         let? w := wr8 w (p_ptype p) in
         let? w := wr24 w (p_pts p - p_dts p) in
         Ok (w, u32 (zlen (p_data p) + 1 + 4))
       else Ok (w, u32 (zlen (p_data p) + 1))) in
  Ok (flv_patch_size (bw_out (fst x)) (snd x), snd x).

(** The muxers a player can get, src/install/sps_install_avformat.cpp:46-70
    (without FFmpeg): FLV; RTMP over a socket that is no RTMP session, whose
    writer is then null (RtmpAVMuxer::RtmpAVMuxer,
    src/avformat/sps_avformat_rtmpenc.cpp:37-40); and the plain writes of the
    SRT player, sps_srt_stream_handler.cpp:110-116. *)
Inductive mux := XFlv (m : flvmux) | XRtmpNull | XRaw.
Definition mux_of (fmt : list Z) : mux := if eqb_list fmt (str "flv") then XFlv flvmux0 else XRtmpNull.

Section Player.
(** The socket written to. *)
Context {W : Type} (wr : W -> list Z -> res unit * W).

(** FlvAVMuxer::write_packet, sps_avformat_flvenc.cpp:73-175. *)
Definition flv_put (m : flvmux) (p : pkt) (w : W) : res unit * flvmux * W :=
  match flv_tag_type (p_stream p) with
  | None => (Err ERROR_FLV_UNKNOWN_TAG_TYPE, m, w)
  | Some tag =>
      if (is_video p && fm_fvideo m) || (is_audio p && fm_faudio m) || (is_script p && fm_fmeta m)
      then (Ok tt, m, w)
      else
        let m1 := mkfm 11 (fm_fvideo m) (fm_faudio m) (fm_fmeta m) in
        match flv_head m p tag with
        | Ok (hd, dsize) =>
            match wr w hd with
            | (Ok _, w1) =>
                match wr w1 (p_data p) with
                | (Ok _, w2) => (Ok tt, mkfm (u32 (11 + dsize)) (fm_fvideo m) (fm_faudio m) (fm_fmeta m), w2)
                | (e, w2) => (e, m1, w2)
                end
            | (e, w1) => (e, m1, w1)
            end
        | Err c => (Err c, m1, w) | UB => (UB, m1, w) | Fuel => (Fuel, m1, w)
        end
  end.
(** write_header with a null packet: FLV, sps_avformat_flvenc.cpp:44-71; RTMP,
    sps_avformat_rtmpenc.cpp:42-44. *)
Definition mux_header (x : mux) (w : W) : res unit * W :=
  match x with XFlv _ => wr w flv_default_header | _ => (Ok tt, w) end.
(** write_packet.  The RTMP muxer, sps_avformat_rtmpenc.cpp:47-152, with a null
    writer dereferences it at :146 for every packet it sends; the 20 bytes of
    head room every packet has (sps_avformat_packet.cpp:39) pass its checks. *)
Definition mux_packet (x : mux) (p : pkt) (w : W) : res unit * mux * W :=
  match x with
  | XFlv m => let '(r, m1, w1) := flv_put m p w in (r, XFlv m1, w1)
  | XRtmpNull => if is_script p || is_audio p || is_video p then (UB, x, w) else (Ok tt, x, w)
  | XRaw => let '(r, w1) := wr w (p_data p) in (r, x, w1)
  end.
(** The packets of one dump, sps_stream.cpp:91-98, sps_srt_stream_handler.cpp:110-116. *)
Fixpoint enc_batch (x : mux) (ps : list pkt) (w : W) : res unit * mux * W :=
  match ps with
  | [] => (Ok tt, x, w)
  | p :: ps' =>
      match mux_packet x p w with
      | (Ok _, x1, w1) => enc_batch x1 ps' w1
      | e => e
      end
  end.
(** The loop, sps_stream.cpp:81-101, sps_srt_stream_handler.cpp:100-117, over the
    results of the successive dumps (each empty only after the 10 seconds'
    wait).  [None]: the loop waits for the next one. *)
Fixpoint enc_loop (x : mux) (dumps : list (list pkt)) (w : W) : option (res Z) * mux * W :=
  match dumps with
  | [] => (None, x, w)
  | [] :: _ => (Some (Ok ERROR_SOCKET_TIMEOUT), x, w)
  | ps :: ds =>
      match enc_batch x ps w with
      | (Ok _, x1, w1) => enc_loop x1 ds w1
      | (Err c, x1, w1) => (Some (Ok c), x1, w1)
      | (UB, x1, w1) => (Some UB, x1, w1)
      | (Fuel, x1, w1) => (Some Fuel, x1, w1)
      end
  end.
(** StreamEncoder::encode, sps_stream.cpp:72-102. *)
Definition encode (x : mux) (dumps : list (list pkt)) (w : W) : option (res Z) * W :=
  match mux_header x w with
  | (Ok _, w1) => let '(r, _, w2) := enc_loop x dumps w1 in (r, w2)
  | (Err c, w1) => (Some (Ok c), w1)
  | (UB, w1) => (Some UB, w1)
  | (Fuel, w1) => (Some Fuel, w1)
  end.
End Player.

(** SrtServerStreamHandler::play, sps_srt_stream_handler.cpp:87-122: the raw
    cache's packets, one write each. *)
Definition srt_play {W} (wr : W -> list Z -> res unit * W) (present : bool) (dumps : list (list pkt)) (w : W)
  : option (res Z) * W :=
  if negb present then (Some (Ok ERROR_RTMP_HAS_SOURCE), w)
  else let '(r, _, w1) := enc_loop wr XRaw dumps w in (r, w1).

(** ** Over HTTP *)
(** What the handler meets: the registered streams when the request arrives,
    start_edge's result and whether the stream exists then, the player's dumps,
    and what decoding an accepted upload returns ([None]: still running). *)
Record world := mkw {
  w_taken : list Z -> bool; w_edge : Z * bool; w_dumps : list (list pkt); w_decode : option (res Z)
}.
(** The response socket as a writer. *)
Definition hr_wr (reason : Z -> list Z) (w : hrsp * sink) (d : list Z) : res unit * (hrsp * sink) :=
  let '(r, h1, s1) := hr_write reason (fst w) (snd w) d in (r, (h1, s1)).
(** A fresh HttpResponseSocket after init(200, nullptr, -1, false),
    sps_http_stream_phase_handler.cpp:45-49. *)
Definition rsp200 : hrsp := mkhr 200 false (-1) false [].
(** The 403 and 404 answers, :52-66: init with no length and no chunking, then
    write_header; its result is the handler's. *)
Definition answer (reason : Z -> list Z) (status : Z) (w : hrsp * sink) : option (res Z) * (hrsp * sink) :=
  let '(r, h1, s1) := hr_write_header reason (hr_init (fst w) status None (-1) false) (snd w) in
  (Some (match r with Ok _ => Ok 0 | Err c => Ok c | UB => UB | Fuel => Fuel end), (h1, s1)).
(** StreamHandler::handler, sps_stream_handler.cpp:50-53, with the response
    socket as its io. *)
Definition stream_request (reason : Z -> list Z) (ins outs : list (list Z)) (h : cmod) (r : ureq) (e : world)
    (w : hrsp * sink) : option (res Z) * (hrsp * sink) :=
  if eqb_list (rq_method r) (str "POST") then
    match publish_start ins h r (w_taken e) with
    | Ok _ => (w_decode e, w)
    | Err c => (Some (Ok c), w) | UB => (Some UB, w) | Fuel => (Some Fuel, w)
    end
  else
    match play_start outs h r (w_taken e) (w_edge e) with
    | Ok f => encode (hr_wr reason) (mux_of f) (w_dumps e) w
    | Err c => (Some (Ok c), w) | UB => (Some UB, w) | Fuel => (Some Fuel, w)
    end.
(** HttpStreamPhaseHandler::handler, sps_http_stream_phase_handler.cpp:39-69. *)
Definition http_stream (reason : Z -> list Z) (ins outs : list (list Z)) (h : cmod) (r : ureq) (e : world)
    (s : sink) : option (res Z) * sink :=
  let '(ret, w) := stream_request reason ins outs h r e (rsp200, s) in
  let '(ret, w) :=
    match ret with
    | Some (Ok c) =>
        if c =? ERROR_STREAM_PUBLISH_NOT_SUPPORT then answer reason 403 w
        else if c =? ERROR_STREAM_SOURCE_NOT_EXITS then answer reason 404 w
        else (ret, w)
    | _ => (ret, w)
    end in
  (ret, snd w).

(** ** Pulling from an origin *)
(** StreamEdgeEnter::start_edge, sps_stream_edge.cpp:125-149: address and port
    to connect to, and the request sent there; [None]: the URL was refused and
    no edge is started. *)
Definition edge_target (lib : url_lib) (h : cmod) (r : ureq) : res (option (list Z * Z * ureq)) :=
  let port0 := if eqb_list (rq_schema r) (str "rtmp") then 1935
               else if eqb_list (rq_schema r) (str "https") then 443 else 80 in
  let '(ip, port) := proxy_info h port0 in
  let url := match opt_str h (str "pass_url") with
             | [] => rq_schema r ++ str "://" ++ opt_str h (str "pass_proxy") ++ rq_url r
             | u => u
             end in
  match url_from lib url with
  | (Ok c, q) => if c =? 0 then Ok (Some (ip, port, q)) else Ok None
  | (Err c, _) => Err c | (UB, _) => UB | (Fuel, _) => Fuel
  end.
(** The address the protocols connect to: the host when the address is empty,
    src/io/url/sps_io_url_http.cpp:61-66, sps_io_url_rtmp.cpp:44-48. *)
Definition connect_addr (ip : list Z) (q : ureq) : list Z := match ip with [] => rq_host q | _ => ip end.

(** The registered URL protocols, src/install/sps_install_url_protocols.cpp:34-39,
    chosen by schema (sps_io_url_protocol.cpp:44-57). *)
Inductive upkind := UHttp | UFile | URtmp.
Definition up_kind (schema : list Z) : option upkind :=
  if eqb_list schema (str "http") then Some UHttp
  else if eqb_list schema (str "file") then Some UFile
  else if eqb_list schema (str "rtmp") then Some URtmp else None.
(** What an edge does: it ends with a code without a stream, or the stream
    appears, read with a format. *)
Inductive edge_out := EEnded (code : Z) | EStream (fmt : list Z).
(** StreamEdge::handler, sps_stream_edge.cpp:45-76.  [opened]: result of open;
    [status]: status of an HTTP answer.  response() is null for files
    (sps_io_url_file.cpp:66-68) and RTMP (sps_io_url_rtmp.cpp:97-99) and is
    dereferenced at :61; a missing demuxer (probe gives none,
    src/avformat/sps_avformat_dec.cpp:51-53) is dereferenced at :72. *)
Definition edge_handler (fmts : list (list Z)) (q : ureq) (opened status : Z) : res edge_out :=
  match up_kind (rq_schema q) with
  | None => Ok (EEnded 0)
  | Some k =>
      if negb (opened =? 0) then Ok (EEnded opened) else
      match k with
      | UHttp =>
          if negb (status =? 200) then Ok (EEnded 0) else
          let? f := fmt_find fmts (rq_ext q) in
          match f with None => UB | Some f => Ok (EStream f) end
      | _ => UB
      end
  end.

(** The SRT socket as a writer (StSrtSocket::write,
    src/sys/st/io/sps_sys_st_io_srt.cpp:751-753, in M_Srt.v): [evs n] is what the
    library does during the [n]-th write; the messages sent so far. *)
Definition srt_wr (evs : nat -> list ssnd) (w : nat * list (list Z)) (d : list Z) : res unit * (nat * list (list Z)) :=
  let '(ms, r) := srt_write (evs (fst w)) d in (r, (S (fst w), snd w ++ ms)).
