(** RTMP sessions: the session object RtmpHook (src/avformat/sps_avformat_librtmp.cpp),
    the command decoder (src/avformat/sps_avformat_librtmp_packet.cpp) and the
    server's connect phase (src/module/rtmp/sps_rtmp_server_handler.cpp).

    librtmp is not in /repo (3rdparty/rtmpdump is an empty submodule), so its
    part is taken from outside: which messages it delivers and how many wire
    bytes each used, whether a send succeeds, and the values it finds in an AMF
    body.  Its own acknowledgements, handshake and chunk decoding are not
    modelled. *)
From Verif Require Import Base M_Text M_Rtmp M_Url.

(** ** AMF values as librtmp reports them

    A number keeps its 64 bits; [nm_int] is its value converted to int, [None]
    when the conversion is undefined.  Everything the server does not
    look at is [AOther].  (get_amf_prop compares p_UTCoffset instead of p_type
    with AMF_INVALID, librtmp_packet.cpp:41/53/65; the field is taken not to
    hold that value.) *)
Record num := mknum { nm_bits : Z; nm_int : option Z }.
Inductive amfv :=
| ANum (n : num) | AStr (s : list Z) | AObj (l : list (list Z * amfv)) | ANull | AOther.
(** AMF_Decode ([false]) and AMF3_Decode ([true]); [None]: negative result. *)
Definition amf_lib := bool -> list Z -> option (list amfv).

(** ** Commands, librtmp_packet.hpp: the packet classes a decode can create *)
Inductive cmd :=
| CConnect (txn : num) (app tc : list Z)
| CCreate (txn : num)
| CPlay (txn : num) (name : list Z)
| CPublish (txn : num) (name : list Z)
| CRelease (txn : num) (name : list Z)
| CFCPublish (txn : num) (name : list Z).

(** AMF_GetProp by name: the first property of that name. *)
Fixpoint amf_prop (k : list Z) (l : list (list Z * amfv)) : option amfv :=
  match l with
  | [] => None
  | (k', v) :: l' => if eqb_list k' k then Some v else amf_prop k l'
  end.
(** get_amf_string, librtmp_packet.cpp:83-88: a string property. *)
Definition amf_string (l : list (list Z * amfv)) (k : list Z) : option (list Z) :=
  match amf_prop k l with Some (AStr s) => Some s | _ => None end.
(** CommandRtmpPacket::from, :285-322, up to invoke_from: transaction id and
    command object ([None]: AMF null).  All its errors become the same code in
    convert_self. *)
Definition cmd_base (ps : list amfv) : option (num * option (list (list Z * amfv))) :=
  match ps with
  | AStr _ :: ANum t :: AObj o :: _ => Some (t, Some o)
  | AStr _ :: ANum t :: ANull :: _ => Some (t, None)
  | _ => None
  end.
(** ConnectRtmpPacket::invoke_from, :328-349.  With a null command object the
    properties are read from a union member that was never set. *)
Definition conn_from (ps : list amfv) : res cmd :=
  match cmd_base ps with
  | None => Err ERROR_RTMP_AMF_CMD_CONVERT
  | Some (_, None) => UB
  | Some (t, Some o) =>
      match amf_string o (str "app"), amf_string o (str "tcUrl") with
      | Some a, Some u => Ok (CConnect t a u)
      | _, _ => Err ERROR_RTMP_AMF_CMD_CONVERT
      end
  end.
(** CreateStreamRtmpPacket::invoke_from, :351-361. *)
Definition create_from (ps : list amfv) : res cmd :=
  match cmd_base ps with Some (t, _) => Ok (CCreate t) | None => Err ERROR_RTMP_AMF_CMD_CONVERT end.
(** NetStreamRtmpPacket::invoke_from, :363-386: the stream name. *)
Definition net_from (ps : list amfv) : option (num * list Z) :=
  match cmd_base ps with
  | Some (t, _) => match skipn 3 ps with AStr s :: _ => Some (t, s) | _ => None end
  | None => None
  end.
Definition net_cmd (mk : num -> list Z -> cmd) (ps : list amfv) : res cmd :=
  match net_from ps with Some (t, s) => Ok (mk t s) | None => Err ERROR_RTMP_AMF_CMD_CONVERT end.
(** PublishRtmpPacket::invoke_from, :396-417: with six and more values the fifth
    must be a string. *)
Definition publish_from (ps : list amfv) : res cmd :=
  match net_from ps with
  | None => Err ERROR_RTMP_AMF_CMD_CONVERT
  | Some (t, s) =>
      if 5 <? zlen ps
      then match skipn 4 ps with AStr _ :: _ => Ok (CPublish t s) | _ => Err ERROR_RTMP_AMF_CMD_CONVERT end
      else Ok (CPublish t s)
  end.
(** AmfRtmpPacket::convert_self, :209-274.  [Ok None]: a name it does not know. *)
Definition convert_self (ps : list amfv) : res (option cmd) :=
  match ps with
  | [] => Err ERROR_RTMP_AMF_CMD_CONVERT
  | AStr name :: _ =>
      let some (r : res cmd) := let? c := r in Ok (Some c) in
      if eqb_list name (str "connect") then some (conn_from ps)
      else if eqb_list name (str "createStream") then some (create_from ps)
      else if eqb_list name (str "play") then some (net_cmd CPlay ps)
      else if eqb_list name (str "publish") then some (publish_from ps)
      else if eqb_list name (str "releaseStream") then some (net_cmd CRelease ps)
      else if eqb_list name (str "FCPublish") then some (net_cmd CFCPublish ps)
      else Ok None
  | _ :: _ => Err ERROR_RTMP_AMF_PROP_TYPE
  end.
(** is_command, :464-469. *)
Definition is_command (t : Z) : bool :=
  (t =? RT_AMF0_DATA) || (t =? RT_AMF0_CMD) || (t =? RT_AMF3_DATA) || (t =? RT_AMF3_CMD).
(** RtmpPacketDecoder::decode, :481-531, with AmfRtmpPacket::decode, :181-207.
    [body = None]: the packet has no body although its size says [size]. *)
Definition rt_decode (lib : amf_lib) (t : Z) (body : option (list Z)) (size : Z) : res (option cmd) :=
  if t =? RT_CHUNK_SIZE then
    match body with None => if 4 <=? size then UB else Ok None | Some _ => Ok None end
  else if is_command t then
    match body with
    | None => if size =? 0 then Err ERROR_RTMP_AMF_CMD_CONVERT else UB
    | Some b =>
        match lib (t =? RT_AMF3_CMD) b with
        | None => Err ERROR_RTMP_AMF_DECODE
        | Some ps => convert_self ps
        end
    end
  else Ok None.

(** ** The session object, sps_avformat_librtmp.hpp:270-280 and the fields of
    librtmp's RTMP it uses *)
Record hook := mkhk {
  hk_in : Z;        (* m_inChunkSize *)
  hk_outc : Z;      (* m_outChunkSize *)
  hk_sbw : Z;       (* m_nServerBW *)
  hk_cbw : Z;       (* m_nClientBW *)
  hk_next : Z;      (* next_acked *)
  hk_bytes : Z      (* m_nBytesIn *)
}.
(** The constructor, librtmp.cpp:88-105; RTMP_Init sets both chunk sizes to the
    protocol default (librtmp). *)
Definition hook_new : hook := mkhk 128 128 6000000 5000000 5000000 0.

(** What the server sends besides media, by its meaning. *)
Inductive reply :=
| RWinAck (v : Z) | RPeerBW (v : Z) | RChunk (v : Z) | RConnResult (txn : num)
| RResult (txn : num) (id : Z) | RPlayStart | RPublishStart (txn : Z) | RSampleAccess
| RStreamBegin (sid : Z) | RAck (total : Z) | RPong (ts : Z).
(** Outcome of a send inside librtmp: done, or failed while [RtmpHook::error]
    holds [c] (0 when the failure was not the socket's). *)
Inductive sres := SOk | SFail (c : Z).
(** A session: the object, the outcomes of the sends to come (then all succeed)
    and what was sent. *)
Record sess := mkse { se_h : hook; se_sends : list sres; se_out : list reply }.

(** RTMP_SendPacket and the like. *)
Definition lib_send (s : sess) (r : reply) : sres * sess :=
  match se_sends s with
  | SFail c :: l => (SFail c, mkse (se_h s) l (se_out s))
  | _ => (SOk, mkse (se_h s) (tl (se_sends s)) (se_out s ++ [r]))
  end.
(** on_send_packet, librtmp.cpp:132-152: of what the server sends itself only
    Set Chunk Size is looked at. *)
Definition on_send (h : hook) (r : reply) : hook :=
  match r with
  | RChunk v => mkhk (hk_in h) v (hk_sbw h) (hk_cbw h) (hk_next h) (hk_bytes h)
  | _ => h
  end.
(** RtmpHook::send_packet, :553-563. *)
Definition send_packet (s : sess) (r : reply) : Z * sess :=
  match lib_send s r with
  | (SOk, s1) => (0, mkse (on_send (se_h s1) r) (se_sends s1) (se_out s1))
  | (SFail c, s1) => (c, s1)
  end.
(** send_peer_bandwidth, :192-202, and send_ack_window_size, :480-491. *)
Definition send_bw (s : sess) (r : reply) : Z * sess :=
  match lib_send s r with
  | (SOk, s1) => (0, s1)
  | (SFail c, s1) => ((if c =? 0 then ERROR_RTMP_NOT_CONNECT else c), s1)
  end.
(** send_pong, :412-420: the argument is not used.  After a successful send
    [error] is SUCCESS. *)
Definition send_pong (s : sess) (ts : Z) : Z * sess :=
  match lib_send s (RPong 0) with
  | (SOk, s1) => (0, s1)
  | (SFail c, s1) => (c, s1)
  end.
(** ack, :422-453; the result is ignored by its only caller.  The sum is an int. *)
Definition hk_ack (s : sess) : res unit * sess :=
  let h := se_h s in
  if hk_bytes h <? hk_next h then (Ok tt, s) else
  let nx := hk_bytes h + hk_cbw h in
  if (nx <? - 2 ^ 31) || (2 ^ 31 <=? nx) then (UB, s) else
  (Ok tt, snd (send_packet (mkse (mkhk (hk_in h) (hk_outc h) (hk_sbw h) (hk_cbw h) nx (hk_bytes h)) (se_sends s) (se_out s))
                           (RAck (hk_bytes h)))).
(** (int) AMF_DecodeInt32 of the first four bytes; no length check of its own. *)
Definition be32s (b : list Z) : Z := s32 (bev (take 4 b)).
(** on_recv_packet, :154-182. *)
Definition on_recv (s : sess) (m : rmsg) : res Z * sess :=
  let h := se_h s in
  let b := rm_body m in
  let go (h' : hook) :=
    match hk_ack (mkse h' (se_sends s) (se_out s)) with
    | (Ok _, s1) => (Ok 0, s1)
    | (Err c, s1) => (Err c, s1) | (UB, s1) => (UB, s1) | (Fuel, s1) => (Fuel, s1)
    end in
  if rm_type m =? RT_CHUNK_SIZE then
    if 4 <=? zlen b then go (mkhk (be32s b) (hk_outc h) (hk_sbw h) (hk_cbw h) (hk_next h) (hk_bytes h)) else go h
  else if rm_type m =? RT_CONTROL then
    if (6 <=? zlen b) && (bev (take 2 b) =? 6) then
      let '(c, s1) := send_pong s (bev (take 4 (drop 2 b))) in (Ok c, s1)
    else go h
  else if rm_type m =? RT_SERVER_BW then
    if zlen b <? 4 then (UB, s)
    else go (mkhk (hk_in h) (hk_outc h) (be32s b) (hk_cbw h) (hk_next h) (hk_bytes h))
  else if rm_type m =? RT_CLIENT_BW then
    if zlen b <? 4 then (UB, s)
    else go (mkhk (hk_in h) (hk_outc h) (hk_sbw h) (be32s b) (be32s b) (hk_bytes h))
  else go h.

(** What librtmp's reader reports: a complete message that used [n] bytes of
    the wire, or a failure while [RtmpHook::error] holds [c]; the packet then
    keeps a type and a size but has no body (:529-533). *)
Inductive rev := RvMsg (m : rmsg) (n : Z) | RvFail (c t size : Z).
(** m_nBytesIn is an int that librtmp adds to. *)
Definition hk_count (h : hook) (n : Z) : res hook :=
  if 2 ^ 31 <=? hk_bytes h + n then UB
  else Ok (mkhk (hk_in h) (hk_outc h) (hk_sbw h) (hk_cbw h) (hk_next h) (hk_bytes h + n)).
(** RtmpHook::recv_packet, :522-551: return value and session. *)
Definition hk_recv (s : sess) (ev : rev) : res Z * sess :=
  match ev with
  | RvFail c _ _ => (Ok c, s)
  | RvMsg m n =>
      match hk_count (se_h s) n with
      | Ok h => on_recv (mkse h (se_sends s) (se_out s)) m
      | _ => (UB, s)
      end
  end.
(** The packet recv_packet leaves for the decoder. *)
Definition ev_decode (lib : amf_lib) (ev : rev) : res (option cmd) :=
  match ev with
  | RvMsg m _ => rt_decode lib (rm_type m) (Some (rm_body m)) (zlen (rm_body m))
  | RvFail _ t size => rt_decode lib t None size
  end.
(** A session that only receives. *)
Fixpoint hk_run (s : sess) (evs : list rev) : res Z * sess :=
  match evs with
  | [] => (Ok 0, s)
  | ev :: l =>
      match hk_recv s ev with
      | (Ok c, s1) => if c =? 0 then hk_run s1 l else (Ok c, s1)
      | r => r
      end
  end.

(** ** The connect phase, sps_rtmp_server_handler.cpp:97-204 *)
Fixpoint send_list (s : sess) (l : list ((sess -> reply -> Z * sess) * reply)) : Z * sess :=
  match l with
  | [] => (0, s)
  | (f, r) :: l' => let '(c, s1) := f s r in if c =? 0 then send_list s1 l' else (c, s1)
  end.
(** How the phase ends: still waiting for the client, undefined behaviour, or
    the return value with the object's fields playing, publishing, tc_url and
    stream_params. *)
Inductive cend := CWait | CUB | CRet (ret : Z) (playing publishing : bool) (tc params : list Z).

(** The second loop, :145-201, with on_recv_create_stream :206-219,
    on_recv_play :221-248, on_recv_publish :250-275, on_recv_fcpublish :277-287
    and on_recv_release_stream :289-300.  The transaction id of play and publish is
    converted to int when passed on. *)
Fixpoint ph2 (lib : amf_lib) (s : sess) (tc : list Z) (evs : list rev) : cend * sess :=
  match evs with
  | [] => (CWait, s)
  | ev :: l =>
      match hk_recv s ev with
      | (Ok c, s1) =>
          if negb (c =? 0) then (CRet c false false tc [], s1) else
          match ev_decode lib ev with
          | Ok None | Ok (Some (CConnect _ _ _)) => ph2 lib s1 tc l
          | Ok (Some (CCreate t)) =>
              let '(c2, s2) := send_packet s1 (RResult t 1) in
              if c2 =? 0 then ph2 lib s2 tc l else (CRet c2 false false tc [], s2)
          | Ok (Some (CFCPublish t _)) | Ok (Some (CRelease t _)) =>
              let '(c2, s2) := send_packet s1 (RResult t 0) in
              if c2 =? 0 then ph2 lib s2 tc l else (CRet c2 false false tc [], s2)
          | Ok (Some (CPlay t name)) =>
              match nm_int t with
              | None => (CUB, s1)
              | Some _ =>
                  let '(c2, s2) := send_list s1 [(send_packet, RPlayStart); (send_packet, RSampleAccess); (send_packet, RStreamBegin 1)] in
                  (CRet c2 (c2 =? 0) false tc (str "/" ++ name), s2)
              end
          | Ok (Some (CPublish t name)) =>
              match nm_int t with
              | None => (CUB, s1)
              | Some z =>
                  let '(c2, s2) := send_list s1 [(send_packet, RPublishStart z); (send_packet, RStreamBegin 1)] in
                  (CRet c2 false (c2 =? 0) tc (str "/" ++ name), s2)
              end
          | Err e => (CRet e false false tc [], s1)
          | _ => (CUB, s1)
          end
      | (_, s1) => (CUB, s1)
      end
  end.
(** The answer to connect, :128-143. *)
Definition conn_answer (h : hook) (t : num) : list ((sess -> reply -> Z * sess) * reply) :=
  [(send_bw, RWinAck (hk_sbw h)); (send_bw, RPeerBW (hk_cbw h)); (send_packet, RChunk 128); (send_packet, RConnResult t)].
(** The first loop, :101-126, and the rest. *)
Fixpoint ph1 (lib : amf_lib) (s : sess) (evs : list rev) : cend * sess :=
  match evs with
  | [] => (CWait, s)
  | ev :: l =>
      match hk_recv s ev with
      | (Ok c, s1) =>
          if negb (c =? 0) then (CRet c false false [] [], s1) else
          match ev_decode lib ev with
          | Ok (Some (CConnect t _ tc)) =>
              let '(c2, s2) := send_list s1 (conn_answer (se_h s1) t) in
              if c2 =? 0 then ph2 lib s2 tc l else (CRet c2 false false tc [], s2)
          | Ok _ => ph1 lib s1 l
          | Err e => (CRet e false false [] [], s1)
          | _ => (CUB, s1)
          end
      | (_, s1) => (CUB, s1)
      end
  end.
(** RtmpPreRequest::connect on a session that has used [n0] bytes for the
    handshake. *)
Definition sess0 (n0 : Z) (sends : list sres) : sess :=
  mkse (mkhk 128 128 6000000 5000000 5000000 n0) sends [].
Definition pre_connect (lib : amf_lib) (n0 : Z) (sends : list sres) (evs : list rev) : cend * sess :=
  ph1 lib (sess0 n0 sends) evs.

(** RtmpContext, sps_rtmp_server.cpp:32-36 and RtmpPrepareHandler::handler,
    sps_rtmp_server_handler.cpp:50-83, after a handshake of [n0] bytes ([None]:
    it failed).  The context carries its own new session object. *)
Record rctx := mkrc { rc_hook : hook; rc_playing : bool; rc_publishing : bool; rc_req : ureq }.
Inductive pend := PWait | PUB | PErr (c : Z) | POk (ctx : rctx).
Definition rtmp_prepare (lib : amf_lib) (ul : url_lib) (n0 : option Z) (sends : list sres) (evs : list rev) : pend * list reply :=
  match n0 with
  | None => (PErr ERROR_RTMP_HANDSHAKE, [])
  | Some n =>
      let '(r, s) := pre_connect lib n sends evs in
      (match r with
       | CWait => PWait
       | CUB => PUB
       | CRet c pl pb tc params =>
           if negb (c =? 0) then PErr c else
           match parse_url ul rq_new (tc ++ params) with
           | (Ok e, rq) => if e =? 0 then POk (mkrc hook_new pl pb rq) else PErr e
           | _ => PUB
           end
       end, se_out s)
  end.
