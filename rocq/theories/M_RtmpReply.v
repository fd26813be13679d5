(** The messages RtmpHook itself writes (src/avformat/sps_avformat_librtmp.cpp),
    as handed to librtmp's RTMP_SendPacket: type, timestamp, message stream,
    chunk stream and body.

    librtmp's encoders (AMF_EncodeString and the like, RTMP_SendServerBW,
    RTMP_SendClientBW, RTMP_SendCtrl) are not in /repo; they are taken to write
    what their names say, and the AMF ones to return null instead of writing
    past the end they are given. *)
From Verif Require Import Base M_Text M_Rtmp M_Url M_RtmpSess.

(** ** Doubles.  An int as IEEE 754 bits (every int is exactly representable). *)
Definition int_dbl (z : Z) : Z :=
  if z =? 0 then 0 else
  let m := Z.abs z in
  let k := Z.log2 m in
  (if z <? 0 then 2 ^ 63 else 0) + (1023 + k) * 2 ^ 52 + (m - 2 ^ k) * 2 ^ (52 - k).
(** The C++ conversion of a double to int: towards zero; [None]: undefined,
    because the result is not an int (or there is none). *)
Definition dbl_int (bits : Z) : option Z :=
  let ex := (bits / 2 ^ 52) mod 2 ^ 11 in
  let m := 2 ^ 52 + bits mod 2 ^ 52 in
  if ex =? 2047 then None else
  let v := if ex <? 1023 then 0 else if ex <=? 1075 then m / 2 ^ (1075 - ex) else m * 2 ^ (ex - 1075) in
  let v := if bits / 2 ^ 63 =? 1 then - v else v in
  if (- 2 ^ 31 <=? v) && (v <? 2 ^ 31) then Some v else None.

(** ** Encoders into a buffer that has [cap] bytes behind RTMP_MAX_HEADER_SIZE = 18
    (librtmp).  A null result is used by the next call, hence [UB]; so is a plain
    store past the end. *)
Definition put (cap : Z) (e l : list Z) : res (list Z) := if cap <? zlen e + zlen l then UB else Ok (e ++ l).
(** AMF_EncodeString, AMF_EncodeNumber, AMF_EncodeBoolean (librtmp); no string of
    65536 bytes fits any of the buffers. *)
Definition e_str (cap : Z) (e s : list Z) : res (list Z) := put cap e (2 :: be 2 (zlen s) ++ s).
Definition e_num (cap : Z) (e : list Z) (bits : Z) : res (list Z) := put cap e (0 :: be 8 bits).
Definition e_bool (cap : Z) (e : list Z) (b : bool) : res (list Z) := put cap e [1; if b then 1 else 0].
(** AMF_EncodeNamedString, AMF_EncodeNamedNumber, AMF_EncodeNamedBoolean (librtmp). *)
Definition e_nstr (cap : Z) (e n s : list Z) : res (list Z) := let? e1 := put cap e (be 2 (zlen n) ++ n) in e_str cap e1 s.
Definition e_nnum (cap : Z) (e n : list Z) (bits : Z) : res (list Z) := let? e1 := put cap e (be 2 (zlen n) ++ n) in e_num cap e1 bits.
Definition e_nbool (cap : Z) (e n : list Z) (b : bool) : res (list Z) := let? e1 := put cap e (be 2 (zlen n) ++ n) in e_bool cap e1 b.
(** AMF_EncodeNull, AMF_EncodeStartObject, AMF_EncodeEndObject,
    sps_avformat_librtmp_packet.cpp:98-113. *)
Definition e_null (cap : Z) (e : list Z) : res (list Z) := put cap e [5].
Definition e_open (cap : Z) (e : list Z) : res (list Z) := put cap e [3].
Definition e_close (cap : Z) (e : list Z) : res (list Z) := put cap e [0; 0; 9].

(** Chunk stream ids, sps_avformat_librtmp_packet.hpp:59-61. *)
Definition CH_CONTROL := 2.
Definition CH_NET := 3.
Definition CH_DATA := 5.

(** send_play_start, librtmp.cpp:204-243. *)
Definition play_start_body : res (list Z) :=
  let cap := 512 - 18 in
  let? e := e_str cap [] (str "onStatus") in
  let? e := e_num cap e (int_dbl 0) in
  let? e := e_null cap e in
  let? e := e_open cap e in
  let? e := e_nstr cap e (str "level") (str "status") in
  let? e := e_nstr cap e (str "code") (str "NetStream.Play.Start") in
  let? e := e_nstr cap e (str "description") (str "Start live") in
  e_close cap e.
(** send_publish_start, :245-282; the argument is an int. *)
Definition publish_start_body (txn : Z) : res (list Z) :=
  let cap := 512 - 18 in
  let? e := e_str cap [] (str "onStatus") in
  let? e := e_num cap e (int_dbl txn) in
  let? e := e_null cap e in
  let? e := e_open cap e in
  let? e := e_nstr cap e (str "level") (str "status") in
  let? e := e_nstr cap e (str "code") (str "NetStream.Publish.Start") in
  let? e := e_nstr cap e (str "description") (str "Start publishing") in
  e_close cap e.
(** send_sample_access, :284-312. *)
Definition sample_access_body : res (list Z) :=
  let cap := 512 - 18 in
  let? e := e_str cap [] (str "|RtmpSampleAccess") in
  let? e := e_bool cap e true in
  e_bool cap e true.
(** send_stream_begin, :314-340. *)
Definition stream_begin_body (sid : Z) : res (list Z) :=
  let cap := 512 - 18 in
  let? e := put cap [] (be 2 0) in
  put cap e (be 4 sid).
(** send_connect_result, :342-410. *)
Definition connect_result_body (txn : Z) : res (list Z) :=
  let cap := 512 - 18 in
  let? e := e_str cap [] (str "_result") in
  let? e := e_num cap e txn in
  let? e := put cap e [3] in
  let? e := e_nstr cap e (str "fmsVer") (str "FMS/3,5,1,525") in
  let? e := e_nnum cap e (str "capabilities") (int_dbl 31) in
  let? e := put cap e [0] in
  let? e := put cap e [0] in
  let? e := put cap e [9] in
  let? e := put cap e [3] in
  let? e := e_nstr cap e (str "level") (str "status") in
  let? e := e_nstr cap e (str "code") (str "NetConnection.Connect.Success") in
  let? e := put cap e [0] in
  let? e := put cap e [0] in
  put cap e [9].
(** send_result, :455-478. *)
Definition result_body (txn id : Z) : res (list Z) :=
  let cap := 256 - 18 in
  let? e := e_str cap [] (str "_result") in
  let? e := e_num cap e txn in
  let? e := put cap e [5] in
  e_num cap e id.
(** send_set_chunked_size, :493-520; ack, :422-453. *)
Definition chunk_size_body (v : Z) : res (list Z) := put (64 - 18) [] (be 4 v).
Definition ack_body (v : Z) : res (list Z) := put (256 - 18) [] (be 4 v).

(** What is handed to librtmp for each reply of a session (M_RtmpSess.v).  Window
    and limit are librtmp's own messages (RTMP_SendServerBW, RTMP_SendClientBW with
    its default limit type 2), as is the pong (RTMP_SendCtrl with type 7); ack
    :431-441.  m_nInfoField2, the message stream, is 0 everywhere. *)
Definition reply_msg (r : reply) : res rmsg :=
  let msg ty ch (b : res (list Z)) := let? b := b in Ok (mkrm ty 0 0 ch b) in
  match r with
  | RWinAck v => msg RT_SERVER_BW CH_CONTROL (Ok (be 4 v))
  | RPeerBW v => msg RT_CLIENT_BW CH_CONTROL (Ok (be 4 v ++ [2]))
  | RChunk v => msg RT_CHUNK_SIZE CH_CONTROL (chunk_size_body v)
  | RConnResult t => msg RT_AMF0_CMD CH_NET (connect_result_body (nm_bits t))
  | RResult t id => msg RT_AMF0_CMD CH_NET (result_body (nm_bits t) (int_dbl id))
  | RPlayStart => msg RT_AMF0_CMD CH_NET play_start_body
  | RPublishStart z => msg RT_AMF0_CMD CH_NET (publish_start_body z)
  | RSampleAccess => msg RT_AMF0_DATA CH_DATA sample_access_body
  | RStreamBegin sid => msg RT_CONTROL CH_CONTROL (stream_begin_body sid)
  | RAck n => msg RT_ACK CH_CONTROL (ack_body n)
  | RPong n => msg RT_CONTROL CH_CONTROL (Ok (be 2 7 ++ be 4 n))
  end.

(** ** The client side: send_connect, :623-682, and create_stream, :684-711.
    [n] is the number of commands sent before (transaction_id).  Names are C strings
    (AMF_VAL_STRING, librtmp_packet.hpp:64-66). *)
Definition connect_body (n : Z) (app tc : list Z) : res (list Z) :=
  let cap := 256 - 18 in
  let? e := e_str cap [] (str "connect") in
  let? e := e_num cap e (int_dbl (n + 1)) in
  let? e := e_open cap e in
  let? e := e_nstr cap e (str "app") (cstr app) in
  let? e := e_nstr cap e (str "flashVer") (str "LNX 9,0,124,2") in
  let? e := e_nstr cap e (str "tcUrl") (cstr tc) in
  let? e := e_nbool cap e (str "fpad") false in
  let? e := e_nnum cap e (str "capabilities") (int_dbl 15) in
  let? e := e_nnum cap e (str "audioCodecs") (int_dbl 4071) in
  let? e := e_nnum cap e (str "videoCodecs") (int_dbl 252) in
  let? e := e_nnum cap e (str "objectEncoding") (int_dbl 0) in
  e_close cap e.
Definition create_body (n : Z) : res (list Z) :=
  let cap := 256 - 18 in
  let? e := e_str cap [] (str "createStream") in
  let? e := e_num cap e (int_dbl (n + 1)) in
  e_null cap e.
Definition connect_msg (n : Z) (app tc : list Z) : res rmsg :=
  let? b := connect_body n app tc in Ok (mkrm RT_AMF0_CMD 0 0 CH_NET b).
Definition create_msg (n : Z) : res rmsg := let? b := create_body n in Ok (mkrm RT_AMF0_CMD 0 0 CH_NET b).
