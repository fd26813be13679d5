(** RTMP media: demuxer, muxer and the FLV byte interface.  The chunk layer
    (librtmp, not part of /repo) is outside the model: messages arrive and
    leave whole. *)
From Verif Require Import Base M_IO M_Packet M_Flv.

(** WrapRtmpPacket over RTMPPacket,
    src/avformat/sps_avformat_librtmp_packet.hpp:91-114: packet type, absolute
    timestamp (uint32), message stream id, chunk channel and body.  librtmp
    leaves m_body null exactly when the body is empty. *)
Record rmsg := mkrm { rm_type : Z; rm_ts : Z; rm_sid : Z; rm_chan : Z; rm_body : list Z }.
Definition rm_has_body (m : rmsg) : bool := negb (zlen (rm_body m) =? 0).

(** Packet types, :35-56. *)
Definition RT_CHUNK_SIZE := 1.
Definition RT_ABORT := 2.
Definition RT_ACK := 3.
Definition RT_CONTROL := 4.
Definition RT_SERVER_BW := 5.
Definition RT_CLIENT_BW := 6.
Definition RT_AUDIO := 8.
Definition RT_VIDEO := 9.
Definition RT_AMF3_DATA := 15.
Definition RT_AMF3_CMD := 17.
Definition RT_AMF0_DATA := 18.
Definition RT_AMF0_CMD := 20.

(** is_video, is_audio, is_script, librtmp_packet.cpp:134-145. *)
Definition rm_video (m : rmsg) : bool := rm_has_body m && (rm_type m =? RT_VIDEO).
Definition rm_audio (m : rmsg) : bool := rm_has_body m && (rm_type m =? RT_AUDIO).
Definition rm_script (m : rmsg) : bool :=
  rm_has_body m && ((rm_type m =? RT_AMF0_DATA) || (rm_type m =? RT_AMF3_DATA)).

(** The reader over a message body: AVBuffer(data, size, size, true) without a
    transport, src/avformat/sps_avformat_rtmpdec.cpp:73-76. *)
Definition rm_reader (m : rmsg) : breader := mkbr (mkab (rm_body m) 0 (zlen (rm_body m)) true) None.

(** The assertion and AVPacket::create over the rest of the buffer, :130-135,
    :161-166, :170-175; [size] is the running data_size (size_t). *)
Definition rm_finish (st ptype dts pts flag codec size : Z) : rdm pkt := fun r =>
  if negb (u64 size =? ab_size (br_buf r)) then (UB, r) else
  match rdbytes r (ab_end (br_buf r) - ab_ptr (br_buf r)) with
  | Ok (d, r1) => (Ok (mkpkt AV_MESSAGE_DATA st ptype dts pts flag codec d), r1)
  | _ => (UB, r)
  end.

(** One message, RtmpDemuxer::read_packet :78-179; [None] is a skipped one. *)
Definition rtmp_demux_msg (m : rmsg) : option (res pkt) :=
  let size := zlen (rm_body m) in
  let dts := rm_ts m in
  if rm_video m then
    Some (fst ((let! _ := macquire 1 in
      let! flag := lift rd8 in
      let ftype := Z.land flag 0xf0 in
      let codec := Z.land flag 0x0f in
      if negb (codec =? CODEC_H264) && negb (codec =? CODEC_H265) then merr ERROR_FLV_VIDEO_CODECID else
      if negb (ftype =? 0x50) then
        let! _ := macquire 4 in
        let! ptype := lift rd8 in
        let! c := lift rd24 in
        rm_finish AV_STREAM_TYPE_VIDEO ptype dts (dts + flv_cts c) flag codec (size - 1 - 4)
      else rm_finish AV_STREAM_TYPE_VIDEO 0 dts dts flag codec (size - 1)) (rm_reader m)))
  else if rm_audio m then
    Some (fst ((let! _ := macquire 1 in
      let! flag := lift rd8 in
      let codec := Z.shiftr (Z.land flag 0xf0) 4 in
      if negb (codec =? CODEC_AAC) then merr ERROR_FLV_AUDIO_CODECID else
      let! ptype := lift rd8 in                                  (* no acquire, :157 *)
      rm_finish AV_STREAM_TYPE_AUDIO ptype dts dts flag codec (size - 2)) (rm_reader m)))
  else if rm_script m then
    Some (fst (rm_finish AV_STREAM_TYPE_SUBTITLE 0 dts dts 0 0 size (rm_reader m)))
  else None.

(** RtmpDemuxer::read_packet, :45-188: messages that arrive, then the error of
    the connection. *)
Fixpoint rtmp_read_packet (ms : list rmsg) (e : Z) : res pkt * list rmsg :=
  match ms with
  | [] => (Err e, [])
  | m :: ms' =>
      match rtmp_demux_msg m with
      | Some r => (r, ms')
      | None => rtmp_read_packet ms' e
      end
  end.
(** The consumer loop, src/module/stream/sps_stream.cpp:48-60. *)
Fixpoint rtmp_read_all (fuel : nat) (ms : list rmsg) (e : Z) : list pkt * res unit :=
  match fuel with
  | O => ([], Fuel)
  | S f =>
      match rtmp_read_packet ms e with
      | (Ok p, ms1) => let '(ps, x) := rtmp_read_all f ms1 e in (p :: ps, x)
      | (Err c, _) => ([], Err c)
      | (UB, _) => ([], UB)
      | (Fuel, _) => ([], Fuel)
      end
  end.

(** ** Muxer, RtmpAVMuxer::write_packet, src/avformat/sps_avformat_rtmpenc.cpp:47-152.
    The packet owns [head] (FLV_HEAD_TAG_SIZE = 20 bytes in front of the
    payload, sps_avformat_packet.cpp:39, sps_cache_buffer.cpp:39-49).  The
    prefix is written into it backwards from the payload; the head is shared
    by all players of the packet, so its new content is part of the result. *)
Definition push_front (head : list Z) (pre : list Z) : list Z :=
  take (zlen head - zlen pre) head ++ pre.
Definition rtmp_cts_bytes (pts dts : Z) : list Z :=       (* :119-125 *)
  let cts := s32 (Z.lxor (u32 (s32 (pts - dts) + 0xff800000)) 0xff800000) in
  [u8 (Z.land cts 0x0f00); u8 (Z.land cts 0xf0); u8 (Z.land cts 0x0f)].
(** [None]: nothing is sent. *)
Definition rtmp_write_packet (head : list Z) (p : pkt) : res (option rmsg) * list Z :=
  let send ty chan head1 k :=
    (Ok (Some (mkrm ty (u32 (p_dts p)) 1 chan (drop (zlen head1 - k) head1 ++ p_data p))), head1) in
  if is_script p then send RT_AMF0_DATA 4 head 0
  else if is_audio p then
    if zlen head <? 2 then (Err ERROR_RTMP_HEAD_TOO_SHORT, head) else
    send RT_AUDIO 4 (push_front head [u8 (p_flags p); if is_audio_seq p then 0 else 1]) 2
  else if is_video p then
    if zlen head <? 5 then (Err ERROR_RTMP_HEAD_TOO_SHORT, head) else
    if negb (Z.land (u8 (p_flags p)) 0xf0 =? 0x50) then
      send RT_VIDEO 6 (push_front head ([u8 (p_flags p); if is_video_seq p then 0 else 1]
                                          ++ rtmp_cts_bytes (p_pts p) (p_dts p))) 5
    else send RT_VIDEO 6 (push_front head [u8 (p_flags p)]) 1
  else (Ok None, head).                                   (* :141-144 *)

(** Several players write the same shared packet one after the other. *)
Fixpoint rtmp_write_shared (n : nat) (head : list Z) (p : pkt) : list (res (option rmsg)) * list Z :=
  match n with
  | O => ([], head)
  | S k => let '(r, h1) := rtmp_write_packet head p in
           let '(rs, h2) := rtmp_write_shared k h1 p in (r :: rs, h2)
  end.

(** ** FFmpegRtmpUrlProtocol, src/io/url/sps_io_url_rtmp_ffmpeg.cpp: RTMP
    messages as an FLV byte stream. *)

(** write_flv_tag, :52-69. *)
Definition flv_head11 (m : rmsg) : res (list Z) :=
  let? w := wr8 (mkbw [] 11) (rm_type m) in
  let? w := wr24 w (zlen (rm_body m)) in
  let? w := wr24 w (Z.land (rm_ts m) 0x00FFFFFF) in
  let? w := wr8 w (Z.shiftr (rm_ts m) 24) in
  let? w := wr24 w (rm_sid m) in
  Ok (bw_out w).

(** FLV header and first back pointer, :99-103. *)
Definition flv_header13 : list Z := [0x46; 0x4C; 0x56; 1; 5; 0; 0; 0; 9; 0; 0; 0; 0].

(** Members of the class (.hpp:57-63): the messages to come and the error
    after them, the current message ([None]: m_body null), its tag head, the
    offset and whether the header was read. *)
Record bridge := mkbg {
  bg_in : list rmsg; bg_err : Z;
  bg_cur : option (rmsg * list Z); bg_off : Z; bg_head : bool
}.
Definition bridge0 (ms : list rmsg) (e : Z) : bridge := mkbg ms e None 0 false.

(** The receive loop :123-146, from the point where a message is needed. *)
Fixpoint bg_next (ms : list rmsg) : option (rmsg * list rmsg) :=
  match ms with
  | [] => None
  | m :: ms' => if rm_video m || rm_audio m || rm_script m then Some (m, ms') else bg_next ms'
  end.

(** Copy to the caller, :148-179: tag head, body, back pointer. *)
Definition bg_copy (m : rmsg) (h : list Z) (off size : Z) : res (list Z * Z) :=
  let? a := (if negb (size =? 0) && (off <? 11)
             then let n := Z.min size (11 - off) in
                  let? d := of_opt (slice h off n) in Ok (d, size - n, off + n)
             else Ok ([], size, off)) in
  let '(d1, size1, off1) := a in
  let? b := (if negb (size1 =? 0) && (off1 <? 11 + zlen (rm_body m))
             then let n := Z.min size1 (zlen (rm_body m) + 11 - off1) in
                  let? d := of_opt (slice (rm_body m) (off1 - 11) n) in Ok (d, size1 - n, off1 + n)
             else Ok ([], size1, off1)) in
  let '(d2, size2, off2) := b in
  if 4 <=? size2
  then let? w := wr32 (mkbw [] 4) (zlen (rm_body m) + 11) in Ok (d1 ++ d2 ++ bw_out w, off2 + 4)
  else Ok (d1 ++ d2, off2).

(** FFmpegRtmpUrlProtocol::read, :98-182, for sizes below 2^31. *)
Definition bg_read (b : bridge) (size : Z) : res (list Z) * bridge :=
  if negb (bg_head b) then
    if size <? 13 then (Err ERROR_IO_NOT_ENOUGH, b)
    else (Ok flv_header13, mkbg (bg_in b) (bg_err b) (bg_cur b) (bg_off b) true)
  else
    let finish m h off ms :=
      match bg_copy m h off size with
      | Ok (d, off1) => (Ok d, mkbg ms (bg_err b) (Some (m, h)) off1 true)
      | _ => (UB, b)
      end in
    let fetch :=
      match bg_next (bg_in b) with
      | None => (Err (bg_err b), mkbg [] (bg_err b) None 0 true)
      | Some (m, ms) =>
          match flv_head11 m with
          | Ok h => finish m h 0 ms
          | _ => (UB, b)
          end
      end in
    match bg_cur b with
    | None => fetch
    | Some (m, h) =>
        if zlen (rm_body m) + 11 + 4 =? bg_off b then fetch else finish m h (bg_off b) (bg_in b)
    end.

(** A consumer that reads with the given sizes until the first error. *)
Fixpoint bg_run (b : bridge) (sizes : list Z) : list (list Z) * res unit * bridge :=
  match sizes with
  | [] => ([], Ok tt, b)
  | n :: ns =>
      match bg_read b n with
      | (Ok d, b1) => let '(ds, x, b2) := bg_run b1 ns in (d :: ds, x, b2)
      | (Err c, b1) => ([], Err c, b1)
      | (UB, b1) => ([], UB, b1)
      | (Fuel, b1) => ([], Fuel, b1)
      end
  end.

(** parser_flv_head, :36-49, on the rest of the caller's buffer. *)
Definition bw_head (r : breader) : res (Z * Z * Z * breader) :=
  if ab_size (br_buf r) <? 11 then Err ERROR_IO_NOT_ENOUGH else
  let? a := rd8 r in let? b := rd24 (snd a) in let? c := rd24 (snd b) in
  let? d := rd8 (snd c) in let? e := rd24 (snd d) in
  Ok (fst a, fst b, Z.lor (fst c) (u32 (Z.shiftl (fst d) 24)), snd e).

(** The loop of FFmpegRtmpUrlProtocol::write, :211-250; [oks] are the results
    of the sends to come (then all succeed), [e] the code of a failed one.
    Messages already sent stay sent. *)
Fixpoint bw_loop (fuel : nat) (r : breader) (oks : list bool) (e : Z) : list rmsg * res unit :=
  match fuel with
  | O => ([], Fuel)
  | S f =>
      if ab_size (br_buf r) <=? 0 then ([], Ok tt) else
      match bw_head r with
      | Ok (tag, dsize, ts, r1) =>
          if ab_size (br_buf r1) <? dsize + 4 then ([], Err ERROR_FLV_TAG) else
          match rdbytes r1 dsize with
          | Ok (body, r2) =>
              match rd32 r2 with
              | Ok (prev, r3) =>
                  if negb (prev =? dsize + 11) then ([], Err ERROR_FLV_TAG) else
                  let m := mkrm tag ts 1 (if (tag =? RT_AUDIO) || (tag =? RT_AMF0_DATA) then 4 else 6) body in
                  match oks with
                  | false :: _ => ([], Err e)
                  | _ => let '(ms, x) := bw_loop f r3 (tl oks) e in (m :: ms, x)
                  end
              | _ => ([], UB)
              end
          | _ => ([], UB)
          end
      | Err c => ([], Err c)
      | _ => ([], UB)
      end
  end.
(** FFmpegRtmpUrlProtocol::write, :184-253: [hd] is flv_head_read. *)
Definition bg_write (hd : bool) (buf : list Z) (oks : list bool) (e : Z) : list rmsg * res unit * bool :=
  if negb hd && (zlen buf <? 13) then ([], Err ERROR_FLV_TAG, hd) else
  let rest := if hd then buf else drop 13 buf in
  let '(ms, x) := bw_loop (S (length rest)) (mkbr (mkab rest 0 (zlen rest) false) None) oks e in
  (ms, x, true).
