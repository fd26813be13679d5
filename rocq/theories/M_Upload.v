(** FLV uploads as an HTTP client sends them: the demuxer reads the body of a
    request, with its framing, over a plain or a TLS connection.  The layers are
    programs over "read at most n bytes" (M_Https.v), stacked as the sockets are:
    FlvDemuxer over HttpResponseSocket (whose read is Socket::read,
    src/io/sps_io_socket.cpp:96-98) over HttpRequestSocket over the connection
    (src/module/http/sps_http_stream_phase_handler.cpp:42-47). *)
From Verif Require Import Base M_IO M_Packet M_Flv M_Http M_Tls M_Https.

(** A program that reads the body of a request: every read goes through
    HttpRequestSocket::read (src/module/http/sps_http_socket.cpp:45-71), which
    keeps [b]. *)
Fixpoint over_body {A} (p : prog A) (b : hbody) : prog (res A) :=
  match p with
  | PRet a => PRet (Ok a)
  | PRead n k ke =>
      pbind (rq_prog b n) (fun x =>
        match x with
        | (Ok d, b1) => over_body (k d) b1
        | (Err c, b1) => over_body (ke c) b1
        | (UB, _) => PRet UB
        | (Fuel, _) => PRet Fuel
        end)
  end.

(** ** The FLV demuxer over any reader; the text is that of M_Flv.v, with the
    buffer as state and reads as steps of the program. *)
Definition pgm (A : Type) := avbuf -> prog (res A * avbuf).
Definition gret {A} (a : A) : pgm A := fun b => PRet (Ok a, b).
Definition gerr {A} (c : Z) : pgm A := fun b => PRet (Err c, b).
Definition gbind {A B} (m : pgm A) (f : A -> pgm B) : pgm B := fun b =>
  pbind (m b) (fun x =>
    match x with
    | (Ok a, b1) => f a b1
    | (Err c, b1) => PRet (Err c, b1)
    | (UB, b1) => PRet (UB, b1)
    | (Fuel, b1) => PRet (Fuel, b1)
    end).
Notation "'let+' x ':=' m 'in' k" := (gbind m (fun x => k))
  (at level 200, x pattern, m at level 100, k at level 200).
(** A function of the buffer alone. *)
Definition glift {A} (f : breader -> res (A * breader)) : pgm A := fun b =>
  match f (mkbr b None) with
  | Ok (a, r1) => PRet (Ok a, br_buf r1)
  | Err c => PRet (Err c, b) | UB => PRet (UB, b) | Fuel => PRet (Fuel, b)
  end.
(** BytesReader::acquire, src/io/sps_io_bytes.cpp:164-200. *)
Fixpoint acq_loop_prog (fuel : nat) (b : avbuf) (n : Z) : prog (res unit * avbuf) :=
  match fuel with
  | O => PRet (Fuel, b)
  | S f =>
      PRead (ab_remain b)
        (fun d =>
           match ab_store b (ab_end b) d with
           | Ok b1 =>
               let b2 := mkab (ab_data b1) (ab_ptr b1) (ab_end b1 + zlen d) (ab_rw b1) in
               if ab_size b2 <? n then acq_loop_prog f b2 n else PRet (Ok tt, b2)
           | _ => PRet (UB, b)
           end)
        (fun c => PRet (Err c, b))
  end.
Definition gacquire (n : Z) : pgm unit := fun b =>
  if n <=? ab_size b then PRet (Ok tt, b) else
  if ab_cap_size b <? n then PRet (Err ERROR_IO_BUFFER_FULL, b) else
  match (if ab_norewind b <? n then ab_rewind b else Ok b) with
  | Ok b1 => if ab_norewind b1 <? n then PRet (UB, b) else acq_loop_prog (S (Z.to_nat n)) b1 n
  | _ => PRet (UB, b)
  end.
(** FlvDemuxer::read_header, src/avformat/sps_avformat_flvdec.cpp:41-74. *)
Definition flv_header_prog : pgm pkt :=
  let+ _ := gacquire 9 in
  let+ d := glift (fun r => rdbytes r 9) in
  match d with
  | a :: b :: c :: _ :: f :: _ =>
      if (a =? 0x46) && (b =? 0x4C) && (c =? 0x56)
      then gret (mkpkt AV_MESSAGE_HEADER AV_STREAM_TYPE_NB 0 0 0 f 0 d)
      else fun b => PRet (Err ERROR_FLV_PROBE, ab_skip b (-9))
  | _ => fun b => PRet (UB, b)
  end.
(** FlvDemuxer::read_packet, sps_avformat_flvdec.cpp:76-208. *)
Definition flv_packet_prog : pgm pkt :=
  let+ _ := gacquire 15 in
  let+ _prev := glift rd32 in
  let+ tag := glift rd8 in
  let+ dsize := glift rd24 in
  let+ dlow := glift rd24 in
  let+ dhigh := glift rd8 in
  let dts := Z.lor dlow (Z.shiftl dhigh 24) in
  let+ _sid := glift rd24 in
  let+ _ := gacquire dsize in
  let finish st ptype pts flags codec size : pgm pkt :=
    if size <=? 0 then gerr ERROR_FLV_TAG else
    let+ d := glift (fun r => rdbytes r size) in
    gret (mkpkt AV_MESSAGE_DATA st ptype dts pts flags codec d) in
  if tag =? 8 then
    let+ flags := glift rd8 in
    let codec := Z.shiftr (Z.land flags 0xf0) 4 in
    if negb (codec =? CODEC_AAC) then gerr ERROR_FLV_AUDIO_CODECID else
    let+ ptype := glift rd8 in
    finish AV_STREAM_TYPE_AUDIO ptype dts flags codec (dsize - 2)
  else if tag =? 9 then
    let+ flags := glift rd8 in
    let ftype := Z.land flags 0xf0 in
    let codec := Z.land flags 0x0f in
    if negb (codec =? CODEC_H264) && negb (codec =? CODEC_H265) then gerr ERROR_FLV_VIDEO_CODECID else
    if negb (ftype =? 0x50) then
      let+ ptype := glift rd8 in
      let+ cts := glift rd24 in
      finish AV_STREAM_TYPE_VIDEO ptype (dts + flv_cts cts) flags codec (dsize - 1 - 4)
    else finish AV_STREAM_TYPE_VIDEO 0 0 flags codec (dsize - 1)
  else if tag =? 18 then finish AV_STREAM_TYPE_SUBTITLE 0 0 0 0 dsize
  else gerr ERROR_FLV_UNKNOWN_TAG_TYPE.
(** StreamDecoder::decode, src/module/stream/sps_stream.cpp:37-60: the packets put
    into the cache, and the error that ends it. *)
Fixpoint flv_all_prog (fuel : nat) (b : avbuf) : prog (list pkt * res unit) :=
  match fuel with
  | O => PRet ([], Fuel)
  | S f =>
      pbind (flv_packet_prog b) (fun x =>
        match x with
        | (Ok p, b1) => pbind (flv_all_prog f b1) (fun y => PRet (p :: fst y, snd y))
        | (Err c, _) => PRet ([], Err c)
        | (UB, _) => PRet ([], UB)
        | (Fuel, _) => PRet ([], Fuel)
        end)
  end.
Definition flv_decode_prog (fuel : nat) (fill : list Z) : prog (list pkt * res unit) :=
  pbind (flv_header_prog (mkab fill 0 0 true)) (fun x =>
    match x with
    | (Ok _, b1) => flv_all_prog fuel b1
    | (Err c, _) => PRet ([], Err c)
    | (UB, _) => PRet ([], UB)
    | (Fuel, _) => PRet ([], Fuel)
    end).

(** ** A whole upload: the head (HttpParsePhaseHandler::handler,
    src/module/http/sps_http_phase_handler.cpp:37-58), then the body.  [framing]:
    what the request says of its body, chunked or not and the length
    (RequestUrl::is_chunked and get_content_length). *)
Definition upload_prog (framing : list Z -> bool * Z) (fuel : nat) (fill : list Z) : prog (res (list Z * list pkt * res unit)) :=
  pbind (head_prog MAX_HEADER) (fun r =>
    match r with
    | Ok h =>
        let '(chunked, cl) := framing h in
        pbind (over_body (flv_decode_prog fuel fill) (hb_new chunked cl)) (fun x =>
          match x with
          | Ok (ps, e) => PRet (Ok (h, ps, e))
          | Err c => PRet (Err c) | UB => PRet UB | Fuel => PRet Fuel
          end)
    | Err c => PRet (Err c) | UB => PRet UB | Fuel => PRet Fuel
    end).
