(** The build with FFmpeg (CMakeLists.txt:19, FFMPEG_ENABLED): its packets,
    demuxer and muxer (src/avformat/sps_avformat_ffmpeg.cpp, _ffmpeg_dec.cpp,
    _ffmpeg_enc.cpp), what the newcomer cache does with such packets
    (src/avformat/sps_avformat_cache.cpp), and the places that depend on the
    build in src/module/rtmp/sps_rtmp_stream_handler.cpp and
    src/module/stream/sps_stream_handler.cpp.

    The FFmpeg libraries are not in /repo.  What they answer is a parameter;
    only av_rescale_q and av_packet_rescale_ts are written out, as documented.
    Failing allocations of streams and codec parameters are left out. *)
From Verif Require Import Base M_Text M_Packet M_Url.

(** enum AVMediaType of the library. *)
Definition MEDIA_VIDEO := 0.
Definition MEDIA_AUDIO := 1.
Definition MEDIA_DATA := 2.
Definition MEDIA_SUBTITLE := 3.
Definition MEDIA_ATTACHMENT := 4.

(** A stream of a container: media type and time base (numerator and
    denominator of a tick in seconds). *)
Record ffstream := mkfs { fs_kind : Z; fs_tb : Z * Z }.
(** The library's packet, as far as it is used here. *)
Record ffraw := mkfr { fr_index : Z; fr_dts : Z; fr_pts : Z; fr_key : bool; fr_data : list Z }.
(** FFmpegPacket, sps_avformat_ffmpeg.hpp:69-94, with the fields of the base
    class that are set. *)
Record ffpkt := mkfk { fk_raw : ffraw; fk_tb : Z * Z; fk_stream : Z; fk_dts : Z; fk_pts : Z }.

Definition INT64_MAX := 2 ^ 63 - 1.
Definition NOPTS := - 2 ^ 63.
(** av_rescale_q_rnd with AV_ROUND_NEAR_INF: [a] ticks of [src] in ticks of
    [dst], to the nearest, halves away from zero; [pass] is
    AV_ROUND_PASS_MINMAX.  A result that does not fit is INT64_MIN. *)
Definition ff_rescale (pass : bool) (a : Z) (src dst : Z * Z) : Z :=
  let b := fst src * snd dst in
  let c := fst dst * snd src in
  if (c <=? 0) || (b <? 0) then NOPTS
  else if pass && ((a =? NOPTS) || (a =? INT64_MAX)) then a
  else
    let v := (Z.min (Z.abs a) INT64_MAX * b + c / 2) / c in
    if INT64_MAX <? v then NOPTS else if a <? 0 then - v else v.
(** av_packet_rescale_ts, one time: missing times stay missing. *)
Definition ff_rescale_ts (a : Z) (src dst : Z * Z) : Z := if a =? NOPTS then a else ff_rescale false a src dst.

(** from_ffmpeg, sps_avformat_ffmpeg.cpp:35-46. *)
Definition from_ffmpeg (k : Z) : Z :=
  if k =? MEDIA_VIDEO then AV_STREAM_TYPE_VIDEO else if k =? MEDIA_AUDIO then AV_STREAM_TYPE_AUDIO else AV_STREAM_TYPE_NB.

(** FFmpegAVDemuxer::read_data, sps_avformat_ffmpeg_dec.cpp:49-66: what the
    library is told about a read. *)
Definition ff_read_data (r : res (list Z)) : res Z :=
  match r with
  | Ok d => Ok (s32 (zlen d))
  | Err c => Ok (s32 (if 0 <? c then - c else c))
  | UB => UB | Fuel => Fuel
  end.
(** FFmpegAVMuxer::write_data, sps_avformat_ffmpeg_enc.cpp:38-56, on [size]
    bytes written with return value [c]. *)
Definition ff_write_data (c size : Z) : Z :=
  if negb (c =? 0) then if 0 <? c then s32 (- c) else c else size.

(** FFmpegAVDemuxer::read_packet, sps_avformat_ffmpeg_dec.cpp:92-116, on the
    library's answer ([None]: a negative return value).  The time base of the
    packet is set before it is used as target of the conversions. *)
Definition ff_read_packet (ss : list ffstream) (a : option ffraw) : res ffpkt :=
  match a with
  | None => Err ERROR_FFMPEG_READ
  | Some f =>
      if fr_index f <? 0 then UB else
      match nth_error ss (Z.to_nat (fr_index f)) with
      | None => UB
      | Some s =>
          let tb := fs_tb s in
          Ok (mkfk f tb (from_ffmpeg (fs_kind s)) (ff_rescale true (fr_dts f) (fs_tb s) tb) (ff_rescale true (fr_pts f) (fs_tb s) tb))
      end
  end.

(** FFmpegPacket::is_keyframe, sps_avformat_ffmpeg.cpp:81-83; the tests for
    headers and metadata, :77-79 and :85-91, say no. *)
Definition ff_keyframe (p : ffpkt) : bool := (fk_stream p =? AV_STREAM_TYPE_VIDEO) && fr_key (fk_raw p).
(** AVGopCacheStream::put, sps_avformat_cache.cpp:32-57, on such packets, and
    what is dumped for a newcomer, :59-73. *)
Definition ff_put (c : list ffpkt) (p : ffpkt) : list ffpkt :=
  if ff_keyframe p then [p] else match c with [] => [] | _ => c ++ [p] end.
Definition ff_cache (h : list ffpkt) : list ffpkt := fold_left ff_put h [].

(** ** The muxer *)
(** Its mapping, and the streams of its output, by the media types copied. *)
Record ffmux := mkfm { fm_map : list Z; fm_out : list Z }.
Definition ffmux0 : ffmux := mkfm [] [].
(** FFmpegAVMuxer::on_av_stream, sps_avformat_ffmpeg_enc.cpp:192-223. *)
Definition on_av_stream (m : ffmux) (s : ffstream) : ffmux :=
  if negb (fs_kind s =? MEDIA_AUDIO) && negb (fs_kind s =? MEDIA_VIDEO) && negb (fs_kind s =? MEDIA_SUBTITLE)
     && negb (fs_kind s =? MEDIA_DATA)
  then mkfm (fm_map m ++ [-1]) (fm_out m)
  else mkfm (fm_map m ++ [zlen (fm_map m)]) (fm_out m ++ [fs_kind s]).
(** set_av_ctx, :139-160; [None] is a null context. *)
Definition ff_set_ctx (ctx : option (list ffstream)) : ffmux :=
  match ctx with None => ffmux0 | Some ss => fold_left on_av_stream ss ffmux0 end.

(** What is handed to av_write_frame. *)
Record frame := mkframe { f_index : Z; f_dts : Z; f_pts : Z; f_data : list Z }.
(** How writing goes on: with the next packet, back to the caller with a code,
    the process ends by exit(0), or undefined behaviour. *)
Inductive fend := FGoes | FRet (c : Z) | FExit | FUndef.
(** write_packet, :86-133.  [None] is a packet that is not FFmpeg's (the cast
    gives a null pointer); [otb] are the time bases of the output streams and
    [ret] the answer of av_write_frame.  The index is compared as an unsigned
    number.  (Failing av_packet_ref is left out.) *)
Definition ff_write (m : ffmux) (otb : Z -> Z * Z) (ret : Z) (p : option ffpkt) : list frame * fend :=
  match p with
  | None => ([], FUndef)
  | Some p =>
      let f := fk_raw p in
      let i := fr_index f in
      if (i <? 0) || (zlen (fm_map m) <=? i) || (nth (Z.to_nat i) (fm_map m) (-1) <? 0) then ([], FGoes)
      else if zlen (fm_out m) <=? i then ([], FUndef)
      else
        let dts := ff_rescale_ts (fr_dts f) (fk_tb p) (otb i) in
        let pts := ff_rescale_ts (fr_pts f) (fk_tb p) (otb i) in
        if (dts <? 0) || (pts <? 0) then ([], FExit)
        else ([mkframe i dts pts (fr_data f)], if ret <? 0 then FRet ERROR_FFMPEG_WRITE else FGoes)
  end.
(** The packets of a player in the order they are dumped, until one ends it:
    StreamEncoder::encode, src/module/stream/sps_stream.cpp:81-99.  (When the
    stream falls silent is the subject of other models.) *)
Fixpoint ff_write_all (m : ffmux) (otb : Z -> Z * Z) (ps : list (Z * option ffpkt)) : list frame * fend :=
  match ps with
  | [] => ([], FGoes)
  | (ret, p) :: ps' =>
      let '(fs, e) := ff_write m otb ret p in
      match e with
      | FGoes => let '(fs', e') := ff_write_all m otb ps' in (fs ++ fs', e')
      | _ => (fs, e)
      end
  end.
(** FFmpegAVMuxer::init, sps_avformat_ffmpeg_enc.cpp:162-185: the text the
    format is guessed from. *)
Definition ff_guess_text (r : ureq) : list Z :=
  match rq_schema r with [] => rq_host r ++ rq_path r | s => s ++ str "://" ++ rq_host r ++ rq_path r end.
(** StreamHandler::play, sps_stream_handler.cpp:97-119, once the cache has been
    looked up ([present], with context [ctx]): create2, enc.cpp:276-286, whose
    destructor on failure, :258-262, looks into the I/O context that has not
    been made; set_av_ctx; and the encoder with the library's answer [hdr] to
    avformat_write_header, :77-84, given the number of output streams. *)
Definition ff_play (guess : list Z -> bool) (r : ureq) (present : bool) (ctx : option (list ffstream))
    (otb : Z -> Z * Z) (hdr : Z -> Z) (ps : list (Z * option ffpkt)) : list frame * fend :=
  if negb present then ([], FRet ERROR_STREAM_SOURCE_NOT_EXITS)
  else if negb (guess (ff_guess_text r)) then ([], FUndef)
  else
    let m := ff_set_ctx ctx in
    if hdr (zlen (fm_out m)) <? 0 then ([], FRet ERROR_FFMPEG_WRITE) else ff_write_all m otb ps.

(** FFmpegAVInputFormat::_create, sps_avformat_ffmpeg_dec.cpp:198-207, and
    init, :130-171: is there memory for the buffer, does the input open, are
    its streams found, is there memory for the decoders?  The destructor,
    :183-189, looks into the I/O context. *)
Definition ff_demux_create (buffer opened found decoders : bool) : res bool :=
  if negb buffer then UB else Ok (opened && found && decoders).

(** StreamHandler::publish, src/module/stream/sps_stream_handler.cpp:55-85,
    around the creation of the demuxer (with the reads above): may this host be
    published to, is there already a stream of the name when the demuxer is
    ready?  [Ok 0]: the stream is published. *)
Definition ff_publish (allowed : bool) (d : res bool) (present : bool) : res Z :=
  if negb allowed then Err ERROR_STREAM_PUBLISH_NOT_SUPPORT
  else
    let? made := d in
    if negb made then Err ERROR_AVFORMAT_DEMUX_NOT_EXISTS
    else if present then Err ERROR_HTTP_HAS_SOURCE else Ok 0.
(** StreamEdge::handler, src/module/stream/sps_stream_edge.cpp:45-81, up to the
    decoding; [opened] is what lines 50-65 come to ([Err]: the code returned).
    Line 72 looks into the demuxer. *)
Definition ff_edge (opened : res Z) (d : res bool) : res Z :=
  let? _ := opened in
  let? made := d in
  if negb made then UB else Ok 0.

(** RtmpServerStreamHandler::handler in this build,
    src/module/rtmp/sps_rtmp_stream_handler.cpp:57-68: the request that
    replaces the one of the RTMP client. *)
Definition ff_rtmp_req (lib : url_lib) (r : ureq) : res Z * ureq :=
  url_from lib (str "http://" ++ rq_host r ++ rq_path r ++ str ".flv" ++ match rq_params r with [] => [] | q => str "?" ++ q end).
