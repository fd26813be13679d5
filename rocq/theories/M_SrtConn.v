(** A whole SRT connection: the phases of an SRT server (SrtModule::install,
    src/module/srt/sps_srt_module.cpp:90-97), up to the loops that move packets.
    The phases' results: SUCCESS goes on, anything else ends the connection
    (ServerPhaseHandler::handler, src/module/server/sps_server_handler.cpp:49-68;
    Connection::handler, :81-93). *)
From Verif Require Import Base M_Url M_Conf M_Host.

(** What a connection comes to: refused with a code, playing the stream of a
    name, or publishing under a name (and "ts://" before it). *)
Inductive sact := SxRefuse (c : Z) | SxPlay (name : list Z) | SxPublish (name : list Z).

(** SrtServerStreamHandler::handler, src/module/srt/sps_srt_stream_handler.cpp:39-50,
    with the checks of publish, :54-62, and play, :89-97; [taken]: the names that
    StreamCache::get_streamcache finds.  The host is not asked for its role. *)
Definition srt_stream_act (r : ureq) (taken : list Z -> bool) : sact :=
  if srt_plays r then
    if taken (srt_ts_key r) then SxPlay (srt_ts_key r) else SxRefuse ERROR_RTMP_HAS_SOURCE
  else if taken (srt_key r) then SxRefuse ERROR_RTMP_HAS_SOURCE else SxPublish (srt_key r).
(** SrtPrepareHandler::handler, src/module/srt/sps_srt_server_handler.cpp:111-130, then
    HostRouterPhaseHandler::handler without a handler for unknown hosts,
    src/module/host/sps_host_router_handler.cpp:39-53; [srtio]: the socket is an SRT
    socket (:112); [sid]: its stream id. *)
Definition srt_conn (lib : url_lib) (rt : hrouter) (srtio : bool) (sid : list Z) (taken : list Z -> bool) : res sact :=
  if negb srtio then Ok (SxRefuse ERROR_IO_EOF) else
  match srt_req lib sid with
  | Ok None => Ok (SxRefuse ERROR_SRT_STREAM_ID)
  | Ok (Some r) =>
      match find_host rt (rq_host r) with
      | None => Ok (SxRefuse ERROR_HOST_NOT_EXISTS)
      | Some _ => Ok (srt_stream_act r taken)
      end
  | Err c => Err c | UB => UB | Fuel => Fuel
  end.
