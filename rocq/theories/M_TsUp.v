(** Transport stream publishers over SRT: TsDemuxer as a program over reads, on the
    connection's socket (SrtServerStreamHandler::publish,
    src/module/srt/sps_srt_stream_handler.cpp:64-79). *)
From Verif Require Import Base M_IO M_Packet M_Ts M_Http M_Tls M_Https M_Upload.

(** TsDemuxer::read_packet, src/avformat/sps_avformat_tsdec.cpp:65-91; the text is that of
    [ts_demux] (M_Ts.v) with the buffer as state and reads as steps of the program. *)
Fixpoint ts_prog (fuel : nat) (mem : list Z) (s : tsst) (b : avbuf) : prog (tsst * list pkt * res unit) :=
  match fuel with
  | O => PRet (s, [], Fuel)
  | S f =>
      pbind (gacquire SPS_TS_PACKET_SIZE b) (fun x =>
        match x with
        | (Ok _, b1) =>
            match slice (ab_data b1) (ab_ptr b1) SPS_TS_PACKET_SIZE with
            | None => PRet (s, [], UB)
            | Some d =>
                let '(s1, o, y) := ts_decode mem s d in
                match y with
                | Ok _ => pbind (ts_prog f mem s1 (ab_clear b1)) (fun z => let '(s2, o2, x2) := z in PRet (s2, o ++ o2, x2))
                | e => PRet (s1, o, e)
                end
            end
        | (e, _) => PRet (s, [], e)
        end)
  end.
(** A new demuxer; its buffer has room for one packet, holds [fill] at first and is not
    rewindable (sps_avformat_tsdec.cpp:52-54). *)
Definition ts_publish_prog (fuel : nat) (mem fill : list Z) : prog (tsst * list pkt * res unit) :=
  ts_prog fuel mem ts_new (mkab fill 0 0 false).
