(** Media packets shared by all containers. *)
From Verif Require Import Base.

(** AVMessageType, src/avformat/sps_avformat_packet.hpp:43-48. *)
Definition AV_MESSAGE_HEADER := 0.
Definition AV_MESSAGE_DATA := 1.
(** AVStreamType, :50-60. *)
Definition AV_STREAM_TYPE_VIDEO := 0.
Definition AV_STREAM_TYPE_AUDIO := 1.
Definition AV_STREAM_TYPE_SUBTITLE := 2.
Definition AV_STREAM_TYPE_DATA := 3.
Definition AV_STREAM_PSI := 4.
Definition AV_STREAM_PES := 5.
Definition AV_STREAM_TYPE_NB := 6.
(** Codec ids, :76-84. *)
Definition CODEC_AAC := 10.
Definition CODEC_H264 := 7.
Definition CODEC_H265 := 12.
(** TS_PROGRAM_PAT / TS_PROGRAM_PMT, src/avformat/sps_avformat_ts.hpp:90-96. *)
Definition TS_PROGRAM_PAT := 2.
Definition TS_PROGRAM_PMT := 3.

(** AVPacket, src/avformat/sps_avformat_packet.hpp:90-181: the payload
    [buffer()[0 .. size())] and the fields.  [duration] is always 0 in the
    modelled code and is left out; the head room of the payload buffer is the
    subject of M_Cache.v. *)
Record pkt := mkpkt {
  p_msg : Z; p_stream : Z; p_ptype : Z;
  p_dts : Z; p_pts : Z; p_flags : Z; p_codec : Z;
  p_data : list Z
}.

(** Predicates, src/avformat/sps_avformat_packet.cpp:82-125. *)
Definition is_video (p : pkt) : bool := p_stream p =? AV_STREAM_TYPE_VIDEO.
Definition is_audio (p : pkt) : bool := p_stream p =? AV_STREAM_TYPE_AUDIO.
Definition is_script (p : pkt) : bool := p_stream p =? AV_STREAM_TYPE_SUBTITLE.
Definition is_keyframe (p : pkt) : bool :=
  is_video p && (Z.land (Z.shiftr (p_flags p) 4) 0x0F =? 1).
Definition is_video_seq (p : pkt) : bool := is_video p && (p_ptype p =? 0).
Definition is_audio_seq (p : pkt) : bool := is_audio p && (p_ptype p =? 0).
Definition is_pat (p : pkt) : bool :=
  (p_stream p =? AV_STREAM_PSI) && (Z.land (p_ptype p) 0x8FFFFF =? TS_PROGRAM_PAT).
Definition is_pmt (p : pkt) : bool :=
  (p_stream p =? AV_STREAM_PSI) && (Z.land (p_ptype p) 0x8FFFFF =? TS_PROGRAM_PMT).
(** :123-125.  [pkt_type & 0x80000000] is 0 or 2^31, never 1. *)
Definition is_unit_start (p : pkt) : bool :=
  (p_stream p =? AV_STREAM_PES) && (Z.land (p_ptype p) 0x80000000 =? 1).
