(** A packet as an RTMP player is sent it and as an RTMP reader understands what
    it was sent; written from the message formats, whatever protocol the packet
    came in by. *)
From Verif Require Import Base M_Packet M_Rtmp.

(** Of the packet type only zero or not is kept. *)
Definition header_or_not (ty : Z) : Z := if ty =? 0 then 0 else 1.
(** [on_rtmp p m]: message [m] carries packet [p].  Composition offsets have 24
    bits in the format; this server writes the low four bits into the third byte
    and the next four into the upper half of the second, and nothing else. *)
Inductive on_rtmp (p : pkt) (m : rmsg) : Prop :=
| on_audio : p_stream p = AV_STREAM_TYPE_AUDIO -> rm_type m = 8 ->
    rm_body m = p_flags p :: header_or_not (p_ptype p) :: p_data p ->
    rm_ts m = p_dts p -> rm_sid m = 1 -> on_rtmp p m
| on_command : p_stream p = AV_STREAM_TYPE_VIDEO -> p_flags p / 16 = 5 -> rm_type m = 9 ->
    rm_body m = p_flags p :: p_data p -> rm_ts m = p_dts p -> rm_sid m = 1 -> on_rtmp p m
| on_video : forall o, p_stream p = AV_STREAM_TYPE_VIDEO -> p_flags p / 16 <> 5 -> rm_type m = 9 ->
    o = p_pts p - p_dts p ->
    rm_body m = p_flags p :: header_or_not (p_ptype p) :: 0 :: o / 16 mod 16 * 16 :: o mod 16 :: p_data p ->
    rm_ts m = p_dts p -> rm_sid m = 1 -> on_rtmp p m
| on_data : p_stream p = AV_STREAM_TYPE_SUBTITLE -> rm_type m = 18 -> rm_body m = p_data p ->
    rm_ts m = p_dts p -> rm_sid m = 1 -> on_rtmp p m.

(** The packet a reader makes of that message. *)
Definition as_rtmp (p : pkt) : pkt :=
  let o := p_pts p - p_dts p in
  if p_stream p =? AV_STREAM_TYPE_AUDIO
  then mkpkt (p_msg p) (p_stream p) (header_or_not (p_ptype p)) (p_dts p) (p_dts p) (p_flags p) (p_codec p) (p_data p)
  else if p_stream p =? AV_STREAM_TYPE_VIDEO then
    if p_flags p / 16 =? 5
    then mkpkt (p_msg p) (p_stream p) 0 (p_dts p) (p_dts p) (p_flags p) (p_codec p) (p_data p)
    else mkpkt (p_msg p) (p_stream p) (header_or_not (p_ptype p)) (p_dts p)
           (p_dts p + (4096 * (o / 16 mod 16) + o mod 16)) (p_flags p) (p_codec p) (p_data p)
  else mkpkt (p_msg p) (p_stream p) 0 (p_dts p) (p_dts p) 0 0 (p_data p).

(** Packets an RTMP message can be made of. *)
Definition rtmp_fit (p : pkt) : Prop :=
  byte (p_flags p) /\ 0 <= p_dts p < 2 ^ 32 /\
  (p_stream p = AV_STREAM_TYPE_AUDIO \/ p_stream p = AV_STREAM_TYPE_VIDEO \/ p_stream p = AV_STREAM_TYPE_SUBTITLE).
(** Packets an RTMP reader takes: AAC, H.264 or H.265, or data that is not
    empty. *)
Definition rtmp_taken (p : pkt) : Prop :=
  rtmp_fit p /\ p_msg p = AV_MESSAGE_DATA /\ bytes (p_data p) /\ zlen (p_data p) < 2 ^ 24 /\
  (p_stream p = AV_STREAM_TYPE_AUDIO -> p_flags p / 16 = CODEC_AAC /\ p_codec p = CODEC_AAC) /\
  (p_stream p = AV_STREAM_TYPE_VIDEO -> (p_flags p mod 16 = CODEC_H264 \/ p_flags p mod 16 = CODEC_H265) /\ p_codec p = p_flags p mod 16) /\
  (p_stream p = AV_STREAM_TYPE_SUBTITLE -> p_data p <> []).
