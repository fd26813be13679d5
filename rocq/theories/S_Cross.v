(** A packet as an FLV file shows it, written from the format: the frame type
    "command" (5) leaves no room for a packet type or a composition offset, and
    an offset has 24 bits. *)
From Verif Require Import Base M_Packet M_Flv S_Flv.

Definition as_flv (p : pkt) : pkt :=
  if p_stream p =? AV_STREAM_TYPE_VIDEO then
    if flv_video_command (p_flags p)
    then mkpkt (p_msg p) (p_stream p) 0 (p_dts p) 0 (p_flags p) (p_codec p) (p_data p)
    else mkpkt (p_msg p) (p_stream p) (p_ptype p) (p_dts p)
           (p_dts p + flv_sign24 ((p_pts p - p_dts p) mod 2 ^ 24)) (p_flags p) (p_codec p) (p_data p)
  else p.
