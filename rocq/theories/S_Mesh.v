(** RTMP publishers in front of chains of servers: what the way through FLV adds
    and loses, from the two formats alone. *)
From Verif Require Import Base M_Packet M_Flv S_Flv M_Rtmp.

(** An FLV tag of data or of a video command frame has no composition offset: the
    packet read from it has no presentation time. *)
Definition untimed (p : pkt) : pkt :=
  if is_script p || (is_video p && flv_video_command (p_flags p))
  then mkpkt (p_msg p) (p_stream p) (p_ptype p) (p_dts p) 0 (p_flags p) (p_codec p) (p_data p)
  else p.
(** How many bytes of a message stand in front of the media data. *)
Definition fields (m : rmsg) : Z :=
  if rm_type m =? 9 then match rm_body m with f :: _ => if f / 16 =? 5 then 1 else 5 | [] => 5 end
  else if rm_type m =? 8 then 2 else 0.
(** Messages with media data in them that a reader with a buffer of [cap] bytes can take. *)
Definition substantial (cap : Z) (m : rmsg) : Prop := fields m < zlen (rm_body m) <= cap.
