(** Kinds of packets read off the FLV bytes that carry them: the tag type and
    the first two bytes of the tag body. *)
From Verif Require Import Base M_Packet S_Flv.

(** First byte of the body split into frame type (high half) and codec. *)
Definition body_frame (p : pkt) : Z := nth 0 (flv_body p) 0 / 16.
Definition body_second (p : pkt) : Z := nth 1 (flv_body p) 0.

(** A video information or command frame: no decoder data in it. *)
Definition tag_command (p : pkt) : Prop := flv_type_byte p = 9 /\ body_frame p = 5.
(** Decoder configuration of the video stream. *)
Definition tag_video_header (p : pkt) : Prop :=
  flv_type_byte p = 9 /\ body_frame p <> 5 /\ body_second p = 0.
Definition tag_audio_header (p : pkt) : Prop := flv_type_byte p = 8 /\ body_second p = 0.
Definition tag_script (p : pkt) : Prop := flv_type_byte p = 18.
Definition tag_keyframe (p : pkt) : Prop := flv_type_byte p = 9 /\ body_frame p = 1.
