(** What an FLV file is, and which packets it carries; written from the FLV
    format, independently of the reader and writer models. *)
From Verif Require Import Base M_Packet M_Flv.

(** *** Layout of a file *)

Definition flv_video_command (flags : Z) : bool := (flags / 16) mod 16 =? 5.

(** Codec prefix of a tag body: flags, packet type and composition offset. *)
Definition flv_prefix (p : pkt) : list Z :=
  if p_stream p =? AV_STREAM_TYPE_AUDIO then [p_flags p mod 256; p_ptype p mod 256]
  else if p_stream p =? AV_STREAM_TYPE_VIDEO then
    if flv_video_command (p_flags p) then [p_flags p mod 256]
    else [p_flags p mod 256; p_ptype p mod 256] ++ be 3 (p_pts p - p_dts p)
  else [].
Definition flv_body (p : pkt) : list Z := flv_prefix p ++ p_data p.
Definition flv_type_byte (p : pkt) : Z :=
  if p_stream p =? AV_STREAM_TYPE_AUDIO then 8 else if p_stream p =? AV_STREAM_TYPE_VIDEO then 9 else 18.
Definition flv_known (p : pkt) : bool :=
  (p_stream p =? AV_STREAM_TYPE_AUDIO) || (p_stream p =? AV_STREAM_TYPE_VIDEO) ||
  (p_stream p =? AV_STREAM_TYPE_SUBTITLE).

(** Tag after the back pointer: type, body size, timestamp (low 24 bits, then
    bits 24..31), stream id 0, body. *)
Definition flv_tag (p : pkt) : list Z :=
  [flv_type_byte p] ++ be 3 (zlen (flv_body p)) ++ be 3 (p_dts p) ++ be 1 (p_dts p / 2 ^ 24) ++
  [0; 0; 0] ++ flv_body p.
(** The tags of a file, each preceded by the size of the tag before it. *)
Fixpoint flv_layout (prev : Z) (ps : list pkt) : list Z :=
  match ps with
  | [] => []
  | p :: ps' => be 4 prev ++ flv_tag p ++ flv_layout (zlen (flv_tag p)) ps'
  end.

(** *** Packets that survive the format *)

Definition flv_transportable (cap : Z) (p : pkt) : Prop :=
  bytes (p_data p) /\ p_data p <> [] /\ zlen (flv_body p) <= cap /\
  0 <= p_dts p < 2 ^ 32 /\ p_msg p = AV_MESSAGE_DATA /\
  ( (p_stream p = AV_STREAM_TYPE_AUDIO /\ byte (p_flags p) /\ p_flags p / 16 = CODEC_AAC /\
     p_codec p = CODEC_AAC /\ byte (p_ptype p) /\ p_pts p = p_dts p)
  \/ (p_stream p = AV_STREAM_TYPE_VIDEO /\ byte (p_flags p) /\
     (p_flags p mod 16 = CODEC_H264 \/ p_flags p mod 16 = CODEC_H265) /\ p_codec p = p_flags p mod 16 /\
     p_flags p / 16 <> 5 /\ byte (p_ptype p) /\ - 2 ^ 23 <= p_pts p - p_dts p < 2 ^ 23)
  \/ (p_stream p = AV_STREAM_TYPE_VIDEO /\ byte (p_flags p) /\
     (p_flags p mod 16 = CODEC_H264 \/ p_flags p mod 16 = CODEC_H265) /\ p_codec p = p_flags p mod 16 /\
     p_flags p / 16 = 5 /\ p_ptype p = 0 /\ p_pts p = 0)
  \/ (p_stream p = AV_STREAM_TYPE_SUBTITLE /\ p_flags p = 0 /\ p_codec p = 0 /\ p_ptype p = 0 /\ p_pts p = 0)).

(** *** Reading one tag from a plain byte stream *)

Inductive flv_next :=
| FPacket (p : pkt) (rest : list Z)
| FErr (code : Z)          (* refused *)
| FShort.                  (* body shorter than its codec prefix *)

Definition flv_sign24 (v : Z) : Z := if v <? 2 ^ 23 then v else v - 2 ^ 24.

Definition flv_audio_body (dts : Z) (b : list Z) (rest : list Z) : flv_next :=
  match b with
  | [] => FShort
  | flags :: b1 =>
      if negb (flags / 16 =? CODEC_AAC) then FErr ERROR_FLV_AUDIO_CODECID else
      match b1 with
      | [] => FShort
      | [_] => FErr ERROR_FLV_TAG
      | ty :: d => FPacket (mkpkt AV_MESSAGE_DATA AV_STREAM_TYPE_AUDIO ty dts dts flags CODEC_AAC d) rest
      end
  end.
Definition flv_video_body (dts : Z) (b : list Z) (rest : list Z) : flv_next :=
  match b with
  | [] => FShort
  | flags :: b1 =>
      if negb (flags mod 16 =? CODEC_H264) && negb (flags mod 16 =? CODEC_H265)
      then FErr ERROR_FLV_VIDEO_CODECID else
      if flags / 16 =? 5 then
        match b1 with
        | [] => FErr ERROR_FLV_TAG
        | _ => FPacket (mkpkt AV_MESSAGE_DATA AV_STREAM_TYPE_VIDEO 0 dts 0 flags (flags mod 16) b1) rest
        end
      else
        match b1 with
        | ty :: c0 :: c1 :: c2 :: [] => FErr ERROR_FLV_TAG
        | ty :: c0 :: c1 :: c2 :: d =>
            FPacket (mkpkt AV_MESSAGE_DATA AV_STREAM_TYPE_VIDEO ty dts
                       (dts + flv_sign24 (bev [c0; c1; c2])) flags (flags mod 16) d) rest
        | _ => FShort
        end
  end.
Definition flv_script_body (dts : Z) (b : list Z) (rest : list Z) : flv_next :=
  match b with
  | [] => FErr ERROR_FLV_TAG
  | _ => FPacket (mkpkt AV_MESSAGE_DATA AV_STREAM_TYPE_SUBTITLE 0 dts 0 0 0 b) rest
  end.

(** [cap] is the largest body accepted, [e] the error at end of stream. *)
Definition spec_flv_next (cap e : Z) (s : list Z) : flv_next :=
  match s with
  | _ :: _ :: _ :: _ :: ty :: s0 :: s1 :: s2 :: t0 :: t1 :: t2 :: t3 :: _ :: _ :: _ :: s' =>
      let size := bev [s0; s1; s2] in
      let dts := bev [t3; t0; t1; t2] in
      if cap <? size then FErr ERROR_IO_BUFFER_FULL
      else if zlen s' <? size then FErr e
      else
        let b := take size s' in let rest := drop size s' in
        if ty =? 8 then flv_audio_body dts b rest
        else if ty =? 9 then flv_video_body dts b rest
        else if ty =? 18 then flv_script_body dts b rest
        else FErr ERROR_FLV_UNKNOWN_TAG_TYPE
  | _ => FErr e
  end.

(** All packets of a stream up to the first problem. *)
Inductive flv_end := EErr (code : Z) | EShort | EFuel.
Fixpoint spec_flv_all (fuel : nat) (cap e : Z) (s : list Z) : list pkt * flv_end :=
  match fuel with
  | O => ([], EFuel)
  | S f =>
      match spec_flv_next cap e s with
      | FPacket p rest => let '(ps, x) := spec_flv_all f cap e rest in (p :: ps, x)
      | FErr c => ([], EErr c)
      | FShort => ([], EShort)
      end
  end.

(** A stretch of input that carries a packet: 15 bytes of tag head whose size
    field counts the rest, a codec prefix fixed by the kind of packet, and the
    payload. *)
Definition flv_segment (seg : list Z) (p : pkt) : Prop :=
  exists head prefix,
    seg = head ++ prefix ++ p_data p /\ zlen head = 15 /\ p_data p <> [] /\
    slice head 5 3 = Some (be 3 (zlen prefix + zlen (p_data p))) /\
    zlen prefix = (if p_stream p =? AV_STREAM_TYPE_AUDIO then 2
                   else if p_stream p =? AV_STREAM_TYPE_VIDEO then
                     (if p_flags p / 16 =? 5 then 1 else 5) else 0).

(** How a run may end: the error of the plain reading; after a short tag, a
    codec or tag error or an access outside the buffer. *)
Definition flv_end_ok (x : res unit) (n : flv_end) : Prop :=
  match n with
  | EErr c => x = Err c
  | EShort => x = UB \/ x = Err ERROR_FLV_TAG \/ x = Err ERROR_FLV_AUDIO_CODECID \/ x = Err ERROR_FLV_VIDEO_CODECID
  | EFuel => x = Fuel
  end.

(** Packets not removed by the muxer's filters, and the muxer with another
    back pointer. *)
Definition flv_kept (m : flvmux) (p : pkt) : bool :=
  negb ((is_video p && fm_fvideo m) || (is_audio p && fm_faudio m) || (is_script p && fm_fmeta m)).
Definition with_prev (m : flvmux) (v : Z) : flvmux := mkfm v (fm_fvideo m) (fm_faudio m) (fm_fmeta m).
