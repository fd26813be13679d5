(** What RTMP messages mean, written from the message formats and
    independently of the demuxer, muxer and byte interface models. *)
From Verif Require Import Base M_Packet M_Rtmp S_Flv.

(** *** A message body read by pattern *)
Inductive rtmp_out :=
| RSkip                       (* carries no media *)
| RPacket (p : pkt)
| RErr (code : Z)             (* refused *)
| ROver.                      (* body shorter than its fixed part: read outside *)

Definition spec_rtmp_video (ts : Z) (body : list Z) : rtmp_out :=
  match body with
  | [] => RSkip
  | flag :: b =>
      if negb (flag mod 16 =? CODEC_H264) && negb (flag mod 16 =? CODEC_H265)
      then RErr ERROR_FLV_VIDEO_CODECID
      else if flag / 16 =? 5
      then RPacket (mkpkt AV_MESSAGE_DATA AV_STREAM_TYPE_VIDEO 0 ts ts flag (flag mod 16) b)
      else match b with
           | ty :: c0 :: c1 :: c2 :: d =>
               RPacket (mkpkt AV_MESSAGE_DATA AV_STREAM_TYPE_VIDEO ty ts
                          (ts + flv_sign24 (bev [c0; c1; c2])) flag (flag mod 16) d)
           | _ => RErr (if zlen body <? 4 then ERROR_IO_BUFFER_FULL else ERROR_IO_EOF)
           end
  end.
Definition spec_rtmp_audio (ts : Z) (body : list Z) : rtmp_out :=
  match body with
  | [] => RSkip
  | flag :: b =>
      if negb (flag / 16 =? CODEC_AAC) then RErr ERROR_FLV_AUDIO_CODECID
      else match b with
           | [] => ROver
           | ty :: d => RPacket (mkpkt AV_MESSAGE_DATA AV_STREAM_TYPE_AUDIO ty ts ts flag CODEC_AAC d)
           end
  end.
Definition spec_rtmp_script (ts : Z) (body : list Z) : rtmp_out :=
  match body with
  | [] => RSkip
  | _ => RPacket (mkpkt AV_MESSAGE_DATA AV_STREAM_TYPE_SUBTITLE 0 ts ts 0 0 body)
  end.
Definition spec_rtmp_msg (m : rmsg) : rtmp_out :=
  if rm_type m =? 9 then spec_rtmp_video (rm_ts m) (rm_body m)
  else if rm_type m =? 8 then spec_rtmp_audio (rm_ts m) (rm_body m)
  else if (rm_type m =? 18) || (rm_type m =? 15) then spec_rtmp_script (rm_ts m) (rm_body m)
  else RSkip.

(** All packets up to the first problem. *)
Fixpoint spec_rtmp_all (ms : list rmsg) (e : Z) : list pkt * res unit :=
  match ms with
  | [] => ([], Err e)
  | m :: ms' =>
      match spec_rtmp_msg m with
      | RSkip => spec_rtmp_all ms' e
      | RPacket p => let '(ps, x) := spec_rtmp_all ms' e in (p :: ps, x)
      | RErr c => ([], Err c)
      | ROver => ([], UB)
      end
  end.

(** *** Packets that survive muxer and demuxer *)
Definition rtmp_codec_ok (p : pkt) : Prop :=
  byte (p_flags p) /\ (p_flags p mod 16 = CODEC_H264 \/ p_flags p mod 16 = CODEC_H265) /\
  p_codec p = p_flags p mod 16.
Definition rtmp_transportable (p : pkt) : Prop :=
  bytes (p_data p) /\ zlen (p_data p) < 2 ^ 24 /\ 0 <= p_dts p < 2 ^ 32 /\ p_msg p = AV_MESSAGE_DATA /\
  ( (p_stream p = AV_STREAM_TYPE_AUDIO /\ byte (p_flags p) /\ p_flags p / 16 = CODEC_AAC /\
     p_codec p = CODEC_AAC /\ (p_ptype p = 0 \/ p_ptype p = 1) /\ p_pts p = p_dts p)
  \/ (p_stream p = AV_STREAM_TYPE_VIDEO /\ rtmp_codec_ok p /\ p_flags p / 16 <> 5 /\
     (p_ptype p = 0 \/ p_ptype p = 1) /\ 0 <= p_pts p - p_dts p <= 15)
  \/ (p_stream p = AV_STREAM_TYPE_VIDEO /\ rtmp_codec_ok p /\ p_flags p / 16 = 5 /\
     p_ptype p = 0 /\ p_pts p = p_dts p)
  \/ (p_stream p = AV_STREAM_TYPE_SUBTITLE /\ p_data p <> [] /\ p_flags p = 0 /\ p_codec p = 0 /\
     p_ptype p = 0 /\ p_pts p = p_dts p)).

(** What the chunk layer delivers of a message that was sent: type, timestamp
    and body. *)
Definition carried (a b : rmsg) : Prop :=
  rm_type a = rm_type b /\ rm_ts a = rm_ts b /\ rm_body a = rm_body b.

(** The composition offset that comes out of muxer and demuxer for [c]. *)
Definition rtmp_cts_seen (c : Z) : Z := flv_sign24 ((c mod 2 ^ 24) / 16 mod 16 * 4096 + c mod 16).

(** *** The FLV byte interface *)
Definition flv_media (m : rmsg) : bool :=
  negb (zlen (rm_body m) =? 0) &&
  ((rm_type m =? 9) || (rm_type m =? 8) || (rm_type m =? 18) || (rm_type m =? 15)).
(** An FLV tag followed by its back pointer. *)
Definition flv_tag_text (m : rmsg) : list Z :=
  [rm_type m] ++ be 3 (zlen (rm_body m)) ++ be 3 (rm_ts m) ++ be 1 (rm_ts m / 2 ^ 24) ++
  be 3 (rm_sid m) ++ rm_body m ++ be 4 (zlen (rm_body m) + 11).
Definition flv_text (ms : list rmsg) : list Z :=
  [0x46; 0x4C; 0x56; 1; 5; 0; 0; 0; 9; 0; 0; 0; 0] ++ concat (map flv_tag_text (filter flv_media ms)).
Definition rmsg_wf (m : rmsg) : Prop :=
  bytes (rm_body m) /\ zlen (rm_body m) < 2 ^ 24 /\ byte (rm_type m) /\ 0 <= rm_ts m < 2 ^ 32 /\
  0 <= rm_sid m < 2 ^ 24.
(** A message as the writer of the interface sends it. *)
Definition as_sent (m : rmsg) : rmsg :=
  mkrm (rm_type m) (rm_ts m) 1 (if (rm_type m =? 8) || (rm_type m =? 18) then 4 else 6) (rm_body m).

(** The FLV tags of a buffer, each taken as a message; the result says why the
    walk ended. *)
Fixpoint flv_parse (fuel : nat) (s : list Z) : list rmsg * res unit :=
  match fuel with
  | O => ([], Fuel)
  | S f =>
      match s with
      | [] => ([], Ok tt)
      | t :: l0 :: l1 :: l2 :: a :: b :: c :: x :: _ :: _ :: _ :: rest =>
          let n := bev [l0; l1; l2] in
          if zlen rest <? n + 4 then ([], Err ERROR_FLV_TAG)
          else if bev (take 4 (drop n rest)) =? n + 11
          then let '(ms, y) := flv_parse f (drop (n + 4) rest) in
               (mkrm t (bev [x; a; b; c]) 1 (if (t =? 8) || (t =? 18) then 4 else 6) (take n rest) :: ms, y)
          else ([], Err ERROR_FLV_TAG)
      | _ => ([], Err ERROR_IO_NOT_ENOUGH)
      end
  end.
(** Sending a list of messages when the n-th send succeeds iff the n-th flag
    is set (all later ones succeed). *)
Fixpoint send_list (ms : list rmsg) (y : res unit) (oks : list bool) (e : Z) : list rmsg * res unit :=
  match ms, oks with
  | [], _ => ([], y)
  | m :: ms', false :: _ => ([], Err e)
  | m :: ms', _ => let '(s, z) := send_list ms' y (tl oks) e in (m :: s, z)
  end.
Definition sends (p : list rmsg * res unit) (oks : list bool) (e : Z) : list rmsg * res unit :=
  send_list (fst p) (snd p) oks e.

(** Messages whose FLV tag an FLV reader accepts: no media, or media with a
    known codec and a payload; AMF3 data tags have no FLV reader. *)
Definition bridgeable (cap : Z) (m : rmsg) : Prop :=
  rmsg_wf m /\ zlen (rm_body m) <= cap /\
  (flv_media m = false
   \/ (rm_type m = 8 /\ exists flag ty x d, rm_body m = flag :: ty :: x :: d /\ flag / 16 = CODEC_AAC)
   \/ (rm_type m = 9 /\ exists flag ty c0 c1 c2 x d, rm_body m = flag :: ty :: c0 :: c1 :: c2 :: x :: d /\
         (flag mod 16 = CODEC_H264 \/ flag mod 16 = CODEC_H265) /\ flag / 16 <> 5)
   \/ (rm_type m = 9 /\ exists flag x d, rm_body m = flag :: x :: d /\
         (flag mod 16 = CODEC_H264 \/ flag mod 16 = CODEC_H265) /\ flag / 16 = 5)
   \/ rm_type m = 18).
(** The same packet as the FLV reader shows it: it reports presentation time 0
    where the tag has no composition offset. *)
Definition flv_view (p : pkt) : pkt :=
  if (p_stream p =? AV_STREAM_TYPE_SUBTITLE) || ((p_stream p =? AV_STREAM_TYPE_VIDEO) && (p_flags p / 16 =? 5))
  then mkpkt (p_msg p) (p_stream p) (p_ptype p) (p_dts p) 0 (p_flags p) (p_codec p) (p_data p)
  else p.
