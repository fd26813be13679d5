(** What an RTMP publisher and its viewers may rely on; independent of the
    streaming model. *)
From Verif Require Import Base M_Packet M_Rtmp S_Rtmp M_RtmpSess.

(** The messages a client sent, without the failures. *)
Fixpoint messages (evs : list rev) : list rmsg :=
  match evs with
  | [] => []
  | RvMsg m _ :: l => m :: messages l
  | RvFail _ _ _ :: l => messages l
  end.
(** A message of the size and with the timestamp the protocol allows. *)
Definition message_ok (m : rmsg) : Prop :=
  bytes (rm_body m) /\ zlen (rm_body m) < 2 ^ 24 /\ 0 <= rm_ts m < 2 ^ 32.
(** Messages that cannot disturb a session: complete, no bandwidth limit, and a
    complete window if any. *)
Definition calm (ev : rev) : Prop :=
  exists m n, ev = RvMsg m n /\ 0 <= n /\ rm_type m <> 6 /\ (rm_type m = 5 -> 4 <= zlen (rm_body m)).

(** [resent m m']: [m'] is what a viewer gets of the published [m]: the same
    timestamp and payload on message stream 1.  AMF3 data are announced as AMF0;
    of the packet type only zero or not is kept; of the composition offset only
    the low byte is, as two half bytes in two bytes. *)
Inductive resent (m m' : rmsg) : Prop :=
| rs_data : (rm_type m = 15 \/ rm_type m = 18) -> rm_type m' = 18 -> rm_body m' = rm_body m ->
    rm_ts m' = rm_ts m -> rm_sid m' = 1 -> resent m m'
| rs_audio : forall flag ty d, rm_type m = 8 -> rm_type m' = 8 ->
    rm_body m = flag :: ty :: d -> rm_body m' = flag :: Z.min ty 1 :: d ->
    rm_ts m' = rm_ts m -> rm_sid m' = 1 -> resent m m'
| rs_command : forall flag d, rm_type m = 9 -> rm_type m' = 9 -> flag / 16 = 5 ->
    rm_body m = flag :: d -> rm_body m' = flag :: d ->
    rm_ts m' = rm_ts m -> rm_sid m' = 1 -> resent m m'
| rs_video : forall flag ty c0 c1 c2 d, rm_type m = 9 -> rm_type m' = 9 -> flag / 16 <> 5 ->
    rm_body m = flag :: ty :: c0 :: c1 :: c2 :: d ->
    rm_body m' = flag :: Z.min ty 1 :: 0 :: c2 / 16 * 16 :: c2 mod 16 :: d ->
    rm_ts m' = rm_ts m -> rm_sid m' = 1 -> resent m m'.
(** Messages that reach viewers byte for byte: packet types 0 and 1 and
    composition offsets 0 to 15. *)
Definition survives (m : rmsg) : Prop :=
  (rm_type m = 8 -> forall flag ty d, rm_body m = flag :: ty :: d -> ty <= 1) /\
  (rm_type m = 9 -> forall flag ty c0 c1 c2 d, rm_body m = flag :: ty :: c0 :: c1 :: c2 :: d -> flag / 16 <> 5 ->
     ty <= 1 /\ c0 = 0 /\ c1 = 0 /\ c2 <= 15).

(** The message as an FLV tag: stream id 0, data tags as AMF0. *)
Definition as_tag (m : rmsg) : rmsg :=
  mkrm (if rm_type m =? 15 then 18 else rm_type m) (rm_ts m) 0 (rm_chan m) (rm_body m).

(** The outcome of reading messages after which nothing more came. *)
Definition publishes (ms : list rmsg) : list pkt := fst (spec_rtmp_all ms 0).
Definition problem (ms : list rmsg) : res unit := snd (spec_rtmp_all ms 0).

(** Packets with audio, video or data in them. *)
Definition media (p : pkt) : bool := is_script p || is_audio p || is_video p.
