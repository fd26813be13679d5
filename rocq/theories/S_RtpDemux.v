(** Specifications for RTP sessions: what a consumer of the demuxer sees. *)
From Verif Require Import Base M_Packet S_Rtp.

(** The packets of one datagram after the other, up to the first failure; [e]
    is the error of the socket after the last datagram.  A datagram that fails
    delivers nothing. *)
Fixpoint flow (os : list (list pkt * res unit)) (e : Z) : list pkt * res unit :=
  match os with
  | [] => ([], Err e)
  | (ps, Ok _) :: r => (ps ++ fst (flow r e), snd (flow r e))
  | (_, Err c) :: _ => ([], Err c)
  | (_, UB) :: _ => ([], UB)
  | (_, Fuel) :: _ => ([], Fuel)
  end.
(** A datagram of a size the session can take. *)
Definition sized (d : Z * list Z) : Prop := 12 <= zlen (snd d) <= 3000.
(** RTCP packet types SR, RR, SDES, BYE, APP (RFC 3550, 12.1). *)
Definition control (l : list Z) : bool := (200 <=? nth 1 l 0) && (nth 1 l 0 <=? 204).
Definition media (d : Z * list Z) : bool := negb (control (snd d)).
(** An RTCP datagram that is no source description with chunks and is not
    shorter than its report count announces (the standard's blocks have 24
    bytes, the server wants 20 for each). *)
Definition report (l : list Z) : Prop :=
  bytes l /\ control l = true /\ ~ is_sdes l /\
  (nth 1 l 0 = 200 -> 28 + 20 * (nth 0 l 0 mod 32) <= zlen l) /\
  (nth 1 l 0 = 201 -> 8 + 20 * (nth 0 l 0 mod 32) <= zlen l).
(** A session whose RTCP datagrams are such reports. *)
Definition fine (d : Z * list Z) : Prop := sized d /\ (media d = false -> report (snd d)).
(** MPEG-TS over RTP (RFC 2250): a datagram with whole transport packets. *)
Record tsdg := mktd { td_now : Z; td_head : rtp_packet; td_pkts : list (list Z) }.
Definition td_dgram (t : tsdg) : Z * list Z := (td_now t, rtp_bytes (td_head t) (concat (td_pkts t))).
Definition td_ok (t : tsdg) : Prop :=
  pk_ok (td_head t) /\ pk_pt (td_head t) = 33 /\
  match pk_ext (td_head t) with None => True | Some (_, d) => d = [] end /\
  Forall (fun p => bytes p /\ zlen p = 188) (td_pkts t) /\ zlen (snd (td_dgram t)) <= 3000.
(** Two media datagrams that agree in clock, RTP timestamp and payload; their
    sequence numbers, sources, markers and padding flags may differ. *)
Definition same_content (a b : event) : Prop :=
  fst (fst a) = fst (fst b) /\ pk_ts (snd (fst a)) = pk_ts (snd (fst b)) /\ snd a = snd b.
