(** Specifications for RTP and RTCP, from RFC 3550, RFC 6184 and RFC 3640. *)
From Verif Require Import Base M_Packet M_H264 M_AAC S_Fields S_Codec.

(** ** RTP packets (RFC 3550, 5.1 and 5.3.1) *)
Record rtp_packet := mkpk {
  pk_version : Z; pk_padding : Z; pk_mark : Z; pk_pt : Z; pk_seq : Z; pk_ts : Z; pk_ssrc : Z;
  pk_csrc : list Z;
  pk_ext : option (Z * list Z)      (* profile, extension data (whole 32-bit words) *)
}.
Definition pk_fields (k : rtp_packet) : list (Z * Z) :=
  [(pk_version k, 2); (pk_padding k, 1); (match pk_ext k with Some _ => 1 | None => 0 end, 1);
   (zlen (pk_csrc k), 4); (pk_mark k, 1); (pk_pt k, 7); (pk_seq k, 16); (pk_ts k, 32); (pk_ssrc k, 32)].
(** The extension length counts 32-bit words. *)
Definition ext_bytes (e : option (Z * list Z)) : list Z :=
  match e with None => [] | Some (prof, d) => be 2 prof ++ be 2 (zlen d / 4) ++ d end.
Definition rtp_head (k : rtp_packet) : list Z :=
  be 12 (pack (pk_fields k)) ++ flat_map (be 4) (pk_csrc k).
Definition rtp_bytes (k : rtp_packet) (payload : list Z) : list Z :=
  rtp_head k ++ ext_bytes (pk_ext k) ++ payload.
Definition pk_ok (k : rtp_packet) : Prop :=
  fields_fit (pk_fields k) = true /\ Forall (fun s => 0 <= s < 2 ^ 32) (pk_csrc k) /\
  match pk_ext k with
  | None => True
  | Some (prof, d) => 0 <= prof < 2 ^ 16 /\ bytes d /\ zlen d mod 4 = 0 /\ zlen d / 4 < 2 ^ 16
  end.
(** Plain media packets: dynamic payload type, no extension data. *)
Definition pk_media (k : rtp_packet) : Prop :=
  pk_ok k /\ 96 <= pk_pt k <= 127 /\ match pk_ext k with None => True | Some (_, d) => d = [] end.

(** ** H.264 payloads (RFC 6184) *)
(** Packets for one NAL unit at time [now] (ms) with RTP timestamp [ts]. *)
Definition nal_result (now ts : Z) (u : list Z) : res (list pkt) :=
  match u with
  | [] => Err ERROR_H264_DECODER
  | h :: _ =>
      if 128 <=? h then Err ERROR_H264_DECODER
      else if (h mod 32 =? 7) && (zlen u <? 4) then Err ERROR_H264_ENCODER
      else Ok (avc_packets (mkav (now * 90) ts 90) [nal_of u])
  end.
(** An FU-A payload for a fragment of the unit with header byte [h]. *)
Definition fu_a (h s e : Z) (chunk : list Z) : list Z :=
  [h / 32 * 32 + 28; s * 128 + e * 64 + h mod 32] ++ chunk.
(** All fragments of a unit whose body is cut into [cs]. *)
Fixpoint fu_fragments (h s : Z) (cs : list (list Z)) : list (list Z) :=
  match cs with
  | [] => []
  | [c] => [fu_a h s 1 c]
  | c :: r => fu_a h s 0 c :: fu_fragments h 0 r
  end.
(** A fragment added to the unit [u] collected so far in a buffer of [cap]
    bytes; a failed assertion has code -1. *)
Definition fu_add (cap now ts : Z) (u : list Z) (stop : bool) (chunk : list Z)
  : option (list Z) * (list pkt * res unit) :=
  if cap <? zlen u + zlen chunk then (Some u, ([], Err (-1)))
  else if stop then
    match nal_result now ts (u ++ chunk) with
    | Ok ps => (None, (ps, Ok tt))
    | Err e => (Some (u ++ chunk), ([], Err e))
    | UB => (Some (u ++ chunk), ([], UB)) | Fuel => (Some (u ++ chunk), ([], Fuel))
    end
  else (Some (u ++ chunk), ([], Ok tt)).
(** Reassembly, one payload [ind; fh] ++ chunk at a time. *)
Definition fu_step (cap now ts : Z) (st : option (list Z)) (ind fh : Z) (chunk : list Z)
  : option (list Z) * (list pkt * res unit) :=
  let stop := fh / 64 mod 2 =? 1 in
  match st, fh / 128 =? 1 with
  | Some u, true => (Some u, ([], Err ERROR_RTP_DECODER_H264))
  | None, false => (None, ([], Ok tt))
  | Some u, false => fu_add cap now ts u stop chunk
  | None, true => fu_add cap now ts [ind / 32 * 32 + fh mod 32] stop chunk
  end.
(** STAP-A (5.7.1): aggregated units, each with a 16-bit size. *)
Definition stap_a (h : Z) (us : list (list Z)) : list Z :=
  h :: flat_map (fun u => be 2 (zlen u) ++ u) us.

(** ** AAC-hbr payloads (RFC 3640): AU headers of 13 + 3 bits *)
Definition au_section (aus : list (Z * list Z)) : list Z :=
  be 2 (16 * zlen aus) ++ flat_map (fun a => be 2 (pack [(zlen (snd a), 13); (fst a, 3)])) aus.
Definition au_payload (aus : list (Z * list Z)) : list Z := au_section aus ++ flat_map snd aus.
Definition au_ok (a : Z * list Z) : Prop := 0 <= fst a < 8 /\ zlen (snd a) < 2 ^ 13 /\ bytes (snd a).

(** ** RTCP (RFC 3550, 6.4) *)
Definition rtcp_head_bytes (v p cf pt len : Z) : list Z :=
  be 4 (pack [(v, 2); (p, 1); (cf, 5); (pt, 8); (len, 16)]).
(** A report block: SSRC, fraction lost, cumulative lost, extended highest
    sequence number, jitter, last SR, delay: 24 bytes. *)
Definition rfc_block (ssrc fl cum seq jit lsr dlsr : Z) : list Z :=
  be 4 ssrc ++ be 1 fl ++ be 3 cum ++ be 4 seq ++ be 4 jit ++ be 4 lsr ++ be 4 dlsr.
(** The 20-byte blocks this server reads: the same without SSRC. *)
Definition short_block (b : list Z) : list Z :=
  match b with
  | [fl; cum; seq; jit; lsr; dlsr] => be 1 fl ++ be 3 cum ++ be 4 seq ++ be 4 jit ++ be 4 lsr ++ be 4 dlsr
  | _ => []
  end.
Definition block_ok (b : list Z) : Prop :=
  exists fl cum seq jit lsr dlsr, b = [fl; cum; seq; jit; lsr; dlsr] /\
    0 <= fl < 2 ^ 8 /\ 0 <= cum < 2 ^ 24 /\ 0 <= seq < 2 ^ 32 /\ 0 <= jit < 2 ^ 32 /\ 0 <= lsr < 2 ^ 32 /\ 0 <= dlsr < 2 ^ 32.

(** ** Runs of datagrams *)
(** Clock value (ms), packet header, payload. *)
Definition event := (Z * rtp_packet * list Z)%type.
Definition dgram (e : event) : Z * list Z := (fst (fst e), rtp_bytes (snd (fst e)) (snd e)).
Definition event_ok (e : event) : Prop :=
  pk_media (snd (fst e)) /\ bytes (snd e) /\ zlen (rtp_bytes (snd (fst e)) (snd e)) < 2 ^ 60.
(** The fragments of a unit without the one that carries the end bit. *)
Fixpoint fu_open (h s : Z) (cs : list (list Z)) : list (list Z) :=
  match cs with [] => [] | c :: r => fu_a h s 0 c :: fu_open h 0 r end.
(** One fragmented unit and what must come out, datagram by datagram. *)
Definition unit_group (cap : Z) (evs : list event) (outs : list (list pkt * res unit)) : Prop :=
  exists h cs es now k pl ps, 0 <= h < 256 /\ cs <> [] /\ evs = es ++ [(now, k, pl)] /\
    map snd evs = fu_fragments h 1 cs /\ 1 + zlen (concat cs) <= cap /\
    nal_result now (pk_ts k) (h :: concat cs) = Ok ps /\
    outs = repeat ([], Ok tt) (length es) ++ [(ps, Ok tt)].
(** A start fragment. *)
Definition fu_start (l : list Z) : Prop := exists h e chunk, 0 <= h < 256 /\ 0 <= e < 2 /\ l = fu_a h 1 e chunk.
(** Packets that carry no picture parameter set: a configuration record with
    the sequence parameter set only, or a media packet of a unit that is
    neither parameter set. *)
Definition no_pps_packet (p : pkt) : Prop :=
  (exists sps, p = video_pkt 0 0 0 0x17 (avc_config sps None)) \/
  (exists u dts pts fl, nth 0 u 0 mod 32 <> 7 /\ nth 0 u 0 mod 32 <> 8 /\
     p = video_pkt 1 dts pts fl (be 4 (zlen u) ++ u)).
(** The payloads too short for their type: the decoder reads past the datagram.
    [st] is the unit being collected. *)
Definition short_payload (st : option (list Z)) (l : list Z) : Prop :=
  exists b r, l = b :: r /\
    ((b mod 32 = 25 /\ zlen l < 2) \/ (b mod 32 = 27 /\ zlen l < 3) \/
     (b mod 32 = 29 /\ 2 <= zlen l < 4 /\ ((st = None /\ nth 1 l 0 / 128 = 1) \/ (st <> None /\ nth 1 l 0 / 128 <> 1)))).
(** An RTCP source description with at least one chunk. *)
Definition is_sdes (buf : list Z) : Prop := nth 1 buf 0 = 202 /\ nth 0 buf 0 mod 32 <> 0.
Definition safe {A} (r : res A) : Prop := (exists m, r = Ok m) \/ (exists e, r = Err e).
