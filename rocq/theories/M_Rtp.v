(** Model of RTP and RTCP decoding, src/avformat/sps_avformat_rtp.cpp and
    src/avformat/sps_avformat_rtpdec*.cpp. *)
From Verif Require Import Base M_Bits M_Fields M_Packet M_Cache M_H264 M_AAC.

(** RtpPayloadHeader, src/avformat/sps_avformat_rtp.hpp:59-88. *)
Record rtp_hdr := mkrtp {
  rh_version : Z; rh_padding : Z; rh_ext : Z; rh_cc : Z; rh_mark : Z; rh_pt : Z; rh_seq : Z;
  rh_ts : Z; rh_ssrc : Z;
  rh_csrc : list Z;
  rh_extension : option (Z * list Z)     (* define_by_profile, header_extension *)
}.

(** is_rtp_mepgts, is_rtp_dynamic, is_rtcp, src/avformat/sps_avformat_rtp.cpp:33-43
    with the constants of rtp.hpp:40-52. *)
Definition is_rtp_mpegts (pt : Z) : bool := pt =? 33.
Definition is_rtp_dynamic (pt : Z) : bool := (96 <=? pt) && (pt <=? 127).
Definition is_rtcp (pt : Z) : bool := (200 <=? pt) && (pt <=? 204).

(** RtpPayloadHeader::decode_extension, rtp.cpp:88-113. *)
Definition rtp_ext_decode (c : bitctx) : res (Z * list Z * bitctx) :=
  let? _ := bc_acquire c 4 in
  let? r := read_fields c [16; 16] in
  match fst r with
  | [prof; len] =>
      if len =? 0 then Ok (prof, [], snd r)
      else
        let? _ := bc_acquire (snd r) len in
        let? r2 := bc_read_bytes (snd r) len in
        Ok (prof, fst r2, snd r2)
  | _ => UB
  end.

(** RtpPayloadHeader::decode, rtp.cpp:45-86. *)
Definition rtp_header_decode (c : bitctx) : res (rtp_hdr * bitctx) :=
  let? _ := bc_acquire c 12 in
  let? r := read_fields c [2; 1; 1; 4; 1; 7; 16; 32; 32] in
  match fst r with
  | [v; p; x; cc; m; pt; sq; ts; ssrc] =>
      let? _ := bc_acquire (snd r) (cc * 4) in
      let? r2 := read_fields (snd r) (repeat 32 (Z.to_nat cc)) in
      if 0 <? x then
        let? e := rtp_ext_decode (snd r2) in
        Ok (mkrtp v p x cc m pt sq ts ssrc (fst r2) (Some (fst e)), snd e)
      else Ok (mkrtp v p x cc m pt sq ts ssrc (fst r2) None, snd r2)
  | _ => UB
  end.

(** NaluRtpDecoder::decode, src/avformat/sps_avformat_rtpdec_h264_hevc.cpp:65-87.
    [now] is get_time() (an oracle); the parser object is fresh. *)
Definition nalu_decode (now : Z) (h : rtp_hdr) (c : bitctx) : res (list pkt * bitctx) :=
  let? b := bc_peek c (bc_size c) in
  let? ps := encode_raw_nalu (mkav (now * 90) (rh_ts h) 90) (-1) b in
  let? c1 := skip_read_bytes c (bc_size c) in
  Ok (ps, c1).

(** Packets pushed so far with the outcome of the call. *)
Definition emit := (list pkt * res unit)%type.

(** The loop of StapRtpDecoder::decode, :97-113. *)
Fixpoint stap_loop (fuel : nat) (now : Z) (h : rtp_hdr) (c : bitctx) : emit :=
  if bc_size c <=? 0 then ([], Ok tt) else
  match fuel with
  | O => ([], Fuel)
  | S f =>
      match (let? r := read_bits c 8 in
             let? _ := bc_acquire (snd r) (fst r) in
             nalu_decode now h (snd r)) with
      | Ok (ps, c1) => let '(ps', r) := stap_loop f now h c1 in (ps ++ ps', r)
      | Err e => ([], Err e) | UB => ([], UB) | Fuel => ([], Fuel)
      end
  end.
(** StapRtpDecoder::decode, :89-113 (STAP-B skips two bytes unchecked). *)
Definition stap_decode (tp now : Z) (h : rtp_hdr) (c : bitctx) : emit :=
  match (if tp =? 25 then skip_read_bytes c 2 else Ok c) with
  | Ok c1 => stap_loop (S (length (bc_buf c))) now h c1
  | Err e => ([], Err e) | UB => ([], UB) | Fuel => ([], Fuel)
  end.

(** The loop of MtapRtpDecoder::decode, :125-148. *)
Fixpoint mtap_loop (fuel : nat) (off now : Z) (h : rtp_hdr) (c : bitctx) : emit :=
  if bc_size c <=? 0 then ([], Ok tt) else
  match fuel with
  | O => ([], Fuel)
  | S f =>
      match (let? _ := bc_acquire c (1 + 1 + off) in
             let? r := read_fields c [8; 8; 8 * off] in
             match fst r with
             | [sz; _; _] => let? _ := bc_acquire (snd r) sz in nalu_decode now h (snd r)
             | _ => UB
             end) with
      | Ok (ps, c1) => let '(ps', r) := mtap_loop f off now h c1 in (ps ++ ps', r)
      | Err e => ([], Err e) | UB => ([], UB) | Fuel => ([], Fuel)
      end
  end.
(** MtapRtpDecoder::decode, :116-148 (MTAP24 skips three bytes unchecked). *)
Definition mtap_decode (tp now : Z) (h : rtp_hdr) (c : bitctx) : emit :=
  match (if tp =? 27 then skip_read_bytes c 3 else Ok c) with
  | Ok c1 => mtap_loop (S (length (bc_buf c))) (if tp =? 26 then 2 else 3) now h c1
  | Err e => ([], Err e) | UB => ([], UB) | Fuel => ([], Fuel)
  end.

(** FuRtpDecoder::decode, :158-219, with FuDecoder::decode, :37-55.  The state
    is H264RtpDecoder::pkt; [mem] is the uninitialised content of the new
    CharBuffer, whose capacity RTP_NALU_MAX_LENGTH (1 MiB, rtp.hpp:33) is taken
    to be its length. *)
Definition fu_decode (mem : list Z) (now : Z) (h : rtp_hdr) (st : option cbuf) (c : bitctx)
  : option cbuf * emit :=
  match (let? _ := bc_acquire c 2 in
         let? r := read_fields c [1; 2; 5; 1; 1; 1; 5] in
         match fst r with
         | [f; nri; itp; s; e; _; tp] =>
             let? c1 := if itp =? 29 then skip_read_bytes (snd r) 2 else Ok (snd r) in
             Ok (f, nri, s, e, tp, c1)
         | _ => UB
         end) with
  | Ok (f, nri, s, e, tp, c1) =>
      match (if s =? 1 then
               match st with
               | Some _ => Err ERROR_RTP_DECODER_H264
               | None =>
                   let? b := cb_append (cb_new mem (zlen mem) 0)
                               [u8 (Z.lor (Z.lor (Z.shiftl f 7) (Z.shiftl nri 5)) tp)] in
                   Ok (Some b)
               end
             else Ok st) with
      | Ok None => (None, ([], Ok tt))
      | Ok (Some b) =>
          match (let? d := bc_peek c1 (bc_size c1) in
                 let? b1 := cb_append b d in
                 Ok b1) with
          | Ok b1 =>
              if e =? 1 then
                match (let? u := cb_contents b1 in nalu_decode now h (bc_init u)) with
                | Ok (ps, _) => (None, (ps, Ok tt))
                | Err er => (Some b1, ([], Err er))
                | UB => (Some b1, ([], UB)) | Fuel => (Some b1, ([], Fuel))
                end
              else (Some b1, ([], Ok tt))
          | Err er => (Some b, ([], Err er))
          | UB => (Some b, ([], UB)) | Fuel => (Some b, ([], Fuel))
          end
      | Err er => (st, ([], Err er))
      | UB => (st, ([], UB)) | Fuel => (st, ([], Fuel))
      end
  | Err er => (st, ([], Err er))
  | UB => (st, ([], UB)) | Fuel => (st, ([], Fuel))
  end.

(** H264RtpDecoder::decode, :262-287, with create_decoder, :221-250.  The
    member rtp_timestamp is only passed to FuRtpDecoder, which does not use it;
    it is not modelled. *)
Definition h264_rtp_payload (mem : list Z) (now : Z) (h : rtp_hdr) (st : option cbuf) (c : bitctx)
  : option cbuf * emit :=
  match (let? _ := bc_acquire c 1 in bc_peek c 1) with
  | Ok b =>
      let tp := Z.land (nth 0 b 0) 0x1f in
      if (0 <? tp) && (tp <? 24) then
        match nalu_decode now h c with
        | Ok (ps, _) => (st, (ps, Ok tt))
        | Err e => (st, ([], Err e)) | UB => (st, ([], UB)) | Fuel => (st, ([], Fuel))
        end
      else if (tp =? 24) || (tp =? 25) then (st, stap_decode tp now h c)
      else if (tp =? 26) || (tp =? 27) then (st, mtap_decode tp now h c)
      else if (tp =? 28) || (tp =? 29) then fu_decode mem now h st c
      else (st, ([], Err ERROR_RTP_PROBE))
  | Err e => (st, ([], Err e)) | UB => (st, ([], UB)) | Fuel => (st, ([], Fuel))
  end.

(** IRtpDecoder::decode(buffer, size), src/avformat/sps_avformat_rtpdec.cpp:40-59,
    of a decoder with the given match and payload decoder. *)
Definition irtp_decode {S : Type} (mtch : Z -> bool) (dec : rtp_hdr -> S -> bitctx -> S * emit)
  (st : S) (buf : list Z) : S * emit :=
  let c := bc_init buf in
  match (let? _ := bc_acquire c 12 in rtp_header_decode c) with
  | Ok (h, c1) =>
      if mtch (rh_pt h) then dec h st c1 else (st, ([], Err ERROR_RTP_PAYLOAD_TYPE))
  | Err e => (st, ([], Err e)) | UB => (st, ([], UB)) | Fuel => (st, ([], Fuel))
  end.
(** H264RtpDecoder is an IRtpDynamicDecoder (match: rtpdec.cpp:61-63). *)
Definition h264_rtp_decode (mem : list Z) (now : Z) (st : option cbuf) (buf : list Z) : option cbuf * emit :=
  irtp_decode is_rtp_dynamic (h264_rtp_payload mem now) st buf.
(** A run over datagrams, each with the clock value of its call; every outcome
    is recorded. *)
Fixpoint h264_rtp_run (mem : list Z) (st : option cbuf) (ds : list (Z * list Z)) : option cbuf * list emit :=
  match ds with
  | [] => (st, [])
  | (now, d) :: ds' =>
      let '(st1, e) := h264_rtp_decode mem now st d in
      let '(st2, es) := h264_rtp_run mem st1 ds' in (st2, e :: es)
  end.

(** ** AAC, src/avformat/sps_avformat_rtpdec_aac.cpp *)
(** RtpAacAuHeader::decode, :54-82: the list of (size, index). *)
Fixpoint pairs (l : list Z) : list (Z * Z) :=
  match l with a :: b :: r => (a, b) :: pairs r | _ => [] end.
Definition au_header_decode (c : bitctx) : res (list (Z * Z) * bitctx) :=
  let? _ := bc_acquire c 2 in
  let? r := read_bits c 16 in
  let nb := ((fst r + 7) / 8) / 2 in
  let? _ := bc_acquire (snd r) (2 * nb) in
  let? r2 := read_fields (snd r) (concat (repeat [13; 3] (Z.to_nat nb))) in
  Ok (pairs (fst r2), snd r2).
(** The loop of AacRtpDecoder::decode, :97-110. *)
Fixpoint aac_rtp_aus (ctx : navctx) (c : bitctx) (aus : list (Z * Z)) : emit :=
  match aus with
  | [] => ([], Ok tt)
  | (sz, _) :: r =>
      match (let? _ := bc_acquire c sz in
             let? d := bc_peek c sz in
             let? p := encode_raw_avc ctx d in
             let? c1 := skip_read_bytes c sz in
             Ok (p, c1)) with
      | Ok (p, c1) => let '(ps, o) := aac_rtp_aus ctx c1 r in (p :: ps, o)
      | Err e => ([], Err e) | UB => ([], UB) | Fuel => ([], Fuel)
      end
  end.
(** AacRtpDecoder::decode, :87-111. *)
Definition aac_rtp_payload (h : rtp_hdr) (st : unit) (c : bitctx) : unit * emit :=
  match au_header_decode c with
  | Ok (aus, c1) => (tt, aac_rtp_aus (mkav (rh_ts h) (rh_ts h) 90) c1 aus)
  | Err e => (tt, ([], Err e)) | UB => (tt, ([], UB)) | Fuel => (tt, ([], Fuel))
  end.
Definition aac_rtp_decode (buf : list Z) : emit :=
  snd (irtp_decode is_rtp_dynamic aac_rtp_payload tt buf).

(** ** RTCP, src/avformat/sps_avformat_rtpdec_rtcp.cpp *)
(** RtcpHead, rtpdec_rtcp.hpp:31-37. *)
Record rtcp_hd := mkrh { rc_version : Z; rc_padding : Z; rc_cflag : Z; rc_pt : Z; rc_length : Z }.
(** RtcpHeadDecoder::decode, :33-48. *)
Definition rtcp_head_decode (c : bitctx) : res (rtcp_hd * bitctx) :=
  match bc_acquire c 4 with
  | Ok _ =>
      let? r := read_fields c [2; 1; 5; 8; 16] in
      match fst r with
      | [v; p; cf; pt; len] => Ok (mkrh v p cf pt len, snd r)
      | _ => UB
      end
  | _ => Err ERROR_RTP_PROBE
  end.
(** What a decoder object ends up holding. *)
Inductive rtcp_msg :=
| RtcpSR (info : list Z) (blocks : list (list Z))   (* ssrc, msw, lsw, rtp_ts, pkts, octets *)
| RtcpRR (ssrc : list Z) (blocks : list (list Z))
| RtcpSdes                                         (* no items *)
| RtcpBye | RtcpApp.
(** The loops over RtcpSRReportBlock::decode, :54-68, :87-91 and :114-118.  The
    result of rb.decode is ignored there; when it fails the block pushed has
    uninitialised members, modelled as [UB]. *)
Fixpoint report_blocks (n : nat) (c : bitctx) : res (list (list Z) * bitctx) :=
  match n with
  | O => Ok ([], c)
  | S m =>
      match bc_acquire c 20 with
      | Ok _ =>
          let? r := read_fields c [8; 24; 32; 32; 32; 32] in
          let? r2 := report_blocks m (snd r) in
          Ok (fst r :: fst r2, snd r2)
      | _ => UB
      end
  end.
(** RtcpSRDecoder::decode, :70-94. *)
Definition sr_decode (h : rtcp_hd) (c : bitctx) : res rtcp_msg :=
  let? _ := bc_acquire c (24 + rc_cflag h * 20) in
  let? r := read_fields c [32; 32; 32; 32; 32; 32] in
  let? r2 := report_blocks (Z.to_nat (rc_cflag h)) (snd r) in
  Ok (RtcpSR (fst r) (fst r2)).
(** RtcpRRDecoder::decode, :103-121. *)
Definition rr_decode (h : rtcp_hd) (c : bitctx) : res rtcp_msg :=
  let? _ := bc_acquire c (4 + rc_cflag h * 20) in
  let? r := read_fields c [32] in
  let? r2 := report_blocks (Z.to_nat (rc_cflag h)) (snd r) in
  Ok (RtcpRR (fst r) (fst r2)).
(** RtcpSDESDecoder::decode, :152-167: dereferences sdes.end() in the first
    iteration; without iterations it succeeds. *)
Definition sdes_decode (h : rtcp_hd) : res rtcp_msg :=
  if 0 <? rc_cflag h then UB else Ok RtcpSdes.
(** RtcpByteDecoder::decode, RtcpAppDecoder::decode, :176-190: skip_read_bytes
    without check; the cursor is not used again. *)
Definition bye_decode (h : rtcp_hd) (c : bitctx) (m : rtcp_msg) : res rtcp_msg :=
  let? _ := skip_read_bytes c (rc_length h) in Ok m.
(** RtcpRtpDecoder::decode(buffer, size), :196-235. *)
Definition rtcp_decode (buf : list Z) : res rtcp_msg :=
  let? r := rtcp_head_decode (bc_init buf) in
  let h := fst r in
  if rc_pt h =? 200 then sr_decode h (snd r)
  else if rc_pt h =? 201 then rr_decode h (snd r)
  else if rc_pt h =? 202 then sdes_decode h
  else if rc_pt h =? 203 then bye_decode h (snd r) RtcpBye
  else if rc_pt h =? 204 then bye_decode h (snd r) RtcpApp
  else Err ERROR_RTP_PROBE.
