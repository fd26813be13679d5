(** Model of the ADTS/AAC parser, src/avcodec/sps_avcodec_aac_parser.cpp. *)
From Verif Require Import Base M_Bits M_Fields M_Packet M_H264.

(** The AdtsFixedHeader members the code uses after decoding,
    src/avcodec/sps_avcodec_aac_parser.hpp:76-113. *)
Record adts := mkadts {
  ad_pa : Z;       (* protection_absent *)
  ad_profile : Z; ad_sfi : Z; ad_ch : Z; ad_orig : Z; ad_home : Z;
  ad_len : Z       (* aac_frame_length *)
}.

(** AdtsFixedHeader::decode, cpp:66-112. *)
Definition adts_decode (c : bitctx) : res (adts * bitctx) :=
  match bc_acquire c 7 with
  | Ok _ =>
      let? r := read_bits c 12 in
      if negb (fst r =? 0xfff) then Err ERROR_AAC_DECODER
      else
        let? r2 := read_fields (snd r) [1; 2; 1; 2; 4; 1; 3; 1; 1; 1; 1; 13; 11; 2] in
        match fst r2 with
        | [id; layer; pa; profile; sfi; priv; ch; orig; home; cb; cs; len; full; nb] =>
            let? c2 := if pa =? 0 then let? r3 := read_bits (snd r2) 16 in Ok (snd r3)
                       else Ok (snd r2) in
            Ok (mkadts pa profile sfi ch orig home len, c2)
        | _ => UB
        end
  | _ => Err ERROR_AAC_DECODER
  end.

(** AdtsFixedHeader::operator==, cpp:57-64: the first "=" assigns; the value
    assigned (and returned) is the conjunction of the argument's
    protection_absent and the five comparisons. *)
Definition adts_eq (h t : adts) : bool * adts :=
  let b := negb (ad_pa t =? 0) && (ad_profile h =? ad_profile t) && (ad_sfi h =? ad_sfi t)
           && (ad_ch h =? ad_ch t) && (ad_orig h =? ad_orig t) && (ad_home h =? ad_home t) in
  (b, mkadts (if b then 1 else 0) (ad_profile h) (ad_sfi h) (ad_ch h) (ad_orig h) (ad_home h) (ad_len h)).

(** The flags byte, cpp:139-140 and :172-173. *)
Definition AAC_FLAGS := Z.lor (Z.lor (Z.lor (Z.shiftl 10 4) 12) 2) 1.

(** The two-byte AudioSpecificConfig, cpp:138-151 (the local array is
    uninitialised; write_bits clears each byte it enters). *)
Definition asc_bytes (h : adts) : res (list Z) :=
  let? c := write_fields (bc_init [0; 0])
    [(ad_profile h + 1, 5); (ad_sfi h, 4); (ad_ch h, 4); (0, 3)] in
  Ok (bc_buf c).

(** AVPacket::create of an audio packet (src/avformat/sps_avformat_packet.cpp:33-50). *)
Definition audio_pkt (ty ts : Z) (d : list Z) : pkt :=
  mkpkt AV_MESSAGE_DATA AV_STREAM_TYPE_AUDIO ty ts ts AAC_FLAGS CODEC_AAC d.

(** One round of the loop in AacAVCodecParser::encode_avc, cpp:124-191: the
    packets pushed, the new member [header], and how the round ended. *)
Definition aac_round (ctx : navctx) (hdr : option adts) (c : bitctx)
  : list pkt * option adts * res bitctx :=
  match adts_decode c with
  | Ok (t, c1) =>
      let '(same, hdr1) := match hdr with
                           | None => (false, None)
                           | Some h => let (b, h') := adts_eq h t in (b, Some h')
                           end in
      let hdr2 := if same then hdr1 else Some t in
      let head := if same then Ok [] else let? d := asc_bytes t in Ok [audio_pkt 0 0 d] in
      match head with
      | Ok hd =>
          if ad_len t <=? 0 then (hd, hdr2, Err ERROR_AAC_DECODER) else
          let size := ad_len t - 7 - (if ad_pa t =? 1 then 0 else 2) in
          match (let? dts := cdiv (av_dts ctx) (av_tb ctx) in
                 let? d := bc_peek c1 size in
                 let? c2 := skip_read_bytes c1 size in
                 Ok (audio_pkt 1 dts d, c2)) with
          | Ok (p, c2) => (hd ++ [p], hdr2, Ok c2)
          | Err e => (hd, hdr2, Err e)
          | UB => (hd, hdr2, UB)
          | Fuel => (hd, hdr2, Fuel)
          end
      | Err e => ([], hdr2, Err e)
      | UB => ([], hdr2, UB)
      | Fuel => ([], hdr2, Fuel)
      end
  | Err e => ([], hdr, Err e)
  | UB => ([], hdr, UB)
  | Fuel => ([], hdr, Fuel)
  end.

(** AacAVCodecParser::encode_avc, cpp:118-195: packets pushed, member
    [header], outcome.  [fuel] >= number of bytes; a successful round consumes
    at least 7. *)
Fixpoint aac_loop (fuel : nat) (ctx : navctx) (hdr : option adts) (c : bitctx)
  : list pkt * option adts * res unit :=
  if bc_size c <=? 0 then ([], hdr, Ok tt) else
  match fuel with
  | O => ([], hdr, Fuel)
  | S f =>
      let '(ps, hdr2, r) := aac_round ctx hdr c in
      match r with
      | Ok c2 => let '(ps', hdr3, r') := aac_loop f ctx hdr2 c2 in (ps ++ ps', hdr3, r')
      | Err e => (ps, hdr2, Err e)
      | UB => (ps, hdr2, UB)
      | Fuel => (ps, hdr2, Fuel)
      end
  end.
Definition aac_encode_avc (ctx : navctx) (hdr : option adts) (buf : list Z)
  : list pkt * option adts * res unit :=
  aac_loop (Z.to_nat (zlen buf)) ctx hdr (bc_init buf).

(** AacAVCodecParser::encode_raw_avc, cpp:197-218; [d] is the in_size bytes at
    in_buf. *)
Definition encode_raw_avc (ctx : navctx) (d : list Z) : res pkt :=
  let? dts := cdiv (av_dts ctx) (av_tb ctx) in Ok (audio_pkt 1 dts d).
