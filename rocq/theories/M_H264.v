(** Model of the H.264 parser, src/avcodec/sps_avcodec_h264_parser.cpp. *)
From Verif Require Import Base M_Bits M_Fields M_Packet.

(** H264NAL, src/avcodec/sps_avcodec_h264_parser.hpp:75-100.  The pointer and
    size are modelled by the bytes they denote. *)
Record nal := mknal { n_forbidden : Z; n_ref : Z; n_type : Z; n_buf : list Z }.

(** Codes, hpp:38-49. *)
Definition H264_NAL_SLICE := 1.
Definition H264_NAL_IDR_SLICE := 5.
Definition H264_NAL_SEI := 6.
Definition H264_NAL_SPS := 7.
Definition H264_NAL_PPS := 8.
Definition H264_NAL_AUD := 9.

(** The predicates, cpp:36-58. *)
Definition is_pps (n : nal) : bool := n_type n =? H264_NAL_PPS.
Definition is_sps (n : nal) : bool := n_type n =? H264_NAL_SPS.
Definition is_idr (n : nal) : bool := n_type n =? H264_NAL_IDR_SLICE.
Definition is_aud (n : nal) : bool := n_type n =? H264_NAL_AUD.
Definition is_sei (n : nal) : bool := n_type n =? H264_NAL_SEI.
Definition is_slice (n : nal) : bool := n_type n =? H264_NAL_SLICE.

(** H264NAL::parse_nal, cpp:60-81, followed by the push_back of
    NALUContext::append (:89-94; every caller stops when it fails, so the
    element pushed on failure is not observed). *)
Definition parse_nal (b : list Z) : res nal :=
  if zlen b <? 1 then Err ERROR_H264_DECODER
  else
    let? r := read_fields (bc_init (take 1 b)) [1; 2; 5] in
    match fst r with
    | [f; nri; t] => if f =? 0 then Ok (mknal f nri t b) else Err ERROR_H264_DECODER
    | _ => UB
    end.

(** find_start_code(buf, sz), cpp:101-110, on the memory [mem] from offset
    [off]; [fuel] >= [sz].  Returns the offset of the start code. *)
Fixpoint find_start_code (fuel : nat) (mem : list Z) (off sz : Z) : res (option Z) :=
  if sz <=? 3 then Ok None else
  match fuel with
  | O => Fuel
  | S f =>
      let? a := of_opt (nthz mem off) in
      let? b := of_opt (nthz mem (off + 1)) in
      let? c := of_opt (nthz mem (off + 2)) in
      if (a =? 0) && (b =? 0) && (c =? 1) then Ok (Some off)
      else find_start_code f mem (off + 1) (sz - 1)
  end.

(** NALUParser::decode_data, cpp:182-225, for is_avc = false.  The
    is_avc branch (:196-197) and decode_header (:122-180) are in M_Avc.v: no
    code in the repository takes them (H264AVCodecParser::encode_avc passes
    is_seq_header = false, :350).  Each round consumes at least four bytes. *)
Fixpoint decode_data (fuel : nat) (c : bitctx) : res (list nal) :=
  match bc_acquire c 4 with
  | Ok _ =>
      match fuel with
      | O => Fuel
      | S f =>
          let pos := bc_off c in
          let sz := bc_size c in
          let tail := zlen (bc_buf c) in
          let? start := find_start_code (Z.to_nat sz) (bc_buf c) pos sz in
          match start with
          | None => Err ERROR_H264_DECODER
          | Some st =>
              let sz2 := pos + sz - st - 1 in
              let? en := find_start_code (Z.to_nat sz2) (bc_buf c) (st + 1) sz2 in
              let nalu_size := u64 (match en with Some e => e - st - 3 | None => tail - st - 3 end) in
              let? c1 := skip_read_bytes c (st - pos + 3) in
              match bc_acquire c1 (u32 nalu_size) with
              | Ok _ =>
                  let? b := bc_peek c1 nalu_size in
                  let? n := parse_nal b in
                  let? c2 := skip_read_bytes c1 nalu_size in
                  let? ns := decode_data f c2 in
                  Ok (n :: ns)
              | _ => Err ERROR_H264_DECODER
              end
          end
      end
  | _ => Ok []
  end.
Definition h264_decode (buf : list Z) : res (list nal) :=
  decode_data (Z.to_nat (zlen buf)) (bc_init buf).

(** The last element satisfying a test: the scan loops of encode_avc,
    cpp:231-237. *)
Definition last_nal (f : nal -> bool) (l : list nal) : option nal :=
  fold_left (fun a n => if f n then Some n else a) l None.

(** NALUContext timestamps, cpp:83-87 (dts, pts, timebase). *)
Record navctx := mkav { av_dts : Z; av_pts : Z; av_tb : Z }.

(** int64_t division; by zero is undefined. *)
Definition cdiv (a b : Z) : res Z := if b =? 0 then UB else Ok (Z.quot a b).

(** The sequence-header part of NALUParser::encode_avc, cpp:239-292.  The
    packet area is fresh memory, modelled as zeros; [seq_pkt] checks that it is
    filled completely. *)
Definition avc_seq_header (sps : nal) (pps : option nal) : res pkt :=
  let pkt_sz := 5 + 1 + (2 + zlen (n_buf sps)) + 1 +
                match pps with Some p => 2 + zlen (n_buf p) | None => 0 end in
  if zlen (n_buf sps) <? 4 then Err ERROR_H264_ENCODER
  else
    let? s1 := of_opt (nthz (n_buf sps) 1) in
    let? s3 := of_opt (nthz (n_buf sps) 3) in
    let? c := write_bits (bc_init (repeat 0 (Z.to_nat pkt_sz))) 1 8 in
    let? c := write_bits c s1 8 in
    let? c := write_bits c 0 8 in
    let? c := write_bits c s3 8 in
    let? c := write_bits c 3 8 in
    let? c := write_bits c 1 8 in
    let? c := write_bits c (zlen (n_buf sps)) 16 in
    let? c := bc_write_bytes c (n_buf sps) in
    let? c := match pps with
              | Some p =>
                  let? c := write_bits c 1 8 in
                  let? c := write_bits c (zlen (n_buf p)) 16 in
                  bc_write_bytes c (n_buf p)
              | None => write_bits c 0 8
              end in
    if pkt_sz <? bc_off c then UB      (* assert in CharBuffer::skip *)
    else Ok (mkpkt AV_MESSAGE_DATA AV_STREAM_TYPE_VIDEO 0 0 0 0x17 CODEC_H264
                   (take (bc_off c) (bc_buf c))).

(** One media packet, cpp:299-333.  [nls] is nalu_length_size_minus_one (int8,
    -1 until set to 3). *)
Definition avc_nal_packet (ctx : navctx) (nls : Z) (n : nal) : res pkt :=
  let nls := if nls <? 0 then 3 else nls in
  let flag := Z.lor CODEC_H264
    (Z.shiftl (if is_idr n then 1 else if is_slice n then 2 else 5) 4) in
  let pkt_sz := nls + 1 + zlen (n_buf n) in
  let? dts := cdiv (av_dts ctx) (av_tb ctx) in
  let? pts := cdiv (av_pts ctx) (av_tb ctx) in
  let? c := write_bits (bc_init (repeat 0 (Z.to_nat pkt_sz))) (zlen (n_buf n)) (8 * (nls + 1)) in
  let? c := bc_write_bytes c (n_buf n) in
  if pkt_sz <? bc_off c then UB
  else Ok (mkpkt AV_MESSAGE_DATA AV_STREAM_TYPE_VIDEO 1 dts pts flag CODEC_H264
                 (take (bc_off c) (bc_buf c))).

(** The second loop of encode_avc, cpp:294-333. *)
Definition skipped (n : nal) : bool :=
  is_sps n || is_pps n || is_aud n || negb (is_idr n || is_slice n || is_sei n).
Fixpoint avc_nal_packets (ctx : navctx) (nls : Z) (ns : list nal) : res (list pkt) :=
  match ns with
  | [] => Ok []
  | n :: ns' =>
      if skipped n then avc_nal_packets ctx nls ns'
      else
        let? p := avc_nal_packet ctx nls n in
        let? ps := avc_nal_packets ctx nls ns' in
        Ok (p :: ps)
  end.

(** NALUParser::encode_avc, cpp:227-336.  Result: the packets appended to
    [pkts].  The new value of nalu_length_size_minus_one is not returned: it
    starts at -1 and is only ever set to 3, and both give the same packets
    (see avc_nal_packet). *)
Definition encode_avc (ctx : navctx) (nls : Z) (ns : list nal) : res (list pkt) :=
  let pps := last_nal (fun n => negb (is_sps n) && is_pps n) ns in
  match last_nal is_sps ns with
  | Some sps =>
      let? h := avc_seq_header sps pps in
      let? ps := avc_nal_packets ctx 3 ns in
      Ok (h :: ps)
  | None => avc_nal_packets ctx nls ns
  end.

(** H264AVCodecParser::encode_avc, cpp:346-357. *)
Definition h264_encode_avc (ctx : navctx) (nls : Z) (buf : list Z) : res (list pkt) :=
  let? ns := h264_decode buf in encode_avc ctx nls ns.

(** H264AVCodecParser::encode_raw_nalu, cpp:359-375. *)
Definition encode_raw_nalu (ctx : navctx) (nls : Z) (buf : list Z) : res (list pkt) :=
  let? n := parse_nal buf in encode_avc ctx nls [n].
