(** FLV demuxer and muxer. *)
From Verif Require Import Base M_IO M_Packet.

(** Reader computations: a result and the reader afterwards. *)
Definition rdm (A : Type) := breader -> res A * breader.
Definition mret {A} (a : A) : rdm A := fun r => (Ok a, r).
Definition merr {A} (c : Z) : rdm A := fun r => (Err c, r).
Definition mbind {A B} (m : rdm A) (f : A -> rdm B) : rdm B := fun r =>
  match m r with
  | (Ok a, r1) => f a r1
  | (Err c, r1) => (Err c, r1)
  | (UB, r1) => (UB, r1)
  | (Fuel, r1) => (Fuel, r1)
  end.
Notation "'let!' x ':=' m 'in' k" := (mbind m (fun x => k))
  (at level 200, x pattern, m at level 100, k at level 200).
Definition lift {A} (f : breader -> res (A * breader)) : rdm A := fun r =>
  match f r with Ok (a, r1) => (Ok a, r1) | Err c => (Err c, r) | UB => (UB, r) | Fuel => (Fuel, r) end.
Definition macquire (n : Z) : rdm unit := fun r => acquire r n.
Definition mguard (b : bool) (c : Z) : rdm unit := if b then mret tt else merr c.

(** FlvDemuxer::read_header, src/avformat/sps_avformat_flvdec.cpp:41-74.  The
    packet's flags are overwritten with byte 4 at :69. *)
Definition flv_read_header : rdm pkt :=
  let! _ := macquire 9 in
  let! d := lift (fun r => rdbytes r 9) in
  match d with
  | a :: b :: c :: _ :: f :: _ =>
      if (a =? 0x46) && (b =? 0x4C) && (c =? 0x56)
      then mret (mkpkt AV_MESSAGE_HEADER AV_STREAM_TYPE_NB 0 0 0 f 0 d)
      else fun r => (Err ERROR_FLV_PROBE, rdskip r (-9))   (* skip_bytes only at :71 *)
  | _ => fun r => (UB, r)
  end.

(** [cts = (cts + 0xff800000) ^ 0xff800000], :168, in uint32, stored in int32. *)
Definition flv_cts (v : Z) : Z := s32 (Z.lxor (u32 (v + 0xff800000)) 0xff800000).

(** FlvDemuxer::read_packet, :76-208. *)
Definition flv_read_packet : rdm pkt :=
  let! _ := macquire 15 in                                        (* :93 *)
  let! _prev := lift rd32 in
  let! tag := lift rd8 in
  let! dsize := lift rd24 in
  let! dlow := lift rd24 in
  let! dhigh := lift rd8 in
  let dts := Z.lor dlow (Z.shiftl dhigh 24) in                    (* :102 *)
  let! _sid := lift rd24 in
  let! _ := macquire dsize in                                     (* :106 *)
  let finish st ptype pts flags codec size : rdm pkt :=           (* :189-207 *)
    if size <=? 0 then merr ERROR_FLV_TAG else
    let! d := lift (fun r => rdbytes r size) in
    mret (mkpkt AV_MESSAGE_DATA st ptype dts pts flags codec d) in
  if tag =? 8 then                                                (* :135-148 *)
    let! flags := lift rd8 in
    let codec := Z.shiftr (Z.land flags 0xf0) 4 in
    if negb (codec =? CODEC_AAC) then merr ERROR_FLV_AUDIO_CODECID else
    let! ptype := lift rd8 in
    finish AV_STREAM_TYPE_AUDIO ptype dts flags codec (dsize - 2)
  else if tag =? 9 then                                           (* :149-184 *)
    let! flags := lift rd8 in
    let ftype := Z.land flags 0xf0 in
    let codec := Z.land flags 0x0f in
    if negb (codec =? CODEC_H264) && negb (codec =? CODEC_H265) then merr ERROR_FLV_VIDEO_CODECID else
    if negb (ftype =? 0x50) then
      let! ptype := lift rd8 in
      let! cts := lift rd24 in
      finish AV_STREAM_TYPE_VIDEO ptype (dts + flv_cts cts) flags codec (dsize - 1 - 4)
    else finish AV_STREAM_TYPE_VIDEO 0 0 flags codec (dsize - 1)
  else if tag =? 18 then finish AV_STREAM_TYPE_SUBTITLE 0 0 0 0 dsize
  else merr ERROR_FLV_UNKNOWN_TAG_TYPE.                           (* :126-128 *)

(** The consumer loop: packets until the first error,
    src/module/stream/sps_stream.cpp:48-60. *)
Fixpoint flv_read_all (fuel : nat) (r : breader) : list pkt * res unit * breader :=
  match fuel with
  | O => ([], Fuel, r)
  | S f =>
      match flv_read_packet r with
      | (Ok p, r1) => let '(ps, e, r2) := flv_read_all f r1 in (p :: ps, e, r2)
      | (Err c, r1) => ([], Err c, r1)
      | (UB, r1) => ([], UB, r1)
      | (Fuel, r1) => ([], Fuel, r1)
      end
  end.
(** read_header followed by the loop. *)
Definition flv_demux (fuel : nat) (r : breader) : res pkt * (list pkt * res unit * breader) :=
  match flv_read_header r with
  | (Ok h, r1) => (Ok h, flv_read_all fuel r1)
  | (Err c, r1) => (Err c, ([], Err c, r1))
  | (UB, r1) => (UB, ([], UB, r1))
  | (Fuel, r1) => (Fuel, ([], Fuel, r1))
  end.

(** ** Muxer, src/avformat/sps_avformat_flvenc.cpp. *)
Record flvmux := mkfm {
  fm_prev : Z;               (* previous_size *)
  fm_fvideo : bool; fm_faudio : bool; fm_fmeta : bool   (* filters, .hpp:51-53 *)
}.
Definition flvmux0 : flvmux := mkfm 0 false false false.

(** The sink: results of the next write calls (true = SUCCESS; after the list,
    always SUCCESS) and the bytes accepted so far.  A failed write is taken to
    have emitted nothing. *)
Record sink := mksink { sk_oracle : list bool; sk_out : list Z }.
Definition sk_write (s : sink) (d : list Z) : bool * sink :=
  match sk_oracle s with
  | false :: o => (false, mksink o (sk_out s))
  | true :: o => (true, mksink o (sk_out s ++ d))
  | [] => (true, mksink [] (sk_out s ++ d))
  end.

(** FlvAVMuxer::write_header, :44-71. *)
Definition flv_default_header : list Z := [0x46; 0x4C; 0x56; 1; 5; 0; 0; 0; 9].
Definition flv_write_header (h : option pkt) (s : sink) : res unit * sink :=
  match (match h with
         | Some p => if zlen (p_data p) =? 9 then Some (p_data p) else None
         | None => Some flv_default_header
         end) with
  | None => (Err ERROR_FLV_PROBE, s)
  | Some d => let '(ok, s1) := sk_write s d in ((if ok then Ok tt else Err ERROR_SOCKET_WRITE), s1)
  end.

Definition flv_tag_type (st : Z) : option Z :=      (* :82-95 *)
  if st =? AV_STREAM_TYPE_VIDEO then Some 9
  else if st =? AV_STREAM_TYPE_AUDIO then Some 8
  else if st =? AV_STREAM_TYPE_SUBTITLE then Some 18 else None.

(** FlvAVMuxer::write_packet, :73-175.  The 29-byte scratch buffer is the
    BytesWriter of M_IO; WRITE_DATA_SIZE (:119-122) patches bytes 5..7. *)
Definition flv_patch_size (d : list Z) (n : Z) : list Z :=
  take 5 d ++ [u8 (Z.shiftr n 16); u8 (Z.shiftr (Z.land n 0xFFFF) 8); u8 (Z.land n 0xFF)] ++ drop 8 d.
Definition flv_write_packet (m : flvmux) (p : pkt) (s : sink) : res unit * flvmux * sink :=
  match flv_tag_type (p_stream p) with
  | None => (Err ERROR_FLV_UNKNOWN_TAG_TYPE, m, s)
  | Some tag =>
      if (is_video p && fm_fvideo m) || (is_audio p && fm_faudio m) || (is_script p && fm_fmeta m)
      then (Ok tt, m, s)
      else
        let w :=
          let? w := wr32 (mkbw [] 29) (fm_prev m) in
          let? w := wr8 w tag in
          let? w := wr_raw w [0; 0; 0] in                      (* skip(3): contents patched below *)
          let? w := wr24 w (Z.land (p_dts p) 0x00FFFFFF) in
          let? w := wr8 w (Z.shiftr (Z.land (p_dts p) 0xFF000000) 24) in
          let? w := wr24 w 0 in
          if is_script p then Ok (w, u32 (zlen (p_data p)))
          else if is_audio p then
            let? w := wr8 w (p_flags p) in
            let? w := wr8 w (p_ptype p) in
            Ok (w, u32 (zlen (p_data p) + 2))
          else
            let? w := wr8 w (p_flags p) in
            if negb (Z.land (p_flags p) 0xf0 =? 0x50) then
              let? w := wr8 w (p_ptype p) in
              let? w := wr24 w (p_pts p - p_dts p) in
              Ok (w, u32 (zlen (p_data p) + 1 + 4))
            else Ok (w, u32 (zlen (p_data p) + 1)) in
        let m1 := mkfm 11 (fm_fvideo m) (fm_faudio m) (fm_fmeta m) in   (* :118 *)
        match w with
        | Ok (w, dsize) =>
            let '(ok1, s1) := sk_write s (flv_patch_size (bw_out w) dsize) in
            if ok1 then
              let '(ok2, s2) := sk_write s1 (p_data p) in
              if ok2 then (Ok tt, mkfm (u32 (11 + dsize)) (fm_fvideo m) (fm_faudio m) (fm_fmeta m), s2)
              else (Err ERROR_SOCKET_WRITE, m1, s2)
            else (Err ERROR_SOCKET_WRITE, m1, s1)
        | Err c => (Err c, m1, s) | UB => (UB, m1, s) | Fuel => (Fuel, m1, s)
        end
  end.

(** Writing a list of packets, stopping at the first error. *)
Fixpoint flv_write_all (m : flvmux) (ps : list pkt) (s : sink) : res unit * flvmux * sink :=
  match ps with
  | [] => (Ok tt, m, s)
  | p :: ps' =>
      match flv_write_packet m p s with
      | (Ok _, m1, s1) => flv_write_all m1 ps' s1
      | (e, m1, s1) => (e, m1, s1)
      end
  end.
