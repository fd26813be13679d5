(** Model of the MPEG-TS demultiplexer, src/avformat/sps_avformat_ts.cpp and
    src/avformat/sps_avformat_tsdec.cpp. *)
From Verif Require Import Base M_Bits M_Fields M_Packet M_IO M_Cache M_H264 M_AAC.

Definition SPS_TS_PACKET_SIZE := 188.
(** TS_DEFAULT_PES_PACKET_SIZE, src/avformat/sps_avformat_ts.hpp (1024 * 1024). *)
Definition TS_DEFAULT_PES := 1048576.
(** TsProgramType, hpp:90-96 (PAT and PMT are in M_Packet.v). *)
Definition TS_PROGRAM_UNKNOWN := 0.
Definition TS_PROGRAM_PES := 1.
(** Stream types, hpp:74-76, and the pids of PAT and SDT. *)
Definition TS_STREAM_AAC := 0x0F.
Definition TS_STREAM_H264 := 0x1B.
Definition TS_STREAM_H265 := 0x24.
Definition PAT_PID := 0.
Definition SDT_PID := 0x11.

(** Field of a list of values just read by [read_fields]. *)
Definition fld (l : list Z) (i : nat) : Z := nth i l 0.

(** Same outcome at another type (only used for outcomes other than [Ok]). *)
Definition recast {A B} (r : res A) : res B :=
  match r with Ok _ => UB | Err e => Err e | UB => UB | Fuel => Fuel end.

(** The recurring pair "acquire(n); append(rd.pos(), n); skip_read_bytes(n)".
    Simplification: the descriptor buffers filled this way are never read, so
    only the bytes are returned and the callers drop them. *)
Definition bc_get (c : bitctx) (n : Z) : res (list Z * bitctx) :=
  let? _ := bc_acquire c n in
  let? d := bc_peek c n in
  let? c := skip_read_bytes c n in
  Ok (d, c).

(** ** Packet layer *)

(** TsAdaptationFiled::decode, cpp:809-871.  The PCR, OPCR, splice and private
    bytes are parsed and dropped (nothing reads them).  [stuffing_length] is
    uint16_t (hpp), so a negative difference wraps.  [af_parts] is :836-850
    (PCR, OPCR, splice countdown). *)
Definition af_parts (fl : list Z) (c : bitctx) : res bitctx :=
  let? c := if fld fl 3 =? 1 then let? r := read_fields c [33; 6; 9] in Ok (snd r) else Ok c in
  let? c := if fld fl 4 =? 1 then let? r := bc_read_bytes c 6 in Ok (snd r) else Ok c in
  if fld fl 5 =? 1 then let? r := read_bits c 8 in Ok (snd r) else Ok c.
Definition af_decode (c : bitctx) : res bitctx :=
  let? _ := bc_acquire c 1 in
  let? r := read_bits c 8 in
  let alen := fst r in
  let c := snd r in
  let pos := bc_off c in
  if alen <=? 0 then Ok c else
  let? _ := bc_acquire c alen in
  let? r := read_fields c [1; 1; 1; 1; 1; 1; 1; 1] in
  let fl := fst r in
  let? c := af_parts fl (snd r) in
  let? c := if fld fl 7 =? 1 then
              let? r := read_bits c 8 in
              let? _ := bc_acquire (snd r) (fst r) in
              let? r := bc_read_bytes (snd r) (fst r) in
              Ok (snd r)
            else Ok c in
  skip_read_bytes c (u16 (alen - (bc_off c - pos))).

Record tshdr := mkts { th_pusi : Z; th_pid : Z; th_afc : Z; th_cc : Z }.

(** TsPacket::decode, cpp:878-959 (transport_error_indicator,
    transport_priority and transport_scrambling_control are not used). *)
Definition tsp_decode (c : bitctx) : res (tshdr * bitctx) :=
  match bc_acquire c SPS_TS_PACKET_SIZE with
  | Err _ => Err ERROR_TS_PACKET_SIZE
  | UB => UB
  | Fuel => Fuel
  | Ok _ =>
      let? r := read_bits c 8 in
      if negb (fst r =? 0x47) then Err ERROR_TS_PACKET_DECODE else
      let? r := read_fields (snd r) [1; 1; 1; 13; 2; 2; 4] in
      let h := mkts (fld (fst r) 1) (fld (fst r) 3) (fld (fst r) 5) (fld (fst r) 6) in
      if 0 <? Z.land (th_afc h) 2
      then let? c := af_decode (snd r) in Ok (h, c)
      else Ok (h, snd r)
  end.

(** ** Programs *)

(** TsPesContext, hpp:262-285 (stream_type, pts, dts, pes_packet_length,
    pes_packets; the member pes_packet_cap is the capacity of the buffer), and
    the continuity counter of its TsPesProgram. *)
Record pesst := mkps {
  ps_type : Z; ps_cc : Z; ps_pts : Z; ps_dts : Z; ps_len : Z; ps_buf : option cbuf
}.
(** TsPesProgram and TsPesContext constructors, cpp:260-263 and :361-371. *)
Definition pes_new (stream_type : Z) : pesst := mkps stream_type 0x0f (-1) (-1) 0 None.

Inductive prog := PPat | PSdt | PPmt | PPes (p : pesst).
(** program_type as set by the constructors: TsSdtProgram leaves it unknown,
    cpp:107-108. *)
Definition prog_type (p : prog) : Z :=
  match p with
  | PPat => TS_PROGRAM_PAT | PSdt => TS_PROGRAM_UNKNOWN
  | PPmt => TS_PROGRAM_PMT | PPes _ => TS_PROGRAM_PES
  end.
(** TsProgram::is_section, cpp:54-58. *)
Definition is_section (p : prog) : bool :=
  (prog_type p =? TS_PROGRAM_PAT) || (prog_type p =? TS_PROGRAM_PMT).

(** TsContext::filters together with the codec side of the TsDemuxer that owns
    it: the AAC parser state and the queue encoder_pkts. *)
Definition progs := Z -> option prog.
Definition add_program (f : progs) (pid : Z) (p : prog) : progs :=
  fun q => if q =? pid then Some p else f q.
Record tsst := mktss { s_progs : progs; s_adts : option adts; s_queue : list pkt }.
Definition set_progs (s : tsst) (f : progs) : tsst := mktss f (s_adts s) (s_queue s).
(** TsContext::TsContext, cpp:741-748. *)
Definition ts_new : tsst :=
  mktss (add_program (add_program (fun _ => None) PAT_PID PPat) SDT_PID PSdt) None [].

(** ** PSI *)

(** The loop of TsPatProgram::psi_decode, cpp:135-144. *)
Fixpoint pat_loop (fuel : nat) (c : bitctx) (left : Z) : res (list Z * bitctx) :=
  if left <=? 0 then Ok ([], c) else
  match fuel with
  | O => Fuel
  | S f =>
      let? r := read_fields c [16; 3; 13] in
      let? r' := pat_loop f (snd r) (left - 4) in
      Ok (fld (fst r) 2 :: fst r', snd r')
  end.
(** TsPatProgram::psi_decode, cpp:122-155: the cursor is returned also on an
    error, because the caller goes on to read the CRC. *)
Definition pat_decode (slen : Z) (f : progs) (c : bitctx) : progs * bitctx * res unit :=
  let left := slen - 5 - 4 in
  let r := if 0 <? left
           then let? _ := bc_acquire c left in pat_loop (Z.to_nat left) c left
           else Ok ([], c) in
  match r with
  | Ok (pids, c1) => (fold_left (fun f pid => add_program f pid PPmt) pids f, c1, Ok tt)
  | e => (f, c, recast e)
  end.

(** The loop of TsPmtProgram::psi_decode, cpp:200-233. *)
Fixpoint pmt_loop (fuel : nat) (c : bitctx) (left : Z) : res (list (Z * Z)) * bitctx :=
  if left <=? 0 then (Ok [], c) else
  match fuel with
  | O => (Fuel, c)
  | S f =>
      match read_fields c [8; 3; 13; 4; 12] with
      | Ok (v, c1) =>
          let n := fld v 4 in
          match (if 0 <? n then let? r := bc_get c1 n in Ok (snd r) else Ok c1) with
          | Ok c2 =>
              match pmt_loop f c2 (left - (5 + n)) with
              | (Ok l, c3) => (Ok ((fld v 0, fld v 2) :: l), c3)
              | e => e
              end
          | e => (recast e, c1)
          end
      | e => (recast e, c)
      end
  end.
(** cpp:235-255: a new PES program for each supported stream whose pid has no
    program yet. *)
Definition pmt_add (f : progs) (s : Z * Z) : progs :=
  if (fst s =? TS_STREAM_AAC) || (fst s =? TS_STREAM_H264) || (fst s =? TS_STREAM_H265)
  then match f (snd s) with
       | None => add_program f (snd s) (PPes (pes_new (fst s)))
       | Some _ => f
       end
  else f.
(** TsPmtProgram::psi_decode, cpp:161-258. *)
Definition pmt_decode (slen : Z) (f : progs) (c : bitctx) : progs * bitctx * res unit :=
  match (let? _ := bc_acquire c 4 in read_fields c [3; 13; 4; 2; 10]) with
  | Ok (v, c1) =>
      let pil := fld v 4 in
      match (if 0 <? pil then let? r := bc_get c1 pil in Ok (snd r) else Ok c1) with
      | Ok c2 =>
          let left := slen - 5 - 4 - pil - 4 in
          match pmt_loop (Z.to_nat left) c2 left with
          | (Ok l, c3) => (fold_left pmt_add l f, c3, Ok tt)
          | (e, c3) => (f, c3, recast e)
          end
      | e => (f, c1, recast e)
      end
  | e => (f, c, recast e)
  end.
(** TsSdtProgram::psi_decode, cpp:110-116. *)
Definition sdt_decode (f : progs) (c : bitctx) : progs * bitctx * res unit :=
  match read_bits c 8 with
  | Ok (_, c1) => (f, c1, Ok tt)
  | e => (f, c, recast e)
  end.
(** TsPsiProgram::decode, cpp:64-105: section header, table, CRC.  The CRC is
    read without acquire, also when the table failed, and is not checked. *)
Definition psi_decode (tbl : prog) (pusi : Z) (f : progs) (c : bitctx) : progs * res unit :=
  match (let? _ := bc_acquire c 8 in
         let? c := if pusi =? 1 then let? r := read_bits c 8 in Ok (snd r) else Ok c in
         read_fields c [8; 1; 1; 2; 12; 16; 2; 5; 1; 8; 8]) with
  | Ok (v, c1) =>
      let '(f', c2, r) :=
        match tbl with
        | PPat => pat_decode (fld v 4) f c1
        | PPmt => pmt_decode (fld v 4) f c1
        | _ => sdt_decode f c1
        end in
      match r with
      | UB => (f', UB)
      | Fuel => (f', Fuel)
      | _ => match read_bits c2 32 with
             | Ok _ => (f', r)
             | e => (f', recast e)
             end
      end
  | e => (f, recast e)
  end.

(** ** PES *)

(** TsPesContext::init, cpp:281-294; [mem] is what a new allocation contains
    (its first bytes are used). *)
Definition pes_init (mem : list Z) (p : pesst) (sz : Z) : pesst :=
  let cap := if 0 <? sz then sz else TS_DEFAULT_PES in
  mkps (ps_type p) (ps_cc p) (-1) (-1) sz (Some (cb_new mem cap 0)).
Definition set_ts (p : pesst) (pts dts : Z) : pesst :=
  mkps (ps_type p) (ps_cc p) pts dts (ps_len p) (ps_buf p).
Definition set_cc (p : pesst) (cc : Z) : pesst :=
  mkps (ps_type p) cc (ps_pts p) (ps_dts p) (ps_len p) (ps_buf p).
Definition set_buf (p : pesst) (b : option cbuf) : pesst :=
  mkps (ps_type p) (ps_cc p) (ps_pts p) (ps_dts p) (ps_len p) b.
(** TsPesContext::reset, cpp:265-271. *)
Definition pes_reset (p : pesst) : pesst := mkps (ps_type p) (ps_cc p) (-1) (-1) 0 None.

(** TsPesContext::dump, cpp:297-340 (the sp_debug arguments, which read the
    first three bytes of the buffer in a debug build, are left out). *)
Definition pes_dump (p : pesst) (c : bitctx) : pesst * res unit :=
  match ps_buf p with
  | None => (p, Ok tt)
  | Some b =>
      let left := if 0 <? ps_len p
                  then Z.min (u64 (ps_len p - cb_len b)) (bc_size c)
                  else bc_size c in
      if cb_remain b <? left then (p, Err ERROR_TS_PACKET_DECODE)
      else match (let? d := bc_peek c left in cb_append b d) with
           | Ok b' => (set_buf p (Some b'), Ok tt)
           | e => (p, recast e)
           end
  end.

(** TsDemuxer::on_pes_complete, on_h264 and on_aac, tsdec.cpp:133-197.  The
    H.264 parser is given [len] bytes of the buffer, the AAC parser the bytes
    stored in it.  The NAL length size of the H.264 parser is -1 or 3, which
    the parser treats alike (M_H264.v). *)
Definition on_pes_complete (s : tsst) (p : pesst) (len : Z) (b : cbuf) : tsst * res unit :=
  let ctx := mkav (ps_dts p) (ps_pts p) 90 in
  if ps_type p =? TS_STREAM_H264 then
    match (let? d := of_opt (slice (cb_mem b) (cb_head b) len) in h264_encode_avc ctx (-1) d) with
    | Ok ps => (mktss (s_progs s) (s_adts s) (s_queue s ++ ps), Ok tt)
    | e => (s, recast e)
    end
  else if ps_type p =? TS_STREAM_AAC then
    match cb_contents b with
    | Ok d =>
        let '(ps, hdr, r) := aac_encode_avc ctx (s_adts s) d in
        match r with
        | Ok _ => (mktss (s_progs s) hdr (s_queue s ++ ps), Ok tt)
        | e => (mktss (s_progs s) hdr (s_queue s), recast e)
        end
    | e => (s, recast e)
    end
  else (s, Ok tt).
(** TsPesContext::flush and on_payload_complete, cpp:273-278 and :342-359;
    pes_packet_length is uint16_t. *)
Definition pes_flush (s : tsst) (p : pesst) : tsst * pesst * res unit :=
  match ps_buf p with
  | None => (s, p, Ok tt)
  | Some b =>
      let len := if ps_len p =? 0 then u16 (cb_len b) else ps_len p in
      let '(s', r) := on_pes_complete s p len b in
      (s', pes_reset p, r)
  end.

(** PTS or DTS, cpp:461-482 and :487-508. *)
Definition pes_stamp (c : bitctx) : res (Z * bitctx) :=
  let? _ := bc_acquire c 5 in
  let? r := read_fields c [4; 3; 1; 15; 1; 15; 1] in
  let v := fst r in
  Ok (Z.lor (Z.lor (Z.land (Z.shiftl (fld v 1) 30) 0x1c0000000) (Z.shiftl (fld v 3) 15)) (fld v 5), snd r).
(** A header part that is read and dropped: "acquire(n)", then reads or a skip
    of exactly [n] bytes. *)
Definition opt_fields (flag n : Z) (ws : list Z) (c : bitctx) : res bitctx :=
  if flag =? 0 then Ok c else
  let? _ := bc_acquire c n in let? r := read_fields c ws in Ok (snd r).
Definition opt_skip (flag n : Z) (c : bitctx) : res bitctx :=
  if flag =? 0 then Ok c else
  let? _ := bc_acquire c n in skip_read_bytes c n.
Definition opt_get (flag n : Z) (c : bitctx) : res bitctx :=
  if flag =? 0 then Ok c else let? r := bc_get c n in Ok (snd r).
(** A length byte and that many bytes, cpp:594-613 and :637-661 ([ws] splits
    off the marker bit of the extension field). *)
Definition opt_block (flag : Z) (ws : list Z) (i : nat) (c : bitctx) : res bitctx :=
  if flag =? 0 then Ok c else
  let? _ := bc_acquire c 1 in
  let? r := read_fields c ws in
  let? r := bc_get (snd r) (fld (fst r) i) in
  Ok (snd r).
(** The PES extension, cpp:571-662. *)
Definition pes_ext (flag : Z) (c : bitctx) : res bitctx :=
  if flag =? 0 then Ok c else
  let? _ := bc_acquire c 1 in
  let? r := read_fields c [1; 1; 1; 1; 3; 1] in
  let v := fst r in
  let? c := opt_get (fld v 0) 16 (snd r) in
  let? c := opt_block (fld v 1) [8] 0 c in
  let? c := opt_skip (fld v 2) 2 c in
  let? c := opt_skip (fld v 3) 2 c in
  opt_block (fld v 5) [1; 7] 1 c.
(** cpp:513-673: the parts after the time stamps, then the stuffing;
    [pos] is where the header data started. *)
Definition pes_tail (v : list Z) (pos : Z) (c : bitctx) : res bitctx :=
  let? c := opt_fields (fld v 7) 6 [8; 16; 16; 8] c in
  let? c := opt_fields (fld v 8) 3 [24] c in
  let? c := opt_skip (fld v 9) 1 c in
  let? c := opt_skip (fld v 10) 1 c in
  let? c := opt_fields (fld v 11) 2 [16] c in
  let? c := pes_ext (fld v 12) c in
  let stuff := fld v 13 - (bc_off c - pos) in
  let? _ := bc_acquire c stuff in
  skip_read_bytes c stuff.
(** cpp:437-508: flags, header length, PTS and DTS; the stamps stored so far
    stay when a later part fails. *)
Definition pes_header (c : bitctx) : (Z * Z) * res bitctx :=
  match read_fields c [2; 2; 1; 1; 1; 1; 2; 1; 1; 1; 1; 1; 1; 8] with
  | Ok (v, c0) =>
      let pos := bc_off c0 in
      let fl := fld v 6 in
      match (if 0 <? Z.land fl 2 then pes_stamp c0 else Ok (-1, c0)) with
      | Ok (pts, c1) =>
          match (if fl =? 3 then pes_stamp c1 else Ok (pts, c1)) with
          | Ok (dts, c2) => ((pts, dts), pes_tail v pos c2)
          | e => ((pts, pts), recast e)
          end
      | e => ((-1, -1), recast e)
      end
  | e => ((-1, -1), recast e)
  end.

(** Stream ids whose packets have no PES header, cpp:432-436. *)
Definition plain_sid (sid : Z) : bool :=
  existsb (Z.eqb sid) [0xbc; 0xbf; 0xf0; 0xf1; 0xff; 0xf2; 0xf8].

(** TsPesProgram::decode from a unit start, cpp:399-421 and :425-735. *)
Definition pes_start (mem : list Z) (s : tsst) (p : pesst) (c : bitctx) : tsst * pesst * res unit :=
  match bc_acquire c 9 with
  | Ok _ =>
      let '(s1, p1, r) := pes_flush s p in
      match r with
      | Ok _ =>
          match read_fields c [24; 8; 16] with
          | Ok (v, c1) =>
              let p2 := pes_init mem p1 (fld v 2) in
              if negb (fld v 0 =? 1) then (s1, p2, Err ERROR_TS_PACKET_DECODE)
              else if fld v 1 =? 0xbe then (s1, p2, Ok tt)
              else if plain_sid (fld v 1) then
                let '(p3, r3) := pes_dump p2 c1 in (s1, p3, r3)
              else
                let '(ts, r2) := pes_header c1 in
                let p3 := set_ts p2 (fst ts) (snd ts) in
                match r2 with
                | Ok c2 => let '(p4, r4) := pes_dump p3 c2 in (s1, p4, r4)
                | e => (s1, p3, recast e)
                end
          | e => (s1, p1, recast e)
          end
      | e => (s1, p1, e)
      end
  | e => (s, p, e)
  end.
(** TsPesProgram::decode, cpp:373-739 ([payload_unit_start_indicator] is one
    bit). *)
Definition pes_decode (mem : list Z) (s : tsst) (p : pesst) (h : tshdr) (c : bitctx)
  : tsst * pesst * res unit :=
  let pending := match ps_buf p with Some _ => true | None => false end in
  if (th_pusi h =? 0) && negb pending then (s, p, Err ERROR_TS_PACKET_DECODE) else
  if negb (th_cc h =? Z.land (ps_cc p + 1) 0x0f) then (s, p, Err ERROR_TS_PACKET_CC_CONTINUE) else
  let p := set_cc p (th_cc h) in
  if th_pusi h =? 0
  then let '(p1, r) := pes_dump p c in (s, p1, r)
  else pes_start mem s p c.

(** ** The context *)

(** TsCache::on_packet, tsdec.cpp:42-50: the raw packet given to the cache of
    raw TS viewers; [pusi >> 31] is 0.  Simplification: the put of the cache
    always succeeds (M_Cache.v). *)
Definition ts_on_packet (tp pusi : Z) (d : list Z) : pkt :=
  mkpkt AV_MESSAGE_DATA (if tp =? TS_PROGRAM_PES then AV_STREAM_PES else AV_STREAM_PSI)
        (Z.lor tp (Z.shiftr pusi 31)) 0 0 0 0 d.

(** TsContext::decode, cpp:750-783: new state, what the packet handler was
    given, outcome. *)
Definition ts_decode (mem : list Z) (s : tsst) (d : list Z) : tsst * list pkt * res unit :=
  match tsp_decode (bc_init d) with
  | Ok (h, c) =>
      match s_progs s (th_pid h) with
      | None => (s, [], Ok tt)
      | Some pr =>
          if (Z.land (th_afc h) 1 =? 0) && negb (is_section pr) then (s, [], Ok tt)
          else
            let '(s', r) :=
              match pr with
              | PPes p =>
                  let '(s1, p1, r) := pes_decode mem s p h c in
                  (set_progs s1 (add_program (s_progs s1) (th_pid h) (PPes p1)), r)
              | _ => let '(f, r) := psi_decode pr (th_pusi h) (s_progs s) c in (set_progs s f, r)
              end in
            match r with
            | Ok _ => (s', [ts_on_packet (prog_type pr) (th_pusi h) d], Ok tt)
            | e => (s', [], e)
            end
      end
  | e => (s, [], recast e)
  end.

(** TsDemuxer::read_packet, tsdec.cpp:65-91, over a sequence of packets: decode
    until the first error; what the packet handler got and what was queued. *)
Fixpoint ts_run (mem : list Z) (s : tsst) (ds : list (list Z)) : tsst * list pkt * res unit :=
  match ds with
  | [] => (s, [], Ok tt)
  | d :: ds' =>
      let '(s1, o, r) := ts_decode mem s d in
      match r with
      | Ok _ => let '(s2, o2, r2) := ts_run mem s1 ds' in (s2, o ++ o2, r2)
      | e => (s1, o, e)
      end
  end.

(** TsDemuxer over a transport: TsDemuxer::TsDemuxer (tsdec.cpp:52-54,
    AVBuffer of one packet that is not rewindable, M_IO.v) and the loop of
    read_packet (:65-91), decode_packet (:101-121) on one packet.
    Simplification: the queue is not emptied between packets (pop only removes
    from its front, :123-131), so [s_queue] is everything delivered. *)
Fixpoint ts_demux (fuel : nat) (mem : list Z) (s : tsst) (r : breader) : tsst * list pkt * res unit :=
  match fuel with
  | O => (s, [], Fuel)
  | S f =>
      match acquire r SPS_TS_PACKET_SIZE with
      | (Ok _, r1) =>
          match slice (ab_data (br_buf r1)) (ab_ptr (br_buf r1)) SPS_TS_PACKET_SIZE with
          | None => (s, [], UB)
          | Some d =>
              let '(s1, o, x) := ts_decode mem s d in
              match x with
              | Ok _ =>
                  let '(s2, o2, x2) := ts_demux f mem s1 (mkbr (ab_clear (br_buf r1)) (br_io r1)) in
                  (s2, o ++ o2, x2)
              | e => (s1, o, e)
              end
          end
      | (e, _) => (s, [], e)
      end
  end.
Definition ts_reader (fill : list Z) (t : transport) : breader := mkbr (mkab fill 0 0 false) (Some t).
