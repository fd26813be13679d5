(** Model of NALUParser::decode for length-prefixed ("AVC") data and for
    sequence headers, src/avcodec/sps_avcodec_h264_parser.cpp:96-99 and
    :112-225; the other branch of decode_data is in M_H264.v. *)
From Verif Require Import Base M_Bits M_Fields M_Packet M_H264.

(** Members of NALUParser, src/avcodec/sps_avcodec_h264_parser.hpp:149-150, and
    the constructor, cpp:96-99 (the second is an int8_t). *)
Record nparser := mknp { np_avc : bool; np_nls : Z }.
Definition np_new (avc : bool) (nsz : Z) : nparser := mknp avc ((nsz + 128) mod 256 - 128).

(** One round of decode_data, cpp:193-222, with is_avc.  acquire multiplies in
    32 bits (src/io/sps_io_bits.cpp:59-61), so it can let a size pass that
    leaves the buffer.  Then the first byte of the unit is looked at all the
    same; if it is accepted, the cursor is moved outside (:221) and, its 64-bit
    size having wrapped, the next round reads there. *)
Definition avc_unit (nls : Z) (c : bitctx) : res (nal * bitctx) :=
  let? r := read_bits c ((nls + 1) * 8) in
  let '(size, c1) := r in
  match bc_acquire c1 size with
  | Ok _ =>
      if bc_size c1 <? size then
        let? h := bc_peek c1 1 in
        let? _ := parse_nal h in UB
      else
        let? b := bc_peek c1 size in
        let? n := parse_nal b in
        let? c2 := skip_read_bytes c1 size in
        Ok (n, c2)
  | _ => Err ERROR_H264_DECODER
  end.
(** decode_data, cpp:182-225: the units appended and how it ended.  The element
    that append pushes before it fails (:92) is left out.  Each round consumes
    at least a byte. *)
Fixpoint avc_data (fuel : nat) (nls : Z) (c : bitctx) : list nal * res unit :=
  match bc_acquire c 4 with
  | Ok _ =>
      match fuel with
      | O => ([], Fuel)
      | S f =>
          match avc_unit nls c with
          | Ok (n, c2) => let '(l, r) := avc_data f nls c2 in (n :: l, r)
          | Err e => ([], Err e)
          | UB => ([], UB)
          | Fuel => ([], Fuel)
          end
      end
  | _ => ([], Ok tt)
  end.
(** Both branches.  For start codes the units found before a failure are left out. *)
Definition np_data (p : nparser) (buf : list Z) : list nal * res unit :=
  if np_avc p then
    if np_nls p <? 0 then ([], Err ERROR_H264_DECODER)
    else avc_data (S (length buf)) (np_nls p) (bc_init buf)
  else match h264_decode buf with
       | Ok ns => (ns, Ok tt) | Err e => ([], Err e) | UB => ([], UB) | Fuel => ([], Fuel)
       end.

(** The loops over parameter sets, cpp:148-159 and :162-173: the size is read
    without asking whether it is there. *)
Fixpoint np_sets (k : nat) (p : nparser) (c : bitctx) : list nal * res bitctx :=
  match k with
  | O => ([], Ok c)
  | S k' =>
      match read_bits c 16 with
      | Ok (v, c1) =>
          let size := v + 2 in
          match bc_acquire c1 size with
          | Ok _ =>
              match bc_peek c1 size with
              | Ok b =>
                  let '(l, r) := np_data p b in
                  match r with
                  | Ok _ =>
                      match skip_read_bytes c1 size with
                      | Ok c2 => let '(l2, r2) := np_sets k' p c2 in (l ++ l2, r2)
                      | e => (l, e)
                      end
                  | Err e => (l, Err e) | UB => (l, UB) | Fuel => (l, Fuel)
                  end
              | Err e => ([], Err e) | UB => ([], UB) | Fuel => ([], Fuel)
              end
          | _ => ([], Err ERROR_H264_DECODER)
          end
      | Err e => ([], Err e) | UB => ([], UB) | Fuel => ([], Fuel)
      end
  end.
(** decode_header, cpp:122-180: the members afterwards, the units appended and
    how it ended. *)
Definition np_header (p : nparser) (buf : list Z) : nparser * list nal * res unit :=
  match buf with
  | [] => (p, [], Err ERROR_H264_DECODER)
  | v :: _ =>
      if v =? 1 then
        match bc_acquire (bc_init buf) 7 with
        | Ok _ =>
            match read_fields (bc_init buf) [8; 8; 8; 8; 6; 2; 3; 5] with
            | Ok ([_; _; _; _; _; nls; _; sps_num], c) =>
                let p1 := mknp true nls in
                let '(l, r) := np_sets (Z.to_nat sps_num) p1 c in
                match r with
                | Ok c1 =>
                    match read_bits c1 8 with
                    | Ok (pps_num, c2) =>
                        let '(l2, r2) := np_sets (Z.to_nat pps_num) p1 c2 in
                        (p1, l ++ l2, match r2 with Ok _ => Ok tt | Err e => Err e | UB => UB | Fuel => Fuel end)
                    | Err e => (p1, l, Err e) | UB => (p1, l, UB) | Fuel => (p1, l, Fuel)
                    end
                | Err e => (p1, l, Err e) | UB => (p1, l, UB) | Fuel => (p1, l, Fuel)
                end
            | _ => (p, [], UB)
            end
        | _ => (p, [], Err ERROR_H264_DECODER)
        end
      else
        let p1 := mknp false (np_nls p) in
        let '(l, r) := np_data p1 buf in (p1, l, r)
  end.
(** decode, cpp:112-120. *)
Definition np_decode (p : nparser) (buf : list Z) (seq_header : bool) : nparser * list nal * res unit :=
  if seq_header then np_header p buf
  else let '(l, r) := np_data p buf in (p, l, r).
