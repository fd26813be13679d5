(** Byte-level uses of the bit cursor shared by the RTP, TS, H.264 and AAC
    parsers, src/io/sps_io_bits.cpp:44-99 and :154-206. *)
From Verif Require Import Base M_Bits.

(** Consecutive calls read_bits(n1), read_bits(n2), ..., :101-152; read_int8,
    read_int16, read_int24 and read_int32 (:85-99) are widths 8, 16, 24, 32. *)
Fixpoint read_fields (c : bitctx) (ws : list Z) : res (list Z * bitctx) :=
  match ws with
  | [] => Ok ([], c)
  | w :: ws' =>
      let? r := read_bits c w in
      let? r' := read_fields (snd r) ws' in
      Ok (fst r :: fst r', snd r')
  end.

(** BitContext::pos(), :44-49, as an offset into the buffer. *)
Definition bc_off (c : bitctx) : Z :=
  if 0 <? bc_rem c then bc_pos c else bc_pos c + 1.

(** The [n] bytes at pos(); [UB] when a callee that reads them would leave the
    buffer. *)
Definition bc_peek (c : bitctx) (n : Z) : res (list Z) :=
  of_opt (slice (bc_buf c) (bc_off c) n).

(** BitContext::write_bytes, :154-158: assert and memcpy. *)
Definition bc_write_bytes (c : bitctx) (l : list Z) : res bitctx :=
  if negb (bc_rem c =? 0) then UB else
  match slice (bc_buf c) (bc_pos c + 1) (zlen l) with
  | Some _ => Ok (mkbc (take (bc_pos c + 1) (bc_buf c) ++ l ++
                        drop (bc_pos c + 1 + zlen l) (bc_buf c))
                       (bc_pos c + zlen l) 0 (bc_val c))
  | None => UB
  end.
