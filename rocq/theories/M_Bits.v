(** Model of the bit cursor [sps::BitContext], src/io/sps_io_bits.cpp:33-220. *)
From Verif Require Import Base.

(** State, src/io/sps_io_bits.hpp (members buf, sz, buf_pos, remain_bits,
    remain_value).  Simplification: [sz] is the length of [bc_buf]; every
    caller passes the size of the buffer it owns. *)
Record bitctx := mkbc {
  bc_buf : list Z;   (* buf *)
  bc_pos : Z;        (* buf_pos, index of the byte being consumed, -1 at start *)
  bc_rem : Z;        (* remain_bits *)
  bc_val : Z         (* remain_value, uint8_t: unread bits left-aligned *)
}.

(** BitContext::init, sps_io_bits.cpp:37-42 (remain_value is not initialised
    there; it is not read while remain_bits = 0, the model uses 0). *)
Definition bc_init (p : list Z) : bitctx := mkbc p (-1) 0 0.

(** BitContext::size_bits, :51-53, in size_t (64 bit) arithmetic. *)
Definition size_bits (c : bitctx) : Z :=
  u64 (u64 (u64 (zlen (bc_buf c) - bc_pos c - 1) * 8) + bc_rem c).

(** BitContext::size, :55-57. *)
Definition bc_size (c : bitctx) : Z := size_bits c / 8.

(** BitContext::acquire_bits, :63-65. *)
Definition acquire_bits (c : bitctx) (n : Z) : res unit :=
  if n <=? size_bits c then Ok tt else Err ERROR_IO_NOT_ENOUGH.

(** BitContext::acquire, :59-61; [nbyte * 8] is computed in uint32_t. *)
Definition bc_acquire (c : bitctx) (nbyte : Z) : res unit :=
  acquire_bits c (u32 (nbyte * 8)).

(** BitContext::next, :208-213: assert(remain_bits == 0), then loads the next
    byte; outside the buffer this is an out-of-bounds read. *)
Definition bc_next (c : bitctx) : res bitctx :=
  if negb (bc_rem c =? 0) then UB else
  match nthz (bc_buf c) (bc_pos c + 1) with
  | Some v => Ok (mkbc (bc_buf c) (bc_pos c + 1) 8 v)
  | None => UB
  end.

(** The switch in BitContext::read_bits, :115-142: top [nr] bits of the shift
    register. *)
Definition top_bits (nr v : Z) : res Z :=
  match nr with
  | 1 => Ok (Z.shiftr (Z.land v 0x80) 7)
  | 2 => Ok (Z.shiftr (Z.land v 0xc0) 6)
  | 3 => Ok (Z.shiftr (Z.land v 0xe0) 5)
  | 4 => Ok (Z.shiftr (Z.land v 0xf0) 4)
  | 5 => Ok (Z.shiftr (Z.land v 0xf8) 3)
  | 6 => Ok (Z.shiftr (Z.land v 0xfc) 2)
  | 7 => Ok (Z.shiftr (Z.land v 0xfe) 1)
  | 8 => Ok (Z.land v 0xff)
  | _ => UB                                 (* assert(false), :141 *)
  end.

(** BitContext::read_bits, :101-152.  Each iteration consumes at least one
    bit, so [n] is enough fuel. *)
Fixpoint read_bits_loop (fuel : nat) (c : bitctx) (n num : Z) : res (Z * bitctx) :=
  if n <=? 0 then Ok (num, c) else
  match fuel with
  | O => Fuel
  | S f =>
      let? c1 := if bc_rem c =? 0 then bc_next c else Ok c in
      let nr := Z.min n (bc_rem c1) in
      let num1 := u32 (Z.shiftl num nr) in
      let? t := top_bits nr (bc_val c1) in
      read_bits_loop f
        (mkbc (bc_buf c1) (bc_pos c1) (bc_rem c1 - nr) (u8 (Z.shiftl (bc_val c1) nr)))
        (n - nr) (Z.lor num1 t)
  end.
Definition read_bits (c : bitctx) (n : Z) : res (Z * bitctx) :=
  read_bits_loop (Z.to_nat n) c n 0.

(** BitContext::skip_read_bytes, :73-83: moves without a bounds check; reloads
    the shift register when bits are pending. *)
Definition skip_read_bytes (c : bitctx) (n : Z) : res bitctx :=
  let p := bc_pos c + n in
  if bc_rem c =? 0 then Ok (mkbc (bc_buf c) p 0 (bc_val c)) else
  match nthz (bc_buf c) p with
  | Some v => Ok (mkbc (bc_buf c) p (bc_rem c) (u8 (Z.shiftl v (8 - bc_rem c))))
  | None => UB
  end.

(** BitContext::read_bytes, :67-71: assert(remain_bits == 0) and memcpy. *)
Definition bc_read_bytes (c : bitctx) (n : Z) : res (list Z * bitctx) :=
  if negb (bc_rem c =? 0) then UB else
  match slice (bc_buf c) (bc_pos c + 1) n with
  | Some s => Ok (s, mkbc (bc_buf c) (bc_pos c + n) 0 (bc_val c))
  | None => UB
  end.

(** The mask table in BitContext::write_bits, :174-179 (note 0x2f). *)
Definition write_masks : list Z := [0x01; 0x03; 0x07; 0x0f; 0x1f; 0x2f; 0x7f; 0xff].

(** Store of one byte, used by write_bits/next_write; [None] is an
    out-of-bounds write. *)
Definition setz (l : list Z) (i v : Z) : option (list Z) :=
  if (0 <=? i) && (i <? zlen l)
  then Some (take i l ++ [v] ++ drop (i + 1) l) else None.

(** BitContext::next_write, :215-220. *)
Definition bc_next_write (c : bitctx) : res bitctx :=
  if negb (bc_rem c =? 0) then UB else
  match setz (bc_buf c) (bc_pos c + 1) 0 with
  | Some b => Ok (mkbc b (bc_pos c + 1) 8 (bc_val c))
  | None => UB
  end.

(** BitContext::write_bits, :165-190.  [value] is uint64_t; a shift by 64 or
    more is undefined. *)
Fixpoint write_bits_loop (fuel : nat) (c : bitctx) (value n : Z) : res bitctx :=
  if n <=? 0 then Ok c else
  match fuel with
  | O => Fuel
  | S f =>
      let? c1 := if bc_rem c =? 0 then bc_next_write c else Ok c in
      let nr := Z.min (bc_rem c1) n in
      if 64 <=? n - nr then UB else
      let? m := of_opt (nthz write_masks (nr - 1)) in
      let nv := Z.land m (Z.shiftr value (n - nr)) in
      let? old := of_opt (nthz (bc_buf c1) (bc_pos c1)) in
      let? b := of_opt (setz (bc_buf c1) (bc_pos c1)
                         (u8 (Z.lor old (Z.shiftl nv (bc_rem c1 - nr))))) in
      write_bits_loop f (mkbc b (bc_pos c1) (bc_rem c1 - nr) (bc_val c1)) value (n - nr)
  end.
Definition write_bits (c : bitctx) (value n : Z) : res bitctx :=
  write_bits_loop (Z.to_nat n) c value n.

(** A sequence of write_bits calls on one cursor, as made by
    AacParser/ADTS encoders (src/avcodec/sps_avcodec_aac_parser.cpp:118-195). *)
Fixpoint write_fields (c : bitctx) (fs : list (Z * Z)) : res bitctx :=
  match fs with
  | [] => Ok c
  | (v, n) :: fs' => let? c1 := write_bits c v n in write_fields c1 fs'
  end.

(** A client of the read side: any sequence of the three read primitives. *)
Inductive bop := RBits (n : Z) | RSkip (n : Z) | RBytes (n : Z).
Inductive bout := OVal (v : Z) | OSkip | OBytes (l : list Z).
Definition bc_step (c : bitctx) (o : bop) : res (bout * bitctx) :=
  match o with
  | RBits n => let? r := read_bits c n in Ok (OVal (fst r), snd r)
  | RSkip n => let? c1 := skip_read_bytes c n in Ok (OSkip, c1)
  | RBytes n => let? r := bc_read_bytes c n in Ok (OBytes (fst r), snd r)
  end.
Fixpoint bc_run (c : bitctx) (ops : list bop) : res (list bout * bitctx) :=
  match ops with
  | [] => Ok ([], c)
  | o :: ops' =>
      let? r := bc_step c o in
      let? r' := bc_run (snd r) ops' in
      Ok (fst r :: fst r', snd r')
  end.
