(** Length-prefixed H.264 data, as ISO/IEC 14496-15 has it. *)
From Verif Require Import Base M_Packet M_H264 S_Codec.

(** Units, each behind its size in [k] bytes. *)
Definition avcc (k : nat) (us : list (list Z)) : list Z := flat_map (fun u => be k (zlen u) ++ u) us.
(** Units whose size fits [k] bytes, and that end a stream of at least four
    bytes each. *)
Definition avcc_unit (k : nat) (u : list Z) : Prop :=
  bytes u /\ nal_ok u /\ zlen u < 256 ^ Z.of_nat k /\ 4 <= Z.of_nat k + zlen u.
(** A configuration record with four-byte sizes and at least one SPS: profile,
    compatibility and level [a b c], reserved bits [r1 r2] and the number [n],
    the first parameter set [s], and anything behind. *)
Definition config_record (a b c r1 r2 n : Z) (s rest : list Z) : list Z :=
  [1; a; b; c; 4 * r1 + 3; 32 * r2 + n] ++ be 2 (zlen s) ++ s ++ rest.
(** The units that make packets of media (slices and SEI), and these packets. *)
Definition is_media (n : nal) : bool := (n_type n =? 5) || (n_type n =? 1) || (n_type n =? 6).
Definition is_media_pkt (p : pkt) : bool := p_ptype p =? 1.
