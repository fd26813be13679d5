(** What an FLV reader can make of a body, however framed, cut and broken off. *)
From Verif Require Import Base M_Packet M_Flv S_Flv.

(** The bytes of [a] stand in [s] in the same order. *)
Inductive sub : list Z -> list Z -> Prop :=
| sub_nil s : sub [] s
| sub_take x a s : sub a s -> sub (x :: a) (x :: s)
| sub_skip x a s : sub a s -> sub a (x :: s).
(** No packets, or those of an FLV file made of bytes of [s] in their order. *)
Definition made_of (rounds : nat) (cap : Z) (s : list Z) (ps : list pkt) : Prop :=
  ps = [] \/ exists e h body, sub (h ++ body) s /\ zlen h = 9 /\ take 3 h = [0x46; 0x4C; 0x56] /\ ps = fst (spec_flv_all rounds cap e body).
