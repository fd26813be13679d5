(** How much is held, and for whom: the words of the statements. *)
From Verif Require Import Base M_Packet M_Live S_Cache S_Live.

(** The history of the puts of [ps], all accepted. *)
Definition done_puts (i k : nat) (ps : list pkt) : hist := List.rev (map (fun p => (OPut i k p, Done)) ps).

(** Among any [K] media packets in a row there is a key frame. *)
Definition key_every (K : nat) (m : list pkt) : Prop :=
  forall a w b, m = a ++ w ++ b -> length w = K -> existsb is_keyframe w = true.
