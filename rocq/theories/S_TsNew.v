(** What a newcomer to a raw transport stream is given, on the bytes. *)
From Verif Require Import Base.

(** Packet identifier of a transport packet: 13 bits after the first 11. *)
Definition pid_of (d : list Z) : Z := (nth 1 d 0 mod 32) * 256 + nth 2 d 0.
(** The latest packet of an identifier, if any. *)
Definition latest (q : Z) (ds : list (list Z)) : list (list Z) :=
  match rev (filter (fun d => pid_of d =? q) ds) with [] => [] | d :: _ => [d] end.
(** Packets of the elementary streams among [ds], [es] telling which
    identifiers stand for one. *)
Definition of_streams (es : Z -> bool) (ds : list (list Z)) : list (list Z) := filter (fun d => es (pid_of d)) ds.
