(** Where the bodies of FLV tags come to lie in the reader's buffer, and when reading
    the codec prefix of a body runs over its end. *)
From Verif Require Import Base M_Packet M_Flv S_Flv.

(** Unread data at [p] of a buffer of [cap] bytes: where it is when [n] bytes are needed
    (it is moved to the front exactly if the space after [p] is too small). *)
Definition place (cap p n : Z) : Z := if cap - p <? n then 0 else p.
(** Size of the body of the tag at the front of [s]; where the body lies if the tag before
    ended at [p]. *)
Definition tag_size (s : list Z) : Z := bev (take 3 (drop 5 s)).
Definition body_place (cap p : Z) (s : list Z) : Z := place cap (place cap p 15 + 15) (tag_size s).
(** The first tag too short for its codec prefix, if the stream [s] gets that far: its
    type, where its body lies, and the body.  [p] is where the data before [s] ends. *)
Fixpoint short_tag (fuel : nat) (cap e : Z) (s : list Z) (p : Z) : option (Z * Z * list Z) :=
  match fuel with
  | O => None
  | S f =>
      match spec_flv_next cap e s with
      | FPacket _ rest => short_tag f cap e rest (body_place cap p s + tag_size s)
      | FErr _ => None
      | FShort => Some (nth 4 s 0, body_place cap p s, take (tag_size s) (drop 15 s))
      end
  end.
(** Bytes of the codec prefix. *)
Definition prefix_size (ty : Z) : Z := if ty =? 8 then 2 else 5.
(** Reading the codec prefix from memory that holds [l] runs over its end: for AAC the
    type byte, for H.264 and H.265 (not a command frame) the type and the offset follow
    the first byte; for other codecs nothing is read after it. *)
Definition runs_out (ty : Z) (l : list Z) : bool :=
  match l with
  | [] => (ty =? 8) || (ty =? 9)
  | f :: l1 =>
      if ty =? 8 then ((f / 16) mod 16 =? 10) && (zlen l1 <? 1)
      else if ty =? 9 then ((f mod 16 =? 7) || (f mod 16 =? 12)) && negb ((f / 16) mod 16 =? 5) && (zlen l1 <? 4)
      else false
  end.
