(** What one packet of a program table does to the demuxer, for every content:
    written over byte lists, without the bit reader. *)
From Verif Require Import Base S_Ts.

(** Entries are taken over; the packet is refused; bytes behind the packet are read. *)
Inductive tbl_out := Listed (es : list (Z * Z)) | Refused | Overrun.

(** Entries of a program map as long as some of the declared length is left: type,
    identifier and a number of descriptor bytes.  Also given: what follows. *)
Fixpoint map_entries (fuel : nat) (left : Z) (l : list Z) : tbl_out * list Z :=
  if left <=? 0 then (Listed [], l) else
  match fuel with
  | O => (Overrun, l)
  | S f =>
      if zlen l <? 5 then (Overrun, l) else
      let v := bev (take 5 l) in
      let n := v mod 2 ^ 12 in
      if zlen l - 5 <? n then (Refused, drop 5 l) else
      match map_entries f (left - 5 - n) (drop (5 + n) l) with
      | (Listed es, r) => (Listed ((v / 2 ^ 32, v / 2 ^ 16 mod 2 ^ 13) :: es), r)
      | e => e
      end
  end.
(** Entries of a program association: program number and identifier. *)
Fixpoint assoc_entries (fuel : nat) (left : Z) (l : list Z) : tbl_out * list Z :=
  if left <=? 0 then (Listed [], l) else
  match fuel with
  | O => (Overrun, l)
  | S f =>
      if zlen l <? 4 then (Overrun, l) else
      let v := bev (take 4 l) in
      match assoc_entries f (left - 4) (drop 4 l) with
      | (Listed es, r) => (Listed ((v / 2 ^ 16, v mod 2 ^ 13) :: es), r)
      | e => e
      end
  end.
(** Behind the table four bytes are read, also behind a refused one. *)
Definition with_crc (x : tbl_out * list Z) : tbl_out := if zlen (snd x) <? 4 then Overrun else fst x.
(** The whole payload [body] of a packet; [start]: 1 if the pointer field is there.
    Eight bytes are asked for before the pointer field is passed over. *)
Definition table_of (entries : Z -> list Z -> tbl_out * list Z) (start : Z) (body : list Z) : tbl_out :=
  if zlen body <? 8 then Refused else
  let l := drop start body in
  if zlen l <? 8 then Overrun else
  with_crc (entries (bev (take 8 l) / 2 ^ 40 mod 2 ^ 12) (drop 8 l)).
Definition map_table (len : Z) (l : list Z) : tbl_out * list Z :=
  if zlen l <? 4 then (Refused, l) else
  let pil := bev (take 4 l) mod 2 ^ 10 in
  if zlen l - 4 <? pil then (Refused, drop 4 l) else
  map_entries (length l) (len - 13 - pil) (drop (4 + pil) l).
Definition assoc_table (len : Z) (l : list Z) : tbl_out * list Z :=
  if zlen l <? len - 9 then (Refused, l) else assoc_entries (length l) (len - 9) l.
