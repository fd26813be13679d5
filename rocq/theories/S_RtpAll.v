(** RTP sessions of arbitrary datagrams, over byte lists. *)
From Verif Require Import Base.

(** What a session takes for one packet after the other: datagrams are cut to 3000 bytes,
    those that make fewer than twelve bytes are put in front of the next, an empty one
    ends the session ([bad]); [e] is the error of the socket at the end. *)
Fixpoint gathered (bad : Z) (acc : list Z) (ds : list (Z * list Z)) (e : Z) : list (Z * list Z) * Z :=
  match ds with
  | [] => ([], e)
  | (now, d) :: r =>
      if zlen d =? 0 then ([], bad)
      else let l := acc ++ take (3000 - zlen acc) d in
           if zlen l <? 12 then gathered bad l r e
           else ((now, l) :: fst (gathered bad [] r e), snd (gathered bad [] r e))
  end.

(** The payload as the session takes it: behind twelve bytes, the announced sources and
    the extension, whose length is counted in bytes (C14); [None] if they do not fit. *)
Definition rtp_body (l : list Z) : option (list Z) :=
  let o := 12 + 4 * (nth 0 l 0 mod 16) in
  if zlen l <? o then None
  else if nth 0 l 0 / 16 mod 2 =? 0 then Some (drop o l)
  else if zlen l <? o + 4 then None
  else let n := bev (take 2 (drop (o + 2) l)) in
       if zlen l <? o + 4 + n then None else Some (drop (o + 4 + n) l).
