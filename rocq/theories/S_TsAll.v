(** What one packet of an elementary stream does to the demuxer, for every content:
    written over byte lists, without the bit reader. *)
From Verif Require Import Base S_Ts S_TsMap S_Codec.

(** A unit being put together: declared length, time stamps, bytes so far. *)
Record unit_in := mkun { un_len : Z; un_pts : Z; un_dts : Z; un_es : list Z }.
Definition keep (len : Z) (l : list Z) : list Z := if len =? 0 then l else take len l.

(** Nine or more bytes taken as the start of a unit: the unit begins; they do not start
    with 00 00 01; the announced header does not fit. *)
Inductive begun := Begun (u : unit_in) | Unprefixed | Headless.
Definition head_pts (f : Z) (X : list Z) : Z := if bit f 7 =? 1 then stamp (take 5 X) else -1.
Definition head_dts (f : Z) (X : list Z) : Z := if bit f 7 * bit f 6 =? 1 then stamp (take 5 (drop 5 X)) else head_pts f X.
Definition begin_unit (body : list Z) : begun :=
  let v := bev (take 6 body) in
  let sid := v / 2 ^ 16 mod 2 ^ 8 in
  let len := v mod 2 ^ 16 in
  if negb (v / 2 ^ 24 =? 1) then Unprefixed
  else if sid =? 0xbe then Begun (mkun len (-1) (-1) [])
  else if existsb (Z.eqb sid) bare_sids then Begun (mkun len (-1) (-1) (keep len (drop 6 body)))
  else
    match drop 6 body with
    | _ :: f :: h :: X =>
        match opt_size f X with
        | Some n => if (n <=? h) && (h <=? zlen X)
                    then Begun (mkun len (head_pts f X) (head_dts f X) (keep len (drop h X)))
                    else Headless
        | None => Headless
        end
    | _ => Headless
    end.

(** A packet with payload for a stream whose last counter is [cc] and whose pending unit
    is [u]: bytes are added, the session ends, or the pending unit is handed over and
    another one begins. *)
Inductive did := Kept (u : unit_in) | Denied (e : Z) | Passed (b : begun).
Definition stream_step (cc : Z) (u : option unit_in) (k : tsp) : did :=
  let goes_on := t_pusi k =? 0 in
  match u with
  | None => if goes_on then Denied ERROR_TS_PACKET_DECODE
            else if negb (t_cc k =? next_cc cc) then Denied ERROR_TS_PACKET_CC_CONTINUE
            else if zlen (t_body k) <? 9 then Denied ERROR_IO_NOT_ENOUGH
            else Passed (begin_unit (t_body k))
  | Some v => if negb (t_cc k =? next_cc cc) then Denied ERROR_TS_PACKET_CC_CONTINUE
              else if goes_on then
                if (un_len v =? 0) && (2 ^ 20 <? zlen (un_es v) + zlen (t_body k)) then Denied ERROR_TS_PACKET_DECODE
                else Kept (mkun (un_len v) (un_pts v) (un_dts v) (keep (un_len v) (un_es v ++ t_body k)))
              else if zlen (t_body k) <? 9 then Denied ERROR_IO_NOT_ENOUGH
              else Passed (begin_unit (t_body k))
  end.

(** The packet of service descriptions: one byte behind the section header, then four. *)
Definition service_table (len : Z) (l : list Z) : tbl_out * list Z := if zlen l <? 1 then (Overrun, l) else (Listed [], drop 1 l).
(** Data whose last frame makes the AAC parser read outside: see C21. *)
Definition adts_outside (d : list Z) : Prop :=
  exists fs rest, d = flat_map adts_bytes fs ++ rest /\ Forall frame_ok fs /\ dangerous rest.
