(** What an RTMP client makes of the bytes it gets: IEEE 754 doubles, the AMF0
    format (Adobe's specification) and the RTMP messages. *)
From Verif Require Import Base M_Rtmp M_RtmpSess.

(** ** Doubles: sign, finiteness, and the magnitude in units of 2^-1075. *)
Definition dbl_exp (b : Z) : Z := (b / 2 ^ 52) mod 2 ^ 11.
Definition dbl_finite (b : Z) : Prop := dbl_exp b <> 2047.
Definition dbl_negative (b : Z) : Prop := 2 ^ 63 <= b.
Definition dbl_mag (b : Z) : Z :=
  (if dbl_exp b =? 0 then b mod 2 ^ 52 else 2 ^ 52 + b mod 2 ^ 52) * 2 ^ Z.max 1 (dbl_exp b).
Definition is_double (b : Z) : Prop := 0 <= b < 2 ^ 64.
(** The double [b] is the integer [z]. *)
Definition dbl_is (b z : Z) : Prop :=
  is_double b /\ dbl_finite b /\ dbl_mag b = Z.abs z * 2 ^ 1075 /\ (z < 0 <-> dbl_negative b).
(** [z] is the double [b] without its fraction. *)
Definition dbl_trunc (b z : Z) : Prop :=
  dbl_finite b /\ Z.abs z * 2 ^ 1075 <= dbl_mag b < (Z.abs z + 1) * 2 ^ 1075 /\ (z <> 0 -> (z < 0 <-> dbl_negative b)).

(** ** AMF0 *)
Inductive aval := VNum (bits : Z) | VBool (b : bool) | VStr (s : list Z) | VObj (l : list (list Z * aval)) | VNull.
(** A counted string. *)
Definition read_text (b : list Z) : option (list Z * list Z) :=
  if zlen b <? 2 then None else
  let n := bev (take 2 b) in
  if zlen b <? 2 + n then None else Some (take n (drop 2 b), drop (2 + n) b).
(** One value, and the properties of an object up to its end marker. *)
Fixpoint read_value (f : nat) (b : list Z) : option (aval * list Z) :=
  match f, b with
  | S f, m :: r =>
      if m =? 0 then (if zlen r <? 8 then None else Some (VNum (bev (take 8 r)), drop 8 r))
      else if m =? 1 then match r with x :: r => Some (VBool (negb (x =? 0)), r) | [] => None end
      else if m =? 2 then match read_text r with Some (s, r) => Some (VStr s, r) | None => None end
      else if m =? 3 then match read_props f r with Some (l, r) => Some (VObj l, r) | None => None end
      else if m =? 5 then Some (VNull, r)
      else None
  | _, _ => None
  end
with read_props (f : nat) (b : list Z) : option (list (list Z * aval) * list Z) :=
  match f with
  | O => None
  | S f =>
      match read_text b with
      | None => None
      | Some ([], 9 :: r) => Some ([], r)
      | Some ([], _) => None
      | Some (k, r) =>
          match read_value f r with
          | Some (v, r1) => match read_props f r1 with Some (l, r2) => Some ((k, v) :: l, r2) | None => None end
          | None => None
          end
      end
  end.
(** A sequence of values. *)
Fixpoint read_values (f : nat) (b : list Z) : option (list aval) :=
  match b with
  | [] => Some []
  | _ =>
      match f with
      | O => None
      | S f' =>
          match read_value (S f') b with
          | Some (v, r) => match read_values f' r with Some vs => Some (v :: vs) | None => None end
          | None => None
          end
      end
  end.
Definition read_amf0 (b : list Z) : option (list aval) := read_values (length b) b.

(** ** RTMP messages (specification, sections 5.4 and 7.1) *)
Inductive heard :=
| HChunkSize (v : Z) | HAckd (v : Z) | HStreamBegin (sid : Z) | HPong (ts : Z)
| HWindow (v : Z) | HLimit (v kind : Z)
| HCommand (vs : list aval) | HData (vs : list aval) | HUnreadable.
Definition hear (m : rmsg) : heard :=
  let b := rm_body m in
  let n := zlen b in
  if (rm_type m =? 1) && (n =? 4) then HChunkSize (bev b)
  else if (rm_type m =? 3) && (n =? 4) then HAckd (bev b)
  else if (rm_type m =? 4) && (n =? 6) && (bev (take 2 b) =? 0) then HStreamBegin (bev (drop 2 b))
  else if (rm_type m =? 4) && (n =? 6) && (bev (take 2 b) =? 7) then HPong (bev (drop 2 b))
  else if (rm_type m =? 5) && (n =? 4) then HWindow (bev b)
  else if (rm_type m =? 6) && (n =? 5) then HLimit (bev (take 4 b)) (bev (drop 4 b))
  else if rm_type m =? 20 then match read_amf0 b with Some vs => HCommand vs | None => HUnreadable end
  else if rm_type m =? 18 then match read_amf0 b with Some vs => HData vs | None => HUnreadable end
  else HUnreadable.
Definition about_commands_h (h : heard) : bool := match h with HAckd _ | HPong _ => false | _ => true end.

(** What the server is to say: the result of a command, and a status. *)
Definition result_of (txn : Z) (vs : list aval) : heard := HCommand (VStr (str "_result") :: VNum txn :: vs).
Definition status_of (txn : Z) (code descr : list Z) : heard :=
  HCommand [VStr (str "onStatus"); VNum txn; VNull;
            VObj [(str "level", VStr (str "status")); (str "code", VStr code); (str "description", VStr descr)]].
(** A connect is answered with the window, the limit, the chunk size and the result. *)
Definition connect_answer (w bw txn : Z) (d31 : Z) : list heard :=
  [HWindow w; HLimit bw 2; HChunkSize 128;
   result_of txn [VObj [(str "fmsVer", VStr (str "FMS/3,5,1,525")); (str "capabilities", VNum d31)];
                  VObj [(str "level", VStr (str "status")); (str "code", VStr (str "NetConnection.Connect.Success"))]]].
(** createStream is answered with the stream number, the other two with a zero;
    [d0] and [d1] are the doubles 0 and 1. *)
Definition command_answer (d0 d1 : Z) (c : cmd) : list heard :=
  match c with
  | CCreate t => [result_of (nm_bits t) [VNull; VNum d1]]
  | CRelease t _ | CFCPublish t _ => [result_of (nm_bits t) [VNull; VNum d0]]
  | _ => []
  end.

(** librtmp's numbers are doubles, converted to int as C++ does where that is
    defined. *)
Definition ieee (n : num) : Prop :=
  is_double (nm_bits n) /\
  (forall z, nm_int n = Some z -> dbl_trunc (nm_bits n) z /\ - 2 ^ 31 <= z < 2 ^ 31) /\
  (nm_int n = None -> ~ exists z, dbl_trunc (nm_bits n) z /\ - 2 ^ 31 <= z < 2 ^ 31).
Definition ieee_lib (lib : amf_lib) : Prop :=
  forall a b nm t vs, lib a b = Some (AStr nm :: ANum t :: vs) -> ieee t.

(** ** The other direction: librtmp finds in an AMF0 text what it says *)
(** [shown v w]: librtmp reports the value [v] as [w]; booleans are not looked at. *)
Inductive shown : aval -> amfv -> Prop :=
| sh_num b n : nm_bits n = b -> ieee n -> shown (VNum b) (ANum n)
| sh_bool b : shown (VBool b) AOther
| sh_str s : shown (VStr s) (AStr s)
| sh_obj l l' : shown_props l l' -> shown (VObj l) (AObj l')
| sh_null : shown VNull ANull
with shown_props : list (list Z * aval) -> list (list Z * amfv) -> Prop :=
| sp_nil : shown_props [] []
| sp_cons k v v' l l' : shown v v' -> shown_props l l' -> shown_props ((k, v) :: l) ((k, v') :: l').
Definition reads_amf0 (lib : amf_lib) : Prop :=
  forall b vs, bytes b -> read_amf0 b = Some vs -> exists vs', lib false b = Some vs' /\ Forall2 shown vs vs'.
