(** RTMP clients that may send anything: what the server counts, and which messages it
    cannot take. *)
From Verif Require Import Base M_Rtmp M_Url M_RtmpSess S_RtmpSess.

(** Bytes received so far, the window between acknowledgements, and the count at which
    the next acknowledgement is due. *)
Record gauge := mkg { g_read : Z; g_window : Z; g_due : Z }.
(** A ping request: control event 6. *)
Definition pings (m : rmsg) : bool := (rm_type m =? 4) && (6 <=? zlen (rm_body m)) && (bev (take 2 (rm_body m)) =? 6).
(** The first four bytes of a message as a signed number. *)
Definition asked (m : rmsg) : Z := let v := bev (take 4 (rm_body m)) in if v mod 2 ^ 32 <? 2 ^ 31 then v mod 2 ^ 32 else v mod 2 ^ 32 - 2 ^ 32.
(** The counts after one reception; [None] if the count of bytes or the next due count is
    no 32-bit number, or a window is announced in fewer than four bytes. *)
Definition counts (g : gauge) (ev : rev) : option gauge :=
  match ev with
  | RvFail _ _ _ => Some g
  | RvMsg m n =>
      let b := g_read g + n in
      if 2 ^ 31 <=? b then None
      else if ((rm_type m =? 5) || (rm_type m =? 6)) && (zlen (rm_body m) <? 4) then None
      else if pings m then Some (mkg b (g_window g) (g_due g))
      else let w := if rm_type m =? 6 then asked m else g_window g in
           let d := if rm_type m =? 6 then asked m else g_due g in
           if b <? d then Some (mkg b w d)
           else if (- 2 ^ 31 <=? b + w) && (b + w <? 2 ^ 31) then Some (mkg b w (b + w)) else None
  end.
Fixpoint counted (g : gauge) (evs : list rev) : option gauge :=
  match evs with [] => Some g | ev :: l => match counts g ev with Some g' => counted g' l | None => None end end.

(** connect with null instead of a command object (C87). *)
Definition null_connect (lib : amf_lib) (ev : rev) : Prop :=
  exists m n t more, ev = RvMsg m n /\ amf_type (rm_type m) /\ lib (rm_type m =? 17) (rm_body m) = Some (AStr (str "connect") :: ANum t :: ANull :: more).
(** librtmp gave up without an error of the socket and left a packet that has a type and
    a size but no body (C92). *)
Definition lost_body (ev : rev) : Prop :=
  exists t size, ev = RvFail 0 t size /\ ((t = 1 /\ 4 <= size) \/ (amf_type t /\ size <> 0)).
(** play or publish with a transaction id that is no int. *)
Definition odd_id (lib : amf_lib) (ev : rev) : Prop :=
  exists t name, (speaks lib ev (CPlay t name) \/ speaks lib ev (CPublish t name)) /\ nm_int t = None.
Definition has_connected (lib : amf_lib) (evs : list rev) : Prop := exists ev c, In ev evs /\ speaks lib ev c /\ opens c.
(** An AAC message of a single byte (C41). *)
Definition single_aac (ev : rev) : Prop := exists m n flag, ev = RvMsg m n /\ rm_type m = 8 /\ rm_body m = [flag] /\ flag / 16 = 10.
