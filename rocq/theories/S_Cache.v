(** What the caches must contain, stated on the packet history alone. *)
From Verif Require Import Base M_Packet.

(** The most recent packet with a property. *)
Fixpoint last_such (f : pkt -> bool) (h : list pkt) : option pkt :=
  match h with
  | [] => None
  | x :: r => match last_such f r with
              | Some y => Some y
              | None => if f x then Some x else None
              end
  end.

(** Media packets: everything but metadata and codec headers. *)
Definition is_media (p : pkt) : bool := negb (is_audio_seq p || is_video_seq p || is_script p).

(** The suffix starting at the most recent keyframe. *)
Fixpoint from_last_key (m : list pkt) : list pkt :=
  match m with
  | [] => []
  | x :: r => if existsb is_keyframe r then from_last_key r
              else if is_keyframe x then m else []
  end.

Definition maybe {A} (o : option A) : list A := match o with Some x => [x] | None => [] end.

(** What a newcomer to a live stream must get. *)
Definition gop_snapshot (h : list pkt) : list pkt :=
  maybe (last_such is_script h) ++ maybe (last_such is_audio_seq h)
  ++ maybe (last_such is_video_seq h) ++ from_last_key (filter is_media h).

(** The same for the media part, as a relation: [m] is the newest part of the
    media packets, it starts with a keyframe and contains no other; it is
    empty only if there was no keyframe. *)
Definition newest_gop (h m : list pkt) : Prop :=
  exists old, filter is_media h = old ++ m /\
  ((m = [] /\ forall p, In p h -> is_media p = true -> is_keyframe p = false) \/
   (exists k r, m = k :: r /\ is_keyframe k = true /\ forall p, In p r -> is_keyframe p = false)).

(** What the raw TS cache holds: last PAT, last PMT, everything else. *)
Definition ts_snapshot (h : list pkt) : list pkt :=
  maybe (last_such is_pat h) ++ maybe (last_such (fun p => is_pmt p && negb (is_pat p)) h)
  ++ filter (fun p => negb (is_pat p || is_pmt p)) h.
