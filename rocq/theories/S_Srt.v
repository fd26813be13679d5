(** What a user of SRT sockets relies on. *)
From Verif Require Import Base M_IO M_Srt.

(** The messages among the library's answers, and the data of the successful
    reads. *)
Fixpoint messages (evs : list srcv) : list (list Z) :=
  match evs with [] => [] | SvMsg d :: l => d :: messages l | _ :: l => messages l end.
Fixpoint oks {A} (rs : list (res A)) : list A :=
  match rs with [] => [] | Ok a :: l => a :: oks l | _ :: l => oks l end.
(** The bytes received and not yet read. *)
Definition unread (s : srts) : list Z := take (ab_end (sr_buf s) - ab_ptr (sr_buf s)) (drop (ab_ptr (sr_buf s)) (ab_data (sr_buf s))).
(** Messages as SRT's live mode sends them by default. *)
Definition live_messages (evs : list srcv) : Prop := Forall (fun d => 1 <= zlen d <= 1316) (messages evs).
(** [ms] is [data] in messages of 1316 bytes, the last one maybe shorter. *)
Inductive packed : list (list Z) -> list Z -> Prop :=
| pk_nil : packed [] []
| pk_last : forall m, 1 <= zlen m <= 1316 -> packed [m] m
| pk_more : forall m ms d, zlen m = 1316 -> packed ms d -> packed (m :: ms) (m ++ d).

(** An event that concerns a wait on [fd] for [ev]: an error, or the event itself. *)
Definition touches (fd ev : Z) (op : dop) : Prop :=
  match op with DFire f mask _ => f = fd /\ (Z.land mask EV_ERR <> 0 \/ Z.land mask ev <> 0) | _ => False end.
(** What a wait is told about a socket in error, by the state of the socket. *)
Inductive error_of : sstat -> Z -> Prop :=
| eo_broken : error_of StBroken ERROR_SRT_SOCKET_BROKEN
| eo_closing : error_of StClosing ERROR_SRT_SOCKET_CLOSING
| eo_closed : error_of StClosed ERROR_SRT_SOCKET_CLOSED
| eo_gone : error_of StNonexist ERROR_SRT_SOCKET_NOTEXITS
| eo_other : error_of StOther ERROR_SRT_SOCKET_STATUS_OK.
(** What an event tells a wait it concerns. *)
Definition told (mask : Z) (st : sstat) (r : Z) : Prop :=
  (Z.land mask EV_ERR <> 0 /\ error_of st r) \/ (Z.land mask EV_ERR = 0 /\ r = 0).
