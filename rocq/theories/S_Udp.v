(** What a user of UDP sessions relies on. *)
From Verif Require Import Base M_Text M_Udp.

(** Arrivals, and the data the successful reads returned. *)
Fixpoint arrivals (ops : list qop) : list (list Z) :=
  match ops with [] => [] | QPush d :: l => d :: arrivals l | QRead _ :: l => arrivals l end.
Fixpoint delivered (rs : list (res (list Z))) : list (list Z) :=
  match rs with [] => [] | Ok d :: l => d :: delivered l | _ :: l => delivered l end.
(** [a] is [b] with some elements left out. *)
Inductive sublist {A} : list A -> list A -> Prop :=
| sl_nil : sublist [] []
| sl_keep : forall x a b, sublist a b -> sublist (x :: a) (x :: b)
| sl_drop : forall x a b, sublist a b -> sublist a (x :: b).
(** A reader that keeps up: at no time more than [cap] arrivals are unread,
    counting reads as if each took one datagram. *)
Fixpoint backlog_ok (cap pending : Z) (ops : list qop) : Prop :=
  match ops with
  | [] => True
  | QPush _ :: l => pending + 1 <= cap /\ backlog_ok cap (pending + 1) l
  | QRead _ :: l => backlog_ok cap (Z.max 0 (pending - 1)) l
  end.
(** Every read offers room for any datagram that arrives. *)
Definition room (n : Z) (ops : list qop) : Prop :=
  Forall (fun op => match op with QPush d => zlen d <= n | QRead k => n <= k end) ops.
(** Senders forgotten. *)
Definition resend (f : list Z * Z -> list Z * Z) (op : uop) : uop :=
  match op with UArrive src dst pad data => UArrive (f src) dst pad data | _ => op end.
(** What one session sees of the server's events: the datagrams of its key, cut
    to the receive buffer, and its own reads. *)
Fixpoint view_of (nt : ntop) (k : list Z) (i : nat) (ops : list uop) : list qop :=
  match ops with
  | [] => []
  | UArrive src dst pad data :: l =>
      if eqb_list (ukey (recv_addrs nt src dst pad)) k then QPush (take 4096 data) :: view_of nt k i l else view_of nt k i l
  | URead j n :: l => if Nat.eqb j i then QRead n :: view_of nt k i l else view_of nt k i l
  | _ :: l => view_of nt k i l
  end.
(** The results of the reads on one session. *)
Fixpoint reads_of (i : nat) (ops : list uop) (outs : list uout) : list (res (list Z)) :=
  match ops, outs with
  | URead j _ :: l, UGot r :: o => if Nat.eqb j i then r :: reads_of i l o else reads_of i l o
  | _ :: l, _ :: o => reads_of i l o
  | _, _ => []
  end.
(** Destinations that the packet information does not mistake for an address
    family: not 2.0.x.y or 10.0.x.y. *)
Definition ordinary (op : uop) : Prop :=
  match op with
  | UArrive _ (a :: b :: _) _ _ => b <> 0 \/ (a <> 2 /\ a <> 10)
  | UArrive _ _ _ _ => False
  | _ => True
  end.
Definition live (s : userv) : list nat := filter (fun i => match get_sess s i with Some _ => true | None => false end) (seq 0 (length (uv_sess s))).
(** The name a datagram is filed under, by its destination [a.b.c.d] and the
    bytes that follow the destination in the control buffer.  The sender plays
    no part.  Destinations in 2.0/16 and 10.0/16 are taken for an address
    family, their last two bytes for a port, and what follows for the
    address (4 or 16 bytes of it). *)
Definition filed_under (nt : ntop) (a b c d : Z) (behind : list Z) : list Z :=
  str ":0->" ++
  match a, b with
  | 2, 0 => nt4 nt (firstn 4 behind) ++ decs (c * 256 + d)
  | 10, 0 => nt6 nt (firstn 16 behind) ++ decs (c * 256 + d)
  | _, _ => str "0"
  end.
