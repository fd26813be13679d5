(** What sources and viewers may rely on, stated on the event history alone.
    Histories are newest first: pairs of an event and its outcome. *)
From Verif Require Import Base M_Packet M_Live S_Cache.

Definition hist := list (op * out).

(** Runs the server on events (oldest first); the resulting history is newest first. *)
Fixpoint play_events (shape : shaper) (s : live) (h : hist) (os : list op) : live * hist :=
  match os with
  | [] => (s, h)
  | o :: r => let '(s', x) := step shape s o in play_events shape s' ((o, x) :: h) r
  end.

(** The stream name an edge was started for. *)
Fixpoint edge_name (i : nat) (h : hist) : option (list Z) :=
  match h with
  | (OEdgeStart j n, Done) :: r => if Nat.eqb i j then Some n else edge_name i r
  | _ :: r => edge_name i r
  | [] => None
  end.

(** The stream name an edge took when its origin answered. *)
Fixpoint took (i : nat) (h : hist) : option (list Z) :=
  match h with
  | (OEdgeOpen j, Done) :: r => if Nat.eqb i j then edge_name j r else took i r
  | _ :: r => took i r
  | [] => None
  end.

(** Source [i] is active on [name]: it was accepted on it and has not ended.
    The number says which of its caches (1: the raw TS cache of an SRT source). *)
Fixpoint holds (i : nat) (name : list Z) (h : hist) : option nat :=
  match h with
  | (OPublish j n, Done) :: r => if Nat.eqb i j && eqb_list name n then Some 0%nat else holds i name r
  | (OSrtPublish j n, Done) :: r =>
      if Nat.eqb i j && eqb_list name n then Some 0%nat
      else if Nat.eqb i j && eqb_list name (TS_PREFIX ++ n) then Some 1%nat else holds i name r
  | (OEdgeOpen j, Done) :: r =>
      if Nat.eqb i j then
        match edge_name j r with
        | Some n => if eqb_list name n then Some 0%nat else holds i name r
        | None => holds i name r
        end
      else holds i name r
  | (OEnd j, Done) :: r => if Nat.eqb i j then None else holds i name r
  | _ :: r => holds i name r
  | [] => None
  end.

(** The source a player of [name] is attached to: the one that took the name
    last, unless a source active on the name has ended since, or the object of an
    edge that had taken the name was destroyed since. *)
Fixpoint owner (name : list Z) (h : hist) : option (nat * nat) :=
  match h with
  | (OEnd j, Done) :: r => match holds j name r with Some _ => None | None => owner name r end
  | (OEdgeDrop j, Done) :: r =>
      match took j r with
      | Some n => if eqb_list name n then None else owner name r
      | None => owner name r
      end
  | (OPublish j _, Done) as e :: r | (OSrtPublish j _, Done) as e :: r | (OEdgeOpen j, Done) as e :: r =>
      match holds j name (e :: r) with
      | Some k => Some (j, k)
      | None => owner name r
      end
  | _ :: r => owner name r
  | [] => None
  end.

(** The packets source [i] put into its [k]-th cache. *)
Fixpoint puts (i k : nat) (h : hist) : list pkt :=
  match h with
  | (OPut j m p, Done) :: r => puts i k r ++ (if Nat.eqb i j && Nat.eqb k m then [p] else [])
  | _ :: r => puts i k r
  | [] => []
  end.

(** The packets viewer [v] took. *)
Fixpoint given (v : nat) (h : hist) : list pkt :=
  match h with
  | (OPoll w, Given ps) :: r => given v r ++ (if Nat.eqb v w then ps else [])
  | _ :: r => given v r
  | [] => []
  end.

Definition snapshot (k : nat) (ps : list pkt) : list pkt :=
  match k with S _ => ts_snapshot ps | O => gop_snapshot ps end.

(** Environment: the rebalanced set holds the same elements in the same order. *)
Definition keeps_order (shape : shaper) : Prop := forall n l, inorder (shape n l) = l.

(** Environment: the allocator never gives a live viewer's address away, and
    viewers cancel before they go (as both players do). *)
Fixpoint env_ok (shape : shaper) (s : live) (os : list op) : Prop :=
  match os with
  | [] => True
  | o :: r =>
      match o with
      | OPlay _ addr _ => fresh_addr s addr
      | OVanish _ => False
      | _ => True
      end /\ env_ok shape (fst (step shape s o)) r
  end.

(** Stream names that are not of the form "ts://...". *)
Definition plain (name : list Z) : Prop := forall n, name <> TS_PREFIX ++ n.
Definition no_edge_plain (o : op) : Prop :=
  match o with
  | OEdgeOpen _ => False
  | OPublish _ n | OSrtPublish _ n => plain n
  | _ => True
  end.
