(** What peers of a connection do over time, and what a program of reads may
    ask for: the words of the statements about the clock. *)
From Verif Require Import Base M_IO M_Https M_Clock.

(** All bytes that arrive. *)
Fixpoint bytes_of (evs : list arr) : list Z :=
  match evs with
  | (_, PBytes d) :: r => d ++ bytes_of r
  | (_, PEnd _) :: _ => []
  | [] => []
  end.
(** Bytes come in non-empty parts, in the order of time from [from] on, then the
    connection ends with [c]. *)
Fixpoint comes (from : Z) (evs : list arr) (c : Z) : Prop :=
  match evs with
  | [] => False
  | (t, PEnd x) :: r => from <= t /\ x = c /\ r = []
  | (t, PBytes d) :: r => from <= t /\ d <> [] /\ comes t r c
  end.
(** The peer never lets [T] pass without doing something. *)
Fixpoint no_gap (T from : Z) (evs : list arr) : Prop :=
  match evs with
  | [] => True
  | (t, _) :: r => t < from + T /\ no_gap T t r
  end.
(** The parts are not empty. *)
Definition parts (evs : list arr) : Prop := forall t d, In (t, PBytes d) evs -> d <> [].
(** The time of the last event, at least [from]. *)
Definition latest (from : Z) (evs : list arr) : Z := fold_right (fun e m => Z.max (fst e) m) from evs.

(** A program that asks for at most [D] bytes in all: each read for no more
    than is left, and no read after the first error. *)
Inductive asks {A} : prog A -> Z -> Prop :=
| asks_ret a D : 0 <= D -> asks (PRet a) D
| asks_read n k ke D : 0 < n <= D -> (forall d, 0 < zlen d <= n -> asks (k d) (D - zlen d)) ->
    (forall c, exists a, ke c = PRet a) -> asks (PRead n k ke) D.

(** One byte at a time, [gap] apart, then the end of the connection. *)
Fixpoint drip (gap now : Z) (h : list Z) (c : Z) : list arr :=
  match h with
  | [] => [(now + gap, PEnd c)]
  | b :: r => (now + gap, PBytes [b]) :: drip gap (now + gap) r c
  end.

(** The connection makes room at least every [T], for at least one byte each
    time, [total] bytes in all. *)
Fixpoint drains (T from : Z) (evs : list (Z * Z)) : Prop :=
  match evs with
  | [] => True
  | (t, n) :: r => from <= t < from + T /\ 0 < n /\ drains T t r
  end.
Definition total_room (evs : list (Z * Z)) : Z := fold_right (fun e m => snd e + m) 0 evs.
Definition latest_room (from : Z) (evs : list (Z * Z)) : Z := fold_right (fun e m => Z.max (fst e) m) from evs.
