(** What players and publishers of streams may rely on; independent of the
    request handlers' model. *)
From Verif Require Import Base M_Packet M_Live S_Live S_Flv M_Srt.

(** The results of viewer [v]'s polls, oldest first (histories are newest first). *)
Fixpoint polls (v : nat) (h : hist) : list (list pkt) :=
  match h with
  | (OPoll w, Given ps) :: r => polls v r ++ (if Nat.eqb v w then [ps] else [])
  | _ :: r => polls v r
  | [] => []
  end.

(** The polls before the first that brought nothing. *)
Fixpoint until_empty (ds : list (list pkt)) : list (list pkt) :=
  match ds with
  | [] => []
  | [] :: _ => []
  | d :: r => d :: until_empty r
  end.

(** Packets an FLV stream can carry at all. *)
Definition flv_fits (p : pkt) : Prop := flv_known p = true /\ zlen (flv_body p) < 2 ^ 24.

(** [p] is an initial part of [l]. *)
Definition initial {A} (p l : list A) : Prop := exists q, p ++ q = l.

(** An SRT library that waits for room any number of times and then takes the
    message or fails. *)
Definition srt_decides (evs : list ssnd) (x : ssnd) : Prop :=
  x <> SsAgain 0 /\ exists k, evs = repeat (SsAgain 0) k ++ [x].
