(** What a user of the receiving tool sees. *)
From Verif Require Import Base M_UdpClient.

(** The bytes that count: at most 4096 of each datagram. *)
Definition counted (arr : list (Z * list Z)) : Z := fold_right Z.add 0 (map (fun a => Z.min 4096 (zlen (snd a))) arr).
(** Arrivals without a silence of ten seconds, the last at or before [t]. *)
Fixpoint no_silence (t : Z) (arr : list (Z * list Z)) : Prop :=
  match arr with [] => True | (u, _) :: l => u - t < 10000 /\ no_silence u l end.
Definition last_time (t : Z) (arr : list (Z * list Z)) : Z := List.last (map fst arr) t.
(** [segs] are stretches of arrivals, each with the time of the report before:
    a stretch ends with the first arrival at least a second after that. *)
Definition stretch (pre : Z) (seg : list (Z * list Z)) : Prop :=
  exists a t d, seg = a ++ [(t, d)] /\ Forall (fun x => fst x - pre < 1000) a /\ 1000 <= t - pre.
Fixpoint reported (pre : Z) (segs : list (list (Z * list Z))) (rates : list Z) : Prop :=
  match segs, rates with
  | [], [] => True
  | s :: ss, r :: rs =>
      stretch pre s /\ r = 8 * counted s / (last_time pre s - pre) /\ reported (last_time pre s) ss rs
  | _, _ => False
  end.
Definition rest_quiet (pre : Z) (segs : list (list (Z * list Z))) (rest : list (Z * list Z)) : Prop :=
  Forall (fun x => fst x - last_time pre (concat segs) < 1000) rest.
(** What the load generator told. *)
Definition told (evs : list uev) : list Z := flat_map (fun e => match e with VReport _ _ _ kb => [kb] | _ => [] end) evs.
(** The arrivals fall into sessions: one lasts until there has been nothing for
    ten seconds.  Its reports are those of its stretches, counted from its first
    datagram on; what comes after its last report is in none. *)
Inductive follows : list (Z * list Z) -> list (list Z) -> Prop :=
| follows_none : follows [] []
| follows_one : forall t d l segs tail rest rs rss,
    no_silence t ((t, d) :: l) -> (rest = [] \/ exists u e m, rest = (u, e) :: m /\ 10000 <= u - last_time t ((t, d) :: l)) ->
    (t, d) :: l = concat segs ++ tail -> reported t segs rs -> rest_quiet t segs tail ->
    follows rest rss -> follows (((t, d) :: l) ++ rest) (rs :: rss).
