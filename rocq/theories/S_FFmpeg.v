(** What a user of the FFmpeg build relies on. *)
From Verif Require Import Base M_FFmpeg.

(** Media types that are relayed. *)
Definition relayed (k : Z) : bool := (0 <=? k) && (k <=? 3).
(** The number, counted from 0, of the output stream that is made for input
    stream [j]: one is made for each relayed input stream, in order. *)
Definition made_for (ss : list ffstream) (j : nat) : Z := zlen (filter (fun s => relayed (fs_kind s)) (firstn j ss)).
Definition outputs (ss : list ffstream) : Z := zlen (filter (fun s => relayed (fs_kind s)) ss).

(** Time bases. *)
Definition ticks (tb : Z * Z) : Prop := 0 < fst tb /\ 0 < snd tb.
(** [t'] ticks of [tb'] are [t] ticks of [tb], up to half a tick of [tb']. *)
Definition same_time (t : Z) (tb : Z * Z) (t' : Z) (tb' : Z * Z) : Prop :=
  2 * Z.abs (t' * (fst tb' * snd tb) - t * (fst tb * snd tb')) <= fst tb' * snd tb.
(** The time fits the 63 bits of a time in ticks of [tb']. *)
Definition fits (t : Z) (tb tb' : Z * Z) : Prop :=
  t < 2 ^ 63 /\ 2 * (t * (fst tb * snd tb')) < (2 ^ 64 - 3) * (fst tb' * snd tb).
(** At least half a tick of [tb'] before zero. *)
Definition before_zero (t : Z) (tb tb' : Z * Z) : Prop :=
  t < 0 /\ fst tb' * snd tb <= 2 * (- t * (fst tb * snd tb')).

(** The newest part of a history that starts with a key frame of the video and
    contains no other; empty if there was none. *)
Definition newest_from_key {A} (key : A -> Prop) (h m : list A) : Prop :=
  exists old, h = old ++ m /\
  ((m = [] /\ forall p, In p h -> ~ key p) \/ (exists k r, m = k :: r /\ key k /\ forall p, In p r -> ~ key p)).

(** A packet of the input that can be sent: of an existing stream, with times
    that are there and fit. *)
Definition sendable (ss : list ffstream) (otb : Z -> Z * Z) (f : ffraw) : Prop :=
  exists s, 0 <= fr_index f /\ nth_error ss (Z.to_nat (fr_index f)) = Some s /\ ticks (fs_tb s) /\ ticks (otb (fr_index f)) /\
    0 <= fr_dts f /\ 0 <= fr_pts f /\ fits (fr_dts f) (fs_tb s) (otb (fr_index f)) /\ fits (fr_pts f) (fs_tb s) (otb (fr_index f)).
(** A frame that carries it. *)
Definition carries (ss : list ffstream) (otb : Z -> Z * Z) (f : ffraw) (x : frame) : Prop :=
  exists s, nth_error ss (Z.to_nat (fr_index f)) = Some s /\ f_index x = made_for ss (Z.to_nat (fr_index f)) /\ f_data x = fr_data f /\
    same_time (fr_dts f) (fs_tb s) (f_dts x) (otb (f_index x)) /\ same_time (fr_pts f) (fs_tb s) (f_pts x) (otb (f_index x)).
