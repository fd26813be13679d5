(** The life of a coroutine's handler, told from the events alone. *)
From Verif Require Import Base M_Co.

Inductive life := LNone | LWait (t : nat) | LServe (t : nat) | LOver | LFail.
(** One event (of a handler [h]). *)
Definition life_step (h : nat) (l : life) (o : cop) : life :=
  match o, l with
  | KAccept t g ok, _ | KOther t g ok, _ => if Nat.eqb g h then (if ok then LWait t else LFail) else l
  | KBegin t, LWait u => if Nat.eqb t u then LServe u else l
  | KFinish t, LServe u => if Nat.eqb t u then LOver else l
  | _, _ => l
  end.
Definition life_of (h : nat) (os : list cop) : life := fold_left (life_step h) os LNone.

(** [h] is the handler of an accepted connection. *)
Definition is_conn (h : nat) (os : list cop) : bool := existsb (fun o => match o with KAccept _ g _ => Nat.eqb g h | _ => false end) os.

(** The environment: handlers are new objects; a thread that has not ended is not
    given out again; whoever starts a coroutine outside Server::accept keeps the
    handler until the coroutine has begun. *)
Definition env1 (pre : list cop) (o : cop) : Prop :=
  match o with
  | KAccept t h ok | KOther t h ok => life_of h pre = LNone /\ forall g, life_of g pre <> LWait t /\ life_of g pre <> LServe t
  | KForget h => forall t, life_of h pre <> LWait t
  | _ => True
  end.
Fixpoint env_from (pre os : list cop) : Prop :=
  match os with [] => True | o :: r => env1 pre o /\ env_from (pre ++ [o]) r end.
Definition env_ok (os : list cop) : Prop := env_from [] os.

(** What is seen of [h] apart from its log lines, newest first. *)
Definition marks (h : nat) (l : list obs) : list obs :=
  filter (fun b => match b with BServe g | BClose g => Nat.eqb g h | BLog _ _ => false end) l.
Definition begins (os : list cop) : Z := zlen (filter (fun o => match o with KBegin _ => true | _ => false end) os).
(** The same without the last condition: a handler may be let go at any time. *)
Fixpoint lax_from (pre os : list cop) : Prop :=
  match os with [] => True | o :: r => match o with KForget _ => True | _ => env1 pre o end /\ lax_from (pre ++ [o]) r end.
(** Threads are new, handlers may be started again. *)
Fixpoint again_from (pre os : list cop) : Prop :=
  match os with
  | [] => True
  | o :: r => match o with KAccept t h ok | KOther t h ok => forall g, life_of g pre <> LWait t /\ life_of g pre <> LServe t | _ => env1 pre o end /\ again_from (pre ++ [o]) r
  end.
(** An event that starts neither thread [t] nor handler [h]. *)
Definition elsewhere (t h : nat) (o : cop) : Prop :=
  match o with KAccept u g _ | KOther u g _ => u <> t /\ g <> h | _ => True end.
