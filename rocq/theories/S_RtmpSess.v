(** RTMP sessions seen from the client: which commands it spoke, what it should
    be told, what acknowledgements it may count on. *)
From Verif Require Import Base M_Rtmp M_Url M_RtmpSess.

(** [first_prop o k v]: the first property called [k] of an AMF object is [v]. *)
Inductive first_prop (k : list Z) (v : amfv) : list (list Z * amfv) -> Prop :=
| fp_here : forall o, first_prop k v ((k, v) :: o)
| fp_later : forall k' v' o, k' <> k -> first_prop k v o -> first_prop k v ((k', v') :: o).

(** The command object: an object, or null where nothing is read from it. *)
Definition obj_or_null (v : amfv) : Prop := v = ANull \/ exists o, v = AObj o.

(** [spoken vs c]: the AMF values [vs] are the command [c]. *)
Inductive spoken : list amfv -> cmd -> Prop :=
| sp_connect : forall t o app tc more,
    first_prop (str "app") (AStr app) o -> first_prop (str "tcUrl") (AStr tc) o ->
    spoken (AStr (str "connect") :: ANum t :: AObj o :: more) (CConnect t app tc)
| sp_create : forall t v more, obj_or_null v ->
    spoken (AStr (str "createStream") :: ANum t :: v :: more) (CCreate t)
| sp_play : forall t v name more, obj_or_null v ->
    spoken (AStr (str "play") :: ANum t :: v :: AStr name :: more) (CPlay t name)
| sp_publish : forall t v name more, obj_or_null v ->
    (more = [] \/ (exists x, more = [x]) \/ exists ty more', more = AStr ty :: more') ->
    spoken (AStr (str "publish") :: ANum t :: v :: AStr name :: more) (CPublish t name)
| sp_release : forall t v name more, obj_or_null v ->
    spoken (AStr (str "releaseStream") :: ANum t :: v :: AStr name :: more) (CRelease t name)
| sp_fcpublish : forall t v name more, obj_or_null v ->
    spoken (AStr (str "FCPublish") :: ANum t :: v :: AStr name :: more) (CFCPublish t name).

(** The message types whose body is read as AMF. *)
Definition amf_type (t : Z) : Prop := t = 15 \/ t = 17 \/ t = 18 \/ t = 20.

(** [speaks lib ev c]: the client's message is the command [c]. *)
Definition speaks (lib : amf_lib) (ev : rev) (c : cmd) : Prop :=
  exists m n vs, ev = RvMsg m n /\ amf_type (rm_type m) /\
    lib (rm_type m =? 17) (rm_body m) = Some vs /\ spoken vs c.
Definition starts_role (c : cmd) : Prop :=
  match c with CPlay _ _ | CPublish _ _ => True | _ => False end.
Definition opens (c : cmd) : Prop := match c with CConnect _ _ _ => True | _ => False end.

(** What a command sent between connect and the start of a role is answered. *)
Definition answer (c : cmd) : list reply :=
  match c with
  | CCreate t => [RResult t 1]
  | CRelease t _ | CFCPublish t _ => [RResult t 0]
  | _ => []
  end.
(** The commands of a stretch of messages. *)
Inductive commands (lib : amf_lib) : list rev -> list cmd -> Prop :=
| cs_nil : commands lib [] []
| cs_cmd : forall ev c evs cs, speaks lib ev c -> commands lib evs cs -> commands lib (ev :: evs) (c :: cs)
| cs_other : forall ev evs cs, (forall c, ~ speaks lib ev c) -> commands lib evs cs -> commands lib (ev :: evs) cs.
(** Replies that are not reactions to the transport itself. *)
Definition about_commands (r : reply) : bool := match r with RAck _ | RPong _ => false | _ => true end.

(** A message that carries a control event 6 (ping request). *)
Definition is_ping (ev : rev) : Prop :=
  exists m n ts more, ev = RvMsg m n /\ rm_type m = 4 /\ rm_body m = [0; 6] ++ ts ++ more /\ length ts = 4%nat.
(** Wire bytes used by a stretch of messages. *)
Fixpoint wire (evs : list rev) : Z :=
  match evs with [] => 0 | RvMsg _ n :: l => n + wire l | RvFail _ _ _ :: l => wire l end.
(** Acknowledgements sent, in order. *)
Fixpoint acks (l : list reply) : list Z :=
  match l with [] => [] | RAck n :: l' => n :: acks l' | _ :: l' => acks l' end.
(** The most recent acknowledgement, 0 before any. *)
Definition last_ack (l : list reply) : Z := last (acks l) 0.
(** The byte counts a client can compute itself: totals after each message. *)
Fixpoint totals (n0 : Z) (evs : list rev) : list Z :=
  match evs with
  | [] => []
  | RvMsg _ n :: l => (n0 + n) :: totals (n0 + n) l
  | RvFail _ _ _ :: l => totals n0 l
  end.
Inductive subseq : list Z -> list Z -> Prop :=
| ss_nil : forall l, subseq [] l
| ss_take : forall x a b, subseq a b -> subseq (x :: a) (x :: b)
| ss_skip : forall x a b, subseq a b -> subseq a (x :: b).

(** Plain receptions: complete messages of non-negative size that are no
    pings, with complete windows that are positive. *)
Definition plain (ev : rev) : Prop :=
  exists m n, ev = RvMsg m n /\ 0 <= n /\ ~ is_ping ev /\ bytes (rm_body m) /\
    (rm_type m = 5 -> 4 <= zlen (rm_body m)) /\
    (rm_type m = 6 -> 4 <= zlen (rm_body m) /\ 0 < bev (take 4 (rm_body m)) < 2 ^ 31).
Definition no_peer_bw (ev : rev) : Prop := forall m n, ev = RvMsg m n -> rm_type m <> 6.

(** The 32-bit value the last complete message of a type announced. *)
Fixpoint announced (ty d : Z) (evs : list rev) : Z :=
  match evs with
  | [] => d
  | RvMsg m _ :: l =>
      if (rm_type m =? ty) && (4 <=? zlen (rm_body m)) then announced ty (s32 (bev (take 4 (rm_body m)))) l
      else announced ty d l
  | RvFail _ _ _ :: l => announced ty d l
  end.

(** Names the server has no use for. *)
Definition unknown_name (nm : list Z) : Prop :=
  ~ In nm [str "connect"; str "createStream"; str "play"; str "publish"; str "releaseStream"; str "FCPublish"].
(** A message an orderly client may send while connecting: a command, an AMF
    message that begins with some other name, or no AMF at all; no bandwidth
    limit, and a complete window if any. *)
Definition orderly (lib : amf_lib) (ev : rev) : Prop :=
  exists m n, ev = RvMsg m n /\ 0 <= n /\ rm_type m <> 6 /\ (rm_type m = 5 -> 4 <= zlen (rm_body m)) /\
    (amf_type (rm_type m) ->
       (exists c, speaks lib ev c) \/
       (exists nm vs, lib (rm_type m =? 17) (rm_body m) = Some (AStr nm :: vs) /\ unknown_name nm)).
