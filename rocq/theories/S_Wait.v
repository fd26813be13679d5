(** Waiting with time: the events of M_Live.v behind a timed history. *)
From Verif Require Import Base M_Packet M_Live M_Wait S_Live.

(** What the sources and viewers of M_Live.v see of an event. *)
Definition seen_as (s : wst) (o : wop) : list op :=
  match o with
  | WSrc o =>
      if by_source o then
        o :: match o with
             | OEnd i => match l_src (w_live s) i with
                         | Some (SOpening _) | Some (SActive _ _) => if held (w_thr s) i then [] else [OEdgeDrop i]
                         | _ => []
                         end
             | _ => []
             end
      else []
  | WArrive v addr name edge i started =>
      match t_get (w_thr s) v, l_views (w_live s) v, l_reg (w_live s) name, l_edges (w_live s) name with
      | None, None, Some _, _ => [OPlay v addr name]
      | None, None, None, None => if edge && started then [OEdgeStart i name] else []
      | _, _, _, _ => []
      end
  | WRun v addr =>
      match t_get (w_thr s) v with
      | Some (PWoken name own _) => match own with Some e => [OEdgeDrop e] | None => [] end ++ [OPlay v addr name]
      | Some (PReady _) => match queue_of (w_live s) v with [] => [OLeave v] | _ => [OPoll v] end
      | _ => []
      end
  | WWrote v code =>
      match t_get (w_thr s) v with
      | Some PWriting => if code =? 0 then match queue_of (w_live s) v with [] => [] | _ => [OPoll v] end else [OLeave v]
      | _ => []
      end
  | WTime _ => []
  end.
Fixpoint live_events (shape : shaper) (s : wst) (os : list wop) : list op :=
  match os with [] => [] | o :: r => seen_as s o ++ live_events shape (wstep shape s o) r end.
(** The history of the viewers and sources after a timed run; the allocator never
    gives a live viewer's address away. *)
Definition timed (shape : shaper) (os : list wop) (s : wst) (h : hist) : Prop :=
  keeps_order shape /\ env_ok shape live0 (live_events shape w0 os) /\ wrun shape w0 os = s /\
  snd (play_events shape live0 [] (live_events shape w0 os)) = h.

(** The cache a packet goes to. *)
Definition put_into (l : live) (o : wop) : option nat :=
  match o with
  | WSrc (OPut i k _) => match l_src l i with Some (SActive _ ks) => option_map snd (nth_error ks k) | _ => None end
  | _ => None
  end.
(** No packet is put into the stream that viewer [v] plays. *)
Fixpoint silent (shape : shaper) (v : nat) (s : wst) (os : list wop) : Prop :=
  match os with
  | [] => True
  | o :: r => (forall x, l_views (w_live s) v = Some x -> put_into (w_live s) o <> Some (v_cid x)) /\ silent shape v (wstep shape s o) r
  end.
(** No source ends. *)
Definition no_end (o : wop) : Prop := match o with WSrc (OEnd _) => False | _ => True end.
(** Sources do nothing. *)
Definition no_source (o : wop) : Prop := match o with WSrc _ => False | _ => True end.

(** A player that started a pull is about to go on, and the pull has ended. *)
Definition pending (s : wst) (n : list Z) : Prop :=
  exists v e t b ks, t_get (w_thr s) v = Some (PWoken n (Some e) t) /\ l_src (w_live s) e = Some (SLeft b ks).
(** Nobody asks for, or publishes, a name in that moment. *)
Definition calm1 (s : wst) (o : wop) : Prop :=
  match o with
  | WArrive _ _ n _ _ _ | WSrc (OPublish _ n) => ~ pending s n
  | WSrc (OSrtPublish _ n) => ~ pending s n /\ ~ pending s (TS_PREFIX ++ n)
  | _ => True
  end.
Fixpoint calm (shape : shaper) (s : wst) (os : list wop) : Prop :=
  match os with [] => True | o :: r => calm1 s o /\ calm shape (wstep shape s o) r end.
(** An edge connects to the origin for [n] or pulls [n]. *)
Definition pulls (l : live) (i : nat) (n : list Z) : Prop :=
  l_src l i = Some (SOpening n) \/ exists c, l_src l i = Some (SActive true [(n, c)]).
