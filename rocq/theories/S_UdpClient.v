(** What a user of UDP client sockets and of the load generator sees. *)
From Verif Require Import Base M_UdpClient.

(** Datagrams arriving one after the other. *)
Definition arriving (ds : list (list Z)) : list urecv := map (fun d => RDgram d 0) ds.
Definition filled (ds : list (list Z)) : Prop := Forall (fun d => d <> []) ds.
(** What was sent, how long the tool paused, and how many datagrams there are. *)
Definition sends (evs : list uev) : list (list Z) := flat_map (fun e => match e with VSend d => [d] | _ => [] end) evs.
Definition paused (evs : list uev) : Z := fold_right Z.add 0 (map (fun e => match e with VPause u => u | _ => 0 end) evs).
Definition no_report (evs : list uev) : Prop := Forall (fun e => match e with VReport _ _ _ _ => False | _ => True end) evs.
(** The datagrams numbered from [k] on, with these clock values. *)
Fixpoint numbered (k : Z) (nows rest : list Z) : list (list Z) :=
  match nows with
  | [] => []
  | t :: l => ([k mod 256; k / 256 mod 256; k / 256 / 256 mod 256; k / 256 / 256 / 256 mod 256; 0; 0; 0; 0]
               ++ map (fun i => t / 256 ^ i mod 256) [0; 1; 2; 3; 4; 5; 6; 7] ++ rest) :: numbered (k + 1) l rest
  end.
(** The report before, if any: [a] ends with one or is empty. *)
Definition at_report (a : list uev) : Prop := a = [] \/ exists a0 w m s k, a = a0 ++ [VReport w m s k].
