(** What becomes of an edge's pull, for every origin. *)
From Verif Require Import Base M_Text M_IO M_Packet M_Conf M_Url M_Host M_Http M_Https M_Stream M_Edge S_HttpOut.

(** The request can be sent. *)
Definition sent_to (conn : bool) (o : sink) : Prop := conn = true /\ sk_room o <> Some O.
(** The origin's head is [head], [t1] what follows it, and the library takes [n] bytes of
    it and finds [ri]. *)
Definition answered_by (lib : list Z -> Z * rsp_info) (t : transport) (n : Z) (ri : rsp_info) (t1 : transport) : Prop :=
  exists head, read_head t MAX_HEADER = (Ok head, t1) /\ lib head = (n, ri).
(** What the reader of a format does with the body of the answer. *)
Definition body_gives (p : prog (list pkt * res unit)) (ri : rsp_info) (t : transport) (ps : list pkt) (x : res unit) : Prop :=
  fst (run_plain (over_up p (hb_new (ri_chunked ri) (ri_cl ri))) t) = Ok (Ok (ps, x)).

(** How a pull ends: the result of the handler and the stream, if one was made. *)
Inductive pulled (lib : list Z -> Z * rsp_info) (fmts : list (list Z)) (decode : list Z -> prog (list pkt * res unit)) (q : ureq)
    (conn : bool) (t : transport) (o : sink) : res Z -> option (list pkt) -> Prop :=
| pu_unconnected : conn = false -> pulled lib fmts decode q conn t o (Ok ERROR_HTTP_SOCKET_CONNECT) None
| pu_unsent : conn = true -> sk_room o = Some O -> pulled lib fmts decode q conn t o (Ok (sk_err o)) None
| pu_no_head c t1 : sent_to conn o -> read_head t MAX_HEADER = (Err c, t1) -> pulled lib fmts decode q conn t o (Ok c) None
| pu_refused n ri t1 : sent_to conn o -> answered_by lib t n ri t1 -> n < 0 -> pulled lib fmts decode q conn t o (Ok n) None
| pu_first_byte n ri t1 : sent_to conn o -> answered_by lib t n ri t1 -> n = 0 -> pulled lib fmts decode q conn t o UB None
| pu_status n ri t1 : sent_to conn o -> answered_by lib t n ri t1 -> 0 < n -> ri_status ri <> 200 -> pulled lib fmts decode q conn t o (Ok 0) None
| pu_extension n ri t1 : sent_to conn o -> answered_by lib t n ri t1 -> 0 < n -> ri_status ri = 200 -> past_end fmts (rq_ext q) ->
    pulled lib fmts decode q conn t o UB None
| pu_no_format n ri t1 : sent_to conn o -> answered_by lib t n ri t1 -> 0 < n -> ri_status ri = 200 -> ~ past_end fmts (rq_ext q) ->
    (forall f, ~ selects fmts (rq_ext q) f) -> pulled lib fmts decode q conn t o UB None
| pu_stream n ri t1 f ps x : sent_to conn o -> answered_by lib t n ri t1 -> 0 < n -> ri_status ri = 200 -> selects fmts (rq_ext q) f ->
    body_gives (decode f) ri t1 ps x ->
    pulled lib fmts decode q conn t o (match x with Ok _ => Ok 0 | Err c => Ok c | UB => UB | Fuel => Fuel end) (Some ps).
