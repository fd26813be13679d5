(** Pulling streams from other servers, and chains of servers. *)
From Verif Require Import Base M_IO S_IO M_Text M_Packet M_Flv M_Live S_Live S_Cache S_Stream M_Conf M_Url M_Http S_Http S_Https M_Https M_Upload M_Stream M_HttpConn S_HttpConn M_Edge.

(** ** The body of an answer (RFC 7230, section 3.3.3): in chunks, by length, or
    all that follows. *)
Definition answer_body (chunked : bool) (cl : Z) (stream body : list Z) : Prop :=
  (exists more, S_Https.framed (chunked, cl) stream body more) \/ (chunked = false /\ cl < 0 /\ stream = body).
(** The error that ends it. *)
Definition body_end (chunked : bool) (cl err : Z) : Z := if chunked || (0 <=? cl) then ERROR_HTTP_RES_EOF else err.

(** ** The parser library reads a text as what it says *)
Definition reads_request (lib : list Z -> Z * (list Z * list Z * list kv)) (text : list Z) : Prop :=
  forall m u v fs rest, read_request text = Some (m, u, v, fs, rest) -> exists n, 0 < n /\ lib text = (n, (u, m, fs)).
Definition reads_response (lib : list Z -> Z * rsp_info) (head : list Z) : Prop :=
  forall ds status reason fs, read_message head = Some (str "HTTP/1.1 " ++ ds ++ str " " ++ reason, fs, []) -> dec_number ds status ->
  field_values (str "transfer-encoding") fs = [] -> field_values (str "content-length") fs = [] ->
  exists n, 0 < n /\ lib head = (n, mkri status (-1) false fs).

(** ** What a player of a stream may get *)
(** [view ps q]: a player who came when [pre] of the stream [ps] had been published
    has got [q] so far. *)
Definition view (ps q : list pkt) : Prop := exists pre post, ps = pre ++ post /\ initial q (gop_snapshot pre ++ post).

(** ** Chains *)
(** One server: some source of it has put the packets [ps] into a stream, and some
    player of the stream has polled the packets [ds]. *)
Definition served (ps : list pkt) (ds : list (list pkt)) : Prop :=
  exists shape os s post pre v a name i, keeps_order shape /\ env_ok shape live0 os /\
    play_events shape live0 [] os = (s, post ++ (OPlay v a name, Done) :: pre) /\ ~ In (OLeave v, Done) post /\
    owner name pre = Some (i, 0%nat) /\ puts i 0 (post ++ (OPlay v a name, Done) :: pre) = ps /\ polls v post = ds.
(** The next server pulls that stream as this player: [ps] is what its edge has put
    into its own stream so far.  The upstream's connection may fail or break off,
    the network divides the bytes in any way; the edge's demuxer has a buffer of
    [cap] bytes. *)
Definition pulled (cap : Z) (ds : list (list pkt)) (ps : list pkt) : Prop :=
  exists reason ins outs h r e sk ret sk1 bytes lib fmts f decode fuel fill q t o x ps' o1,
    rq_method r <> str "POST" /\ w_taken e (cache_key r) = true /\ fmt_find outs (rq_ext r) = Ok (Some (str "flv")) /\
    w_dumps e = ds /\ sk_err sk <> ERROR_STREAM_PUBLISH_NOT_SUPPORT /\ sk_err sk <> ERROR_STREAM_SOURCE_NOT_EXITS /\ S_Http.plain (reason 200) /\ zlen (reason 200) < 1000 /\
    http_stream reason ins outs h r e sk = (ret, sk1) /\ sk_out sk1 = sk_out sk ++ bytes /\
    nonempty_chunks (t_chunks t) /\ initial (t_stream t) bytes /\
    reads_response lib (response_head reason rsp200) /\ fmt_find fmts (rq_ext q) = Ok (Some f) /\ decode f = flv_decode_prog fuel fill /\ zlen fill = cap /\
    edge_http lib fmts decode q true t o = (x, Some ps', o1) /\ initial ps ps'.
(** [cluster cap n ps ds]: [ps] is put into a stream of the first server; a player of the
    [n]-th server behind it has polled [ds]. *)
Inductive cluster (cap : Z) : nat -> list pkt -> list (list pkt) -> Prop :=
| cl_one ps ds : served ps ds -> cluster cap 0 ps ds
| cl_hop n ps ds ps' ds' : cluster cap n ps ds -> pulled cap ds ps' -> served ps' ds' -> cluster cap (S n) ps ds'.
