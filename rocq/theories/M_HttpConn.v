(** The connection of an HTTP client with the handlers the server really
    installs (HttpModule::install, src/module/http/sps_http_module.cpp:91-95):
    head, request, host, then the 404 page, the API stub, the proxy or the
    stream handler, again and again until one of them fails.  The http_parser
    library, the upstream's answers and the other streams are inputs. *)
From Verif Require Import Base M_Text M_IO M_Packet M_Flv M_Conf M_Url M_Host M_Http M_Https M_Upload M_Stream.

(** What is fixed for a server. *)
Record hcfg := mkhg {
  hg_reason : Z -> list Z;                                  (* http_status_str *)
  hg_req : list Z -> Z * (list Z * list Z * list kv);       (* http_parser on a request head: bytes accepted; target, method, fields *)
  hg_rsp : list Z -> Z * rsp_info;                          (* http_parser on a response head *)
  hg_url : url_lib;                                         (* http_parser_parse_url *)
  hg_router : hrouter;                                      (* the server's hosts *)
  hg_ins : list (list Z);                                   (* registered input formats *)
  hg_outs : list (list Z);                                  (* registered output formats *)
  hg_decode : list Z -> prog (list pkt * res unit)          (* StreamDecoder::decode with the demuxer of a format *)
}.
(** What a request meets: the registered streams, start_edge's result, the
    player's dumps; whether the upstream can be connected, what it sends and how
    it takes the request. *)
Record henv := mkhe {
  he_taken : list Z -> bool; he_edge : Z * bool; he_dumps : list (list pkt);
  he_conn : bool; he_upin : transport; he_upout : sink
}.
(** A connection made to an upstream: address, port, bytes sent on it (none if
    it could not be made). *)
Definition upcall := (list Z * Z * list Z)%type.
(** A connection: what the client sends, the request in the connection's context,
    what was sent to the client, the upstream connections, and the streams
    published: key and packets. *)
Record cst := mkcs {
  cs_in : transport; cs_ctx : option ureq; cs_out : sink; cs_up : list upcall; cs_pub : list (list Z * list pkt)
}.

(** HttpParsePhaseHandler::handler, src/module/http/sps_http_phase_handler.cpp:37-58,
    with HttpParser::parse_header, src/module/http/sps_http_parser.cpp:133-201 (the
    result of parse_request, :193, is not looked at).  Results are those of the
    handlers; [None] is a handler that has not returned. *)
Definition http_parse (g : hcfg) (s : cst) : option (res Z) * cst :=
  match read_head (cs_in s) MAX_HEADER with
  | (Ok head, t1) =>
      let '(n, (target, method, fields)) := hg_req g head in
      let '(pr, r) := request_of (hg_url g) target method fields in
      let s1 ctx := mkcs t1 ctx (cs_out s) (cs_up s) (cs_pub s) in
      match pr with
      | UB => (Some UB, s1 (cs_ctx s))
      | Fuel => (Some Fuel, s1 (cs_ctx s))
      | _ => if n <=? 0 then (Some (Ok n), s1 (cs_ctx s)) else (Some (Ok PHASE_CONTINUE), s1 (Some r))
      end
  | (Err e, t1) => (Some (Ok e), mkcs t1 (cs_ctx s) (cs_out s) (cs_up s) (cs_pub s))
  | (UB, t1) => (Some UB, mkcs t1 (cs_ctx s) (cs_out s) (cs_up s) (cs_pub s))
  | (Fuel, t1) => (Some Fuel, mkcs t1 (cs_ctx s) (cs_out s) (cs_up s) (cs_pub s))
  end.

(** Http404PhaseHandler::handler, sps_http_phase_handler.cpp:64-81. *)
Definition serve_404 (g : hcfg) (s : cst) : option (res Z) * cst :=
  let '(_, _, o) := hr_write_header (hg_reason g) (hr_init (mkhr 200 false 0 false []) 404 None 0 false) (cs_out s) in
  (Some (Ok PHASE_NO_CONTINUE), mkcs (cs_in s) (cs_ctx s) o (cs_up s) (cs_pub s)).

(** HttpProxyPhaseHandler::handler, src/module/http/sps_http_proxy_phase_handler.cpp:44-97,
    and HttpUrlProtocol::open, src/io/url/sps_io_url_http.cpp:59-97.  A request of
    a client always has the schema the library finds in a text that begins with
    "http:/" (sps_http_parser.cpp:83-87); for the two other registered protocols
    only the missing response (:68-70) is modelled. *)
Definition serve_proxy (g : hcfg) (e : henv) (h : cmod) (r : ureq) (s : cst) : option (res Z) * cst :=
  match up_kind (rq_schema r) with
  | None => (Some (Ok ERROR_UPSTREAM_NOT_FOUND), s)
  | Some UHttp =>
      let '(ip, port) := proxy_info h 80 in
      let addr := connect_addr ip r in
      if negb (he_conn e) then
        (Some (Ok ERROR_HTTP_SOCKET_CONNECT), mkcs (cs_in s) (cs_ctx s) (cs_out s) (cs_up s ++ [(addr, port, [])]) (cs_pub s))
      else
        let '(ret, _, ups, o) := proxy (hg_reason g) (hg_rsp g) (mkpq (rq_method r) (rq_url r) (rq_host r) (rq_headers r))
                                   (he_upin e) (he_upout e) (cs_out s) in
        (Some (match ret with Err c => Ok c | x => x end),
         mkcs (cs_in s) (cs_ctx s) o (cs_up s ++ [(addr, port, sk_out ups)]) (cs_pub s))
  | Some _ => (Some UB, s)
  end.

(** HttpStreamPhaseHandler::handler, src/module/http/sps_http_stream_phase_handler.cpp:39-69:
    an accepted upload is read from the body of the request by
    StreamHandler::publish (src/module/stream/sps_stream_handler.cpp:55-85). *)
Definition serve_stream (g : hcfg) (e : henv) (h : cmod) (r : ureq) (s : cst) : option (res Z) * cst :=
  let go (d : option (res Z)) (t : transport) pub :=
    let '(ret, o) := http_stream (hg_reason g) (hg_ins g) (hg_outs g) h r (mkw (he_taken e) (he_edge e) (he_dumps e) d) (cs_out s) in
    (ret, mkcs t (cs_ctx s) o (cs_up s) pub) in
  if eqb_list (rq_method r) (str "POST") then
    match publish_start (hg_ins g) h r (he_taken e) with
    | Ok f =>
        match run_plain (over_body (hg_decode g f) (hb_new (rq_is_chunked r) (rq_content_length r))) (cs_in s) with
        | (Ok (Ok (ps, x)), t1) =>
            go (Some (match x with Ok _ => Ok 0 | Err c => Ok c | UB => UB | Fuel => Fuel end)) t1
               (cs_pub s ++ [(cache_key r, ps)])
        | (_, t1) => go (Some UB) t1 (cs_pub s)
        end
    | _ => go None (cs_in s) (cs_pub s)
    end
  else go None (cs_in s) (cs_pub s).

(** HostRouterPhaseHandler::handler, src/module/host/sps_host_router_handler.cpp:39-53;
    HttpAdapterPhaseHandler::handler, src/module/http/sps_http_adapter_phase_handler.cpp:39-48;
    HttpApiPhaseHandler::handler, src/module/http/sps_http_api_phase_handler.cpp:32-34. *)
Definition http_route (g : hcfg) (e : henv) (s : cst) : option (res Z) * cst :=
  match cs_ctx s with
  | None => (Some UB, s)
  | Some r =>
      match find_host (hg_router g) (rq_host r) with
      | None => serve_404 g s
      | Some h =>
          match adapter h with
          | AStream => serve_stream g e h r s
          | AApi => (Some (Ok ERROR_HTTP_RSP_NOT_OK), s)
          | _ => serve_proxy g e h r s
          end
      end
  end.

(** ServerPhaseHandler::handler, src/module/server/sps_server_handler.cpp:49-68 ([chain]
    of M_Http.v, with handlers that may not return). *)
Fixpoint wchain {S} (hs : list (S -> option (res Z) * S)) (s : S) (ret : Z) : option (res Z) * S :=
  match hs with
  | [] => (Some (Ok ret), s)
  | h :: hs' =>
      match h s with
      | (Some (Ok r), s1) =>
          if r =? PHASE_NO_CONTINUE then (Some (Ok 0), s1)
          else if r =? PHASE_CONTINUE then wchain hs' s1 r
          else (Some (Ok r), s1)
      | (e, s1) => (e, s1)
      end
  end.
(** One request. *)
Definition http_turn (g : hcfg) (e : henv) (s : cst) : option (res Z) * cst :=
  wchain [http_parse g; http_route g e] s 0.
(** Connection::handler, sps_server_handler.cpp:81-93; [envs k] is what the [k]-th
    request meets. *)
Fixpoint http_conn (fuel : nat) (g : hcfg) (envs : nat -> henv) (s : cst) : option (res Z) * cst :=
  match fuel with
  | O => (Some Fuel, s)
  | S f =>
      match http_turn g (envs O) s with
      | (Some (Ok r), s1) => if r =? 0 then http_conn f g (fun k => envs (S k)) s1 else (Some (Ok r), s1)
      | e => e
      end
  end.
(** A connection just accepted. *)
Definition cst0 (t : transport) : cst := mkcs t None (mksk [] None 0) [] [].
