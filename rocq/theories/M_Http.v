(** Model of the HTTP layer: head reader, body readers, response writer,
    upstream request, proxy relay, phase handler chain. *)
From Verif Require Import Base M_IO M_Text.

Definition crlf : list Z := [CR; LF].

(** ** Head reader: HttpParser::parse_header(io), src/module/http/sps_http_parser.cpp:133-181 *)

(** [*(p-k)], :153-165, where p is the last byte read; before the buffer: UB. *)
Definition back (buf : list Z) (k : Z) : res Z := of_opt (nthz buf (zlen buf - 1 - k)).

(** The body of the loop after a read, :151-171: [Some n] reads [n] more bytes,
    [None] is the break.  The assignment [state = 4] at :163 is always
    overwritten or followed by the break. *)
Definition head_next (buf : list Z) : res (option Z) :=
  let? c := back buf 0 in
  if negb (c =? LF) && negb (c =? CR) then Ok (Some 4)
  else if c =? CR then
    let? c1 := back buf 1 in
    if c1 =? LF then
      let? c2 := back buf 2 in
      Ok (Some (if c2 =? CR then 1 else 3))
    else Ok (Some 3)
  else
    let? c2 := back buf 2 in
    if negb (c2 =? LF) then
      let? c3 := back buf 3 in
      if negb (c3 =? CR) then Ok (Some 2) else Ok None
    else Ok None.

(** The loop, :137-172.  [Err] carries the (negative) return value. *)
Fixpoint head_loop (fuel : nat) (t : transport) (max state : Z) (buf : list Z)
  : res (list Z) * transport :=
  match fuel with
  | O => (Fuel, t)
  | S f =>
      if max - zlen buf <? state then (Err (-1), t) else
      match read_fully t state with
      | (Ok d, t1) =>
          let buf1 := buf ++ d in
          match head_next buf1 with
          | Ok None => (Ok buf1, t1)
          | Ok (Some n) => head_loop f t1 max n buf1
          | Err c => (Err c, t1) | UB => (UB, t1) | Fuel => (Fuel, t1)
          end
      | (Err c, t1) => (Err (if 0 <? c then - c else c), t1)
      | (UB, t1) => (UB, t1)
      | (Fuel, t1) => (Fuel, t1)
      end
  end.
(** The head as handed to the http_parser library, :180.  Every iteration adds
    at least one byte, so max + 1 iterations suffice. *)
Definition read_head (t : transport) (max : Z) : res (list Z) * transport :=
  head_loop (S (Z.to_nat max)) t max 4 [].
(** The default limit, src/module/http/sps_http_parser.hpp:94. *)
Definition MAX_HEADER : Z := 2048.

(** ** Body readers.
    HttpRequestSocket (sps_http_socket.hpp:51-57) and HttpUrlProtocol
    (src/io/url/sps_io_url_http.hpp:57-64) keep the same fields. *)
Record hbody := mkhb {
  hb_chunked : bool;     (* chunked / rsp->chunked *)
  hb_cl : Z;             (* content_length, an int; -1 is 'no limit' *)
  hb_eof : bool;         (* is_eof *)
  hb_nread : Z;          (* nread *)
  hb_size : Z;           (* nb_chunked_size *)
  hb_left : Z            (* nb_chunked_left *)
}.
Definition hb_new (chunked : bool) (cl : Z) : hbody := mkhb chunked cl false 0 0 0.
Definition hb_set_eof (b : hbody) : hbody :=
  mkhb (hb_chunked b) (hb_cl b) true (hb_nread b) (hb_size b) (hb_left b).
Definition hb_set_left (b : hbody) (n : Z) : hbody :=
  mkhb (hb_chunked b) (hb_cl b) (hb_eof b) (hb_nread b) (hb_size b) n.

(** The byte-wise read of a chunk size line, sps_http_socket.cpp:99-104 and
    sps_io_url_http.cpp:149-154: stops at a newline or after 33 bytes. *)
Fixpoint size_line (fuel : nat) (t : transport) (acc : list Z) : res (list Z) * transport :=
  match fuel with
  | O => (Fuel, t)
  | S f =>
      match t_read t 1 with
      | (Ok d, t1) =>
          let acc1 := acc ++ d in
          if (match d with c :: _ => c =? LF | [] => false end) || (33 <=? zlen acc1)
          then (Ok acc1, t1) else size_line f t1 acc1
      | (Err c, t1) => (Err c, t1) | (UB, t1) => (UB, t1) | (Fuel, t1) => (Fuel, t1)
      end
  end.
(** The checks on the line, sps_http_socket.cpp:110-121, sps_io_url_http.cpp:160-171. *)
Definition size_of_line (l : list Z) : res Z :=
  let i := zlen l in
  let? last := of_opt (nthz l (i - 1)) in
  if negb (last =? LF) then Err ERROR_HTTP_CHUNKED_LENGTH_LARGE else
  if i <? 2 then Err ERROR_HTTP_CHUNKED_INVALID else
  let? c := of_opt (nthz l (i - 2)) in
  if negb (c =? CR) then Err ERROR_HTTP_CHUNKED_INVALID else
  Ok (strtoul16 (take (i - 2) l)).
(** read_chunked_length, sps_http_socket.cpp:95-125 and sps_io_url_http.cpp:145-175. *)
Definition read_chunk_len (b : hbody) (t : transport) : res unit * hbody * transport :=
  match size_line 34 t [] with
  | (Ok l, t1) =>
      match size_of_line l with
      | Ok n => (Ok tt, mkhb (hb_chunked b) (hb_cl b) (hb_eof b) (hb_nread b) n n, t1)
      | Err c => (Err c, b, t1) | UB => (UB, b, t1) | Fuel => (Fuel, b, t1)
      end
  | (Err c, t1) => (Err c, b, t1) | (UB, t1) => (UB, b, t1) | (Fuel, t1) => (Fuel, b, t1)
  end.
(** The end of a chunk, sps_http_socket.cpp:141-153 and
    sps_io_url_http.cpp:191-203: CR LF after the data, and end of body after
    the chunk of size zero. *)
Definition chunk_tail (b : hbody) (t : transport) (d : list Z) : res (list Z) * hbody * transport :=
  let fin b := if hb_size b =? 0 then hb_set_eof b else b in
  if hb_left b =? 0 then
    match read_fully t 2 with
    | (Ok tl, t1) =>
        if eqb_list tl crlf then (Ok d, fin b, t1) else (Err ERROR_HTTP_CHUNKED_INVALID, b, t1)
    | (Err c, t1) => (Err c, b, t1) | (UB, t1) => (UB, b, t1) | (Fuel, t1) => (Fuel, b, t1)
    end
  else (Ok d, fin b, t).

(** HttpRequestSocket::read_chunked_data, sps_http_socket.cpp:127-155: one
    transport read of at most the rest of the chunk. *)
Definition rq_data (b : hbody) (t : transport) (size : Z) : res (list Z) * hbody * transport :=
  let size := Z.min (hb_left b) size in
  if hb_size b =? 0 then chunk_tail b t [] else
  match t_read t size with
  | (Ok d, t1) => chunk_tail (hb_set_left b (u64 (hb_left b - zlen d))) t1 d
  | (Err c, t1) => (Err c, b, t1) | (UB, t1) => (UB, b, t1) | (Fuel, t1) => (Fuel, b, t1)
  end.
(** HttpUrlProtocol::read_chunked_data, sps_io_url_http.cpp:177-204: reads the
    requested amount in full; the remaining count is reduced even on error. *)
Definition up_data (b : hbody) (t : transport) (size : Z) : res (list Z) * hbody * transport :=
  let size := Z.min (hb_left b) size in
  let b1 := hb_set_left b (u64 (hb_left b - size)) in
  if size =? 0 then chunk_tail b1 t [] else
  match read_fully t size with
  | (Ok d, t1) => chunk_tail b1 t1 d
  | (Err c, t1) => (Err c, b1, t1) | (UB, t1) => (UB, b1, t1) | (Fuel, t1) => (Fuel, b1, t1)
  end.
(** read_chunked, sps_http_socket.cpp:77-92 and sps_io_url_http.cpp:127-143. *)
Definition read_chunked (data : hbody -> transport -> Z -> res (list Z) * hbody * transport)
    (b : hbody) (t : transport) (size : Z) : res (list Z) * hbody * transport :=
  if hb_left b =? 0 then
    match read_chunk_len b t with
    | (Ok _, b1, t1) => data b1 t1 size
    | (Err c, b1, t1) => (Err c, b1, t1)
    | (UB, b1, t1) => (UB, b1, t1)
    | (Fuel, b1, t1) => (Fuel, b1, t1)
    end
  else data b t size.
(** HttpRequestSocket::read, sps_http_socket.cpp:45-71, and
    HttpUrlProtocol::read, sps_io_url_http.cpp:99-125.  [content_length - nread]
    is computed in size_t. *)
Definition hb_read (data : hbody -> transport -> Z -> res (list Z) * hbody * transport)
    (b : hbody) (t : transport) (size : Z) : res (list Z) * hbody * transport :=
  if hb_eof b then (Err ERROR_HTTP_RES_EOF, b, t) else
  if hb_chunked b then read_chunked data b t size else
  let size := if 0 <=? hb_cl b then Z.min (u64 (hb_cl b - hb_nread b)) size else size in
  match t_read t size with
  | (Ok d, t1) =>
      let n := hb_nread b + zlen d in
      (Ok d, mkhb (hb_chunked b) (hb_cl b) (if 0 <=? hb_cl b then u64 (hb_cl b) <=? n else hb_eof b)
                  n (hb_size b) (hb_left b), t1)
  | (Err c, t1) => (Err c, b, t1) | (UB, t1) => (UB, b, t1) | (Fuel, t1) => (Fuel, b, t1)
  end.
Definition rq_read := hb_read rq_data.
Definition up_read := hb_read up_data.

(** A caller that reads with the buffer sizes [sizes] until the first error. *)
Fixpoint hb_run data (b : hbody) (t : transport) (sizes : list Z)
  : list (list Z) * res unit * hbody * transport :=
  match sizes with
  | [] => ([], Ok tt, b, t)
  | n :: ns =>
      match hb_read data b t n with
      | (Ok d, b1, t1) => let '(ds, e, b2, t2) := hb_run data b1 t1 ns in (d :: ds, e, b2, t2)
      | (Err c, b1, t1) => ([], Err c, b1, t1)
      | (UB, b1, t1) => ([], UB, b1, t1)
      | (Fuel, b1, t1) => ([], Fuel, b1, t1)
      end
  end.

(** ** Response writer *)

(** The sending side of a socket: bytes sent and number of further writes the
    peer accepts before [sk_err] ([None]: it never fails).  StTcpSocket::write of zero bytes fails
    (src/sys/st/io/sps_sys_st_io_tcp.cpp:303-316). *)
Record sink := mksk { sk_out : list Z; sk_room : option nat; sk_err : Z }.
Definition sk_write (s : sink) (d : list Z) : res unit * sink :=
  match sk_room s with
  | Some O => (Err (sk_err s), s)
  | r => if zlen d =? 0 then (Err ERROR_SOCKET_WRITE, s)
         else (Ok tt, mksk (sk_out s ++ d) (option_map pred r) (sk_err s))
  end.

(** HttpResponseSocket, sps_http_socket.hpp:70-75. *)
Record hrsp := mkhr {
  hr_status : Z; hr_sent : bool; hr_cl : Z; hr_chunked : bool; hr_headers : list kv
}.
(** HttpResponseSocket::init, sps_http_socket.cpp:163-173; a null header list
    keeps the old one. *)
Definition hr_init (h : hrsp) (status : Z) (hd : option (list kv)) (cl : Z) (ch : bool) : hrsp :=
  mkhr status false cl ch (match hd with Some l => l | None => hr_headers h end).
(** A header line [key: value CRLF], sps_http_socket.cpp:198, sps_io_url_http.cpp:48. *)
Definition header_line (h : kv) : list Z := fst h ++ str ": " ++ snd h ++ crlf.
(** The text of write_header, :180-205; [reason] is http_status_str of the
    http_parser library. *)
Definition response_head (reason : Z -> list Z) (h : hrsp) : list Z :=
  let content_sent := negb (hr_chunked h) && (0 <=? hr_cl h) in
  str "HTTP/1.1 " ++ decs (hr_status h) ++ str " " ++ reason (hr_status h) ++ crlf ++
  (if hr_chunked h then str "Transfer-Encoding: chunked" ++ crlf
   else if 0 <=? hr_cl h then str "Content-Length: " ++ decs (hr_cl h) ++ crlf else []) ++
  flat_map (fun kv => if eqb_list (fst kv) (str "Content-Length") && content_sent then []
                      else header_line kv) (hr_headers h) ++
  (if existsb (fun kv => eqb_list (fst kv) (str "Server")) (hr_headers h) then []
   else str "Server: sps" ++ crlf) ++ crlf.
(** HttpResponseSocket::write_header, :175-215; the flag is set before the
    write. *)
Definition hr_write_header (reason : Z -> list Z) (h : hrsp) (s : sink) : res unit * hrsp * sink :=
  let '(r, s1) := sk_write s (response_head reason h) in
  (r, mkhr (hr_status h) true (hr_cl h) (hr_chunked h) (hr_headers h), s1).
(** HttpResponseSocket::write, :217-258. *)
Definition hr_body (h : hrsp) (s : sink) (d : list Z) : res unit * sink :=
  match (if hr_chunked h then sk_write s (hexs (zlen d) ++ crlf) else (Ok tt, s)) with
  | (Ok _, s1) =>
      match (if 0 <? zlen d then sk_write s1 d else (Ok tt, s1)) with
      | (Ok _, s2) => if hr_chunked h then sk_write s2 crlf else (Ok tt, s2)
      | e => e
      end
  | e => e
  end.
Definition hr_write (reason : Z -> list Z) (h : hrsp) (s : sink) (d : list Z)
  : res unit * hrsp * sink :=
  if hr_sent h then let '(r, s1) := hr_body h s d in (r, h, s1) else
  match hr_write_header reason h s with
  | (Ok _, h1, s1) => let '(r, s2) := hr_body h1 s1 d in (r, h1, s2)
  | e => e
  end.
(** A caller that writes the buffers [ds] and stops at the first error. *)
Fixpoint hr_writes (reason : Z -> list Z) (h : hrsp) (s : sink) (ds : list (list Z))
  : res unit * hrsp * sink :=
  match ds with
  | [] => (Ok tt, h, s)
  | d :: ds' =>
      match hr_write reason h s d with
      | (Ok _, h1, s1) => hr_writes reason h1 s1 ds'
      | e => e
      end
  end.

(** ** Upstream request: http_request, src/io/url/sps_io_url_http.cpp:38-56.
    [data] only contributes its size. *)
Definition http_request (method url host data : list Z) (headers : list kv) : list Z :=
  method ++ str " " ++ url ++ str " HTTP/1.1" ++ crlf ++
  str "Host: " ++ host ++ crlf ++
  flat_map (fun h => if eqb_list (fst h) (str "Host") then [] else header_line h) headers ++
  str "Accept: */" ++ crlf ++
  str "Content-Length: " ++ decs (zlen data) ++ crlf ++
  crlf.

(** ** Proxy: HttpProxyPhaseHandler::handler,
    src/module/http/sps_http_proxy_phase_handler.cpp:44-97 *)

(** HttpResponse as filled by parse_response, sps_http_parser.cpp:96-109; the
    64-bit Content-Length of the library (all ones when absent) becomes an int. *)
Record rsp_info := mkri { ri_status : Z; ri_cl : Z; ri_chunked : bool; ri_headers : list kv }.
Definition rsp_of_lib (status cl64 : Z) (te : bool) (hd : list kv) : rsp_info :=
  mkri status (s32 cl64) te hd.

(** The relay loop, :85-92, with its 1024 byte buffer. *)
Fixpoint relay (fuel : nat) (reason : Z -> list Z) (b : hbody) (up : transport) (h : hrsp) (s : sink)
  : res unit * transport * sink :=
  match fuel with
  | O => (Fuel, up, s)
  | S f =>
      match up_read b up 1024 with
      | (Ok d, b1, up1) =>
          match hr_write reason h s d with
          | (Ok _, h1, s1) => relay f reason b1 up1 h1 s1
          | (r, _, s1) => (r, up1, s1)
          end
      | (Err c, _, up1) => (Err c, up1, s)
      | (UB, _, up1) => (UB, up1, s)
      | (Fuel, _, up1) => (Fuel, up1, s)
      end
  end.
(** The phase result [Ok 1] is SPS_PHASE_SUCCESS_NO_CONTINUE.  [lib] is the
    http_parser library applied to the response head: consumed count and
    parsed fields.  [rq] is the client's request, [up] what the upstream sends,
    [ups] the connection to it.  The client's own socket is only written. *)
Record proxy_req := mkpq { pq_method : list Z; pq_url : list Z; pq_host : list Z; pq_headers : list kv }.
Definition proxy (reason : Z -> list Z) (lib : list Z -> Z * rsp_info) (rq : proxy_req)
    (up : transport) (ups : sink) (client : sink) : res Z * transport * sink * sink :=
  match sk_write ups (http_request (pq_method rq) (pq_url rq) (pq_host rq) [] (pq_headers rq)) with
  | (Ok _, ups1) =>
      match read_head up MAX_HEADER with
      | (Ok head, up1) =>
          let '(parsed, ri) := lib head in
          if parsed <? 0 then (Err parsed, up1, ups1, client) else
          (* open returns 0 = SUCCESS without a response: null pointer at :71 *)
          if parsed =? 0 then (UB, up1, ups1, client) else
          let h := hr_init (mkhr 200 false 0 false []) (ri_status ri) (Some (ri_headers ri))
                     (ri_cl ri) (ri_chunked ri) in
          match hr_write_header reason h client with
          | (Ok _, h1, c1) =>
              match relay (S (S (length (concat (t_chunks up1))))) reason (hb_new (ri_chunked ri) (ri_cl ri)) up1 h1 c1 with
              | (Err c, up2, c2) =>
                  (if c =? ERROR_HTTP_RES_EOF then Ok 1 else Err c, up2, ups1, c2)
              | (Ok _, up2, c2) => (Ok 1, up2, ups1, c2)
              | (UB, up2, c2) => (UB, up2, ups1, c2)
              | (Fuel, up2, c2) => (Fuel, up2, ups1, c2)
              end
          | (Err c, _, c1) => (Err c, up1, ups1, c1)
          | (UB, _, c1) => (UB, up1, ups1, c1)
          | (Fuel, _, c1) => (Fuel, up1, ups1, c1)
          end
      | (Err c, up1) => (Err c, up1, ups1, client)
      | (UB, up1) => (UB, up1, ups1, client)
      | (Fuel, up1) => (Fuel, up1, ups1, client)
      end
  | (Err c, ups1) => (Err c, up, ups1, client)
  | (UB, ups1) => (UB, up, ups1, client)
  | (Fuel, ups1) => (Fuel, up, ups1, client)
  end.

(** ** Phase handler chain *)
Definition PHASE_CONTINUE : Z := 0.   (* src/module/server/sps_server_handler.hpp:32 *)
Definition PHASE_NO_CONTINUE : Z := 1. (* :33 *)

(** ServerPhaseHandler::handler, src/module/server/sps_server_handler.cpp:49-68,
    over handlers that act on a state; [log] collects the positions invoked.
    A handler that never returns a value (crash) is [UB]. *)
Fixpoint chain {S} (hs : list (S -> res Z * S)) (s : S) (ret : Z) : res Z * S :=
  match hs with
  | [] => (Ok ret, s)
  | h :: hs' =>
      match h s with
      | (Ok r, s1) =>
          if r =? PHASE_NO_CONTINUE then (Ok 0, s1)
          else if r =? PHASE_CONTINUE then chain hs' s1 r
          else (Ok r, s1)
      | (e, s1) => (e, s1)
      end
  end.

(** Connection::handler, sps_server_handler.cpp:81-93: the chain is repeated
    until it fails. *)
Fixpoint conn_loop {S} (fuel : nat) (hs : list (S -> res Z * S)) (s : S) : res Z * S :=
  match fuel with
  | O => (Fuel, s)
  | Datatypes.S f =>
      match chain hs s 0 with
      | (Ok r, s1) => if r =? 0 then conn_loop f hs s1 else (Ok r, s1)
      | e => e
      end
  end.

(** ** The HTTP server's connection: parse phase and router phase
    (installed by HttpModule::install, src/module/http/sps_http_module.cpp:91-95). *)
Record hconn := mkhc {
  hc_in : transport;               (* what the client sends *)
  hc_ctx : option (list Z);        (* connection context: the request head parsed last *)
  hc_served : list (list Z)        (* request heads handed to the host handler *)
}.
(** HttpParsePhaseHandler::handler, src/module/http/sps_http_phase_handler.cpp:37-58.
    [exec] is http_parser_execute: number of bytes consumed.  The context keeps
    the head the request was parsed from. *)
Definition parse_phase (exec : list Z -> Z) (c : hconn) : res Z * hconn :=
  match read_head (hc_in c) MAX_HEADER with
  | (Ok head, t1) =>
      let ret := exec head in
      if ret <=? 0 then (Ok ret, mkhc t1 (hc_ctx c) (hc_served c))
      else (Ok PHASE_CONTINUE, mkhc t1 (Some head) (hc_served c))
  | (Err e, t1) => (Ok e, mkhc t1 (hc_ctx c) (hc_served c))
  | (UB, t1) => (UB, mkhc t1 (hc_ctx c) (hc_served c))
  | (Fuel, t1) => (Fuel, mkhc t1 (hc_ctx c) (hc_served c))
  end.
(** HostRouterPhaseHandler::handler, src/module/host/sps_host_router_handler.cpp:39-53:
    dereferences the context; then the host or 404 handler runs.  [serve] is
    its result for a request head; it does not read the client's socket (true
    of the proxy, the 404 page, the API stub and of playing; publishing reads
    the body). *)
Definition router_phase (serve : list Z -> Z) (c : hconn) : res Z * hconn :=
  match hc_ctx c with
  | None => (UB, c)
  | Some head => (Ok (serve head), mkhc (hc_in c) (hc_ctx c) (hc_served c ++ [head]))
  end.
Definition http_server (exec serve : list Z -> Z) : list (hconn -> res Z * hconn) :=
  [parse_phase exec; router_phase serve].
