(** An edge that pulls a stream over HTTP: StreamEdge::handler
    (src/module/stream/sps_stream_edge.cpp:45-81) with HttpUrlProtocol
    (src/io/url/sps_io_url_http.cpp) as its io and a demuxer on top.  Layers are
    programs over "read at most n bytes" (M_Https.v). *)
From Verif Require Import Base M_Text M_IO M_Packet M_Conf M_Url M_Host M_Http M_Https M_Stream.

(** HttpUrlProtocol::read_chunked_data, sps_io_url_http.cpp:177-204; see [up_data]
    in M_Http.v. *)
Definition upd_prog (b : hbody) (size : Z) : prog (res (list Z) * hbody) :=
  let size := Z.min (hb_left b) size in
  let b1 := hb_set_left b (u64 (hb_left b - size)) in
  if size =? 0 then ct_prog b1 [] else
  pbind (read_fully_prog size) (fun r =>
    match r with
    | Ok d => ct_prog b1 d
    | Err c => PRet (Err c, b1) | UB => PRet (UB, b1) | Fuel => PRet (Fuel, b1)
    end).
(** HttpUrlProtocol::read_chunked, :127-143, with read_chunked_length, :145-175, and
    HttpUrlProtocol::read, :99-125. *)
Definition upc_prog (b : hbody) (size : Z) : prog (res (list Z) * hbody) :=
  if hb_left b =? 0 then
    pbind (rcl_prog b) (fun x =>
      match x with
      | (Ok _, b1) => upd_prog b1 size
      | (Err c, b1) => PRet (Err c, b1) | (UB, b1) => PRet (UB, b1) | (Fuel, b1) => PRet (Fuel, b1)
      end)
  else upd_prog b size.
Definition up_prog (b : hbody) (size : Z) : prog (res (list Z) * hbody) :=
  if hb_eof b then PRet (Err ERROR_HTTP_RES_EOF, b) else
  if hb_chunked b then upc_prog b size else
  let size := if 0 <=? hb_cl b then Z.min (u64 (hb_cl b - hb_nread b)) size else size in
  PRead size
    (fun d => let n := hb_nread b + zlen d in
       PRet (Ok d, mkhb (hb_chunked b) (hb_cl b) (if 0 <=? hb_cl b then u64 (hb_cl b) <=? n else hb_eof b) n (hb_size b) (hb_left b)))
    (fun c => PRet (Err c, b)).
(** A program that reads the body of an upstream's answer: the demuxer's buffer
    (BytesReader::acquire, src/io/sps_io_bytes.cpp:164-200) reads the url
    protocol directly. *)
Fixpoint over_up {A} (p : prog A) (b : hbody) : prog (res A) :=
  match p with
  | PRet a => PRet (Ok a)
  | PRead n k ke =>
      pbind (up_prog b n) (fun x =>
        match x with
        | (Ok d, b1) => over_up (k d) b1
        | (Err c, b1) => over_up (ke c) b1
        | (UB, _) => PRet UB
        | (Fuel, _) => PRet Fuel
        end)
  end.

(** The request an edge sends, sps_io_url_http.cpp:73-74. *)
Definition pull_text (q : ureq) : list Z := http_request (rq_method q) (rq_url q) (rq_host q) [] (rq_headers q).
(** HttpUrlProtocol::open, sps_io_url_http.cpp:59-97: its result, and the response it
    leaves behind (null if it does not get that far).  [conn]: whether the
    connection can be made; [t]: what the upstream sends; [o]: the connection
    towards it; [lib]: http_parser on a response head. *)
Definition up_open (lib : list Z -> Z * rsp_info) (q : ureq) (conn : bool) (t : transport) (o : sink)
  : res (Z * option rsp_info) * transport * sink :=
  if negb conn then (Ok (ERROR_HTTP_SOCKET_CONNECT, None), t, o) else
  match sk_write o (pull_text q) with
  | (Ok _, o1) =>
      match read_head t MAX_HEADER with
      | (Ok head, t1) =>
          let '(n, ri) := lib head in
          if n <=? 0 then (Ok (n, None), t1, o1) else (Ok (0, Some ri), t1, o1)
      | (Err c, t1) => (Ok (c, None), t1, o1)
      | (UB, t1) => (UB, t1, o1)
      | (Fuel, t1) => (Fuel, t1, o1)
      end
  | (Err c, o1) => (Ok (c, None), t, o1)
  | (UB, o1) => (UB, t, o1)
  | (Fuel, o1) => (Fuel, t, o1)
  end.
(** StreamEdge::handler, sps_stream_edge.cpp:45-81, for an http url: the result; the
    packets put into the stream, if one is made (:71-75); the connection towards
    the upstream.  [decode f]: StreamDecoder::decode
    (src/module/stream/sps_stream.cpp:37-60) with the demuxer of the format [f].  A
    null response is dereferenced at :61, a null demuxer at :72.
    HttpResponse::success, src/module/http/sps_http_parser.cpp:29-31. *)
Definition edge_http (lib : list Z -> Z * rsp_info) (fmts : list (list Z)) (decode : list Z -> prog (list pkt * res unit))
    (q : ureq) (conn : bool) (t : transport) (o : sink) : res Z * option (list pkt) * sink :=
  match up_open lib q conn t o with
  | (Ok (c, r), t1, o1) =>
      if negb (c =? 0) then (Ok c, None, o1) else
      match r with
      | None => (UB, None, o1)
      | Some ri =>
          if negb (ri_status ri =? 200) then (Ok 0, None, o1) else
          match fmt_find fmts (rq_ext q) with
          | Ok (Some f) =>
              match run_plain (over_up (decode f) (hb_new (ri_chunked ri) (ri_cl ri))) t1 with
              | (Ok (Ok (ps, x)), _) =>
                  (match x with Ok _ => Ok 0 | Err e => Ok e | UB => UB | Fuel => Fuel end, Some ps, o1)
              | _ => (UB, None, o1)
              end
          | Ok None => (UB, None, o1)
          | Err e => (Err e, None, o1) | UB => (UB, None, o1) | Fuel => (Fuel, None, o1)
          end
      end
  | (Err c, _, o1) => (Err c, None, o1)
  | (UB, _, o1) => (UB, None, o1)
  | (Fuel, _, o1) => (Fuel, None, o1)
  end.
