(** Starting the process: main (src/main/sps_main_sps.cpp), the configuration
    file (src/io/url/sps_io_url_file.cpp), the transport of a server
    (src/module/server/), and the certificate of a TLS connection
    (src/sys/st/io/sps_sys_st_io_ssl.cpp, src/module/host/). *)
From Verif Require Import Base M_Text M_Url M_Conf M_Host M_IO M_Tls.

(** ** The configuration file *)
(** What the file system holds under a name that can be read: the text, and
    whether the process may write it. *)
Record fent := mkfe { fe_text : list Z; fe_writable : bool }.
Definition fsys := list Z -> option fent.
(** FileURLProtocol::open, sps_io_url_file.cpp:44-64, as created by the factory
    (:124-126, neither trunc nor append): opened for reading and writing, never
    created. *)
Definition file_open (fs : fsys) (name : list Z) : res (list Z) :=
  match fs name with
  | Some f => if fe_writable f then Ok (fe_text f) else Err ERROR_FILE_OPEN
  | None => Err ERROR_FILE_OPEN
  end.
(** The registered protocols, src/install/sps_install_url_protocols.cpp:34-39,
    and UrlProtocol::create, src/io/url/sps_io_url_protocol.cpp:48-73: [None] is
    the null pointer. *)
Definition url_schemas : list (list Z) := [str "http"; str "file"; str "rtmp"].
Definition url_create (lib : url_lib) (url : list Z) : res (option (list Z)) :=
  match url_from lib url with
  | (Ok c, r) => Ok (if (c =? 0) && existsb (eqb_list (rq_schema r)) url_schemas then Some (rq_schema r) else None)
  | (Err c, _) => Ok None
  | (UB, _) => UB
  | (Fuel, _) => Fuel
  end.
(** init_config, sps_main_sps.cpp:40-65.  Simplification: a library that takes
    "file://..." for an http or rtmp URL is not followed any further. *)
Definition init_config (lib : url_lib) (fs : fsys) (name : list Z) : res cmod :=
  let? p := url_create lib (str "file://" ++ name) in
  match p with
  | None => Err ERROR_URL_PROTOCOL_NOT_EXISTS
  | Some s => if eqb_list s (str "file") then let? text := file_open fs name in load_conf text
              else Err ERROR_URL_PROTOCOL_NOT_EXISTS
  end.
(** main, :72-97.  [st_init]: what ICoFactory::init returns (0, or -1);
    [can_listen] as in M_Host.v.  The result: the listening servers, while the
    process sleeps forever, or the value main returns. *)
Definition sps_main (lib : url_lib) (fs : fsys) (st_init : Z) (can_listen : Z -> res unit) (argv : list (list Z))
  : res (list listener) :=
  match argv with
  | _ :: name :: _ =>
      let? root := init_config lib fs name in
      if st_init =? 0 then install can_listen root else Err st_init
  | _ => Err (-1)
  end.
(** The exit status the parent process sees: the low byte of what main returns
    or exit(-1) gives; [None] while it runs or where the outcome is undefined. *)
Definition exit_status {A} (r : res A) : option Z :=
  match r with
  | Err c => Some ((if c =? CONF_EXIT then -1 else c) mod 256)
  | _ => None
  end.

(** ** Transport *)
Inductive tkind := TkTcp | TkSrt | TkTls.
(** ServerModule::install, src/module/server/sps_server_module.cpp:136-147
    (built with SRT and OpenSSL). *)
Definition transport_of (s : cmod) : tkind :=
  let t := opt_str s (str "transport") in
  let k := if eqb_list t (str "srt") then TkSrt else TkTcp in
  if eqb_list t (str "https") then TkTls else k.
(** ServerSocketFactory::create_ss, src/io/sps_io_socket.cpp:208-230, and the
    accepting sides: what the connection handler finds behind the socket. *)
Inductive iokind := IoTcp | IoSrt | IoTls.
Definition io_of (t : tkind) : iokind := match t with TkTcp => IoTcp | TkSrt => IoSrt | TkTls => IoTls end.
(** SrtPrepareHandler::handler, src/module/srt/sps_srt_server_handler.cpp:111-130:
    a connection that is no SRT connection has no stream id. *)
Definition srt_prepare (lib : url_lib) (io : iokind) (streamid : list Z) : res ureq :=
  match io with
  | IoSrt => let? r := srt_req lib streamid in match r with Some q => Ok q | None => Err ERROR_SRT_STREAM_ID end
  | _ => Err ERROR_IO_EOF
  end.

(** ** Listening *)
(** What the operating system and the SRT library answer; [k_bind]: to bind with
    a 16-bit port; [k_srtbind]: to srt_bind with an address of that length. *)
Record kern := mkk { k_sock : bool; k_open : bool; k_reuseaddr : bool; k_reuseport : bool; k_bind : Z -> bool; k_listen : bool;
                     k_srtnew : bool; k_acquire : bool; k_srtbind : Z -> bool; k_srtlisten : bool }.
(** st_tcp_listen with st_tcp_create_fd, src/sys/st/io/sps_sys_st_io_tcp.cpp:70-82
    and :94-136: the port bound on all addresses (htons takes the low 16 bits of
    the int); the address given is not used. *)
Definition tcp_listen (k : kern) (reuse : bool) (port : Z) : res Z :=
  if negb (k_sock k) then Err ERROR_SOCKET_CREATE else
  if negb (k_open k) then Err ERROR_ST_OPEN_SOCKET else
  if negb (k_reuseaddr k) then Err ERROR_SOCKET_SETREUSE else
  if reuse && negb (k_reuseport k) then Err ERROR_SOCKET_SETREUSE else
  if negb (k_bind k (u16 port)) then Err ERROR_SOCKET_BIND else
  if negb (k_listen k) then Err ERROR_SOCKET_LISTEN else Ok (u16 port).
(** st_srt_listen with StSrtServerSocket::listen, sps_sys_st_io_srt.cpp:269-328 and
    :771-780: a UDP socket handed to the library; when that fails and reuse_port
    is off, srt_bind, whose length argument is the value of
    [sizeof(self_addr) == SRT_ERROR], 0 (:315-316). *)
Definition srt_listen (k : kern) (reuse : bool) (port : Z) : res Z :=
  if negb (k_srtnew k) then Err ERROR_ST_OPEN_SOCKET else
  let handed := k_sock k && (negb reuse || (k_reuseaddr k && k_reuseport k)) && k_bind k (u16 port) && k_acquire k in
  let done := if k_srtlisten k then Ok (u16 port) else Err ERROR_SRT_SOCKET_LISTEN in
  if handed then done
  else if reuse then Err ERROR_SRT_SOCKET_CREATE
  else if k_srtbind k 0 then done else Err ERROR_SRT_SOCKET_BIND.
(** ServerSocketFactory::create_ss and listen of the three transports; TLS listens
    on TCP and then starts its acceptor (sps_sys_st_io_ssl.cpp:515-522), which
    is taken to succeed. *)
Definition listen_on (k : kern) (s : cmod) (port : Z) : res Z :=
  match transport_of s with
  | TkSrt => srt_listen k (opt_bool s (str "reuse_port")) port
  | _ => tcp_listen k (opt_bool s (str "reuse_port")) port
  end.

(** ** Certificates *)
(** OpenSSL: whether a certificate or an RSA key can be loaded from a file, and
    whether a certificate and a key belong together. *)
Record certlib := mkcl { cl_crt : list Z -> bool; cl_key : list Z -> bool; cl_pair : list Z -> list Z -> bool }.
(** What a connection has loaded. *)
Record loaded := mkld { ld_crt : option (list Z); ld_key : option (list Z) }.
Definition ld_none : loaded := mkld None None.
(** SSL_check_private_key needs both. *)
Definition ld_check (L : certlib) (s : loaded) : bool :=
  match ld_crt s, ld_key s with Some c, Some k => cl_pair L c k | _, _ => false end.
(** SSLConfig, src/sys/st/io/sps_sys_st_io_ssl.hpp:52-56; the host name is only
    used by clients. *)
Record sslconf := mksc { sc_crt : list Z; sc_key : list Z }.
(** do_ssl_verify, sps_sys_st_io_ssl.cpp:364-386. *)
Definition ssl_verify (L : certlib) (c : sslconf) (s : loaded) : res unit * loaded :=
  match sc_crt c with
  | _ :: _ =>
      if cl_crt L (sc_crt c) then
        let s1 := mkld (Some (sc_crt c)) (ld_key s) in
        match sc_key c with
        | _ :: _ => if cl_key L (sc_key c) then
                      let s2 := mkld (ld_crt s1) (Some (sc_key c)) in
                      (if ld_check L s2 then Ok tt else Err ERROR_SSL_HANDSHAKE, s2)
                    else (Err ERROR_SSL_HANDSHAKE, s1)
        | [] => (if ld_check L s1 then Ok tt else Err ERROR_SSL_HANDSHAKE, s1)
        end
      else (Err ERROR_SSL_HANDSHAKE, s)
  | [] =>
      match sc_key c with
      | _ :: _ => if cl_key L (sc_key c) then
                    let s2 := mkld (ld_crt s) (Some (sc_key c)) in
                    (if ld_check L s2 then Ok tt else Err ERROR_SSL_HANDSHAKE, s2)
                  else (Err ERROR_SSL_HANDSHAKE, s)
      | [] => (if ld_check L s then Ok tt else Err ERROR_SSL_HANDSHAKE, s)
      end
  end.
(** HostModulesRouter::search, src/module/host/sps_host_module.cpp:243-259. *)
Definition cert_search (r : hrouter) (name : list Z) : res sslconf :=
  match find_host r name with
  | None => Err ERROR_SSL_CERT_NOT_FOUND
  | Some h =>
      let c := mksc (opt_str h (str "ssl_crt_file")) (opt_str h (str "ssl_key_file")) in
      if (zlen (sc_key c) =? 0) || (zlen (sc_crt c) =? 0) then Err ERROR_SSL_CERT_NOT_FOUND else Ok c
  end.
(** ssl_servername_callback, sps_sys_st_io_ssl.cpp:48-72: whether the name is
    acknowledged, and what is loaded then.  The handshake goes on in any case. *)
Definition sni_callback (L : certlib) (r : hrouter) (name : option (list Z)) (s : loaded) : bool * loaded :=
  match name with
  | None => (false, s)
  | Some n =>
      match cert_search r n with
      | Ok c => let '(x, s1) := ssl_verify L c s in (match x with Ok _ => true | _ => false end, s1)
      | _ => (false, s)
      end
  end.
(** The TLS settings of a listening socket: configuration and certificate
    search.  StSSLServerSocket is created with neither (:504-508); only
    HttpModule::install calls post_install (src/module/http/sps_http_module.cpp:105,
    sps_server_module.cpp:186-210, Server::init_ssl, sps_server.cpp:58-67). *)
Definition tls_settings (l : listener) : sslconf * option hrouter :=
  match ls_proto l with
  | PHttp => (mksc (opt_str (sv_conf (ls_server l)) (str "ssl_crt_file")) (opt_str (sv_conf (ls_server l)) (str "ssl_key_file")),
              Some (ls_router l))
  | _ => (mksc [] [], None)
  end.
(** The beginning of StSSLSocket::accept, sps_sys_st_io_ssl.cpp:196-215, and the
    callback when the client's first message is in: the result before the
    handshake starts, and what is loaded when the server answers.  [name]: the
    server name the client sends, if any. *)
Definition tls_cert (L : certlib) (l : listener) (name : option (list Z)) : res unit * loaded :=
  let '(c, search) := tls_settings l in
  match search with
  | Some r => (Ok tt, snd (sni_callback L r name ld_none))
  | None => ssl_verify L c ld_none
  end.
(** A certificate can be shown only together with its key. *)
Definition shown (L : certlib) (s : loaded) : option (list Z * list Z) :=
  match ld_crt s, ld_key s with Some c, Some k => if cl_pair L c k then Some (c, k) else None | _, _ => None end.
