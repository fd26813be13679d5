(** Model of virtual hosts and servers: src/module/host/, src/module/server/
    and the install functions of the http, rtmp and srt modules. *)
From Verif Require Import Base M_Text M_Url M_Conf.

(** ** HostModulesRouter, src/module/host/sps_host_module.hpp:116-143 *)
Definition hmap := list (list Z * cmod).
Fixpoint hm_find (k : list Z) (l : hmap) : option cmod :=
  match l with
  | [] => None
  | h :: l' => if eqb_list (fst h) k then Some (snd h) else hm_find k l'
  end.
Definition hm_count (k : list Z) (l : hmap) : bool := match hm_find k l with Some _ => true | None => false end.
Record hrouter := mkrt { rt_exact : hmap; rt_wild : hmap; rt_default : option cmod }.
Definition rt_new : hrouter := mkrt [] [] None.
(** get_wildcard_host, sps_host_module.cpp:148-160. *)
Definition wildcard_key (host : list Z) : list Z :=
  match find_char 46 host with None => [] | Some n => rev (drop n host) end.
(** [module_name[i]]; the character after the last is NUL. *)
Definition name_at (n : list Z) (i : nat) : Z := nth i n 0.
(** register_host, :162-195.  (An empty name reads its terminating NUL.) *)
Definition register_host (r : hrouter) (h : cmod) : res hrouter :=
  let n := cm_name h in
  if negb (name_at n 0 =? 42) then
    if hm_count n (rt_exact r) then Err ERROR_CONFIG_PARSE_INVALID
    else Ok (mkrt (rt_exact r ++ [(n, h)]) (rt_wild r) (rt_default r))
  else if name_at n 1 =? 0 then
    match rt_default r with
    | Some _ => Err ERROR_CONFIG_PARSE_INVALID
    | None => Ok (mkrt (rt_exact r) (rt_wild r) (Some h))
    end
  else if negb (name_at n 1 =? 46) || (name_at n 2 =? 0) then Err ERROR_CONFIG_PARSE_INVALID
  else
    let k := wildcard_key n in
    if hm_count k (rt_wild r) then Err ERROR_CONFIG_PARSE_INVALID
    else Ok (mkrt (rt_exact r) (rt_wild r ++ [(k, h)]) (rt_default r)).
(** find_host, :197-214. *)
Definition find_host (r : hrouter) (host : list Z) : option cmod :=
  match hm_find host (rt_exact r) with
  | Some h => Some h
  | None =>
      match rt_wild r with
      | [] => rt_default r
      | _ => match hm_find (wildcard_key host) (rt_wild r) with
             | Some h => Some h
             | None => rt_default r
             end
      end
  end.
(** merge, :216-240: the receiver after the call and the result; nothing calls it. *)
Fixpoint hm_merge (a b : hmap) : hmap * res unit :=
  match b with
  | [] => (a, Ok tt)
  | h :: b' => if hm_count (fst h) a then (a, Err ERROR_CONFIG_PARSE_INVALID) else hm_merge (a ++ [h]) b'
  end.
Definition rt_merge (r o : hrouter) : hrouter * res unit :=
  match rt_default r, rt_default o with
  | Some _, Some _ => (r, Err ERROR_CONFIG_PARSE_INVALID)
  | _, _ =>
      match hm_merge (rt_exact r) (rt_exact o) with
      | (e, Ok _) =>
          let '(w, x) := hm_merge (rt_wild r) (rt_wild o) in (mkrt e w (rt_default r), x)
      | (e, x) => (mkrt e (rt_wild r) (rt_default r), x)
      end
  end.
(** ServerModule::get_router, src/module/server/sps_server_module.cpp:45-57. *)
Fixpoint register_all (r : hrouter) (hs : list cmod) : res hrouter :=
  match hs with [] => Ok r | h :: hs' => let? r1 := register_host r h in register_all r1 hs' end.
Definition get_router (hs : list cmod) : res hrouter := register_all rt_new hs.

(** ** Host settings, sps_host_module.cpp:74-146 *)
Inductive htype := TStreaming | TProxying | TApi.
(** string_hostype, :31-41. *)
Definition host_type (t : list Z) : htype :=
  if eqb_list t (str "stream") then TStreaming else if eqb_list t (str "api") then TApi else TProxying.
(** is_streaming, :88-91, and is_api, :93-96. *)
Definition is_streaming (h : cmod) : bool :=
  match host_type (opt_str h (str "type")) with TStreaming => true | _ => false end.
Definition is_api (h : cmod) : bool :=
  match host_type (opt_str h (str "type")) with TStreaming => true | _ => false end.
(** support_publish, :98-102. *)
Definition support_publish (h : cmod) (fmt : list Z) : bool :=
  eqb_list (opt_str h (str "edge_avformat")) (str "all") || eqb_list (opt_str h (str "edge_avformat")) fmt.
(** edge, :83-86. *)
Definition is_edge (h : cmod) : bool := eqb_list (opt_str h (str "role")) (str "edge").
(** The upstream of a host: its last sub module of that type
    (post_sub_module, :57-66). *)
Fixpoint last_upstream (subs : list cmod) (d : option cmod) : option cmod :=
  match subs with
  | [] => d
  | m :: l => last_upstream l (if is_ty (cm_type m) (str "upstream") then Some m else d)
  end.
(** get_proxy_info, :134-146: address and port; [port0] is what the caller
    passes.  Upstreams declared outside the host are not looked up:
    UpStreamModules::get (src/module/upstream/sps_upstream_module.cpp:40-43)
    has no caller. *)
Definition proxy_info (h : cmod) (port0 : Z) : list Z * Z :=
  let proxy := match last_upstream (cm_subs h) None with
               | Some u => opt_str u (str "server")
               | None => opt_str h (str "pass_proxy")
               end in
  match find_char 58 proxy with
  | Some n => (take n proxy, atoi (drop (n + 1) proxy))
  | None => (proxy, port0)
  end.
(** HttpAdapterPhaseHandler::handler,
    src/module/http/sps_http_adapter_phase_handler.cpp:39-48. *)
Inductive http_action := AStream | AApi | AProxy | A404.
Definition adapter (h : cmod) : http_action :=
  if is_streaming h then AStream else if is_api h then AApi else AProxy.

(** ** Servers *)
Inductive proto := PHttp | PRtmp | PSrt.
(** A ServerModule: its configuration and host_modules. *)
Record server := mksv { sv_conf : cmod; sv_hosts : list cmod }.
Definition sv_port (s : server) : Z := opt_int (sv_conf s) (str "listen_port").
(** An installed server: listening port, protocol, router of its handler
    (never changed again), and its module. *)
Record listener := mkls { ls_port : Z; ls_proto : proto; ls_router : hrouter; ls_server : server }.
(** ServerModule::server_modules is one map for all protocols, keyed by the
    port (sps_server_module.cpp:31-43). *)
Fixpoint get_server (port : Z) (ls : list listener) : option listener :=
  match ls with
  | [] => None
  | l :: ls' => if ls_port l =? port then Some l else get_server port ls'
  end.
(** merge_server, :212-219: the hosts join the module, not the router. *)
Fixpoint merge_server (port : Z) (hs : list cmod) (ls : list listener) : list listener :=
  match ls with
  | [] => []
  | l :: ls' => if ls_port l =? port
                then mkls (ls_port l) (ls_proto l) (ls_router l) (mksv (sv_conf (ls_server l)) (sv_hosts (ls_server l) ++ hs)) :: ls'
                else l :: merge_server port hs ls'
  end.
(** One iteration of HttpModule::install (sps_http_module.cpp:66-114),
    RtmpModule::install (sps_rtmp_module.cpp:68-110) or SrtModule::install
    (sps_srt_module.cpp:70-109).  [can_listen] is whether the operating system
    lets the port be opened (Server::listen); its error is [Err code].
    Simplification: the transport and the TLS setup are left out. *)
Definition install_server (can_listen : Z -> res unit) (pr : proto) (s : server) (ls : list listener)
  : res (list listener) :=
  match get_server (sv_port s) ls with
  | Some _ => Ok (merge_server (sv_port s) (sv_hosts s) ls)
  | None =>
      let? hr := get_router (sv_hosts s) in
      let? _ := can_listen (sv_port s) in
      Ok (ls ++ [mkls (sv_port s) pr hr s])
  end.
Fixpoint install_servers can_listen pr (ss : list server) (ls : list listener) : res (list listener) :=
  match ss with
  | [] => Ok ls
  | s :: ss' => let? ls1 := install_server can_listen pr s ls in install_servers can_listen pr ss' ls1
  end.

(** ** The root module *)
Definition subs_of (ty : list Z) (m : cmod) : list cmod := filter (fun s => is_ty (cm_type s) ty) (cm_subs m).
(** The hosts of all globalhost blocks, ServerModule::merge and merge_global,
    sps_server_module.cpp:78-124. *)
Definition global_hosts (root : cmod) : list cmod := flat_map (fun g => subs_of (str "host") g) (subs_of (str "globalhost") root).
(** The servers of a block after IModule::post_conf of the root
    (sps_module.cpp:58-72) merged the global hosts [n] times. *)
Definition servers_of (root blk : cmod) (n : nat) : list server :=
  map (fun s => mksv s (subs_of (str "host") s ++ concat (repeat (global_hosts root) n))) (subs_of (str "server") blk).
(** HttpModule::http_servers is static (sps_http_module.cpp:34): with several
    http blocks each of them merges into, and installs, the servers of all.
    Installing a server a second time inserts the range of a vector into that
    vector (sps_server_module.cpp:216-219): undefined unless it is empty. *)
Definition http_servers (root : cmod) : list server :=
  let blks := subs_of (str "http") root in
  flat_map (fun b => servers_of root b (length blks)) blks.
Definition reinstall (n : nat) (ss : list server) : res unit :=
  match n with
  | O | S O => Ok tt
  | _ => if forallb (fun s => zlen (sv_hosts s) =? 0) ss then Ok tt else UB
  end.
(** IModule::install of the root, sps_module.cpp:41-52: the blocks in the order
    of a std::map over their types.  Simplification: sub modules of other types
    that contain http, rtmp or srt blocks are not looked into. *)
Definition install (can_listen : Z -> res unit) (root : cmod) : res (list listener) :=
  let? l1 := match subs_of (str "http") root with
             | [] => Ok []
             | _ => install_servers can_listen PHttp (http_servers root) []
             end in
  let? _ := reinstall (length (subs_of (str "http") root)) (http_servers root) in
  let? l2 := install_servers can_listen PRtmp (flat_map (fun b => servers_of root b 1) (subs_of (str "rtmp") root)) l1 in
  install_servers can_listen PSrt (flat_map (fun b => servers_of root b 1) (subs_of (str "srt") root)) l2.

(** ** Routing: HostRouterPhaseHandler::handler,
    src/module/host/sps_host_router_handler.cpp:39-53. *)
Definition route (ls : list listener) (port : Z) (host : list Z) : option (option cmod) :=
  match get_server port ls with
  | None => None
  | Some l => Some (find_host (ls_router l) host)
  end.
