(** Model of the configuration: src/module/sps_module.cpp (line parser and
    module tree), sps_module_opt.cpp, the option tables of the modules, and
    src/io/url/sps_io_url_file.cpp (lines). *)
From Verif Require Import Base M_Text.

(** The process ends (exit(-1) or exit(1)); not an error code of /repo. *)
Definition CONF_EXIT : Z := -1000000.

(** ** Lines and words *)
(** FileURLProtocol::read_line, sps_io_url_file.cpp:96-106 (std::getline): the
    lines of a text; a last line without newline counts when not empty.
    [MemoryReaderWriter::read_line] is not modelled. *)
Fixpoint lines_of (cur text : list Z) : list (list Z) :=
  match text with
  | [] => match cur with [] => [] | _ => [cur] end
  | c :: t => if c =? LF then cur :: lines_of [] t else lines_of (cur ++ [c]) t
  end.
(** [ss >> tmp_arg] until the end of the stream, sps_module.cpp:222-228: the
    words between white space. *)
Fixpoint words_acc (cur l : list Z) : list (list Z) :=
  match l with
  | [] => match cur with [] => [] | _ => [cur] end
  | c :: l' =>
      if is_space c then match cur with [] => words_acc [] l' | _ => cur :: words_acc [] l' end
      else words_acc (cur ++ [c]) l'
  end.
Definition words (l : list Z) : list (list Z) := words_acc [] l.

(** ** One line: IModule::parse, sps_module.cpp:214-307 *)
Inductive linekind := KItem | KStart | KEnd.
(** The end flag of a word: its last character, :238-255. *)
Definition end_flag (w : list Z) : option linekind :=
  match rev w with
  | c :: _ => if c =? 59 then Some KItem else if c =? 123 then Some KStart
              else if c =? 125 then Some KEnd else None
  | [] => None
  end.
Definition is_hash (w : list Z) : bool := match w with c :: _ => c =? 35 | [] => false end.
(** The splitting loop, :222-258: the words up to the first with an end flag;
    after that one only a comment may follow. *)
Fixpoint scan (ts : list (list Z)) : res (list (list Z) * option linekind) :=
  match ts with
  | [] => Ok ([], None)
  | t :: ts' =>
      match end_flag t with
      | Some k =>
          match ts' with
          | [] => Ok ([t], Some k)
          | t2 :: _ => if is_hash t2 then Ok ([t], Some k) else Err ERROR_CONFIG_PARSE_INVALID
          end
      | None => let? r := scan ts' in Ok (t :: fst r, snd r)
      end
  end.
(** [arg += " " + args[i]], :289-295; the last word of an item, :297-302. *)
Definition arg_add (arg w : list Z) : list Z := match arg with [] => w | _ => arg ++ SP :: w end.
Inductive cline := LSkip | LItem (cmd arg : list Z) | LStart (cmd arg : list Z) | LEnd.
Definition parse_line (line : list Z) : res cline :=
  let? r := scan (words line) in
  let args := fst r in
  match args with
  | [] => Ok LSkip                                                     (* :259-262 *)
  | cmd :: more =>
      if is_hash cmd then Ok LSkip else                                (* :264-267 *)
      match snd r with
      | None => Err ERROR_CONFIG_PARSE_INVALID                         (* :269-272 *)
      | Some k =>
          match more, k with
          | [], KEnd => Ok LEnd                                        (* :274-276 *)
          | [], _ => Err ERROR_CONFIG_PARSE_INVALID                    (* :278-281 *)
          | _, _ =>
              if eqb_list cmd [123] || eqb_list cmd [125] then Err ERROR_CONFIG_PARSE_INVALID else
              let arg := fold_left arg_add (removelast more) [] in
              let lst := last more [] in
              match k with
              | KStart => Ok (LStart cmd arg)
              | KEnd => Ok LEnd
              | KItem =>
                  if eqb_list lst [59] then Ok (LItem cmd arg)
                  else Ok (LItem cmd (match arg with [] => [] | _ => arg ++ [SP] end ++ removelast lst))
              end
          end
      end
  end.

(** ** Options *)
(** ConfigOptionType, sps_module_opt.hpp:49-61 (the double and float types are
    not used by any table). *)
Inductive okind := OInt | OInt64 | OStr | OBool | OSub.
Definition opt := (list Z * okind * list Z)%type.
(** host_options, src/module/host/sps_host_module.hpp:36-42 and :71-76. *)
Definition host_options : list opt :=
  [(str "enabled", OBool, str "on"); (str "pass_proxy", OStr, []); (str "pass_url", OStr, []);
   (str "role", OStr, str "edge"); (str "type", OStr, str "proxy"); (str "edge_avformat", OStr, str "-");
   (str "ssl_key_file", OStr, []); (str "ssl_crt_file", OStr, [])].
(** server_options, src/module/server/sps_server_module.hpp:51-66. *)
Definition server_options : list opt :=
  [(str "listen_port", OInt, str "80"); (str "server_name", OStr, []); (str "transport", OStr, str "tcp");
   (str "recv_timeout", OInt64, str "-1"); (str "send_timeout", OInt64, str "-1");
   (str "reuse_port", OBool, str "off"); (str "backlog", OInt, str "1024"); (str "host", OSub, []);
   (str "ssl_key_file", OStr, []); (str "ssl_crt_file", OStr, [])].
(** http_options, sps_http_module.hpp:42-47, and rtmp_options, sps_rtmp_module.hpp:49-55. *)
Definition http_options : list opt :=
  [(str "keepalive_timeout", OInt, str "10"); (str "access_log", OStr, str "access.log"); (str "server", OSub, [])].
(** srt_options, sps_srt_module.hpp:50-61. *)
Definition srt_options : list opt :=
  [(str "keepalive_timeout", OInt, str "10"); (str "access_log", OStr, str "access.log");
   (str "srt_tlpktdrop", OInt, str "0"); (str "srt_nakreport", OInt, str "0"); (str "srt_transtype", OStr, str "live");
   (str "server", OSub, [])].
(** upstream_options, sps_upstream_module.hpp:43-48. *)
Definition upstream_options : list opt :=
  [(str "name", OStr, str "unknown upstream name"); (str "server", OStr, str "unknown upstream server");
   (str "keepalive", OInt, str "10")].
(** stream_options, sps_stream_module.hpp:41-46. *)
Definition stream_options : list opt :=
  [(str "avformat", OStr, str "-"); (str "edge", OBool, str "on"); (str "pass_proxy", OStr, str "-")].
(** global_host_options, sps_host_global_module.hpp:39-42, and core_options,
    sps_root_module.hpp:43-45. *)
Definition globalhost_options : list opt := [(str "host", OSub, [])].
Definition root_options : list opt := [].
(** The registered modules, src/install/sps_install_modules.cpp:38-55, built
    with SRT.  The table of "location" has no terminator
    (sps_host_loc_module.hpp:40-42): see [conf_body]. *)
Definition options_of (ty : list Z) : option (list opt) :=
  if eqb_list ty (str "root") then Some root_options
  else if eqb_list ty (str "http") || eqb_list ty (str "rtmp") then Some http_options
  else if eqb_list ty (str "srt") then Some srt_options
  else if eqb_list ty (str "server") then Some server_options
  else if eqb_list ty (str "host") then Some host_options
  else if eqb_list ty (str "globalhost") then Some globalhost_options
  else if eqb_list ty (str "stream") then Some stream_options
  else if eqb_list ty (str "upstream") then Some upstream_options
  else None.
Fixpoint find_opt (os : list opt) (name : list Z) : option (okind * list Z) :=
  match os with
  | [] => None
  | (n, k, d) :: os' => if eqb_list name n then Some (k, d) else find_opt os' name
  end.
(** ConfigOption::opt_set, sps_module_opt.cpp:33-103, as far as it can go wrong:
    memcmp of two bytes of a boolean's text (:89). *)
Definition opt_check (k : okind) (val : list Z) : res unit :=
  match k, val with OBool, [] => UB | _, _ => Ok tt end.

(** ** The module tree *)
(** A module with the options set in it, in order, and its sub modules. *)
Inductive cmod := CMod (ty name : list Z) (sets : list (list Z * list Z)) (subs : list cmod).
Definition cm_type (m : cmod) := let 'CMod t _ _ _ := m in t.
Definition cm_name (m : cmod) := let 'CMod _ n _ _ := m in n.
Definition cm_sets (m : cmod) := let 'CMod _ _ s _ := m in s.
Definition cm_subs (m : cmod) := let 'CMod _ _ _ s := m in s.

Definition is_ty (t : list Z) (s : list Z) : bool := eqb_list t s.
(** post_sub_module of the module types: HttpModule (sps_http_module.cpp:36-51),
    RtmpModule (sps_rtmp_module.cpp:37-52), SrtModule (sps_srt_module.cpp:39-54),
    ServerModule (sps_server_module.cpp:59-76), GlobalHostModule
    (sps_host_global_module.cpp:34-51), HostModule (sps_host_module.cpp:43-71),
    IModule (sps_module.cpp:74-77) for the others. *)
Definition post_sub (ty : list Z) (sub : cmod) : res unit :=
  if is_ty ty (str "http") || is_ty ty (str "rtmp") || is_ty ty (str "srt") then
    if is_ty (cm_type sub) (str "server") then Ok tt else Err CONF_EXIT
  else if is_ty ty (str "server") || is_ty ty (str "globalhost") then
    if is_ty (cm_type sub) (str "host") && negb (zlen (cm_name sub) =? 0) then Ok tt else Err CONF_EXIT
  else if is_ty ty (str "host") then
    if is_ty (cm_type sub) (str "stream") || is_ty (cm_type sub) (str "upstream") then Ok tt
    else Err ERROR_MODULE_TYPE_NOT_MATCH
  else Ok tt.

(** IModule::init_conf, sps_module.cpp:83-212.  Simplifications: post_conf
    (merging of global hosts, registration of upstreams) is in M_Host.v; read
    errors other than the end of the file are not modelled. *)
Fixpoint conf_body (fuel : nat) (ty name : list Z) (lines : list (list Z))
    (sets : list (list Z * list Z)) (subs : list cmod) : res (cmod * list (list Z)) :=
  match fuel with
  | O => Fuel
  | S f =>
      match lines with
      | [] => if is_ty ty (str "root") then Ok (CMod ty name sets subs, []) else Err ERROR_CONFIG_PARSE_INVALID
      | l :: ls =>
          let? p := parse_line l in
          match p with
          | LSkip => conf_body f ty name ls sets subs
          | LEnd => if is_ty ty (str "root") then Err ERROR_CONFIG_PARSE_INVALID
                    else Ok (CMod ty name sets subs, ls)
          | LItem c a =>
              match options_of ty with
              | None => Err CONF_EXIT
              | Some os =>
                  match find_opt os c with
                  | None => conf_body f ty name ls sets subs
                  | Some (OSub, _) => Err ERROR_CONFIG_PARSE_INVALID
                  | Some (k, _) =>
                      let? _ := opt_check k a in
                      conf_body f ty name ls (sets ++ [(c, a)]) subs
                  end
              end
          | LStart c a =>
              (* the loop over the table of "location" runs past its end, :316 *)
              if is_ty c (str "location") then UB else
              match options_of c with
              | None => Err CONF_EXIT                                  (* :333-342 *)
              | Some _ =>
                  let? r := conf_body f c a ls [] [] in
                  let? _ := post_sub ty (fst r) in
                  conf_body f ty name (snd r) sets (subs ++ [fst r])
              end
          end
      end
  end.
(** The root module on a file, src/main/sps_main_sps.cpp:40-65 (opening the
    file: M_Serve.v). *)
Definition init_conf (lines : list (list Z)) : res cmod :=
  let? r := conf_body (S (length lines)) (str "root") [] lines [] [] in Ok (fst r).
Definition load_conf (text : list Z) : res cmod := init_conf (lines_of [] text).

(** ** Values: the last setting of an option, or its default. *)
Fixpoint last_set (k : list Z) (l : list (list Z * list Z)) (d : list Z) : list Z :=
  match l with
  | [] => d
  | h :: l' => last_set k l' (if eqb_list (fst h) k then snd h else d)
  end.
Definition opt_text (m : cmod) (k : list Z) : list Z :=
  match options_of (cm_type m) with
  | Some os => match find_opt os k with Some (_, d) => last_set k (cm_sets m) d | None => [] end
  | None => []
  end.
(** opt_set, sps_module_opt.cpp:42-44, :83-84 and :88-90. *)
Definition opt_int (m : cmod) (k : list Z) : Z :=
  match opt_text m k with [] => 0 | v => atoi v end.
Definition opt_str (m : cmod) (k : list Z) : list Z := cstr (opt_text m k).
Definition opt_bool (m : cmod) (k : list Z) : bool := eqb_list (take 2 (opt_text m k)) (str "on").
