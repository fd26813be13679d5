(** The values of a module's options in memory: a context structure per module,
    whose members the options write through their offsets.  Layout as on
    x86-64 with libstdc++: int 4 bytes, bool 1, utime_t (uint64_t) 8, std::string
    32, each aligned to its size but std::string to 8.  A std::string is kept as
    its contents in the first cell of its place; the others must not be touched
    by anything else. *)
From Verif Require Import Base M_Text M_Conf M_Clock.

(** ** The structures. *)
Inductive fty := FInt | FTime | FBool | FString.
Definition fsize (f : fty) : Z := match f with FInt => 4 | FTime => 8 | FBool => 1 | FString => 32 end.
Definition falign (f : fty) : Z := match f with FInt => 4 | FTime => 8 | FBool => 1 | FString => 8 end.
Definition member := (list Z * fty)%type.
(** HostConfCtx, src/module/host/sps_host_module.hpp:57-68. *)
Definition host_struct : list member :=
  [(str "enabled", FInt); (str "pass_proxy", FString); (str "pass_url", FString); (str "role", FString);
   (str "type", FString); (str "edge_avformat", FString); (str "ssl_key_file", FString); (str "ssl_crt_file", FString)].
(** ServerConfCtx, src/module/server/sps_server_module.hpp:37-48. *)
Definition server_struct : list member :=
  [(str "listen_port", FInt); (str "server_name", FString); (str "transport", FString); (str "reuse_port", FBool);
   (str "backlog", FInt); (str "recv_timeout", FTime); (str "send_timeout", FTime);
   (str "ssl_key_file", FString); (str "ssl_crt_file", FString)].
(** HttpConfCtx, src/module/http/sps_http_module.hpp:36-39; RtmpConfCtx,
    src/module/rtmp/sps_rtmp_module.hpp:43-46. *)
Definition http_struct : list member := [(str "keepalive_timeout", FInt); (str "access_log", FString)].
(** SrtConfCtx, src/module/srt/sps_srt_module.hpp:41-47. *)
Definition srt_struct : list member :=
  [(str "keepalive_timeout", FInt); (str "access_log", FString); (str "srt_tlpktdrop", FInt); (str "srt_nakreport", FInt);
   (str "srt_transtype", FString)].
(** UpStreamConfCtx, src/module/upstream/sps_upstream_module.hpp:36-40. *)
Definition upstream_struct : list member := [(str "name", FString); (str "server", FString); (str "keepalive", FInt)].
(** StreamConfCtx, src/module/stream/sps_stream_module.hpp:34-38. *)
Definition stream_struct : list member := [(str "avformat", FString); (str "edge", FBool); (str "pass_proxy", FString)].
(** RootConfCtx, src/module/root/sps_root_module.hpp:38-40 (a comment no option
    writes), GlobalHostConfCtx, src/module/host/sps_host_global_module.hpp:34-36. *)
Definition struct_of (ty : list Z) : list member :=
  if eqb_list ty (str "root") then [(str "comment", FString)]
  else if eqb_list ty (str "http") || eqb_list ty (str "rtmp") then http_struct
  else if eqb_list ty (str "srt") then srt_struct
  else if eqb_list ty (str "server") then server_struct
  else if eqb_list ty (str "host") then host_struct
  else if eqb_list ty (str "stream") then stream_struct
  else if eqb_list ty (str "upstream") then upstream_struct
  else [].
(** Where the members lie: the next multiple of its alignment. *)
Definition align (o a : Z) : Z := (o + a - 1) / a * a.
Fixpoint place (o : Z) (ms : list member) : list (list Z * fty * Z) :=
  match ms with
  | [] => []
  | (n, f) :: ms' => let p := align o (falign f) in (n, f, p) :: place (p + fsize f) ms'
  end.
(** OFFSET(x), e.g. sps_server_module.hpp:50; an option has the name of its member. *)
Fixpoint offset_in (ps : list (list Z * fty * Z)) (k : list Z) : option (fty * Z) :=
  match ps with
  | [] => None
  | (n, f, o) :: ps' => if eqb_list k n then Some (f, o) else offset_in ps' k
  end.
Definition offset_of (ty k : list Z) : option (fty * Z) := offset_in (place 0 (struct_of ty)) k.

(** ** Memory. *)
Inductive cell := CByte (b : Z) | CStr (s : list Z) | CRest.
Definition mem := Z -> cell.
Fixpoint pokes (m : mem) (o : Z) (cs : list cell) : mem :=
  match cs with [] => m | c :: cs' => pokes (fun a => if a =? o then c else m a) (o + 1) cs' end.
Fixpoint peeks (m : mem) (o : Z) (n : nat) : list cell :=
  match n with O => [] | S n' => m o :: peeks m (o + 1) n' end.
(** The string whose object lies at [o], if it is whole. *)
Definition string_at (m : mem) (o : Z) : option (list Z) :=
  match peeks m o 32 with
  | CStr s :: r => if forallb (fun c => match c with CRest => true | _ => false end) r then Some s else None
  | _ => None
  end.
(** Little-endian. *)
Fixpoint le (n : nat) (v : Z) : list Z := match n with O => [] | S n' => v mod 256 :: le n' (v / 256) end.
Fixpoint lev (l : list Z) : Z := match l with [] => 0 | b :: l' => b + 256 * lev l' end.
(** MODULE_CREATE_CTX, src/module/sps_module.hpp:159-162: std::make_shared value-
    initializes, so everything is zero before the strings are made. *)
Fixpoint fresh_in (ps : list (list Z * fty * Z)) (m : mem) : mem :=
  match ps with
  | [] => m
  | (_, f, o) :: ps' => fresh_in ps' (match f with FString => pokes m o (CStr [] :: repeat CRest 31) | _ => m end)
  end.
Definition fresh (ty : list Z) : mem := fresh_in (place 0 (struct_of ty)) (fun _ => CByte 0).

(** ** Writing. *)
(** ConfigOption::opt_set, src/module/sps_module_opt.cpp:33-103; the types double,
    float and cstring are not used by any table. *)
Definition opt_write (m : mem) (k : okind) (o : Z) (val : list Z) : res mem :=
  match k with
  | OInt => Ok (pokes m o (map CByte (le 4 (u32 (match val with [] => 0 | _ => atoi val end)))))        (* :42-49 *)
  | OInt64 => Ok (pokes m o (map CByte (le 8 (u64 (match val with [] => 0 | _ => atoll val end)))))     (* :50-58 *)
  | OStr => match string_at m o with Some _ => Ok (pokes m o [CStr (cstr val)]) | None => UB end         (* :83-87 *)
  | OBool => match val with
             | [] => UB                                                                                  (* :89 *)
             | _ => Ok (pokes m o [CByte (if eqb_list (take 2 val) (str "on") then 1 else 0)])           (* :88-95 *)
             end
  | OSub => Err ERROR_CONFIG_OPT_TYPE                                                                    (* :96-99 *)
  end.
(** IModule::set_default, src/module/sps_module.cpp:313-331. *)
Fixpoint set_default (ty : list Z) (os : list opt) (m : mem) : res mem :=
  match os with
  | [] => Ok m
  | (n, OSub, _) :: os' => set_default ty os' m
  | (n, k, d) :: os' =>
      match offset_of ty n with
      | Some (_, o) => let? m1 := opt_write m k o d in set_default ty os' m1
      | None => UB
      end
  end.
(** The items of a block in order, sps_module.cpp:127-148 (their errors are not
    looked at, :144). *)
Fixpoint set_items (ty : list Z) (os : list opt) (sets : list (list Z * list Z)) (m : mem) : res mem :=
  match sets with
  | [] => Ok m
  | (n, v) :: sets' =>
      match find_opt os n, offset_of ty n with
      | Some (k, _), Some (_, o) =>
          match opt_write m k o v with
          | Ok m1 => set_items ty os sets' m1
          | Err _ => set_items ty os sets' m
          | e => e
          end
      | _, _ => UB
      end
  end.
(** The context of a module: sps_module.cpp:88, :101 and the loop. *)
Definition context (c : cmod) : res mem :=
  match options_of (cm_type c) with
  | Some os => let? m := set_default (cm_type c) os (fresh (cm_type c)) in set_items (cm_type c) os (cm_sets c) m
  | None => Err CONF_EXIT
  end.

(** ** Reading. *)
Fixpoint cell_bytes (cs : list cell) : option (list Z) :=
  match cs with
  | [] => Some []
  | CByte b :: cs' => match cell_bytes cs' with Some l => Some (b :: l) | None => None end
  | _ => None
  end.
(** [conf->x] for a member, e.g. src/module/server/sps_server_module.cpp:148-149;
    HostModule::enabled, src/module/host/sps_host_module.cpp:73-76, reads an int. *)
Inductive cval := VInt (z : Z) | VTime (z : Z) | VBool (b : bool) | VStr (s : list Z).
Definition get (m : mem) (f : fty) (o : Z) : option cval :=
  match f with
  | FInt => match cell_bytes (peeks m o 4) with Some l => Some (VInt (s32 (lev l))) | None => None end
  | FTime => match cell_bytes (peeks m o 8) with Some l => Some (VTime (lev l)) | None => None end
  | FBool => match m o with CByte b => Some (VBool (negb (b =? 0))) | _ => None end
  | FString => match string_at m o with Some s => Some (VStr s) | None => None end
  end.
Definition member_of (c : cmod) (m : mem) (k : list Z) : option cval :=
  match offset_of (cm_type c) k with Some (f, o) => get m f o | None => None end.
