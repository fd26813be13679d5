(** The log, function by function, from src/log/sps_log.cpp and the macros of
    src/log/sps_log.hpp, with the statements that print what a client sent.

    [snprintf], [vsnprintf] and [printf] are not part of /repo; [cfmt] models
    them from the C11 standard (7.21.6.1) for the conversions the statements
    use.  A directive without a matching argument, an unknown one and one cut
    off by the end of the text are undefined behaviour there, and here.
    Simplified: an integer argument of any width fills one slot (the x86-64
    calling convention), an argument for [%f] or [%p] carries the text printed
    for it, the flags [+], blank and [#] are read and ignored, and GNU's [%m]
    (not standard C) counts as unknown. *)
From Verif Require Import Base M_Text.

(** An argument passed through [...]: an integer, a C string (the characters
    in memory; reading stops at the first NUL), or something printed as the
    given text. *)
Inductive carg := AInt (v : Z) | AStr (s : list Z) | AText (s : list Z).

(** A directive being read: C11 7.21.6.1 paragraph 4.  [d_stage] is -1 after
    the percent sign, 0 while flags may follow, 1 inside the width, 2 inside the precision, 3 after a
    length modifier; [d_prec] is negative when there is none. *)
Record dir := mkdir { d_stage : Z; d_zero : bool; d_left : bool; d_width : Z; d_prec : Z; d_long : Z }.
Definition dir0 : dir := mkdir (-1) false false 0 (-1) 0.

Definition s64 (x : Z) : Z := (x + 2 ^ 63) mod 2 ^ 64 - 2 ^ 63.
Definition blanks (n : Z) : list Z := repeat 32 (Z.to_nat n).
Definition zeros (n : Z) : list Z := repeat 48 (Z.to_nat n).
(** Padding with blanks to the width. *)
Definition pad (d : dir) (s : list Z) : list Z :=
  if d_left d then s ++ blanks (d_width d - zlen s) else blanks (d_width d - zlen s) ++ s.
(** A number: its digits with the precision's zeros, its sign, and the
    width's zeros or blanks. *)
Definition number (d : dir) (neg : bool) (ds : list Z) : list Z :=
  let ds := if (d_prec d =? 0) && eqb_list ds [48] then [] else zeros (d_prec d - zlen ds) ++ ds in
  let sign := if neg then [45] else [] in
  if d_zero d && negb (d_left d) && (d_prec d <? 0)
  then sign ++ zeros (d_width d - zlen sign - zlen ds) ++ ds
  else pad d (sign ++ ds).
Definition upper (c : Z) : Z := if (97 <=? c) && (c <=? 122) then c - 32 else c.
Definition signed (d : dir) (v : Z) : list Z :=
  let v := if 1 <=? d_long d then s64 v else s32 v in
  number d (v <? 0) (print_base 10 (Z.abs v)).
Definition unsigned (d : dir) (b v : Z) : list Z :=
  number d false (print_base b (if 1 <=? d_long d then u64 v else u32 v)).
Definition string_of (d : dir) (s : list Z) : list Z :=
  let s := cstr s in pad d (if d_prec d <? 0 then s else take (d_prec d) s).

Definition is (c : Z) (s : string) : bool := existsb (Z.eqb c) (str s).
(** One more character of a directive. *)
Inductive dres := DMore (d : dir) | DStar | DDone (convert : carg -> res (list Z)) | DPercent | DBad.
Definition dir_step (d : dir) (c : Z) : dres :=
  if (d_stage d <=? 0) && is c "-+ #0" then
    DMore (mkdir 0 (d_zero d || (c =? 48)) (d_left d || (c =? 45)) 0 (-1) 0)
  else if (48 <=? c) && (c <=? 57) then
    if d_stage d <=? 1 then DMore (mkdir 1 (d_zero d) (d_left d) (d_width d * 10 + (c - 48)) (-1) 0)
    else if d_stage d =? 2 then DMore (mkdir 2 (d_zero d) (d_left d) (d_width d) (d_prec d * 10 + (c - 48)) 0)
    else DBad
  else if c =? 46 then
    if d_stage d <=? 1 then DMore (mkdir 2 (d_zero d) (d_left d) (d_width d) 0 0) else DBad
  else if c =? 42 then if d_stage d <=? 2 then DStar else DBad
  else if is c "lhzjt" then
    DMore (mkdir 3 (d_zero d) (d_left d) (d_width d) (d_prec d) (d_long d + if is c "lzjt" then 1 else 0))
  else if is c "di" then DDone (fun a => match a with AInt v => Ok (signed d v) | _ => UB end)
  else if c =? 117 then DDone (fun a => match a with AInt v => Ok (unsigned d 10 v) | _ => UB end)
  else if c =? 120 then DDone (fun a => match a with AInt v => Ok (unsigned d 16 v) | _ => UB end)
  else if c =? 88 then DDone (fun a => match a with AInt v => Ok (map upper (unsigned d 16 v)) | _ => UB end)
  else if c =? 99 then DDone (fun a => match a with AInt v => Ok (pad d [u8 v]) | _ => UB end)
  else if c =? 115 then DDone (fun a => match a with AStr s => Ok (string_of d s) | _ => UB end)
  else if is c "fp" then DDone (fun a => match a with AText s => Ok (pad d s) | _ => UB end)
  else if (c =? 37) && (d_stage d =? -1) then DPercent
  else DBad.
(** A star takes an [int] argument as width or precision; a negative width
    aligns to the left, a negative precision is none. *)
Definition dir_star (d : dir) (v : Z) : dir :=
  let v := s32 v in
  if d_stage d =? 2 then mkdir 2 (d_zero d) (d_left d) (d_width d) (if v <? 0 then -1 else v) 0
  else mkdir 1 (d_zero d) (d_left d || (v <? 0)) (Z.abs v) (-1) 0.

(** The text a format prints with these arguments; [o] is the directive being
    read, if any. *)
Fixpoint cfmt_go (o : option dir) (fmt : list Z) (args : list carg) : res (list Z) :=
  match fmt with
  | [] => match o with None => Ok [] | Some _ => UB end
  | c :: f =>
      match o with
      | None =>
          if c =? 37 then cfmt_go (Some dir0) f args
          else let? t := cfmt_go None f args in Ok (c :: t)
      | Some d =>
          match dir_step d c with
          | DMore d1 => cfmt_go (Some d1) f args
          | DStar =>
              match args with
              | AInt v :: args1 => cfmt_go (Some (dir_star d v)) f args1
              | _ => UB
              end
          | DDone conv =>
              match args with
              | a :: args1 => let? x := conv a in let? t := cfmt_go None f args1 in Ok (x ++ t)
              | [] => UB
              end
          | DPercent => let? t := cfmt_go None f args in Ok (37 :: t)
          | DBad => UB
          end
      end
  end.
Definition cfmt (fmt : list Z) (args : list carg) : res (list Z) := cfmt_go None fmt args.
(** [snprintf(buf, n, ...)]: at most [n] - 1 characters are stored; the result
    counts them all. *)
Definition snfmt (n : Z) (fmt : list Z) (args : list carg) : res (list Z * Z) :=
  let? t := cfmt fmt args in Ok (take (n - 1) t, zlen t).

(** [struct tm] and the milliseconds, sps_log.cpp:38-43: the year and the
    month as printed. *)
Record stamp := mkstamp { t_year : Z; t_mon : Z; t_day : Z; t_hour : Z; t_min : Z; t_sec : Z; t_ms : Z }.
(** [char buf[4096]], sps_log.hpp:56. *)
Definition LOG_BUF : Z := 4096.
(** ConsoleLog::printf, sps_log.cpp:32-50, as what reaches the standard
    output.  [now] is [None] when gettimeofday fails (:34-36).  The text built
    in the buffer is passed to [::printf] as its format, without arguments
    (:49). *)
Definition log_printf (now : option stamp) (fmt : list Z) (args : list carg) : res (list Z) :=
  match now with
  | None => Ok []
  | Some t =>
      let? p := snfmt LOG_BUF (str "[%04d-%02d-%02d %02d:%02d:%02d.%03d] ")
        [AInt (t_year t); AInt (t_mon t); AInt (t_day t); AInt (t_hour t); AInt (t_min t); AInt (t_sec t); AInt (t_ms t)] in
      let '(head, len) := p in
      let? q := snfmt (LOG_BUF - len) fmt args in
      cfmt (cstr (take len head ++ fst q)) []
  end.

(** Where a statement stands: [__FILENAME__], [__LINE__] and the number of the
    coroutine (src/sys/st/sps_sys_st_co.cpp:96-102). *)
Record where_ := mkwhere { w_file : list Z; w_line : Z; w_ctx : Z }.
(** The macros sp_info, sp_trace and sp_warn (sps_log.hpp:69-76) and sp_error
    (:66-67, with errno and its text).  The level is not printed and selects
    nothing. *)
Definition sp_info (now : option stamp) (w : where_) (msg : list Z) (args : list carg) : res (list Z) :=
  log_printf now (str "[%s:%d] [%d] " ++ msg ++ [13; 10]) ([AStr (w_file w); AInt (w_line w); AInt (w_ctx w)] ++ args).
Definition sp_trace := sp_info.
Definition sp_error (now : option stamp) (w : where_) (eno : Z) (etext : list Z) (msg : list Z) (args : list carg) : res (list Z) :=
  log_printf now (str "[%s:%d] [%d] " ++ msg ++ str " (%d %s)" ++ [13; 10])
    ([AStr (w_file w); AInt (w_line w); AInt (w_ctx w)] ++ args ++ [AInt eno; AStr etext]).

(** HttpParsePhaseHandler::handler, src/module/http/sps_http_phase_handler.cpp:52-55:
    printed for every request, before the host is looked up. *)
Definition log_http (now : option stamp) (w : where_) (ip : list Z) (port : Z) (method host url params : list Z)
  (chunked : bool) (cl : Z) : res (list Z) :=
  sp_trace now w (str "Request %s:%d %s %s %s %s, chunked %d, content-length %d")
    [AStr ip; AInt port; AStr method; AStr host; AStr url; AStr params; AInt (if chunked then 1 else 0); AInt cl].
(** HostRouterPhaseHandler::handler, src/module/host/sps_host_router_handler.cpp:44. *)
Definition log_no_host (now : option stamp) (w : where_) (eno : Z) (etext host : list Z) : res (list Z) :=
  sp_error now w eno etext (str "Not found host:%s") [AStr host].
(** RtmpServerHandler's first phase, src/module/rtmp/sps_rtmp_server_handler.cpp:78-79. *)
Definition log_rtmp (now : option stamp) (w : where_) (ip : list Z) (port : Z) (tc_url : list Z) : res (list Z) :=
  sp_trace now w (str "Request client %s:%d, %s") [AStr ip; AInt port; AStr tc_url].
(** RtmpPreRequest::on_recv_play, sps_rtmp_server_handler.cpp:223-226. *)
Definition log_play (now : option stamp) (w : where_) (name : list Z) (playing : Z) : res (list Z) :=
  sp_info now w (str "Play stream %s, playing: %d") [AStr (str "/" ++ name); AInt playing].
(** RtmpPreRequest::on_recv_publish, sps_rtmp_server_handler.cpp:252-256. *)
Definition log_publish (now : option stamp) (w : where_) (name kind : list Z) (playing : Z) : res (list Z) :=
  sp_info now w (str "Publish stream %s, %s, playing %d") [AStr (str "/" ++ name); AStr kind; AInt playing].
(** get_url_by_streamid, src/module/srt/sps_srt_server_handler.cpp:100-101. *)
Definition log_srt (now : option stamp) (w : where_) (streamid url mode : list Z) : res (list Z) :=
  sp_info now w (str "success parse srt streamid %s, url %s, mode %s") [AStr streamid; AStr url; AStr mode].
