(** URLs: RequestUrl (src/io/url/sps_io_url.cpp, .hpp), the URL of a parsed
    HTTP request (src/module/http/sps_http_parser.cpp), stream keys
    (src/module/stream/sps_stream_handler.cpp), format selection
    (src/avformat/sps_avformat_dec.cpp, _enc.cpp) and SRT stream ids
    (src/module/srt/sps_srt_server_handler.cpp). *)
From Verif Require Import Base M_Text.

(** ** The http_parser library (a git submodule, not in /repo)

    [http_parser_parse_url] answers with offset and length of each part; here
    the parts themselves.  All uses below take the library as a parameter. *)
Record uparts := mkup {
  up_schema : option (list Z); up_host : option (list Z); up_port : option Z;
  up_path : option (list Z); up_query : option (list Z)
}.
Definition url_lib := list Z -> option uparts.

(** An executable stand-in that follows the library's state machine
    (http_parser.c, parse_url_char and http_parse_host) for URLs without user
    information and IPv6 literals, which it refuses.  It only shows that the
    assumptions made on the library can be met. *)
Inductive ustate := SStart | SSchema | SSlash | SSlash2 | SServer0 | SServer | SPath | SQuery0 | SQuery | SFrag0 | SFrag.
Definition is_alpha (c : Z) : bool := ((65 <=? c) && (c <=? 90)) || ((97 <=? c) && (c <=? 122)).
Definition is_num (c : Z) : bool := (48 <=? c) && (c <=? 57).
Definition is_hostc (c : Z) : bool := is_alpha c || is_num c || (c =? 46) || (c =? 45) || (c =? 95).
Definition is_urlc (c : Z) : bool := (33 <=? c) && negb (c =? 35) && negb (c =? 63) && negb (c =? 127).
Definition hp_step (s : ustate) (c : Z) : option ustate :=
  match s with
  | SStart => if (c =? 47) || (c =? 42) then Some SPath else if is_alpha c then Some SSchema else None
  | SSchema => if is_alpha c then Some SSchema else if c =? 58 then Some SSlash else None
  | SSlash => if c =? 47 then Some SSlash2 else None
  | SSlash2 => if c =? 47 then Some SServer0 else None
  | SServer0 | SServer =>
      if c =? 47 then Some SPath else if c =? 63 then Some SQuery0
      else if is_hostc c || (c =? 58) then Some SServer else None
  | SPath => if is_urlc c then Some SPath else if c =? 63 then Some SQuery0
             else if c =? 35 then Some SFrag0 else None
  | SQuery0 | SQuery => if is_urlc c || (c =? 63) then Some SQuery else if c =? 35 then Some SFrag0 else None
  | SFrag0 => if is_urlc c || (c =? 63) then Some SFrag else if c =? 35 then Some SFrag0 else None
  | SFrag => if is_urlc c || (c =? 63) || (c =? 35) then Some SFrag else None
  end.
Record uacc := mkua { ua_s : list Z; ua_h : list Z; ua_p : list Z; ua_q : list Z }.
Definition hp_add (a : uacc) (s : ustate) (c : Z) : uacc :=
  match s with
  | SSchema => mkua (ua_s a ++ [c]) (ua_h a) (ua_p a) (ua_q a)
  | SServer => mkua (ua_s a) (ua_h a ++ [c]) (ua_p a) (ua_q a)
  | SPath => mkua (ua_s a) (ua_h a) (ua_p a ++ [c]) (ua_q a)
  | SQuery => mkua (ua_s a) (ua_h a) (ua_p a) (ua_q a ++ [c])
  | _ => a
  end.
Fixpoint hp_run (s : ustate) (a : uacc) (l : list Z) : option (ustate * uacc) :=
  match l with
  | [] => Some (s, a)
  | c :: l' => match hp_step s c with Some s' => hp_run s' (hp_add a s' c) l' | None => None end
  end.
Definition nonnil (l : list Z) : option (list Z) := match l with [] => None | _ => Some l end.
(** Host and port of the authority. *)
Definition hp_host (l : list Z) : option (list Z * option Z) :=
  match find_char 58 l with
  | None => if forallb is_hostc l && negb (zlen l =? 0) then Some (l, None) else None
  | Some i =>
      let h := take i l in
      let p := drop (i + 1) l in
      if forallb is_hostc h && negb (zlen h =? 0) && forallb is_num p && negb (zlen p =? 0)
         && (numrun decval 10 p 0 <=? 65535)
      then Some (h, Some (numrun decval 10 p 0)) else None
  end.
Definition hp_url : url_lib := fun url =>
  if zlen url =? 0 then None else
  match hp_run SStart (mkua [] [] [] []) url with
  | None => None
  | Some (_, a) =>
      match nonnil (ua_s a), nonnil (ua_h a) with
      | Some _, None => None
      | sc, None => Some (mkup sc None None (nonnil (ua_p a)) (nonnil (ua_q a)))
      | sc, Some h =>
          match hp_host h with
          | Some (h', po) => Some (mkup sc (Some h') po (nonnil (ua_p a)) (nonnil (ua_q a)))
          | None => None
          end
      end
  end.

(** ** RequestUrl, src/io/url/sps_io_url.hpp:83-96 *)
Record ureq := mkrq {
  rq_url : list Z; rq_method : list Z; rq_schema : list Z; rq_port : Z; rq_host : list Z;
  rq_path : list Z; rq_ext : list Z; rq_params : list Z; rq_pp : list kv; rq_headers : list kv
}.
(** A fresh RequestUrl. *)
Definition rq_new : ureq := mkrq [] [] [] 80 [] [] [] [] [] [].

(** The query loop, sps_io_url.cpp:88-113, from the offset [off_pre] on; [l] is
    what is left of the query.  (The offset is an int: queries of 2 GiB and
    more are not covered.) *)
Fixpoint query_loop (fuel : nat) (l : list Z) : res (list kv) :=
  match fuel with
  | O => Fuel
  | S f =>
      match find_char 61 l with
      | None => Ok []
      | Some ik =>
          let key := take ik l in
          let l1 := drop (ik + 1) l in
          match find_char 38 l1 with
          | None => Ok [(key, l1)]
          | Some iv =>
              let? more := query_loop f (drop (iv + 1) l1) in
              Ok ((key, take iv l1) :: more)
          end
      end
  end.
Definition opt_or (o : option (list Z)) (d : list Z) : list Z := match o with Some x => x | None => d end.
(** The default port, :57-70. *)
Definition default_port (schema : list Z) : Z :=
  if eqb_list schema (str "http") then 80
  else if eqb_list schema (str "https") then 443
  else if eqb_list schema (str "rtmp") then 1935
  else 0.
(** RequestUrl::parse_url, :44-134.  Result: return value and object. *)
Definition parse_url (lib : url_lib) (r : ureq) (url : list Z) : res Z * ureq :=
  match lib url with
  | None => (Ok (-1), r)
  | Some u =>
      let schema := opt_or (up_schema u) (rq_schema r) in
      let port := match up_port u with Some p => p | None => default_port schema end in
      let host := opt_or (up_host u) (rq_host r) in
      let path := opt_or (up_path u) (rq_path r) in
      let params := opt_or (up_query u) (rq_params r) in
      match query_loop (S (length params)) params with
      | Ok pp =>
          let ext := match rfind_char 46 path with Some n => drop (n + 1) path | None => rq_ext r end in
          let method := match rq_method r with [] => str "GET" | m => m end in
          let url1 := path ++ match params with [] => [] | _ => str "?" ++ params end in
          if eqb_list schema (str "file") then
            (* substr(sizeof "file://") skips 8 characters; it throws if the URL is shorter *)
            if zlen url <? 8 then (UB, r)
            else (Ok 0, mkrq (drop 8 url) method schema (-1) host url ext [] (rq_pp r ++ pp) (rq_headers r))
          else (Ok 0, mkrq url1 method schema port host path ext params (rq_pp r ++ pp) (rq_headers r))
      | Err c => (Err c, r) | UB => (UB, r) | Fuel => (Fuel, r)
      end
  end.
(** RequestUrl::from, :39-42. *)
Definition url_from (lib : url_lib) (url : list Z) : res Z * ureq := parse_url lib rq_new url.
(** get_header, :169-174, and get_param, :185-190: first match or empty. *)
Definition get_header (r : ureq) (k : list Z) : list Z := opt_or (kv_find k (rq_headers r)) [].
Definition get_param (r : ureq) (k : list Z) : list Z := opt_or (kv_find k (rq_pp r)) [].
(** erase_header, :176-183: removes the first match only. *)
Fixpoint erase_first (k : list Z) (l : list kv) : list kv :=
  match l with
  | [] => []
  | h :: l' => if eqb_list (fst h) k then l' else h :: erase_first k l'
  end.
(** is_chunked, :192-194, and get_content_length, :196-203. *)
Definition rq_is_chunked (r : ureq) : bool := eqb_list (get_header r (str "Transfer-Encoding")) (str "chunked").
Definition rq_content_length (r : ureq) : Z :=
  match get_header r (str "Content-Length") with [] => -1 | cl => atoi cl end.

(** HttpParserContext::parse_request, src/module/http/sps_http_parser.cpp:76-94:
    [target] is the request target, [method] its method. *)
Definition request_of (lib : url_lib) (target method : list Z) (headers : list kv) : res Z * ureq :=
  let host := opt_or (kv_find (str "Host") headers) [] in
  let full := match host with
              | [] => str "http:/" ++ target
              | _ => str "http://" ++ host ++ target
              end in
  parse_url lib (mkrq [] method [] 80 [] [] [] [] [] headers) full.

(** StreamHandler::get_cache_key, src/module/stream/sps_stream_handler.cpp:38-43.
    (substr takes the lesser of the count and what is there.) *)
Definition cache_key (r : ureq) : list Z :=
  rq_host r ++ (if eqb_list (rq_ext r) (str "-") || (zlen (rq_ext r) =? 0) then rq_path r
                else take (u64 (zlen (rq_path r) - zlen (rq_ext r) - 1)) (rq_path r)).

(** IAVInputFormat::match, src/avformat/sps_avformat_dec.cpp:37-41, and
    IAVOutputFormat::match, _enc.cpp:43-47: both lengths are that of the
    format's own extension, so the comparison covers that many bytes of the
    NUL-terminated request extension whether it has them or not. *)
Definition fmt_match (ext e : list Z) : res bool :=
  let mem := e ++ [0] in
  if zlen mem <? zlen ext then UB else Ok (eqb_list ext (take (zlen ext) mem)).
(** AVDemuxerFactory::create, _dec.cpp:55-64, and AVEncoderFactory::create,
    _enc.cpp:58-67: the first format that matches, in the order of the set of
    pointers (src/util/sps_util_typedef.hpp:67-82), which is not determined. *)
Fixpoint fmt_find (fmts : list (list Z)) (e : list Z) : res (option (list Z)) :=
  match fmts with
  | [] => Ok None
  | f :: fs => let? m := fmt_match f e in if m then Ok (Some f) else fmt_find fs e
  end.
(** The registered extensions without FFmpeg, src/install/sps_install_avformat.cpp:46-70. *)
Definition input_exts : list (list Z) := [str "flv"; str "-"; str "ts"].
Definition output_exts : list (list Z) := [str "flv"; str "-"].

(** ** SRT stream id, src/module/srt/sps_srt_server_handler.cpp:36-104 *)
(** The scan, :55-68: [key] is param.key, [cur] the text since [start]. *)
Fixpoint sid_scan (l : list Z) (key cur : list Z) : list kv :=
  match l with
  | [] => []
  | c :: l' =>
      if c =? 44 then (key, cur) :: sid_scan l' [] []
      else if c =? 61 then sid_scan l' cur []
      else sid_scan l' key (cur ++ [c])
  end.
(** The last value of a key, :72-78. *)
Fixpoint kv_last (k : list Z) (l : list kv) (d : list Z) : list Z :=
  match l with
  | [] => d
  | h :: l' => kv_last k l' (if eqb_list (fst h) k then snd h else d)
  end.
(** get_url_by_streamid: [None] is the null pointer. *)
Definition srt_req (lib : url_lib) (sid : list Z) : res (option ureq) :=
  if zlen sid <? 5 then Ok None else
  let ps := sid_scan (drop 4 sid) [] [] in
  let url := kv_last (str "h") ps [] in
  let mode := kv_last (str "m") ps [] in
  (* five characters never equal the six of the prefix *)
  let url := if eqb_list (take 5 url) (str "srt://") then url else str "srt://" ++ url in
  match url_from lib url with
  | (Ok c, r) =>
      if negb (c =? 0) then Ok None else
      let m := if eqb_list mode (str "request") then str "request" else str "publish" in
      Ok (Some (mkrq (rq_url r) m (rq_schema r) (rq_port r) (rq_host r) (rq_path r) (rq_ext r)
                     (rq_params r) (rq_pp r) (rq_headers r)))
  | (Err c, _) => Err c | (UB, _) => UB | (Fuel, _) => Fuel
  end.
(** SrtServerStreamHandler::handler, src/module/srt/sps_srt_stream_handler.cpp:39-50. *)
Definition srt_plays (r : ureq) : bool := eqb_list (rq_method r) (str "request").
(** The stream keys of publish, :54-55, and play, :89-90. *)
Definition srt_key (r : ureq) : list Z := rq_host r ++ rq_path r.
Definition srt_ts_key (r : ureq) : list Z := str "ts://" ++ srt_key r.
