(** What the server makes of the http_parser library's callbacks:
    HttpParser, src/module/http/sps_http_parser.cpp.  The library itself is an
    input: a function from the text to what it reports. *)
From Verif Require Import Base M_Text M_Conf M_Url M_IO M_Http.

(** The library's calls: on_url, on_header_field, on_header_value and on_body
    with the bytes between [at] and [at + length]; the others (on_message_begin,
    on_status, on_headers_complete, on_message_complete, on_chunk_header,
    on_chunk_complete) do nothing, sps_http_parser.cpp:111-123. *)
Inductive hcall := CbUrl (s : list Z) | CbField (s : list Z) | CbValue (s : list Z) | CbBody (s : list Z) | CbOther.
(** HttpParser::head.key and HttpParserContext::headers, url, body,
    sps_http_parser.hpp:108, 70-72. *)
Record hps := mkhps { hp_key : list Z; hp_headers : list kv; hp_target : list Z; hp_body : list Z }.
(** HttpParser::HttpParser, sps_http_parser.cpp:125-131. *)
Definition hp_new : hps := mkhps [] [] [] [].
(** HttpParser::on_url, :219-226; on_header_field, :233-241; on_header_value,
    :243-253; on_body, :259-266; the others, :215-217, :228-231, :255-257,
    :268-278. *)
Definition hp_on (s : hps) (c : hcall) : hps :=
  match c with
  | CbUrl x => mkhps (hp_key s) (hp_headers s) x (hp_body s)
  | CbField x => mkhps x (hp_headers s) (hp_target s) (hp_body s)
  | CbValue x => mkhps (hp_key s) (hp_headers s ++ [(hp_key s, x)]) (hp_target s) (hp_body s)
  | CbBody x => mkhps (hp_key s) (hp_headers s) (hp_target s) x
  | CbOther => s
  end.
(** http_parser_execute: the count of bytes it accepted, its calls, and the
    fields of http_parser read afterwards: http_method_str of the method (:51),
    the status, the length (64 bits, all ones if none was given) and whether there
    was a Transfer-Encoding (:99-101). *)
Record hreport := mkrep { rp_used : Z; rp_calls : list hcall; rp_method : list Z; rp_status : Z; rp_cl : Z; rp_te : bool }.
(** The library on a request ([false]) or a response ([true]) text. *)
Definition hlib := bool -> list Z -> hreport.
Definition hp_after (r : hreport) : hps := fold_left hp_on (rp_calls r) hp_new.

(** HttpParser::parse_header, :183-201, on a request: the count, and the target,
    method and fields parse_request (:76-94) makes the request of ([request_of]).
    The count is not compared with the length of the text. *)
Definition parse_req_head (lib : hlib) (head : list Z) : Z * (list Z * list Z * list kv) :=
  let r := lib false head in (rp_used r, (hp_target (hp_after r), rp_method r, hp_headers (hp_after r))).
(** The same on a response, with parse_response, :96-109. *)
Definition parse_rsp_head (lib : hlib) (head : list Z) : Z * rsp_info :=
  let r := lib true head in (rp_used r, rsp_of_lib (rp_status r) (rp_cl r) (rp_te r) (hp_headers (hp_after r))).
