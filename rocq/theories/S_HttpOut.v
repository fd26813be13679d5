(** Which HTTP requests bring the server into undefined behaviour. *)
From Verif Require Import Base M_Text M_IO M_Packet M_Flv M_Conf M_Url M_Host M_Http M_Https M_Upload M_Stream M_HttpConn.

(** What is asked of the URL library: a text that begins with "http:/" has the schema "http". *)
Definition http_schema (lib : url_lib) : Prop := forall x u, lib (str "http:/" ++ x) = Some u -> up_schema u = Some (str "http").

(** ** Choosing a format for an extension *)
(** The formats are tried in order; one that is longer than the extension with its NUL is
    compared past the end of it, unless one before it begins the extension. *)
Definition begins (f e : list Z) : Prop := exists x, e ++ [0] = f ++ x.
Definition past_end (fmts : list (list Z)) (e : list Z) : Prop :=
  exists a f b, fmts = a ++ f :: b /\ zlen e + 1 < zlen f /\ Forall (fun g => ~ begins g e) a.
Definition selects (fmts : list (list Z)) (e f : list Z) : Prop :=
  exists a b, fmts = a ++ f :: b /\ begins f e /\ Forall (fun g => ~ begins g e /\ zlen g <= zlen e + 1) a.

(** ** A request for a host *)
(** There is a stream for the player: it is there, or the edge brings it. *)
Definition stream_there (e : henv) (h : cmod) (r : ureq) : Prop :=
  if he_taken e (cache_key r) then True else is_edge h = true /\ he_edge e = (0, true).
(** Before the player is let go for silence a media packet comes. *)
Fixpoint media_comes (dumps : list (list pkt)) : Prop :=
  match dumps with
  | [] => False
  | [] :: _ => False
  | ps :: ds => (exists p, In p ps /\ (is_script p || is_audio p || is_video p = true)) \/ media_comes ds
  end.
(** The reader of the format, fed the body of the request, reads outside. *)
Definition body_outside (g : hcfg) (f : list Z) (r : ureq) (t : transport) : Prop :=
  exists ps, fst (run_plain (over_body (hg_decode g f) (hb_new (rq_is_chunked r) (rq_content_length r))) t) = Ok (Ok (ps, UB)).
Inductive request_outside (g : hcfg) (e : henv) (t : transport) (r : ureq) : Prop :=
| ro_upload_extension h : find_host (hg_router g) (rq_host r) = Some h -> adapter h = AStream -> rq_method r = str "POST" ->
    is_source h = true -> support_publish h (rq_ext r) = true -> past_end (hg_ins g) (rq_ext r) -> request_outside g e t r
| ro_upload_body h f : find_host (hg_router g) (rq_host r) = Some h -> adapter h = AStream -> rq_method r = str "POST" ->
    is_source h = true -> support_publish h (rq_ext r) = true -> selects (hg_ins g) (rq_ext r) f -> he_taken e (cache_key r) = false ->
    body_outside g f r t -> request_outside g e t r
| ro_play_extension h : find_host (hg_router g) (rq_host r) = Some h -> adapter h = AStream -> rq_method r <> str "POST" ->
    stream_there e h r -> past_end (hg_outs g) (rq_ext r) -> request_outside g e t r
| ro_play_no_session h f : find_host (hg_router g) (rq_host r) = Some h -> adapter h = AStream -> rq_method r <> str "POST" ->
    stream_there e h r -> selects (hg_outs g) (rq_ext r) f -> f <> str "flv" -> media_comes (he_dumps e) -> request_outside g e t r
| ro_upstream h head t1 : find_host (hg_router g) (rq_host r) = Some h -> adapter h = AProxy -> rq_schema r = str "http" ->
    he_conn e = true -> sk_room (he_upout e) <> Some O -> read_head (he_upin e) MAX_HEADER = (Ok head, t1) -> fst (hg_rsp g head) = 0 ->
    request_outside g e t r.

(** ** One request on a connection *)
(** The head is [head], [t1] is what follows it.  The library refuses its first byte
    (count 0): the request before it is served again, or there is none.  It takes more:
    this request is served. *)
Inductive turn_outside (g : hcfg) (e : henv) (s : cst) : Prop :=
| to_none head t1 : read_head (cs_in s) MAX_HEADER = (Ok head, t1) -> fst (hg_req g head) = 0 -> cs_ctx s = None -> turn_outside g e s
| to_again head t1 r : read_head (cs_in s) MAX_HEADER = (Ok head, t1) -> fst (hg_req g head) = 0 -> cs_ctx s = Some r ->
    request_outside g e t1 r -> turn_outside g e s
| to_this head t1 n target method fields : read_head (cs_in s) MAX_HEADER = (Ok head, t1) -> hg_req g head = (n, (target, method, fields)) -> 0 < n ->
    request_outside g e t1 (snd (request_of (hg_url g) target method fields)) -> turn_outside g e s.
(** The connection after [k] requests all of which were served. *)
Fixpoint after (g : hcfg) (envs : nat -> henv) (k : nat) (s s' : cst) : Prop :=
  match k with
  | O => s' = s
  | S k' => exists s1, http_turn g (envs O) s = (Some (Ok 0), s1) /\ after g (fun i => envs (S i)) k' s1 s'
  end.
