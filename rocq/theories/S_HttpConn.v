(** Specification of a client's view of one connection: requests that do not
    influence each other, and responses told apart by their framing (RFC 7230,
    section 3.3.3). *)
From Verif Require Import Base M_IO S_IO M_Text M_Conf M_Url M_Host M_Http M_Stream S_Http M_HttpConn.

(** ** One request *)
(** A head the server can take: complete, within the limit, and the parser
    accepts some of it. *)
Definition head_ok (g : hcfg) (h : list Z) : Prop :=
  is_head h /\ zlen h <= MAX_HEADER /\ fst (hg_req g h) <> 0.
(** The request in a head is an upload the server accepts (it then goes on
    reading the connection). *)
Definition accepts_upload (g : hcfg) (e : henv) (h : list Z) : Prop :=
  let '(_, (target, method, fields)) := hg_req g h in
  let r := snd (request_of (hg_url g) target method fields) in
  exists m f, find_host (hg_router g) (rq_host r) = Some m /\ adapter m = AStream /\
    rq_method r = str "POST" /\ publish_start (hg_ins g) m r (he_taken e) = Ok f.
(** What a request does on a connection of its own. *)
Definition alone (g : hcfg) (e : henv) (h : list Z) : option (res Z) * cst := http_turn g e (cst0 (mktr [h] 0)).
Definition alone_out (g : hcfg) (e : henv) (h : list Z) : list Z := sk_out (cs_out (snd (alone g e h))).
Definition alone_up (g : hcfg) (e : henv) (h : list Z) : list upcall := cs_up (snd (alone g e h)).
(** The server is ready for another request afterwards. *)
Definition stays_open (g : hcfg) (e : henv) (h : list Z) : Prop :=
  head_ok g h /\ ~ accepts_upload g e h /\ fst (alone g e h) = Some (Ok 0).
(** The bytes, and the upstream connections, of requests made each on its own. *)
Fixpoint outs_of (g : hcfg) (envs : nat -> henv) (hs : list (list Z)) : list Z :=
  match hs with [] => [] | h :: l => alone_out g (envs O) h ++ outs_of g (fun k => envs (S k)) l end.
Fixpoint ups_of (g : hcfg) (envs : nat -> henv) (hs : list (list Z)) : list upcall :=
  match hs with [] => [] | h :: l => alone_up g (envs O) h ++ ups_of g (fun k => envs (S k)) l end.
Fixpoint all_stay_open (g : hcfg) (envs : nat -> henv) (hs : list (list Z)) : Prop :=
  match hs with [] => True | h :: l => stays_open g (envs O) h /\ all_stay_open g (fun k => envs (S k)) l end.

(** ** Telling responses apart *)
Definition lower (c : Z) : Z := if (65 <=? c) && (c <=? 90) then c + 32 else c.
Definition same_name (a b : list Z) : bool := eqb_list (map lower a) (map lower b).
(** The values of a field; names are compared without regard to case. *)
Definition field_values (k : list Z) (fs : list (list Z * list Z)) : list (list Z) :=
  map snd (filter (fun f => same_name (fst f) k) fs).
(** No body follows the head. *)
Definition bodyless (method : list Z) (status : Z) : Prop :=
  method = str "HEAD" \/ 100 <= status < 200 \/ status = 204 \/ status = 304.
(** [delimited method status fs s body rest]: after a head with the fields [fs], the
    bytes [s] are [body], then [rest]. *)
Inductive delimited (method : list Z) (status : Z) (fs : list (list Z * list Z)) : list Z -> list Z -> list Z -> Prop :=
| fr_none s : bodyless method status -> delimited method status fs s [] s
| fr_chunked s body rest vs : ~ bodyless method status ->
    field_values (str "transfer-encoding") fs = vs ++ [str "chunked"] -> chunked s body rest ->
    delimited method status fs s body rest
| fr_length body rest ds : ~ bodyless method status ->
    field_values (str "transfer-encoding") fs = [] ->
    field_values (str "content-length") fs <> [] -> Forall (eq ds) (field_values (str "content-length") fs) ->
    dec_number ds (zlen body) -> delimited method status fs (body ++ rest) body rest
| fr_close s : ~ bodyless method status ->
    field_values (str "transfer-encoding") fs = [] -> field_values (str "content-length") fs = [] ->
    delimited method status fs s s [].
(** [answers ms s l]: the client that sent requests with the methods [ms] and
    received the bytes [s] has got the responses [l] (status and body), and
    nothing is left over. *)
Inductive answers : list (list Z) -> list Z -> list (Z * list Z) -> Prop :=
| an_nil : answers [] [] []
| an_cons m ms s ds reason fs s1 status body rest l :
    read_message s = Some (str "HTTP/1.1 " ++ ds ++ str " " ++ reason, fs, s1) -> dec_number ds status ->
    delimited m status fs s1 body rest -> answers ms rest l -> answers (m :: ms) s ((status, body) :: l).

(** ** The requests a client can expect a complete answer to *)
(** The head [h] is accepted by the parser and means the request [r]. *)
Definition request_in (g : hcfg) (h : list Z) (r : ureq) : Prop :=
  is_head h /\ zlen h <= MAX_HEADER /\ 0 < fst (hg_req g h) /\
  exists target method fields c, snd (hg_req g h) = (target, method, fields) /\ request_of (hg_url g) target method fields = (Ok c, r).
(** A request that goes to a proxied host, whose upstream takes it and sends
    [sent]. *)
Definition proxied_to (g : hcfg) (e : henv) (r : ureq) (sent : list Z) : Prop :=
  (exists m, find_host (hg_router g) (rq_host r) = Some m /\ adapter m = AProxy) /\ rq_schema r = str "http" /\
  he_conn e = true /\ sk_room (he_upout e) = None /\ nonempty_chunks (t_chunks (he_upin e)) /\ t_stream (he_upin e) = sent.
(** The request in [h], with method [m], is for an unknown host, or proxied and
    the upstream answers with a body, by length or in chunks: status and body. *)
Inductive answered (g : hcfg) (e : henv) (h : list Z) : list Z -> Z -> list Z -> Prop :=
| aw_unknown r : request_in g h r -> find_host (hg_router g) (rq_host r) = None -> plain (hg_reason g 404) ->
    answered g e h (rq_method r) 404 []
| aw_length r head parsed st hd body rest : request_in g h r -> proxied_to g e r (head ++ body ++ rest) ->
    is_head head -> zlen head <= MAX_HEADER -> hg_rsp g head = (parsed, rsp_of_lib st (zlen body) false hd) -> 0 < parsed ->
    0 < zlen body < 2 ^ 31 -> 0 <= st -> plain (hg_reason g st) -> Forall field_wf hd -> ~ bodyless (rq_method r) st ->
    field_values (str "transfer-encoding") hd = [] -> Forall (eq (decs (zlen body))) (field_values (str "content-length") hd) ->
    answered g e h (rq_method r) st body
| aw_chunked r head parsed st len hd wire body rest : request_in g h r -> proxied_to g e r (head ++ wire) ->
    is_head head -> zlen head <= MAX_HEADER -> hg_rsp g head = (parsed, rsp_of_lib st len true hd) -> 0 < parsed ->
    chunked wire body rest -> 0 <= st -> plain (hg_reason g st) -> Forall field_wf hd -> ~ bodyless (rq_method r) st ->
    Forall (eq (str "chunked")) (field_values (str "transfer-encoding") hd) ->
    answered g e h (rq_method r) st body.
(** Requests sent one after the other: head, method, status, body. *)
Fixpoint all_answered (g : hcfg) (envs : nat -> henv) (l : list (list Z * list Z * Z * list Z)) : Prop :=
  match l with
  | [] => True
  | (h, m, st, body) :: l' => answered g (envs O) h m st body /\ all_answered g (fun k => envs (S k)) l'
  end.
