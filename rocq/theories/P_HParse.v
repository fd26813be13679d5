(** HTTP heads end to end: theorems. *)
From Verif Require Import Base M_IO S_IO L_IO M_Text M_Packet M_Conf L_Conf M_Url S_Url L_Url P_Url M_Host M_Http S_Http L_Http L_Http2 L_Http3 P_Http M_HttpConn S_HttpConn L_HttpConn P_HttpConn M_HParse S_HParse L_HParse.

Lemma range_lit a b l : forallb (fun c => (a <=? c) && (c <=? b)) l = true -> Forall (fun c => a <= c <= b) l.
Proof. intros H. apply Forall_forall. intros c Hc. rewrite forallb_forall in H. specialize (H c Hc). lia. Qed.
Lemma target_lit l : (hd 0 l =? 47) && forallb (fun c => (33 <=? c) && (c <=? 126) && negb (c =? 35)) l = true -> target_ok l.
Proof.
  intros H. apply andb_true_iff in H as [H1 H2]. split; [lia|]. apply Forall_forall. intros c Hc. rewrite forallb_forall in H2. specialize (H2 c Hc). lia.
Qed.

(** There is a library as assumed below. *)
Theorem http_library_exists : exists lib, reads_requests lib /\ reads_responses lib /\ stops_at_fault lib.
Proof. exists some_lib. split; [exact some_requests|]. split; [exact some_responses|exact some_stops]. Qed.
Print Assumptions http_library_exists.

(** C182: of a well-formed request head the server gets the target, the method and
    every field, in order, repeated ones as well, and of a response head the
    status, the length or that there is none, whether it is in chunks, and every
    field. *)
Theorem request_head_exact : forall lib m u fs len te, reads_requests lib -> In m methods -> target_ok u -> Forall line_ok fs -> framed_as fs len te ->
  let t := head_text (request_line m u) (map one_line fs) in zlen t <= MAX_HEADER ->
  is_head t /\ parse_req_head lib t = (zlen t, (u, m, fs)).
Proof.
  intros lib m u fs len te Hlib Hm Hu Hf Hfr t Hl. destruct (request_line_ok m u Hm Hu) as (A1 & A2).
  split; [apply head_text_head; [exact A1|exact A2|apply rfields_one, Hf]|].
  rewrite <- (by_line_one fs) in Hfr. destruct (Hlib m u (map one_line fs) len te Hm Hu (rfields_one fs Hf) Hfr Hl) as (B1 & B2 & B3).
  fold t in B1, B2, B3. destruct (after_request _ _ _ B3) as (C1 & C2). unfold parse_req_head. rewrite B1, B2, C1, C2, by_line_one. reflexivity.
Qed.
Print Assumptions request_head_exact.
Theorem response_head_exact : forall lib ds st reason fs len te, reads_responses lib -> dec_number ds st -> zlen ds = 3 ->
  Forall (fun c => 32 <= c <= 126) reason -> Forall line_ok fs -> framed_as fs len te ->
  let t := head_text (status_line ds reason) (map one_line fs) in zlen t <= MAX_HEADER ->
  is_head t /\ exists cl, parse_rsp_head lib t = (zlen t, mkri st cl te fs) /\
    (forall n, len = Some n -> n < 2 ^ 31 -> cl = n) /\ (len = None -> cl = -1).
Proof.
  intros lib ds st reason fs len te Hlib Hd Hl Hr Hf Hfr t Hm. destruct (status_line_ok ds st reason Hd (print_plain _ Hr)) as (A1 & A2).
  split; [apply head_text_head; [exact A1|exact A2|apply rfields_one, Hf]|].
  pose proof Hfr as (Hcl & _).
  rewrite <- (by_line_one fs) in Hfr. destruct (Hlib ds st reason (map one_line fs) len te Hd Hl Hr (rfields_one fs Hf) Hfr Hm) as (B1 & B2 & B3 & B4 & B5).
  fold t in B1, B2, B3, B4, B5. exists (s32 (rp_cl (lib true t))). unfold parse_rsp_head, rsp_of_lib.
  split; [rewrite B1, B2, B4, (after_response _ _ B5), by_line_one; reflexivity|]. rewrite B3. split.
  - intros n -> Hn. destruct Hcl as (cl & _ & D & _). assert (0 <= n) by (clear -D; induction D; lia). unfold s32. rewrite Z.mod_small by lia. lia.
  - intros ->. reflexivity.
Qed.
Print Assumptions response_head_exact.
Definition hx_fields : list (list Z * list Z) :=
  [(str "Host", str "p"); (str "X-A", str "1 2"); (str "Content-Length", str "5"); (str "X-A", str "3")].
Lemma hx_lines : Forall line_ok hx_fields.
Proof. unfold hx_fields. repeat (apply Forall_cons; [apply lit_line; reflexivity|]). apply Forall_nil. Qed.
Lemma dec5 : dec_number (str "5") 5.
Proof. apply (dec_one 53). lia. Qed.
Lemma dec200 : dec_number (str "200") 200.
Proof.
  change (str "200") with (([50] ++ [48]) ++ [48]). change 200 with (10 * (10 * (50 - 48) + (48 - 48)) + (48 - 48)).
  apply dec_more; [|lia]. apply dec_more; [|lia]. apply dec_one. lia.
Qed.
Lemma hx_framed : framed_as hx_fields (Some 5) false.
Proof.
  split; [exists (str "5"); split; [reflexivity|split; [exact dec5|lia]]|]. split; [constructor|].
  split; [split; [discriminate|intros H; destruct H; reflexivity]|intros [? _]; discriminate].
Qed.
Example head_exact_case :
  In (str "POST") methods /\ target_ok (str "/live/a.flv?x=1") /\ Forall line_ok hx_fields /\ framed_as hx_fields (Some 5) false /\
  parse_req_head some_lib (head_text (request_line (str "POST") (str "/live/a.flv?x=1")) (map one_line hx_fields)) =
    (79, (str "/live/a.flv?x=1", str "POST", hx_fields)) /\
  parse_rsp_head some_lib (head_text (status_line (str "200") (str "OK")) (map one_line hx_fields)) = (65, mkri 200 5 false hx_fields).
Proof.
  split; [right; left; reflexivity|]. split; [apply target_lit; reflexivity|].
  split; [exact hx_lines|]. split; [exact hx_framed|]. split; vm_compute; reflexivity.
Qed.

(** C183: the lines of a value continued on further lines become fields of their
    own, each with the name of the field: one field does not arrive as one. *)
Theorem folded_value_split : forall lib m u fs len te, reads_requests lib -> In m methods -> target_ok u -> Forall rfield_ok fs ->
  framed_as (flat_map by_line fs) len te ->
  let t := head_text (request_line m u) fs in zlen t <= MAX_HEADER -> parse_req_head lib t = (zlen t, (u, m, flat_map by_line fs)).
Proof.
  intros lib m u fs len te Hlib Hm Hu Hf Hfr t Hl. destruct (Hlib m u fs len te Hm Hu Hf Hfr Hl) as (B1 & B2 & B3).
  fold t in B1, B2, B3. destruct (after_request _ _ _ B3) as (C1 & C2). unfold parse_req_head. rewrite B1, B2, C1, C2. reflexivity.
Qed.
Print Assumptions folded_value_split.
Theorem folded_value_joined_refuted : ~ forall lib m u fs len te, reads_requests lib -> In m methods -> target_ok u -> Forall rfield_ok fs ->
  framed_as (flat_map by_line fs) len te -> zlen (head_text (request_line m u) fs) <= MAX_HEADER ->
  map fst (snd (snd (parse_req_head lib (head_text (request_line m u) fs)))) = map (fun f => fst (fst f)) fs.
Proof.
  intros H. specialize (H some_lib (str "GET") (str "/") [(str "X-A", str "1", [str "2"])] None false some_requests (or_introl eq_refl)).
  assert (A : target_ok (str "/")) by (apply target_lit; reflexivity).
  assert (V1 : value_ok (str "1")) by (apply no_space_value; [discriminate|apply range_lit; reflexivity]).
  assert (V2 : value_ok (str "2")) by (apply no_space_value; [discriminate|apply range_lit; reflexivity]).
  assert (B : Forall rfield_ok [(str "X-A", str "1", [str "2"])]).
  { constructor; [|constructor]. split; [discriminate|]. split; [|split; [exact V1|constructor; [exact V2|constructor]]].
    apply Forall_forall. intros c Hc. apply name_b_ok. assert (K : forallb name_b (str "X-A") = true) by reflexivity. rewrite forallb_forall in K. exact (K c Hc). }
  assert (C : framed_as (flat_map by_line [(str "X-A", str "1", [str "2"])]) None false).
  { split; [reflexivity|]. split; [constructor|]. split; [split; [discriminate|intros K; destruct K; reflexivity]|intros [? _]; discriminate]. }
  specialize (H A B C ltac:(vm_compute; discriminate)). vm_compute in H. discriminate.
Qed.
Print Assumptions folded_value_joined_refuted.

(** C184: a well-formed request for a URL on a known host name means exactly that:
    the server's request has the host, port, path, parameters and method of the
    text and all its fields. *)
Theorem request_text_means : forall g lib host port path query m fs len te, server_with g lib -> reads_requests lib ->
  url_wf (str "http") host port (Some path) query -> In m methods -> Forall line_ok fs -> framed_as fs len te ->
  first_value (str "Host") fs (host ++ match port with Some p => 58 :: p | None => [] end) ->
  let u := path ++ match query with Some q => 63 :: q | None => [] end in
  let t := head_text (request_line m u) (map one_line fs) in zlen t <= MAX_HEADER ->
  exists r, request_in g t r /\ rq_schema r = str "http" /\ rq_host r = host /\
    rq_port r = match port with Some p => dec_value p 0 | None => 80 end /\
    rq_path r = path /\ rq_params r = opt_or query [] /\ rq_url r = u /\ rq_method r = m /\ rq_headers r = fs.
Proof.
  intros g lib host port path query m fs len te (S1 & _ & S3) Hlib Hwf Hm Hf Hfr Hh u t Hl.
  destruct (request_head_exact lib m u fs len te Hlib Hm (target_wf _ _ _ _ _ Hwf) Hf Hfr Hl) as (A1 & A2). fold t in A1, A2.
  destruct (request_with_host_full (hg_url g) host port (Some path) query m fs S3 Hwf (proj1 (method_chars m Hm)) Hh) as (r & B1 & B2).
  exists r. split; [|exact B2]. split; [exact A1|]. split; [exact Hl|]. rewrite S1, A2. cbn [fst snd].
  split; [pose proof (head_len t (is_head_shape t A1)); lia|]. exists u, m, fs, 0. split; [reflexivity|exact B1].
Qed.
Print Assumptions request_text_means.
(** Example server: host p is proxied. *)
Definition hx_cfg : hcfg := mkhg (fun _ => str "R") (parse_req_head some_lib) (parse_rsp_head some_lib) hp_url x_router input_exts output_exts (hg_decode x_cfg).
Lemma hx_server : server_with hx_cfg some_lib.
Proof. split; [reflexivity|]. split; [reflexivity|]. exact hp_url_ok. Qed.
Definition hx_head (fs : list (list Z * list Z)) : list Z := head_text (request_line (str "GET") (str "/a?b=1")) (map one_line fs).
Definition hx_get : list (list Z * list Z) := [(str "X", str "y"); (str "Host", str "p:81"); (str "X", str "z")].
Lemma hx_wf : url_wf (str "http") (str "p") (Some (str "81")) (Some (str "/a")) (Some (str "b=1")).
Proof. wf_solve. Qed.
Lemma hx_get_lines : Forall line_ok hx_get.
Proof. unfold hx_get. repeat (apply Forall_cons; [apply lit_line; reflexivity|]). apply Forall_nil. Qed.
Lemma hx_get_framed : framed_as hx_get None false.
Proof. split; [reflexivity|]. split; [constructor|]. split; [split; [discriminate|intros K; destruct K; reflexivity]|intros [? _]; discriminate]. Qed.
Lemma hx_get_host : first_value (str "Host") hx_get (str "p" ++ 58 :: str "81").
Proof. exists [(str "X", str "y")], [(str "X", str "z")]. split; [reflexivity|]. cbn. intros [H|[]]. discriminate. Qed.
Example request_text_case : server_with hx_cfg some_lib /\ exists r, request_in hx_cfg (hx_head hx_get) r /\ rq_host r = str "p" /\ rq_port r = 81 /\ rq_headers r = hx_get.
Proof.
  split; [exact hx_server|].
  destruct (request_text_means hx_cfg some_lib (str "p") (Some (str "81")) (str "/a") (Some (str "b=1")) (str "GET") hx_get None false hx_server some_requests hx_wf
    (or_introl eq_refl) hx_get_lines hx_get_framed hx_get_host ltac:(vm_compute; discriminate)) as (r & A & _ & B & C & _ & _ & _ & _ & D).
  exists r. auto.
Qed.

(** C185: a request whose head turns faulty at some field name is not refused: the
    server does everything it would do for the request that ends before that field.
    What follows the fault in the head is not looked at. *)
Theorem faulty_request_served : forall g lib e m u fs len te k c tail, server_with g lib -> reads_requests lib -> stops_at_fault lib ->
  In m methods -> target_ok u -> Forall line_ok fs -> framed_as fs len te -> Forall name_c k -> bad_c c ->
  let t := lines_text (request_line m u :: flat_map field_lines (map one_line fs)) ++ k ++ c :: tail in
  let t' := head_text (request_line m u) (map one_line fs) in
  is_head t -> zlen t <= MAX_HEADER -> zlen t' <= MAX_HEADER -> alone g e t = alone g e t'.
Proof.
  intros g lib e m u fs len te k c tail (S1 & _ & _) Hlib Hst Hm Hu Hf Hfr Hk Hc t t' Hh Hl Hl'.
  destruct (request_head_exact lib m u fs len te Hlib Hm Hu Hf Hfr Hl') as (A1 & A2). fold t' in A1, A2.
  rewrite <- (by_line_one fs) in Hfr. destruct (Hst m u (map one_line fs) len te k c tail Hm Hu (rfields_one fs Hf) Hfr Hk Hc Hl) as (B0 & B2 & B3).
  fold t in B0, B2, B3. destruct (after_request _ _ _ B3) as (C1 & C2). rewrite by_line_one in C2.
  apply (alone_eq g e t t' (rp_used (lib false t)) (zlen t') (u, m, fs)); try assumption; [lia| | |].
  - pose proof (head_len t' (is_head_shape t' A1)). lia.
  - rewrite S1. unfold parse_req_head. rewrite B2, C1, C2. reflexivity.
  - rewrite S1. exact A2.
Qed.
Print Assumptions faulty_request_served.
(** "A request with a character that is allowed in no field name is refused" is
    false: the request is forwarded, without anything from the fault on. *)
(** The upstream sends a chunked response. *)
Definition hx_rf : list (list Z * list Z) := [(str "X", str "y"); (str "Transfer-Encoding", str "chunked")].
Definition hx_rh : list Z := head_text (status_line (str "200") (str "OK")) (map one_line hx_rf).
Definition hx_rw : list Z := str "5" ++ [13; 10] ++ str "hello" ++ [13; 10] ++ str "0" ++ [13; 10; 13; 10].
Definition hx_env (x : list Z) : henv := mkhe (fun _ => false) (0, false) [] true (mktr [take 5 x; drop 5 x] (-5)) (mksk [] None 0).
Definition hx_e1 : henv := hx_env (hx_rh ++ hx_rw).
Definition hx_bad : list Z := lines_text (request_line (str "GET") (str "/a") :: flat_map field_lines (map one_line [(str "Host", str "p")])) ++ str "X@: y" ++ [13; 10; 13; 10].
Theorem malformed_request_refused_refuted : exists g lib e t, server_with g lib /\ reads_requests lib /\ stops_at_fault lib /\
  is_head t /\ In 64 t /\ fst (hg_req g t) < zlen t /\ fst (alone g e t) = Some (Ok 0) /\
  alone_up g e t = [(str "10.0.0.1", 81, http_request (str "GET") (str "/a") (str "p") [] [])] /\ alone_out g e t <> [].
Proof.
  exists hx_cfg, some_lib, hx_e1, hx_bad. split; [exact hx_server|]. split; [exact some_requests|]. split; [exact some_stops|].
  split. { exists [request_line (str "GET") (str "/a"); str "Host: p"; str "X@: y"]. split; [discriminate|]. split; [|reflexivity].
    repeat (apply Forall_cons; [split; [discriminate|apply plain_lit; reflexivity]|]). apply Forall_nil. }
  split; [vm_compute; intuition congruence|]. split; [vm_compute; reflexivity|]. split; [vm_compute; reflexivity|]. split; [vm_compute; reflexivity|].
  vm_compute. discriminate.
Qed.
Print Assumptions malformed_request_refused_refuted.

(** C186: a proxied request, read by another such server, is for the same host,
    path, parameters and method; it has the client's fields but for Host, in
    order, with Host before them and two fields after. *)
Theorem forwarded_request_means : forall gA libA gB libB e host port path query m fs, server_with gA libA -> reads_requests libA ->
  server_with gB libB -> reads_requests libB -> url_wf (str "http") host port (Some path) query -> In m methods -> Forall line_ok fs ->
  field_values (str "content-length") fs = [] -> field_values (str "transfer-encoding") fs = [] ->
  first_value (str "Host") fs (host ++ match port with Some p => 58 :: p | None => [] end) ->
  let u := path ++ match query with Some q => 63 :: q | None => [] end in
  let t := head_text (request_line m u) (map one_line fs) in zlen t <= MAX_HEADER ->
  exists r, request_in gA t r /\ forall sent, proxied_to gA e r sent -> sk_out (he_upout e) = [] ->
  exists addr pn t2, alone_up gA e t = [(addr, pn, t2)] /\ (zlen t2 <= MAX_HEADER ->
  exists r2, request_in gB t2 r2 /\ rq_host r2 = rq_host r /\ rq_path r2 = rq_path r /\ rq_params r2 = rq_params r /\
    rq_url r2 = rq_url r /\ rq_method r2 = rq_method r /\ rq_port r2 = 80 /\
    rq_headers r2 = (str "Host", host) :: filter (fun f => negb (eqb_list (fst f) (str "Host"))) fs ++ [(str "Accept", str "*/"); (str "Content-Length", str "0")]).
Proof.
  intros gA libA gB libB e host port path query m fs HA HlA HB HlB Hwf Hm Hf Hcl Hte Hh u t Hl.
  assert (Hfr : framed_as fs None false).
  { split; [exact Hcl|]. rewrite Hte. split; [constructor|]. split; [split; [discriminate|intros K; destruct K; reflexivity]|intros [? _]; discriminate]. }
  destruct (request_text_means gA libA host port path query m fs None false HA HlA Hwf Hm Hf Hfr Hh Hl) as (r & R & R0 & R1 & _ & R2 & R3 & R4 & R5 & R6).
  fold u in R, R4. fold t in R. exists r. split; [exact R|]. intros sent Hx He.
  destruct (alone_proxy gA e t r sent R Hx) as (addr & pn & Eal). destruct Hx as (_ & _ & _ & X4 & _).
  exists addr, pn, (http_request m u host [] fs). split.
  { assert (K : forall ret up ups o, proxy (hg_reason gA) (hg_rsp gA) (mkpq (rq_method r) (rq_url r) (rq_host r) (rq_headers r)) (he_upin e) (he_upout e) (mksk [] None 0) = (ret, up, ups, o) ->
      sk_out ups = http_request m u host [] fs).
    { intros ret up ups o. unfold proxy. unfold sk_write at 1. rewrite X4, http_request_nonempty. cbn [option_map pq_method pq_url pq_host pq_headers].
      rewrite He, R5, R4, R1, R6. cbn [app].
      destruct (read_head (he_upin e) MAX_HEADER) as [[hd|c| |] up1]; try (intros E; injection E as _ _ <- _; reflexivity).
      destruct (hg_rsp gA hd) as [pa ri]. destruct (pa <? 0); [intros E; injection E as _ _ <- _; reflexivity|]. destruct (pa =? 0); [intros E; injection E as _ _ <- _; reflexivity|].
      destruct (hr_write_header _ _ _) as [[[x|c| |] h1] c1]; try (intros E; injection E as _ _ <- _; reflexivity).
      destruct (relay _ _ _ _ _ _) as [[[x2|c| |] up2] c2]; intros E; injection E as _ _ <- _; reflexivity. }
    unfold alone_up. destruct (proxy _ _ _ _ _ _) as [[[ret up] ups] o]. specialize (K _ _ _ _ eq_refl). rewrite Eal.
    destruct ret; cbn [snd cs_up]; rewrite K; reflexivity. }
  intros Hl2. rewrite http_request_text in *.
  pose proof (uw_host _ _ _ _ _ Hwf) as (W1 & W2).
  assert (Hwf2 : url_wf (str "http") host None (Some path) query).
  { destruct Hwf as [U1 U2 U3 U4 U5]. constructor; [exact U1|exact U2|exact I|exact U4|exact U5]. }
  assert (Hf2 : Forall line_ok (fwd_fields host fs)) by (apply fwd_ok; [apply host_value; assumption|exact Hf]).
  assert (Hv : forall k, same_name (str "Host") k = false -> field_values k (filter not_host fs) = field_values k fs).
  { intros k Hk. apply field_values_filter. intros f Hs. unfold not_host. destruct (eqb_list (fst f) (str "Host")) eqn:E; [|reflexivity].
    apply eqb_list_spec in E. rewrite E in Hs. congruence. }
  assert (Hfr2 : framed_as (fwd_fields host fs) (Some 0) false).
  { assert (T : field_values (str "transfer-encoding") (fwd_fields host fs) = []).
    { unfold fwd_fields. change (?a :: ?l) with ([a] ++ l). rewrite !field_values_app. change ([?a] ++ ?l) with (a :: l). rewrite Hv, Hte by reflexivity. reflexivity. }
    split; [|rewrite T; split; [constructor|split; [split; [discriminate|intros K; destruct K; reflexivity]|intros [? _]; discriminate]]].
    exists (str "0"). split; [|split; [apply (dec_one 48); lia|lia]].
    unfold fwd_fields. change (?a :: ?l) with ([a] ++ l). rewrite !field_values_app. change ([?a] ++ ?l) with (a :: l). rewrite Hv, Hcl by reflexivity. reflexivity. }
  assert (Hh2 : first_value (str "Host") (fwd_fields host fs) (host ++ [])).
  { exists [], (filter not_host fs ++ [(str "Accept", str "*/"); (str "Content-Length", str "0")]). split; [rewrite app_nil_r; reflexivity|]. intros []. }
  destruct (request_text_means gB libB host None path query m (fwd_fields host fs) _ _ HB HlB Hwf2 Hm Hf2 Hfr2 Hh2 Hl2) as (r2 & Q & Q0 & Q1 & Q1p & Q2 & Q3 & Q4 & Q5 & Q6).
  exists r2. split; [exact Q|]. rewrite Q1, Q2, Q3, Q4, Q5, Q6, Q1p, R1, R2, R3, R4, R5. repeat split.
Qed.
Print Assumptions forwarded_request_means.
Example forwarded_request_case : exists r, request_in hx_cfg (hx_head hx_get) r /\ proxied_to hx_cfg x_env r (t_stream (he_upin x_env)) /\
  alone_up hx_cfg x_env (hx_head hx_get) = [(str "10.0.0.1", 81,
    head_text (request_line (str "GET") (str "/a?b=1")) (map one_line [(str "Host", str "p"); (str "X", str "y"); (str "X", str "z"); (str "Accept", str "*/"); (str "Content-Length", str "0")]))].
Proof.
  destruct (request_text_means hx_cfg some_lib (str "p") (Some (str "81")) (str "/a") (Some (str "b=1")) (str "GET") hx_get None false hx_server some_requests hx_wf
    (or_introl eq_refl) hx_get_lines hx_get_framed hx_get_host ltac:(vm_compute; discriminate)) as (r & A & A0 & B & C & _ & _ & _ & _ & D).
  exists r. split; [exact A|]. split; [|vm_compute; reflexivity].
  split. { exists (x_host "p" [(str "pass_proxy", str "10.0.0.1:81")]). rewrite B. split; reflexivity. }
  split; [exact A0|]. split; [reflexivity|]. split; [reflexivity|]. split; [|reflexivity].
  repeat (apply Forall_cons; [vm_compute; discriminate|]). apply Forall_nil.
Qed.
(** A request forwarded by two such servers carries two lengths. *)
Theorem forwarded_twice_two_lengths : forall host fs, field_values (str "content-length") fs = [] ->
  let once := (str "Host", host) :: filter not_host fs ++ [(str "Accept", str "*/"); (str "Content-Length", str "0")] in
  forall m u, plain m -> ~ In 32 m -> plain u -> ~ In 32 u -> plain host -> Forall field_wf fs ->
  exists fs2, read_request (http_request m u host [] once) = Some (m, u, str "HTTP/1.1", fs2, []) /\
    field_values (str "content-length") fs2 = [str "0"; str "0"] /\ forall len te, ~ framed_as fs2 len te.
Proof.
  intros host fs Hcl once m u M1 M2 U1 U2 H1 Hf.
  assert (Ho : Forall field_wf once).
  { unfold once. constructor; [split; [apply plain_lit; reflexivity|split; [exact H1|apply notin_lit; reflexivity]]|]. apply Forall_app. split.
    - rewrite Forall_forall in *. intros x Hx. apply filter_In in Hx as [Hx _]. auto.
    - constructor; [|constructor; [|constructor]]; (split; [apply plain_lit; reflexivity|split; [apply plain_lit; reflexivity|apply notin_lit; reflexivity]]). }
  eexists. split; [apply read_request_ok; assumption|].
  assert (Hv : forall l, field_values (str "content-length") (filter not_host l) = field_values (str "content-length") l).
  { intros l. apply field_values_filter. intros f Hs. unfold not_host. destruct (eqb_list (fst f) (str "Host")) eqn:E; [|reflexivity].
    apply eqb_list_spec in E. rewrite E in Hs. discriminate. }
  assert (V : field_values (str "content-length") ((str "Host", host) :: filter not_host once ++ [(str "Accept", str "*/"); (str "Content-Length", decs (zlen (@nil Z)))]) = [str "0"; str "0"]).
  { change (?a :: filter not_host once ++ ?l) with ([a] ++ filter not_host once ++ l). rewrite !field_values_app, Hv. unfold once.
    change (?a :: filter not_host fs ++ ?l) with ([a] ++ filter not_host fs ++ l). rewrite !field_values_app, Hv, Hcl. reflexivity. }
  split; [exact V|]. intros len te (F & _). rewrite V in F. destruct len as [n|]; [destruct F as (ds & F & _); discriminate|discriminate].
Qed.
Print Assumptions forwarded_twice_two_lengths.
Example forwarded_twice_case : field_values (str "content-length") [(str "Host", str "p"); (str "X", str "y")] = [] /\
  Forall field_wf [(str "Host", str "p"); (str "X", str "y")].
Proof. split; [reflexivity|]. repeat (apply Forall_cons; [split; [apply plain_lit; reflexivity|split; [apply plain_lit; reflexivity|apply notin_lit; reflexivity]]|]). apply Forall_nil. Qed.

(** C187: through any number of such servers one behind the other, the client gets
    the origin's status, end-to-end fields and body, and reads just that. *)
Theorem proxy_chain_delivers : forall st fs body l h w h' w' m, 100 <= st -> good_msg st fs body h w ->
  (w = body -> 0 < zlen body < 2 ^ 31) -> relays st body h w l h' w' -> ~ bodyless m st ->
  good_msg st fs body h' w' /\ answers [m] (h' ++ w') [(st, body)].
Proof.
  intros st fs body l h w h' w' m Hst Hg Hb Hr Hm. assert (K : good_msg st fs body h' w'); [|split; [exact K|exact (good_reads st fs body h' w' m Hst K Hm)]].
  clear Hm. induction Hr as [h w|h w g e t lib r l h1 w1 h2 w2 HS Hlib Hreq Hx Hl Hnb Hre Eo Hh1 Hr IH]; [exact Hg|].
  destruct (hop lib g e t r st fs body h w HS Hlib Hreq Hst Hg Hb Hl Hx Hre) as (_ & h3 & w3 & E & Hh3 & G3 & B3).
  rewrite Eo in E. destruct (head_prefix h1 w1 h3 w3 Hh1 Hh3 E) as (-> & ->). apply IH; assumption.
Qed.
Print Assumptions proxy_chain_delivers.
(** Example: two servers; the origin sends a chunked response. *)
Definition hx_e2 : henv := hx_env (alone_out hx_cfg hx_e1 (hx_head hx_get)).
Definition hx_split (x : list Z) : list Z * list Z := match read_head (mktr [x] 0) MAX_HEADER with (Ok h, _) => (h, drop (zlen h) x) | _ => ([], []) end.
Definition hx_m1 : list Z * list Z := hx_split (alone_out hx_cfg hx_e1 (hx_head hx_get)).
Definition hx_m2 : list Z * list Z := hx_split (alone_out hx_cfg hx_e2 (hx_head hx_get)).
Lemma hx_good : good_msg 200 [(str "X", str "y")] (str "hello") hx_rh hx_rw.
Proof.
  apply gm_chunks; [exact dec200|reflexivity| | |reflexivity| |].
  - apply range_lit. reflexivity.
  - unfold hx_rf. repeat (apply Forall_cons; [apply lit_line; reflexivity|]). apply Forall_nil.
  - split; [reflexivity|]. split; [constructor; [reflexivity|constructor]|]. split; [split; [discriminate|reflexivity]|]. intros [_ H]. apply H. reflexivity.
  - unfold hx_rw. change (str "hello") with (str "hello" ++ []) at 2. change (str "5") with (hexs 5). change (str "0") with (hexs 0).
    change (chunked (hexs 5 ++ [13; 10] ++ str "hello" ++ [13; 10] ++ (hexs 0 ++ [13; 10] ++ [13; 10] ++ [])) (str "hello" ++ []) []).
    apply ch_chunk; [exact (hexs_size_text 5 ltac:(lia))|discriminate|]. apply ch_last. exact (hexs_size_text 0 ltac:(lia)).
Qed.
Lemma hx_relay e sent : he_conn e = true -> sk_room (he_upout e) = None -> nonempty_chunks (t_chunks (he_upin e)) -> t_stream (he_upin e) = sent ->
  exists r, request_in hx_cfg (hx_head hx_get) r /\ proxied_to hx_cfg e r sent /\ rq_method r = str "GET".
Proof.
  intros E1 E2 E3 E4.
  destruct (request_text_means hx_cfg some_lib (str "p") (Some (str "81")) (str "/a") (Some (str "b=1")) (str "GET") hx_get None false hx_server some_requests hx_wf
    (or_introl eq_refl) hx_get_lines hx_get_framed hx_get_host ltac:(vm_compute; discriminate)) as (r & A & A0 & B & _ & _ & _ & _ & M & _).
  exists r. split; [exact A|]. split; [|exact M].
  split. { exists (x_host "p" [(str "pass_proxy", str "10.0.0.1:81")]). rewrite B. split; reflexivity. }
  split; [exact A0|]. auto.
Qed.
Example proxy_chain_case : good_msg 200 [(str "X", str "y")] (str "hello") hx_rh hx_rw /\
  relays 200 (str "hello") hx_rh hx_rw [(hx_cfg, hx_e1, hx_head hx_get); (hx_cfg, hx_e2, hx_head hx_get)] (fst hx_m2) (snd hx_m2).
Proof.
  split; [exact hx_good|].
  assert (NB : forall r, rq_method r = str "GET" -> ~ bodyless (rq_method r) 200) by (intros r E [H|[H|[H|H]]]; [rewrite E in H; discriminate|lia|discriminate|discriminate]).
  assert (R : Forall (fun c => 32 <= c <= 126) (hg_reason hx_cfg 200)) by (apply range_lit; reflexivity).
  assert (G1 : exists h1 w1, alone_out hx_cfg hx_e1 (hx_head hx_get) = h1 ++ w1 /\ is_head h1 /\ h1 = fst hx_m1 /\ w1 = snd hx_m1).
  { destruct (hx_relay hx_e1 (hx_rh ++ hx_rw) eq_refl eq_refl) as (r & A & B & C); [apply Forall_cons; [vm_compute; discriminate|apply Forall_cons; [vm_compute; discriminate|apply Forall_nil]]|reflexivity|].
    destruct (hop some_lib hx_cfg hx_e1 (hx_head hx_get) r 200 _ _ _ _ hx_server some_responses A ltac:(lia) hx_good ltac:(intros _; vm_compute; auto) ltac:(vm_compute; discriminate) B R)
      as (_ & h1 & w1 & E & Hh & _).
    assert (E2 : alone_out hx_cfg hx_e1 (hx_head hx_get) = fst hx_m1 ++ snd hx_m1) by (vm_compute; reflexivity).
    assert (Hh2 : is_head (fst hx_m1)).
    { exists [str "HTTP/1.1 200 R"; str "Transfer-Encoding: chunked"; str "X: y"; str "Transfer-Encoding: chunked"; str "Server: sps"]. split; [discriminate|].
      split; [|vm_compute; reflexivity]. repeat (apply Forall_cons; [split; [discriminate|apply plain_lit; reflexivity]|]). apply Forall_nil. }
    exists (fst hx_m1), (snd hx_m1). auto. }
  assert (G2 : alone_out hx_cfg hx_e2 (hx_head hx_get) = fst hx_m2 ++ snd hx_m2 /\ is_head (fst hx_m2)).
  { split; [vm_compute; reflexivity|].
    exists [str "HTTP/1.1 200 R"; str "Transfer-Encoding: chunked"; str "Transfer-Encoding: chunked"; str "X: y"; str "Transfer-Encoding: chunked"; str "Server: sps"]. split; [discriminate|].
      split; [|vm_compute; reflexivity]. repeat (apply Forall_cons; [split; [discriminate|apply plain_lit; reflexivity]|]). apply Forall_nil. }
  destruct G1 as (h1 & w1 & E1 & I1 & -> & ->). destruct G2 as (E2 & I2).
  destruct (hx_relay hx_e1 (hx_rh ++ hx_rw) eq_refl eq_refl) as (r & A & B & C); [apply Forall_cons; [vm_compute; discriminate|apply Forall_cons; [vm_compute; discriminate|apply Forall_nil]]|reflexivity|].
  eapply re_cons; [exact hx_server|exact some_responses|exact A|exact B|vm_compute; discriminate|apply NB, C|exact R|exact E1|exact I1|].
  destruct (hx_relay hx_e2 (fst hx_m1 ++ snd hx_m1) eq_refl eq_refl) as (r2 & A2 & B2 & C2).
  { apply Forall_cons; [vm_compute; discriminate|apply Forall_cons; [vm_compute; discriminate|apply Forall_nil]]. } { rewrite <- E1. vm_compute. reflexivity. }
  eapply re_cons; [exact hx_server|exact some_responses|exact A2|exact B2|vm_compute; discriminate|apply NB, C2|exact R|exact E2|exact I2|]. apply re_nil.
Qed.

(** C188: a request whose Host field is spelled otherwise has no host field for the
    server: the first segment of the path is taken for the host, and a length or
    transfer coding spelled otherwise is not seen. *)
Theorem host_spelling_matters : forall g lib seg path query m fs len te, server_with g lib -> reads_requests lib ->
  url_wf (str "http") seg None (Some path) query -> In m methods -> Forall line_ok fs -> framed_as fs len te ->
  ~ In (str "Host") (map fst fs) ->
  let t := head_text (request_line m (47 :: seg ++ path ++ match query with Some q => 63 :: q | None => [] end)) (map one_line fs) in zlen t <= MAX_HEADER ->
  exists r, request_in g t r /\ rq_host r = seg /\ rq_path r = path /\ rq_params r = opt_or query [].
Proof.
  intros g lib seg path query m fs len te (S1 & _ & S3) Hlib Hwf Hm Hf Hfr Hh t Hl.
  set (u := 47 :: seg ++ path ++ match query with Some q => 63 :: q | None => [] end) in *.
  assert (Hu : target_ok u).
  { split; [reflexivity|]. unfold u. constructor; [lia|]. apply Forall_app. split.
    - eapply Forall_impl; [|exact (proj2 (uw_host _ _ _ _ _ Hwf))]. unfold host_c, alpha, digit_c. lia.
    - exact (proj2 (target_wf _ _ _ _ _ Hwf)). }
  destruct (request_head_exact lib m u fs len te Hlib Hm Hu Hf Hfr Hl) as (A1 & A2). fold t in A1, A2.
  destruct (request_without_host (hg_url g) seg (Some path) query m fs S3 Hwf (proj1 (method_chars m Hm)) Hh) as (r & B1 & B2).
  exists r. split; [|exact B2]. split; [exact A1|]. split; [exact Hl|]. rewrite S1, A2. cbn [fst snd].
  split; [pose proof (head_len t (is_head_shape t A1)); lia|]. exists u, m, fs, 0. split; [reflexivity|exact B1].
Qed.
Print Assumptions host_spelling_matters.
Theorem length_spelling_matters : forall r, ~ In (str "Content-Length") (map fst (rq_headers r)) -> ~ In (str "Transfer-Encoding") (map fst (rq_headers r)) ->
  rq_content_length r = -1 /\ rq_is_chunked r = false.
Proof.
  intros r H1 H2. unfold rq_content_length, rq_is_chunked, get_header. rewrite !kv_find_none by assumption. split; reflexivity.
Qed.
Print Assumptions length_spelling_matters.
(** Spelled as usual they are seen, the first of them. *)
Theorem length_read : forall r,
  (first_value (str "Transfer-Encoding") (rq_headers r) (str "chunked") -> rq_is_chunked r = true) /\
  (forall v, first_value (str "Transfer-Encoding") (rq_headers r) v -> v <> str "chunked" -> rq_is_chunked r = false) /\
  (forall ds, first_value (str "Content-Length") (rq_headers r) ds -> ds <> [] -> Forall (fun c => 48 <= c <= 57) ds -> dec_value ds 0 < 2 ^ 31 ->
     rq_content_length r = dec_value ds 0).
Proof.
  intros r. unfold rq_is_chunked, rq_content_length, get_header. split; [|split].
  - intros H. rewrite (kv_find_first _ _ _ H). reflexivity.
  - intros v H Hv. rewrite (kv_find_first _ _ _ H). cbn [opt_or]. destruct (eqb_list v (str "chunked")) eqn:E; [|reflexivity].
    apply eqb_list_spec in E. contradiction.
  - intros ds H Hne Hd Hm. rewrite (kv_find_first _ _ _ H). cbn [opt_or]. pose proof (conf_number ds Hne Hd Hm). destruct ds; [contradiction|assumption].
Qed.
Print Assumptions length_read.
Example length_read_case :
  first_value (str "Content-Length") [(str "Host", str "p"); (str "Content-Length", str "120"); (str "Content-Length", str "7")] (str "120") /\
  dec_value (str "120") 0 = 120.
Proof. split; [exists [(str "Host", str "p")], [(str "Content-Length", str "7")]; split; [reflexivity|]|reflexivity]. intros [H|[]]. discriminate. Qed.
(** "Field names are compared without regard to case" is false: two heads that
    differ in nothing else, one forwarded, one answered with 404. *)
Theorem names_compared_caseless_refuted : exists g lib e fs fs', server_with g lib /\ reads_requests lib /\ Forall line_ok fs /\ Forall line_ok fs' /\
  map (fun f => (map lower (fst f), snd f)) fs = map (fun f => (map lower (fst f), snd f)) fs' /\
  (let t := head_text (request_line (str "GET") (str "/s/a")) (map one_line fs) in let t' := head_text (request_line (str "GET") (str "/s/a")) (map one_line fs') in
   zlen (alone_up g e t) = 1 /\ alone_up g e t' = [] /\ take 12 (alone_out g e t) = str "HTTP/1.1 200" /\ take 12 (alone_out g e t') = str "HTTP/1.1 404").
Proof.
  exists (mkhg (fun _ => str "R") (parse_req_head some_lib) (parse_rsp_head some_lib) hp_url (mkrt [(str "p", x_host "p" [(str "pass_proxy", str "10.0.0.1:81")])] [] None) input_exts output_exts (hg_decode x_cfg)),
    some_lib, hx_e1, [(str "Host", str "p")], [(str "host", str "p")].
  split; [split; [reflexivity|split; [reflexivity|exact hp_url_ok]]|]. split; [exact some_requests|].
  split; [apply Forall_cons; [apply lit_line; reflexivity|apply Forall_nil]|]. split; [apply Forall_cons; [apply lit_line; reflexivity|apply Forall_nil]|].
  split; [reflexivity|]. cbv zeta. repeat split; vm_compute; reflexivity.
Qed.
Print Assumptions names_compared_caseless_refuted.
Example spelling_case : ~ In (str "Host") (map fst [(str "host", str "p"); (str "content-length", str "5")]) /\
  url_wf (str "http") (str "s") None (Some (str "/a")) None /\
  framed_as [(str "host", str "p"); (str "content-length", str "5")] (Some 5) false.
Proof.
  split; [cbn; intros [H|[H|[]]]; discriminate|]. split; [wf_solve|].
  split; [exists (str "5"); split; [reflexivity|split; [exact dec5|lia]]|]. split; [constructor|].
  split; [split; [discriminate|intros H; destruct H; reflexivity]|intros [? _]; discriminate].
Qed.
