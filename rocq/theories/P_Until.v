(** The proxy with upstreams that do not say how long their response is, or
    stop before it is complete: property theorems. *)
From Verif Require Import Base M_IO S_IO L_IO M_Text M_Http S_Http L_Http L_Http2 L_Http3 P_Http L_Until.

(** ** C232 *)

(** A response that is not chunked and whose length is not given, or does not fit
    into the positive half of 32 bits (2 to 4 GiB, 6 to 8 GiB, ...), is relayed until
    the upstream's connection ends, whatever has been announced; the fields that
    announce a length are those of the upstream. *)
Theorem proxy_open_body :
  forall reason lib rq up ups client head parsed st hd len body,
    is_head head -> zlen head <= MAX_HEADER -> nonempty_chunks (t_chunks up) -> t_stream up = head ++ body ->
    lib head = (parsed, rsp_of_lib st len false hd) -> 0 < parsed -> sk_room ups = None -> sk_room client = None ->
    2 ^ 31 <= len mod 2 ^ 32 -> t_err up <> ERROR_HTTP_RES_EOF ->
    0 <= st -> plain (reason st) -> Forall field_wf hd ->
  exists up1 ups1 c1 rh fs, proxy reason lib rq up ups client = (Err (t_err up), up1, ups1, c1) /\
    t_stream up1 = [] /\ sk_out c1 = sk_out client ++ rh ++ body /\
    read_message (rh ++ body) = Some (str "HTTP/1.1 " ++ decs st ++ str " " ++ reason st, fs, body) /\
    values_of (str "Content-Length") fs = values_of (str "Content-Length") hd.
Proof.
  intros reason lib rq up ups client head parsed st hd len body Hh Hm Hne Hst Hlib Hp Hu Hc Hl He Hs0 Hre Hwf.
  destruct (proxy_start_err reason lib rq up ups client head parsed _ body Hh Hm Hne Hst Hlib Hp Hu Hc) as (up1 & U1 & U2 & U3 & ->).
  unfold rsp_of_lib. cbn [ri_status ri_cl ri_chunked ri_headers].
  assert (Hneg : s32 len < 0).
  { unfold s32. pose proof (Z.mod_pos_bound len (2 ^ 32) ltac:(lia)).
    rewrite <- Z.add_mod_idemp_l by lia. replace (len mod 2 ^ 32 + 2 ^ 31) with (len mod 2 ^ 32 - 2 ^ 31 + 1 * 2 ^ 32) by lia.
    rewrite Z.mod_add by lia. rewrite Z.mod_small by lia. lia. }
  set (h1 := mkhr st true (s32 len) false hd). set (h0 := mkhr st false (s32 len) false hd).
  destruct (relay_open (S (S (length body))) reason (hb_new false (s32 len)) up1 h1
     (mksk (sk_out client ++ response_head reason h0) None (sk_err client))) as (up2 & s2 & -> & A & B); try reflexivity; try assumption.
  { rewrite U1. unfold zlen. lia. }
  eexists _, _, s2, (response_head reason h0), (rsp_fields h0). rewrite U3.
  destruct (Z.eqb_spec (t_err up) ERROR_HTTP_RES_EOF); [contradiction|].
  split; [reflexivity|]. split; [exact A|]. split; [rewrite B, U1; cbn [sk_out]; rewrite <- app_assoc; reflexivity|].
  split; [apply response_head_message; assumption|]. apply (response_cl_open h0 eq_refl Hneg).
Qed.
Print Assumptions proxy_open_body.

(** So what the client is sent does not tell how the upstream's connection
    ended: a response without length that broke off looks like a complete one. *)
Theorem proxy_open_cut_unseen :
  forall reason lib rq up up' ups ups' client head parsed st hd len body,
    is_head head -> zlen head <= MAX_HEADER -> nonempty_chunks (t_chunks up) -> nonempty_chunks (t_chunks up') ->
    t_stream up = head ++ body -> t_stream up' = t_stream up ->
    lib head = (parsed, rsp_of_lib st len false hd) -> 0 < parsed -> sk_room ups = None -> sk_room ups' = None -> sk_room client = None ->
    2 ^ 31 <= len mod 2 ^ 32 -> t_err up <> ERROR_HTTP_RES_EOF -> t_err up' <> ERROR_HTTP_RES_EOF ->
    0 <= st -> plain (reason st) -> Forall field_wf hd ->
  sk_out (snd (proxy reason lib rq up ups client)) = sk_out (snd (proxy reason lib rq up' ups' client)).
Proof.
  intros reason lib rq up up' ups ups' client head parsed st hd len body Hh Hm Hne Hne' Hst Hst' Hlib Hp Hu Hu' Hc Hl He He' Hs0 Hre Hwf.
  destruct (proxy_start_err reason lib rq up ups client head parsed _ body Hh Hm Hne Hst Hlib Hp Hu Hc) as (u1 & U1 & U2 & U3 & E1).
  rewrite Hst in Hst'.
  destruct (proxy_start_err reason lib rq up' ups' client head parsed _ body Hh Hm Hne' Hst' Hlib Hp Hu' Hc) as (v1 & V1 & V2 & V3 & E2).
  assert (Hneg : s32 len < 0).
  { unfold s32. pose proof (Z.mod_pos_bound len (2 ^ 32) ltac:(lia)).
    rewrite <- Z.add_mod_idemp_l by lia. replace (len mod 2 ^ 32 + 2 ^ 31) with (len mod 2 ^ 32 - 2 ^ 31 + 1 * 2 ^ 32) by lia.
    rewrite Z.mod_add by lia. rewrite Z.mod_small by lia. lia. }
  rewrite E1, E2. unfold rsp_of_lib. cbn [ri_status ri_cl ri_chunked ri_headers].
  set (h1 := mkhr st true (s32 len) false hd). set (h0 := mkhr st false (s32 len) false hd).
  set (c0 := mksk (sk_out client ++ response_head reason h0) None (sk_err client)).
  destruct (relay_open (S (S (length body))) reason (hb_new false (s32 len)) u1 h1 c0) as (x2 & s2 & -> & _ & K); try reflexivity; try assumption.
  { rewrite U1. unfold zlen. lia. }
  destruct (relay_open (S (S (length body))) reason (hb_new false (s32 len)) v1 h1 c0) as (y2 & s3 & -> & _ & K2); try reflexivity; try assumption.
  { rewrite V1. unfold zlen. lia. }
  cbn [snd]. rewrite K, K2, U1, V1. reflexivity.
Qed.
Print Assumptions proxy_open_cut_unseen.

(** A response without length, and one that announces three gibibytes and sends
    less: the upstream's field goes to the client. *)
Example proxy_open_case :
  (2 ^ 64 - 1) mod 2 ^ 32 = 2 ^ 32 - 1 /\ 2 ^ 31 <= 3221225472 mod 2 ^ 32 /\
  (let out err len hd := proxy (fun _ => str "OK") (fun _ => (1, rsp_of_lib 200 len false hd)) ex_prq
     (mktr [ex_rhead ++ str "he"; str "llo"] err) (mksk [] None (-5)) (mksk [] None (-5)) in
   fst (fst (fst (out (-7) (2 ^ 64 - 1) []))) = Err (-7) /\
   sk_out (snd (out (-7) (2 ^ 64 - 1) [])) = str "HTTP/1.1 200 OK" ++ [13; 10] ++ str "Server: sps" ++ [13; 10; 13; 10] ++ str "hello" /\
   sk_out (snd (out (-9) (2 ^ 64 - 1) [])) = sk_out (snd (out (-7) (2 ^ 64 - 1) [])) /\
   sk_out (snd (out (-7) 3221225472 [(str "Content-Length", str "3221225472")])) =
     str "HTTP/1.1 200 OK" ++ [13; 10] ++ str "Content-Length: 3221225472" ++ [13; 10] ++ str "Server: sps" ++ [13; 10; 13; 10] ++ str "hello").
Proof. split; [reflexivity|]. split; [vm_compute; discriminate|]. vm_compute. repeat split. Qed.

(** ** C233 *)

(** A response whose length is given and whose upstream stops before it: the
    client has been promised the full length and sent less. *)
Theorem proxy_short_body_seen :
  forall reason lib rq up ups client head parsed st hd len part,
    is_head head -> zlen head <= MAX_HEADER -> nonempty_chunks (t_chunks up) -> t_stream up = head ++ part ->
    lib head = (parsed, rsp_of_lib st len false hd) -> 0 < parsed -> sk_room ups = None -> sk_room client = None ->
    zlen part < len < 2 ^ 31 -> t_err up <> ERROR_HTTP_RES_EOF ->
    0 <= st -> plain (reason st) -> Forall field_wf hd ->
  exists up1 ups1 c1 rh fs, proxy reason lib rq up ups client = (Err (t_err up), up1, ups1, c1) /\
    sk_out c1 = sk_out client ++ rh ++ part /\
    read_message (rh ++ part) = Some (str "HTTP/1.1 " ++ decs st ++ str " " ++ reason st, fs, part) /\
    values_of (str "Content-Length") fs = [decs len].
Proof.
  intros reason lib rq up ups client head parsed st hd len part Hh Hm Hne Hst Hlib Hp Hu Hc Hl He Hs0 Hre Hwf.
  destruct (proxy_start_err reason lib rq up ups client head parsed _ part Hh Hm Hne Hst Hlib Hp Hu Hc) as (up1 & U1 & U2 & U3 & ->).
  unfold rsp_of_lib. cbn [ri_status ri_cl ri_chunked ri_headers]. pose proof (zlen_nonneg part).
  assert (s32 len = len) as -> by (unfold s32; rewrite Z.mod_small by lia; lia).
  set (h1 := mkhr st true len false hd). set (h0 := mkhr st false len false hd).
  destruct (relay_short (S (S (length part))) reason (hb_new false len) up1 h1
     (mksk (sk_out client ++ response_head reason h0) None (sk_err client))) as (up2 & s2 & -> & A & B); try reflexivity; try assumption.
  { rewrite U1. cbn [hb_nread hb_cl hb_new]. lia. }
  { rewrite U1. unfold zlen. lia. }
  eexists _, _, s2, (response_head reason h0), (rsp_fields h0). rewrite U3.
  destruct (Z.eqb_spec (t_err up) ERROR_HTTP_RES_EOF); [contradiction|].
  split; [reflexivity|]. split; [rewrite B, U1; cbn [sk_out]; rewrite <- app_assoc; reflexivity|].
  split; [apply response_head_message; assumption|]. apply response_cl; [reflexivity|cbn [hr_cl h0]; lia].
Qed.
Print Assumptions proxy_short_body_seen.

(** A chunked response: whatever bytes the upstream sends, the client is sent a
    complete chunked body exactly when the proxy reports success; otherwise
    nothing it has been sent begins with one. *)
Theorem proxy_chunked_outcome :
  forall reason lib rq up ups client head parsed st len hd sent,
    is_head head -> zlen head <= MAX_HEADER -> nonempty_chunks (t_chunks up) -> t_stream up = head ++ sent ->
    lib head = (parsed, rsp_of_lib st len true hd) -> 0 < parsed -> sk_room ups = None -> sk_room client = None ->
    t_err up <> ERROR_HTTP_RES_EOF -> 0 <= st -> plain (reason st) -> Forall field_wf hd ->
  exists x up1 ups1 c1 rh fs out, proxy reason lib rq up ups client = (x, up1, ups1, c1) /\
    sk_out c1 = sk_out client ++ rh ++ out /\
    read_message (rh ++ out) = Some (str "HTTP/1.1 " ++ decs st ++ str " " ++ reason st, fs, out) /\
    ((x = Ok 1 /\ exists body, chunked out body []) \/
     (exists c, x = Err c /\ forall body rest, ~ chunked out body rest)).
Proof.
  intros reason lib rq up ups client head parsed st len hd sent Hh Hm Hne Hst Hlib Hp Hu Hc He Hs0 Hre Hwf.
  destruct (proxy_start_err reason lib rq up ups client head parsed _ sent Hh Hm Hne Hst Hlib Hp Hu Hc) as (up1 & U1 & U2 & U3 & ->).
  unfold rsp_of_lib. cbn [ri_status ri_cl ri_chunked ri_headers].
  set (h1 := mkhr st true (s32 len) true hd). set (h0 := mkhr st false (s32 len) true hd).
  destruct (relay_any (S (length sent)) reason (hb_new true (s32 len)) up1 h1
     (mksk (sk_out client ++ response_head reason h0) None (sk_err client))) as (c & up2 & s2 & ds & -> & F & G); try reflexivity; try assumption.
  { unfold mid. cbn. repeat split; lia. }
  { rewrite U3. exact He. }
  { rewrite U1. unfold zlen. lia. }
  destruct G as [(G1 & G2)|(-> & G2)].
  - eexists _, _, _, s2, (response_head reason h0), (rsp_fields h0), (flat_map enc ds).
    destruct (Z.eqb_spec c ERROR_HTTP_RES_EOF); [contradiction|].
    split; [reflexivity|]. split; [rewrite G2; cbn [sk_out]; rewrite <- app_assoc; reflexivity|].
    split; [apply response_head_message; assumption|]. right. exists c. split; [reflexivity|].
    intros body rest. apply open_chunks. exact F.
  - eexists _, _, _, s2, (response_head reason h0), (rsp_fields h0), (flat_map enc ds ++ enc []). rewrite Z.eqb_refl.
    split; [reflexivity|]. split; [rewrite G2; cbn [sk_out]; rewrite <- app_assoc; reflexivity|].
    split; [apply response_head_message; assumption|]. left. split; [reflexivity|]. exists (concat ds ++ []).
    apply enc_chunked; [exact F|]. rewrite <- (app_nil_r (enc [])). apply enc_nil_chunked.
Qed.
Print Assumptions proxy_chunked_outcome.

(** An upstream that breaks off within its second chunk, and one that sends a
    complete body. *)
Example proxy_chunked_cut_case :
  let run w := proxy (fun _ => str "OK") (fun _ => (1, rsp_of_lib 200 (-1) true [])) ex_prq
     (mktr [ex_rhead; w] (-7)) (mksk [] None (-5)) (mksk [] None (-5)) in
  let head := str "HTTP/1.1 200 OK" ++ [13; 10] ++ str "Transfer-Encoding: chunked" ++ [13; 10] ++ str "Server: sps" ++ [13; 10; 13; 10] in
  let one := str "5" ++ [13; 10] ++ str "hello" ++ [13; 10] in
  let w1 := run (one ++ str "6" ++ [13; 10] ++ str "wor") in
  let w2 := run (one ++ str "0" ++ [13; 10; 13; 10]) in
  fst (fst (fst w1)) = Err (-7) /\ sk_out (snd w1) = head ++ one /\
  fst (fst (fst w2)) = Ok 1 /\ sk_out (snd w2) = head ++ one ++ str "0" ++ [13; 10; 13; 10].
Proof. vm_compute. repeat split. Qed.
Example proxy_short_case :
  let w := proxy (fun _ => str "OK") (fun _ => (1, rsp_of_lib 200 9 false [])) ex_prq
     (mktr [ex_rhead ++ str "hel"] (-7)) (mksk [] None (-5)) (mksk [] None (-5)) in
  fst (fst (fst w)) = Err (-7) /\
  sk_out (snd w) = str "HTTP/1.1 200 OK" ++ [13; 10] ++ str "Content-Length: 9" ++ [13; 10] ++ str "Server: sps" ++ [13; 10; 13; 10] ++ str "hel".
Proof. vm_compute. repeat split. Qed.
