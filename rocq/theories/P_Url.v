(** Properties of URLs, stream keys and stream ids.  Every theorem holds of any
    URL library that meets [url_lib_ok]; [url_library_exists] shows one that does. *)
From Coq Require Import Permutation.
From Verif Require Import Base M_Text M_Url S_Url L_Url.

Theorem url_library_exists : url_lib_ok hp_url.
Proof. exact hp_url_ok. Qed.
Print Assumptions url_library_exists.
Example url_library_nonvacuous :
  hp_url (str "rtmp://a.b:1936/live/x.flv?k=v") =
    Some (mkup (Some (str "rtmp")) (Some (str "a.b")) (Some 1936) (Some (str "/live/x.flv")) (Some (str "k=v"))).
Proof. reflexivity. Qed.

(** C30: the parts of a URL. *)
Definition port_default (schema : list Z) (p : Z) : Prop :=
  (schema = str "http" -> p = 80) /\ (schema = str "https" -> p = 443) /\ (schema = str "rtmp" -> p = 1935) /\
  (schema <> str "http" -> schema <> str "https" -> schema <> str "rtmp" -> p = 0).
Theorem url_parts_exact : forall lib schema host port path query,
  url_lib_ok lib -> url_wf schema host port path query -> schema <> str "file" ->
  exists r, url_from lib (url_text schema host port path query) = (Ok 0, r) /\
    rq_schema r = schema /\ rq_host r = host /\ rq_method r = str "GET" /\
    match port with Some p => rq_port r = dec_value p 0 | None => port_default schema (rq_port r) end /\
    rq_path r = match path with Some p => p | None => [] end /\
    rq_params r = match query with Some q => q | None => [] end /\
    rq_url r = rq_path r ++ match query with Some q => 63 :: q | None => [] end /\
    (forall e, has_ext (rq_path r) e -> rq_ext r = e) /\
    (without 46 (rq_path r) -> rq_ext r = []).
Proof.
  intros lib schema host port path query Hlib Hwf Hf.
  destruct (parse_url_ok lib rq_new schema host port path query Hlib Hwf eq_refl eq_refl eq_refl Hf) as (pp & _ & Hp).
  unfold url_from. rewrite Hp. eexists. split; [reflexivity|]. cbn [rq_schema rq_host rq_method rq_port rq_path rq_params rq_url rq_ext rq_new].
  split; [reflexivity|]. split; [reflexivity|]. split; [reflexivity|]. split; [|split; [reflexivity|split; [reflexivity|split; [reflexivity|]]]].
  - destruct port as [p|]; [reflexivity|]. unfold port_default, default_port. repeat split.
    + intros ->. reflexivity.
    + intros ->. reflexivity.
    + intros ->. reflexivity.
    + intros H1 H2 H3. rewrite !eqb_list_neq by assumption. reflexivity.
  - split; [intros e He; apply ext_of_has; exact He|intros Hn; apply ext_of_none; exact Hn].
Qed.
Print Assumptions url_parts_exact.
Ltac wf_solve :=
  constructor; cbn; repeat match goal with
  | |- _ /\ _ => split
  | |- _ <> [] => discriminate
  | |- Forall _ (str _) => cbn; repeat (constructor; [unfold host_c, alpha, digit_c, path_c; lia|]); constructor
  | |- Forall _ (_ :: _) => constructor; [unfold host_c, alpha, digit_c, path_c; lia|]
  | |- Forall _ [] => constructor
  | |- exists p', 47 :: ?p = 47 :: p' /\ _ => exists p
  | |- True => exact I
  | |- _ <= _ => lia
  | |- _ = _ => reflexivity
  end.
Example url_parts_nonvacuous :
  url_wf (str "rtmp") (str "a.b") None (Some (str "/live/x.flv")) (Some (str "k=v")) /\
  has_ext (str "/live/x.flv") (str "flv") /\
  url_text (str "rtmp") (str "a.b") None (Some (str "/live/x.flv")) (Some (str "k=v")) = str "rtmp://a.b/live/x.flv?k=v".
Proof.
  split; [wf_solve|]. split; [|reflexivity]. exists (str "/live/x"). split; [reflexivity|]. intros H. cbn in H. lia.
Qed.

(** C30: a file URL loses its first eight characters, its parameters and its port. *)
Theorem url_file_exact : forall lib host port path query,
  url_lib_ok lib -> url_wf (str "file") host port path query ->
  exists r, url_from lib (url_text (str "file") host port path query) = (Ok 0, r) /\
    rq_url r = drop 8 (url_text (str "file") host port path query) /\
    rq_path r = url_text (str "file") host port path query /\
    rq_params r = [] /\ rq_port r = -1.
Proof.
  intros lib host port path query Hlib Hwf. unfold url_from, parse_url.
  rewrite (lib_parts lib Hlib _ _ _ _ _ Hwf). cbn [up_schema up_host up_port up_path up_query opt_or rq_new rq_path rq_params rq_pp].
  destruct (query_loop_any (opt_or query [])) as (pieces & _ & _ & Hq).
  change (match query with Some x => x | None => [] end) with (opt_or query []). rewrite Hq.
  change (eqb_list (str "file") (str "file")) with true. cbn iota.
  assert ((zlen (url_text (str "file") host port path query) <? 8) = false) as ->.
  { destruct Hwf as [_ [Hh _] _ _ _]. unfold url_text. rewrite !zlen_app.
    change (zlen (str "file")) with 4. change (zlen (str "://")) with 3.
    destruct host as [|c host]; [congruence|]. rewrite zlen_cons.
    pose proof (zlen_nonneg host). pose proof (zlen_nonneg (match port with Some p => 58 :: p | None => [] end)).
    pose proof (zlen_nonneg (match path with Some p => p | None => [] end)).
    pose proof (zlen_nonneg (match query with Some q => 63 :: q | None => [] end)). lia. }
  eexists. split; [reflexivity|]. repeat split.
Qed.
Print Assumptions url_file_exact.
Example url_file_nonvacuous :
  url_wf (str "file") (str "tmp") None (Some (str "/a.flv")) None /\
  drop 8 (url_text (str "file") (str "tmp") None (Some (str "/a.flv")) None) = str "mp/a.flv".
Proof. split; [wf_solve|reflexivity]. Qed.

(** C29: query parameters. *)
Theorem url_params_exact : forall lib schema host port path pairs,
  url_lib_ok lib -> schema <> str "file" -> pairs <> [] ->
  Forall (fun kv => without 61 (fst kv) /\ without 38 (fst kv) /\ without 38 (snd kv)) pairs ->
  let query := join 38 (map (fun kv => fst kv ++ 61 :: snd kv) pairs) in
  url_wf schema host port path (Some query) ->
  exists r, url_from lib (url_text schema host port path (Some query)) = (Ok 0, r) /\
    rq_pp r = pairs /\
    (forall k v, first_value k pairs v -> get_param r k = v) /\
    (forall k, ~ In k (map fst pairs) -> get_param r k = []).
Proof.
  intros lib schema host port path pairs Hlib Hf Hne Hk query Hwf.
  destruct (parse_url_ok lib rq_new schema host port path (Some query) Hlib Hwf eq_refl eq_refl eq_refl Hf) as (pp & Hq & Hp).
  cbn [opt_or] in Hq.
  assert (pp = pairs) as ->.
  { assert (Hpc : Forall (without 38) (map (fun kv => fst kv ++ 61 :: snd kv) pairs)).
    { apply Forall_map. eapply Forall_impl; [|exact Hk]. intros [k v] (H1 & H2 & H3). cbn [fst snd] in *. intros Hin.
      apply in_app_or in Hin as [Hin|[Hin|Hin]]; [auto|lia|auto]. }
    pose proof (query_loop_ok (map (fun kv => fst kv ++ 61 :: snd kv) pairs) (S (S (length query))) [] Hpc ltac:(intros [])) as Hl.
    cbn [app] in Hl. fold query in Hl.
    assert (H1 : query_loop (S (S (length query))) query = Ok pp) by (apply query_loop_mono; exact Hq).
    rewrite Hl in H1.
    2:{ pose proof (join_length (map (fun kv => fst kv ++ 61 :: snd kv) pairs)). fold query in H. lia. }
    injection H1 as <-. clear -Hk. induction Hk as [|[k v] l (H1 & H2 & H3) Hl IH]; [reflexivity|].
    cbn [map params_of fst snd] in *. rewrite cut_eq_first by exact H1. cbn [app]. rewrite IH. reflexivity. }
  unfold url_from. rewrite Hp. eexists. split; [reflexivity|]. cbn [rq_pp]. split; [reflexivity|].
  unfold get_param. cbn [rq_pp]. split; intros.
  - rewrite (kv_find_first _ _ _ H). reflexivity.
  - rewrite kv_find_none by exact H. reflexivity.
Qed.
Print Assumptions url_params_exact.
Example url_params_nonvacuous :
  let pairs := [(str "a", str "1=2"); ([], str "x"); (str "a", []); (str "b", str "3")] in
  join 38 (map (fun kv => fst kv ++ 61 :: snd kv) pairs) = str "a=1=2&=x&a=&b=3" /\
  url_wf (str "http") (str "h") None (Some (str "/p")) (Some (str "a=1=2&=x&a=&b=3")) /\
  first_value (str "a") pairs (str "1=2") /\ first_value (str "b") pairs (str "3").
Proof.
  split; [reflexivity|]. split; [wf_solve|]. split.
  - exists [], [([], str "x"); (str "a", []); (str "b", str "3")]. split; [reflexivity|intros []].
  - exists [(str "a", str "1=2"); ([], str "x"); (str "a", [])], []. split; [reflexivity|].
    cbn. intros [H|[H|[H|[]]]]; discriminate.
Qed.

(** C29: any query whatever: pieces without '=' join the next key. *)
Theorem url_params_general : forall lib schema host port path pieces,
  url_lib_ok lib -> schema <> str "file" -> Forall (without 38) pieces ->
  url_wf schema host port path (Some (join 38 pieces)) ->
  exists r, url_from lib (url_text schema host port path (Some (join 38 pieces))) = (Ok 0, r) /\
    rq_pp r = params_of [] pieces.
Proof.
  intros lib schema host port path pieces Hlib Hf Hk Hwf.
  destruct (parse_url_ok lib rq_new schema host port path (Some (join 38 pieces)) Hlib Hwf eq_refl eq_refl eq_refl Hf) as (pp & Hq & Hp).
  cbn [opt_or] in Hq. unfold url_from. rewrite Hp. eexists. split; [reflexivity|]. cbn [rq_pp].
  apply query_loop_mono in Hq.
  pose proof (query_loop_ok pieces (S (S (length (join 38 pieces)))) [] Hk ltac:(intros [])) as Hl. cbn [app] in Hl.
  rewrite Hl in Hq by (pose proof (join_length pieces); lia). congruence.
Qed.
Print Assumptions url_params_general.
Example url_params_general_nonvacuous :
  url_wf (str "http") (str "h") None (Some (str "/p")) (Some (str "a&b=1&c=2&d")) /\
  params_of [] [str "a"; str "b=1"; str "c=2"; str "d"] = [(str "a&b", str "1"); (str "c", str "2")].
Proof. split; [wf_solve|reflexivity]. Qed.
Theorem url_flag_parameter_lost : forall lib schema host port path flag k v,
  url_lib_ok lib -> schema <> str "file" ->
  without 61 flag -> without 38 flag -> without 61 k -> without 38 k -> without 38 v ->
  url_wf schema host port path (Some (flag ++ 38 :: k ++ 61 :: v)) ->
  exists r, url_from lib (url_text schema host port path (Some (flag ++ 38 :: k ++ 61 :: v))) = (Ok 0, r) /\ get_param r k = [] /\ get_param r flag = [] /\ get_param r (flag ++ 38 :: k) = v.
Proof.
  intros lib schema host port path flag k v Hlib Hf F1 F2 K1 K2 V Hwf.
  destruct (url_params_general lib schema host port path [flag; k ++ 61 :: v] Hlib Hf) as (r & Hr & Hpp).
  - constructor; [exact F2|]. constructor; [|constructor]. intros Hin. apply in_app_or in Hin as [Hin|[Hin|Hin]]; [auto|lia|auto].
  - exact Hwf.
  - exists r. split; [exact Hr|]. unfold get_param. rewrite Hpp. cbn [params_of app].
    rewrite (cut_eq_none flag F1), (cut_eq_first k v K1). rewrite <- app_assoc. cbn [app]. split; [|split].
    + rewrite kv_find_none; [reflexivity|]. cbn. intros [H|[]]. apply K2. rewrite <- H. apply in_or_app. right. left. reflexivity.
    + rewrite kv_find_none; [reflexivity|]. cbn. intros [H|[]]. apply F2. rewrite <- H. apply in_or_app. right. left. reflexivity.
    + rewrite (kv_find_first _ _ v); [reflexivity|]. exists [], []. split; [reflexivity|intros []].
Qed.
Print Assumptions url_flag_parameter_lost.
Example url_flag_nonvacuous :
  exists r, url_from hp_url (str "http://h/p?debug&token=1") = (Ok 0, r) /\
    get_param r (str "token") = [] /\ get_param r (str "debug&token") = str "1".
Proof. eexists. split; [reflexivity|]. split; reflexivity. Qed.

(** C62: without a Host header the first path segment becomes the host. *)
Theorem request_without_host : forall lib seg path query meth headers,
  url_lib_ok lib -> url_wf (str "http") seg None path query -> meth <> [] ->
  ~ In (str "Host") (map fst headers) ->
  exists r, request_of lib (47 :: seg ++ opt_or path [] ++ match query with Some q => 63 :: q | None => [] end) meth headers = (Ok 0, r) /\
    rq_host r = seg /\ rq_path r = opt_or path [] /\ rq_params r = opt_or query [].
Proof.
  intros lib seg path query meth headers Hlib Hwf Hm Hh. unfold request_of.
  rewrite kv_find_none by exact Hh. cbn [opt_or].
  replace (str "http:/" ++ 47 :: seg ++ opt_or path [] ++ match query with Some q => 63 :: q | None => [] end)
    with (url_text (str "http") seg None path query) by reflexivity.
  destruct (parse_url_ok lib (mkrq [] meth [] 80 [] [] [] [] [] headers) (str "http") seg None path query Hlib Hwf eq_refl eq_refl eq_refl ltac:(discriminate)) as (pp & _ & Hp).
  rewrite Hp. eexists. split; [reflexivity|]. repeat split.
Qed.
Print Assumptions request_without_host.
Example request_without_host_nonvacuous :
  url_wf (str "http") (str "live") None (Some (str "/x.flv")) None /\
  exists r, request_of hp_url (str "/live/x.flv") (str "GET") [(str "A", str "b")] = (Ok 0, r) /\
    rq_host r = str "live" /\ rq_path r = str "/x.flv".
Proof. split; [wf_solve|]. eexists. split; [reflexivity|]. split; reflexivity. Qed.

(** C30: with a Host header, host, port, path and query are those of the
    header and the target, and headers and method are kept. *)
Theorem request_with_host : forall lib host port path query meth headers,
  url_lib_ok lib -> url_wf (str "http") host port path query -> meth <> [] ->
  first_value (str "Host") headers (host ++ match port with Some p => 58 :: p | None => [] end) ->
  exists r, request_of lib (opt_or path [] ++ match query with Some q => 63 :: q | None => [] end) meth headers = (Ok 0, r) /\
    rq_host r = host /\ rq_port r = match port with Some p => dec_value p 0 | None => 80 end /\
    rq_path r = opt_or path [] /\ rq_params r = opt_or query [] /\
    rq_url r = opt_or path [] ++ match query with Some q => 63 :: q | None => [] end /\
    rq_method r = meth /\ rq_headers r = headers.
Proof.
  intros lib host port path query meth headers Hlib Hwf Hm Hh. unfold request_of.
  rewrite (kv_find_first _ _ _ Hh). cbn [opt_or].
  pose proof (proj1 (uw_host _ _ _ _ _ Hwf)) as W2.
  destruct host as [|c host]; [congruence|].
  replace (match (c :: host) ++ match port with Some p => 58 :: p | None => [] end with
           | [] => str "http:/" ++ opt_or path [] ++ match query with Some q => 63 :: q | None => [] end
           | _ => str "http://" ++ ((c :: host) ++ match port with Some p => 58 :: p | None => [] end) ++ opt_or path [] ++ match query with Some q => 63 :: q | None => [] end end)
    with (url_text (str "http") (c :: host) port path query).
  2:{ unfold url_text. cbn [app]. rewrite <- app_assoc. reflexivity. }
  destruct (parse_url_ok lib (mkrq [] meth [] 80 [] [] [] [] [] headers) (str "http") (c :: host) port path query Hlib Hwf eq_refl eq_refl eq_refl ltac:(discriminate)) as (pp & _ & Hp).
  rewrite Hp. eexists. split; [reflexivity|]. cbn. destruct meth; [congruence|]. repeat split.
Qed.
Print Assumptions request_with_host.
Example request_with_host_nonvacuous :
  first_value (str "Host") [(str "A", str "b"); (str "Host", str "h.x:8080"); (str "Host", str "q")] (str "h.x" ++ 58 :: str "8080") /\
  exists r, request_of hp_url (str "/live/x.flv?a=b") (str "POST") [(str "A", str "b"); (str "Host", str "h.x:8080"); (str "Host", str "q")] = (Ok 0, r) /\
    rq_host r = str "h.x" /\ rq_port r = 8080 /\ get_param r (str "a") = str "b".
Proof.
  split.
  - exists [(str "A", str "b")], [(str "Host", str "q")]. split; [reflexivity|]. cbn. intros [H|[]]. discriminate.
  - eexists. split; [reflexivity|]. repeat split.
Qed.

(** C63: a Host header naming a path puts that path before the target. *)
Theorem request_host_injects_path : forall lib host dir path meth headers,
  url_lib_ok lib -> url_wf (str "http") host None (Some (dir ++ path)) None -> meth <> [] ->
  first_value (str "Host") headers (host ++ dir) ->
  exists r, request_of lib path meth headers = (Ok 0, r) /\ rq_host r = host /\ rq_path r = dir ++ path.
Proof.
  intros lib host dir path meth headers Hlib Hwf Hm Hh. unfold request_of.
  rewrite (kv_find_first _ _ _ Hh). cbn [opt_or].
  pose proof (proj1 (uw_host _ _ _ _ _ Hwf)) as W2.
  destruct host as [|c host]; [congruence|].
  replace (match (c :: host) ++ dir with [] => str "http:/" ++ path | _ => str "http://" ++ ((c :: host) ++ dir) ++ path end)
    with (url_text (str "http") (c :: host) None (Some (dir ++ path)) None).
  2:{ unfold url_text. cbn [app]. rewrite !app_nil_r, <- app_assoc. reflexivity. }
  destruct (parse_url_ok lib (mkrq [] meth [] 80 [] [] [] [] [] headers) (str "http") (c :: host) None (Some (dir ++ path)) None Hlib Hwf eq_refl eq_refl eq_refl ltac:(discriminate)) as (pp & _ & Hp).
  rewrite Hp. eexists. split; [reflexivity|]. repeat split.
Qed.
Print Assumptions request_host_injects_path.
Example request_host_injects_nonvacuous :
  url_wf (str "http") (str "a") None (Some (str "/secret" ++ str "/x")) None /\
  exists r, request_of hp_url (str "/x") (str "GET") [(str "Host", str "a/secret")] = (Ok 0, r) /\ rq_path r = str "/secret/x".
Proof. split; [wf_solve|]. eexists. split; reflexivity. Qed.

(** C64: the key of a stream: host and path up to the last dot, whatever the
    port, query and extension.  A publisher over RTMP (extension "-") of the
    path without extension gets the same key. *)
Theorem stream_key_exact : forall lib schema host port p e query,
  url_lib_ok lib -> schema <> str "file" -> url_wf schema host port (Some (p ++ 46 :: e)) query ->
  without 46 e -> e <> [] -> e <> str "-" -> zlen (p ++ 46 :: e) < 2 ^ 64 ->
  exists r, url_from lib (url_text schema host port (Some (p ++ 46 :: e)) query) = (Ok 0, r) /\
    cache_key r = host ++ p.
Proof.
  intros lib schema host port p e query Hlib Hf Hwf H1 H2 H3 H4.
  destruct (url_parts_exact lib schema host port (Some (p ++ 46 :: e)) query Hlib Hwf Hf)
    as (r & Hr & _ & Hh & _ & _ & Hp & _ & _ & He & _).
  exists r. split; [exact Hr|]. rewrite <- Hh. apply (cache_key_dot r p e).
  - exact Hp.
  - apply He. exists p. split; [exact Hp|exact H1].
  - exact H2.
  - exact H3.
  - rewrite Hp. exact H4.
Qed.
Print Assumptions stream_key_exact.
Theorem stream_key_without_ext : forall lib schema host port path query,
  url_lib_ok lib -> schema <> str "file" -> url_wf schema host port path query ->
  without 46 (opt_or path []) ->
  exists r, url_from lib (url_text schema host port path query) = (Ok 0, r) /\ cache_key r = host ++ opt_or path [].
Proof.
  intros lib schema host port path query Hlib Hf Hwf H1.
  destruct (url_parts_exact lib schema host port path query Hlib Hwf Hf) as (r & Hr & _ & Hh & _ & _ & Hp & _ & _ & _ & Hn).
  exists r. split; [exact Hr|]. rewrite cache_key_nodot; [rewrite Hh, Hp; reflexivity|]. left. apply Hn. rewrite Hp. exact H1.
Qed.
Print Assumptions stream_key_without_ext.
Example stream_key_nonvacuous :
  url_wf (str "http") (str "h.x") (Some (str "8080")) (Some (str "/live/x" ++ 46 :: str "flv")) (Some (str "t=1")) /\ url_wf (str "rtmp") (str "h.x") None (Some (str "/live/x")) None /\  without 46 (str "/live/x") /\ without 46 (str "flv").
Proof. split; [wf_solve|]. split; [wf_solve|]. split; intros H; cbn in H; lia. Qed.

(** C65: the dot need not be in the last segment: streams in a directory whose
    name has a dot all share one key. *)
Theorem stream_key_collision : forall lib schema host p a b,
  url_lib_ok lib -> schema <> str "file" ->
  url_wf schema host None (Some (p ++ 46 :: a)) None -> url_wf schema host None (Some (p ++ 46 :: b)) None ->
  without 46 a -> without 46 b -> a <> [] -> b <> [] -> a <> str "-" -> b <> str "-" ->
  zlen (p ++ 46 :: a) < 2 ^ 64 -> zlen (p ++ 46 :: b) < 2 ^ 64 ->
  exists ra rb, url_from lib (url_text schema host None (Some (p ++ 46 :: a)) None) = (Ok 0, ra) /\ url_from lib (url_text schema host None (Some (p ++ 46 :: b)) None) = (Ok 0, rb) /\ cache_key ra = cache_key rb.
Proof.
  intros lib schema host p a b Hlib Hf Wa Wb A1 B1 A2 B2 A3 B3 A4 B4.
  destruct (stream_key_exact lib schema host None p a None Hlib Hf Wa A1 A2 A3 A4) as (ra & Ra & Ka).
  destruct (stream_key_exact lib schema host None p b None Hlib Hf Wb B1 B2 B3 B4) as (rb & Rb & Kb).
  exists ra, rb. split; [exact Ra|]. split; [exact Rb|]. congruence.
Qed.
Print Assumptions stream_key_collision.
Example stream_key_collision_nonvacuous :
  url_wf (str "http") (str "h") None (Some (str "/v1" ++ 46 :: str "0/cam1")) None /\ url_wf (str "http") (str "h") None (Some (str "/v1" ++ 46 :: str "0/cam2")) None /\  without 46 (str "0/cam1") /\ without 46 (str "0/cam2").
Proof. split; [wf_solve|]. split; [wf_solve|]. split; intros H; cbn in H; lia. Qed.

(** C66: a format is chosen when its name begins the extension; extensions of
    at least two characters are decided whatever the order of the formats, and
    shorter ones are compared past their end. *)
Theorem format_by_prefix : forall fmts e, Permutation fmts input_exts \/ Permutation fmts output_exts -> 2 <= zlen e ->
  exists o, fmt_find fmts e = Ok o /\ match o with
    | Some f => In f fmts /\ exists x, e = f ++ x
    | None => forall f x, In f fmts -> e <> f ++ x
    end.
Proof.
  intros fmts e Hp Hl.
  assert (Hall : Forall (fun f => ~ In 0 f /\ zlen f <= 3) fmts).
  { apply Forall_forall. intros f Hin.
    assert (In f (input_exts ++ output_exts)) as H.
    { apply in_or_app. destruct Hp as [Hp|Hp]; [left|right]; exact (Permutation_in f Hp Hin). }
    cbn in H. destruct H as [<-|[<-|[<-|[<-|[<-|[]]]]]]; cbn; (split; [lia|vm_compute; discriminate]). }
  clear Hp. induction Hall as [|f fs [H0 H3] Hfs IH]; cbn [fmt_find].
  - exists None. split; [reflexivity|]. intros f x [].
  - destruct (fmt_match_prefix f e H0) as (b & -> & Hb); [lia|]. cbn [bind]. destruct b.
    + exists (Some f). split; [reflexivity|]. split; [left; reflexivity|]. apply Hb. reflexivity.
    + destruct IH as (o & Ho & Hs). exists o. split; [exact Ho|]. destruct o as [g|].
      * destruct Hs as [Hs1 Hs2]. split; [right; exact Hs1|exact Hs2].
      * intros g x [-> |Hin]; [|apply Hs; exact Hin]. intros He. assert (false = true) by (apply Hb; eauto). discriminate.
Qed.
Print Assumptions format_by_prefix.
Example format_by_prefix_nonvacuous :
  fmt_find input_exts (str "flvx/y") = Ok (Some (str "flv")) /\ fmt_find input_exts (str "m3u8") = Ok None.
Proof. split; reflexivity. Qed.
(** C66: FLV, "-" and transport streams can be read, FLV and "-" can be written. *)
Theorem format_names : forall e, 2 <= zlen e ->
  (forall fmts f, Permutation fmts input_exts -> (fmt_find fmts e = Ok (Some f) <->
     (exists x, e = f ++ x) /\ (f = str "flv" \/ f = str "-" \/ f = str "ts"))) /\
  (forall fmts f, Permutation fmts output_exts -> (fmt_find fmts e = Ok (Some f) <->
     (exists x, e = f ++ x) /\ (f = str "flv" \/ f = str "-"))).
Proof.
  intros e Hl. split; intros fmts f Hp.
  - assert (HIn : forall g, In g fmts <-> g = str "flv" \/ g = str "-" \/ g = str "ts").
    { intros g. split; [intros H; apply (Permutation_in g Hp) in H|intros H; apply (Permutation_in g (Permutation_sym Hp))];
        cbn in *; intuition congruence. }
    destruct (format_by_prefix fmts e (or_introl Hp) Hl) as (o & -> & Ho). split.
    + intros [= ->]. destruct Ho as (H1 & H2). split; [exact H2|apply HIn; exact H1].
    + intros ((x & Hx) & Hf). destruct o as [g|].
      * destruct Ho as (Hg & y & Hy). apply HIn in Hg. subst e. f_equal. f_equal.
        destruct Hf as [-> |[-> | ->]], Hg as [-> |[-> | ->]]; try reflexivity; discriminate.
      * exfalso. apply (Ho f x); [apply HIn; exact Hf|exact Hx].
  - assert (HIn : forall g, In g fmts <-> g = str "flv" \/ g = str "-").
    { intros g. split; [intros H; apply (Permutation_in g Hp) in H|intros H; apply (Permutation_in g (Permutation_sym Hp))];
        cbn in *; intuition congruence. }
    destruct (format_by_prefix fmts e (or_intror Hp) Hl) as (o & -> & Ho). split.
    + intros [= ->]. destruct Ho as (H1 & H2). split; [exact H2|apply HIn; exact H1].
    + intros ((x & Hx) & Hf). destruct o as [g|].
      * destruct Ho as (Hg & y & Hy). apply HIn in Hg. subst e. f_equal. f_equal.
        destruct Hf as [-> | ->], Hg as [-> | ->]; try reflexivity; discriminate.
      * exfalso. apply (Ho f x); [apply HIn; exact Hf|exact Hx].
Qed.
Print Assumptions format_names.
Example format_names_nonvacuous :
  fmt_find input_exts (str "ts") = Ok (Some (str "ts")) /\ fmt_find output_exts (str "ts") = Ok None.
Proof. split; reflexivity. Qed.
Theorem format_short_overread : forall e more, zlen e < 2 -> fmt_find (str "flv" :: more) e = UB.
Proof.
  intros e more Hl. cbn [fmt_find]. unfold fmt_match. rewrite zlen_app. change (zlen [0]) with 1. change (zlen (str "flv")) with 3.
  destruct (zlen e + 1 <? 3) eqn:E; [reflexivity|lia].
Qed.
Print Assumptions format_short_overread.
Example format_short_nonvacuous : zlen (str "-") < 2 /\ In (str "-") input_exts /\ fmt_find input_exts (str "-") = UB.
Proof. split; [reflexivity|]. split; [cbn; auto|reflexivity]. Qed.

(** C43: SRT stream ids: four characters are skipped, the pairs that end with a
    comma count, the text after the last comma does not. *)
Theorem srt_streamid_exact : forall lib hdr pairs rest host path mode,
  url_lib_ok lib -> zlen hdr = 4 -> Forall sid_pair_ok pairs -> without 44 rest -> pairs <> [] ->
  last_value (str "h") pairs (host ++ path) -> url_wf (str "srt") host None (Some path) None ->
  (last_value (str "m") pairs mode \/ (~ In (str "m") (map fst pairs) /\ mode = [])) ->
  exists r, srt_req lib (hdr ++ sid_text pairs ++ rest) = Ok (Some r) /\ srt_key r = host ++ path /\ rq_host r = host /\ rq_path r = path /\ (srt_plays r = true <-> mode = str "request").
Proof.
  intros lib hdr pairs rest host path mode Hlib Hh Hp Hr Hne Hhost Hwf Hmode. unfold srt_req.
  assert (1 <= zlen (sid_text pairs)).
  { destruct pairs as [|[k v] pairs]; [congruence|]. cbn [sid_text flat_map fst snd]. rewrite <- !app_assoc. cbn [app].
    rewrite zlen_app, zlen_cons. pose proof (zlen_nonneg k). 
    pose proof (zlen_nonneg ((v ++ [44]) ++ flat_map (fun kv => fst kv ++ 61 :: snd kv ++ [44]) pairs)). lia. }
  pose proof (zlen_nonneg rest).
  destruct (zlen (hdr ++ sid_text pairs ++ rest) <? 5) eqn:E; [rewrite !zlen_app in E; lia|]. clear E.
  rewrite drop_app_exact by congruence. rewrite sid_scan_ok by assumption.
  rewrite (kv_last_last _ _ _ Hhost).
  assert (kv_last (str "m") pairs [] = mode) as ->.
  { destruct Hmode as [Hm|[Hm ->]]; [apply (kv_last_last _ _ _ Hm)|apply kv_last_none; exact Hm]. }
  rewrite eqb_list_neq.
  2:{ intros H1. apply (f_equal zlen) in H1. change (zlen (str "srt://")) with 6 in H1.
      rewrite zlen_take in H1 by lia. lia. }
  destruct (url_parts_exact lib (str "srt") host None (Some path) None Hlib Hwf ltac:(discriminate))
    as (r & Hu & _ & Rh & _ & _ & Rp & _).
  unfold url_text in Hu. cbn [app] in Hu. rewrite app_nil_r in Hu.
  change (str "srt" ++ str "://" ++ host ++ path) with (str "srt://" ++ host ++ path) in Hu. rewrite Hu.
  change (negb (0 =? 0)) with false. cbn iota.
  eexists. split; [reflexivity|]. unfold srt_key, srt_plays. cbn [rq_host rq_path rq_method]. rewrite Rh, Rp.
  repeat split.
  - destruct (eqb_list mode (str "request")) eqn:E; [intros _; apply eqb_list_spec; exact E|]. cbn. discriminate.
  - intros ->. reflexivity.
Qed.
Print Assumptions srt_streamid_exact.
Example srt_streamid_nonvacuous :
  Forall sid_pair_ok [(str "h", str "live/x"); (str "m", str "request")] /\ str "#!::" ++ sid_text [(str "h", str "live/x"); (str "m", str "request")] ++ str "u=1" = str "#!::h=live/x,m=request,u=1" /\  url_wf (str "srt") (str "live") None (Some (str "/x")) None /\  last_value (str "h") [(str "h", str "live/x"); (str "m", str "request")] (str "live" ++ str "/x") /\  last_value (str "m") [(str "h", str "live/x"); (str "m", str "request")] (str "request").
Proof.
  split.
  { constructor; [|constructor; [|constructor]]; unfold sid_pair_ok, without; cbn; repeat split; lia. }
  split; [reflexivity|]. split; [wf_solve|]. split.
  - exists [], [(str "m", str "request")]. split; [reflexivity|]. cbn. intros [H|[]]; discriminate.
  - exists [(str "h", str "live/x")], []. split; [reflexivity|intros []].
Qed.
(** The usual spelling, with the mode last and no comma, publishes. *)
Theorem srt_mode_last_publishes : forall lib hdr pairs m host path,
  url_lib_ok lib -> zlen hdr = 4 -> Forall sid_pair_ok pairs -> without 44 m -> pairs <> [] ->
  last_value (str "h") pairs (host ++ path) -> url_wf (str "srt") host None (Some path) None ->
  ~ In (str "m") (map fst pairs) ->
  exists r, srt_req lib (hdr ++ sid_text pairs ++ str "m=" ++ m) = Ok (Some r) /\ srt_plays r = false.
Proof.
  intros lib hdr pairs m host path Hlib Hh Hp Hm Hne Hhost Hwf Hno.
  destruct (srt_streamid_exact lib hdr pairs (str "m=" ++ m) host path [] Hlib Hh Hp) as (r & Hr & _ & _ & _ & Hs); try assumption.
  - intros Hin. apply in_app_or in Hin as [Hin|Hin]; [cbn in Hin; lia|exact (Hm Hin)].
  - right. split; [exact Hno|reflexivity].
  - exists r. split; [exact Hr|]. destruct (srt_plays r); [|reflexivity]. destruct Hs as [Hs _]. specialize (Hs eq_refl). discriminate.
Qed.
Print Assumptions srt_mode_last_publishes.
Example srt_mode_last_nonvacuous : exists r, srt_req hp_url (str "#!::h=live/x,m=request") = Ok (Some r) /\ srt_plays r = false /\ srt_key r = str "live/x".
Proof. eexists. split; [reflexivity|]. split; reflexivity. Qed.
(** Without an "h" pair before the last comma, or with a full URL in it, the
    stream id is refused. *)
Theorem srt_no_host_refused : forall lib hdr pairs rest,
  url_lib_ok lib -> zlen hdr = 4 -> Forall sid_pair_ok pairs -> without 44 rest ->
  ~ In (str "h") (map fst pairs) ->
  srt_req lib (hdr ++ sid_text pairs ++ rest) = Ok None.
Proof.
  intros lib hdr pairs rest Hlib Hh Hp Hr Hno. unfold srt_req.
  destruct (zlen (hdr ++ sid_text pairs ++ rest) <? 5); [reflexivity|].
  rewrite drop_app_exact by congruence. rewrite sid_scan_ok by assumption.
  rewrite (kv_last_none _ _ [] Hno). change (eqb_list (take 5 []) (str "srt://")) with false. cbn iota. cbn [app].
  unfold url_from, parse_url. change (str "srt://" ++ []) with (str "srt" ++ str "://").
  rewrite (lib_no_host lib Hlib); [reflexivity|discriminate|]. cbn. repeat (constructor; [unfold alpha; lia|]). constructor.
Qed.
Print Assumptions srt_no_host_refused.
Theorem srt_full_url_refused : forall lib hdr pairs rest tail,
  url_lib_ok lib -> zlen hdr = 4 -> Forall sid_pair_ok pairs -> without 44 rest ->
  last_value (str "h") pairs (str "srt://" ++ tail) -> Forall path_c tail ->
  srt_req lib (hdr ++ sid_text pairs ++ rest) = Ok None.
Proof.
  intros lib hdr pairs rest tail Hlib Hh Hp Hr Hhost Ht. unfold srt_req.
  destruct (zlen (hdr ++ sid_text pairs ++ rest) <? 5); [reflexivity|].
  rewrite drop_app_exact by congruence. rewrite sid_scan_ok by assumption.
  rewrite (kv_last_last _ _ _ Hhost). change (eqb_list (take 5 (str "srt://" ++ tail)) (str "srt://")) with false. cbn iota.
  unfold url_from, parse_url.
  change (str "srt://" ++ str "srt://" ++ tail) with (str "srt" ++ str "://" ++ str "srt" ++ str ":/" ++ (47 :: tail)).
  rewrite (lib_no_port lib Hlib); [reflexivity|discriminate| |discriminate| |].
  - cbn. repeat (constructor; [unfold alpha; lia|]). constructor.
  - cbn. repeat (constructor; [unfold host_c, alpha; lia|]). constructor.
  - constructor; [unfold path_c; lia|exact Ht].
Qed.
Print Assumptions srt_full_url_refused.
Example srt_refused_nonvacuous :
  srt_req hp_url (str "#!::r=live/x,m=publish,") = Ok None /\ srt_req hp_url (str "#!::h=srt://live/x,m=publish,") = Ok None /\ srt_req hp_url (str "#!::m=publish,h=live/x") = Ok None.
Proof. repeat split. Qed.

(** Erasing a header removes the first field of that name and nothing else:
    what is looked up afterwards under other names is unchanged, and the name
    itself is gone only if it was there once. *)
Theorem erase_header_exact : forall k l,
  (~ In k (map fst l) -> erase_first k l = l) /\
  (forall pre v post, l = pre ++ (k, v) :: post -> ~ In k (map fst pre) ->
     erase_first k l = pre ++ post /\ (In k (map fst (erase_first k l)) <-> In k (map fst post)) /\
     forall k2, k2 <> k -> kv_find k2 (erase_first k l) = kv_find k2 l).
Proof.
  intros k l. split.
  - induction l as [|[a v] l IH]; intros H; [reflexivity|]. cbn [erase_first fst]. cbn [map fst In] in H.
    rewrite eqb_list_neq by (intros ->; apply H; left; reflexivity). rewrite IH by (intros K; apply H; right; exact K). reflexivity.
  - intros pre v post -> Hn. assert (E : erase_first k (pre ++ (k, v) :: post) = pre ++ post).
    { induction pre as [|[a w] pre IH]; cbn [app erase_first fst]; [rewrite eqb_list_refl; reflexivity|]. cbn [map fst In] in Hn.
      rewrite eqb_list_neq by (intros ->; apply Hn; left; reflexivity). rewrite IH by (intros K; apply Hn; right; exact K). reflexivity. }
    rewrite E. split; [reflexivity|]. split.
    + rewrite map_app, in_app_iff. tauto.
    + intros k2 Hk. clear E Hn. induction pre as [|[a w] pre IH]; cbn [app kv_find].
      * rewrite eqb_list_neq by (intros E; apply Hk; symmetry; exact E) || rewrite eqb_list_neq by exact Hk. reflexivity.
      * rewrite IH. reflexivity.
Qed.
Print Assumptions erase_header_exact.
Example erase_header_case :
  erase_first (str "A") [(str "B", str "1"); (str "A", str "2"); (str "A", str "3")] = [(str "B", str "1"); (str "A", str "3")].
Proof. reflexivity. Qed.
