(** C244: how long an HTTP connection lasts. *)
From Verif Require Import Base M_IO S_IO L_IO M_Text M_Packet M_Flv S_Flv L_Flv P_Flv S_Codec M_Conf S_Url M_Url L_Url M_Host M_Http M_Https M_Upload M_Stream S_Http L_Http L_Http2 L_Http3 P_Http S_Upload L_Upload P_Upload M_HttpConn S_HttpConn L_HttpConn P_HttpConn S_HttpOut L_HttpOut P_HttpOut S_HttpEnd L_HttpEnd.

(** C244: each request served took at least four bytes of the connection, whatever the
    client, the upstreams and the streams do. *)
Theorem requests_bounded_by_bytes : forall g envs t k s, http_schema (hg_url g) -> (forall i, nonempty_chunks (t_chunks (he_upin (envs i)))) ->
  nonempty_chunks (t_chunks t) -> t_err t <> 0 -> readers_end g (t_stream t) -> after g envs k (cst0 t) s ->
  zlen (t_stream (cs_in s)) + 4 * Z.of_nat k <= zlen (t_stream t).
Proof. intros g envs t k s Hl Hu Hn He Hr. apply (conn_f g (t_stream t) Hl Hr O envs (cst0 t) Hu); [split; [split; assumption|discriminate]|apply ew_refl]. Qed.
Print Assumptions requests_bounded_by_bytes.

(** C244: so the loop over requests ends by itself: with more rounds than a quarter of the
    bytes it never runs out of them, and every number of rounds beyond gives the same. *)
Theorem http_connection_ends : forall g envs t fuel, http_schema (hg_url g) -> (forall i, nonempty_chunks (t_chunks (he_upin (envs i)))) ->
  nonempty_chunks (t_chunks t) -> t_err t <> 0 -> readers_end g (t_stream t) -> zlen (t_stream t) < 4 * Z.of_nat fuel ->
  fst (http_conn fuel g envs (cst0 t)) <> Some Fuel /\ forall more, http_conn (fuel + more) g envs (cst0 t) = http_conn fuel g envs (cst0 t).
Proof.
  intros g envs t fuel Hl Hu Hn He Hr Hf.
  assert (A : fst (http_conn fuel g envs (cst0 t)) <> Some Fuel) by (apply (conn_f g (t_stream t) Hl Hr fuel envs (cst0 t) Hu); [split; [split; assumption|discriminate]|apply ew_refl|exact Hf]).
  split; [exact A|]. intros more. revert A. generalize (cst0 t). clear. revert envs. induction fuel as [|f IH]; intros envs s A; [exfalso; apply A; reflexivity|].
  change (S f + more)%nat with (S (f + more))%nat. cbn [http_conn] in *. destruct (http_turn g (envs O) s) as [[[r|c| |]|] s1]; try reflexivity. destruct (r =? 0); [|reflexivity]. apply IH. exact A.
Qed.
Print Assumptions http_connection_ends.

(** C244: and how: with a nonzero code of the connection or of the last request, in the middle of
    serving a player, or in undefined behaviour as C242 says. *)
Theorem http_connection_fates : forall g envs t fuel, http_schema (hg_url g) -> (forall i, nonempty_chunks (t_chunks (he_upin (envs i)))) ->
  nonempty_chunks (t_chunks t) -> t_err t <> 0 -> readers_end g (t_stream t) -> zlen (t_stream t) < 4 * Z.of_nat fuel ->
  fst (http_conn fuel g envs (cst0 t)) = None \/ (exists c, c <> 0 /\ fst (http_conn fuel g envs (cst0 t)) = Some (Ok c)) \/
  fst (http_conn fuel g envs (cst0 t)) = Some UB /\ exists k s, (4 * Z.of_nat k <= zlen (t_stream t)) /\ after g envs k (cst0 t) s /\ turn_outside g (envs k) s.
Proof.
  intros g envs t fuel Hl Hu Hn He Hr Hf. destruct (http_connection_ends g envs t fuel Hl Hu Hn He Hr Hf) as (A & _). pose proof (http_outside_exactly g envs t fuel Hl Hu Hn He) as B.
  assert (C : fst (http_conn fuel g envs (cst0 t)) <> Some (Ok 0)).
  { generalize (cst0 t). clear. revert envs. induction fuel as [|f IH]; intros envs s; [discriminate|]. cbn [http_conn].
    destruct (http_turn g (envs O) s) as [[[r|c| |]|] s1]; try discriminate. destruct (r =? 0) eqn:E; [apply IH|]. cbn [fst]. intros [= ->]. discriminate. }
  pose proof (conn_code g fuel envs (cst0 t)) as D. destruct (fst (http_conn fuel g envs (cst0 t))) as [[c|c| |]|]; [| | |exfalso; apply A; reflexivity|auto].
  - right. left. exists c. split; [intros ->; apply C; reflexivity|reflexivity].
  - exfalso. apply (D c). reflexivity.
  - right. right. split; [reflexivity|]. destruct B as (B & _). destruct (B eq_refl) as (k & s & _ & B1 & B2). exists k, s. split; [|auto].
    pose proof (requests_bounded_by_bytes g envs t k s Hl Hu Hn He Hr B1). pose proof (zlen_nonneg (t_stream (cs_in s))). lia.
Qed.
Print Assumptions http_connection_fates.

(** C244: the FLV reader ends on every body, however framed and cut. *)
Theorem flv_uploads_end : forall g s fill rounds, (forall f, hg_decode g f = flv_decode_prog rounds fill) -> 15 <= zlen fill < 2 ^ 62 -> bytes s ->
  zlen s < Z.of_nat rounds -> readers_end g s.
Proof. intros g s fill rounds. apply flv_readers_end. Qed.
Print Assumptions flv_uploads_end.

(** Two requests of four bytes on one connection, each answered from upstream, then the
    connection ends: three rounds are enough, two are not. *)
Definition z_cfg : hcfg := mkhg (fun _ => str "R") (fun _ => (40, (str "/a", str "GET", [(str "Host", str "p")])))
  (fun _ => (1, rsp_of_lib 200 5 false [(str "X", str "y")])) hp_url x_router input_exts output_exts (fun _ => flv_decode_prog 20 (repeat 0 64)).
Definition z_t : transport := mktr [[13; 10; 13]; [10; 13; 10; 13; 10]] (-7).
Example http_connection_ends_case :
  readers_end z_cfg (t_stream z_t) /\ zlen (t_stream z_t) = 8 /\
  fst (http_conn 3 z_cfg (fun _ => y_env true []) (cst0 z_t)) = Some (Ok (-7)) /\ fst (http_conn 2 z_cfg (fun _ => y_env true []) (cst0 z_t)) = Some Fuel /\
  after z_cfg (fun _ => y_env true []) 2 (cst0 z_t) (snd (http_conn 2 z_cfg (fun _ => y_env true []) (cst0 z_t))).
Proof.
  split; [apply (flv_uploads_end _ _ (repeat 0 64) 20); [reflexivity|vm_compute; split; discriminate || reflexivity|repeat constructor; vm_compute; discriminate || reflexivity|reflexivity]|].
  split; [reflexivity|]. split; [vm_compute; reflexivity|]. split; [vm_compute; reflexivity|].
  eexists. split; [vm_compute; reflexivity|]. eexists. split; vm_compute; reflexivity.
Qed.
