(** C242: which HTTP requests bring the server into undefined behaviour. *)
From Verif Require Import Base M_IO S_IO L_IO M_Text M_Packet M_Flv S_Flv L_Flv P_Flv S_Codec M_Conf S_Url M_Url L_Url M_Host M_Http M_Https M_Upload M_Stream S_Http L_Http L_Http2 L_Http3 P_Http S_Upload L_Upload P_Upload M_HttpConn S_HttpConn L_HttpConn P_HttpConn S_HttpOut L_HttpOut.

(** C242: every connection, every configuration, every behaviour of the upstreams and of the
    streams.  The server comes into undefined behaviour exactly when, all requests before
    having been served, one does it. *)
Theorem http_outside_exactly : forall g envs t fuel, http_schema (hg_url g) -> (forall k, nonempty_chunks (t_chunks (he_upin (envs k)))) ->
  nonempty_chunks (t_chunks t) -> t_err t <> 0 ->
  (fst (http_conn fuel g envs (cst0 t)) = Some UB <-> exists k s, (k < fuel)%nat /\ after g envs k (cst0 t) s /\ turn_outside g (envs k) s).
Proof. intros g envs t fuel Hl Hu Hn He. apply (conn_ub g Hl fuel envs (cst0 t) Hu). split; [split; assumption|]. discriminate. Qed.
Print Assumptions http_outside_exactly.

(** C242: the library the server uses finds the schema. *)
Theorem url_library_schema : http_schema hp_url.
Proof. exact hp_http_schema. Qed.
Print Assumptions url_library_schema.

(** C242: with the formats registered without FFmpeg, an extension of less than two
    characters is compared past its end, and a player gets a writer without a session
    exactly when the extension begins with "-". *)
Theorem formats_outside : forall e,
  (past_end input_exts e <-> zlen e <= 1) /\ (past_end output_exts e <-> zlen e <= 1) /\
  ((exists f, selects output_exts e f /\ f <> str "flv") <-> 2 <= zlen e /\ exists x, e = str "-" ++ x).
Proof.
  intros e. assert (P : forall l, In (str "flv") l -> (exists b, l = str "flv" :: b) -> Forall (fun f => zlen f <= 3) l -> (past_end l e <-> zlen e <= 1)).
  { intros l _ (b & ->) Hl. split.
    - intros (a & f & b' & El & Hf & _). assert (In f (str "flv" :: b)) as Hi by (rewrite El; apply in_or_app; right; left; reflexivity).
      rewrite Forall_forall in Hl. specialize (Hl f Hi). cbn beta in Hl. lia.
    - intros H. exists [], (str "flv"), b. split; [reflexivity|]. split; [change (zlen (str "flv")) with 3; lia|constructor]. }
  split; [|split].
  - apply P; [left; reflexivity|eexists; reflexivity|]. repeat constructor; vm_compute; discriminate.
  - apply P; [left; reflexivity|eexists; reflexivity|]. repeat constructor; vm_compute; discriminate.
  - split.
    + intros (f & (a & b & El & Hb & Ha) & Nf). destruct a as [|a0 [|a1 [|a2 a]]]; cbn in El; injection El; intros; subst; try contradiction; try (destruct a; discriminate); try discriminate.
      inversion_clear Ha as [|? ? (_ & H3) _]. change (zlen [102; 108; 118]) with 3 in H3. split; [lia|].
      destruct Hb as (x & Hx). destruct e as [|c e]; [change (zlen (@nil Z)) with 0 in H3; lia|]. cbn in Hx. injection Hx as -> _. exists e. reflexivity.
    + intros (H2 & x & ->). exists (str "-"). split; [|discriminate]. exists [str "flv"], []. split; [reflexivity|]. split; [exists (x ++ [0]); reflexivity|].
      constructor; [|constructor]. split; [intros (y & Hy); cbn in Hy; discriminate Hy|]. change (zlen (str "flv")) with 3. lia.
Qed.
Print Assumptions formats_outside.

(** C242: so a player of a stream that is there is safe exactly when the extension has two
    characters and does not begin with "-", or begins with "-" and no media comes. *)
Theorem player_outside : forall g e t r h, hg_outs g = output_exts -> find_host (hg_router g) (rq_host r) = Some h -> adapter h = AStream ->
  rq_method r <> str "POST" -> stream_there e h r ->
  (request_outside g e t r <-> zlen (rq_ext r) <= 1 \/ (exists x, rq_ext r = str "-" ++ x) /\ media_comes (he_dumps e)).
Proof.
  intros g e t r h Ho Hh Ha Hm Hs. destruct (formats_outside (rq_ext r)) as (_ & F2 & F3). split.
  - intros [h' A B C D E F|h' f A B C D E F G H|h' A B C D E|h' f A B C D E F G|h' head t1 A B C]; try contradiction; rewrite ?Ho in *.
    + left. apply F2. exact E.
    + right. split; [|exact G]. apply F3. exists f. auto.
    + congruence.
  - intros [H|(Hx & Hd)].
    + eapply ro_play_extension; try eassumption. rewrite Ho. apply F2. exact H.
    + destruct (Z_le_gt_dec (zlen (rq_ext r)) 1) as [H|H].
      * eapply ro_play_extension; try eassumption. rewrite Ho. apply F2. exact H.
      * destruct F3 as (_ & F3). destruct F3 as (f & G1 & G2); [split; [lia|exact Hx]|]. eapply ro_play_no_session; try eassumption. rewrite Ho. exact G1.
Qed.
Print Assumptions player_outside.

(** A stream that is there: without an extension or with one beginning with "-" and a
    packet, undefined; as FLV, or silent, not.  An upstream whose answer the library
    refuses at its first byte, and a client whose first request it so refuses. *)
Definition y_cfg (target host : string) (n m : Z) : hcfg := mkhg (fun _ => str "R") (fun _ => (n, (str target, str "GET", [(str "Host", str host)])))
  (fun _ => (m, rsp_of_lib 200 5 false [(str "X", str "y")])) hp_url x_router input_exts output_exts (fun _ => flv_decode_prog 9 (repeat 0 64)).
Definition y_env (there : bool) (dumps : list (list pkt)) : henv := mkhe (fun _ => there) (0, false) dumps true (mktr [ex_rhead ++ str "hello"] (-5)) (mksk [] None 0).
Definition y_run (target host : string) (n m : Z) (there : bool) (dumps : list (list pkt)) : option (res Z) :=
  fst (http_conn 3 (y_cfg target host n m) (fun _ => y_env there dumps) (cst0 (mktr [xh_p] (-7)))).
Definition y_pkt : pkt := video_pkt 1 0 0 0x17 [1; 2].
Example http_outside_cases :
  y_run "/live/a" "s" 40 1 true [] = Some UB /\ y_run "/live/a.f" "s" 40 1 true [] = Some UB /\ y_run "/live/a" "s" 40 1 false [] = Some (Ok (-7)) /\
  y_run "/live/a.flv" "s" 40 1 true [[y_pkt]] = None /\ y_run "/live/a.-x" "s" 40 1 true [[y_pkt]] = Some UB /\
  y_run "/live/a.-x" "s" 40 1 true [] = None /\
  y_run "/a" "p" 40 0 true [] = Some UB /\ y_run "/a" "p" 40 1 true [] = Some (Ok (-7)) /\
  y_run "/a" "p" 0 1 true [] = Some UB /\ y_run "/a" "p" (-1) 1 true [] = Some (Ok (-1)).
Proof. repeat (split; [vm_compute; reflexivity|]). vm_compute. reflexivity. Qed.
(** The hypotheses of [player_outside] for one of them. *)
Example player_outside_case : let r := snd (request_of hp_url (str "/live/a.-x") (str "GET") [(str "Host", str "s")]) in
  exists h, find_host x_router (rq_host r) = Some h /\ adapter h = AStream /\ rq_method r <> str "POST" /\ stream_there (y_env true [[y_pkt]]) h r /\
    rq_ext r = str "-x" /\ media_comes [[y_pkt]].
Proof.
  cbv zeta. eexists. split; [vm_compute; reflexivity|]. split; [vm_compute; reflexivity|]. split; [vm_compute; discriminate|]. split; [exact I|]. split; [vm_compute; reflexivity|].
  left. exists y_pkt. split; [left; reflexivity|reflexivity].
Qed.
