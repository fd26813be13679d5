(** C243: what becomes of an edge's pull, for every origin. *)
From Verif Require Import Base M_IO S_IO L_IO M_Text M_Packet S_Cache M_Flv S_Flv L_Flv P_Flv M_Live S_Live L_Live L_Live2 M_Conf M_Url S_Url L_Url P_Url M_Host M_Http S_Http L_Http L_Http2 L_Http3 P_Http
  M_Https S_Https L_Https M_Upload S_Upload L_Upload P_Upload M_Stream S_Stream L_Stream P_Stream M_HttpConn S_HttpConn L_HttpConn M_Edge S_Edge L_Edge P_Edge S_HttpOut L_HttpOut P_HttpOut S_EdgeOut L_EdgeOut.

(** C243: every origin, its bytes cut in every way: how the pull ends and which stream it
    makes is what [pulled] says, and that is one thing. *)
Theorem edge_fate_exactly : forall lib fmts decode q conn t o x s, nonempty_chunks (t_chunks t) -> t_err t <> 0 -> sk_err o <> 0 ->
  (fst (edge_http lib fmts decode q conn t o) = (x, s) <-> pulled lib fmts decode q conn t o x s).
Proof.
  intros lib fmts decode q conn t o x s Hn He Ho. pose proof (pulled_edge lib fmts decode q conn t o Hn He Ho) as P.
  destruct (edge_http lib fmts decode q conn t o) as [[x1 s1] o1]. cbn [fst snd] in *. split.
  - intros [= <- <-]. exact P.
  - intros H. destruct (pulled_fun _ _ _ _ _ _ _ _ _ _ _ P H) as (-> & ->). reflexivity.
Qed.
Print Assumptions edge_fate_exactly.

(** C243: so an origin brings the edge into undefined behaviour exactly when the request
    reaches it, the head of its answer comes, and: the library refuses the head at its
    first byte; or the answer is a success and the extension is compared past its end, or
    no format has it, or the reader of the format reads outside. *)
Theorem edge_outside_exactly : forall lib fmts decode q conn t o, nonempty_chunks (t_chunks t) -> t_err t <> 0 -> sk_err o <> 0 ->
  (fst (fst (edge_http lib fmts decode q conn t o)) = UB <->
   sent_to conn o /\ exists n ri t1, answered_by lib t n ri t1 /\
     (n = 0 \/ 0 < n /\ ri_status ri = 200 /\
       (past_end fmts (rq_ext q) \/ (forall f, ~ selects fmts (rq_ext q) f) \/ exists f ps, selects fmts (rq_ext q) f /\ body_gives (decode f) ri t1 ps UB))).
Proof.
  intros lib fmts decode q conn t o Hn He Ho. pose proof (pulled_edge lib fmts decode q conn t o Hn He Ho) as P.
  destruct (edge_http lib fmts decode q conn t o) as [[x1 s1] o1]. cbn [fst snd] in *. split.
  - intros ->. inversion P; try (split; [assumption|]; eexists _, _, _; split; [eassumption|]; auto 10; fail).
    + split; [assumption|]. eexists _, _, _. split; [eassumption|]. right. split; [assumption|]. split; [assumption|]. right. right.
      match goal with H : match ?x with Ok _ => _ | Err _ => _ | UB => _ | Fuel => _ end = UB |- _ => destruct x; try discriminate H end. eauto.
  - intros (A & n & ri & t1 & B & C). assert (Q : exists s, pulled lib fmts decode q conn t o UB s).
    { destruct C as [C|(C1 & C2 & [C|[C|(f & ps & C & D)]])].
      - eexists. eapply pu_first_byte; eassumption.
      - eexists. eapply pu_extension; eassumption.
      - destruct (fmt_find_spec (rq_ext q) fmts) as (F1 & _). destruct (fmt_find fmts (rq_ext q)) eqn:E; try (eexists; eapply pu_extension; try eassumption; apply F1; reflexivity);
          (eexists; eapply pu_no_format; try eassumption; intros X; apply F1 in X; discriminate X).
      - exists (Some ps). eapply (pu_stream lib fmts decode q conn t o n ri t1 f ps UB); eassumption. }
    destruct Q as (s & Q). destruct (pulled_fun _ _ _ _ _ _ _ _ _ _ _ P Q) as (-> & _). reflexivity.
Qed.
Print Assumptions edge_outside_exactly.

(** C243: with the formats registered without FFmpeg, an extension that is not compared
    past its end has a format exactly when it begins with "flv", "-" or "ts". *)
Theorem edge_formats : forall e, ~ past_end input_exts e ->
  ((exists f, selects input_exts e f) <-> exists f x, In f input_exts /\ e = f ++ x).
Proof.
  intros e He. destruct (formats_outside e) as (F & _). assert (H2 : 2 <= zlen e) by (destruct (Z_le_gt_dec (zlen e) 1) as [K|K]; [apply F in K; contradiction|lia]).
  assert (B : forall f, In f input_exts -> (begins f e <-> exists x, e = f ++ x)).
  { intros f Hf. split.
    - intros (y & Hy). assert (K : zlen f <= zlen e).
      { destruct Hf as [<-|[<-|[<-|[]]]]; try (vm_compute (zlen (str _)); lia). destruct e as [|a [|b [|c e]]]; try (change (zlen (@nil Z)) with 0 in H2; lia); try (cbn in H2; lia); [cbn in Hy; injection Hy; discriminate|].
        rewrite !zlen_cons. pose proof (zlen_nonneg e). change (zlen (str "flv")) with 3. lia. }
      exists (drop (zlen f) e). pose proof (f_equal (take (zlen f)) Hy) as T. rewrite take_app_le in T by (pose proof (zlen_nonneg f); lia). rewrite take_app_exact in T by reflexivity.
      rewrite <- T at 1. symmetry. apply take_drop.
    - intros (x & ->). exists (x ++ [0]). rewrite app_assoc. reflexivity. }
  split.
  - intros (f & a & b & El & Hb & _). assert (Hf : In f input_exts) by (rewrite El; apply in_or_app; right; left; reflexivity). destruct (proj1 (B f Hf) Hb) as (x & ->). eauto.
  - intros (f & x & Hf & Hx). assert (Hb : begins f e) by (apply B; eauto).
    destruct (fmt_find_spec e input_exts) as (F1 & F2 & F3 & F4). destruct (fmt_find input_exts e) as [[g|]|c| |] eqn:E; try contradiction; [exists g; apply F2; reflexivity| |exfalso; apply (F4 c); reflexivity|exfalso; apply He, F1; reflexivity].
    exfalso. clear - E Hb Hf H2. assert (forall l, In f l -> fmt_find l e = Ok None -> False); [|eauto].
    induction l as [|g l IH]; [contradiction|]. cbn [fmt_find]. intros Hi K. destruct Hi as [->|Hl]; revert K.
    + destruct (fmt_match_spec f e) as [(-> & L)|[(L & -> & Q)|(L & -> & Q)]]; cbn [bind]; intros K; try discriminate K. contradiction.
    + destruct (fmt_match_spec g e) as [(-> & L)|[(L & -> & Q)|(L & -> & Q)]]; cbn [bind]; intros K; try discriminate K. exact (IH Hl K).
Qed.
Print Assumptions edge_formats.

(** Origins of every kind; the last three are undefined: not an HTTP server, a success for
    a name without an extension, and a success for an extension nobody reads. *)
Definition e_q (ext : list Z) : ureq := mkrq (str "/live/x") (str "GET") (str "http") 80 (str "origin") (str "/live/x") ext [] [] [].
Definition e_run (n st : Z) (ext : list Z) (conn : bool) (cs : list (list Z)) : res Z * option Z :=
  let '(x, s, _) := edge_http (fun _ => (n, mkri st (-1) false [])) input_exts ex_dec (e_q ext) conn (mktr cs 1004) (mksk [] None 7) in (x, option_map zlen s).
Example edge_fate_cases : let a := [take 5 ex_plain; drop 5 ex_plain ++ ex_flv] in
  e_run 9 200 (str "flv") false a = (Ok ERROR_HTTP_SOCKET_CONNECT, None) /\ e_run 9 200 (str "flv") true [] = (Ok (-1004), None) /\ e_run (-3) 200 (str "flv") true a = (Ok (-3), None) /\
  e_run 9 404 (str "") true a = (Ok 0, None) /\ e_run 9 200 (str "flv?x") true a = (Ok 1004, Some 4) /\
  e_run 0 200 (str "flv") true a = (UB, None) /\ e_run 9 200 (str "") true a = (UB, None) /\ e_run 9 200 (str "mp4") true a = (UB, None).
Proof. cbv zeta. repeat (split; [vm_compute; reflexivity|]). vm_compute. reflexivity. Qed.
