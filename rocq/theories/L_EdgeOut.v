(** Lemmas for C243. *)
From Verif Require Import Base M_IO S_IO L_IO M_Text M_Packet M_Flv M_Conf S_Url M_Url L_Url M_Host M_Http M_Https L_Https M_Upload M_Stream S_Http L_Http L_Http2 L_Http3 M_Edge L_Edge M_HttpConn S_HttpConn L_HttpConn S_HttpOut L_HttpOut S_EdgeOut.

Lemma read_fully_total t n : nonempty_chunks (t_chunks t) -> exists x t1, read_fully t n = (x, t1) /\ nonempty_chunks (t_chunks t1) /\ ((exists d, x = Ok d) \/ exists c, x = Err c).
Proof.
  intros Hn. destruct (Z_lt_le_dec n 0) as [H|H].
  - unfold read_fully. cbn [read_fully_loop]. change (zlen (@nil Z)) with 0. unfold t_read. assert (n - 0 <=? 0 = true) as -> by lia. eexists _, _. split; [reflexivity|]. eauto.
  - destruct (read_fully t n) as [x t1] eqn:E. destruct (read_fully_ne t n x t1 Hn H E) as (A & [(d & B & _)|B]); exists x, t1; split; auto; split; eauto.
Qed.
Lemma up_total b t n : nonempty_chunks (t_chunks t) -> 0 <= hb_left b < 2 ^ 64 ->
  exists x b1 t1, up_read b t n = (x, b1, t1) /\ nonempty_chunks (t_chunks t1) /\ 0 <= hb_left b1 < 2 ^ 64 /\ ((exists d, x = Ok d) \/ exists c, x = Err c).
Proof.
  intros Hne Hl. assert (D : forall b t, nonempty_chunks (t_chunks t) -> 0 <= hb_left b < 2 ^ 64 ->
    exists x b1 t1, up_data b t n = (x, b1, t1) /\ nonempty_chunks (t_chunks t1) /\ 0 <= hb_left b1 < 2 ^ 64 /\ ((exists d, x = Ok d) \/ exists c, x = Err c)).
  { clear. intros b t Hne Hl. unfold up_data. set (b1 := hb_set_left b _).
    assert (Hb1 : 0 <= hb_left b1 < 2 ^ 64) by (apply Z.mod_pos_bound; lia).
    assert (T : forall t d, nonempty_chunks (t_chunks t) -> exists x b2 t1, chunk_tail b1 t d = (x, b2, t1) /\ nonempty_chunks (t_chunks t1) /\ 0 <= hb_left b2 < 2 ^ 64 /\ ((exists d, x = Ok d) \/ exists c, x = Err c)).
    { clear - Hb1. intros t d Hn. destruct (chunk_tail_any b1 t d (zlen d) Hn ltac:(lia)) as (x & b2 & t1 & E & A & B & C). exists x, b2, t1. rewrite B. split; [exact E|]. split; [exact A|]. split; [exact Hb1|].
      destruct C as [(d' & C & _)|C]; eauto. }
    destruct (Z.min (hb_left b) n =? 0); [apply T, Hne|].
    destruct (read_fully_total t (Z.min (hb_left b) n) Hne) as (y & t1 & -> & Hn1 & [(d & ->)|(c & ->)]); [apply T, Hn1|].
    eexists _, _, _. split; [reflexivity|]. split; [exact Hn1|]. split; [exact Hb1|eauto]. }
  unfold up_read, hb_read. destruct (hb_eof b).
  { eexists _, _, _. split; [reflexivity|]. eauto. }
  destruct (hb_chunked b).
  - unfold read_chunked. destruct (hb_left b =? 0); [|apply D; assumption].
    unfold read_chunk_len.
    destruct (size_line_any 34 t [] Hne) as (x & t1 & -> & Hne1 & [(l & -> & Hll)|(e & ->)]);
      [change (zlen (@nil Z)) with 0; lia|change (zlen (@nil Z)) with 0; lia| |].
    + destruct (size_of_line_any l Hll) as [(m & -> & Hm)|(e & ->)].
      * apply D; assumption.
      * eexists _, _, _. split; [reflexivity|]. eauto.
    + eexists _, _, _. split; [reflexivity|]. eauto.
  - destruct (t_read t _) as [y t1] eqn:E. destruct (t_read_ne _ _ _ _ Hne E) as [Hne1 [(d & -> & _)|(e & ->)]].
    + eexists _, _, _. split; [reflexivity|]. split; [exact Hne1|]. split; [exact Hl|eauto].
    + eexists _, _, _. split; [reflexivity|]. eauto.
Qed.
Lemma over_up_total {A} (p : prog A) : forall b t, nonempty_chunks (t_chunks t) -> 0 <= hb_left b < 2 ^ 64 ->
  exists a t1, run_plain (over_up p b) t = (Ok (Ok a), t1) /\ nonempty_chunks (t_chunks t1).
Proof.
  induction p as [a|n k IHk ke IHe]; intros b t Hne Hl; cbn [over_up run_plain]; [eauto|].
  rewrite run_plain_bind, up_prog_run. destruct (up_total b t n Hne Hl) as (x & b1 & t1 & -> & N1 & L1 & [(d & ->)|(c & ->)]); auto.
Qed.

Definition code_of (x : res unit) : res Z := match x with Ok _ => Ok 0 | Err c => Ok c | UB => UB | Fuel => Fuel end.
(** There is only one way. *)
Lemma pulled_fun lib fmts decode q conn t o x s x' s' : pulled lib fmts decode q conn t o x s -> pulled lib fmts decode q conn t o x' s' -> x = x' /\ s = s'.
Proof.
  assert (A : forall n ri t1 n' ri' t1', answered_by lib t n ri t1 -> answered_by lib t n' ri' t1' -> n' = n /\ ri' = ri /\ t1' = t1).
  { intros n ri t1 n' ri' t1' (h & H1 & H2) (h' & H3 & H4). rewrite H1 in H3. injection H3 as <- <-. rewrite H2 in H4. injection H4 as <- <-. auto. }
  assert (B : forall c t1 n ri t2, read_head t MAX_HEADER = (Err c, t1) -> answered_by lib t n ri t2 -> False) by (intros c t1 n ri t2 H (h & H1 & _); congruence).
  destruct (fmt_find_spec (rq_ext q) fmts) as (F1 & F2 & _ & _).
  assert (C : forall f f', selects fmts (rq_ext q) f -> selects fmts (rq_ext q) f' -> f' = f) by (intros f f' X Y; apply F2 in X; apply F2 in Y; congruence).
  assert (D : forall f, selects fmts (rq_ext q) f -> past_end fmts (rq_ext q) -> False) by (intros f X Y; apply F2 in X; apply F1 in Y; congruence).
  intros [K|K1 K2|c t1 (K1 & K2) K3|n ri t1 (K1 & K2) K3 K4|n ri t1 (K1 & K2) K3 K4|n ri t1 (K1 & K2) K3 K4 K5|n ri t1 (K1 & K2) K3 K4 K5 K6|n ri t1 (K1 & K2) K3 K4 K5 K6 K7|n ri t1 f ps y (K1 & K2) K3 K4 K5 K6 K7];
  intros [J|J1 J2|c' t1' (J1 & J2) J3|n' ri' t1' (J1 & J2) J3 J4|n' ri' t1' (J1 & J2) J3 J4|n' ri' t1' (J1 & J2) J3 J4 J5|n' ri' t1' (J1 & J2) J3 J4 J5 J6|n' ri' t1' (J1 & J2) J3 J4 J5 J6 J7|n' ri' t1' f' ps' y' (J1 & J2) J3 J4 J5 J6 J7];
  try (split; congruence); try (exfalso; congruence); try (exfalso; eapply B; eassumption);
  destruct (A _ _ _ _ _ _ K3 J3) as (-> & -> & ->); try (split; congruence); try (exfalso; congruence); try (exfalso; lia); try (exfalso; eapply D; eassumption);
  try (exfalso; match goal with H : forall f, ~ selects _ _ f |- _ => eapply H; eassumption end).
  rewrite (C _ _ K6 J6) in *. unfold body_gives in *. rewrite K7 in J7. injection J7 as <- <-. auto.
Qed.
Lemma pulled_edge lib fmts decode q conn t o : nonempty_chunks (t_chunks t) -> t_err t <> 0 -> sk_err o <> 0 ->
  pulled lib fmts decode q conn t o (fst (fst (edge_http lib fmts decode q conn t o))) (snd (fst (edge_http lib fmts decode q conn t o))).
Proof.
  intros Hn He Ho. unfold edge_http, up_open. destruct conn; cbn [negb]; [|apply pu_unconnected; reflexivity].
  destruct (sk_write_took o (pull_text q)) as [((o1 & ->) & Rm)|((c & o1 & W) & Rm)].
  { unfold pull_text, http_request. intros X. apply app_eq_nil in X. destruct X as [_ X]. discriminate X. }
  2:{ rewrite W. unfold sk_write in W. rewrite Rm in W. injection W as <- <-. assert (sk_err o =? 0 = false) as -> by lia. apply pu_unsent; auto. }
  assert (St : sent_to true o) by (split; auto).
  destruct (read_head_any t MAX_HEADER Hn ltac:(unfold MAX_HEADER; lia)) as (x & t1 & E & Hx). destruct (read_head_keep _ _ _ Hn E) as (N1 & _). rewrite E.
  assert (Er : forall c, c <> 0 -> x = Err c -> c =? 0 = false /\ pulled lib fmts decode q true t o (Ok c) None).
  { intros c Hc ->. split; [lia|]. eapply pu_no_head; eassumption. }
  destruct Hx as [(d & -> & _)|[(-> & _)|(-> & _)]].
  2:{ destruct (Er (-1) ltac:(lia) eq_refl) as (-> & X). exact X. }
  2:{ destruct (Er (head_err (t_err t)) ltac:(unfold head_err; destruct (0 <? t_err t) eqn:E0; lia) eq_refl) as (-> & X). exact X. }
  clear Er. destruct (lib d) as [n ri] eqn:L. assert (An : answered_by lib t n ri t1) by (exists d; auto).
  destruct (n <=? 0) eqn:En.
  { destruct (n =? 0) eqn:E0; cbn [negb fst snd]; [eapply pu_first_byte; try eassumption; lia|eapply pu_refused; try eassumption; lia]. }
  cbn [Z.eqb negb]. destruct (ri_status ri =? 200) eqn:Es; cbn [negb fst snd]; [|eapply pu_status; try eassumption; lia].
  destruct (fmt_find_spec (rq_ext q) fmts) as (F1 & F2 & F3 & F4). destruct (fmt_find fmts (rq_ext q)) as [[f|]|c| |]; try contradiction.
  - destruct (over_up_total (decode f) (hb_new (ri_chunked ri) (ri_cl ri)) t1 N1 ltac:(cbn; lia)) as ([ps x] & t2 & R & _). rewrite R. cbn [fst snd].
    eapply pu_stream; try eassumption; try lia; [apply F2; reflexivity|]. unfold body_gives. rewrite R. reflexivity.
  - eapply pu_no_format; try eassumption; try lia; [intros X; apply F1 in X; discriminate X|intros f X; apply F2 in X; discriminate X].
  - exfalso. apply (F4 c). reflexivity.
  - eapply pu_extension; try eassumption; try lia. apply F1. reflexivity.
Qed.
