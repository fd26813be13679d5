(** Lemmas about uploads. *)
From Verif Require Import Base M_IO S_IO L_IO M_Text M_Http S_Http L_Http L_Http2 M_Tls S_Tls M_Https S_Https L_Https M_Packet M_Flv S_Flv L_Flv M_Upload S_Upload.

Lemma reads_body_ok : forall {A} (p : prog A), reads_body p -> reads_ok p.
Proof. intros A p H. induction H; constructor; auto. Qed.

(** ** Programs over a body *)
Lemma rq_eof : forall b n, hb_eof b = true -> rq_prog b n = PRet (Err ERROR_HTTP_RES_EOF, b).
Proof. intros b n H. unfold rq_prog. rewrite H. reflexivity. Qed.
(** Still a program that reads well. *)
Lemma over_body_okp : forall {A} (p : prog A), reads_body p -> forall b, binv b -> okp (fun _ => True) (fun _ _ => True) (over_body p b).
Proof.
  intros A p H. induction H as [a|n k ke Hn Hk IH Hke (n' & k' & ke' & E & Hn' & Hke')]; intros b Hb; cbn [over_body]; [constructor; exact I|].
  eapply okp_bind; [apply rq_okp; [exact Hb|exact Hn]| |].
  - intros [r b1] Hr. destruct r as [d|c| |]; try (constructor; exact I).
    + destruct Hr as [(Hd & Hb1)|(-> & He)]; [apply IH; assumption|]. rewrite E. cbn [over_body]. rewrite (rq_eof _ _ He). cbn [pbind]. rewrite Hke'.
      destruct (Hke ERROR_HTTP_RES_EOF) as (a & ->). constructor. exact I.
    + destruct (Hke c) as (a & ->). constructor. exact I.
  - intros c [r b1] Hr. unfold rerr in Hr. cbn in Hr. subst r. destruct (Hke c) as (a & ->). eexists. split; [reflexivity|exact I].
Qed.

(** ** A connection that breaks off, beside the one that does not *)
Definition plus (t : transport) (miss : list Z) : transport := mktr (t_chunks t ++ match miss with [] => [] | _ => [miss] end) (t_err t).
Lemma plus_nil : forall t, plus t [] = t.
Proof. intros [cs e]. unfold plus. cbn. rewrite app_nil_r. reflexivity. Qed.
Lemma plus_stream : forall t miss, t_stream (plus t miss) = t_stream t ++ miss.
Proof. intros t miss. unfold plus, t_stream. cbn [t_chunks]. rewrite concat_app. destruct miss; cbn [concat]; [reflexivity|]. rewrite app_nil_r. reflexivity. Qed.
Lemma plus_ne : forall t miss, nonempty_chunks (t_chunks t) -> nonempty_chunks (t_chunks (plus t miss)).
Proof. intros t miss H. unfold plus. cbn [t_chunks]. apply Forall_app. split; [exact H|]. destruct miss; constructor; [discriminate|constructor]. Qed.
Lemma cut_read : forall {A} Q QE (p : prog A), okp Q QE p -> forall t miss, nonempty_chunks (t_chunks t) ->
  (exists x t1, run_plain p t = (x, t1) /\ run_plain p (plus t miss) = (x, plus t1 miss) /\ nonempty_chunks (t_chunks t1) /\ t_err t1 = t_err t) \/
  (miss <> [] /\ exists a t1, run_plain p t = (Ok a, t1) /\ QE (t_err t) a).
Proof.
  intros A Q QE p H. induction H as [a Ha|n k ke Hn Hk IH Hke]; intros t miss Ht; cbn [run_plain].
  - left. exists (Ok a), t. auto.
  - destruct miss as [|m ms].
    { left. rewrite plus_nil. destruct (t_read_ok t n Ht Hn) as [(Hc & Hr)|(d & t1 & Hr & Hd & Hl & Hs & Hne & He)]; rewrite Hr.
      - destruct (Hke (t_err t)) as (a & -> & _). cbn [run_plain]. exists (Ok a), t. rewrite plus_nil. auto.
      - assert (Hd' : 0 < zlen d <= n) by (destruct d; [congruence|rewrite zlen_cons in *; pose proof (zlen_nonneg d); lia]).
        destruct (IH d Hd' t1 [] Hne) as [(x & t2 & A1 & A2 & A3 & A4)|(N & _)]; [|congruence].
        exists x, t2. rewrite plus_nil in A2. rewrite plus_nil. repeat split; congruence || assumption. }
    destruct (t_chunks t) as [|c cs] eqn:Hc.
    { right. split; [discriminate|]. unfold t_read. replace (n <=? 0) with false by (symmetry; apply Z.leb_gt; lia). rewrite Hc. destruct (Hke (t_err t)) as (a & -> & Ha). cbn [run_plain]. eauto. }
    inversion_clear Ht as [|? ? Hc0 Hcs].
    assert (Hread : exists d t1, 0 < zlen d <= n /\ nonempty_chunks (t_chunks t1) /\ t_err t1 = t_err t /\
      t_read t n = (Ok d, t1) /\
      t_read (plus t (m :: ms)) n = (Ok d, plus t1 (m :: ms))).
    { unfold t_read. replace (n <=? 0) with false by (symmetry; apply Z.leb_gt; lia). unfold plus. rewrite Hc. cbn [t_chunks app t_err].
      destruct (Z.leb_spec (zlen c) n) as [K|K].
      - exists c, (mktr cs (t_err t)). repeat split; auto. destruct c; [congruence|rewrite zlen_cons; pose proof (zlen_nonneg c); lia].
      - exists (take n c), (mktr (drop n c :: cs) (t_err t)). assert (zlen (take n c) = n) by (rewrite zlen_take by lia; lia). repeat split; auto; try lia. cbn [t_chunks].
        constructor; [|exact Hcs]. intros Hx. apply (f_equal zlen) in Hx. rewrite zlen_drop in Hx by lia. change (zlen (@nil Z)) with 0 in Hx. lia. }
    destruct Hread as (d & t1 & Hd & Hne & He & Hr1 & Hr2). rewrite Hr1, Hr2.
    destruct (IH d Hd t1 (m :: ms) Hne) as [(x & t2 & A1 & A2 & A3 & A4)|(_ & a & t2 & A1 & A2)].
    + left. exists x, t2. repeat split; congruence || assumption.
    + right. split; [discriminate|]. exists a, t2. rewrite <- He. auto.
Qed.
Lemma okp_value : forall {A} Q QE (p : prog A), okp Q QE p -> forall t x t1, nonempty_chunks (t_chunks t) -> run_plain p t = (x, t1) ->
  exists a, x = Ok a /\ (Q a \/ exists c, QE c a).
Proof.
  intros A Q QE p H. induction H as [a Ha|n k ke Hn Hk IH Hke]; intros t x t1 Ht E; cbn [run_plain] in E.
  - injection E as <- <-. eauto.
  - destruct (t_read_ok t n Ht Hn) as [(Hc & Hr)|(d & t2 & Hr & Hd & Hl & Hs & Hne & He)]; rewrite Hr in E.
    + destruct (Hke (t_err t)) as (a & Ha & Hq). rewrite Ha in E. injection E as <- <-. eauto.
    + apply (IH d) with (2 := Hne) (3 := E). destruct d; [congruence|rewrite zlen_cons in *; pose proof (zlen_nonneg d); lia].
Qed.
(** The reader of a body between reads, over the connection that brings all of it. *)
Definition live (b : hbody) (t : transport) (body rest : list Z) : Prop := ch_inv b t body rest \/ exists n, fx_inv n b t body rest.
Definition at_end (b : hbody) (body : list Z) : Prop := hb_eof b = true /\ body = [].
Lemma live_binv : forall b t body rest, live b t body rest -> binv b.
Proof.
  intros b t body rest [(H1 & H2 & H3 & H4)|(n & H1 & H2 & H3 & H4 & H5 & H6 & H7 & _)]; right; [left|right].
  - split; [exact H1|]. destruct H4 as [(-> & _)|(d & s & b' & Hd & -> & _)]; lia.
  - split; [exact H1|]. right. lia.
Qed.
Lemma live_step : forall b t body rest n, live b t body rest -> 0 < n ->
  exists d b1 t1, run_plain (rq_prog b n) t = (Ok (Ok d, b1), t1) /\
    ((d = [] /\ at_end b1 body) \/
     (0 < zlen d <= n /\ exists body', body = d ++ body' /\ (live b1 t1 body' rest \/ at_end b1 body'))).
Proof.
  intros b t body rest n H Hn. pose proof (live_binv _ _ _ _ H) as Hb.
  assert (Hne : nonempty_chunks (t_chunks t)) by (destruct H as [(_ & _ & H & _)|(m & _ & _ & _ & _ & _ & _ & _ & H & _)]; exact H).
  assert (Hlen : forall d b1 t1, run_plain (rq_prog b n) t = (Ok (Ok d, b1), t1) -> d <> [] -> 0 < zlen d <= n).
  { intros d b1 t1 E Hd. destruct (okp_value _ _ _ (rq_okp b n Hb Hn) _ _ _ Hne E) as (a & Ea & [Ha|(c & Ha)]); injection Ea as <-.
    - destruct Ha as [(Ha & _)|(Ha & _)]; [exact Ha|contradiction].
    - discriminate Ha. }
  rewrite rq_prog_run in *. destruct H as [H|(m & H)].
  - destruct (hb_read_chunked rq_data b t n body rest rq_data_ok H Hn) as (x & b1 & t1 & E & K). unfold rq_read in *. rewrite E in *. exists x, b1, t1. split; [reflexivity|].
    destruct K as [(-> & -> & K & _)|(Hx & _ & body' & -> & K)]; [left; split; [reflexivity|split; [exact K|reflexivity]]|right].
    split; [exact (Hlen _ _ _ eq_refl Hx)|]. exists body'. split; [reflexivity|]. left. left. exact K.
  - destruct (hb_read_fixed rq_data m b t n body rest H Hn) as (x & b1 & t1 & body' & E & Hx & _ & -> & K). unfold rq_read in *. rewrite E in *. exists x, b1, t1. split; [reflexivity|].
    right. split; [exact (Hlen _ _ _ eq_refl Hx)|]. exists body'. split; [reflexivity|]. destruct K as [(-> & K & _)|K]; [right; split; [exact K|reflexivity]|left; right; eauto].
Qed.
Lemma over_body_sim : forall {A} (p : prog A), reads_body p -> forall b t body rest miss, nonempty_chunks (t_chunks t) ->
  live b (plus t miss) body rest \/ at_end b body ->
  exists cs err, nonempty_chunks cs /\ fst (run_plain (over_body p b) t) = Ok (fst (run_plain p (mktr cs err))) /\
    ((err = ERROR_HTTP_RES_EOF /\ concat cs = body) \/ (err = t_err t /\ miss <> [] /\ exists tl, body = concat cs ++ tl)).
Proof.
  assert (T0 : forall c n, 0 < n -> t_read (mktr [] c) n = (Err c, mktr [] c)).
  { intros c n Hn. unfold t_read. replace (n <=? 0) with false by (symmetry; apply Z.leb_gt; lia). reflexivity. }
  intros A p H. induction H as [a|n k ke Hn Hk IH Hke (n' & k' & ke' & E & Hn' & Hke')]; intros b t body rest miss Hne Hb; cbn [over_body].
  - exists (match body with [] => [] | _ => [body] end), ERROR_HTTP_RES_EOF. split; [destruct body; constructor; [discriminate|constructor]|]. split; [reflexivity|].
    left. split; [reflexivity|]. destruct body; [reflexivity|]. cbn [concat]. apply app_nil_r.
  - assert (Hend : forall b1, hb_eof b1 = true -> exists a, ke ERROR_HTTP_RES_EOF = PRet a /\ over_body (k []) b1 = PRet (Ok a) /\
      run_plain (PRead n k ke) (mktr [] ERROR_HTTP_RES_EOF) = (Ok a, mktr [] ERROR_HTTP_RES_EOF)).
    { intros b1 He. destruct (Hke ERROR_HTTP_RES_EOF) as (a & Ha). exists a. split; [exact Ha|]. split.
      - rewrite E. cbn [over_body]. rewrite (rq_eof _ _ He). cbn [pbind]. rewrite Hke', Ha. reflexivity.
      - cbn [run_plain]. rewrite T0 by exact Hn. rewrite Ha. reflexivity. }
    rewrite run_plain_bind. destruct Hb as [Hb|(Hb & ->)].
    + destruct (cut_read _ _ _ (rq_okp b n (live_binv _ _ _ _ Hb) Hn) t miss Hne) as [(x & t1 & A1 & A2 & A3 & A4)|(Hm & [r b1] & t1 & A1 & A2)].
      * rewrite A1. destruct (live_step _ _ _ _ _ Hb Hn) as (d & b1 & t2 & B1 & B2). rewrite A2 in B1. injection B1 as -> <-.
        destruct B2 as [(-> & B2 & ->)|(Hd & body' & -> & B2)].
        { destruct (Hend b1 B2) as (a & Ha & Hz & Hr). exists [], ERROR_HTTP_RES_EOF. split; [constructor|]. rewrite Hz, Hr. split; [reflexivity|]. left. split; reflexivity. }
        destruct (IH d Hd b1 t1 body' rest miss A3 B2) as (cs & err & C1 & C2 & C3). exists (d :: cs), err.
        split; [constructor; [intros ->; change (zlen (@nil Z)) with 0 in Hd; lia|exact C1]|]. split.
        { rewrite C2. cbn [run_plain]. unfold t_read. cbn [t_chunks t_err]. replace (n <=? 0) with false by (symmetry; apply Z.leb_gt; lia).
          replace (zlen d <=? n) with true by (symmetry; apply Z.leb_le; lia). reflexivity. }
        cbn [concat]. destruct C3 as [(-> & <-)|(-> & Hm & tl & ->)]; [left; auto|right]. split; [congruence|]. split; [exact Hm|]. exists tl. rewrite app_assoc. reflexivity.
      * rewrite A1. unfold rerr in A2. cbn in A2. subst r. destruct (Hke (t_err t)) as (a & Ha). rewrite Ha. cbn [over_body run_plain].
        exists [], (t_err t). split; [constructor|]. rewrite T0 by exact Hn. rewrite Ha. split; [reflexivity|]. right. split; [reflexivity|]. split; [exact Hm|]. exists body. reflexivity.
    + rewrite (rq_eof _ _ Hb). cbn [run_plain]. destruct (Hke ERROR_HTTP_RES_EOF) as (a & Ha). rewrite Ha.
      exists [], ERROR_HTTP_RES_EOF. split; [constructor|]. rewrite T0 by exact Hn. rewrite Ha. split; [reflexivity|]. left. split; reflexivity.
Qed.
Lemma framed_live : forall ch cl t body more, framed (ch, cl) (t_stream t) body more -> nonempty_chunks (t_chunks t) -> live (hb_new ch cl) t body more.
Proof.
  intros ch cl t body more H Hn. unfold framed in H. cbn [fst snd] in H. destruct ch.
  - left. split; [reflexivity|]. split; [reflexivity|]. split; [exact Hn|]. left. split; [reflexivity|exact H].
  - right. exists cl. destruct H as (H1 & H2 & H3). unfold fx_inv. cbn. repeat split; try lia; assumption.
Qed.
(** Without framing. *)
Lemma over_body_unframed : forall {A} (p : prog A) n m t cl, cl < 0 -> 
  fst (run_plain (over_body p (mkhb false cl false n m 0)) t) = Ok (fst (run_plain p t)).
Proof.
  intros A p. induction p as [a|n k IH ke IHe]; intros nr m t cl Hcl; cbn [over_body]; [reflexivity|].
  rewrite run_plain_bind. unfold rq_prog. cbn [hb_eof hb_chunked hb_cl hb_nread hb_size hb_left]. replace (0 <=? cl) with false by (symmetry; apply Z.leb_gt; lia). cbv zeta.
  cbn [run_plain]. destruct (t_read_res t n) as [(d & t1 & ->)|(c & t1 & ->)]; cbn [run_plain]; [apply IH|apply IHe]; exact Hcl.
Qed.

(** ** The FLV demuxer as a program *)
Inductive okb {A} (Q : A -> Prop) (QE : Z -> A -> Prop) : prog A -> Prop :=
| okb_ret a : Q a -> okb Q QE (PRet a)
| okb_read n k ke : 0 < n -> (forall d, 0 < zlen d <= n -> okb Q QE (k d)) -> (forall c, exists a, ke c = PRet a /\ QE c a) ->
    (exists n' k' ke', k [] = PRead n' k' ke' /\ 0 < n' /\ forall c, ke' c = ke c) -> okb Q QE (PRead n k ke).
Lemma okb_reads : forall {A} Q QE (p : prog A), okb Q QE p -> reads_body p.
Proof. intros A Q QE p H. induction H as [a Ha|n k ke Hn Hk IH He H0]; [constructor|]. constructor; [exact Hn|exact IH| |exact H0]. intros c. destruct (He c) as (a & Ha & _). eauto. Qed.
Lemma okb_bind : forall {A B} (Q : A -> Prop) (QE : Z -> A -> Prop) (Q' : B -> Prop) (QE' : Z -> B -> Prop) p f, okb Q QE p ->
  (forall a, Q a -> okb Q' QE' (f a)) -> (forall c a, QE c a -> exists b, f a = PRet b /\ QE' c b) -> okb Q' QE' (pbind p f).
Proof.
  intros A B Q QE Q' QE' p f H Hf He. induction H as [a Ha|n k ke Hn Hk IH Hke (n' & k' & ke' & E & Hn' & Hke')]; cbn [pbind]; [auto|].
  constructor; [exact Hn|exact IH| |].
  - intros c. destruct (Hke c) as (a & -> & Ha). cbn [pbind]. apply (He c), Ha.
  - rewrite E. cbn [pbind]. eexists _, _, _. split; [reflexivity|]. split; [exact Hn'|]. intros c. cbn beta. rewrite Hke'. reflexivity.
Qed.
(** The buffer between steps; the read pointer may be past the end of what was
    received. *)
Definition abi (b : avbuf) : Prop := 0 <= ab_ptr b <= ab_cap b /\ 0 <= ab_end b <= ab_cap b /\ ab_cap b < 2 ^ 62 /\ ab_rw b = true.
Definition gq {A} (Q : A -> Prop) (x : res A * avbuf) : Prop := match fst x with Ok a => abi (snd x) /\ Q a | _ => True end.
Definition gqe {A} (c : Z) (x : res A * avbuf) : Prop := fst x = Err c.
Definition gok {A} (m : pgm A) (Q : A -> Prop) : Prop := forall b, abi b -> okb (gq Q) gqe (m b).
Definition anyv {A} (a : A) : Prop := True.
Lemma gok_ret : forall {A} (a : A), gok (gret a) anyv.
Proof. intros A a b H. constructor. split; [exact H|exact I]. Qed.
Lemma gok_err : forall {A} c, gok (@gerr A c) anyv.
Proof. intros A c b H. constructor. exact I. Qed.
Lemma gok_bind : forall {A B} (m : pgm A) (f : A -> pgm B) Q Q', gok m Q -> (forall a, Q a -> gok (f a) Q') -> gok (gbind m f) Q'.
Proof.
  intros A B m f Q Q' Hm Hf b Hb. unfold gbind. eapply okb_bind; [apply Hm, Hb| |].
  - intros [r b1] Hr. unfold gq in Hr. cbn [fst snd] in Hr. destruct r as [a|c| |]; try (constructor; exact I). apply Hf; tauto.
  - intros c [r b1] Hr. unfold gqe in Hr. cbn in Hr. subst r. eexists. split; reflexivity.
Qed.
Lemma gok_lift : forall {A} (f : breader -> res (A * breader)) Q, (forall b a r1, abi b -> f (mkbr b None) = Ok (a, r1) -> abi (br_buf r1) /\ Q a) -> gok (glift f) Q.
Proof.
  intros A f Q H b Hb. unfold glift. destruct (f (mkbr b None)) as [[a r1]|c| |] eqn:E; constructor; try exact I. exact (H _ _ _ Hb E).
Qed.
Lemma abi_rd8 : forall b io v r1, abi b -> rd8 (mkbr b io) = Ok (v, r1) -> abi (br_buf r1) /\ br_io r1 = io.
Proof.
  intros b io v r1 (H1 & H2 & H3 & H4) H. unfold rd8 in H. cbn [br_buf br_io] in H. destruct (nthz (ab_data b) (ab_ptr b)) as [x|] eqn:E; [|discriminate].
  injection H as <- <-. split; [|reflexivity]. cbn [br_buf]. unfold abi, ab_skip, ab_cap in *. cbn [ab_ptr ab_end ab_data ab_rw] in *.
  pose proof (nthz_some_range _ _ _ E).
  repeat split; try lia; assumption.
Qed.
Lemma gok_rd8 : gok (glift rd8) anyv.
Proof. apply gok_lift. intros b a r1 Hb H. split; [exact (proj1 (abi_rd8 _ _ _ _ Hb H))|exact I]. Qed.
Lemma abi_rd16 : forall b io v r1, abi b -> rd16 (mkbr b io) = Ok (v, r1) -> abi (br_buf r1) /\ br_io r1 = io.
Proof.
  intros b io v r1 Hb H. unfold rd16 in H. destruct (rd8 (mkbr b io)) as [[x [b1 io1]]|c| |] eqn:E1; cbn [bind fst snd] in H; try discriminate.
  destruct (abi_rd8 _ _ _ _ Hb E1) as (K1 & K2). cbn in K1, K2. subst io1. destruct (rd8 (mkbr b1 io)) as [[y [b2 io2]]|c| |] eqn:E2; cbn [bind fst snd] in H; try discriminate.
  injection H as _ <-. exact (abi_rd8 _ _ _ _ K1 E2).
Qed.
Lemma abi_rd24 : forall b io v r1, abi b -> rd24 (mkbr b io) = Ok (v, r1) -> abi (br_buf r1) /\ br_io r1 = io /\ 0 <= v < 2 ^ 32.
Proof.
  intros b io v r1 Hb H. unfold rd24 in H. destruct (rd8 (mkbr b io)) as [[x [b1 io1]]|c| |] eqn:E1; cbn [bind fst snd] in H; try discriminate.
  destruct (abi_rd8 _ _ _ _ Hb E1) as (K1 & K2). cbn in K1, K2. subst io1. destruct (rd16 (mkbr b1 io)) as [[y [b2 io2]]|c| |] eqn:E2; cbn [bind fst snd] in H; try discriminate.
  injection H as <- <-. destruct (abi_rd16 _ _ _ _ K1 E2) as (K3 & K4). split; [exact K3|split; [exact K4|]]. unfold u32. apply Z.mod_pos_bound. reflexivity.
Qed.
Lemma abi_rd32 : forall b io v r1, abi b -> rd32 (mkbr b io) = Ok (v, r1) -> abi (br_buf r1).
Proof.
  intros b io v r1 Hb H. unfold rd32 in H. destruct (rd16 (mkbr b io)) as [[x [b1 io1]]|c| |] eqn:E1; cbn [bind fst snd] in H; try discriminate.
  destruct (abi_rd16 _ _ _ _ Hb E1) as (K1 & K2). cbn in K1, K2. subst io1. destruct (rd16 (mkbr b1 io)) as [[y [b2 io2]]|c| |] eqn:E2; cbn [bind fst snd] in H; try discriminate.
  injection H as <- <-. exact (proj1 (abi_rd16 _ _ _ _ K1 E2)).
Qed.
Lemma gok_rd24 : gok (glift rd24) (fun v => 0 <= v < 2 ^ 32).
Proof. apply gok_lift. intros b a r1 Hb H. destruct (abi_rd24 _ _ _ _ Hb H) as (K1 & _ & K2). auto. Qed.
Lemma gok_rd32 : gok (glift rd32) anyv.
Proof. apply gok_lift. intros b a r1 Hb H. split; [exact (abi_rd32 _ _ _ _ Hb H)|exact I]. Qed.
Lemma gok_rdbytes : forall n, gok (glift (fun r => rdbytes r n)) anyv.
Proof.
  intros n. apply gok_lift. intros b a r1 (H1 & H2 & H3 & H4) H. unfold rdbytes in H. cbn [br_buf br_io] in H. destruct (slice (ab_data b) (ab_ptr b) n) as [d|] eqn:E; [|discriminate].
  injection H as <- <-. split; [|exact I]. apply slice_inv in E as (K1 & K2 & K3 & _). cbn [br_buf]. unfold abi, ab_skip, ab_cap in *. cbn [ab_ptr ab_end ab_data ab_rw] in *. repeat split; try lia; assumption.
Qed.
Lemma store_nil : forall b, 0 <= ab_end b <= ab_cap b -> ab_store b (ab_end b) [] = Ok b.
Proof.
  intros [d p e rw] H. unfold ab_store, ab_cap in *. cbn [ab_data ab_ptr ab_end ab_rw] in *. change (zlen (@nil Z)) with 0. rewrite Z.add_0_r.
  replace ((0 <=? e) && (e <=? zlen d)) with true by lia. cbn [app]. rewrite take_drop. reflexivity.
Qed.
Lemma acq_loop_okb : forall fuel b n, abi b -> ab_ptr b <= ab_end b -> n <= ab_cap b - ab_ptr b -> ab_end b - ab_ptr b < n -> n - (ab_end b - ab_ptr b) < Z.of_nat fuel ->
  okb (gq (@anyv unit)) gqe (acq_loop_prog fuel b n).
Proof.
  induction fuel as [|f IH]; intros b n Hb Hp Hn Hs Hf; [lia|]. destruct Hb as (H1 & H2 & H3 & H4). cbn [acq_loop_prog].
  assert (Hr : ab_remain b = ab_cap b - ab_end b) by (unfold ab_remain, u64; apply Z.mod_small; lia).
  constructor.
  - lia.
  - intros d Hd. unfold ab_store. replace ((0 <=? ab_end b) && (ab_end b + zlen d <=? ab_cap b)) with true by lia. cbv zeta. cbn [ab_data ab_ptr ab_end ab_rw].
    set (b2 := mkab _ _ _ _). assert (Hcap : ab_cap b2 = ab_cap b). { unfold b2, ab_cap in *. cbn [ab_data]. rewrite !zlen_app, zlen_take, zlen_drop by lia. lia. }
    assert (A2 : abi b2) by (unfold abi; rewrite Hcap; cbn [b2 ab_ptr ab_end ab_rw]; repeat split; lia || assumption).
    assert (Hsz : ab_size b2 = ab_end b + zlen d - ab_ptr b) by (unfold ab_size, u64; cbn [b2 ab_ptr ab_end]; apply Z.mod_small; lia).
    rewrite Hsz. destruct (Z.ltb_spec (ab_end b + zlen d - ab_ptr b) n) as [K|K]; [|constructor; split; [exact A2|exact I]].
    apply IH; [exact A2| | | |]; rewrite ?Hcap; cbn [b2 ab_ptr ab_end]; lia.
  - intros c. eexists. split; reflexivity.
  - rewrite store_nil by lia. cbv zeta. change (zlen (@nil Z)) with 0. rewrite Z.add_0_r.
    assert (Hsz : ab_size (mkab (ab_data b) (ab_ptr b) (ab_end b) (ab_rw b)) = ab_end b - ab_ptr b) by (unfold ab_size, u64; cbn [ab_ptr ab_end]; apply Z.mod_small; lia).
    rewrite Hsz. replace (ab_end b - ab_ptr b <? n) with true by lia. destruct f as [|f]; [lia|]. cbn [acq_loop_prog]. eexists _, _, _. split; [reflexivity|].
    split; [|intros c; destruct b; reflexivity]. unfold ab_remain in Hr |- *. cbn [ab_end]. unfold ab_cap in *. cbn [ab_data]. rewrite Hr. lia.
Qed.
Lemma gok_acquire : forall n, 0 <= n < 2 ^ 62 -> gok (gacquire n) anyv.
Proof.
  intros n Hn b Hb. unfold gacquire. destruct (Z.leb_spec n (ab_size b)) as [K|K]; [constructor; split; [exact Hb|exact I]|].
  destruct Hb as (H1 & H2 & H3 & H4). assert (Hpe : ab_ptr b <= ab_end b).
  { destruct (Z_le_gt_dec (ab_ptr b) (ab_end b)) as [Q|Q]; [exact Q|]. exfalso. unfold ab_size, u64 in K.
    rewrite <- (Z.mod_add (ab_end b - ab_ptr b) 1 (2 ^ 64)) in K by lia. rewrite Z.mod_small in K by lia. lia. }
  assert (Hsz : ab_size b = ab_end b - ab_ptr b) by (unfold ab_size, u64; apply Z.mod_small; lia). rewrite Hsz in K.
  unfold ab_cap_size. rewrite H4. destruct (Z.ltb_spec (ab_cap b) n) as [K2|K2]; [constructor; exact I|].
  assert (Hnr : ab_norewind b = ab_cap b - ab_ptr b) by (unfold ab_norewind, u64; apply Z.mod_small; lia). rewrite Hnr.
  destruct (Z.ltb_spec (ab_cap b - ab_ptr b) n) as [K3|K3].
  - unfold ab_rewind. unfold ab_cap in *. rewrite slice_some by lia. cbn [of_opt bind]. set (b1 := mkab _ _ _ _).
    assert (Hl : zlen (take (ab_end b - ab_ptr b) (drop (ab_ptr b) (ab_data b))) = ab_end b - ab_ptr b) by (rewrite zlen_take, zlen_drop by lia; lia).
    assert (Hcap : ab_cap b1 = zlen (ab_data b)). { unfold b1, ab_cap. cbn [ab_data]. rewrite zlen_app, zlen_drop, Hl by lia. lia. }
    assert (Hnr1 : ab_norewind b1 = zlen (ab_data b)) by (unfold ab_norewind, u64; rewrite Hcap; cbn [b1 ab_ptr]; rewrite Z.mod_small; lia).
    rewrite Hnr1. replace (zlen (ab_data b) <? n) with false by lia. apply acq_loop_okb; try (rewrite ?Hcap; cbn [b1 ab_ptr ab_end]; lia).
    unfold abi. rewrite Hcap. cbn [b1 ab_ptr ab_end ab_rw]. repeat split; lia || assumption.
  - rewrite Hnr. replace (ab_cap b - ab_ptr b <? n) with false by lia. apply acq_loop_okb; try lia. repeat split; lia || assumption.
Qed.
Lemma flv_header_gok : gok flv_header_prog anyv.
Proof.
  unfold flv_header_prog. eapply gok_bind; [apply gok_acquire; lia|]. intros _ _. eapply gok_bind; [apply gok_rdbytes|]. intros d _.
  destruct d as [|x0 [|x1 [|x2 [|x3 [|x4 d]]]]]; try (intros b Hb; constructor; exact I).
  destruct ((x0 =? 0x46) && (x1 =? 0x4C) && (x2 =? 0x56)); [apply gok_ret|]. intros b Hb. constructor. exact I.
Qed.
Lemma flv_packet_gok : gok flv_packet_prog anyv.
Proof.
  unfold flv_packet_prog. eapply gok_bind; [apply gok_acquire; lia|]. intros _ _. eapply gok_bind; [apply gok_rd32|]. intros _ _.
  eapply gok_bind; [apply gok_rd8|]. intros tag _. eapply gok_bind; [apply gok_rd24|]. intros dsize Hd. cbv beta in Hd. eapply gok_bind; [apply gok_rd24|]. intros dlow _.
  eapply gok_bind; [apply gok_rd8|]. intros dhigh _. cbv zeta. eapply gok_bind; [apply gok_rd24|]. intros _ _. eapply gok_bind; [apply gok_acquire; lia|]. intros _ _.
  assert (F : forall st ptype dts pts flags codec size, gok (if size <=? 0 then gerr ERROR_FLV_TAG else gbind (glift (fun r => rdbytes r size)) (fun d => gret (mkpkt AV_MESSAGE_DATA st ptype dts pts flags codec d))) anyv).
  { intros. destruct (size <=? 0); [apply gok_err|]. eapply gok_bind; [apply gok_rdbytes|]. intros d _. apply gok_ret. }
  destruct (tag =? 8); [|destruct (tag =? 9); [|destruct (tag =? 18); [apply F|apply gok_err]]].
  - eapply gok_bind; [apply gok_rd8|]. intros flags _. destruct (negb _); [apply gok_err|]. eapply gok_bind; [apply gok_rd8|]. intros pt _. apply F.
  - eapply gok_bind; [apply gok_rd8|]. intros flags _. destruct (negb _ && negb _); [apply gok_err|]. destruct (negb _); [|apply F].
    eapply gok_bind; [apply gok_rd8|]. intros pt _. eapply gok_bind; [apply gok_rd24|]. intros cts _. apply F.
Qed.
Lemma flv_all_okb : forall fuel b, abi b -> okb (fun _ => True) (fun _ _ => True) (flv_all_prog fuel b).
Proof.
  induction fuel as [|f IH]; intros b Hb; cbn [flv_all_prog]; [constructor; exact I|]. eapply okb_bind; [apply flv_packet_gok, Hb| |].
  - intros [r b1] Hr. destruct r as [p|c| |]; try (constructor; exact I). eapply okb_bind; [apply IH, (proj1 Hr)| |].
    + intros y _. constructor. exact I.
    + intros c y _. eexists. split; [reflexivity|exact I].
  - intros c [r b1] Hr. unfold gqe in Hr. cbn in Hr. subst r. eexists. split; [reflexivity|exact I].
Qed.
Lemma flv_decode_okb : forall fuel fill, zlen fill < 2 ^ 62 -> reads_body (flv_decode_prog fuel fill).
Proof.
  intros fuel fill Hf. apply (okb_reads (fun _ => True) (fun _ _ => True)). unfold flv_decode_prog. pose proof (zlen_nonneg fill).
  assert (Ha : abi (mkab fill 0 0 true)) by (unfold abi, ab_cap; cbn; repeat split; lia).
  eapply okb_bind; [apply flv_header_gok, Ha| |].
  - intros [r b1] Hr. destruct r as [p|c| |]; try (constructor; exact I). apply flv_all_okb, (proj1 Hr).
  - intros c [r b1] Hr. unfold gqe in Hr. cbn in Hr. subst r. eexists. split; [reflexivity|exact I].
Qed.

(** ** It is the demuxer of M_Flv.v *)
Definition same {A} (m : rdm A) (p : pgm A) : Prop := forall b t, exists r b1 t1, m (mkbr b (Some t)) = (r, mkbr b1 (Some t1)) /\ run_plain (p b) t = (Ok (r, b1), t1).
Lemma same_ret : forall {A} (a : A), same (mret a) (gret a).
Proof. intros A a b t. eexists _, _, _. split; reflexivity. Qed.
Lemma same_err : forall {A} c, same (@merr A c) (gerr c).
Proof. intros A c b t. eexists _, _, _. split; reflexivity. Qed.
Lemma same_bind : forall {A B} (m : rdm A) (p : pgm A) (f : A -> rdm B) (g : A -> pgm B), same m p -> (forall a, same (f a) (g a)) -> same (mbind m f) (gbind p g).
Proof.
  intros A B m p f g H Hf b t. destruct (H b t) as (r & b1 & t1 & E1 & E2). unfold mbind, gbind. rewrite E1, run_plain_bind, E2.
  destruct r as [a|c| |]; [apply Hf| | |]; eexists _, _, _; split; reflexivity.
Qed.
(** A function of the buffer alone. *)
Definition noio {A} (f : breader -> res (A * breader)) : Prop := forall b io,
  f (mkbr b io) = match f (mkbr b None) with Ok (a, r1) => Ok (a, mkbr (br_buf r1) io) | Err c => Err c | UB => UB | Fuel => Fuel end.
Lemma same_lift : forall {A} (f : breader -> res (A * breader)), noio f -> same (lift f) (glift f).
Proof.
  intros A f H b t. unfold lift, glift. rewrite (H b (Some t)). destruct (f (mkbr b None)) as [[a r1]|c| |]; eexists _, _, _; split; reflexivity.
Qed.
Lemma noio_rd8 : noio rd8.
Proof. intros b io. unfold rd8. cbn [br_buf br_io]. destruct (nthz (ab_data b) (ab_ptr b)); reflexivity. Qed.
Lemma noio_seq : forall {A B C} (f : breader -> res (A * breader)) (g : breader -> res (B * breader)) (h : A -> B -> C), noio f -> noio g ->
  noio (fun r => let? a := f r in let? b := g (snd a) in Ok (h (fst a) (fst b), snd b)).
Proof.
  intros A B C f g h Hf Hg b io. rewrite (Hf b io). destruct (f (mkbr b None)) as [[a [b1 io1]]|c| |]; cbn [bind fst snd br_buf]; try reflexivity.
  rewrite (Hg b1 io), (Hg b1 io1). destruct (g (mkbr b1 None)) as [[x [b2 io2]]|c| |]; reflexivity.
Qed.
Lemma noio_rd16 : noio rd16.
Proof. exact (noio_seq rd8 rd8 (fun a b => u16 (Z.lor (Z.shiftl a 8) b)) noio_rd8 noio_rd8). Qed.
Lemma noio_rd24 : noio rd24.
Proof. exact (noio_seq rd8 rd16 (fun a b => u32 (Z.lor (Z.shiftl a 16) b)) noio_rd8 noio_rd16). Qed.
Lemma noio_rd32 : noio rd32.
Proof. exact (noio_seq rd16 rd16 (fun a b => u32 (Z.lor (Z.shiftl a 16) b)) noio_rd16 noio_rd16). Qed.
Lemma noio_rdbytes : forall n, noio (fun r => rdbytes r n).
Proof. intros n b io. unfold rdbytes. cbn [br_buf br_io]. destruct (slice (ab_data b) (ab_ptr b) n); reflexivity. Qed.
Lemma acq_loop_same : forall fuel b n t, exists r b1 t1, acquire_loop fuel (mkbr b (Some t)) n = (r, mkbr b1 (Some t1)) /\ run_plain (acq_loop_prog fuel b n) t = (Ok (r, b1), t1).
Proof.
  induction fuel as [|f IH]; intros b n t; cbn [acquire_loop acq_loop_prog run_plain br_io br_buf]; [eexists _, _, _; split; reflexivity|].
  destruct (t_read_res t (ab_remain b)) as [(d & t1 & ->)|(c & t1 & ->)]; [|eexists _, _, _; split; reflexivity].
  destruct (ab_store b (ab_end b) d) as [b1|c| |]; try (eexists _, _, _; split; reflexivity). cbv zeta. cbn [br_buf].
  destruct (ab_size _ <? n); [apply IH|eexists _, _, _; split; reflexivity].
Qed.
Lemma same_acquire : forall n, same (macquire n) (gacquire n).
Proof.
  intros n b t. unfold macquire, acquire, gacquire. cbn [br_buf br_io]. destruct (n <=? ab_size b); [eexists _, _, _; split; reflexivity|].
  destruct (ab_cap_size b <? n); [eexists _, _, _; split; reflexivity|].
  destruct (if ab_norewind b <? n then ab_rewind b else Ok b) as [b1|c| |]; try (eexists _, _, _; split; reflexivity).
  destruct (ab_norewind b1 <? n); [eexists _, _, _; split; reflexivity|apply acq_loop_same].
Qed.
Lemma flv_header_same : same flv_read_header flv_header_prog.
Proof.
  unfold flv_read_header, flv_header_prog. apply same_bind; [apply same_acquire|]. intros _. apply same_bind; [apply same_lift, noio_rdbytes|]. intros d.
  destruct d as [|x0 [|x1 [|x2 [|x3 [|x4 d]]]]]; try (intros b t; eexists _, _, _; split; reflexivity).
  destruct ((x0 =? 0x46) && (x1 =? 0x4C) && (x2 =? 0x56)); [apply same_ret|]. intros b t. eexists _, _, _. split; reflexivity.
Qed.
Lemma flv_packet_same : same flv_read_packet flv_packet_prog.
Proof.
  unfold flv_read_packet, flv_packet_prog. apply same_bind; [apply same_acquire|]. intros _. apply same_bind; [apply same_lift, noio_rd32|]. intros _.
  apply same_bind; [apply same_lift, noio_rd8|]. intros tag. apply same_bind; [apply same_lift, noio_rd24|]. intros dsize. apply same_bind; [apply same_lift, noio_rd24|]. intros dlow.
  apply same_bind; [apply same_lift, noio_rd8|]. intros dhigh. cbv zeta. apply same_bind; [apply same_lift, noio_rd24|]. intros _. apply same_bind; [apply same_acquire|]. intros _.
  assert (F : forall st ptype dts pts flags codec size,
    same (if size <=? 0 then merr ERROR_FLV_TAG else mbind (lift (fun r => rdbytes r size)) (fun d => mret (mkpkt AV_MESSAGE_DATA st ptype dts pts flags codec d)))
         (if size <=? 0 then gerr ERROR_FLV_TAG else gbind (glift (fun r => rdbytes r size)) (fun d => gret (mkpkt AV_MESSAGE_DATA st ptype dts pts flags codec d)))).
  { intros. destruct (size <=? 0); [apply same_err|]. apply same_bind; [apply same_lift, noio_rdbytes|]. intros d. apply same_ret. }
  destruct (tag =? 8); [|destruct (tag =? 9); [|destruct (tag =? 18); [apply F|apply same_err]]].
  - apply same_bind; [apply same_lift, noio_rd8|]. intros flags. destruct (negb _); [apply same_err|]. apply same_bind; [apply same_lift, noio_rd8|]. intros pt. apply F.
  - apply same_bind; [apply same_lift, noio_rd8|]. intros flags. destruct (negb _ && negb _); [apply same_err|]. destruct (negb _); [|apply F].
    apply same_bind; [apply same_lift, noio_rd8|]. intros pt. apply same_bind; [apply same_lift, noio_rd24|]. intros cts. apply F.
Qed.
Lemma flv_all_same : forall fuel b t, fst (run_plain (flv_all_prog fuel b) t) = Ok (fst (flv_read_all fuel (mkbr b (Some t)))).
Proof.
  induction fuel as [|f IH]; intros b t; cbn [flv_all_prog flv_read_all]; [reflexivity|]. destruct (flv_packet_same b t) as (r & b1 & t1 & E1 & E2).
  rewrite E1, run_plain_bind, E2. destruct r as [p|c| |]; try reflexivity. rewrite run_plain_bind. specialize (IH b1 t1).
  destruct (run_plain (flv_all_prog f b1) t1) as [x t2]. destruct (flv_read_all f (mkbr b1 (Some t1))) as [[ps e] r2]. cbn [fst] in IH. subst x. reflexivity.
Qed.
Lemma flv_decode_same : forall fuel fill t, fst (run_plain (flv_decode_prog fuel fill) t) = Ok (fst (snd (flv_demux fuel (br_new fill t)))).
Proof.
  intros fuel fill t. unfold flv_decode_prog, flv_demux, br_new. destruct (flv_header_same (mkab fill 0 0 true) t) as (r & b1 & t1 & E1 & E2).
  rewrite E1, run_plain_bind, E2. destruct r as [p|c| |]; try reflexivity. apply flv_all_same.
Qed.

(** ** Uploads *)
Lemma spec_flv_next_app : forall cap e e' s p rest tl, bytes s -> spec_flv_next cap e s = FPacket p rest -> spec_flv_next cap e' (s ++ tl) = FPacket p (rest ++ tl).
Proof.
  intros cap e e' s p rest tl Hby H. destruct (Z_lt_dec (zlen s) 15) as [Hl|Hg]; [rewrite spec_flv_next_short in H by exact Hl; discriminate|].
  destruct (s15 s ltac:(lia)) as (p0 & p1 & p2 & p3 & ty & s0 & s1 & s2 & t0 & t1 & t2 & t3 & i0 & i1 & i2 & s' & ->).
  assert (Hnn : 0 <= bev [s0; s1; s2]). { apply (bev_range [s0; s1; s2]). do 5 apply bytes_cons in Hby as [_ Hby]. apply (bytes_take 3) in Hby. exact Hby. }
  cbn [app spec_flv_next] in *. set (dsz := bev [s0; s1; s2]) in *. set (dts := bev [t3; t0; t1; t2]) in *.
  destruct (cap <? dsz) eqn:C1; [discriminate|]. destruct (zlen s' <? dsz) eqn:C2; [discriminate|].
  rewrite zlen_app. pose proof (zlen_nonneg tl). replace (zlen s' + zlen tl <? dsz) with false by lia. rewrite take_app_le, drop_app_le by lia.
  destruct (ty =? 8); [|destruct (ty =? 9); [|destruct (ty =? 18); [|discriminate]]].
  - unfold flv_audio_body in *. destruct (take dsz s') as [|f [|t [|x d]]]; try discriminate;
      destruct (negb _); try discriminate; injection H as <- <-; reflexivity.
  - unfold flv_video_body in *. destruct (take dsz s') as [|f b]; [discriminate|].
    destruct (negb _ && negb _); [discriminate|].
    destruct (f / 16 =? 5).
    + destruct b; [discriminate|]. injection H as <- <-; reflexivity.
    + destruct b as [|? [|? [|? [|? [|? ?]]]]]; try discriminate. injection H as <- <-; reflexivity.
  - unfold flv_script_body in *. destruct (take dsz s') as [|f b]; [discriminate|].
    injection H as <- <-; reflexivity.
Qed.
(** What a stream that breaks off carries is where the whole one starts. *)
Lemma spec_flv_all_cut : forall cap e e' fuel s tl, bytes s -> exists qs, fst (spec_flv_all fuel cap e' (s ++ tl)) = fst (spec_flv_all fuel cap e s) ++ qs.
Proof.
  intros cap e e'. induction fuel as [|f IH]; intros s tl Hb; cbn [spec_flv_all]; [exists []; reflexivity|].
  destruct (spec_flv_next cap e s) as [p rest|c|] eqn:E; try (eexists; reflexivity).
  rewrite (spec_flv_next_app _ _ e' _ _ _ tl Hb E). destruct (IH rest tl (spec_flv_next_bytes _ _ _ _ _ Hb E)) as (qs & Hq).
  destruct (spec_flv_all f cap e' (rest ++ tl)) as [ps x]. destruct (spec_flv_all f cap e rest) as [ps' x']. cbn [fst] in *. exists qs. rewrite Hq. reflexivity.
Qed.
Lemma flv_header_short : forall fill t fuel, 9 <= zlen fill < 2 ^ 62 -> nonempty_chunks (t_chunks t) -> zlen (t_stream t) < 9 ->
  fst (snd (flv_demux fuel (br_new fill t))) = ([], Err (t_err t)).
Proof.
  intros fill t fuel Hf Hn Hs. destruct (br_new_ok fill t (proj2 Hf) Hn) as (B1 & B2 & B3 & B4 & B5).
  destruct (acquire_ok (br_new fill t) 9 B1 ltac:(lia) B5) as (x & r1 & E & _ & _ & _ & _ & _ & _ & K & _). rewrite B2, B3, B4 in K. specialize (K ltac:(lia) Hs). subst x.
  unfold flv_demux, flv_read_header, mbind, macquire. rewrite E. reflexivity.
Qed.
(** The decoder over any connection that brings [s1], where [s1 ++ tl] is a whole file. *)
Lemma flv_decode_prefix : forall fuel fill cs err fh s tl, 15 <= zlen fill < 2 ^ 62 -> nonempty_chunks cs -> concat cs ++ tl = fh ++ s -> zlen fh = 9 -> take 3 fh = [0x46; 0x4C; 0x56] -> bytes s ->
  forall e', exists ps x qs, fst (run_plain (flv_decode_prog fuel fill) (mktr cs err)) = Ok (ps, x) /\ fst (spec_flv_all fuel (zlen fill) e' s) = ps ++ qs /\
    (tl = [] -> ps = fst (spec_flv_all fuel (zlen fill) err s) /\ flv_end_ok x (snd (spec_flv_all fuel (zlen fill) err s))).
Proof.
  intros fuel fill cs err fh s tl Hf Hn Hc H9 Hm Hb e'. rewrite flv_decode_same. destruct (Z_lt_dec (zlen (concat cs)) 9) as [K|K].
  - rewrite flv_header_short by (assumption || lia). eexists _, _, _. split; [reflexivity|]. split; [reflexivity|]. intros ->. exfalso.
    apply (f_equal zlen) in Hc. rewrite !zlen_app in Hc. change (zlen (@nil Z)) with 0 in Hc. pose proof (zlen_nonneg s). lia.
  - assert (Hfh : take 9 (concat cs) = fh). { apply (f_equal (take 9)) in Hc. rewrite take_app_le in Hc by lia. rewrite take_app_exact in Hc by lia. exact Hc. }
    assert (Hss : drop 9 (concat cs) ++ tl = s). { apply (f_equal (drop 9)) in Hc. rewrite drop_app_le in Hc by lia. rewrite drop_app_exact in Hc by lia. exact Hc. }
    assert (Hbd : bytes (drop 9 (concat cs))) by (rewrite <- Hss in Hb; apply bytes_app in Hb; tauto).
    destruct (flv_demux_stream fill (mktr cs err) fh (drop 9 (concat cs)) fuel (proj1 Hf) (proj2 Hf) Hn) as (hp & x & r1 & E & _ & Hx); [|exact H9|exact Hm|exact Hbd|].
    { unfold t_stream. cbn [t_chunks]. rewrite <- Hfh. symmetry. apply take_drop. }
    rewrite E. cbn [fst snd t_err] in *. destruct (spec_flv_all_cut (zlen fill) err e' fuel _ tl Hbd) as (qs & Hq). rewrite Hss in Hq.
    exists (fst (spec_flv_all fuel (zlen fill) err (drop 9 (concat cs)))), x, qs. split; [reflexivity|]. split; [exact Hq|].
    intros ->. rewrite app_nil_r in Hss. rewrite Hss in *. split; [reflexivity|exact Hx].
Qed.
Lemma run_upload : forall framing fuel fill t h t1, read_head t MAX_HEADER = (Ok h, t1) ->
  forall ps x, fst (run_plain (over_body (flv_decode_prog fuel fill) (hb_new (fst (framing h)) (snd (framing h)))) t1) = Ok (Ok (ps, x)) ->
  fst (run_plain (upload_prog framing fuel fill) t) = Ok (Ok (h, ps, x)).
Proof.
  intros framing fuel fill t h t1 Hh ps x H. unfold upload_prog. rewrite run_plain_bind, head_prog_run, Hh. destruct (framing h) as [ch cl]. cbn [fst snd] in H.
  rewrite run_plain_bind. destruct (run_plain (over_body (flv_decode_prog fuel fill) (hb_new ch cl)) t1) as [y t2]. cbn [fst] in H. subst y. reflexivity.
Qed.
Lemma upload_okp : forall framing fuel fill, zlen fill < 2 ^ 62 -> (forall h, binv (hb_new (fst (framing h)) (snd (framing h)))) -> reads_ok (upload_prog framing fuel fill).
Proof.
  intros framing fuel fill Hs Hf. apply (okp_reads (fun _ => True) (fun _ _ => True)). unfold upload_prog. eapply okp_bind; [apply head_okp| |].
  - intros r _. destruct r as [h|c| |]; try (constructor; exact I). specialize (Hf h). destruct (framing h) as [ch cl]. eapply okp_bind; [apply over_body_okp; [apply flv_decode_okb, Hs|exact Hf]| |].
    + intros [[ps e]|c| |] _; constructor; exact I.
    + intros c [[ps e]|c'| |] _; eexists; (split; [reflexivity|exact I]).
  - intros c0 r (c & ->). eexists. split; [reflexivity|exact I].
Qed.
Lemma upload_prog_head : forall {E} (g : reader E) fuel fr fr' n fill h st st1, run_tls fuel g (head_prog MAX_HEADER) st = (Ok (Ok h), st1) -> fr h = fr' h ->
  run_tls fuel g (upload_prog fr n fill) st = run_tls fuel g (upload_prog fr' n fill) st.
Proof. intros E g fuel fr fr' n fill h st st1 H Hf. unfold upload_prog. rewrite !run_tls_bind, H, Hf. reflexivity. Qed.
(** The upload over a plain connection, for [P_Upload.v]. *)
Lemma upload_plain : forall framing fuel fill t miss h wire body more fh s,
  nonempty_chunks (t_chunks t) -> is_head h -> zlen h <= MAX_HEADER -> zlen h <= zlen (t_stream t) -> t_stream t ++ miss = h ++ wire ->
  framed (framing h) wire body more -> body = fh ++ s -> zlen fh = 9 -> take 3 fh = [0x46; 0x4C; 0x56] -> bytes s -> 15 <= zlen fill < 2 ^ 62 ->
  exists ps x qs, fst (run_plain (upload_prog framing fuel fill) t) = Ok (Ok (h, ps, x)) /\
    fst (spec_flv_all fuel (zlen fill) ERROR_HTTP_RES_EOF s) = ps ++ qs /\
    (miss = [] -> qs = [] /\ flv_end_ok x (snd (spec_flv_all fuel (zlen fill) ERROR_HTTP_RES_EOF s))).
Proof.
  intros framing fuel fill t miss h wire body more fh s Hn Hh Hmx Hhl Hst Hfr Hbody H9 Hm Hb Hf.
  assert (Hpre : t_stream t = h ++ drop (zlen h) (t_stream t)).
  { assert (take (zlen h) (t_stream t) = h) as E. { apply (f_equal (take (zlen h))) in Hst. rewrite take_app_le in Hst by lia. rewrite take_app_exact in Hst by lia. exact Hst. }
    rewrite <- E at 1. symmetry. apply take_drop. }
  destruct (read_head_ok h _ t MAX_HEADER (is_head_shape h Hh) Hn Hpre Hmx) as (t1 & A1 & A2 & A3 & A4).
  assert (Hw : t_stream t1 ++ miss = wire). { rewrite A2. apply (f_equal (drop (zlen h))) in Hst. rewrite drop_app_le in Hst by lia. rewrite drop_app_exact in Hst by lia. exact Hst. }
  destruct (framing h) as [ch cl] eqn:Efr. rewrite <- Hw, <- plus_stream in Hfr.
  pose proof (framed_live _ _ _ _ _ Hfr (plus_ne _ miss A3)) as L.
  destruct (over_body_sim _ (flv_decode_okb fuel fill (proj2 Hf)) _ t1 body more miss A3 (or_introl L)) as (cs & err & B1 & B2 & B3).
  assert (Htl : exists tl, concat cs ++ tl = fh ++ s /\ (miss = [] -> tl = [] /\ err = ERROR_HTTP_RES_EOF)).
  { destruct B3 as [(-> & B3)|(_ & Hmm & tl & B3)]; [exists []; rewrite app_nil_r; split; [congruence|auto]|exists tl; split; [congruence|intros; congruence]]. }
  destruct Htl as (tl & Htl & Hx).
  destruct (flv_decode_prefix fuel fill cs err fh s tl Hf B1 Htl H9 Hm Hb ERROR_HTTP_RES_EOF) as (ps & x & qs & C1 & C2 & C3).
  rewrite C1 in B2. exists ps, x, qs. split; [|split; [exact C2|]].
  - apply (run_upload _ _ _ _ _ _ A1). rewrite Efr. exact B2.
  - intros E. destruct (Hx E) as (-> & ->). destruct (C3 eq_refl) as (D1 & D2). split; [|exact D2]. rewrite <- D1 in C2. 
    apply (app_inv_head ps). rewrite app_nil_r. symmetry. exact C2.
Qed.
