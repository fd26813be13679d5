(** Lemmas for C238. *)
From Verif Require Import Base M_Packet M_Flv M_Rtmp S_Rtmp L_Rtmp P_Rtmp M_Url M_RtmpSess S_RtmpSess L_RtmpSess M_RtmpRelay S_RtmpAll.
Ltac Zify.zify_post_hook ::= Z.to_euclidean_division_equations.

Definition gauge_of (h : hook) : gauge := mkg (hk_bytes h) (hk_cbw h) (hk_next h).
Lemma asked_be32s m : be32s (rm_body m) = asked m.
Proof.
  unfold be32s, asked, s32. set (v := bev (take 4 (rm_body m))). clearbody v. cbv zeta.
  change (2 ^ 31) with 2147483648. change (2 ^ 32) with 4294967296. destruct (Z.ltb_spec (v mod 4294967296) 2147483648); lia.
Qed.
(** ** Receiving *)
Lemma ack_gauge h sends out :
  let '(r, s1) := hk_ack (mkse h sends out) in
  if hk_bytes h <? hk_next h then r = Ok tt /\ gauge_of (se_h s1) = gauge_of h
  else if (- 2 ^ 31 <=? hk_bytes h + hk_cbw h) && (hk_bytes h + hk_cbw h <? 2 ^ 31)
  then r = Ok tt /\ gauge_of (se_h s1) = mkg (hk_bytes h) (hk_cbw h) (hk_bytes h + hk_cbw h) else r = UB.
Proof.
  unfold hk_ack. cbn [se_h]. destruct (hk_bytes h <? hk_next h); [split; reflexivity|].
  destruct (Z.ltb_spec (hk_bytes h + hk_cbw h) (- 2 ^ 31)), (Z.leb_spec (2 ^ 31) (hk_bytes h + hk_cbw h)), (Z.leb_spec (- 2 ^ 31) (hk_bytes h + hk_cbw h)), (Z.ltb_spec (hk_bytes h + hk_cbw h) (2 ^ 31));
    cbn [orb andb]; try lia; try reflexivity.
  split; [reflexivity|]. unfold send_packet, lib_send. cbn [se_sends se_h se_out]. destruct sends as [|[|c] l]; reflexivity.
Qed.
Lemma recv_gauge s ev :
  match counts (gauge_of (se_h s)) ev with
  | None => fst (hk_recv s ev) = UB
  | Some g => exists c s1, hk_recv s ev = (Ok c, s1) /\ gauge_of (se_h s1) = g /\
                match ev with RvFail e _ _ => c = e | RvMsg m _ => pings m = false -> c = 0 end
  end.
Proof.
  destruct ev as [m n|e t size]; [|cbn; eexists _, _; split; [reflexivity|split; reflexivity]].
  cbn [counts hk_recv gauge_of g_read g_window g_due]. unfold hk_count. cbv zeta. destruct (2 ^ 31 <=? hk_bytes (se_h s) + n) eqn:E31; [reflexivity|].
  unfold on_recv. cbn [se_h se_sends se_out]. cbv zeta. rewrite !asked_be32s. unfold pings. change RT_CHUNK_SIZE with 1. change RT_CONTROL with 4. change RT_SERVER_BW with 5. change RT_CLIENT_BW with 6.
  set (b := hk_bytes (se_h s) + n). cbn [hk_in hk_outc hk_sbw hk_cbw hk_next hk_bytes].
  assert (Go : forall h', hk_bytes h' = b ->
     let r := match hk_ack (mkse h' (se_sends s) (se_out s)) with (Ok _, s1) => (Ok 0, s1) | (Err c, s1) => (Err c, s1) | (UB, s1) => (UB, s1) | (Fuel, s1) => (Fuel, s1) end in
     match (if b <? hk_next h' then Some (mkg b (hk_cbw h') (hk_next h'))
            else if (- 2 ^ 31 <=? b + hk_cbw h') && (b + hk_cbw h' <? 2 ^ 31) then Some (mkg b (hk_cbw h') (b + hk_cbw h')) else None) with
     | None => fst r = UB
     | Some g => exists c s1, r = (Ok c, s1) /\ gauge_of (se_h s1) = g /\ c = 0
     end).
  { intros h' Eb. cbv zeta. pose proof (ack_gauge h' (se_sends s) (se_out s)) as A. rewrite Eb in A. destruct (hk_ack (mkse h' (se_sends s) (se_out s))) as [r s1].
    destruct (b <? hk_next h'); [destruct A as [-> A]; exists 0, s1; split; [reflexivity|]; split; [rewrite A; unfold gauge_of; rewrite Eb; reflexivity|reflexivity]|].
    destruct ((- 2 ^ 31 <=? b + hk_cbw h') && (b + hk_cbw h' <? 2 ^ 31)); [destruct A as [-> A]; exists 0, s1; split; [reflexivity|]; split; [rewrite A; reflexivity|reflexivity]|].
    rewrite A. reflexivity. }
  assert (Go' : forall h' w d (P : Prop), hk_bytes h' = b -> hk_cbw h' = w -> hk_next h' = d ->
     let r := match hk_ack (mkse h' (se_sends s) (se_out s)) with (Ok _, s1) => (Ok 0, s1) | (Err c, s1) => (Err c, s1) | (UB, s1) => (UB, s1) | (Fuel, s1) => (Fuel, s1) end in
     match (if b <? d then Some (mkg b w d) else if (- 2 ^ 31 <=? b + w) && (b + w <? 2 ^ 31) then Some (mkg b w (b + w)) else None) with
     | None => fst r = UB
     | Some g => exists c s1, r = (Ok c, s1) /\ gauge_of (se_h s1) = g /\ (P -> c = 0)
     end).
  { intros h' w d P E1 <- <-. specialize (Go h' E1). cbv zeta in *.
    destruct (if b <? hk_next h' then _ else _); [|exact Go]. destruct Go as (c & s1 & A & B & C). exists c, s1. auto. }
  destruct (Z.eqb_spec (rm_type m) 1) as [T|N1].
  { rewrite T. cbn [Z.eqb Pos.eqb orb andb]. destruct (4 <=? zlen (rm_body m)); apply Go'; reflexivity. }
  destruct (Z.eqb_spec (rm_type m) 4) as [T|N4].
  { rewrite T. cbn [Z.eqb Pos.eqb orb andb]. destruct ((6 <=? zlen (rm_body m)) && (bev (take 2 (rm_body m)) =? 6)); [|apply Go'; reflexivity].
    unfold send_pong, lib_send. cbn [se_sends se_h se_out]. destruct (se_sends s) as [|[|c] l]; eexists _, _; (split; [reflexivity|]); (split; [reflexivity|]); discriminate. }
  destruct (Z.eqb_spec (rm_type m) 5) as [T|N5].
  { rewrite T. cbn [Z.eqb Pos.eqb orb andb]. destruct (zlen (rm_body m) <? 4); [reflexivity|]. apply Go'; reflexivity. }
  destruct (Z.eqb_spec (rm_type m) 6) as [T|N6].
  { cbn [orb andb]. destruct (zlen (rm_body m) <? 4); [reflexivity|]. apply Go'; reflexivity. }
  cbn [orb andb]. apply Go'; reflexivity.
Qed.

(** ** Decoding *)
Lemma decode_undefined lib ev : (forall e t size, ev = RvFail e t size -> e = 0) ->
  (ev_decode lib ev = UB <-> null_connect lib ev \/ lost_body ev) /\ ev_decode lib ev <> Fuel.
Proof.
  intros H0. assert (At : forall t, is_command t = true <-> amf_type t).
  { intros t. unfold is_command, amf_type. change RT_AMF0_DATA with 18. change RT_AMF0_CMD with 20. change RT_AMF3_DATA with 15. change RT_AMF3_CMD with 17. lia. }
  destruct ev as [m n|e t size].
  - cbn [ev_decode]. unfold rt_decode. change RT_CHUNK_SIZE with 1. change RT_AMF3_CMD with 17.
    assert (L : ~ lost_body (RvMsg m n)) by (intros (t & size & Q & _); discriminate).
    destruct (Z.eqb_spec (rm_type m) 1) as [T|T].
    { split; [|discriminate]. split; [discriminate|]. intros [(m' & n' & t & more & [= <- <-] & A & _)|Q]; [unfold amf_type in A; lia|contradiction]. }
    destruct (is_command (rm_type m)) eqn:Ec.
    2:{ split; [|discriminate]. split; [discriminate|]. intros [(m' & n' & t & more & [= <- <-] & A & _)|Q]; [apply At in A; congruence|contradiction]. }
    apply At in Ec. destruct (lib (rm_type m =? 17) (rm_body m)) as [ps|] eqn:El.
    2:{ split; [|discriminate]. split; [discriminate|]. intros [(m' & n' & t & more & [= <- <-] & _ & A)|Q]; [congruence|contradiction]. }
    assert (Nc : null_connect lib (RvMsg m n) <-> exists t more, ps = AStr (str "connect") :: ANum t :: ANull :: more).
    { split; [intros (m' & n' & t & more & [= <- <-] & _ & A); exists t, more; congruence|]. intros (t & more & ->). exists m, n, t, more. auto. }
    assert (G : (convert_self ps = UB <-> exists t more, ps = AStr (str "connect") :: ANum t :: ANull :: more) /\ convert_self ps <> Fuel).
    { unfold convert_self. destruct ps as [|v ps]; [split; [split; [discriminate|intros (t & more & Q); discriminate]|discriminate]|].
      destruct v as [q|name|o| |]; try (split; [split; [discriminate|intros (t & more & Q); discriminate]|discriminate]).
      destruct (eqb_list name (str "connect")) eqn:En.
      - apply eqb_list_spec in En. subst name. unfold conn_from, cmd_base. destruct ps as [|[q|?|?| |] [|[?|?|o| |] ps]];
          try (split; [split; [discriminate|intros (t & more & Q); discriminate]|discriminate]).
        + destruct (amf_string o (str "app")), (amf_string o (str "tcUrl")); split; try discriminate; (split; [discriminate|intros (t & more & Q); discriminate]).
        + split; [|discriminate]. split; [|reflexivity]. intros _. exists q, ps. reflexivity.
      - assert (Nn : ~ exists t more, AStr name :: ps = AStr (str "connect") :: ANum t :: ANull :: more).
        { intros (t & more & Q). injection Q as -> _. rewrite eqb_list_refl in En. discriminate. }
        assert (Two : forall r : res cmd, r <> UB -> r <> Fuel -> ((let? c := r in Ok (Some c)) = UB <-> exists t more, AStr name :: ps = AStr (str "connect") :: ANum t :: ANull :: more) /\ (let? c := r in Ok (Some c)) <> Fuel).
        { intros r R1 R2. destruct r; cbn [bind]; try congruence; (split; [split; [discriminate|contradiction]|discriminate]). }
        destruct (eqb_list name (str "createStream")); [apply Two; unfold create_from; destruct (cmd_base _) as [[? ?]|]; discriminate|].
        destruct (eqb_list name (str "play")); [apply Two; unfold net_cmd; destruct (net_from _) as [[? ?]|]; discriminate|].
        destruct (eqb_list name (str "publish")).
        { apply Two; unfold publish_from; destruct (net_from _) as [[? ?]|]; try discriminate; destruct (5 <? _); try discriminate; destruct (skipn 4 _) as [|[?|?|?| |] ?]; discriminate. }
        destruct (eqb_list name (str "releaseStream")); [apply Two; unfold net_cmd; destruct (net_from _) as [[? ?]|]; discriminate|].
        destruct (eqb_list name (str "FCPublish")); [apply Two; unfold net_cmd; destruct (net_from _) as [[? ?]|]; discriminate|].
        split; [split; [discriminate|contradiction]|discriminate]. }
    destruct G as [G1 G2]. split; [|exact G2]. rewrite G1, Nc. split; [auto|]. intros [Q|Q]; [exact Q|contradiction].
  - rewrite (H0 e t size eq_refl). clear H0. cbn [ev_decode]. unfold rt_decode. change RT_CHUNK_SIZE with 1.
    assert (L : lost_body (RvFail 0 t size) <-> (t = 1 /\ 4 <= size) \/ (amf_type t /\ size <> 0)).
    { split; [intros (t' & size' & [= <- <-] & Q); exact Q|]. intros Q. exists t, size. auto. }
    assert (N : ~ null_connect lib (RvFail 0 t size)) by (intros (? & ? & ? & ? & Q & _); discriminate).
    destruct (Z.eqb_spec t 1) as [T|T].
    { destruct (Z.leb_spec 4 size); (split; [|discriminate]); (split; [|intros [Q|Q]; [contradiction|apply L in Q]]); try reflexivity; try discriminate.
      - intros _. right. apply L. auto.
      - destruct Q as [Q|[Q _]]; [lia|]. unfold amf_type in Q. lia. }
    destruct (is_command t) eqn:Ec.
    + apply At in Ec. destruct (Z.eqb_spec size 0); (split; [|discriminate]); (split; [|intros [Q|Q]; [contradiction|apply L in Q]]); try reflexivity; try discriminate.
      * destruct Q as [Q|Q]; [unfold amf_type in Ec; lia|tauto].
      * intros _. right. apply L. auto.
    + split; [|discriminate]. split; [discriminate|]. intros [Q|Q]; [contradiction|]. apply L in Q. destruct Q as [Q|[Q _]]; [lia|]. apply At in Q. congruence.
Qed.

(** ** Sending changes no count *)
Lemma send_packet_gauge s r : gauge_of (se_h (snd (send_packet s r))) = gauge_of (se_h s).
Proof. unfold send_packet, lib_send. destruct (se_sends s) as [|[|c] l]; destruct r; reflexivity. Qed.
Lemma send_bw_gauge s r : gauge_of (se_h (snd (send_bw s r))) = gauge_of (se_h s).
Proof. unfold send_bw, lib_send. destruct (se_sends s) as [|[|c] l]; reflexivity. Qed.
Lemma send_list_gauge l : Forall (fun x => fst x = send_packet \/ fst x = send_bw) l -> forall s, gauge_of (se_h (snd (send_list s l))) = gauge_of (se_h s).
Proof.
  induction l as [|[f r] l IH]; intros H s; [reflexivity|]. inversion H as [|? ? H1 H2]; subst. cbn [fst] in H1. cbn [send_list].
  assert (G : gauge_of (se_h (snd (f s r))) = gauge_of (se_h s)) by (destruct H1 as [-> | ->]; [apply send_packet_gauge|apply send_bw_gauge]).
  destruct (f s r) as [c s1]. cbn [snd] in G. destruct (c =? 0); [rewrite (IH H2); exact G|exact G].
Qed.

(** ** The steps of the two loops *)
Definition unfit (lib : amf_lib) (conn : Prop) (g : gauge) (ev : rev) : Prop :=
  counts g ev = None \/ null_connect lib ev \/ lost_body ev \/ (conn /\ odd_id lib ev).

Lemma command_no_ping lib m n : (null_connect lib (RvMsg m n) \/ exists c, speaks lib (RvMsg m n) c) -> pings m = false.
Proof.
  intros H. assert (A : amf_type (rm_type m)) by (destruct H as [(m' & n' & t & more & [= <- <-] & A & _)|(c & m' & n' & vs & [= <- <-] & A & _)]; exact A).
  unfold pings. destruct (Z.eqb_spec (rm_type m) 4) as [E|E]; [|reflexivity]. unfold amf_type in A. lia.
Qed.
(** What is known about an event that was received. *)
Lemma received lib s ev c s1 : hk_recv s ev = (Ok c, s1) -> c <> 0 -> ~ null_connect lib ev /\ ~ lost_body ev /\ forall k, ~ speaks lib ev k.
Proof.
  intros E Nc. pose proof (recv_gauge s ev) as R. rewrite E in R. cbn [fst] in R. destruct (counts (gauge_of (se_h s)) ev); [|discriminate].
  destruct R as (c' & s' & [= <- <-] & _ & Hc). destruct ev as [m n|e t size].
  - assert (P : pings m = true) by (destruct (pings m); [reflexivity|exfalso; apply Nc, Hc; reflexivity]).
    split; [intros Q; rewrite (command_no_ping lib m n) in P by auto; discriminate|]. split; [intros (? & ? & Q & _); discriminate|].
    intros k Q. rewrite (command_no_ping lib m n) in P by eauto. discriminate.
  - subst e. split; [intros (? & ? & ? & ? & Q & _); discriminate|]. split; [intros (? & ? & [= Q _ _] & _); contradiction|]. intros k (? & ? & ? & Q & _). discriminate.
Qed.
Lemma odd_speaks lib ev : odd_id lib ev -> exists c, speaks lib ev c /\ starts_role c.
Proof. intros (t & name & [H|H] & _); eexists; (split; [exact H|exact I]). Qed.

Lemma ph2_step lib s tc ev :
  (unfit lib True (gauge_of (se_h s)) ev /\ forall l, fst (ph2 lib s tc (ev :: l)) = CUB) \/
  (~ unfit lib True (gauge_of (se_h s)) ev /\ exists r pl pb tc' ps, forall l, fst (ph2 lib s tc (ev :: l)) = CRet r pl pb tc' ps) \/
  (~ unfit lib True (gauge_of (se_h s)) ev /\ exists s2, counts (gauge_of (se_h s)) ev = Some (gauge_of (se_h s2)) /\ forall l, ph2 lib s tc (ev :: l) = ph2 lib s2 tc l).
Proof.
  pose proof (recv_gauge s ev) as R. destruct (counts (gauge_of (se_h s)) ev) as [g|] eqn:Eg.
  2:{ left. split; [left; exact Eg|]. intros l. cbn [ph2]. destruct (hk_recv s ev) as [r s1]. cbn [fst] in R. subst r. reflexivity. }
  destruct R as (c & s1 & Er & Hg & Hc). destruct (Z.eqb_spec c 0) as [C0|C0].
  2:{ right; left. destruct (received lib s ev c s1 Er C0) as (R1 & R2 & R3). split.
      - intros [Q|[Q|[Q|[_ Q]]]]; [congruence|contradiction|contradiction|]. destruct (odd_speaks _ _ Q) as (k & Q' & _). exact (R3 k Q').
      - eexists _, _, _, _, _. intros l. cbn [ph2]. rewrite Er. destruct (Z.eqb_spec c 0); [contradiction|]. cbn [negb]. reflexivity. }
  subst c. assert (Hf : forall e t size, ev = RvFail e t size -> e = 0) by (intros e t size ->; congruence).
  destruct (decode_undefined lib ev Hf) as [D1 D2].
  assert (Nu : ev_decode lib ev <> UB -> ~ odd_id lib ev -> ~ unfit lib True (gauge_of (se_h s)) ev).
  { intros A B [Q|[Q|[Q|[_ Q]]]]; [congruence|apply A, D1; auto|apply A, D1; auto|contradiction]. }
  assert (No : forall r, ev_decode lib ev = r -> (forall t name, r <> Ok (Some (CPlay t name)) /\ r <> Ok (Some (CPublish t name))) -> ~ odd_id lib ev).
  { intros r <- A (t & name & [Q|Q] & _); apply ev_decode_some in Q; destruct (A t name); contradiction. }
  cbn [ph2]. rewrite Er. change (0 =? 0) with true. cbn [negb].
  destruct (ev_decode lib ev) as [[[t app tc0|t|t name|t name|t name|t name]|]|e| |] eqn:Ed.
  - right; right. split; [apply Nu; [discriminate|apply (No _ eq_refl); intros; split; discriminate]|]. exists s1. split; [rewrite Hg; reflexivity|reflexivity].
  - assert (U : ~ unfit lib True (gauge_of (se_h s)) ev) by (apply Nu; [discriminate|apply (No _ eq_refl); intros; split; discriminate]).
    pose proof (send_packet_gauge s1 (RResult t 1)) as G. destruct (send_packet s1 (RResult t 1)) as [c2 s2]. cbn [snd] in G.
    destruct (c2 =? 0) eqn:E2; right; [right|left]; (split; [exact U|]).
    + exists s2. split; [rewrite G, Hg; reflexivity|]. reflexivity.
    + eexists _, _, _, _, _. reflexivity.
  - destruct (nm_int t) as [z|] eqn:En.
    + right; left. split; [apply Nu; [discriminate|]|].
      * intros (t' & name' & [Q|Q] & Q'); apply ev_decode_some in Q; congruence.
      * destruct (send_list s1 _) as [c2 s2]. eexists _, _, _, _, _. reflexivity.
    + left. split; [|reflexivity]. right; right; right. split; [exact I|]. exists t, name. split; [left; apply ev_decode_some; exact Ed|exact En].
  - destruct (nm_int t) as [z|] eqn:En.
    + right; left. split; [apply Nu; [discriminate|]|].
      * intros (t' & name' & [Q|Q] & Q'); apply ev_decode_some in Q; congruence.
      * destruct (send_list s1 _) as [c2 s2]. eexists _, _, _, _, _. reflexivity.
    + left. split; [|reflexivity]. right; right; right. split; [exact I|]. exists t, name. split; [right; apply ev_decode_some; exact Ed|exact En].
  - assert (U : ~ unfit lib True (gauge_of (se_h s)) ev) by (apply Nu; [discriminate|apply (No _ eq_refl); intros; split; discriminate]).
    pose proof (send_packet_gauge s1 (RResult t 0)) as G. destruct (send_packet s1 (RResult t 0)) as [c2 s2]. cbn [snd] in G.
    destruct (c2 =? 0) eqn:E2; right; [right|left]; (split; [exact U|]).
    + exists s2. split; [rewrite G, Hg; reflexivity|]. reflexivity.
    + eexists _, _, _, _, _. reflexivity.
  - assert (U : ~ unfit lib True (gauge_of (se_h s)) ev) by (apply Nu; [discriminate|apply (No _ eq_refl); intros; split; discriminate]).
    pose proof (send_packet_gauge s1 (RResult t 0)) as G. destruct (send_packet s1 (RResult t 0)) as [c2 s2]. cbn [snd] in G.
    destruct (c2 =? 0) eqn:E2; right; [right|left]; (split; [exact U|]).
    + exists s2. split; [rewrite G, Hg; reflexivity|]. reflexivity.
    + eexists _, _, _, _, _. reflexivity.
  - right; right. split; [apply Nu; [discriminate|apply (No _ eq_refl); intros; split; discriminate]|]. exists s1. split; [rewrite Hg; reflexivity|reflexivity].
  - right; left. split; [apply Nu; [discriminate|apply (No _ eq_refl); intros; split; discriminate]|]. eexists _, _, _, _, _. reflexivity.
  - left. split; [|reflexivity]. destruct (proj1 D1 eq_refl); [right; left; assumption|right; right; left; assumption].
  - congruence.
Qed.
Lemma ph1_step lib s ev :
  (unfit lib False (gauge_of (se_h s)) ev /\ forall l, fst (ph1 lib s (ev :: l)) = CUB) \/
  (~ unfit lib False (gauge_of (se_h s)) ev /\ exists r pl pb tc' ps, forall l, fst (ph1 lib s (ev :: l)) = CRet r pl pb tc' ps) \/
  (~ unfit lib False (gauge_of (se_h s)) ev /\ exists s2, counts (gauge_of (se_h s)) ev = Some (gauge_of (se_h s2)) /\
     (((forall c, speaks lib ev c -> ~ opens c) /\ forall l, ph1 lib s (ev :: l) = ph1 lib s2 l) \/
      exists c tc, speaks lib ev c /\ opens c /\ forall l, ph1 lib s (ev :: l) = ph2 lib s2 tc l)).
Proof.
  pose proof (recv_gauge s ev) as R. destruct (counts (gauge_of (se_h s)) ev) as [g|] eqn:Eg.
  2:{ left. split; [left; exact Eg|]. intros l. cbn [ph1]. destruct (hk_recv s ev) as [r s1]. cbn [fst] in R. subst r. reflexivity. }
  destruct R as (c & s1 & Er & Hg & Hc). destruct (Z.eqb_spec c 0) as [C0|C0].
  2:{ right; left. destruct (received lib s ev c s1 Er C0) as (R1 & R2 & R3). split.
      - intros [Q|[Q|[Q|[[] _]]]]; [congruence|contradiction|contradiction].
      - eexists _, _, _, _, _. intros l. cbn [ph1]. rewrite Er. destruct (Z.eqb_spec c 0); [contradiction|]. cbn [negb]. reflexivity. }
  subst c. assert (Hf : forall e t size, ev = RvFail e t size -> e = 0) by (intros e t size ->; congruence).
  destruct (decode_undefined lib ev Hf) as [D1 D2].
  assert (Nu : ev_decode lib ev <> UB -> ~ unfit lib False (gauge_of (se_h s)) ev).
  { intros A [Q|[Q|[Q|[[] _]]]]; [congruence|apply A, D1; auto|apply A, D1; auto]. }
  assert (Go : (forall t app tc, ev_decode lib ev <> Ok (Some (CConnect t app tc))) -> forall c, speaks lib ev c -> ~ opens c).
  { intros A c Q O. apply ev_decode_some in Q. destruct c; try contradiction. exact (A _ _ _ Q). }
  cbn [ph1]. rewrite Er. change (0 =? 0) with true. cbn [negb].
  destruct (ev_decode lib ev) as [[[t app tc0|t|t name|t name|t name|t name]|]|e| |] eqn:Ed;
    try (right; right; split; [apply Nu; discriminate|]; exists s1; split; [rewrite Hg; reflexivity|]; left; split; [apply Go; discriminate|reflexivity]).
  - assert (F : Forall (fun x => fst x = send_packet \/ fst x = send_bw) (conn_answer (se_h s1) t)) by (unfold conn_answer; repeat (constructor; [cbn; auto|]); constructor).
    pose proof (send_list_gauge _ F s1) as G. destruct (send_list s1 (conn_answer (se_h s1) t)) as [c2 s2]. cbn [snd] in G.
    destruct (c2 =? 0) eqn:E2; right; [right|left]; (split; [apply Nu; discriminate|]).
    + exists s2. split; [rewrite G, Hg; reflexivity|]. right. exists (CConnect t app tc0), tc0. split; [apply ev_decode_some; exact Ed|]. split; [exact I|reflexivity].
    + eexists _, _, _, _, _. reflexivity.
  - right; left. split; [apply Nu; discriminate|]. eexists _, _, _, _, _. reflexivity.
  - left. split; [|reflexivity]. destruct (proj1 D1 eq_refl); [right; left; assumption|right; right; left; assumption].
  - congruence.
Qed.

(** ** Whole runs *)
Lemma ph2_exact lib : forall evs s tc,
  fst (ph2 lib s tc evs) = CUB <->
  exists pre ev post g, evs = pre ++ ev :: post /\ fst (ph2 lib s tc pre) = CWait /\ counted (gauge_of (se_h s)) pre = Some g /\ unfit lib True g ev.
Proof.
  induction evs as [|ev l IH]; intros s tc.
  { split; [discriminate|]. intros ([|? ?] & ? & ? & ? & Q & _); discriminate. }
  destruct (ph2_step lib s tc ev) as [(U & E)|[(U & r & pl & pb & tc' & ps & E)|(U & s2 & Eg & E)]].
  - split; [|intros _; apply E]. intros _. exists [], ev, l, (gauge_of (se_h s)). auto.
  - split; [rewrite E; discriminate|]. intros ([|x pre] & ev' & post & g & Q & W & C & U'); injection Q as <- Q.
    + injection C as <-. contradiction.
    + rewrite E in W. discriminate.
  - rewrite E, IH. split.
    + intros (pre & ev' & post & g & -> & W & C & U'). exists (ev :: pre), ev', post, g. split; [reflexivity|]. split; [rewrite E; exact W|]. split; [cbn [counted]; rewrite Eg; exact C|exact U'].
    + intros ([|x pre] & ev' & post & g & Q & W & C & U'); injection Q as <- Q.
      * injection C as <-. contradiction.
      * exists pre, ev', post, g. split; [exact Q|]. split; [rewrite E in W; exact W|]. split; [cbn [counted] in C; rewrite Eg in C; exact C|exact U'].
Qed.
Lemma connected_cons lib ev pre : has_connected lib (ev :: pre) <-> (exists c, speaks lib ev c /\ opens c) \/ has_connected lib pre.
Proof.
  unfold has_connected. split.
  - intros (e & c & [<-|I] & S & O); [left; eauto|right; eauto].
  - intros [(c & S & O)|(e & c & I & S & O)]; [exists ev, c|exists e, c]; cbn [In]; auto.
Qed.
Lemma unfit_iff lib (P Q : Prop) g ev : (P <-> Q) -> unfit lib P g ev <-> unfit lib Q g ev.
Proof. intros E. unfold unfit. rewrite E. reflexivity. Qed.
Lemma ph1_exact lib : forall evs s,
  fst (ph1 lib s evs) = CUB <->
  exists pre ev post g, evs = pre ++ ev :: post /\ fst (ph1 lib s pre) = CWait /\ counted (gauge_of (se_h s)) pre = Some g /\ unfit lib (has_connected lib pre) g ev.
Proof.
  assert (N : forall lib, has_connected lib [] <-> False) by (intros lb; split; [intros (? & ? & [] & _)|intros []]).
  induction evs as [|ev l IH]; intros s.
  { split; [discriminate|]. intros ([|? ?] & ? & ? & ? & Q & _); discriminate. }
  destruct (ph1_step lib s ev) as [(U & E)|[(U & r & pl & pb & tc' & ps & E)|(U & s2 & Eg & E)]].
  - split; [|intros _; apply E]. intros _. exists [], ev, l, (gauge_of (se_h s)). split; [reflexivity|]. split; [reflexivity|]. split; [reflexivity|]. apply (unfit_iff _ _ _ _ _ (N lib)). exact U.
  - split; [rewrite E; discriminate|]. intros ([|x pre] & ev' & post & g & Q & W & C & U'); injection Q as <- Q.
    + injection C as <-. apply (unfit_iff _ _ _ _ _ (N lib)) in U'. contradiction.
    + rewrite E in W. discriminate.
  - assert (Bk : forall X : list rev -> cend, (forall pre, fst (ph1 lib s (ev :: pre)) = X pre) -> forall P : list rev -> Prop, (forall pre, has_connected lib (ev :: pre) <-> P pre) ->
       (exists pre ev' post g, l = pre ++ ev' :: post /\ X pre = CWait /\ counted (gauge_of (se_h s2)) pre = Some g /\ unfit lib (P pre) g ev') <->
       (exists pre ev' post g, ev :: l = pre ++ ev' :: post /\ fst (ph1 lib s pre) = CWait /\ counted (gauge_of (se_h s)) pre = Some g /\ unfit lib (has_connected lib pre) g ev')).
    { intros X HX P HP. split.
      - intros (pre & ev' & post & g & -> & W & C & U'). exists (ev :: pre), ev', post, g. split; [reflexivity|]. split; [rewrite HX; exact W|]. split; [cbn [counted]; rewrite Eg; exact C|].
        apply (unfit_iff _ _ _ _ _ (HP pre)). exact U'.
      - intros ([|x pre] & ev' & post & g & Q & W & C & U'); injection Q as <- Q.
        + injection C as <-. apply (unfit_iff _ _ _ _ _ (N lib)) in U'. contradiction.
        + exists pre, ev', post, g. split; [exact Q|]. split; [rewrite <- HX; exact W|]. split; [cbn [counted] in C; rewrite Eg in C; exact C|].
          apply (unfit_iff _ _ _ _ _ (HP pre)). exact U'. }
    destruct E as [(No & E)|(c & tc & Sp & Op & E)].
    + rewrite E, IH. apply (Bk (fun pre => fst (ph1 lib s2 pre))); [intros pre; rewrite E; reflexivity|].
      intros pre. rewrite connected_cons. split; [intros [(c & Q & O)|Q]; [destruct (No c Q O)|exact Q]|auto].
    + rewrite E, ph2_exact. apply (Bk (fun pre => fst (ph2 lib s2 tc pre)) (fun pre => f_equal fst (E pre)) (fun _ => True)).
      intros pre. rewrite connected_cons. split; [auto|]. intros _. left. eauto.
Qed.

(** ** Publishing *)
Lemma publish_step s ev : (match ev with RvMsg m _ => bytes (rm_body m) /\ zlen (rm_body m) < 2 ^ 32 | _ => True end) ->
  let bad := counts (gauge_of (se_h s)) ev = None \/ single_aac ev in
  (bad /\ forall l, snd (fst (rtmp_decode s (ev :: l))) = DUB) \/
  (~ bad /\ exists c, forall l, snd (fst (rtmp_decode s (ev :: l))) = DEnd c) \/
  (~ bad /\ exists s2, counts (gauge_of (se_h s)) ev = Some (gauge_of (se_h s2)) /\ forall l, snd (fst (rtmp_decode s (ev :: l))) = snd (fst (rtmp_decode s2 l))).
Proof.
  intros Hok. cbv zeta. pose proof (recv_gauge s ev) as R. destruct (counts (gauge_of (se_h s)) ev) as [g|] eqn:Eg.
  2:{ left. split; [left; reflexivity|]. intros l. cbn [rtmp_decode]. destruct (hk_recv s ev) as [r s1]. cbn [fst] in R. subst r. reflexivity. }
  destruct R as (c & s1 & Er & Hg & Hc). subst g.
  assert (Na : forall m n, ev = RvMsg m n -> (single_aac ev <-> rtmp_demux_msg m = Some UB)).
  { intros m n ->. destruct Hok as [H1 H2]. destruct (rtmp_demux_outside_only_short_audio m H1 H2) as [A _]. rewrite A. split.
    - intros (m' & n' & f & [= <- <-] & T & B & F). split; [exact T|]. exists f. auto.
    - intros (T & f & B & F). exists m, n, f. auto. }
  destruct (Z.eqb_spec c 0) as [C0|C0].
  2:{ right; left. split.
      - intros [Q|(m & n & f & -> & T & _)]; [discriminate|]. apply C0, Hc. unfold pings. rewrite T. reflexivity.
      - exists c. intros l. cbn [rtmp_decode]. rewrite Er. destruct (Z.eqb_spec c 0); [contradiction|]. reflexivity. }
  subst c. cbn [rtmp_decode]. rewrite Er. change (0 =? 0) with true. cbn [negb]. destruct ev as [m n|e t size].
  - specialize (Na m n eq_refl). destruct (rtmp_demux_msg m) as [[p|c| |]|] eqn:Ed.
    + right; right. split; [intros [Q|Q]; [discriminate|apply Na in Q; discriminate]|]. exists s1. split; [reflexivity|]. intros l. destruct (rtmp_decode s1 l) as [[ps x] s2]. reflexivity.
    + right; left. split; [intros [Q|Q]; [discriminate|apply Na in Q; discriminate]|]. exists c. reflexivity.
    + left. split; [right; apply Na; reflexivity|reflexivity].
    + exfalso. destruct Hok as [H1 H2]. pose proof (rtmp_demux_exact m H1 H2) as X. rewrite Ed in X. destruct (spec_rtmp_msg m); discriminate.
    + right; right. split; [intros [Q|Q]; [discriminate|apply Na in Q; discriminate]|]. exists s1. split; reflexivity.
  - right; right. split; [intros [Q|(? & ? & ? & Q & _)]; discriminate|]. exists s1. split; reflexivity.
Qed.
Lemma publish_exact : forall evs s, Forall (fun ev => match ev with RvMsg m _ => bytes (rm_body m) /\ zlen (rm_body m) < 2 ^ 32 | _ => True end) evs ->
  snd (fst (rtmp_decode s evs)) = DUB <->
  exists pre ev post g, evs = pre ++ ev :: post /\ snd (fst (rtmp_decode s pre)) = DWait /\ counted (gauge_of (se_h s)) pre = Some g /\ (counts g ev = None \/ single_aac ev).
Proof.
  induction evs as [|ev l IH]; intros s Hok.
  { split; [discriminate|]. intros ([|? ?] & ? & ? & ? & Q & _); discriminate. }
  inversion Hok as [|? ? H1 H2]; subst.
  destruct (publish_step s ev H1) as [(U & E)|[(U & c & E)|(U & s2 & Eg & E)]].
  - split; [|intros _; apply E]. intros _. exists [], ev, l, (gauge_of (se_h s)). auto.
  - split; [rewrite E; discriminate|]. intros ([|x pre] & ev' & post & g & Q & W & C & U'); injection Q as <- Q.
    + injection C as <-. contradiction.
    + rewrite E in W. discriminate.
  - rewrite E, (IH s2 H2). split.
    + intros (pre & ev' & post & g & -> & W & C & U'). exists (ev :: pre), ev', post, g. split; [reflexivity|]. split; [rewrite E; exact W|]. split; [cbn [counted]; rewrite Eg; exact C|exact U'].
    + intros ([|x pre] & ev' & post & g & Q & W & C & U'); injection Q as <- Q.
      * injection C as <-. contradiction.
      * exists pre, ev', post, g. split; [exact Q|]. split; [rewrite E in W; exact W|]. split; [cbn [counted] in C; rewrite Eg in C; exact C|exact U'].
Qed.

(** ** When the counts stay defined *)
Definition modest (W : Z) (ev : rev) : Prop :=
  match ev with
  | RvFail _ _ _ => True
  | RvMsg m n => 0 <= n /\ (rm_type m = 5 \/ rm_type m = 6 -> 4 <= zlen (rm_body m)) /\ (rm_type m = 6 -> 0 <= asked m <= W)
  end.
Lemma counts_modest W : forall evs b w d, Forall (modest W) evs -> 0 <= b -> 0 <= w <= W -> b + wire evs + W < 2 ^ 31 -> counted (mkg b w d) evs <> None.
Proof.
  induction evs as [|ev l IH]; intros b w d Hm Hb Hw Hs; [discriminate|]. inversion Hm as [|? ? H1 H2]; subst.
  destruct ev as [m n|e t size]; cbn [counted counts wire] in *; [|apply IH; assumption].
  destruct H1 as (Hn & H56 & H6). cbn [g_read g_window g_due].
  assert (Hwl : 0 <= wire l). { clear - H2. induction l as [|[m n|? ? ?] l IH]; cbn [wire]; [lia| |]; inversion H2 as [|? ? H3 H4]; subst; specialize (IH H4); cbn in H3; lia. }
  destruct (Z.leb_spec (2 ^ 31) (b + n)); [lia|].
  destruct (((rm_type m =? 5) || (rm_type m =? 6)) && (zlen (rm_body m) <? 4)) eqn:E5; [exfalso; lia|].
  destruct (pings m); [apply IH; [exact H2|lia..]|]. cbv zeta.
  assert (Hw' : 0 <= (if rm_type m =? 6 then asked m else w) <= W) by (destruct (Z.eqb_spec (rm_type m) 6) as [T|T]; [exact (H6 T)|exact Hw]).
  set (w' := if rm_type m =? 6 then asked m else w) in *. clearbody w'.
  destruct (b + n <? _); [apply IH; [exact H2|lia..]|].
  destruct ((- 2 ^ 31 <=? b + n + w') && (b + n + w' <? 2 ^ 31)) eqn:E; [|exfalso; lia]. apply IH; [exact H2|lia..].
Qed.
