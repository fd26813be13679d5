(** C248: the times of decoding of an RTP session. *)
From Coq Require Import Sorted.
From Verif Require Import Base M_IO M_Packet M_Bits M_H264 M_AAC M_Rtp M_Time S_Fields S_Codec S_Rtp L_Rtp L_Rtp2 P_Rtp P_Time.

(** The sequence headers that the decoder makes carry the time 0; every other packet, at
    whatever datagram of whatever session, carries the clock of the datagram that completed it. *)
Theorem rtp_decoding_times : forall ds mem st,
  Forall2 (fun d (e : emit) => Forall (fun p =>
      (p_ptype p = 0 /\ p_dts p = 0 /\ p_pts p = 0) \/ (p_ptype p = 1 /\ p_dts p = fst d)) (fst e))
    ds (snd (h264_rtp_run mem st ds)).
Proof.
  set (G := fun (now : Z) p => (p_ptype p = 0 /\ p_dts p = 0 /\ p_pts p = 0) \/ (p_ptype p = 1 /\ p_dts p = now)).
  assert (BD : forall (X Y : Type) (r : res X) (k : X -> res Y) y, (let? x := r in k x) = Ok y -> exists x, r = Ok x /\ k x = Ok y).
  { intros X Y r k y E. destruct r; try discriminate E. exists a. split; [reflexivity|exact E]. }
  assert (NP : forall now ts nls n p, avc_nal_packet (mkav (now * 90) ts 90) nls n = Ok p -> G now p).
  { intros now ts nls n p E. unfold avc_nal_packet in E. cbn [av_dts av_pts av_tb] in E.
    change (cdiv (now * 90) 90) with (Ok (Z.quot (now * 90) 90)) in E. rewrite Z.quot_mul in E by lia.
    apply BD in E as (d & Ed & E). injection Ed as <-. apply BD in E as (t & _ & E).
    apply BD in E as (c & _ & E). apply BD in E as (c' & _ & E).
    match type of E with (if ?b then _ else _) = _ => destruct b; [discriminate E|] end.
    injection E as <-. right. split; reflexivity. }
  assert (NS : forall now ts nls ns ps, avc_nal_packets (mkav (now * 90) ts 90) nls ns = Ok ps -> Forall (G now) ps).
  { induction ns as [|n ns IH]; intros ps E; cbn [avc_nal_packets] in E; [injection E as <-; constructor|].
    destruct (skipped n); [exact (IH _ E)|]. apply BD in E as (p & Ep & E). apply BD in E as (l & El & E).
    injection E as <-. constructor; [exact (NP _ _ _ _ _ Ep)|exact (IH _ El)]. }
  assert (SH : forall now sps pps p, avc_seq_header sps pps = Ok p -> G now p).
  { intros now sps pps p E. unfold avc_seq_header in E.
    match type of E with (if ?b then _ else _) = _ => destruct b; [discriminate E|] end.
    repeat (apply BD in E as (? & _ & E)).
    match type of E with (if ?b then _ else _) = _ => destruct b; [discriminate E|] end.
    injection E as <-. left. repeat split. }
  assert (ND : forall now h c ps c', nalu_decode now h c = Ok (ps, c') -> Forall (G now) ps).
  { intros now h c ps c' E. unfold nalu_decode in E. apply BD in E as (b & _ & E). apply BD in E as (l & El & E).
    apply BD in E as (c1 & _ & E). injection E as <- <-. unfold encode_raw_nalu in El. apply BD in El as (n & _ & El).
    unfold encode_avc in El. destruct (last_nal is_sps [n]).
    - apply BD in El as (p & Ep & El). apply BD in El as (q & Eq & El). injection El as <-.
      constructor; [exact (SH _ _ _ _ Ep)|exact (NS _ _ _ _ _ Eq)].
    - exact (NS _ _ _ _ _ El). }
  assert (SL : forall f now h c, Forall (G now) (fst (stap_loop f now h c))).
  { induction f as [|f IH]; intros now h c; cbn [stap_loop]; destruct (bc_size c <=? 0); try constructor.
    match goal with |- context [match ?x with Ok _ => _ | Err _ => _ | UB => _ | Fuel => _ end] => destruct x as [[ps c1]| | |] eqn:E end;
      try constructor.
    apply BD in E as (r & _ & E). apply BD in E as (? & _ & E). specialize (IH now h c1).
    destruct (stap_loop f now h c1) as [ps' r']. cbn [fst] in *. apply Forall_app. split; [exact (ND _ _ _ _ _ E)|exact IH]. }
  assert (ML : forall f off now h c, Forall (G now) (fst (mtap_loop f off now h c))).
  { induction f as [|f IH]; intros off now h c; cbn [mtap_loop]; destruct (bc_size c <=? 0); try constructor.
    match goal with |- context [match ?x with Ok _ => _ | Err _ => _ | UB => _ | Fuel => _ end] => destruct x as [[ps c1]| | |] eqn:E end;
      try constructor.
    apply BD in E as (? & _ & E). apply BD in E as (r & _ & E).
    destruct (fst r) as [|sz [|? [|? [|? ?]]]]; try discriminate E. apply BD in E as (? & _ & E).
    specialize (IH off now h c1).
    destruct (mtap_loop f off now h c1) as [ps' r']. cbn [fst] in *. apply Forall_app. split; [exact (ND _ _ _ _ _ E)|exact IH]. }
  assert (FU : forall mem now h st c, Forall (G now) (fst (snd (fu_decode mem now h st c)))).
  { intros mem now h st c. unfold fu_decode.
    match goal with |- context [match ?x with Ok _ => _ | Err _ => _ | UB => _ | Fuel => _ end] => destruct x as [[[[[[? ?] s] e] ?] c1]| | |] end;
      try constructor.
    match goal with |- context [match ?x with Ok _ => _ | Err _ => _ | UB => _ | Fuel => _ end] => destruct x as [[b|]| | |] end;
      try constructor.
    match goal with |- context [match ?x with Ok _ => _ | Err _ => _ | UB => _ | Fuel => _ end] => destruct x as [b1| | |] end;
      try constructor.
    destruct (e =? 1); [|constructor].
    match goal with |- context [match ?x with Ok _ => _ | Err _ => _ | UB => _ | Fuel => _ end] => destruct x as [[ps ?]| | |] eqn:E end;
      try constructor.
    apply BD in E as (u & _ & E). exact (ND _ _ _ _ _ E). }
  assert (DE : forall mem now st d, Forall (G now) (fst (snd (h264_rtp_decode mem now st d)))).
  { intros mem now st d. unfold h264_rtp_decode, irtp_decode.
    match goal with |- context [match ?x with Ok _ => _ | Err _ => _ | UB => _ | Fuel => _ end] => destruct x as [[h c]| | |] end;
      try constructor.
    destruct (is_rtp_dynamic (rh_pt h)); [|constructor]. unfold h264_rtp_payload.
    match goal with |- context [match ?x with Ok _ => _ | Err _ => _ | UB => _ | Fuel => _ end] => destruct x as [b| | |] end;
      try constructor.
    cbv zeta. set (tp := Z.land (nth 0 b 0) 31).
    destruct ((0 <? tp) && (tp <? 24)).
    { destruct (nalu_decode now h c) as [[ps ?]| | |] eqn:E; try constructor. exact (ND _ _ _ _ _ E). }
    destruct ((tp =? 24) || (tp =? 25)).
    { cbn [snd]. unfold stap_decode. destruct (if tp =? 25 then skip_read_bytes c 2 else Ok c); try constructor. apply SL. }
    destruct ((tp =? 26) || (tp =? 27)).
    { cbn [snd]. unfold mtap_decode. destruct (if tp =? 27 then skip_read_bytes c 3 else Ok c); try constructor. apply ML. }
    destruct ((tp =? 28) || (tp =? 29)); [apply FU|constructor]. }
  induction ds as [|[now d] ds IH]; intros mem st; cbn [h264_rtp_run]; [constructor|].
  pose proof (DE mem now st d) as D. destruct (h264_rtp_decode mem now st d) as [st1 e].
  specialize (IH mem st1). destruct (h264_rtp_run mem st1 ds) as [st2 es].
  constructor; [exact D|exact IH].
Qed.
Print Assumptions rtp_decoding_times.

(** C248: so, whatever arrives, the times of decoding of what is delivered never go back
    while the clock does not. *)
Theorem rtp_decoding_order : forall ds mem st, StronglySorted Z.le (map fst ds) ->
  StronglySorted Z.le (map p_dts (filter (fun p => p_ptype p =? 1) (concat (map fst (snd (h264_rtp_run mem st ds)))))).
Proof.
  intros ds mem st H. pose proof (rtp_decoding_times ds mem st) as F. revert H.
  generalize dependent (snd (h264_rtp_run mem st ds)). clear mem st. intros es F.
  induction F as [|d e ds es He F IH]; intros H; [constructor|]. cbn [map] in H. apply StronglySorted_inv in H as [H1 H2].
  specialize (IH H1). cbn [map concat]. rewrite filter_app, map_app.
  assert (B : forall q, In q (map p_dts (filter (fun p => p_ptype p =? 1) (concat (map fst es)))) -> fst d <= q).
  { clear - F H2. intros q K. apply in_map_iff in K as (p & <- & K). apply filter_In in K as [K T]. apply Z.eqb_eq in T.
    induction F as [|d' e' ds es He F IH]; [destruct K|]. cbn [map concat] in *. inversion H2; subst.
    apply in_app_iff in K as [K|K]; [|apply IH; assumption].
    rewrite Forall_forall in He. destruct (He p K) as [(T' & _)|[_ ->]]; [lia|assumption]. }
  induction (fst e) as [|p l IHl]; [exact IH|]. inversion He as [|? ? Hp Hl]; subst. cbn [filter].
  destruct (p_ptype p =? 1) eqn:T; [|exact (IHl Hl)]. cbn [map app]. constructor; [exact (IHl Hl)|].
  apply Z.eqb_eq in T. destruct Hp as [(T' & _)|[_ ->]]; [lia|]. apply Forall_app. split.
  - apply Forall_forall. intros q K. apply in_map_iff in K as (r & <- & K). apply filter_In in K as [K T'].
    apply Z.eqb_eq in T'. rewrite Forall_forall in Hl. destruct (Hl r K) as [(T2 & _)|[_ ->]]; lia.
  - apply Forall_forall. exact B.
Qed.
Print Assumptions rtp_decoding_order.

(** C248: with the clock of the server read at system times that do not go back. *)
Theorem rtp_decoding_clock : forall ts ds mem st,
  Forall (fun t => 0 <= fst t /\ 0 <= snd t < 1000000 /\ fst t * 1000 + 999 < 2 ^ 63) ts ->
  StronglySorted (fun a b => 1000000 * fst a + snd a <= 1000000 * fst b + snd b) ts ->
  Forall2 (fun t d => update_time (Some t) = Ok (fst d)) ts ds ->
  StronglySorted Z.le (map p_dts (filter (fun p => p_ptype p =? 1) (concat (map fst (snd (h264_rtp_run mem st ds)))))).
Proof.
  intros ts ds mem st Hr Ht H. apply rtp_decoding_order. clear mem st.
  induction H as [|[s u] d ts ds Hd H IH]; [constructor|].
  apply StronglySorted_inv in Ht as [H1 H2]. inversion Hr as [|? ? Ha Hr']; subst. cbn [map].
  constructor; [exact (IH Hr' H1)|]. clear IH H1 Hr. cbn [fst snd] in *.
  induction H as [|[s' u'] d' ts ds Hd' H IH]; [constructor|].
  inversion H2; subst. inversion Hr' as [|? ? Hb Hr]; subst. cbn [map fst snd] in *.
  constructor; [|apply IH; assumption].
  eapply (clock_follows s u s' u'); try eassumption; lia.
Qed.
Print Assumptions rtp_decoding_clock.

(** C248: sound and pictures of one sender are not on one time line.  Sound gets its time from
    the timestamp of its packet, which stays below 13 hours and 16 minutes; so with any clock that is
    that far into 1970 every picture comes later than all sound. *)
Theorem rtp_sound_before_pictures : forall k aus mem st ds a p,
  pk_media k -> Forall au_ok aus -> zlen aus < 2 ^ 12 -> zlen (rtp_bytes k (au_payload aus)) < 2 ^ 60 ->
  bytes (au_payload aus) -> Forall (fun d => 47721859 <= fst d) ds ->
  In a (fst (aac_rtp_decode (rtp_bytes k (au_payload aus)))) ->
  In p (concat (map fst (snd (h264_rtp_run mem st ds)))) -> p_ptype p = 1 -> p_dts a < p_dts p.
Proof.
  intros k aus mem st ds a p Hk Ha Hn Hl Hb Hd Ia Ip Tp.
  rewrite <- (app_nil_r (au_payload aus)) in Ia, Hl, Hb.
  rewrite (aac_units_exact k aus [] Hk Ha Hn Hb Hl) in Ia. cbn [fst] in Ia. apply in_map_iff in Ia as (x & <- & _).
  assert (T : 0 <= pk_ts k < 2 ^ 32).
  { destruct Hk as ((F & _) & _). unfold pk_fields, fields_fit in F. cbn [forallb] in F. rewrite !andb_true_iff in F.
    cbn [fst snd] in F. decompose [and] F. lia. }
  change (p_dts (audio_pkt 1 (pk_ts k / 90) (snd x))) with (pk_ts k / 90).
  assert (pk_ts k / 90 < 47721859) by (apply Z.div_lt_upper_bound; lia).
  assert (47721859 <= p_dts p); [|lia].
  pose proof (rtp_decoding_times ds mem st) as F. induction F as [|d e ds es He F IH]; [destruct Ip|].
  cbn [map concat] in Ip. inversion Hd; subst. apply in_app_iff in Ip as [Ip|Ip]; [|apply IH; assumption].
  rewrite Forall_forall in He. destruct (He p Ip) as [(T' & _)|[_ ->]]; [lia|assumption].
Qed.
Print Assumptions rtp_sound_before_pictures.

(** Non-vacuity of C248: two slices in two datagrams, the clock 40 ms apart, the second with the
    smaller timestamp; and a unit of sound with the largest timestamp. *)
Example rtp_time_cases :
  let k t := mkpk 2 0 0 96 7 t 1 [] None in
  let ds := [(1794000000123, rtp_bytes (k 900000) [0x65; 1; 2]); (1794000000163, rtp_bytes (k 90) [0x41; 3])] in
  map p_dts (concat (map fst (snd (h264_rtp_run (repeat 0 64) None ds)))) = [1794000000123; 1794000000163] /\
  map p_pts (concat (map fst (snd (h264_rtp_run (repeat 0 64) None ds)))) = [10000; 1] /\
  update_time (Some (1794000000, 123999)) = Ok 1794000000123 /\
  update_time (Some (1794000000, 163000)) = Ok 1794000000163 /\
  map p_dts (fst (aac_rtp_decode (rtp_bytes (k (2 ^ 32 - 1)) (au_payload [(0, [7; 8])])))) = [47721858].
Proof. cbv zeta. repeat split; vm_compute; reflexivity. Qed.
