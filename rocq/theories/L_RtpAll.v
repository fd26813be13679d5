(** Every datagram of an RTP session. *)
From Verif Require Import Base M_Bits M_Fields M_Packet M_IO M_Cache M_H264 M_AAC M_Ts M_Rtp M_RtpDemux
  S_Bits S_Fields S_Codec S_Rtp S_RtpDemux S_Ts L_Bits L_Pack L_Align L_IO L_Rtp L_Rtp2 P_Rtp L_RtpDemux L_Ts L_Ts2 L_Ts3 L_Ts4 L_Ts5 S_TsMap L_TsMap S_TsAll L_TsAll L_TsOut P_TsOut S_RtpAll.
Ltac Zify.zify_post_hook ::= Z.to_euclidean_division_equations.

(** ** Gathering *)
Lemma gathered_sized bad e : forall ds acc, zlen acc < 12 -> Forall sized (fst (gathered bad acc ds e)).
Proof.
  induction ds as [|[now d] ds IH]; intros acc Ha; cbn [gathered]; [constructor|]. destruct (Z.eqb_spec (zlen d) 0); [constructor|].
  pose proof (zlen_nonneg acc) as H0. pose proof (zlen_nonneg d) as H1.
  assert (L : zlen (acc ++ take (3000 - zlen acc) d) <= 3000) by (rewrite zlen_app, zlen_take by lia; lia).
  destruct (Z.ltb_spec (zlen (acc ++ take (3000 - zlen acc) d)) 12); [apply IH; assumption|].
  cbn [fst]. constructor; [split; cbn [snd]; lia|]. apply IH. reflexivity.
Qed.
Lemma gathered_bytes bad e : forall ds acc, bytes acc -> Forall (fun d => bytes (snd d)) ds -> Forall (fun d => bytes (snd d)) (fst (gathered bad acc ds e)).
Proof.
  induction ds as [|[now d] ds IH]; intros acc Ha Hd; cbn [gathered]; [constructor|]. inversion Hd as [|? ? Hb Hd']; subst. cbn [snd] in Hb.
  destruct (zlen d =? 0); [constructor|].
  assert (B : bytes (acc ++ take (3000 - zlen acc) d)) by (apply Forall_app; split; [exact Ha|apply bytes_take, Hb]).
  destruct (zlen (acc ++ _) <? 12); [apply IH; assumption|]. cbn [fst]. constructor; [exact B|]. apply IH; [constructor|exact Hd'].
Qed.
Lemma read_gathered mem e : forall ds d acc, zlen acc < 12 ->
  let '(gs, e') := gathered ERROR_SOCKET_READ acc ds e in
  let '(r, st, ds1) := rtp_read mem (mkrd d []) acc ds e in
  let '(r', st', gs1) := rtp_read mem (mkrd d []) [] gs e' in
  r' = r /\ forall p, r = Ok p -> st' = st /\ gs1 = fst (gathered ERROR_SOCKET_READ [] ds1 e) /\ e' = snd (gathered ERROR_SOCKET_READ [] ds1 e).
Proof.
  induction ds as [|[now l] ds IH]; intros d acc Ha.
  { cbn [gathered rtp_read rd_pkts]. split; [reflexivity|discriminate]. }
  cbn [gathered rtp_read rd_pkts]. destruct (Z.eqb_spec (zlen l) 0); [cbn [rtp_read rd_pkts]; split; [reflexivity|discriminate]|].
  unfold RTP_MAX_LENGTH. set (acc1 := acc ++ take (3000 - zlen acc) l).
  pose proof (zlen_nonneg acc) as H0. pose proof (zlen_nonneg l) as H1.
  assert (L : zlen acc1 <= 3000) by (unfold acc1; rewrite zlen_app, zlen_take by lia; lia).
  destruct (Z.ltb_spec (zlen acc1) 12) as [S|S]; [apply (IH d acc1 S)|].
  cbn [rtp_read rd_pkts rd_dec app]. change (zlen (@nil Z)) with 0. unfold RTP_MAX_LENGTH. destruct (Z.eqb_spec (zlen acc1) 0); [lia|].
  rewrite take_all by lia. destruct (Z.ltb_spec (zlen acc1) 12); [lia|].
  destruct (rtp_datagram mem now d acc1) as [d1 [ps r]]. destruct r as [u|c| |]; [|split; [reflexivity|discriminate]..].
  destruct ps as [|p q].
  - specialize (IH d1 [] eq_refl). destruct (gathered ERROR_SOCKET_READ [] ds e) as [gs e']. cbn [fst snd]. exact IH.
  - assert (E1 : rtp_read mem (mkrd d1 (p :: q)) [] ds e = (Ok p, mkrd d1 q, ds)) by (destruct ds; reflexivity). rewrite E1.
    set (gs := fst (gathered ERROR_SOCKET_READ [] ds e)). set (e' := snd (gathered ERROR_SOCKET_READ [] ds e)).
    assert (E2 : rtp_read mem (mkrd d1 (p :: q)) [] gs e' = (Ok p, mkrd d1 q, gs)) by (destruct gs; reflexivity). rewrite E2. split; [reflexivity|]. intros p' _. auto.
Qed.
Lemma read_all_gathered mem e : forall fuel d q ds,
  rtp_read_all fuel mem (mkrd d q) ds e = rtp_read_all fuel mem (mkrd d q) (fst (gathered ERROR_SOCKET_READ [] ds e)) (snd (gathered ERROR_SOCKET_READ [] ds e)).
Proof.
  induction fuel as [|f IH]; intros d q ds; [reflexivity|]. cbn [rtp_read_all]. destruct q as [|p q].
  - pose proof (read_gathered mem e ds d [] eq_refl) as R. destruct (gathered ERROR_SOCKET_READ [] ds e) as [gs e']. cbn [fst snd].
    destruct (rtp_read mem (mkrd d []) [] ds e) as [[r st] ds1]. destruct (rtp_read mem (mkrd d []) [] gs e') as [[r' st'] gs1]. destruct R as [-> R].
    destruct r as [p|c| |]; try reflexivity. destruct (R p eq_refl) as (-> & -> & ->). destruct st as [d1 q1]. rewrite <- IH. reflexivity.
  - set (gs := fst (gathered ERROR_SOCKET_READ [] ds e)). set (e' := snd (gathered ERROR_SOCKET_READ [] ds e)).
    assert (E1 : rtp_read mem (mkrd d (p :: q)) [] ds e = (Ok p, mkrd d q, ds)) by (destruct ds; reflexivity).
    assert (E2 : rtp_read mem (mkrd d (p :: q)) [] gs e' = (Ok p, mkrd d q, gs)) by (destruct gs; reflexivity). rewrite E1, E2.
    rewrite (IH d q ds). reflexivity.
Qed.

(** ** The header *)
Lemma header_exact l : bytes l -> 12 <= zlen l < 2 ^ 60 ->
  match rtp_body l with
  | Some b => exists h c, rtp_header_decode (bc_init l) = Ok (h, c) /\ al l c b /\ rh_pt h = nth 1 l 0 mod 128
  | None => rtp_header_decode (bc_init l) = Err ERROR_IO_NOT_ENOUGH
  end.
Proof.
  intros Hb [H12 H60]. assert (Ha := al_init _ Hb H60). unfold rtp_header_decode. rewrite (al_acquire_ok _ _ _ 12 Ha) by lia. cbn [bind].
  unfold rtp_body. destruct l as [|b0 [|b1 X]]; try (unfold zlen in H12; cbn in H12; lia). cbn [nth].
  assert (B0 : byte b0) by (inversion Hb; assumption). assert (B1 : byte b1) by (inversion Hb as [|? ? _ Q]; inversion Q; assumption). unfold byte in B0, B1.
  set (l := b0 :: b1 :: X) in *.
  set (s := bev (take 2 X)). set (t := bev (take 4 (drop 2 X))). set (q := bev (take 4 (drop 6 X))).
  set (fs := [(b0 / 64, 2); (b0 / 32 mod 2, 1); (b0 / 16 mod 2, 1); (b0 mod 16, 4); (b1 / 128, 1); (b1 mod 128, 7); (s, 16); (t, 32); (q, 32)]).
  assert (HX : bytes X) by (inversion Hb as [|? ? _ Q]; inversion Q; assumption).
  assert (LX : 10 <= zlen X) by (unfold l in H12; rewrite !zlen_cons in H12; lia).
  assert (Rs : 0 <= s < 65536). { unfold s. change 65536 with (256 ^ 2). apply bev_lt; [apply bytes_take, HX|rewrite zlen_take by lia; lia]. }
  assert (Rt : 0 <= t < 4294967296). { unfold t. change 4294967296 with (256 ^ 4). apply bev_lt; [apply bytes_take, bytes_drop, HX|rewrite zlen_take, zlen_drop by lia; lia]. }
  assert (Rq : 0 <= q < 4294967296). { unfold q. change 4294967296 with (256 ^ 4). apply bev_lt; [apply bytes_take, bytes_drop, HX|rewrite zlen_take, zlen_drop by lia; lia]. }
  assert (E12 : take 12 l = be 12 (pack fs) /\ fields_fit fs = true).
  { split.
    - apply be_eq; [apply bytes_take, Hb|rewrite zlen_take by lia; lia|].
      destruct X as [|b2 [|b3 [|b4 [|b5 [|b6 [|b7 [|b8 [|b9 [|b10 [|b11 Y]]]]]]]]]]; try (unfold zlen in LX; cbn in LX; lia).
      subst s t q. unfold fs, l. unfold pack. cbn [fold_left fst snd].
      change (take 12 (b0 :: b1 :: b2 :: b3 :: b4 :: b5 :: b6 :: b7 :: b8 :: b9 :: b10 :: b11 :: Y)) with [b0; b1; b2; b3; b4; b5; b6; b7; b8; b9; b10; b11].
      change (take 2 (b2 :: b3 :: b4 :: b5 :: b6 :: b7 :: b8 :: b9 :: b10 :: b11 :: Y)) with [b2; b3].
      change (take 4 (drop 2 (b2 :: b3 :: b4 :: b5 :: b6 :: b7 :: b8 :: b9 :: b10 :: b11 :: Y))) with [b4; b5; b6; b7].
      change (take 4 (drop 6 (b2 :: b3 :: b4 :: b5 :: b6 :: b7 :: b8 :: b9 :: b10 :: b11 :: Y))) with [b8; b9; b10; b11].
      unfold bev. cbn [fold_left].
      change (2 ^ 2) with 4. change (2 ^ 1) with 2. change (2 ^ 4) with 16. change (2 ^ 7) with 128. change (2 ^ 16) with 65536. change (2 ^ 32) with 4294967296.
      clear - B0 B1. lia.
    - unfold fields_fit, fs. cbn [forallb fst snd]. change (2 ^ 2) with 4. change (2 ^ 1) with 2. change (2 ^ 4) with 16. change (2 ^ 7) with 128. change (2 ^ 16) with 65536. change (2 ^ 32) with 4294967296.
      clearbody s t q. clear - B0 B1 Rs Rt Rq. repeat (apply andb_true_intro; split); try reflexivity; first [apply Z.leb_le|apply Z.ltb_lt]; lia. }
  destruct E12 as [E12 Fit]. assert (Ha' : al l (bc_init l) (be 12 (pack fs) ++ drop 12 l)) by (rewrite <- E12, <- split_take; exact Ha).
  destruct (al_packed _ _ _ _ _ Ha') as (c1 & E1 & Ha1); [reflexivity|exact Fit|reflexivity|]. unfold fs in E1. cbn [map fst snd] in E1. rewrite E1. cbn [bind fst snd]. clear E1 Ha'.
  set (cc := b0 mod 16). assert (Hcc : 0 <= cc < 16) by (unfold cc; clear - B0; lia). clearbody cc.
  assert (L12 : zlen (drop 12 l) = zlen l - 12) by (rewrite zlen_drop by lia; lia).
  destruct (Z.ltb_spec (zlen l) (12 + 4 * cc)) as [N|N].
  { rewrite (al_acquire_no _ _ _ (cc * 4) Ha1) by lia. reflexivity. }
  rewrite (al_acquire_ok _ _ _ (cc * 4) Ha1) by lia. cbn [bind].
  destruct (al_fields _ _ _ (repeat 32 (Z.to_nat cc)) (4 * cc) Ha1) as (c2 & E2 & Ha2); [apply widths_repeat; lia|rewrite zsum_repeat; lia|lia|].
  rewrite E2. cbn [bind fst snd]. clear E2. rewrite drop_drop in Ha2 by lia. replace (4 * cc + 12) with (12 + 4 * cc) in Ha2 by lia. set (o := 12 + 4 * cc) in *.
  set (x := b0 / 16 mod 2). assert (Hx : x = 0 \/ x = 1) by (unfold x; clear; lia). clearbody x.
  destruct (Z.eqb_spec x 0) as [X0|X0].
  { subst x. cbn [Z.ltb Z.compare]. eexists _, _. split; [reflexivity|]. split; [exact Ha2|reflexivity]. }
  assert (x = 1) by lia. subst x. cbn [Z.ltb Z.compare]. unfold rtp_ext_decode.
  assert (Lo : zlen (drop o l) = zlen l - o) by (rewrite zlen_drop by lia; lia).
  destruct (Z.ltb_spec (zlen l) (o + 4)) as [N4|N4].
  { rewrite (al_acquire_no _ _ _ 4 Ha2) by lia. reflexivity. }
  rewrite (al_acquire_ok _ _ _ 4 Ha2) by lia. cbn [bind].
  set (pr := bev (take 2 (drop o l))). set (n := bev (take 2 (drop (o + 2) l))).
  assert (Bo : bytes (drop o l)) by (apply bytes_drop, Hb).
  assert (Rp : 0 <= pr < 65536). { unfold pr. change 65536 with (256 ^ 2). apply bev_lt; [apply bytes_take, Bo|rewrite zlen_take by lia; lia]. }
  assert (Rn : 0 <= n < 65536). { unfold n. change 65536 with (256 ^ 2). apply bev_lt; [apply bytes_take, bytes_drop, Hb|rewrite zlen_take, zlen_drop by lia; lia]. }
  assert (E4 : take 4 (drop o l) = be 4 (pack [(pr, 16); (n, 16)]) /\ fields_fit [(pr, 16); (n, 16)] = true).
  { split.
    - apply be_eq; [apply bytes_take, Bo|rewrite zlen_take by lia; lia|]. unfold pr, n. replace (drop (o + 2) l) with (drop 2 (drop o l)) by (rewrite drop_drop by lia; f_equal; lia).
      destruct (drop o l) as [|a0 [|a1 [|a2 [|a3 Y]]]]; try (unfold zlen in Lo at 1; cbn [length] in Lo; lia).
      change (take 4 (a0 :: a1 :: a2 :: a3 :: Y)) with [a0; a1; a2; a3]. change (take 2 (a0 :: a1 :: a2 :: a3 :: Y)) with [a0; a1]. change (take 2 (drop 2 (a0 :: a1 :: a2 :: a3 :: Y))) with [a2; a3].
      unfold bev, pack. cbn [fold_left fst snd]. change (2 ^ 16) with 65536. clear. lia.
    - unfold fields_fit. cbn [forallb fst snd]. change (2 ^ 16) with 65536. clearbody pr n. clear - Rp Rn. repeat (apply andb_true_intro; split); try reflexivity; first [apply Z.leb_le|apply Z.ltb_lt]; lia. }
  destruct E4 as [E4 Fit4]. assert (Ha2' : al l c2 (be 4 (pack [(pr, 16); (n, 16)]) ++ drop 4 (drop o l))) by (rewrite <- E4, <- split_take; exact Ha2).
  destruct (al_packed _ _ _ _ _ Ha2') as (c3 & E3 & Ha3); [reflexivity|exact Fit4|reflexivity|]. cbn [map fst snd] in E3. rewrite E3. cbn [bind fst snd]. clear E3 Ha2'.
  rewrite drop_drop in Ha3 by lia. replace (4 + o) with (o + 4) in Ha3 by lia.
  assert (Lo4 : zlen (drop (o + 4) l) = zlen l - (o + 4)) by (rewrite zlen_drop by lia; lia).
  destruct (Z.eqb_spec n 0) as [N0|N0].
  { rewrite N0, Z.add_0_r. destruct (Z.ltb_spec (zlen l) (o + 4)); [lia|]. cbn [bind fst snd]. eexists _, _. split; [reflexivity|]. split; [exact Ha3|reflexivity]. }
  destruct (Z.ltb_spec (zlen l) (o + 4 + n)) as [Nn|Nn].
  { rewrite (al_acquire_no _ _ _ n Ha3) by lia. reflexivity. }
  rewrite (al_acquire_ok _ _ _ n Ha3) by lia. cbn [bind]. destruct (al_read_bytes _ _ _ n Ha3) as (c4 & -> & Ha4); [lia|]. cbn [bind fst snd].
  eexists _, _. split; [reflexivity|]. split; [|reflexivity]. rewrite drop_drop in Ha4 by lia. replace (n + (o + 4)) with (o + 4 + n) in Ha4 by lia. exact Ha4.
Qed.
Lemma irtp_exact {S} (mtch : Z -> bool) (dec : rtp_hdr -> S -> bitctx -> S * emit) st l : bytes l -> 12 <= zlen l < 2 ^ 60 ->
  match rtp_body l with
  | None => irtp_decode mtch dec st l = (st, ([], Err ERROR_IO_NOT_ENOUGH))
  | Some b => if mtch (nth 1 l 0 mod 128) then exists h c, al l c b /\ irtp_decode mtch dec st l = dec h st c
              else irtp_decode mtch dec st l = (st, ([], Err ERROR_RTP_PAYLOAD_TYPE))
  end.
Proof.
  intros Hb Hl. pose proof (header_exact l Hb Hl) as H. assert (Ha := al_init _ Hb (proj2 Hl)). unfold irtp_decode.
  rewrite (al_acquire_ok _ _ _ 12 Ha) by lia. cbn [bind]. destruct (rtp_body l) as [b|]; [|rewrite H; reflexivity].
  destruct H as (h & c & -> & Ha' & Ep). rewrite Ep. destruct (mtch (nth 1 l 0 mod 128)); [exists h, c; auto|reflexivity].
Qed.

(** ** One datagram *)
Definition dec_ok (mem : list Z) (d : rdec) : Prop :=
  match d with DNone | DAac => True | DH264 st => exists u, strep mem st u | DTs s => all_hold mem s end.
(** A packet [l] that makes a session with decoder [d] read outside. *)
Definition datagram_outside (mem : list Z) (d : rdec) (l : list Z) : Prop :=
  if control l then is_sdes l
  else exists b, rtp_body l = Some b /\
    match d with
    | DNone => nth 1 l 0 = 33 /\ ts_outside mem ts_new b
    | DH264 st => 96 <= nth 1 l 0 mod 128 /\ exists u, strep mem st u /\ short_payload u b
    | DAac => False
    | DTs s => nth 1 l 0 mod 128 = 33 /\ ts_outside mem s b
    end.

Lemma cbrep_same mem b u w : cbrep mem b u -> cbrep mem b w -> u = w.
Proof.
  intros (A1 & A2 & _) (B1 & B2 & _). rewrite A1 in B1. apply (f_equal (take (cb_len b))) in B1.
  rewrite A2 in B1 at 1. rewrite take_app_exact in B1 by reflexivity. rewrite B2 in B1. rewrite take_app_exact in B1 by reflexivity. exact B1.
Qed.
Lemma body_bytes l b : bytes l -> rtp_body l = Some b -> bytes b.
Proof.
  intros Hb. unfold rtp_body. destruct (_ <? _); [discriminate|]. destruct (_ =? 0); [intros [= <-]; apply bytes_drop, Hb|].
  destruct (_ <? _); [discriminate|]. destruct (_ <? _); [discriminate|]. intros [= <-]. apply bytes_drop, Hb.
Qed.
Lemma ts_datagram mem now s l : mem_ok mem -> bytes mem -> all_hold mem s -> bytes l -> 12 <= zlen l < 2 ^ 60 ->
  let '(d1, (ps, r)) := rtp_dec mem now (DTs s) l in
  r <> Fuel /\ (r = UB <-> exists b, rtp_body l = Some b /\ nth 1 l 0 mod 128 = 33 /\ ts_outside mem s b) /\ (r = Ok tt -> dec_ok mem d1).
Proof.
  intros Hm Hb Hall Hl Hz. cbn [rtp_dec]. pose proof (irtp_exact is_rtp_mpegts (ts_rtp_payload mem) s l Hl Hz) as H.
  destruct (rtp_body l) as [b|] eqn:Eb.
  2:{ rewrite H. split; [discriminate|]. split; [|discriminate]. split; [discriminate|]. intros (b & Q & _). discriminate. }
  unfold is_rtp_mpegts in H. destruct (Z.eqb_spec (nth 1 l 0 mod 128) 33) as [E33|N33].
  2:{ fold is_rtp_mpegts in H. change (fun pt : Z => pt =? 33) with is_rtp_mpegts in H. rewrite H. split; [discriminate|]. split; [|discriminate]. split; [discriminate|].
      intros (b' & _ & Q & _). contradiction. }
  destruct H as (h & c & Ha & H). change (fun pt : Z => pt =? 33) with is_rtp_mpegts in H. rewrite H. clear H.
  assert (Bb : bytes b) by (apply (body_bytes l b Hl Eb)).
  unfold ts_rtp_payload. rewrite (al_size _ _ _ Ha), (al_peek _ _ _ _ Ha) by (pose proof (zlen_nonneg b); lia). rewrite take_all by lia.
  destruct (cut_188 (length b) b (le_n _)) as (ds & tail & Ei & Hd & Ht & Hn).
  assert (Ex : (exists b0, Some b = Some b0 /\ nth 1 l 0 mod 128 = 33 /\ ts_outside mem s b0) <-> ts_outside mem s b).
  { split; [intros (b' & [= <-] & _ & Q); exact Q|]. intros Q. exists b. auto. }
  rewrite Ei in Bb. destruct (blocks_outside mem s ds tail Hm Hb Hall Bb Hd Ht) as (N & Iff & Keep). rewrite <- Ei in Iff.
  assert (D : ts_decode_packets (length b) mem s b = (fst (fst (ts_run mem s ds)), if zlen tail =? 0 then snd (ts_run mem s ds) else match snd (ts_run mem s ds) with Ok _ => Err ERROR_TS_PACKET_SIZE | e => e end)).
  { rewrite Ei at 2. destruct (Z.eqb_spec (zlen tail) 0) as [T|T].
    - apply zlen_0_nil in T. subst tail. rewrite app_nil_r. apply decode_packets_ok; assumption.
    - pose proof (zlen_nonneg tail). apply decode_packets_part; [assumption|assumption|lia]. }
  rewrite D. destruct (ts_run mem s ds) as [[s1 o] r]. cbn [fst snd] in *. rewrite <- Iff in Ex. clear Iff.
  destruct (zlen tail =? 0), r as [[]|e| |]; try congruence; (split; [discriminate|]); (split; [rewrite Ex; split; congruence|]); try discriminate.
  intros _. cbn [dec_ok]. intros q p. cbn [s_progs]. apply (Keep eq_refl).
Qed.
Lemma datagram_exact mem now d l : mem_ok mem -> bytes mem -> zlen mem < 2 ^ 32 -> dec_ok mem d -> bytes l -> 12 <= zlen l < 2 ^ 60 ->
  let '(d1, (ps, r)) := rtp_datagram mem now d l in
  r <> Fuel /\ (r = UB <-> datagram_outside mem d l) /\ (r = Ok tt -> dec_ok mem d1).
Proof.
  intros Hm Hb Hm32 Hd Hl Hz. assert (Hm1 : 1 <= zlen mem < 2 ^ 32) by (unfold mem_ok, TS_DEFAULT_PES in Hm; lia).
  unfold rtp_datagram, datagram_outside. change (is_rtcp (nth 1 l 0)) with (control l). destruct (control l) eqn:Ec.
  { destruct (rtcp_defined_iff_not_sdes l Hl (proj2 Hz)) as [(_ & Hs & ->)|([H|H] & [(m & ->)|(e & ->)])]; try lia;
      (split; [discriminate|]); (split; [split; [try discriminate; intros _; exact Hs|intros; try reflexivity; contradiction]|]); try discriminate. intros _. exact Hd. }
  destruct d as [|st| |s].
  - destruct (Z.eqb_spec (nth 1 l 0) 33) as [E|E].
    + pose proof (ts_datagram mem now ts_new l Hm Hb (proj1 P_TsAll.ts_all_cases mem) Hl Hz) as T. destruct (rtp_dec mem now (DTs ts_new) l) as [d1 [ps r]].
      destruct T as (T1 & T2 & T3). split; [exact T1|]. split; [|exact T3]. rewrite T2, E. change (33 mod 128) with 33. reflexivity.
    + split; [discriminate|]. split; [|discriminate]. split; [discriminate|]. intros (b & _ & Q & _). contradiction.
  - destruct Hd as (u & Hu). cbn [rtp_dec]. unfold h264_rtp_decode. pose proof (irtp_exact is_rtp_dynamic (h264_rtp_payload mem now) st l Hl Hz) as H.
    assert (R : 0 <= nth 1 l 0 mod 128 < 128) by (apply Z.mod_pos_bound; lia).
    destruct (rtp_body l) as [b|] eqn:Eb.
    2:{ rewrite H. split; [discriminate|]. split; [|discriminate]. split; [discriminate|]. intros (b & Q & _). discriminate. }
    destruct (is_rtp_dynamic (nth 1 l 0 mod 128)) eqn:Ed.
    2:{ rewrite H. split; [discriminate|]. split; [|discriminate]. split; [discriminate|]. intros (b' & _ & Q & _). unfold is_rtp_dynamic in Ed. clear H. lia. }
    destruct H as (h & c & Ha & ->). destruct (payload_ok mem now h st u _ c b Hu Hm1 Ha) as (st' & -> & Hst').
    destruct (payload_UB (zlen mem) now (rh_ts h) u b) as [P1 P2]. destruct (payload_spec (zlen mem) now (rh_ts h) u b) as [u' [ps r]]. cbn [fst snd] in *.
    split; [exact P2|]. split; [|intros _; exists u'; exact Hst']. rewrite P1. split.
    + intros Q. exists b. split; [reflexivity|]. split; [unfold is_rtp_dynamic in Ed; lia|]. exists u. auto.
    + intros (b' & [= <-] & _ & w & Hw & Q). replace u with w; [exact Q|]. destruct st as [cb|], u as [u|], w as [w|]; cbn [strep] in *; try contradiction; [|reflexivity].
      f_equal. apply (cbrep_same mem cb w u Hw Hu).
  - cbn [rtp_dec]. destruct (aac_units_safe l Hl (proj2 Hz)) as [E|[E|E]]; destruct (aac_rtp_decode l) as [ps r]; cbn [snd] in E; subst r;
      (split; [discriminate|]); (split; [split; [discriminate|intros (b & _ & [])]|]); try discriminate. intros _. exact I.
  - pose proof (ts_datagram mem now s l Hm Hb Hd Hl Hz) as T. destruct (rtp_dec mem now (DTs s) l) as [d1 [ps r]]. exact T.
Qed.

(** ** Sessions *)
Fixpoint accepted (mem : list Z) (d : rdec) (ds : list (Z * list Z)) : option rdec :=
  match ds with
  | [] => Some d
  | (now, l) :: r => let '(d1, (_, x)) := rtp_datagram mem now d l in match x with Ok _ => accepted mem d1 r | _ => None end
  end.
Lemma flow_outside mem e : mem_ok mem -> bytes mem -> zlen mem < 2 ^ 32 -> forall ds d, dec_ok mem d -> Forall sized ds -> Forall (fun d => bytes (snd d)) ds ->
  snd (flow (dec_run mem d ds) e) <> Fuel /\
  (snd (flow (dec_run mem d ds) e) = UB <->
   exists pre now l post d1, ds = pre ++ (now, l) :: post /\ accepted mem d pre = Some d1 /\ datagram_outside mem d1 l).
Proof.
  intros Hm Hb H32. induction ds as [|[now l] ds IH]; intros d Hd Hs Hby.
  { split; [discriminate|]. split; [discriminate|]. intros ([|? ?] & ? & ? & ? & ? & Q & _); discriminate. }
  inversion Hs as [|? ? Hl Hs']; subst. inversion Hby as [|? ? Hlb Hby']; subst. unfold sized in Hl. cbn [snd] in Hl, Hlb.
  pose proof (datagram_exact mem now d l Hm Hb H32 Hd Hlb ltac:(lia)) as O. cbn [dec_run].
  assert (Sp : forall P : list (Z * list Z) -> Z -> list Z -> list (Z * list Z) -> Prop,
     (exists pre now' l' post, (now, l) :: ds = pre ++ (now', l') :: post /\ P pre now' l' post) <->
     P [] now l ds \/ exists pre now' l' post, ds = pre ++ (now', l') :: post /\ P ((now, l) :: pre) now' l' post).
  { intros P. split.
    - intros ([|x pre] & now' & l' & post & E & Q); cbn [app] in E; injection E as E1 E2; [|]; [left; subst; exact Q|right; subst; exists pre, now', l', post; auto].
    - intros [Q|(pre & now' & l' & post & -> & Q)]; [exists [], now, l, ds; auto|exists ((now, l) :: pre), now', l', post; auto]. }
  assert (Sp2 : (exists pre now' l' post d1, (now, l) :: ds = pre ++ (now', l') :: post /\ accepted mem d pre = Some d1 /\ datagram_outside mem d1 l') <->
     datagram_outside mem d l \/ exists pre now' l' post, ds = pre ++ (now', l') :: post /\ exists d1, accepted mem d ((now, l) :: pre) = Some d1 /\ datagram_outside mem d1 l').
  { specialize (Sp (fun pre now' l' post => exists d1, accepted mem d pre = Some d1 /\ datagram_outside mem d1 l')). cbv beta in Sp.
    split.
    - intros (pre & now' & l' & post & d1 & E & Q). destruct (proj1 Sp) as [(d2 & [= <-] & Q')|Q']; [exists pre, now', l', post; eauto|left; exact Q'|right; exact Q'].
    - intros Q. destruct (proj2 Sp) as (pre & now' & l' & post & E & d1 & Q'); [destruct Q as [Q|Q]; [left; exists d; auto|right; exact Q]|]. exists pre, now', l', post, d1. auto. }
  rewrite Sp2. clear Sp Sp2. cbn [accepted]. destruct (rtp_datagram mem now d l) as [d1 [ps r]]. destruct O as (O1 & O2 & O3).
  destruct r as [[]|c| |]; cbn [flow snd].
  - destruct (IH d1 (O3 eq_refl) Hs' Hby') as [I1 I2]. split; [exact I1|]. rewrite I2. split.
    + intros (pre & now' & l' & post & d2 & E & Q). right. exists pre, now', l', post. split; [exact E|]. exists d2. exact Q.
    + intros [Q|(pre & now' & l' & post & E & d2 & Q)]; [exfalso; apply O2 in Q; discriminate|]. exists pre, now', l', post, d2. auto.
  - split; [discriminate|]. split; [discriminate|]. intros [Q|(pre & now' & l' & post & E & d2 & Q & _)]; [apply O2 in Q; discriminate|discriminate].
  - split; [discriminate|]. split; [|reflexivity]. intros _. left. apply O2. reflexivity.
  - congruence.
Qed.
