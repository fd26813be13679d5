(** Every packet of an elementary stream; every 188-byte block. *)
From Verif Require Import Base M_Bits S_Bits L_Bits M_Fields L_Align S_Fields L_Pack M_Packet M_IO S_IO L_IO M_Cache L_Cache
  M_H264 M_AAC L_Rtp M_Ts S_Ts L_Ts L_Ts2 L_Ts3 L_Ts4 L_Ts5 S_TsMap L_TsMap S_Codec P_Codec S_TsAll.
Ltac Zify.zify_post_hook ::= Z.to_euclidean_division_equations.

(** The state of a stream of the demuxer against its pending unit. *)
Definition holds (mem : list Z) (p : pesst) (u : option unit_in) : Prop :=
  match u with
  | None => ps_buf p = None
  | Some v => pending mem p (un_len v) (un_pts v) (un_dts v) (un_es v) /\ bytes (un_es v)
  end.
(** What the codec parsers make of a unit that is handed over (C19-C21, C50). *)
Definition handed (mem : list Z) (tp : Z) (u : option unit_in) (a : option adts) : list pkt * option adts * res unit :=
  match u with
  | None => ([], a, Ok tt)
  | Some v =>
      let ctx := mkav (un_dts v) (un_pts v) 90 in
      if tp =? TS_STREAM_H264 then
        match h264_encode_avc ctx (-1) (codec_bytes tp (un_len v) mem (un_es v)) with
        | Ok ps => (ps, a, Ok tt)
        | e => ([], a, recast e)
        end
      else if tp =? TS_STREAM_AAC then
        let '(ps, hdr, q) := aac_encode_avc ctx a (un_es v) in
        (match q with Ok _ => ps | _ => [] end, hdr, q)
      else ([], a, Ok tt)
  end.
Definition begun_ends (b : begun) : res unit :=
  match b with Begun _ => Ok tt | Unprefixed => Err ERROR_TS_PACKET_DECODE | Headless => Err ERROR_IO_NOT_ENOUGH end.

Lemma flush_every mem s p u : mem_ok mem -> holds mem p u ->
  exists s' p1 r, pes_flush s p = (s', p1, r) /\ s_progs s' = s_progs s /\
    let '(ps, a, q) := handed mem (ps_type p) u (s_adts s) in s_adts s' = a /\ r = q /\ s_queue s' = s_queue s ++ ps.
Proof.
  intros Hm Hh. destruct u as [v|]; cbn [holds] in Hh.
  2:{ exists s, p, (Ok tt). unfold pes_flush. rewrite Hh. cbn [handed]. rewrite app_nil_r. auto. }
  destruct Hh as [Hh _]. destruct (flush_ok mem s p _ _ _ _ Hm Hh) as (s' & r & E & Hs & D). exists s', (pes_reset p), r. split; [exact E|]. split; [exact Hs|].
  unfold unit_done in D. cbn [handed]. destruct (ps_type p =? TS_STREAM_H264) eqn:E4.
  - destruct D as [D1 D2]. unfold codec_bytes in *. rewrite E4 in *. destruct (h264_encode_avc _ _ _); destruct D2 as [-> ->]; rewrite ?app_nil_r; auto.
  - destruct (ps_type p =? TS_STREAM_AAC).
    + unfold codec_bytes in D. rewrite E4 in D. destruct (aac_encode_avc _ _ _) as [[ps hdr] q]. destruct D as (-> & -> & ->). auto.
    + destruct D as (-> & -> & ->). rewrite app_nil_r. auto.
Qed.

Lemma six_bytes l : bytes l -> zlen l = 6 -> let v := bev l in
  let fs := [(v / 2 ^ 24, 24); (v / 2 ^ 16 mod 2 ^ 8, 8); (v mod 2 ^ 16, 16)] in
  l = be 6 (pack fs) /\ fields_fit fs = true.
Proof.
  intros Hb Hl v fs. pose proof (bev_lt l 6 Hb Hl) as R. fold v in R. change (256 ^ 6) with 281474976710656 in R. subst fs. cbv beta. split.
  - apply be_eq; [exact Hb|exact Hl|]. fold v. unfold pack. cbn [fold_left fst snd].
    change (2 ^ 24) with 16777216. change (2 ^ 16) with 65536. change (2 ^ 8) with 256. clearbody v. clear - R. lia.
  - unfold fields_fit. cbn [forallb fst snd].
    change (2 ^ 24) with 16777216. change (2 ^ 16) with 65536. change (2 ^ 8) with 256. clearbody v. clear - R.
    repeat (apply andb_true_intro; split); try reflexivity; first [apply Z.leb_le|apply Z.ltb_lt]; lia.
Qed.
Lemma clip_bytes len l : bytes l -> bytes (clip_len len l).
Proof. intros H. unfold clip_len. destruct (len =? 0); [exact H|apply bytes_take, H]. Qed.
Lemma three_more (l : list Z) : 3 <= zlen l -> exists a b c r, l = a :: b :: c :: r.
Proof.
  intros H. destruct l as [|a [|b [|c r]]]; unfold zlen in H; cbn [length] in H; try lia. eauto.
Qed.

Lemma start_every mem s p c buf body : mem_ok mem -> al buf c body -> zlen buf <= 188 -> 9 <= zlen body ->
  exists p', pes_start mem s p c =
      match snd (pes_flush s p) with
      | Ok _ => (fst (fst (pes_flush s p)), p', begun_ends (begin_unit body))
      | e => (fst (fst (pes_flush s p)), snd (fst (pes_flush s p)), e)
      end /\ ps_type p' = ps_type p /\ ps_cc p' = ps_cc p /\ forall u, begin_unit body = Begun u -> holds mem p' (Some u).
Proof.
  intros Hm Ha Hb H9. unfold pes_start. rewrite (al_acquire_ok _ _ _ 9 Ha) by lia.
  pose proof (al_bytes _ _ _ Ha) as Hby. set (v := bev (take 6 body)).
  assert (H6b : bytes (take 6 body)) by (apply bytes_take; exact Hby).
  assert (H6l : zlen (take 6 body) = 6) by (rewrite zlen_take by lia; lia).
  destruct (six_bytes (take 6 body) H6b H6l) as (E & Fit). fold v in E, Fit.
  assert (Ha' := Ha). rewrite (split_take 6 body) in Ha'. rewrite E in Ha'.
  destruct (al_packed _ _ _ _ _ Ha') as (c1 & E1 & Ha1); [reflexivity|exact Fit|reflexivity|].
  cbn [map fst snd] in E1. pose proof (flush_keeps s p) as [K1 K2].
  destruct (pes_flush s p) as [[s1 p1] r]. cbn [fst snd] in *. rewrite E1. unfold fld; cbn [nth].
  set (len := v mod 2 ^ 16) in *. assert (Hl : 0 <= len < 65536) by (apply Z.mod_pos_bound; lia).
  destruct (init_pending mem p1 len Hm Hl) as (P0 & T0 & C0).
  assert (Hd6 : bytes (drop 6 body)) by (apply bytes_drop; exact Hby).
  assert (L6 : zlen (drop 6 body) = zlen body - 6) by (rewrite zlen_drop by lia; lia).
  assert (Lb : zlen body <= 188) by (pose proof (al_le _ _ _ Ha); lia).
  assert (Dump : forall pts dts p2 c2 rest, pending mem p2 len pts dts [] -> ps_type p2 = ps_type p -> ps_cc p2 = ps_cc p -> al buf c2 rest -> zlen rest <= 188 -> bytes rest ->
    exists p', pes_dump p2 c2 = (p', Ok tt) /\ ps_type p' = ps_type p /\ ps_cc p' = ps_cc p /\ holds mem p' (Some (mkun len pts dts (keep len rest)))).
  { intros pts dts p2 c2 rest P2 T2 C2 Ha2 Hr Hrb. destruct (dump_ok _ _ _ _ _ _ _ _ _ Hm P2 Ha2 Hb) as [(Hov & _)|(_ & p' & Ed & Pd & Td & Cd)].
    { exfalso. unfold overflow, TS_DEFAULT_PES in Hov. change (zlen (@nil Z)) with 0 in Hov. lia. }
    exists p'. split; [exact Ed|]. split; [congruence|]. split; [congruence|]. cbn [holds un_len un_pts un_dts un_es]. split; [exact Pd|]. apply clip_bytes, Hrb. }
  unfold begin_unit. cbv zeta. fold v. fold len. destruct (v / 2 ^ 24 =? 1) eqn:Ep; cbn [negb].
  2:{ exists (pes_init mem p1 len). split; [destruct r; reflexivity|]. split; [congruence|]. split; [congruence|]. discriminate. }
  set (sid := v / 2 ^ 16 mod 2 ^ 8). destruct (sid =? 0xbe) eqn:Es.
  { exists (pes_init mem p1 len). split; [destruct r; reflexivity|]. split; [congruence|]. split; [congruence|]. intros u [= <-].
    cbn [holds un_len un_pts un_dts un_es]. split; [exact P0|constructor]. }
  replace (plain_sid sid) with (existsb (Z.eqb sid) bare_sids) by (unfold plain_sid, bare_sids; cbn [existsb]; rewrite Es; reflexivity).
  destruct (existsb (Z.eqb sid) bare_sids) eqn:Eb.
  { destruct (Dump (-1) (-1) (pes_init mem p1 len) c1 (drop 6 body) P0 ltac:(congruence) ltac:(congruence) Ha1 ltac:(lia) Hd6) as (p' & Ed & Td & Cd & Hh).
    rewrite Ed. exists p'. split; [destruct r; reflexivity|]. split; [exact Td|]. split; [exact Cd|]. intros u [= <-]. exact Hh. }
  destruct (three_more (drop 6 body) ltac:(lia)) as (f1 & f & h & X & EX). rewrite EX in *.
  assert (HX : bytes X) by (inversion Hd6 as [|? ? _ Q]; inversion Q as [|? ? _ Q2]; inversion Q2; assumption).
  rewrite !zlen_cons in L6.
  assert (Hh0 : 0 <= h) by (inversion Hd6 as [|? ? _ Q]; inversion Q as [|? ? _ Q2]; inversion Q2 as [|? ? B _]; unfold byte in B; lia).
  destruct (pes_header_ok _ _ _ _ _ _ Ha1 Hb) as [((n & En & N1 & N2) & c2 & E2 & Ha2)|(Hno & ts & E2)]; rewrite E2; cbn [fst snd].
  - rewrite En. destruct (Z.leb_spec n h); [|lia]. destruct (Z.leb_spec h (zlen X)); [|lia]. cbn [andb].
    destruct (Dump (x_pts f X) (x_dts f X) (set_ts (pes_init mem p1 len) (x_pts f X) (x_dts f X)) c2 (drop h X)) as (p' & Ed & Td & Cd & Hh).
    { exact (pending_ts _ _ _ _ _ _ _ _ P0). } { cbn [set_ts ps_type]. congruence. } { cbn [set_ts ps_cc]. congruence. } { exact Ha2. }
    { rewrite zlen_drop by lia. pose proof (zlen_nonneg X). lia. } { apply bytes_drop, HX. }
    rewrite Ed. exists p'. split; [destruct r; reflexivity|]. split; [exact Td|]. split; [exact Cd|]. intros u [= <-]. exact Hh.
  - replace (match opt_size f X with Some n => if (n <=? h) && (h <=? zlen X) then _ else Headless | None => Headless end) with Headless.
    + exists (set_ts (pes_init mem p1 len) (fst ts) (snd ts)). split; [destruct r; reflexivity|]. cbn [set_ts ps_type ps_cc]. split; [congruence|]. split; [congruence|]. discriminate.
    + destruct (opt_size f X) as [n|] eqn:En; [|reflexivity]. destruct (Z.leb_spec n h); [|reflexivity]. destruct (Z.leb_spec h (zlen X)); [|reflexivity].
      exfalso. apply Hno. exists n. auto.
Qed.

(** ** One packet of a stream *)
Definition carries_on (mem : list Z) (s' : tsst) (k : tsp) (p : pesst) (u' : unit_in) : Prop :=
  exists p', s_progs s' (t_pid k) = Some (PPes p') /\ ps_type p' = ps_type p /\ ps_cc p' = t_cc k /\ holds mem p' (Some u').
Lemma held_len mem p v : holds mem p (Some v) -> zlen (un_es v) <= TS_DEFAULT_PES.
Proof. intros [(_ & _ & _ & H1 & H2 & _) _]. pose proof (capacity_range _ H1). lia. Qed.
Lemma stream_every mem s k p u : mem_ok mem -> pk_fits k -> t_has k = true -> s_progs s (t_pid k) = Some (PPes p) -> holds mem p u ->
  exists s' o r, ts_decode mem s (ts_bytes k) = (s', o, r) /\
    (forall q, q <> t_pid k -> s_progs s' q = s_progs s q) /\
    map p_data o = (match r with Ok _ => [ts_bytes k] | _ => [] end) /\
    match stream_step (ps_cc p) u k with
    | Denied e => r = Err e /\ s_queue s' = s_queue s /\ s_adts s' = s_adts s
    | Kept u' => r = Ok tt /\ s_queue s' = s_queue s /\ s_adts s' = s_adts s /\ carries_on mem s' k p u'
    | Passed b =>
        let '(ps, a, q) := handed mem (ps_type p) u (s_adts s) in
        s_queue s' = s_queue s ++ ps /\ s_adts s' = a /\
        match q with
        | Ok _ => r = begun_ends b /\ forall u', b = Begun u' -> carries_on mem s' k p u'
        | e => r = e
        end
    end.
Proof.
  intros Hm Hf Hh Ep Hu. destruct (ts_decode_fits mem s k Hf) as (c & Ha & Hb & E). rewrite E, (after_pes _ _ _ _ _ Ep Hh). clear E.
  unfold pes_decode, stream_step. cbn [t_hdr th_pusi th_cc]. rewrite land_next.
  assert (Hst : forall p0, ps_type p0 = ps_type p -> ps_cc p0 = t_cc k -> holds mem p0 u -> exists s' o r,
    (let '(s1, p1, r) := pes_start mem s p0 c in
     let s' := set_progs s1 (add_program (s_progs s1) (t_pid k) (PPes p1)) in
     match r with
     | Ok _ => (s', [ts_on_packet TS_PROGRAM_PES (t_pusi k) (ts_bytes k)], Ok tt)
     | e => (s', [], e)
     end) = (s', o, r) /\
    (forall q, q <> t_pid k -> s_progs s' q = s_progs s q) /\
    map p_data o = (match r with Ok _ => [ts_bytes k] | _ => [] end) /\
    match (if zlen (t_body k) <? 9 then Denied ERROR_IO_NOT_ENOUGH else Passed (begin_unit (t_body k))) with
    | Denied e => r = Err e /\ s_queue s' = s_queue s /\ s_adts s' = s_adts s
    | Kept u' => r = Ok tt /\ s_queue s' = s_queue s /\ s_adts s' = s_adts s /\ carries_on mem s' k p u'
    | Passed b =>
        let '(ps, a, q) := handed mem (ps_type p) u (s_adts s) in
        s_queue s' = s_queue s ++ ps /\ s_adts s' = a /\
        match q with
        | Ok _ => r = begun_ends b /\ forall u', b = Begun u' -> carries_on mem s' k p u'
        | e => r = e
        end
    end).
  { intros p0 T0 C0 H0. destruct (Z.ltb_spec (zlen (t_body k)) 9) as [H9|H9].
    { unfold pes_start. pose proof (zlen_nonneg (t_body k)). rewrite (al_acquire_no _ _ _ 9 Ha) by lia. eexists _, _, _. split; [reflexivity|].
      split; [intros q Hq; cbn [set_progs s_progs]; apply add_other, Hq|]. split; [reflexivity|]. split; [reflexivity|]. split; reflexivity. }
    destruct (start_every mem s p0 c _ _ Hm Ha Hb H9) as (p' & -> & T' & C' & Hbeg).
    destruct (flush_every mem s p0 u Hm H0) as (s1 & p1 & r1 & -> & Hs1 & Hd). cbn [fst snd]. rewrite T0 in Hd.
    destruct (handed mem (ps_type p) u (s_adts s)) as [[ps a] q]. destruct Hd as (Da & -> & Dq).
    destruct q as [x|e| |].
    - assert (Ho : forall q, q <> t_pid k -> s_progs (set_progs s1 (add_program (s_progs s1) (t_pid k) (PPes p'))) q = s_progs s q)
        by (intros q Hq; cbn [set_progs s_progs]; rewrite add_other by exact Hq; rewrite Hs1; reflexivity).
      assert (Hc : forall u', begin_unit (t_body k) = Begun u' -> carries_on mem (set_progs s1 (add_program (s_progs s1) (t_pid k) (PPes p'))) k p u').
      { intros u' Eu. exists p'. cbn [set_progs s_progs]. rewrite add_same. split; [reflexivity|]. split; [congruence|]. split; [congruence|]. apply Hbeg, Eu. }
      destruct (begin_unit (t_body k)) as [u'| |]; cbn [begun_ends]; (eexists _, _, _; split; [reflexivity|]; split; [exact Ho|]; split; [reflexivity|]; split; [exact Dq|]; split; [exact Da|]; split; [reflexivity|exact Hc]).
    - eexists _, _, _. split; [reflexivity|]. split; [intros q Hq; cbn [set_progs s_progs]; rewrite add_other by exact Hq; rewrite Hs1; reflexivity|]. split; [reflexivity|]. auto.
    - eexists _, _, _. split; [reflexivity|]. split; [intros q Hq; cbn [set_progs s_progs]; rewrite add_other by exact Hq; rewrite Hs1; reflexivity|]. split; [reflexivity|]. auto.
    - eexists _, _, _. split; [reflexivity|]. split; [intros q Hq; cbn [set_progs s_progs]; rewrite add_other by exact Hq; rewrite Hs1; reflexivity|]. split; [reflexivity|]. auto. }
  assert (Hno : forall e, exists s' o r,
    (let '(s1, p1, r) := (s, p, Err e : res unit) in
     let s' := set_progs s1 (add_program (s_progs s1) (t_pid k) (PPes p1)) in
     match r with
     | Ok _ => (s', [ts_on_packet TS_PROGRAM_PES (t_pusi k) (ts_bytes k)], Ok tt)
     | e => (s', [], e)
     end) = (s', o, r) /\
    (forall q, q <> t_pid k -> s_progs s' q = s_progs s q) /\
    map p_data o = (match r with Ok _ => [ts_bytes k] | _ => [] end) /\ r = Err e /\ s_queue s' = s_queue s /\ s_adts s' = s_adts s).
  { intros e. eexists _, _, _. split; [reflexivity|]. split; [intros q Hq; cbn [set_progs s_progs]; apply add_other, Hq|]. auto. }
  destruct u as [v|].
  - assert (Hv := Hu). destruct Hu as [Hp Hbs]. destruct Hp as (Q1 & Q2 & Q3 & Q4 & Q5 & Q6). rewrite Q6. cbn [negb]. rewrite andb_false_r.
    destruct (negb (t_cc k =? next_cc (ps_cc p))); [apply Hno|].
    destruct (t_pusi k =? 0).
    + assert (Hd : pending mem (set_cc p (t_cc k)) (un_len v) (un_pts v) (un_dts v) (un_es v)) by (apply pending_cc; destruct Hv; assumption).
      destruct (dump_ok _ _ _ _ _ _ _ _ _ Hm Hd Ha Hb) as [((V1 & V2) & ->)|(Hov & p' & -> & Pd & Td & Cd)].
      * unfold TS_DEFAULT_PES in V2. rewrite V1. destruct (Z.ltb_spec (2 ^ 20) (zlen (un_es v) + zlen (t_body k))); [|change (2 ^ 20) with 1048576 in *; lia]. cbn [Z.eqb andb].
        eexists _, _, _. split; [reflexivity|]. split; [intros q Hq; cbn [set_progs s_progs]; apply add_other, Hq|]. auto.
      * replace ((un_len v =? 0) && (2 ^ 20 <? zlen (un_es v) + zlen (t_body k))) with false.
        2:{ symmetry. apply andb_false_iff. destruct (Z.eqb_spec (un_len v) 0) as [V|V]; [right|left; reflexivity]. apply Z.ltb_ge. change (2 ^ 20) with TS_DEFAULT_PES.
            destruct (Z_le_dec (zlen (un_es v) + zlen (t_body k)) TS_DEFAULT_PES); [assumption|]. exfalso. apply Hov. split; [exact V|lia]. }
        eexists _, _, _. split; [reflexivity|]. split; [intros q Hq; cbn [set_progs s_progs]; apply add_other, Hq|]. split; [reflexivity|]. split; [reflexivity|]. split; [reflexivity|]. split; [reflexivity|].
        exists p'. cbn [set_progs s_progs]. rewrite add_same. split; [reflexivity|]. split; [exact Td|]. split; [exact Cd|]. cbn [holds un_len un_pts un_dts un_es]. split; [exact Pd|].
        apply clip_bytes. apply bytes_app. split; [exact Hbs|apply (al_bytes _ _ _ Ha)].
    + apply Hst; [reflexivity|reflexivity|]. cbn [holds]. split; [apply pending_cc; destruct Hv; assumption|exact Hbs].
  - cbn [holds] in Hu. rewrite Hu. cbn [negb]. rewrite andb_true_r. destruct (t_pusi k =? 0); [apply Hno|].
    destruct (negb (t_cc k =? next_cc (ps_cc p))); [apply Hno|]. apply Hst; [reflexivity|reflexivity|]. cbn [holds]. exact Hu.
Qed.

(** ** What the codec parsers can do *)
Lemma h264_never_outside ctx d : av_tb ctx <> 0 -> bytes d -> zlen d < 2 ^ 29 ->
  h264_encode_avc ctx (-1) d <> UB /\ h264_encode_avc ctx (-1) d <> Fuel.
Proof.
  intros Ht Hb Hl. unfold h264_encode_avc. pose proof (annexb_split_total d Hb Hl) as T.
  destruct (h264_decode d) as [ns| e| |]; cbn [bind]; try contradiction; [|split; discriminate].
  assert (F : Forall (fun n => bytes (n_buf n)) ns).
  { destruct T as [[_ ->]|(_ & lead & _ & -> & F)]; [constructor|]. clear - Hb. apply bytes_app in Hb as [_ Hb]. induction ns as [|n ns IH]; [constructor|].
    cbn [flat_map] in Hb. apply bytes_app in Hb as [H1 H2]. constructor; [|apply IH, H2]. unfold unit_bytes in H1. apply bytes_app in H1 as [_ H1]. exact H1. }
  rewrite (avc_conversion_exact ctx (-1) ns Ht (or_introl eq_refl) F). destruct (last_of is_sps ns) as [x|]; [destruct (zlen (n_buf x) <? 4)|]; split; discriminate.
Qed.
Lemma aac_outside ctx a d : av_tb ctx <> 0 -> bytes d -> zlen d < 2 ^ 60 ->
  let q := snd (aac_encode_avc ctx a d) in q <> Fuel /\ (q = UB <-> adts_outside d).
Proof.
  intros Ht Hb Hl. assert (exists cur, hdr_rep a cur) as (cur & Hc) by (destruct a as [x|]; [eexists (Some _); cbn; reflexivity|exists None; exact I]).
  destruct (adts_split_total ctx a cur d Ht Hc Hb Hl) as (fs & rest & extra & hdr' & r & E & F & A & D). rewrite A. cbn [snd].
  assert (Hback : adts_outside d -> r = UB).
  { intros (fs' & rest' & E' & F' & D'). clear E D. rewrite E' in Hb, Hl, A. pose proof (adts_bad_length_overreads ctx a cur fs' rest' Ht Hc F' D' Hb Hl) as U. rewrite A in U. exact U. }
  split.
  - destruct D as [(_ & _ & ->)|[(_ & _ & ->)|(_ & _ & ->)]]; discriminate.
  - split; [|exact Hback]. intros ->. destruct D as [(_ & _ & K)|[(_ & _ & K)|(K & _ & _)]]; try discriminate. exists fs, rest. auto.
Qed.
Lemma handed_outside mem p tp u a : mem_ok mem -> bytes mem -> holds mem p u ->
  let q := snd (handed mem tp u a) in
  q <> Fuel /\ (q = UB <-> tp = TS_STREAM_AAC /\ exists v, u = Some v /\ adts_outside (un_es v)).
Proof.
  intros Hm Hb Hh. destruct u as [v|]; cbn [handed].
  2:{ cbn [snd]. split; [discriminate|]. split; [discriminate|]. intros (_ & v & K & _). discriminate. }
  pose proof (held_len _ _ _ Hh) as Hl. destruct Hh as [(_ & _ & _ & L1 & L2 & _) Hbs]. unfold TS_DEFAULT_PES in Hl. pose proof (zlen_nonneg (un_es v)) as H0.
  destruct (Z.eqb_spec tp TS_STREAM_H264) as [E4|E4].
  - assert (Hcb : bytes (codec_bytes tp (un_len v) mem (un_es v)) /\ zlen (codec_bytes tp (un_len v) mem (un_es v)) < 2 ^ 29).
    { unfold codec_bytes. destruct (tp =? TS_STREAM_H264); [|split; [exact Hbs|lia]]. destruct (un_len v =? 0) eqn:E0.
      - split; [apply bytes_take, Hbs|]. pose proof (Z.mod_pos_bound (zlen (un_es v)) 65536 ltac:(lia)). rewrite zlen_take by lia. lia.
      - split; [apply bytes_app; split; [exact Hbs|apply bytes_drop, bytes_take, Hb]|]. rewrite zlen_app, zlen_drop by lia. rewrite zlen_take by lia. lia. }
    destruct (h264_never_outside (mkav (un_dts v) (un_pts v) 90) _ ltac:(discriminate) (proj1 Hcb) (proj2 Hcb)) as [N1 N2].
    assert (tp <> TS_STREAM_AAC) by (rewrite E4; discriminate).
    destruct (h264_encode_avc _ _ _); cbn [snd recast]; try congruence; (split; [discriminate|]; split; [discriminate|]; intros (K & _); congruence).
  - destruct (Z.eqb_spec tp TS_STREAM_AAC) as [E5|E5].
    + pose proof (aac_outside (mkav (un_dts v) (un_pts v) 90) a (un_es v) ltac:(discriminate) Hbs ltac:(lia)) as [A1 A2].
      destruct (aac_encode_avc _ _ _) as [[ps hdr] q]. cbn [snd] in *. split; [exact A1|]. rewrite A2. split.
      * intros K. split; [exact E5|]. exists v. auto.
      * intros (_ & v' & [= <-] & K). exact K.
    + cbn [snd]. split; [discriminate|]. split; [discriminate|]. intros (K & _). congruence.
Qed.

(** ** The service description *)
Lemma psi_service_every buf c start body f : al buf c body -> zlen buf <= 188 -> 0 <= start <= 1 ->
  let x := table_of service_table start body in
  exists f2, psi_decode PSdt start f c = (f2, ends x) /\ (x <> Overrun -> f2 = f).
Proof.
  intros Ha Hb Hs x. subst x. unfold table_of. destruct (Z.ltb_spec (zlen body) 8) as [H|H].
  { rewrite (psi_short _ _ _ _ _ _ Ha H). eexists. split; [reflexivity|]. reflexivity. }
  cbv zeta. destruct (Z.ltb_spec (zlen (drop start body)) 8) as [H8|H8].
  { rewrite (psi_edge _ _ _ _ _ _ Ha Hs H H8). eexists. split; [reflexivity|]. intros K. exfalso. apply K. reflexivity. }
  destruct (psi_head PSdt _ _ _ _ f Ha Hb Hs H8) as (c1 & Ha1 & ->). set (l := drop 8 (drop start body)) in *.
  assert (S : exists f' c' r, sdt_decode f c1 = (f', c', r) /\ r = ends (fst (service_table 0 l)) /\ (r <> UB -> f' = (fun f _ => f) f (fst (service_table 0 l)) /\ al buf c' (snd (service_table 0 l)))).
  { unfold sdt_decode, service_table. destruct (Z.ltb_spec (zlen l) 1) as [L|L].
    - rewrite (al_bits_UB _ _ _ 8 Ha1) by lia. eexists _, _, _. split; [reflexivity|]. split; [reflexivity|]. intros K. exfalso. apply K. reflexivity.
    - destruct (al_bits _ _ _ 8 1 Ha1) as (c2 & -> & Ha2); [lia|lia|lia|]. eexists _, _, _. split; [reflexivity|]. split; [reflexivity|]. intros _. split; [reflexivity|exact Ha2]. }
  destruct S as (f' & c' & r & -> & Hr & Hal). change (service_table (bev (take 8 (drop start body)) / 2 ^ 40 mod 2 ^ 12) l) with (service_table 0 l).
  exact (crc_ends buf c' (service_table 0 l) f f' r (fun f _ => f) Hr Hal).
Qed.

(** ** Reads outside, exactly *)
(** A packet that makes the demuxer read outside in state [s]. *)
Definition reads_outside (mem : list Z) (s : tsst) (k : tsp) : Prop :=
  match s_progs s (t_pid k) with
  | None => False
  | Some PPat => table_of assoc_table (t_pusi k) (t_body k) = Overrun
  | Some PPmt => table_of map_table (t_pusi k) (t_body k) = Overrun
  | Some PSdt => t_has k = true /\ table_of service_table (t_pusi k) (t_body k) = Overrun
  | Some (PPes p) => t_has k = true /\ ps_type p = TS_STREAM_AAC /\
      exists v b, holds mem p (Some v) /\ stream_step (ps_cc p) (Some v) k = Passed b /\ adts_outside (un_es v)
  end.
(** Every stream of the table holds a unit or none. *)
Definition all_hold (mem : list Z) (s : tsst) : Prop := forall q p, s_progs s q = Some (PPes p) -> exists u, holds mem p u.

Lemma held_same mem p v u : holds mem p (Some v) -> holds mem p u -> u = Some v.
Proof.
  destruct u as [w|]; cbn [holds].
  2:{ intros [(_ & _ & _ & _ & _ & E) _] E'. rewrite E' in E. discriminate. }
  intros [(A1 & A2 & A3 & _ & _ & A6) _] [(B1 & B2 & B3 & _ & _ & B6) _]. rewrite A6 in B6. injection B6 as M L _. destruct v as [l1 p1 d1 e1], w as [l2 p2 d2 e2]. cbn [un_len un_pts un_dts un_es] in *.
  assert (e1 = e2). { apply (f_equal (take (zlen e1))) in M. rewrite take_app_exact in M by reflexivity. rewrite L in M. rewrite take_app_exact in M by reflexivity. exact M. }
  subst. reflexivity.
Qed.
Lemma packet_outside mem s k : mem_ok mem -> bytes mem -> pk_fits k -> all_hold mem s ->
  let '(s', o, r) := ts_decode mem s (ts_bytes k) in
  r <> Fuel /\ (r = UB <-> reads_outside mem s k) /\ (r = Ok tt -> all_hold mem s').
Proof.
  intros Hm Hb Hf Hall. unfold reads_outside.
  assert (H01 : 0 <= t_pusi k <= 1) by (destruct (pusi_01 k (proj1 Hf)); lia).
  destruct (s_progs s (t_pid k)) as [pr|] eqn:Epr.
  2:{ destruct (ts_decode_fits mem s k Hf) as (c & Ha & Hbf & ->). unfold ts_after. rewrite Epr. split; [discriminate|]. split; [split; [discriminate|tauto]|]. intros _. exact Hall. }
  assert (Tbl : forall x f2, (x <> Overrun -> forall q p, f2 q = Some (PPes p) -> exists u, holds mem p u) ->
     let '(s', o, r) := match ends x with
       | Ok _ => (set_progs s f2, [ts_on_packet (prog_type pr) (t_pusi k) (ts_bytes k)], Ok tt)
       | _ => (set_progs s f2, [], ends x) end in
     r <> Fuel /\ (r = UB <-> x = Overrun) /\ (r = Ok tt -> all_hold mem s')).
  { intros x f2 H2. destruct x as [es| |]; cbn [ends]; (split; [discriminate|]); (split; [split; try discriminate; reflexivity|]); try discriminate.
    intros _ q p E. cbn [set_progs s_progs] in E. apply (H2 ltac:(discriminate) q p E). }
  assert (HA : forall l f, (forall q p, f q = Some (PPes p) -> exists u, holds mem p u) ->
     forall q p, fold_left (fun f pid => add_program f pid PPmt) l f q = Some (PPes p) -> exists u, holds mem p u).
  { induction l as [|x l IH]; intros f Hg; [exact Hg|]. cbn [fold_left]. apply IH. intros q p H. unfold add_program in H. destruct (q =? x); [discriminate|eauto]. }
  assert (HM : forall l f, (forall q p, f q = Some (PPes p) -> exists u, holds mem p u) ->
     forall q p, fold_left pmt_add l f q = Some (PPes p) -> exists u, holds mem p u).
  { induction l as [|x l IH]; intros f Hg; [exact Hg|]. cbn [fold_left]. apply IH. intros q p H. unfold pmt_add in H. destruct (_ || _); [|eauto].
    destruct (f (snd x)); [eauto|]. unfold add_program in H. destruct (q =? snd x); [injection H as <-; exists None; reflexivity|eauto]. }
  destruct pr as [| | |p].
  - destruct (ts_decode_fits mem s k Hf) as (c & Ha & Hbf & ->). unfold ts_after. rewrite Epr. change (is_section PPat) with true. rewrite andb_false_r. unfold ts_program.
    destruct (psi_assoc_every _ _ (t_pusi k) _ (s_progs s) Ha Hbf H01) as (f2 & -> & R). apply Tbl. intros Hx. rewrite (R Hx).
    destruct (table_of assoc_table (t_pusi k) (t_body k)) as [es| |]; cbn [reg_assoc]; [apply HA; exact Hall|exact Hall|exact Hall].
  - destruct (ts_decode_fits mem s k Hf) as (c & Ha & Hbf & ->). unfold ts_after. rewrite Epr. change (is_section PSdt) with false. cbn [negb]. rewrite andb_true_r.
    destruct (t_has k); cbn [negb].
    2:{ split; [discriminate|]. split; [split; [discriminate|intros (K & _); discriminate]|]. intros _. exact Hall. }
    unfold ts_program. destruct (psi_service_every _ _ (t_pusi k) _ (s_progs s) Ha Hbf H01) as (f2 & -> & R).
    pose proof (Tbl (table_of service_table (t_pusi k) (t_body k)) f2) as T. destruct (match ends _ with Ok _ => _ | _ => _ end) as [[s' o] r].
    destruct T as (T1 & T2 & T3); [intros Hx; rewrite (R Hx); exact Hall|]. split; [exact T1|]. split; [|exact T3]. rewrite T2. tauto.
  - destruct (ts_decode_fits mem s k Hf) as (c & Ha & Hbf & ->). unfold ts_after. rewrite Epr. change (is_section PPmt) with true. rewrite andb_false_r. unfold ts_program.
    destruct (psi_map_every _ _ (t_pusi k) _ (s_progs s) Ha Hbf H01) as (f2 & -> & R). apply Tbl. intros Hx. rewrite (R Hx).
    destruct (table_of map_table (t_pusi k) (t_body k)) as [es| |]; cbn [reg_map]; [apply HM; exact Hall|exact Hall|exact Hall].
  - destruct (t_has k) eqn:Hh.
    2:{ destruct (ts_decode_fits mem s k Hf) as (c & Ha & Hbf & ->). unfold ts_after. rewrite Epr, Hh. change (is_section (PPes p)) with false. cbn [negb andb].
        split; [discriminate|]. split; [split; [discriminate|intros (K & _); discriminate]|]. intros _. exact Hall. }
    destruct (Hall _ _ Epr) as (u & Hu). destruct (stream_every mem s k p u Hm Hf Hh Epr Hu) as (s' & o & r & -> & Ho & _ & D).
    assert (Hgo : forall u', carries_on mem s' k p u' -> all_hold mem s').
    { intros u' (p' & E1 & _ & _ & Hp') q p0 E0. destruct (Z.eq_dec q (t_pid k)) as [->|N]; [rewrite E1 in E0; injection E0 as <-; eauto|]. rewrite (Ho q N) in E0. eauto. }
    assert (Hrev : forall v b, holds mem p (Some v) -> stream_step (ps_cc p) (Some v) k = Passed b -> stream_step (ps_cc p) u k = Passed b /\ u = Some v).
    { intros v b Hv Hs. pose proof (held_same _ _ _ _ Hv Hu) as ->. auto. }
    destruct (stream_step (ps_cc p) u k) as [u'|e|b] eqn:Es.
    + destruct D as (-> & _ & _ & C). split; [discriminate|]. split; [|eauto]. split; [discriminate|]. intros (_ & _ & v & b & Hv & Hs & _). destruct (Hrev v b Hv Hs). discriminate.
    + destruct D as (-> & _). split; [discriminate|]. split; [|discriminate]. split; [discriminate|]. intros (_ & _ & v & b & Hv & Hs & _). destruct (Hrev v b Hv Hs). discriminate.
    + pose proof (handed_outside mem p (ps_type p) u (s_adts s) Hm Hb Hu) as [N1 N2].
      destruct (handed mem (ps_type p) u (s_adts s)) as [[ps a] q]. cbn [snd] in *. destruct D as (_ & _ & D).
      assert (N3 : q = UB <-> true = true /\ ps_type p = TS_STREAM_AAC /\ exists v b, holds mem p (Some v) /\ stream_step (ps_cc p) (Some v) k = Passed b /\ adts_outside (un_es v)).
      { rewrite N2. split.
        - intros (T & v & -> & A). split; [reflexivity|]. split; [exact T|]. exists v, b. auto.
        - intros (_ & T & v & b' & Hv & _ & A). split; [exact T|]. exists v. split; [apply (held_same _ _ _ _ Hv Hu)|exact A]. }
      rewrite <- N3. destruct q as [x|e| |]; [|subst r; split; [discriminate|split; [split; discriminate|discriminate]]|subst r; split; [discriminate|split; [tauto|discriminate]]|congruence].
      destruct D as (-> & C). destruct b as [u'| |]; cbn [begun_ends]; (split; [discriminate|]; split; [split; discriminate|]); try discriminate. intros _. eauto.
Qed.

(** ** Adaptation fields that do not fit *)
Lemma outside_facts k c : ts_ok k -> outside (ts_bytes k) c ->
  (forall n, 0 <= n < 2 ^ 29 -> bc_acquire c n = Ok tt) /\ (forall n, 0 < n -> read_bits c n = UB) /\ (forall n, bc_peek c n = UB).
Proof.
  intros Hk (B1 & B2 & B3). assert (L : zlen (ts_bytes k) = 188) by apply Hk.
  assert (Hp : bc_pos c = zlen (bc_buf c) - 1 + (bc_pos c - 187)) by (rewrite B1, L; lia).
  split; [apply (proj2 (out_size c (bc_pos c - 187) B2 Hp ltac:(lia)))|].
  split; [intros n Hn0; apply (out_read c (bc_pos c - 187) n B2 Hp ltac:(lia) Hn0)|intros n; apply (out_peek c (bc_pos c - 187) n B2 Hp ltac:(lia))].
Qed.
Lemma flush_fuel mem s p u : mem_ok mem -> bytes mem -> holds mem p u -> snd (pes_flush s p) <> Fuel.
Proof.
  intros Hm Hb Hu. destruct (flush_every mem s p u Hm Hu) as (s' & p1 & r & -> & _ & D). cbn [snd].
  pose proof (handed_outside mem p (ps_type p) u (s_adts s) Hm Hb Hu) as [N _]. destruct (handed _ _ _ _) as [[ps a] q]. cbn [snd] in N. destruct D as (_ & -> & _). exact N.
Qed.
Lemma misfit_step mem s k a : mem_ok mem -> bytes mem -> all_hold mem s -> ts_ok k -> t_af k = Some a -> ~ af_fits a ->
  let '(s', o, r) := ts_decode mem s (ts_bytes k) in r <> Fuel /\ (r = Ok tt -> s' = s /\ o = []).
Proof.
  intros Hm Hb Hall Hk Ea Hn. destruct (tsp_decode_misfit k a Hk Ea Hn) as [E|[E|(c & E & Ho)]].
  1,2: unfold ts_decode; rewrite E; split; discriminate.
  rewrite (ts_decode_ctx mem s k c E). destruct (outside_facts k c Hk Ho) as (Fa & Fr & Fp). unfold ts_after.
  destruct (s_progs s (t_pid k)) as [pr|] eqn:Epr; [|split; [discriminate|auto]].
  destruct (negb (t_has k) && negb (is_section pr)); [split; [discriminate|auto]|].
  assert (Hpsi : forall t, psi_decode t (t_pusi k) (s_progs s) c = (s_progs s, UB)).
  { intros t. unfold psi_decode. rewrite (Fa 8) by lia. cbn [bind]. destruct (t_pusi k =? 1); [rewrite (Fr 8) by lia; reflexivity|].
    cbn [bind read_fields]. rewrite (Fr 8) by lia. reflexivity. }
  unfold ts_program. destruct pr as [| | |p]; [rewrite Hpsi; split; discriminate..|].
  destruct (Hall _ _ Epr) as (u & Hu). unfold pes_decode. cbn [t_hdr th_pusi th_cc].
  destruct (ps_buf p) as [b|] eqn:Eb; cbn [negb]; [rewrite andb_false_r|rewrite andb_true_r; destruct (t_pusi k =? 0); [split; discriminate|]];
    (destruct (negb (t_cc k =? _)); [split; discriminate|]).
  - destruct (t_pusi k =? 0).
    + unfold pes_dump. cbn [set_cc ps_buf ps_len]. rewrite Eb. match goal with |- context [cb_remain b <? ?x] => set (left := x) end.
      destruct (cb_remain b <? left); [split; discriminate|]. rewrite Fp. split; discriminate.
    + assert (Hu' : holds mem (set_cc p (t_cc k)) u) by (destruct u as [v|]; cbn [holds] in *; [destruct Hu; split; [apply pending_cc|]; assumption|exact Hu]).
      pose proof (flush_fuel mem s _ u Hm Hb Hu') as N. unfold pes_start. rewrite (Fa 9) by lia. destruct (pes_flush s (set_cc p (t_cc k))) as [[s1 p1] r]. cbn [snd] in N.
      destruct r as [x|e| |]; [|split; discriminate|split; discriminate|congruence]. cbn [read_fields]. rewrite (Fr 24) by lia. split; discriminate.
  - assert (Hu' : holds mem (set_cc p (t_cc k)) u) by (destruct u as [v|]; cbn [holds] in *; [destruct Hu; split; [apply pending_cc|]; assumption|exact Hu]).
    pose proof (flush_fuel mem s _ u Hm Hb Hu') as N. unfold pes_start. rewrite (Fa 9) by lia. destruct (pes_flush s (set_cc p (t_cc k))) as [[s1 p1] r]. cbn [snd] in N.
    destruct r as [x|e| |]; [|split; discriminate|split; discriminate|congruence]. cbn [read_fields]. rewrite (Fr 24) by lia. split; discriminate.
Qed.

(** ** Any 188 bytes *)
Definition raw_fields (b0 b1 b2 b3 : Z) : list (Z * Z) :=
  [(b0, 8); (b1 / 128, 1); (b1 / 64 mod 2, 1); (b1 / 32 mod 2, 1); (b1 mod 32 * 256 + b2, 13); (b3 / 64, 2); (b3 / 16 mod 4, 2); (b3 mod 16, 4)].
Lemma raw_head b0 b1 b2 b3 : byte b0 -> byte b1 -> byte b2 -> byte b3 ->
  [b0; b1; b2; b3] = be 4 (pack (raw_fields b0 b1 b2 b3)) /\ fields_fit (raw_fields b0 b1 b2 b3) = true.
Proof.
  unfold byte. intros H0 H1 H2 H3. split.
  - apply be_eq; [unfold bytes; repeat (constructor; [assumption|]); constructor|reflexivity|]. unfold bev, pack, raw_fields. cbn [fold_left fst snd].
    change (2 ^ 8) with 256. change (2 ^ 1) with 2. change (2 ^ 13) with 8192. change (2 ^ 2) with 4. change (2 ^ 4) with 16. lia.
  - unfold fields_fit, raw_fields. cbn [forallb fst snd]. change (2 ^ 8) with 256. change (2 ^ 1) with 2. change (2 ^ 13) with 8192. change (2 ^ 2) with 4. change (2 ^ 4) with 16.
    repeat (apply andb_true_intro; split); try reflexivity; first [apply Z.leb_le|apply Z.ltb_lt]; lia.
Qed.
Lemma block_cases mem s d : bytes d -> zlen d = 188 ->
  (nth 0 d 0 <> 0x47 /\ ts_decode mem s d = (s, [], Err ERROR_TS_PACKET_DECODE)) \/
  (nth 0 d 0 = 0x47 /\ nth 3 d 0 / 32 mod 2 = 1 /\ 183 < nth 4 d 0 /\ ts_decode mem s d = (s, [], Err ERROR_IO_NOT_ENOUGH)) \/
  (nth 0 d 0 = 0x47 /\ exists k, ts_ok k /\ d = ts_bytes k).
Proof.
  intros Hb Hl. destruct d as [|b0 [|b1 [|b2 [|b3 X]]]]; try (exfalso; cbn in Hl; lia).
  assert (HX : zlen X = 184) by (rewrite !zlen_cons in Hl; lia).
  assert (B : byte b0 /\ byte b1 /\ byte b2 /\ byte b3 /\ bytes X).
  { inversion Hb as [|? ? B0 Q0]; inversion Q0 as [|? ? B1 Q1]; inversion Q1 as [|? ? B2 Q2]; inversion Q2 as [|? ? B3 Q3]. auto 6. }
  destruct B as (B0 & B1 & B2 & B3 & BX). destruct (raw_head b0 b1 b2 b3 B0 B1 B2 B3) as (Eh & Fit).
  change (b0 :: b1 :: b2 :: b3 :: X) with ([b0; b1; b2; b3] ++ X) in *.
  set (d := [b0; b1; b2; b3] ++ X) in *. change (nth 0 d 0) with b0. change (nth 3 d 0) with b3. change (nth 4 d 0) with (nth 0 X 0).
  assert (Ha : al d (bc_init d) d) by (apply al_init; [assumption|lia]).
  assert (Head : exists c1 c, read_bits (bc_init d) 8 = Ok (b0, c1) /\
     read_fields c1 [1; 1; 1; 13; 2; 2; 4] = Ok ([b1 / 128; b1 / 64 mod 2; b1 / 32 mod 2; b1 mod 32 * 256 + b2; b3 / 64; b3 / 16 mod 4; b3 mod 16], c) /\ al d c X).
  { assert (Ha' := Ha). unfold d in Ha' at 3. rewrite Eh in Ha'. destruct (al_packed _ _ _ _ _ Ha') as (c & E & Hc); [reflexivity|exact Fit|reflexivity|].
    cbn [raw_fields map fst snd] in E. apply read_fields_cons_inv in E as (c1 & E1 & E2). exists c1, c. auto. }
  destruct Head as (c1 & c & E1 & E2 & Hc).
  assert (Eacq : bc_acquire (bc_init d) SPS_TS_PACKET_SIZE = Ok tt) by (apply (al_acquire_ok _ _ _ _ Ha); unfold SPS_TS_PACKET_SIZE; lia).
  destruct (Z.eq_dec b0 0x47) as [->|N].
  2:{ left. split; [exact N|]. unfold ts_decode, tsp_decode. rewrite Eacq, E1. cbn [bind fst snd]. destruct (Z.eqb_spec b0 0x47); [contradiction|]. reflexivity. }
  right. destruct (Z.eq_dec (b3 / 32 mod 2) 1) as [Haf|Haf].
  - destruct X as [|n Y]; [cbn in HX; lia|]. cbn [nth]. inversion BX as [|? ? Bn BY]; subst.
    destruct (Z_lt_dec 183 n) as [Hn|Hn].
    + left. split; [reflexivity|]. split; [exact Haf|]. split; [exact Hn|]. unfold ts_decode, tsp_decode. rewrite Eacq, E1. cbn [bind fst snd Z.eqb Pos.eqb negb]. rewrite E2. cbn [bind fst snd]. unfold fld; cbn [nth th_afc].
      replace (0 <? Z.land (b3 / 16 mod 4) 2) with true.
      2:{ unfold byte in B3. assert (b3 / 16 mod 4 = 2 \/ b3 / 16 mod 4 = 3) as [-> | ->] by lia; reflexivity. }
      unfold af_decode. rewrite zlen_cons in HX. rewrite (al_acquire_ok _ _ _ 1 Hc) by (rewrite ?zlen_cons; lia). cbn [bind].
      destruct (al_bits _ _ _ 8 1 Hc) as (c2 & E3 & Hc2); [lia|lia|rewrite zlen_cons; lia|]. rewrite E3. cbn [bind fst snd].
      rewrite (bval_take_bytes 1) by (assumption || (rewrite zlen_cons; lia) || lia). change (take 1 (n :: Y)) with [n]. replace (bev [n]) with n by (unfold bev; cbn [fold_left]; lia).
      destruct (Z.leb_spec n 0); [lia|]. change (drop 1 (n :: Y)) with Y in Hc2. unfold byte in Bn. rewrite (al_acquire_no _ _ _ n Hc2) by lia. reflexivity.
    + right. split; [reflexivity|]. rewrite zlen_cons in HX. unfold byte in Bn.
      exists (mktsp (b1 / 128) (b1 / 64 mod 2) (b1 / 32 mod 2) (b1 mod 32 * 256 + b2) (b3 / 64) (b3 mod 16) (Some (take n Y)) (b3 / 16 mod 2 =? 1) (drop n Y)).
      match goal with |- ts_ok ?k /\ _ => set (kk := k) end.
      assert (Ef : t_fields kk = raw_fields 0x47 b1 b2 b3).
      { unfold t_fields, raw_fields, t_afc, kk. cbn [t_tei t_pusi t_prio t_pid t_scr t_cc t_af t_has]. do 8 f_equal. unfold byte in B3.
        destruct (Z.eqb_spec (b3 / 16 mod 2) 1); lia. }
      assert (Ek : d = ts_bytes kk).
      { unfold ts_bytes. rewrite Ef, <- Eh. unfold d. f_equal. unfold af_bytes, kk. cbn [t_af t_body app]. rewrite zlen_take by lia. rewrite Z.min_l by lia. f_equal. apply split_take. }
      split; [|exact Ek]. split; [rewrite Ef; exact Fit|]. rewrite <- Ek. auto.
  - right. split; [reflexivity|].
    exists (mktsp (b1 / 128) (b1 / 64 mod 2) (b1 / 32 mod 2) (b1 mod 32 * 256 + b2) (b3 / 64) (b3 mod 16) None (b3 / 16 mod 2 =? 1) X).
    match goal with |- ts_ok ?k /\ _ => set (kk := k) end.
    assert (Ef : t_fields kk = raw_fields 0x47 b1 b2 b3).
    { unfold t_fields, raw_fields, t_afc, kk. cbn [t_tei t_pusi t_prio t_pid t_scr t_cc t_af t_has]. do 8 f_equal. unfold byte in B3.
      destruct (Z.eqb_spec (b3 / 16 mod 2) 1); lia. }
    assert (Ek : d = ts_bytes kk).
    { unfold ts_bytes. rewrite Ef, <- Eh. reflexivity. }
    split; [|exact Ek]. split; [rewrite Ef; exact Fit|]. rewrite <- Ek. auto.
Qed.
