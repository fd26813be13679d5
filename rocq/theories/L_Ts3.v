(** TS lemmas: reassembly and the program table. *)
From Verif Require Import Base M_Bits S_Bits L_Bits M_Fields L_Align S_Fields L_Pack M_Packet M_Cache L_Cache
  M_H264 M_AAC L_Rtp M_Ts S_Ts L_Ts L_Ts2.

(** A unit under assembly: declared length, stamps and the bytes so far. *)
Definition capacity (len : Z) : Z := if 0 <? len then len else TS_DEFAULT_PES.
Definition pending (mem : list Z) (p : pesst) (len pts dts : Z) (es : list Z) : Prop :=
  ps_len p = len /\ ps_pts p = pts /\ ps_dts p = dts /\ 0 <= len < 65536 /\ zlen es <= capacity len /\
  ps_buf p = Some (mkcb (es ++ drop (zlen es) (take (capacity len) mem)) (zlen es) 0 (capacity len)).
Definition mem_ok (mem : list Z) : Prop := TS_DEFAULT_PES <= zlen mem.

Lemma capacity_range len : 0 <= len < 65536 -> 0 < capacity len <= TS_DEFAULT_PES.
Proof. unfold capacity, TS_DEFAULT_PES. destruct (Z.ltb_spec 0 len); lia. Qed.
Lemma init_pending mem p len : mem_ok mem -> 0 <= len < 65536 ->
  pending mem (pes_init mem p len) len (-1) (-1) [] /\ ps_type (pes_init mem p len) = ps_type p /\ ps_cc (pes_init mem p len) = ps_cc p.
Proof.
  intros Hm Hl. pose proof (capacity_range len Hl) as Hc. unfold pending, pes_init. cbn [ps_len ps_pts ps_dts ps_buf ps_type ps_cc].
  split; [|auto]. split; [reflexivity|]. split; [reflexivity|]. split; [reflexivity|]. split; [lia|].
  change (zlen (@nil Z)) with 0. split; [lia|]. unfold cb_new. fold (capacity len). cbn [app].
  rewrite drop_0 by lia. unfold TS_DEFAULT_PES in *. rewrite Z.add_0_r. unfold u32. rewrite Z.mod_small by lia. reflexivity.
Qed.
Lemma pending_ts mem p len pts dts pts' dts' es : pending mem p len pts dts es ->
  pending mem (set_ts p pts' dts') len pts' dts' es.
Proof. intros (H1 & H2 & H3 & H4 & H5 & H6). unfold pending, set_ts; cbn. auto 10. Qed.
Lemma pending_cc mem p len pts dts cc es : pending mem p len pts dts es -> pending mem (set_cc p cc) len pts dts es.
Proof. intros (H1 & H2 & H3 & H4 & H5 & H6). unfold pending, set_cc; cbn. auto 10. Qed.

Definition clip_len (len : Z) (l : list Z) : list Z := if len =? 0 then l else take len l.
Definition overflow (len : Z) (es rest : list Z) : Prop := len = 0 /\ TS_DEFAULT_PES < zlen es + zlen rest.
Lemma dump_ok mem p len pts dts es buf c rest : mem_ok mem -> pending mem p len pts dts es -> al buf c rest -> zlen buf <= 188 ->
  (overflow len es rest /\ pes_dump p c = (p, Err ERROR_TS_PACKET_DECODE)) \/
  (~ overflow len es rest /\ exists p', pes_dump p c = (p', Ok tt) /\ pending mem p' len pts dts (clip_len len (es ++ rest)) /\
     ps_type p' = ps_type p /\ ps_cc p' = ps_cc p).
Proof.
  intros Hm (E1 & E2 & E3 & Hl & Hes & Eb) Ha Hbuf. pose proof (al_le _ _ _ Ha) as Hle.
  pose proof (zlen_nonneg es) as H0. pose proof (zlen_nonneg rest) as H0'.
  pose proof (capacity_range len Hl) as Hc. unfold pes_dump. rewrite Eb. cbn [cb_len]. rewrite (al_size _ _ _ Ha), E1.
  unfold cb_remain; cbn [cb_cap cb_len]. assert (Hcr : u32 (capacity len - zlen es) = capacity len - zlen es).
  { unfold u32. unfold TS_DEFAULT_PES in *. rewrite Z.mod_small by lia. reflexivity. }
  rewrite Hcr.
  assert (Happ : forall n, 0 <= n <= zlen rest -> n <= capacity len - zlen es ->
    (let? d := bc_peek c n in cb_append (mkcb (es ++ drop (zlen es) (take (capacity len) mem)) (zlen es) 0 (capacity len)) d) =
    Ok (mkcb ((es ++ take n rest) ++ drop (zlen (es ++ take n rest)) (take (capacity len) mem)) (zlen (es ++ take n rest)) 0 (capacity len))).
  { intros n Hn Hn2. rewrite (al_peek _ _ _ n Ha) by lia. cbn [bind].
    assert (Hz : zlen (take n rest) = n) by (rewrite zlen_take; lia).
    unfold cb_append, cb_remain. cbn [cb_cap cb_len cb_mem cb_head]. rewrite Hcr, Hz.
    destruct (Z.ltb_spec (capacity len - zlen es) n); [lia|].
    unfold mem_ok in Hm. assert (Hcm : zlen (take (capacity len) mem) = capacity len) by (rewrite zlen_take; lia).
    rewrite slice_some by (try rewrite zlen_app, zlen_drop by lia; lia). cbn [of_opt bind].
    rewrite take_app_exact by reflexivity. f_equal.
    rewrite zlen_app, Hz. unfold u32, TS_DEFAULT_PES in *. rewrite Z.mod_small by lia. f_equal.
    rewrite <- app_assoc. f_equal. f_equal.
    rewrite drop_app_ge by lia. rewrite drop_drop by lia. f_equal. lia. }
  destruct (Z.ltb_spec 0 len) as [Hpos|Hzero].
  - right. split; [unfold overflow; lia|]. unfold capacity in *. destruct (Z.ltb_spec 0 len); [|lia].
    unfold u64. rewrite Z.mod_small by lia.
    destruct (Z.ltb_spec (len - zlen es) (Z.min (len - zlen es) (zlen rest))); [lia|].
    rewrite Happ by lia. eexists. split; [reflexivity|]. unfold set_buf. cbn [ps_type ps_cc]. split; [|auto].
    unfold clip_len. destruct (Z.eqb_spec len 0); [lia|].
    replace (take len (es ++ rest)) with (es ++ take (Z.min (len - zlen es) (zlen rest)) rest).
    2:{ rewrite take_app_ge by lia. f_equal. destruct (Z_le_dec (len - zlen es) (zlen rest)).
        - rewrite Z.min_l by lia. reflexivity.
        - rewrite Z.min_r by lia. rewrite !take_all by lia. reflexivity. }
    unfold pending. cbn [ps_len ps_pts ps_dts ps_buf]. repeat (split; [auto; lia|]).
    unfold capacity. destruct (Z.ltb_spec 0 len); [|lia]. split; [|reflexivity].
    rewrite zlen_app, zlen_take; lia.
  - assert (len = 0) as -> by lia. unfold capacity in *. cbn [Z.ltb Z.compare] in *.
    destruct (Z.ltb_spec (TS_DEFAULT_PES - zlen es) (zlen rest)).
    + left. split; [unfold overflow; lia|reflexivity].
    + right. split; [unfold overflow; lia|]. rewrite Happ by lia. rewrite take_all by lia.
      eexists. split; [reflexivity|]. unfold set_buf. cbn [ps_type ps_cc]. split; [|auto].
      unfold clip_len. cbn [Z.eqb]. unfold pending. cbn [ps_len ps_pts ps_dts ps_buf]. repeat (split; [auto; lia|]).
      unfold capacity. cbn [Z.ltb Z.compare]. split; [|reflexivity]. rewrite zlen_app. lia.
Qed.

(** ** Completion of a unit *)
Definition codec_bytes (tp len : Z) (mem es : list Z) : list Z :=
  if tp =? TS_STREAM_H264
  then if len =? 0 then take (zlen es mod 65536) es else es ++ drop (zlen es) (take len mem)
  else es.
(** What handing over a unit does: [s'] is the state afterwards. *)
Definition unit_done (tp len pts dts : Z) (mem es : list Z) (s s' : tsst) (r : res unit) : Prop :=
  let ctx := mkav dts pts 90 in
  let d := codec_bytes tp len mem es in
  if tp =? TS_STREAM_H264 then
    s_adts s' = s_adts s /\
    match h264_encode_avc ctx (-1) d with
    | Ok ps => r = Ok tt /\ s_queue s' = s_queue s ++ ps
    | e => r = recast e /\ s_queue s' = s_queue s
    end
  else if tp =? TS_STREAM_AAC then
    let '(ps, hdr, q) := aac_encode_avc ctx (s_adts s) d in
    s_adts s' = hdr /\ r = q /\ s_queue s' = s_queue s ++ (match q with Ok _ => ps | _ => [] end)
  else s_adts s' = s_adts s /\ s_queue s' = s_queue s /\ r = Ok tt.

Lemma flush_ok mem s p len pts dts es : mem_ok mem -> pending mem p len pts dts es ->
  exists s' r, pes_flush s p = (s', pes_reset p, r) /\ s_progs s' = s_progs s /\
    unit_done (ps_type p) len pts dts mem es s s' r.
Proof.
  intros Hm (E1 & E2 & E3 & Hl & Hes & Eb). pose proof (zlen_nonneg es) as H0. pose proof (capacity_range len Hl) as Hc.
  unfold pes_flush. rewrite Eb, E1. unfold on_pes_complete. rewrite E2, E3. unfold unit_done, codec_bytes. cbn [cb_len cb_mem cb_head].
  assert (Hcm : zlen (take (capacity len) mem) = capacity len) by (unfold mem_ok in Hm; rewrite zlen_take; lia).
  destruct (Z.eqb_spec (ps_type p) TS_STREAM_H264) as [Et|Et].
  - set (L := if len =? 0 then u16 (zlen es) else len).
    replace (of_opt (slice (es ++ drop (zlen es) (take (capacity len) mem)) 0 L)) with
      (Ok (if len =? 0 then take (zlen es mod 65536) es else es ++ drop (zlen es) (take len mem))).
    2:{ unfold L. pose proof (Z.mod_pos_bound (zlen es) 65536 ltac:(lia)) as Hmod.
        pose proof (Z.mod_le (zlen es) 65536 H0 ltac:(lia)) as Hmle.
        destruct (Z.eqb_spec len 0) as [Z0|Z0]; unfold u16; change (2 ^ 16) with 65536.
        - rewrite slice_some by (try rewrite zlen_app, zlen_drop by lia; lia). cbn [of_opt]. rewrite drop_0 by lia.
          rewrite take_app_le by lia. reflexivity.
        - assert (Ecap : capacity len = len) by (unfold capacity; destruct (Z.ltb_spec 0 len); lia). rewrite Ecap in *.
          assert (Hz : zlen (es ++ drop (zlen es) (take len mem)) = len) by (rewrite zlen_app, zlen_drop by lia; lia).
          rewrite slice_some by lia. change (drop 0 (es ++ drop (zlen es) (take len mem))) with (es ++ drop (zlen es) (take len mem)). rewrite (take_all len (es ++ _)) by lia. reflexivity. }
    cbn [bind].
    destruct (h264_encode_avc _ _ _) as [ps|e| |]; eexists _, _; (split; [reflexivity|]); cbn [s_progs s_adts s_queue recast]; auto.
  - destruct (Z.eqb_spec (ps_type p) TS_STREAM_AAC) as [Et2|Et2].
    + unfold cb_contents. cbn [cb_len cb_mem cb_head].
      rewrite slice_some by (try rewrite zlen_app, zlen_drop by lia; lia). cbn [of_opt]. rewrite drop_0 by lia.
      rewrite take_app_exact by reflexivity.
      destruct (aac_encode_avc _ _ _) as [[ps hdr] q]. destruct q as [[]|e| |]; eexists _, _; (split; [reflexivity|]);
        cbn [s_progs s_adts s_queue recast]; rewrite ?app_nil_r; auto.
    + eexists _, _. split; [reflexivity|]. auto.
Qed.

(** ** A unit start *)
Lemma head_split u d : pes_head u ++ d = [0; 0; 1; pu_sid u] ++ be 2 (pu_len u) ++ (pu_f1 u :: pu_f2 u :: zlen (pu_hdr u) :: pu_hdr u ++ d).
Proof. unfold pes_head. rewrite <- !app_assoc. reflexivity. Qed.
Definition unit_fields (u : pesu) : list (Z * Z) := [(1, 24); (pu_sid u, 8); (pu_len u, 16)].
Lemma unit_prefix u : byte (pu_sid u) -> 0 <= pu_len u < 65536 ->
  [0; 0; 1; pu_sid u] ++ be 2 (pu_len u) = be 6 (pack (unit_fields u)).
Proof.
  intros Hs Hl. unfold byte in Hs.
  assert (Hb : bytes ([0; 0; 1; pu_sid u] ++ be 2 (pu_len u))).
  { apply bytes_app. split; [|apply be_bytes]. unfold bytes. repeat (constructor; [unfold byte; lia|]). constructor. }
  rewrite <- (be_bev _ Hb). rewrite app_length, be_length. f_equal.
  rewrite bev_app, bev_be, zlen_be. unfold bev; cbn [fold_left].
  unfold unit_fields, pack; cbn [fold_left fst snd]. change (256 ^ Z.of_nat 2) with 65536.
  rewrite (Z.mod_small (pu_len u)) by lia. change (2 ^ 24) with 16777216. change (2 ^ 8) with 256. change (2 ^ 16) with 65536.
  lia.
Qed.
Lemma opt_len_app h d flag m o n : opt_len h flag m o = Some n -> opt_len (h ++ d) flag m o = Some n.
Proof.
  unfold opt_len. destruct (flag =? 0); [auto|]. destruct (nthz h o) as [x|] eqn:E; [|discriminate].
  pose proof (nthz_some_range _ _ _ E). rewrite nthz_app_l by lia. rewrite E. auto.
Qed.
Lemma opt_size_app f h d n : opt_size f h = Some n -> opt_size f (h ++ d) = Some n.
Proof.
  rewrite !opt_size_ext. unfold ext_end. destruct (bit f 0 =? 0); [auto|].
  destruct (nthz h (opt_fixed f)) as [e|] eqn:E; [|discriminate].
  pose proof (nthz_some_range _ _ _ E). rewrite nthz_app_l by lia. rewrite E.
  destruct (opt_len h (bit e 6) 256 _) as [o|] eqn:E2; [|discriminate].
  rewrite (opt_len_app _ d _ _ _ _ E2). apply opt_len_app.
Qed.
Lemma opt_fixed_stamps f n h : opt_size f h = Some n -> n <= zlen h ->
  (bit f 7 = 1 -> 5 <= zlen h) /\ (bit f 7 * bit f 6 = 1 -> 10 <= zlen h).
Proof.
  intros E Hn. rewrite opt_size_ext in E. apply ext_end_ge in E. unfold opt_fixed in E.
  pose proof (tail_sum_range f) as T. unfold tail_sum in T. pose proof (bit_01 f 7). pose proof (bit_01 f 6).
  assert (0 <= bit f 7 * bit f 6) by (apply Z.mul_nonneg_nonneg; lia). split; intros E'; rewrite E' in *; try lia.
Qed.
Lemma x_stamps u d : pu_ok u -> x_pts (pu_f2 u) (pu_hdr u ++ d) = pu_pts u /\ x_dts (pu_f2 u) (pu_hdr u ++ d) = pu_dts u.
Proof.
  intros (_ & _ & _ & _ & _ & _ & _ & n & E & Hn). destruct (opt_fixed_stamps _ _ _ E Hn) as [H5 H10].
  assert (Ep : x_pts (pu_f2 u) (pu_hdr u ++ d) = pu_pts u).
  { unfold x_pts, pu_pts. destruct (Z.eqb_spec (bit (pu_f2 u) 7) 1) as [E7|]; [|reflexivity].
    rewrite take_app_le by (specialize (H5 E7); lia). reflexivity. }
  split; [exact Ep|]. unfold x_dts, pu_dts. rewrite Ep.
  destruct (Z.eqb_spec (bit (pu_f2 u) 7 * bit (pu_f2 u) 6) 1) as [E7|]; [|reflexivity].
  specialize (H10 E7). rewrite drop_app_le, take_app_le by (try rewrite zlen_drop by lia; lia). reflexivity.
Qed.

Definition start_result (mem : list Z) (p : pesst) (u : pesu) (d0 : list Z) (p' : pesst) : Prop :=
  pending mem p' (pu_len u) (pu_pts u) (pu_dts u) (clip_len (pu_len u) d0) /\
  ps_type p' = ps_type p /\ ps_cc p' = ps_cc p.
Lemma flush_keeps s p : ps_type (snd (fst (pes_flush s p))) = ps_type p /\ ps_cc (snd (fst (pes_flush s p))) = ps_cc p.
Proof.
  unfold pes_flush. destruct (ps_buf p) as [b|]; [|auto].
  destruct (on_pes_complete s p _ b) as [s' r]. split; reflexivity.
Qed.
Lemma start_ok mem s p u d0 buf c : mem_ok mem -> al buf c (pes_head u ++ d0) -> zlen buf <= 188 -> pu_ok u ->
  exists p', start_result mem p u d0 p' /\
    pes_start mem s p c =
      match snd (pes_flush s p) with
      | Ok _ => (fst (fst (pes_flush s p)), p', Ok tt)
      | e => (fst (fst (pes_flush s p)), snd (fst (pes_flush s p)), e)
      end.
Proof.
  intros Hm Ha Hb Hu. assert (Hu' := Hu). destruct Hu' as (Hs & Hns & Hl & H1 & H2 & Hh & Hh2 & n & En & Hn).
  pose proof (zlen_nonneg (pu_hdr u)) as Z0. pose proof (zlen_nonneg d0) as Z1.
  rewrite head_split, app_assoc, unit_prefix in Ha by assumption.
  pose proof (al_le _ _ _ Ha) as Hle. rewrite zlen_app, zlen_be, !zlen_cons, zlen_app in Hle.
  assert (Hlen : 9 <= zlen (be 6 (pack (unit_fields u)) ++ pu_f1 u :: pu_f2 u :: zlen (pu_hdr u) :: pu_hdr u ++ d0)).
  { rewrite zlen_app, zlen_be, !zlen_cons, zlen_app. lia. }
  unfold pes_start. rewrite (al_acquire_ok _ _ _ 9 Ha) by lia.
  destruct (al_fields _ _ _ [24; 8; 16] 6 Ha) as (c1 & E1 & Ha1); [reflexivity|reflexivity|lia|].
  change [24; 8; 16] with (map snd (unit_fields u)) in E1 at 2.
  assert (Hfit : fields_fit (unit_fields u) = true).
  { unfold fields_fit, unit_fields. cbn [forallb fst snd]. unfold byte in Hs. change (2 ^ 24) with 16777216. change (2 ^ 8) with 256.
    change (2 ^ 16) with 65536. lia. }
  rewrite (fields_packed 6 (unit_fields u)) in E1 by (assumption || reflexivity). cbn [unit_fields map fst] in E1.
  rewrite drop_app_exact in Ha1 by (rewrite zlen_be; reflexivity).
  pose proof (flush_keeps s p) as [K1 K2].
  destruct (pes_flush s p) as [[s1 p1] r]. cbn [fst snd] in *.
  destruct (init_pending mem p1 (pu_len u) Hm Hl) as (P0 & T0 & C0).
  destruct (pes_header_ok _ _ _ _ _ _ Ha1 Hb) as [(_ & c2 & E2 & Ha2)|(Hno & _)].
  2:{ exfalso. apply Hno. exists n. rewrite (opt_size_app _ _ d0 _ En). rewrite zlen_app. split; [reflexivity|]. lia. }
  destruct (x_stamps u d0 Hu) as [Xp Xd]. rewrite Xp, Xd in E2.
  rewrite drop_app_exact in Ha2 by reflexivity.
  pose proof (pending_ts _ _ _ _ _ (pu_pts u) (pu_dts u) _ P0) as P1.
  destruct (dump_ok _ _ _ _ _ _ _ _ _ Hm P1 Ha2 Hb) as [(Hov & _)|(_ & p' & Ed & Pd & Td & Cd)].
  { exfalso. unfold overflow, TS_DEFAULT_PES in Hov. change (zlen (@nil Z)) with 0 in Hov. lia. }
  exists p'. split.
  { unfold start_result. cbn [app] in Pd. cbn [set_ts ps_type ps_cc] in Td, Cd. split; [exact Pd|]. split; congruence. }
  destruct r as [x|e| |]; try reflexivity.
  rewrite E1. unfold fld; cbn [nth]. cbn [Z.eqb Pos.eqb negb].
  destruct (Z.eqb_spec (pu_sid u) 0xbe) as [E|_]; [exfalso; apply Hns; rewrite E; unfold bare_sids; cbn; tauto|].
  replace (plain_sid (pu_sid u)) with false.
  2:{ symmetry. unfold plain_sid. apply Bool.not_true_is_false. intros Hx. apply existsb_exists in Hx as (x' & Hin & Ex).
      apply Z.eqb_eq in Ex. subst x'. apply Hns. unfold bare_sids. cbn in Hin |- *. tauto. }
  rewrite E2. cbn [fst snd]. rewrite Ed. reflexivity.
Qed.

(** ** The program table *)
Lemma add_same f q pr : add_program f q pr q = Some pr.
Proof. unfold add_program. rewrite Z.eqb_refl. reflexivity. Qed.
Lemma add_other f q pr x : x <> q -> add_program f q pr x = f x.
Proof. intros H. unfold add_program. destruct (Z.eqb_spec x q); [contradiction|reflexivity]. Qed.

(** A pid with a program keeps it, or the program association table turns it
    into a program map. *)
Definition keeps (f f' : progs) : Prop := forall q pr, f q = Some pr -> f' q = Some pr \/ f' q = Some PPmt.
Lemma keeps_refl f : keeps f f.
Proof. intros q pr H. auto. Qed.
Lemma keeps_trans f g h : keeps f g -> keeps g h -> keeps f h.
Proof. intros H1 H2 q pr H. destruct (H1 q pr H) as [E|E]; destruct (H2 q _ E) as [E'|E']; auto. Qed.
Lemma keeps_pat pids : forall f, keeps f (fold_left (fun f pid => add_program f pid PPmt) pids f).
Proof.
  induction pids as [|x pids IH]; intros f; [apply keeps_refl|]. cbn [fold_left].
  eapply keeps_trans; [|apply IH]. intros q pr H. unfold add_program. destruct (q =? x); auto.
Qed.
Definition same (f f' : progs) : Prop := forall q pr, f q = Some pr -> f' q = Some pr.
Lemma same_pmt l : forall f, same f (fold_left pmt_add l f).
Proof.
  induction l as [|x l IH]; intros f q pr H; cbn [fold_left]; [exact H|]. apply IH.
  unfold pmt_add. destruct (_ || _); [|exact H]. destruct (f (snd x)) eqn:E; [exact H|].
  rewrite add_other; [exact H|]. intros ->. congruence.
Qed.
Lemma same_keeps f f' : same f f' -> keeps f f'.
Proof. intros H q pr E. left. auto. Qed.
Lemma pat_decode_keeps slen f c : keeps f (fst (fst (pat_decode slen f c))).
Proof.
  unfold pat_decode. destruct (if 0 <? slen - 5 - 4 then _ else _) as [[pids c1]| | |]; cbn [fst]; try apply keeps_refl. apply keeps_pat.
Qed.
Lemma pmt_decode_same slen f c : same f (fst (fst (pmt_decode slen f c))).
Proof.
  unfold pmt_decode. destruct (bind (bc_acquire c 4) _) as [[v c1]| | |]; cbn [fst]; try (intros ? ?; auto; fail).
  destruct (if 0 <? fld v 4 then _ else _) as [c2| | |]; cbn [fst]; try (intros ? ?; auto; fail).
  destruct (pmt_loop _ c2 _) as [[l| | |] c3]; cbn [fst]; try (intros ? ?; auto; fail). apply same_pmt.
Qed.
Lemma sdt_decode_same f c : fst (fst (sdt_decode f c)) = f.
Proof. unfold sdt_decode. destruct (read_bits c 8) as [[? ?]| | |]; reflexivity. Qed.
Lemma psi_decode_table tbl pusi f c : fst (psi_decode tbl pusi f c) = f \/ exists c1 slen,
  fst (psi_decode tbl pusi f c) = fst (fst (match tbl with PPat => pat_decode slen f c1 | PPmt => pmt_decode slen f c1 | _ => sdt_decode f c1 end)).
Proof.
  unfold psi_decode. destruct (bind (bc_acquire c 8) _) as [[v c1]| | |]; cbn [fst]; auto. right. exists c1, (fld v 4).
  destruct (match tbl with PPat => _ | _ => _ end) as [[f' c2] r]. cbn [fst].
  destruct r; try reflexivity; destruct (read_bits c2 32); reflexivity.
Qed.
Lemma psi_decode_keeps tbl pusi f c : keeps f (fst (psi_decode tbl pusi f c)).
Proof.
  destruct (psi_decode_table tbl pusi f c) as [->|(c1 & slen & ->)]; [apply keeps_refl|].
  destruct tbl; try (rewrite sdt_decode_same; apply keeps_refl); [apply pat_decode_keeps|].
  apply same_keeps, pmt_decode_same.
Qed.
Lemma on_pes_progs s p len b : s_progs (fst (on_pes_complete s p len b)) = s_progs s.
Proof.
  unfold on_pes_complete. destruct (_ =? _).
  - destruct (let? d := _ in _); reflexivity.
  - destruct (_ =? _); [|reflexivity]. destruct (cb_contents b); try reflexivity.
    destruct (aac_encode_avc _ _ _) as [[ps hdr] r]. destruct r; reflexivity.
Qed.
Lemma flush_progs s p : s_progs (fst (fst (pes_flush s p))) = s_progs s.
Proof.
  unfold pes_flush. destruct (ps_buf p) as [b|]; [|reflexivity].
  pose proof (on_pes_progs s p (if ps_len p =? 0 then u16 (cb_len b) else ps_len p) b) as H.
  destruct (on_pes_complete s p _ b) as [s' r]. exact H.
Qed.
Lemma start_progs mem s p c : s_progs (fst (fst (pes_start mem s p c))) = s_progs s.
Proof.
  unfold pes_start. destruct (bc_acquire c 9); try reflexivity.
  pose proof (flush_progs s p) as H. destruct (pes_flush s p) as [[s1 p1] r]. cbn [fst] in H.
  destruct r; cbn [fst]; try exact H.
  destruct (read_fields c [24; 8; 16]) as [[v c1]| | |]; cbn [fst]; try exact H.
  destruct (negb (fld v 0 =? 1)); [exact H|]. destruct (fld v 1 =? 0xbe); [exact H|].
  destruct (plain_sid (fld v 1)). { destruct (pes_dump _ c1); exact H. }
  destruct (pes_header c1) as [ts r2]. destruct r2; cbn [fst]; try exact H. destruct (pes_dump _ a1); exact H.
Qed.
Lemma decode_progs mem s p h c : s_progs (fst (fst (pes_decode mem s p h c))) = s_progs s.
Proof.
  unfold pes_decode. destruct (_ && _); [reflexivity|]. destruct (negb _); [reflexivity|].
  destruct (th_pusi h =? 0); [destruct (pes_dump _ c); reflexivity|apply start_progs].
Qed.
