(** RTP datagrams, runs, AAC access units and RTCP. *)
From Verif Require Import Base M_Bits S_Bits L_Bits L_BitsW M_Fields L_Align S_Fields L_Pack M_Packet M_Cache L_Cache
  M_H264 M_AAC S_Codec L_H264 M_Rtp S_Rtp L_Rtp.

(** ** Datagrams *)
Lemma rtp_bytes_bytes k payload : pk_ok k -> bytes payload -> bytes (rtp_bytes k payload).
Proof.
  intros (_ & _ & He) Hp. unfold rtp_bytes, rtp_head. apply bytes_app. split.
  - apply bytes_app. split; [apply be_bytes|apply bytes_flat_be4].
  - apply bytes_app. split; [|exact Hp]. destruct (pk_ext k) as [[prof d]|]; [|constructor].
    apply bytes_app. split; [apply be_bytes|]. apply bytes_app. split; [apply be_bytes|apply He].
Qed.
Lemma irtp_packet {S} mtch (dec : rtp_hdr -> S -> bitctx -> S * emit) st k payload :
  pk_ok k -> bytes payload -> zlen (rtp_bytes k payload) < 2 ^ 60 -> mtch (pk_pt k) = true ->
  exists c', irtp_decode mtch dec st (rtp_bytes k payload) = dec (dec_hdr k) st c' /\
    al (rtp_bytes k payload) c' (dec_left k ++ payload).
Proof.
  intros Hk Hp Hl Hm. assert (Ha := al_init _ (rtp_bytes_bytes k payload Hk Hp) Hl).
  destruct (header_decode_ok _ _ _ _ Ha Hk) as (c' & E & Ha'). exists c'. split; [|exact Ha'].
  unfold irtp_decode.
  assert (H12 : bc_acquire (bc_init (rtp_bytes k payload)) 12 = Ok tt).
  { apply (al_acquire_ok _ _ _ _ Ha); [lia|]. unfold rtp_bytes, rtp_head. rewrite !zlen_app, zlen_pk_head.
    pose proof (zlen_nonneg (flat_map (be 4) (pk_csrc k))). pose proof (zlen_nonneg (ext_bytes (pk_ext k))). pose proof (zlen_nonneg payload). lia. }
  rewrite H12. cbn [bind]. rewrite E. cbn [rh_pt dec_hdr]. rewrite Hm. reflexivity.
Qed.
Lemma irtp_total {S} mtch (dec : rtp_hdr -> S -> bitctx -> S * emit) st buf :
  bytes buf -> zlen buf < 2 ^ 60 ->
  irtp_decode mtch dec st buf = (st, ([], Err ERROR_IO_NOT_ENOUGH)) \/
  irtp_decode mtch dec st buf = (st, ([], Err ERROR_RTP_PAYLOAD_TYPE)) \/
  exists h c' pre payload, buf = pre ++ payload /\ 12 <= zlen pre /\ al buf c' payload /\
    mtch (rh_pt h) = true /\ irtp_decode mtch dec st buf = dec h st c'.
Proof.
  intros Hb Hl. assert (Ha := al_init _ Hb Hl). unfold irtp_decode.
  destruct (al_acquire_cases _ _ _ 12 Ha) as [[-> H12]| ->]; [lia| |left; reflexivity]. cbn [bind].
  destruct (header_decode_total _ _ _ Ha) as [(h & c' & rest' & E & Ha' & used & Eb & Hu)|E]; rewrite E; [|left; reflexivity].
  right. destruct (mtch (rh_pt h)) eqn:Em; [|left; reflexivity]. right.
  exists h, c', used, rest'. auto 6.
Qed.

Lemma dec_left_media k : pk_media k -> dec_left k = [].
Proof.
  intros (_ & _ & He). unfold dec_left. destruct (pk_ext k) as [[prof d]|]; [|reflexivity]. subst d. reflexivity.
Qed.

(** ** Runs *)
Fixpoint spec_run (cap : Z) (st : option (list Z)) (es : list event) : option (list Z) * list (list pkt * res unit) :=
  match es with
  | [] => (st, [])
  | e :: r =>
      let '(st1, o) := payload_spec cap (fst (fst e)) (pk_ts (snd (fst e))) st (snd e) in
      let '(st2, os) := spec_run cap st1 r in (st2, o :: os)
  end.
Lemma decode_media mem st u0 e : strep mem st u0 -> 1 <= zlen mem < 2 ^ 32 -> event_ok e ->
  exists st', h264_rtp_decode mem (fst (fst e)) st (rtp_bytes (snd (fst e)) (snd e)) =
      (st', snd (payload_spec (zlen mem) (fst (fst e)) (pk_ts (snd (fst e))) u0 (snd e))) /\
    strep mem st' (fst (payload_spec (zlen mem) (fst (fst e)) (pk_ts (snd (fst e))) u0 (snd e))).
Proof.
  intros Hst Hm (Hk & Hb & Hl). assert (Hk' := Hk). destruct Hk' as (Hok & Hpt & _).
  unfold h264_rtp_decode.
  destruct (irtp_packet is_rtp_dynamic (h264_rtp_payload mem (fst (fst e))) st (snd (fst e)) (snd e) Hok Hb Hl) as (c' & -> & Ha).
  { unfold is_rtp_dynamic. lia. }
  rewrite dec_left_media in Ha by assumption. cbn [app] in Ha.
  exact (payload_ok mem (fst (fst e)) (dec_hdr (snd (fst e))) st u0 _ c' _ Hst Hm Ha).
Qed.
Lemma run_ok mem es : forall st u0, strep mem st u0 -> 1 <= zlen mem < 2 ^ 32 -> Forall event_ok es ->
  exists st', h264_rtp_run mem st (map dgram es) = (st', snd (spec_run (zlen mem) u0 es)) /\
    strep mem st' (fst (spec_run (zlen mem) u0 es)).
Proof.
  induction es as [|e es IH]; intros st u0 Hst Hm HF.
  - exists st. split; [reflexivity|exact Hst].
  - inversion HF; subst. destruct (decode_media mem st u0 e Hst Hm H1) as (st1 & E1 & Hst1).
    cbn [map h264_rtp_run dgram spec_run]. rewrite E1.
    destruct (payload_spec (zlen mem) (fst (fst e)) (pk_ts (snd (fst e))) u0 (snd e)) as [u1 o]. cbn [fst snd] in *.
    destruct (IH st1 u1 Hst1 Hm H2) as (st2 & E2 & Hst2). rewrite E2.
    destruct (spec_run (zlen mem) u1 es) as [u2 os]. cbn [fst snd] in *. exists st2. split; [reflexivity|exact Hst2].
Qed.

(** ** Fragments *)
Lemma fu_a_step cap now ts st h s e chunk : 0 <= h < 256 -> 0 <= s < 2 -> 0 <= e < 2 ->
  payload_spec cap now ts st (fu_a h s e chunk) =
    match st, s =? 1 with
    | Some u, true => (Some u, ([], Err ERROR_RTP_DECODER_H264))
    | None, false => (None, ([], Ok tt))
    | Some u, false => fu_add cap now ts u (e =? 1) chunk
    | None, true => fu_add cap now ts [h] (e =? 1) chunk
    end.
Proof.
  intros Hh Hs He. unfold payload_spec, fu_a. cbn [app].
  replace ((h / 32 * 32 + 28) mod 32) with 28 by (zify_divmod; lia).
  change ((0 <? 28) && (28 <? 24)) with false. change (28 =? 24) with false. change (28 =? 25) with false.
  change (28 =? 26) with false. change (28 =? 27) with false. change ((28 =? 28) || (28 =? 29)) with true. cbv iota zeta.
  unfold fu_spec. replace ((h / 32 * 32 + 28) mod 32) with 28 by (zify_divmod; lia). change (28 =? 29) with false. cbv iota.
  unfold fu_step.
  replace ((s * 128 + e * 64 + h mod 32) / 128) with s by (zify_divmod; lia).
  replace ((s * 128 + e * 64 + h mod 32) / 64 mod 2) with e by (zify_divmod; lia).
  replace ((h / 32 * 32 + 28) / 32 * 32 + (s * 128 + e * 64 + h mod 32) mod 32) with h by (zify_divmod; lia).
  reflexivity.
Qed.

Lemma rest_run cap h cs : forall es now k pl u ps, 0 <= h < 256 -> cs <> [] ->
  map snd (es ++ [(now, k, pl)]) = fu_fragments h 0 cs ->
  zlen u + zlen (concat cs) <= cap ->
  nal_result now (pk_ts k) (u ++ concat cs) = Ok ps ->
  spec_run cap (Some u) (es ++ [(now, k, pl)]) = (None, repeat ([], Ok tt) (length es) ++ [(ps, Ok tt)]).
Proof.
  induction cs as [|c cs IH]; intros es now k pl u ps Hh Hne Hm Hc Hr; [congruence|].
  destruct cs as [|c2 cs].
  - cbn [fu_fragments] in Hm. destruct es as [|e es].
    2:{ apply (f_equal (@length _)) in Hm. cbn [app map length] in Hm. rewrite map_length, app_length in Hm. cbn [length] in Hm. lia. }
    cbn [app map snd] in Hm. injection Hm as ->. cbn [app spec_run fst snd length repeat].
    rewrite fu_a_step by lia. cbn [Z.eqb]. change (1 =? 1) with true. unfold fu_add.
    cbn [concat] in Hc, Hr. rewrite app_nil_r in Hc, Hr.
    destruct (Z.ltb_spec cap (zlen u + zlen c)); [lia|]. rewrite Hr. reflexivity.
  - change (fu_fragments h 0 (c :: c2 :: cs)) with (fu_a h 0 0 c :: fu_fragments h 0 (c2 :: cs)) in Hm.
    destruct es as [|e es].
    { exfalso. cbn [app map] in Hm. remember (c2 :: cs) as r. assert (Hl : fu_fragments h 0 r <> []) by (subst r; destruct cs; discriminate).
      destruct (fu_fragments h 0 r); [congruence|discriminate]. }
    cbn [app map] in Hm. injection Hm as He Hm. cbn [app spec_run length repeat].
    rewrite He, fu_a_step by lia. cbn [Z.eqb]. change (1 =? 0) with false. change (0 =? 1) with false. cbv iota. unfold fu_add.
    change (concat (c :: c2 :: cs)) with (c ++ concat (c2 :: cs)) in Hc, Hr. rewrite zlen_app in Hc. pose proof (zlen_nonneg (concat (c2 :: cs))) as H0.
    destruct (Z.ltb_spec cap (zlen u + zlen c)); [lia|].
    rewrite (IH es now k pl (u ++ c) ps Hh); [reflexivity|discriminate|exact Hm|rewrite zlen_app; lia|].
    rewrite <- app_assoc. exact Hr.
Qed.
Lemma unit_run cap h cs es now k pl ps : 0 <= h < 256 -> cs <> [] ->
  map snd (es ++ [(now, k, pl)]) = fu_fragments h 1 cs ->
  1 + zlen (concat cs) <= cap ->
  nal_result now (pk_ts k) (h :: concat cs) = Ok ps ->
  spec_run cap None (es ++ [(now, k, pl)]) = (None, repeat ([], Ok tt) (length es) ++ [(ps, Ok tt)]).
Proof.
  intros Hh Hne Hm Hc Hr. destruct cs as [|c cs]; [congruence|]. destruct cs as [|c2 cs].
  - cbn [fu_fragments] in Hm. destruct es as [|e es].
    2:{ apply (f_equal (@length _)) in Hm. cbn [app map length] in Hm. rewrite map_length, app_length in Hm. cbn [length] in Hm. lia. }
    cbn [app map snd] in Hm. injection Hm as ->. cbn [app spec_run fst snd length repeat].
    rewrite fu_a_step by lia. change (1 =? 1) with true. cbv iota. unfold fu_add.
    cbn [concat] in Hc, Hr. rewrite app_nil_r in Hc, Hr. change (zlen [h]) with 1.
    destruct (Z.ltb_spec cap (1 + zlen c)); [lia|]. cbn [app]. rewrite Hr. reflexivity.
  - change (fu_fragments h 1 (c :: c2 :: cs)) with (fu_a h 1 0 c :: fu_fragments h 0 (c2 :: cs)) in Hm.
    destruct es as [|e es].
    { exfalso. cbn [app map] in Hm. remember (c2 :: cs) as r. assert (Hl : fu_fragments h 0 r <> []) by (subst r; destruct cs; discriminate).
      destruct (fu_fragments h 0 r); [congruence|discriminate]. }
    cbn [app map] in Hm. injection Hm as He Hm. cbn [app spec_run length repeat].
    rewrite He, fu_a_step by lia. change (1 =? 1) with true. change (0 =? 1) with false. cbv iota. unfold fu_add.
    change (concat (c :: c2 :: cs)) with (c ++ concat (c2 :: cs)) in Hc, Hr. rewrite zlen_app in Hc. pose proof (zlen_nonneg (concat (c2 :: cs))) as H0. change (zlen [h]) with 1.
    destruct (Z.ltb_spec cap (1 + zlen c)); [lia|]. cbn [app].
    rewrite (rest_run cap h (c2 :: cs) es now k pl (h :: c) ps Hh); [reflexivity|discriminate|exact Hm| |].
    + rewrite zlen_cons. lia.
    + exact Hr.
Qed.
(** The next unit after a lost end. *)
Lemma splice_run cap h c cs e0 es now k pl u ps : 0 <= h < 256 -> cs <> [] ->
  map snd (e0 :: es ++ [(now, k, pl)]) = fu_fragments h 1 (c :: cs) ->
  zlen u + zlen (concat cs) <= cap ->
  nal_result now (pk_ts k) (u ++ concat cs) = Ok ps ->
  spec_run cap (Some u) (e0 :: es ++ [(now, k, pl)]) =
    (None, ([], Err ERROR_RTP_DECODER_H264) :: repeat ([], Ok tt) (length es) ++ [(ps, Ok tt)]).
Proof.
  intros Hh Hne Hm Hc Hr. destruct cs as [|c2 cs]; [congruence|].
  change (fu_fragments h 1 (c :: c2 :: cs)) with (fu_a h 1 0 c :: fu_fragments h 0 (c2 :: cs)) in Hm.
  cbn [map] in Hm. injection Hm as He Hm. cbn [spec_run]. rewrite He, fu_a_step by lia.
  change (1 =? 1) with true. cbv iota.
  rewrite (rest_run cap h (c2 :: cs) es now k pl u ps Hh Hne Hm Hc Hr). reflexivity.
Qed.

(** ** What can come out *)
Lemma nal_result_out now ts u ps p : nal_result now ts u = Ok ps -> In p ps -> no_pps_packet p.
Proof.
  intros H Hin. unfold nal_result in H. destruct u as [|h t]; [discriminate|]. destruct (128 <=? h); [discriminate|].
  destruct (_ && _); [discriminate|]. injection H as <-. unfold avc_packets in Hin. apply in_app_or in Hin as [Hin|Hin].
  - unfold last_of in Hin. cbn [rev app find] in Hin. unfold is_sps, is_pps in Hin. cbn [nal_of n_type] in Hin.
    unfold H264_NAL_SPS, H264_NAL_PPS in Hin.
    destruct (Z.eqb_spec (nth 0 (h :: t) 0 mod 32) 7) as [E|E]; [|contradiction].
    replace (nth 0 (h :: t) 0 mod 32 =? 8) with false in Hin by (symmetry; apply Z.eqb_neq; rewrite E; discriminate). destruct Hin as [<-|[]]. left. eexists. reflexivity.
  - cbn [flat_map] in Hin. rewrite app_nil_r in Hin. unfold media_pkt in Hin. cbn [nal_of n_type n_buf] in Hin. right.
    set (tp := nth 0 (h :: t) 0 mod 32) in Hin.
    destruct (Z.eqb_spec tp 5) as [E|_]; [|destruct (Z.eqb_spec tp 1) as [E|_]; [|destruct (Z.eqb_spec tp 6) as [E|_]; [|contradiction]]];
      (destruct Hin as [<-|[]]; eexists (h :: t), _, _, _; fold tp; rewrite E; split; [discriminate|split; [discriminate|reflexivity]]).
Qed.
Lemma of_unit_out now ts u p : In p (fst (of_unit now ts u)) -> no_pps_packet p.
Proof.
  unfold of_unit. destruct (nal_result now ts u) eqn:E; cbn [fst]; try contradiction. intros H. eapply nal_result_out; eauto.
Qed.
Lemma fu_add_out cap now ts u stop chunk p : In p (fst (snd (fu_add cap now ts u stop chunk))) -> no_pps_packet p.
Proof.
  unfold fu_add. destruct (_ <? _); [contradiction|]. destruct stop; [|contradiction].
  destruct (nal_result now ts (u ++ chunk)) eqn:E; cbn [fst snd]; try contradiction. intros H. eapply nal_result_out; eauto.
Qed.
Lemma fu_step_out cap now ts st ind fh chunk p : In p (fst (snd (fu_step cap now ts st ind fh chunk))) -> no_pps_packet p.
Proof.
  unfold fu_step. destruct st, (fh / 128 =? 1); try (cbn [fst snd In]; contradiction); apply fu_add_out.
Qed.
Lemma payload_out cap now ts st l p : In p (fst (snd (payload_spec cap now ts st l))) -> no_pps_packet p.
Proof.
  unfold payload_spec. destruct l as [|b r]; [contradiction|]. cbv zeta. set (l := b :: r).
  destruct (_ && _); [apply of_unit_out|].
  destruct (_ =? 24); [unfold agg_spec; cbn [fst snd]; destruct l; [contradiction|]; destruct (_ <? _); [contradiction|apply of_unit_out]|].
  destruct (_ =? 25); [cbn [fst snd]; destruct (_ <? 2); [contradiction|]; unfold agg_spec; destruct (drop 2 l); [contradiction|]; destruct (_ <? _); [contradiction|apply of_unit_out]|].
  destruct (_ =? 26); [unfold magg_spec; cbn [fst snd]; destruct l; [contradiction|]; destruct (_ <? _); [contradiction|]; destruct (_ <? _); [contradiction|apply of_unit_out]|].
  destruct (_ =? 27); [cbn [fst snd]; destruct (_ <? 3); [contradiction|]; unfold magg_spec; destruct (drop 3 l); [contradiction|]; destruct (_ <? _); [contradiction|]; destruct (_ <? _); [contradiction|apply of_unit_out]|].
  destruct (_ || _); [|contradiction].
  unfold fu_spec, l. destruct r as [|fh chunk]; [contradiction|]. destruct (_ =? 29); [|apply fu_step_out].
  destruct (_ <? 2); [|apply fu_step_out]. destruct st, (_ =? 1); cbn [fst snd In]; contradiction.
Qed.

Lemma of_unit_safe now ts u : snd (of_unit now ts u) <> UB /\ snd (of_unit now ts u) <> Fuel.
Proof. unfold of_unit. destruct (nal_result_cases now ts u) as [[ps ->]|[e ->]]; cbn [snd]; split; discriminate. Qed.
Lemma fu_add_safe cap now ts u stop chunk : snd (snd (fu_add cap now ts u stop chunk)) <> UB /\ snd (snd (fu_add cap now ts u stop chunk)) <> Fuel.
Proof.
  unfold fu_add. destruct (_ <? _); [split; discriminate|]. destruct stop; [|split; discriminate].
  destruct (nal_result_cases now ts (u ++ chunk)) as [[ps ->]|[e ->]]; cbn [snd]; split; discriminate.
Qed.
Lemma fu_step_safe cap now ts st ind fh chunk :
  snd (snd (fu_step cap now ts st ind fh chunk)) <> UB /\ snd (snd (fu_step cap now ts st ind fh chunk)) <> Fuel.
Proof. unfold fu_step. destruct st, (fh / 128 =? 1); try (split; discriminate); apply fu_add_safe. Qed.
Ltac dif := match goal with |- context [if ?x then _ else _] => destruct x end.
Lemma payload_UB cap now ts st l :
  (snd (snd (payload_spec cap now ts st l)) = UB <-> short_payload st l) /\ snd (snd (payload_spec cap now ts st l)) <> Fuel.
Proof.
  unfold payload_spec, short_payload. destruct l as [|b r]; [split; [split; [discriminate|intros (b & r & E & _); discriminate]|discriminate]|].
  assert (HN : forall (P : Z -> list Z -> Prop), (exists b0 r0, b :: r = b0 :: r0 /\ P b0 r0) <-> P b r).
  { intros P. split; [intros (b0 & r0 & E & H); injection E as -> ->; exact H|intros H; exists b, r; auto]. }
  rewrite (HN (fun b0 _ => (b0 mod 32 = 25 /\ zlen (b :: r) < 2) \/ (b0 mod 32 = 27 /\ zlen (b :: r) < 3) \/
     (b0 mod 32 = 29 /\ 2 <= zlen (b :: r) < 4 /\ ((st = None /\ nth 1 (b :: r) 0 / 128 = 1) \/ (st <> None /\ nth 1 (b :: r) 0 / 128 <> 1))))).
  clear HN. cbv zeta. set (tp := b mod 32). remember (b :: r) as l.
  assert (Hl1 : 1 <= zlen l) by (subst l; rewrite zlen_cons; pose proof (zlen_nonneg r); lia).
  assert (Hno : forall (o : res unit), o <> UB /\ o <> Fuel -> tp <> 25 \/ 2 <= zlen l -> tp <> 27 \/ 3 <= zlen l -> tp <> 29 \/ ~ (2 <= zlen l < 4) ->
     (o = UB <-> (tp = 25 /\ zlen l < 2) \/ (tp = 27 /\ zlen l < 3) \/
     (tp = 29 /\ 2 <= zlen l < 4 /\ ((st = None /\ nth 1 l 0 / 128 = 1) \/ (st <> None /\ nth 1 l 0 / 128 <> 1)))) /\ o <> Fuel).
  { intros o [H1 H2] H3 H4 H5. split; [|exact H2]. split; [intros; contradiction|]. lia. }
  destruct ((0 <? tp) && (tp <? 24)) eqn:E0; [apply Hno; [apply of_unit_safe|lia|lia|lia]|].
  destruct (Z.eqb_spec tp 24).
  { apply Hno; [|lia|lia|lia]. unfold agg_spec. cbn [snd]. subst l. dif; [cbn [snd]; split; discriminate|apply of_unit_safe]. }
  destruct (Z.eqb_spec tp 25).
  { cbn [snd]. destruct (Z.ltb_spec (zlen l) 2).
    - cbn [snd]. split; [|discriminate]. split; [intros _; left; auto|reflexivity].
    - apply Hno; [|lia|lia|lia]. unfold agg_spec. destruct (drop 2 l); [cbn [snd]; split; discriminate|]. dif; [cbn [snd]; split; discriminate|apply of_unit_safe]. }
  destruct (Z.eqb_spec tp 26).
  { apply Hno; [|lia|lia|lia]. unfold magg_spec. cbn [snd]. subst l. dif; [cbn [snd]; split; discriminate|]. dif; [cbn [snd]; split; discriminate|apply of_unit_safe]. }
  destruct (Z.eqb_spec tp 27).
  { cbn [snd]. destruct (Z.ltb_spec (zlen l) 3).
    - cbn [snd]. split; [|discriminate]. split; [intros _; right; left; auto|reflexivity].
    - apply Hno; [|lia|lia|lia]. unfold magg_spec. destruct (drop 3 l); [cbn [snd]; split; discriminate|]. dif; [cbn [snd]; split; discriminate|]. dif; [cbn [snd]; split; discriminate|apply of_unit_safe]. }
  destruct ((tp =? 28) || (tp =? 29)) eqn:E28.
  2:{ apply Hno; [split; discriminate|lia|lia|lia]. }
  unfold fu_spec. subst l. destruct r as [|fh chunk].
  { apply Hno; [split; discriminate|lia|lia|]. right. change (zlen [b]) with 1. lia. }
  fold tp. destruct (Z.eqb_spec tp 29) as [E29|E29].
  2:{ apply Hno; [apply fu_step_safe|lia|lia|lia]. }
  rewrite !zlen_cons in *. cbn [nth]. pose proof (zlen_nonneg chunk). destruct (Z.ltb_spec (zlen chunk) 2).
  - destruct st as [u|], (Z.eqb_spec (fh / 128) 1) as [Es|Es]; cbn [snd]; (split; [|discriminate]); (split; [intros Hx; try discriminate Hx|intros Hx; try reflexivity]).
    + exfalso. destruct Hx as [Hx|[Hx|(_ & _ & [[Hx _]|[_ Hx]])]]; [lia|lia|discriminate|contradiction].
    + right; right. split; [exact E29|]. split; [lia|]. right. split; [discriminate|exact Es].
    + right; right. split; [exact E29|]. split; [lia|]. left. split; [reflexivity|exact Es].
    + exfalso. destruct Hx as [Hx|[Hx|(_ & _ & [[_ Hx]|[Hx _]])]]; [lia|lia|contradiction|congruence].
  - apply Hno; [apply fu_step_safe|lia|lia|lia].
Qed.

(** ** AAC access units *)
Lemma au_fields aus : forall tl, Forall au_ok aus ->
  bit_fields (bits_of (flat_map (fun a => be 2 (pack [(zlen (snd a), 13); (fst a, 3)])) aus ++ tl)) (concat (repeat [13; 3] (length aus))) =
    flat_map (fun a => [zlen (snd a); fst a]) aus.
Proof.
  induction aus as [|a aus IH]; intros tl HF; [reflexivity|]. inversion HF as [|? ? (H1 & H2 & H3) HF']; subst.
  cbn [flat_map length repeat concat]. rewrite <- app_assoc.
  rewrite bit_fields_app by (repeat constructor; lia). pose proof (zlen_nonneg (snd a)) as H0. f_equal.
  - change [13; 3] with (map snd [(zlen (snd a), 13); (fst a, 3)]). rewrite fields_packed; [reflexivity|reflexivity| |reflexivity].
    unfold fields_fit. cbn [forallb fst snd]. change (2 ^ 3) with 8. lia.
  - rewrite <- (IH tl HF'). change (zsum [13; 3]) with (8 * 2). rewrite drop_bits_of by lia.
    rewrite drop_app_exact by (rewrite zlen_be; reflexivity). reflexivity.
Qed.
Lemma pairs_flat aus : pairs (flat_map (fun a : Z * list Z => [zlen (snd a); fst a]) aus) = map (fun a => (zlen (snd a), fst a)) aus.
Proof. induction aus as [|a aus IH]; [reflexivity|]. cbn [flat_map app pairs map]. rewrite IH. reflexivity. Qed.
Lemma zlen_au_headers (aus : list (Z * list Z)) : zlen (flat_map (fun a => be 2 (pack [(zlen (snd a), 13); (fst a, 3)])) aus) = 2 * zlen aus.
Proof. induction aus as [|a aus IH]; [reflexivity|]. cbn [flat_map]. rewrite zlen_app, IH, zlen_be, zlen_cons. lia. Qed.
Lemma widths_au n : widths_ok (concat (repeat [13; 3] n)) = true.
Proof. induction n as [|n IH]; [reflexivity|]. cbn [repeat concat app]. unfold widths_ok in *. cbn [forallb]. rewrite IH. reflexivity. Qed.
Lemma zsum_au n : zsum (concat (repeat [13; 3] n)) = 16 * Z.of_nat n.
Proof. induction n as [|n IH]; [reflexivity|]. cbn [repeat concat app zsum]. rewrite IH. lia. Qed.

Lemma aus_ok ctx buf aus : forall c tl, av_tb ctx <> 0 -> Forall au_ok aus -> al buf c (flat_map snd aus ++ tl) ->
  aac_rtp_aus ctx c (map (fun a => (zlen (snd a), fst a)) aus) =
    (map (fun a => audio_pkt 1 (Z.quot (av_dts ctx) (av_tb ctx)) (snd a)) aus, Ok tt).
Proof.
  induction aus as [|a aus IH]; intros c tl Ht HF Ha; [reflexivity|].
  inversion HF as [|? ? (H1 & H2 & H3) HF']; subst. cbn [flat_map map aac_rtp_aus] in *. rewrite <- app_assoc in Ha.
  pose proof (zlen_nonneg (snd a)) as H0.
  assert (Hl : zlen (snd a) <= zlen (snd a ++ flat_map snd aus ++ tl)) by (rewrite zlen_app; pose proof (zlen_nonneg (flat_map snd aus ++ tl)); lia).
  rewrite (al_acquire_ok _ _ _ _ Ha) by lia. cbn [bind]. rewrite (al_peek _ _ _ _ Ha) by lia. cbn [bind].
  rewrite take_app_exact by reflexivity. unfold encode_raw_avc, cdiv. destruct (Z.eqb_spec (av_tb ctx) 0); [contradiction|]. cbn [bind].
  destruct (al_skip _ _ _ (zlen (snd a)) Ha) as (c1 & -> & Ha1); [lia|]. cbn [bind]. rewrite drop_app_exact in Ha1 by reflexivity.
  rewrite (IH c1 tl Ht HF' Ha1). reflexivity.
Qed.
Lemma aac_payload_ok h buf c aus tl : Forall au_ok aus -> zlen aus < 2 ^ 12 -> al buf c (au_payload aus ++ tl) ->
  aac_rtp_payload h tt c = (tt, (map (fun a => audio_pkt 1 (Z.quot (rh_ts h) 90) (snd a)) aus, Ok tt)).
Proof.
  intros HF Hn Ha. unfold au_payload, au_section in Ha. rewrite <- !app_assoc in Ha. pose proof (zlen_nonneg aus) as H0.
  unfold aac_rtp_payload, au_header_decode.
  set (rest := flat_map snd aus ++ tl) in *.
  assert (Hl : zlen (be 2 (16 * zlen aus) ++ flat_map (fun a => be 2 (pack [(zlen (snd a), 13); (fst a, 3)])) aus ++ rest) = 2 + 2 * zlen aus + zlen rest).
  { rewrite !zlen_app, zlen_be, zlen_au_headers. lia. }
  pose proof (zlen_nonneg rest) as Hr. rewrite (al_acquire_ok _ _ _ _ Ha) by lia. cbn [bind].
  destruct (al_bits _ _ _ 16 2 Ha) as (c1 & E1 & Ha1); [lia|lia|lia|]. rewrite E1. cbn [bind fst snd].
  rewrite bits_of_app, bits_of_be. change (8 * Z.of_nat 2) with 16. rewrite take_app_exact by (rewrite zlen_nbits by lia; reflexivity).
  rewrite bval_nbits, Z.mod_small by lia. rewrite drop_app_exact in Ha1 by (rewrite zlen_be; reflexivity).
  replace ((16 * zlen aus + 7) / 8 / 2) with (zlen aus) by (zify_divmod; lia).
  assert (En : Z.to_nat (zlen aus) = length aus) by (unfold zlen; lia).
  rewrite (al_acquire_ok _ _ _ _ Ha1) by (rewrite ?zlen_app, ?zlen_au_headers; lia). cbn [bind].
  destruct (al_fields _ _ _ (concat (repeat [13; 3] (Z.to_nat (zlen aus)))) (2 * zlen aus) Ha1) as (c2 & E2 & Ha2);
    [apply widths_au|rewrite zsum_au; lia|rewrite zlen_app, zlen_au_headers; lia|].
  rewrite E2. cbn [bind fst snd]. rewrite En, au_fields by assumption. rewrite pairs_flat.
  rewrite drop_app_exact in Ha2 by (rewrite zlen_au_headers; lia).
  rewrite (aus_ok (mkav (rh_ts h) (rh_ts h) 90) buf aus c2 tl); [reflexivity|discriminate|assumption|exact Ha2].
Qed.
Lemma aus_total ctx buf aus : forall c rest, av_tb ctx <> 0 -> Forall (fun a => 0 <= fst a < 2 ^ 13) aus -> al buf c rest ->
  snd (aac_rtp_aus ctx c aus) = Ok tt \/ snd (aac_rtp_aus ctx c aus) = Err ERROR_IO_NOT_ENOUGH.
Proof.
  induction aus as [|[sz ix] aus IH]; intros c rest Ht HF Ha; [left; reflexivity|].
  inversion HF; subst. cbn [fst] in *. cbn [aac_rtp_aus].
  destruct (al_acquire_cases _ _ _ sz Ha) as [[-> Hl]| ->]; [lia| |right; reflexivity]. cbn [bind].
  rewrite (al_peek _ _ _ _ Ha) by lia. cbn [bind]. unfold encode_raw_avc, cdiv. destruct (Z.eqb_spec (av_tb ctx) 0); [contradiction|]. cbn [bind].
  destruct (al_skip _ _ _ sz Ha) as (c1 & -> & Ha1); [lia|]. cbn [bind].
  specialize (IH c1 _ Ht H2 Ha1). destruct (aac_rtp_aus ctx c1 aus) as [ps o]. exact IH.
Qed.
Lemma au_pairs_range n : forall bs, 16 * Z.of_nat n <= zlen bs ->
  Forall (fun a : Z * Z => 0 <= fst a < 2 ^ 13) (pairs (bit_fields bs (concat (repeat [13; 3] n)))).
Proof.
  induction n as [|n IH]; intros bs Hb; [constructor|]. cbn [repeat concat app bit_fields pairs].
  constructor; [cbn [fst]; apply bval_take_range; lia|]. apply IH. rewrite !zlen_drop by lia. lia.
Qed.
Lemma aac_payload_total h buf c rest : al buf c rest ->
  snd (snd (aac_rtp_payload h tt c)) = Ok tt \/ snd (snd (aac_rtp_payload h tt c)) = Err ERROR_IO_NOT_ENOUGH.
Proof.
  intros Ha. unfold aac_rtp_payload, au_header_decode.
  destruct (al_acquire_cases _ _ _ 2 Ha) as [[-> Hl]| ->]; [lia| |right; reflexivity]. cbn [bind].
  destruct (al_bits _ _ _ 16 2 Ha) as (c1 & E1 & Ha1); [lia|lia|lia|]. rewrite E1. cbn [bind fst snd].
  set (v := bval (take 16 (bits_of rest))).
  assert (Hv : 0 <= v < 2 ^ 16) by (apply bval_take_range; rewrite zlen_bits_of; lia). clearbody v.
  set (nb := (v + 7) / 8 / 2). assert (Hnb : 0 <= nb < 2 ^ 13) by (unfold nb; zify_divmod; lia). clearbody nb.
  destruct (al_acquire_cases _ _ _ (2 * nb) Ha1) as [[-> Hl1]| ->]; [lia| |right; reflexivity]. cbn [bind].
  destruct (al_fields _ _ _ (concat (repeat [13; 3] (Z.to_nat nb))) (2 * nb) Ha1) as (c2 & E2 & Ha2);
    [apply widths_au|rewrite zsum_au; lia|lia|].
  rewrite E2. cbn [bind fst snd]. refine (aus_total _ buf _ c2 _ _ _ Ha2); [discriminate|].
  apply au_pairs_range. rewrite zlen_bits_of. lia.
Qed.

(** ** RTCP *)
Definition rtcp_widths := [2; 1; 5; 8; 16].
Definition rtcp_fit (v p cf pt len : Z) : Prop := fields_fit [(v, 2); (p, 1); (cf, 5); (pt, 8); (len, 16)] = true.
Lemma rtcp_fit_inv v p cf pt len : rtcp_fit v p cf pt len -> 0 <= cf < 32 /\ 0 <= len < 2 ^ 16.
Proof.
  unfold rtcp_fit, fields_fit. cbn [forallb fst snd]. change (2 ^ 5) with 32. lia.
Qed.
Lemma rtcp_head_ok buf c v p cf pt len tl : al buf c (rtcp_head_bytes v p cf pt len ++ tl) -> rtcp_fit v p cf pt len ->
  exists c', rtcp_head_decode c = Ok (mkrh v p cf pt len, c') /\ al buf c' tl.
Proof.
  intros Ha Hf. unfold rtcp_head_bytes in Ha. pose proof (zlen_nonneg tl) as H0.
  assert (Hl : 4 <= zlen (be 4 (pack [(v, 2); (p, 1); (cf, 5); (pt, 8); (len, 16)]) ++ tl)) by (rewrite zlen_app, zlen_be; lia).
  unfold rtcp_head_decode. rewrite (al_acquire_ok _ _ _ _ Ha) by lia.
  destruct (al_fields _ _ _ rtcp_widths 4 Ha) as (c' & E & Ha'); [reflexivity|reflexivity|lia|].
  fold rtcp_widths. rewrite E. cbn [bind fst snd].
  change rtcp_widths with (map snd [(v, 2); (p, 1); (cf, 5); (pt, 8); (len, 16)]).
  rewrite fields_packed; [|reflexivity|exact Hf|reflexivity]. cbn [map fst].
  rewrite drop_app_exact in Ha' by (rewrite zlen_be; reflexivity). exists c'. split; [reflexivity|exact Ha'].
Qed.
Lemma short_block_pack b : block_ok b -> exists fs, short_block b = be 20 (pack fs) /\ map snd fs = [8; 24; 32; 32; 32; 32] /\ map fst fs = b /\ fields_fit fs = true.
Proof.
  intros (fl & cum & sq & jit & lsr & dlsr & -> & H1 & H2 & H3 & H4 & H5 & H6).
  set (fs := [(fl, 8); (cum, 24); (sq, 32); (jit, 32); (lsr, 32); (dlsr, 32)]).
  assert (Hfit : fields_fit fs = true) by (unfold fs, fields_fit; cbn [forallb fst snd]; lia).
  exists fs. split; [|split; [reflexivity|split; [reflexivity|exact Hfit]]].
  assert (Hb : bytes (short_block [fl; cum; sq; jit; lsr; dlsr])) by (cbn [short_block]; rewrite !bytes_app; repeat (split; [apply be_bytes|]); apply be_bytes).
  assert (Hl : zlen (short_block [fl; cum; sq; jit; lsr; dlsr]) = Z.of_nat 20) by (cbn [short_block]; rewrite !zlen_app, !zlen_be; reflexivity).
  destruct (header_repack 20 _ [8; 24; 32; 32; 32; 32] Hb Hl (eq_refl _) (eq_refl _)) as [E _].
  rewrite E. f_equal. f_equal. unfold fs.
  assert (Ef : bit_fields (bits_of (short_block [fl; cum; sq; jit; lsr; dlsr])) [8; 24; 32; 32; 32; 32] = [fl; cum; sq; jit; lsr; dlsr]).
  { cbn [short_block]. rewrite !bits_of_app, !bits_of_be.
    pose proof (fields_of_flat fs [] (eq_refl _) Hfit) as F. unfold fs in F. cbn [flat_map map fst snd] in F.
    rewrite !app_nil_r in F. exact F. }
  rewrite Ef. reflexivity.
Qed.
Lemma blocks_ok buf bs : forall c tl, Forall block_ok bs -> al buf c (flat_map short_block bs ++ tl) ->
  exists c', report_blocks (length bs) c = Ok (bs, c') /\ al buf c' tl.
Proof.
  induction bs as [|b bs IH]; intros c tl HF Ha; [exists c; split; [reflexivity|exact Ha]|].
  inversion HF; subst. cbn [flat_map] in Ha. rewrite <- app_assoc in Ha.
  destruct (short_block_pack b H1) as (fs & Eb & Ew & Ev & Hf). rewrite Eb in Ha.
  set (rest := flat_map short_block bs ++ tl) in *. pose proof (zlen_nonneg rest) as H0.
  assert (Hl : zlen (be 20 (pack fs) ++ rest) = 20 + zlen rest) by (rewrite zlen_app, zlen_be; reflexivity).
  cbn [length report_blocks]. rewrite (al_acquire_ok _ _ _ _ Ha) by lia.
  destruct (al_fields _ _ _ [8; 24; 32; 32; 32; 32] 20 Ha) as (c1 & E1 & Ha1); [reflexivity|reflexivity|lia|].
  assert (Ep : bit_fields (bits_of (be 20 (pack fs) ++ rest)) [8; 24; 32; 32; 32; 32] = b).
  { rewrite <- Ew, fields_packed; [exact Ev|rewrite Ew; reflexivity|exact Hf|rewrite Ew; reflexivity]. }
  rewrite Ep in E1. rewrite E1. cbn [bind fst snd].
  rewrite drop_app_exact in Ha1 by (rewrite zlen_be; reflexivity).
  destruct (IH c1 tl H2 Ha1) as (c2 & -> & Ha2). cbn [bind fst snd]. exists c2. split; [reflexivity|exact Ha2].
Qed.
Lemma blocks_total buf n : forall c rest, 20 * Z.of_nat n <= zlen rest -> al buf c rest ->
  exists bs c', report_blocks n c = Ok (bs, c') /\ length bs = n.
Proof.
  induction n as [|n IH]; intros c rest Hl Ha; [exists [], c; split; reflexivity|].
  cbn [report_blocks]. rewrite (al_acquire_ok _ _ _ _ Ha) by lia.
  destruct (al_fields _ _ _ [8; 24; 32; 32; 32; 32] 20 Ha) as (c1 & E1 & Ha1); [reflexivity|reflexivity|lia|].
  rewrite E1. cbn [bind fst snd].
  destruct (IH c1 (drop 20 rest)) as (bs & c' & -> & Hn); [rewrite zlen_drop by lia; lia|exact Ha1|].
  cbn [bind fst snd]. eexists _, _. split; [reflexivity|]. cbn [length]. lia.
Qed.
Lemma six_words a b c d e f tl :
  Forall (fun x => 0 <= x < 2 ^ 32) [a; b; c; d; e; f] ->
  bit_fields (bits_of (flat_map (be 4) [a; b; c; d; e; f] ++ tl)) [32; 32; 32; 32; 32; 32] = [a; b; c; d; e; f].
Proof. intros H. exact (bit_fields_flat_be4 _ tl H). Qed.

Lemma rtcp_decode_head buf v p cf pt len tl : bytes buf -> zlen buf < 2 ^ 60 ->
  buf = rtcp_head_bytes v p cf pt len ++ tl -> rtcp_fit v p cf pt len ->
  exists c, al buf c tl /\ rtcp_decode buf =
    (let h := mkrh v p cf pt len in
     if pt =? 200 then sr_decode h c else if pt =? 201 then rr_decode h c else if pt =? 202 then sdes_decode h
     else if pt =? 203 then bye_decode h c RtcpBye else if pt =? 204 then bye_decode h c RtcpApp else Err ERROR_RTP_PROBE).
Proof.
  intros Hb Hl E Hf. assert (Ha := al_init buf Hb Hl). rewrite E in Ha at 3.
  destruct (rtcp_head_ok _ _ _ _ _ _ _ _ Ha Hf) as (c & Ec & Hc). exists c. split; [exact Hc|].
  unfold rtcp_decode. rewrite Ec. cbn [bind fst snd rc_pt]. reflexivity.
Qed.
Lemma sr_ok buf c v p len info bs tl : length info = 6%nat -> Forall (fun x => 0 <= x < 2 ^ 32) info -> Forall block_ok bs -> zlen bs < 32 ->
  al buf c (flat_map (be 4) info ++ flat_map short_block bs ++ tl) ->
  sr_decode (mkrh v p (zlen bs) 200 len) c = Ok (RtcpSR info bs).
Proof.
  intros Hn Hi HF H32 Ha. do 7 (destruct info as [|? info]; try discriminate Hn). unfold sr_decode. cbn [rc_cflag].
  assert (Hz : zlen (flat_map short_block bs) = 20 * zlen bs).
  { clear - HF. induction HF as [|b bs Hb _ IH]; [reflexivity|]. cbn [flat_map]. rewrite zlen_app, zlen_cons, IH.
    destruct (short_block_pack b Hb) as (fs & -> & _). rewrite zlen_be. lia. }
  match type of Ha with al _ _ (?i ++ ?r) => assert (Hzi : zlen i = 24) by (rewrite zlen_flat_be4; reflexivity);
    assert (Hza : zlen (i ++ r) = 24 + zlen r) by (rewrite zlen_app, Hzi; reflexivity) end.
  rewrite (zlen_app (flat_map short_block bs) tl) in Hza.
  pose proof (zlen_nonneg tl) as H0. pose proof (zlen_nonneg bs) as H1.
  rewrite (al_acquire_ok _ _ _ _ Ha) by lia. cbn [bind].
  destruct (al_fields _ _ _ [32; 32; 32; 32; 32; 32] 24 Ha) as (c1 & E1 & Ha1); [reflexivity|reflexivity|lia|].
  rewrite E1. cbn [bind fst snd]. rewrite six_words by assumption. rewrite drop_app_exact in Ha1 by lia.
  destruct (blocks_ok _ _ _ _ HF Ha1) as (c2 & E2 & _). unfold zlen. rewrite Nat2Z.id. rewrite E2. reflexivity.
Qed.
Lemma rr_ok buf c v p len ssrc bs tl : 0 <= ssrc < 2 ^ 32 -> Forall block_ok bs -> zlen bs < 32 ->
  al buf c (be 4 ssrc ++ flat_map short_block bs ++ tl) ->
  rr_decode (mkrh v p (zlen bs) 201 len) c = Ok (RtcpRR [ssrc] bs).
Proof.
  intros Hs HF H32 Ha. unfold rr_decode. cbn [rc_cflag].
  assert (Hz : zlen (flat_map short_block bs) = 20 * zlen bs).
  { clear - HF. induction HF as [|b bs Hb _ IH]; [reflexivity|]. cbn [flat_map]. rewrite zlen_app, zlen_cons, IH.
    destruct (short_block_pack b Hb) as (fs & -> & _). rewrite zlen_be. lia. }
  pose proof (zlen_nonneg tl) as H0. pose proof (zlen_nonneg bs) as H1.
  rewrite (al_acquire_ok _ _ _ _ Ha) by (rewrite ?zlen_app, ?zlen_be; lia). cbn [bind].
  destruct (al_fields _ _ _ [32] 4 Ha) as (c1 & E1 & Ha1); [reflexivity|reflexivity|rewrite !zlen_app, zlen_be; lia|].
  rewrite E1. cbn [bind fst snd]. rewrite drop_app_exact in Ha1 by (rewrite zlen_be; reflexivity).
  pose proof (bit_fields_flat_be4 [ssrc] (flat_map short_block bs ++ tl)) as F. cbn [flat_map app repeat length] in F. rewrite app_nil_r in F.
  rewrite F by (constructor; [exact Hs|constructor]).
  destruct (blocks_ok _ _ _ _ HF Ha1) as (c2 & E2 & _). unfold zlen. rewrite Nat2Z.id. rewrite E2. reflexivity.
Qed.
Lemma al_skip_any buf c rest n : al buf c rest -> exists c', skip_read_bytes c n = Ok c'.
Proof.
  intros Ha. unfold skip_read_bytes. destruct Ha as (_ & _ & _ & Hr & _). rewrite Hr. eexists. reflexivity.
Qed.
Lemma rtcp_total buf : bytes buf -> zlen buf < 2 ^ 60 ->
  (4 <= zlen buf /\ is_sdes buf /\ rtcp_decode buf = UB) \/ ((zlen buf < 4 \/ ~ is_sdes buf) /\ safe (rtcp_decode buf)).
Proof.
  intros Hb Hl. assert (Ha := al_init buf Hb Hl).
  destruct (Z.ltb_spec (zlen buf) 4) as [H4|H4].
  { right. split; [left; exact H4|]. right. unfold rtcp_decode, rtcp_head_decode.
    destruct (al_acquire_cases _ _ _ 4 Ha) as [[_ Hx]| ->]; [lia|lia|]. eexists. reflexivity. }
  destruct buf as [|b0 [|b1 [|b2 [|b3 tl]]]]; try (exfalso; revert H4; unfold zlen; cbn [length]; lia).
  clear H4. set (hd := [b0; b1; b2; b3]). change (b0 :: b1 :: b2 :: b3 :: tl) with (hd ++ tl) in Hb, Hl, Ha.
  assert (Hbh : bytes hd) by (apply bytes_app in Hb; apply Hb).
  destruct (header_repack 4 hd rtcp_widths Hbh (eq_refl _) (eq_refl _) (eq_refl _)) as [E F].
  set (v := bval (take 2 (bits_of hd))). set (p := bval (take 1 (drop 2 (bits_of hd)))).
  pose proof Hbh as Hbb. unfold hd in Hbb. apply bytes_cons in Hbb as [B0 Hbb]. apply bytes_cons in Hbb as [B1 _].
  assert (Ef : bit_fields (bits_of hd) rtcp_widths = [v; p; b0 mod 32; b1; bval (take 16 (drop 8 (drop 5 (drop 1 (drop 2 (bits_of hd))))))]).
  { unfold rtcp_widths. cbn [bit_fields]. fold v. fold p.
    assert (E5 : bval (take 5 (drop 1 (drop 2 (bits_of hd)))) = b0 mod 32).
    { unfold hd. clear - B0.
      change (take 5 (drop 1 (drop 2 (bits_of [b0; b1; b2; b3])))) with (take 5 (drop 1 (drop 2 (bits_of [b0])))).
      apply Z.eqb_eq. revert b0 B0. apply (byte_sweep (fun b0 => bval (take 5 (drop 1 (drop 2 (bits_of [b0])))) =? b0 mod 32)). vm_compute. reflexivity. }
    assert (E8 : bval (take 8 (drop 5 (drop 1 (drop 2 (bits_of hd))))) = b1).
    { change (take 8 (drop 5 (drop 1 (drop 2 (bits_of hd))))) with (bits_of [b1]). rewrite bval_bits_of; [reflexivity|]. constructor; [exact B1|constructor]. }
    rewrite E5, E8. reflexivity. }
  set (len := bval (take 16 (drop 8 (drop 5 (drop 1 (drop 2 (bits_of hd))))))) in *.
  rewrite Ef in E, F. cbn [combine rtcp_widths] in E, F.
  assert (Hfit : rtcp_fit v p (b0 mod 32) b1 len) by exact F.
  change (b0 :: b1 :: b2 :: b3 :: tl) with (hd ++ tl) in *.
  destruct (rtcp_decode_head (hd ++ tl) v p (b0 mod 32) b1 len tl Hb Hl) as (c & Hc & ->); [unfold rtcp_head_bytes; rewrite <- E; reflexivity|exact Hfit|].
  cbv zeta. destruct (rtcp_fit_inv _ _ _ _ _ Hfit) as [Hcf Hlen].
  unfold is_sdes. change (nth 1 (hd ++ tl) 0) with b1. change (nth 0 (hd ++ tl) 0) with b0.
  destruct (Z.eqb_spec b1 200) as [E1|E1].
  { right. split; [right; intros [X _]; lia|]. unfold sr_decode. cbn [rc_cflag].
    destruct (al_acquire_cases _ _ _ (24 + b0 mod 32 * 20) Hc) as [[-> Hx]| ->]; [lia| |right; eexists; reflexivity]. cbn [bind].
    destruct (al_fields _ _ _ [32; 32; 32; 32; 32; 32] 24 Hc) as (c1 & X1 & Hc1); [reflexivity|reflexivity|lia|]. rewrite X1. cbn [bind fst snd].
    destruct (blocks_total _ (Z.to_nat (b0 mod 32)) _ (drop 24 tl) ltac:(rewrite zlen_drop by lia; lia) Hc1) as (bs & c2 & -> & _). left. eexists. reflexivity. }
  destruct (Z.eqb_spec b1 201) as [E2|E2].
  { right. split; [right; intros [X _]; lia|]. unfold rr_decode. cbn [rc_cflag].
    destruct (al_acquire_cases _ _ _ (4 + b0 mod 32 * 20) Hc) as [[-> Hx]| ->]; [lia| |right; eexists; reflexivity]. cbn [bind].
    destruct (al_fields _ _ _ [32] 4 Hc) as (c1 & X1 & Hc1); [reflexivity|reflexivity|lia|]. rewrite X1. cbn [bind fst snd].
    destruct (blocks_total _ (Z.to_nat (b0 mod 32)) _ (drop 4 tl) ltac:(rewrite zlen_drop by lia; lia) Hc1) as (bs & c2 & -> & _). left. eexists. reflexivity. }
  destruct (Z.eqb_spec b1 202) as [E3|E3].
  { unfold sdes_decode. cbn [rc_cflag]. destruct (Z.ltb_spec 0 (b0 mod 32)).
    - left. split; [unfold zlen; cbn [hd app length]; lia|]. split; [split; [exact E3|lia]|reflexivity].
    - right. split; [right; intros [_ X]; lia|]. left. eexists. reflexivity. }
  right. split; [right; intros [X _]; lia|].
  destruct (al_skip_any _ _ _ len Hc) as (c1 & Es). unfold bye_decode. cbn [rc_length]. rewrite Es. cbn [bind].
  destruct (b1 =? 203); [left; eexists; reflexivity|]. destruct (b1 =? 204); [left; eexists; reflexivity|]. right. eexists. reflexivity.
Qed.

(** ** Compositions *)
Lemma spec_run_app cap a : forall st b, spec_run cap st (a ++ b) =
  (fst (spec_run cap (fst (spec_run cap st a)) b), snd (spec_run cap st a) ++ snd (spec_run cap (fst (spec_run cap st a)) b)).
Proof.
  induction a as [|e a IH]; intros st b.
  - cbn [app spec_run fst snd]. destruct (spec_run cap st b); reflexivity.
  - cbn [app spec_run]. destruct (payload_spec _ _ _ st (snd e)) as [st1 o]. rewrite IH.
    destruct (spec_run cap st1 a) as [st2 os]. cbn [fst snd]. reflexivity.
Qed.
Lemma groups_run cap gs outs : Forall2 (unit_group cap) gs outs -> spec_run cap None (concat gs) = (None, concat outs).
Proof.
  induction 1 as [|g o gs outs Hg _ IH]; [reflexivity|]. cbn [concat]. rewrite spec_run_app.
  destruct Hg as (h & cs & es & now & k & pl & ps & H1 & H2 & -> & H4 & H5 & H6 & ->).
  rewrite (unit_run cap h cs es now k pl ps H1 H2 H4 H5 H6). cbn [fst snd]. rewrite IH. reflexivity.
Qed.
Lemma open_rest cap h cs : forall es u, 0 <= h < 256 -> map snd es = fu_open h 0 cs -> zlen u + zlen (concat cs) <= cap ->
  spec_run cap (Some u) es = (Some (u ++ concat cs), repeat ([], Ok tt) (length es)).
Proof.
  induction cs as [|c cs IH]; intros es u Hh Hm Hc; destruct es as [|e es]; try discriminate Hm.
  - cbn [concat]. rewrite app_nil_r. reflexivity.
  - cbn [map fu_open] in Hm. injection Hm as He Hm. cbn [spec_run length repeat concat] in *. rewrite He, fu_a_step by lia.
    change (0 =? 1) with false. cbv iota. rewrite zlen_app in Hc. pose proof (zlen_nonneg (concat cs)) as H0.
    unfold fu_add. destruct (Z.ltb_spec cap (zlen u + zlen c)); [lia|].
    rewrite (IH es (u ++ c) Hh Hm) by (rewrite zlen_app; lia). rewrite app_assoc. reflexivity.
Qed.
Lemma open_run cap h cs es : 0 <= h < 256 -> cs <> [] -> map snd es = fu_open h 1 cs -> 1 + zlen (concat cs) <= cap ->
  spec_run cap None es = (Some (h :: concat cs), repeat ([], Ok tt) (length es)).
Proof.
  intros Hh Hne Hm Hc. destruct cs as [|c cs]; [congruence|]. destruct es as [|e es]; [discriminate Hm|].
  cbn [map fu_open] in Hm. injection Hm as He Hm. cbn [spec_run length repeat concat] in *. rewrite He, fu_a_step by lia.
  change (1 =? 1) with true. change (0 =? 1) with false. cbv iota. rewrite zlen_app in Hc. pose proof (zlen_nonneg (concat cs)) as H0.
  unfold fu_add. change (zlen [h]) with 1. destruct (Z.ltb_spec cap (1 + zlen c)); [lia|]. cbn [app].
  rewrite (open_rest cap h cs es (h :: c) Hh Hm) by (rewrite zlen_cons; lia). reflexivity.
Qed.
Lemma starts_rejected cap u es : Forall (fun e : event => fu_start (snd e)) es ->
  spec_run cap (Some u) es = (Some u, repeat ([], Err ERROR_RTP_DECODER_H264) (length es)).
Proof.
  induction 1 as [|e es (h & f & ch & Hh & Hf & E) _ IH]; [reflexivity|]. cbn [spec_run length repeat]. rewrite E, fu_a_step by lia.
  change (1 =? 1) with true. cbv iota. rewrite IH. reflexivity.
Qed.
Lemma strep_none mem st : strep mem st None -> st = None.
Proof. destruct st; [intros []|reflexivity]. Qed.

(** ** Any datagrams *)
Definition out_ok (d : Z * list Z) (o : list pkt * res unit) : Prop :=
  (forall p, In p (fst o) -> no_pps_packet p) /\ snd o <> Fuel /\
  (snd o = UB -> exists pre payload st, snd d = pre ++ payload /\ 12 <= zlen pre /\ short_payload st payload).
Lemma decode_any mem now st u0 d : strep mem st u0 -> 1 <= zlen mem < 2 ^ 32 -> bytes d -> zlen d < 2 ^ 60 ->
  exists st' u' o, h264_rtp_decode mem now st d = (st', o) /\ strep mem st' u' /\ out_ok (now, d) o.
Proof.
  intros Hst Hm Hb Hl. unfold h264_rtp_decode.
  destruct (irtp_total is_rtp_dynamic (h264_rtp_payload mem now) st d Hb Hl) as [->|[->|(h & c' & pre & payload & E & Hp & Ha & Hpt & ->)]].
  - exists st, u0. eexists. split; [reflexivity|]. split; [exact Hst|]. repeat split; try discriminate. intros p [].
  - exists st, u0. eexists. split; [reflexivity|]. split; [exact Hst|]. repeat split; try discriminate. intros p [].
  - destruct (payload_ok mem now h st u0 _ c' _ Hst Hm Ha) as (st' & -> & Hst'). eexists _, _, _. split; [reflexivity|].
    split; [exact Hst'|]. destruct (payload_UB (zlen mem) now (rh_ts h) u0 payload) as [H1 H2].
    split; [intros p; apply payload_out|]. split; [exact H2|]. intros HU. apply H1 in HU. exists pre, payload, u0. auto.
Qed.
Lemma run_any mem ds : forall st u0, strep mem st u0 -> 1 <= zlen mem < 2 ^ 32 ->
  Forall (fun d => bytes (snd d) /\ zlen (snd d) < 2 ^ 60) ds ->
  exists st' u' es, h264_rtp_run mem st ds = (st', es) /\ strep mem st' u' /\ Forall2 out_ok ds es.
Proof.
  induction ds as [|[now d] ds IH]; intros st u0 Hst Hm HF; [exists st, u0, []; repeat split; [exact Hst|constructor]|].
  inversion HF as [|? ? [Hb Hl] HF']; subst. cbn [snd] in *.
  destruct (decode_any mem now st u0 d Hst Hm Hb Hl) as (st1 & u1 & o & E1 & Hst1 & Ho).
  destruct (IH st1 u1 Hst1 Hm HF') as (st2 & u2 & es & E2 & Hst2 & Hes).
  cbn [h264_rtp_run]. rewrite E1, E2. exists st2, u2, (o :: es). repeat split; [exact Hst2|constructor; assumption].
Qed.

(** ** Aggregated units *)
Lemma stap_out cap now ts st h us : 0 <= h < 256 -> h mod 32 = 24 -> us <> [] -> Forall (fun u => 0 < zlen u < 256) us ->
  fst (payload_spec cap now ts st (stap_a h us)) = st /\
  snd (payload_spec cap now ts st (stap_a h us)) = ([], if zlen (stap_a h us) <? h + 1 then Err ERROR_IO_NOT_ENOUGH else Ok tt).
Proof.
  intros Hh H24 Hne HF. destruct us as [|u us]; [congruence|]. inversion HF; subst.
  unfold payload_spec, stap_a. rewrite H24. change ((0 <? 24) && (24 <? 24)) with false. change (24 =? 24) with true. cbv iota zeta.
  split; [reflexivity|]. cbn [snd]. unfold agg_spec. rewrite zlen_cons. cbn [flat_map].
  assert (E2 : be 2 (zlen u) = [0; zlen u]) by (unfold be; cbn [rev app]; rewrite Z.div_small, (Z.mod_small (zlen u)) by lia; reflexivity).
  rewrite E2. cbn [app]. set (r := u ++ flat_map (fun u0 => be 2 (zlen u0) ++ u0) us).
  destruct (Z.ltb_spec (zlen (0 :: zlen u :: r)) h); destruct (Z.ltb_spec (1 + zlen (0 :: zlen u :: r)) (h + 1)); try lia; [reflexivity|].
  unfold of_unit, nal_result. change (128 <=? 0) with false. change (0 mod 32 =? 7) with false. cbv iota. cbn [andb].
  reflexivity.
Qed.
