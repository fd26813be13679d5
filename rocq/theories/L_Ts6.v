(** TS lemmas: acceptance of well-formed streams. *)
From Verif Require Import Base M_Bits S_Bits L_Bits M_Fields L_Align S_Fields L_Pack M_Packet M_IO S_IO L_IO M_Cache L_Cache
  M_H264 M_AAC L_Rtp M_Ts S_Ts L_Ts L_Ts2 L_Ts3 L_Ts4 L_Ts5.

Lemma last_cons (L : list Z) : forall x d, List.last (x :: L) d = List.last L x.
Proof.
  induction L as [|y L IH]; intros x d; [reflexivity|]. change (List.last (x :: y :: L) d) with (List.last (y :: L) d).
  rewrite IH. symmetry. apply IH.
Qed.
Definition only_pid (pid : Z) (s s' : tsst) : Prop :=
  s_adts s' = s_adts s /\ forall q, q <> pid -> s_progs s' q = s_progs s q.
Lemma middle_accept mem s k p len pts dts es : mem_ok mem -> pk_fits k -> t_has k = true -> t_pusi k = 0 ->
  s_progs s (t_pid k) = Some (PPes p) -> pending mem p len pts dts (clip_len len es) ->
  t_cc k = next_cc (ps_cc p) -> (len = 0 -> zlen es + zlen (t_body k) <= TS_DEFAULT_PES) ->
  exists s' p', ts_decode mem s (ts_bytes k) = (s', [ts_on_packet TS_PROGRAM_PES 0 (ts_bytes k)], Ok tt) /\
    s_progs s' (t_pid k) = Some (PPes p') /\ pending mem p' len pts dts (clip_len len (es ++ t_body k)) /\
    ps_type p' = ps_type p /\ ps_cc p' = t_cc k /\ s_queue s' = s_queue s /\ only_pid (t_pid k) s s'.
Proof.
  intros Hm Hf Hh Hu Ep Hp Hcc Hroom. destruct (ts_decode_fits mem s k Hf) as (c & Ha & Hb & E).
  rewrite E, (after_pes _ _ _ _ _ Ep Hh). unfold pes_decode. cbn [t_hdr th_pusi th_cc]. rewrite Hu, land_next, Hcc, (Z.eqb_refl (next_cc (ps_cc p))).
  assert (Hbuf : exists b, ps_buf p = Some b) by (destruct Hp as (_ & _ & _ & _ & _ & Hp'); eauto).
  destruct Hbuf as (b & Eb). rewrite Eb. cbn [Z.eqb andb negb].
  pose proof (pending_cc _ _ _ _ _ (next_cc (ps_cc p)) _ Hp) as Hp1.
  destruct (dump_ok _ _ _ _ _ _ _ _ _ Hm Hp1 Ha Hb) as [((Z0 & Hov) & _)|(_ & p2 & Ed & Hp2 & T2 & C2)].
  { exfalso. specialize (Hroom Z0). subst len. unfold clip_len in Hov. cbn [Z.eqb] in Hov. lia. }
  rewrite Ed. eexists _, p2. split; [reflexivity|]. unfold set_progs; cbn [s_progs s_queue s_adts]. rewrite add_same.
  split; [reflexivity|]. rewrite clip_clip in Hp2. split; [exact Hp2|]. cbn [set_cc ps_type ps_cc] in T2, C2.
  split; [exact T2|]. split; [exact C2|]. split; [reflexivity|]. unfold only_pid; cbn [s_adts s_progs]. split; [reflexivity|].
  intros q Hq. apply add_other, Hq.
Qed.
Lemma middle_run mem pid len pts dts l : forall s p es, mem_ok mem ->
  Forall (fun k => pk_fits k /\ t_pid k = pid /\ t_has k = true) l -> Forall (fun k => t_pusi k = 0) l ->
  s_progs s pid = Some (PPes p) -> pending mem p len pts dts (clip_len len es) ->
  consecutive (ps_cc p) (map t_cc l) -> (len = 0 -> zlen es + zlen (flat_map t_body l) <= TS_DEFAULT_PES) ->
  exists s' p', ts_run mem s (map ts_bytes l) = (s', map (fun k => ts_on_packet TS_PROGRAM_PES (t_pusi k) (ts_bytes k)) l, Ok tt) /\
    s_progs s' pid = Some (PPes p') /\ pending mem p' len pts dts (clip_len len (es ++ flat_map t_body l)) /\
    ps_type p' = ps_type p /\ ps_cc p' = List.last (map t_cc l) (ps_cc p) /\ s_queue s' = s_queue s /\ only_pid pid s s'.
Proof.
  induction l as [|k l IH]; intros s p es Hm Hl Hu Ep Hp Hcc Hroom.
  - exists s, p. split; [reflexivity|]. cbn [flat_map map List.last]. rewrite app_nil_r. unfold only_pid. auto 10.
  - inversion Hl as [|? ? (Hf & Epid & Hh) Hl']; subst. inversion Hu as [|? ? Hu0 Hu']; subst.
    cbn [map consecutive] in Hcc. destruct Hcc as [Hc Hcc]. cbn [flat_map] in Hroom |- *.
    rewrite zlen_app in Hroom. pose proof (zlen_nonneg (flat_map t_body l)).
    destruct (middle_accept mem s k p len pts dts es Hm Hf Hh Hu0 Ep Hp Hc ltac:(intros Z0; specialize (Hroom Z0); lia))
      as (s1 & p1 & E1 & Ep1 & Hp1 & T1 & C1 & Q1 & (O1 & O1')).
    rewrite <- C1 in Hcc.
    destruct (IH s1 p1 _ Hm Hl' Hu' Ep1 Hp1 Hcc ltac:(intros Z0; specialize (Hroom Z0); rewrite zlen_app; lia))
      as (s2 & p2 & E2 & Ep2 & Hp2 & T2 & C2 & Q2 & (O2 & O2')).
    exists s2, p2. cbn [map ts_run]. rewrite E1, E2, Hu0. split; [reflexivity|]. split; [exact Ep2|].
    rewrite <- app_assoc in Hp2. split; [exact Hp2|]. split; [congruence|].
    split. { rewrite C2, C1. rewrite last_cons. reflexivity. }
    split; [congruence|]. split; [congruence|]. intros q Hq. rewrite O2', O1'; auto.
Qed.

(** What the next unit start will deliver. *)
Definition ready (mem : list Z) (p : pesst) (out : list pkt) : Prop :=
  (ps_buf p = None /\ out = []) \/
  (exists len pts dts es, pending mem p len pts dts es /\ ps_type p = TS_STREAM_H264 /\
     h264_encode_avc (mkav dts pts 90) (-1) (codec_bytes TS_STREAM_H264 len mem es) = Ok out).
Lemma ready_cc mem p out cc : ready mem p out -> ready mem (set_cc p cc) out.
Proof.
  intros [[H1 H2]|(len & pts & dts & es & H1 & H2 & H3)]; [left; auto|]. right. exists len, pts, dts, es. split; [apply pending_cc, H1|]. auto.
Qed.
Lemma flush_ready mem s p out : mem_ok mem -> ready mem p out -> exists s1 p1, pes_flush s p = (s1, p1, Ok tt) /\
  s_progs s1 = s_progs s /\ s_adts s1 = s_adts s /\ s_queue s1 = s_queue s ++ out.
Proof.
  intros Hm [[H1 ->]|(len & pts & dts & es & H1 & H2 & H4)].
  - exists s, p. unfold pes_flush. rewrite H1, app_nil_r. auto.
  - destruct (flush_ok mem s p len pts dts es Hm H1) as (s1 & r & E & Hpr & D). unfold unit_done in D.
    rewrite H2, Z.eqb_refl, H4 in D. destruct D as (D1 & -> & D2). eauto 10.
Qed.
Lemma start_accept mem s k p u d0 out : mem_ok mem -> pk_fits k -> t_has k = true -> t_pusi k = 1 ->
  t_body k = pes_head u ++ d0 -> pu_ok u -> s_progs s (t_pid k) = Some (PPes p) -> ready mem p out ->
  t_cc k = next_cc (ps_cc p) ->
  exists s' p', ts_decode mem s (ts_bytes k) = (s', [ts_on_packet TS_PROGRAM_PES 1 (ts_bytes k)], Ok tt) /\
    s_progs s' (t_pid k) = Some (PPes p') /\ pending mem p' (pu_len u) (pu_pts u) (pu_dts u) (clip_len (pu_len u) d0) /\
    ps_type p' = ps_type p /\ ps_cc p' = t_cc k /\ s_queue s' = s_queue s ++ out /\ only_pid (t_pid k) s s'.
Proof.
  intros Hm Hf Hh Hu Eb Hpu Ep Hr Hcc. destruct (ts_decode_fits mem s k Hf) as (c & Ha & Hb & E).
  rewrite E, (after_pes _ _ _ _ _ Ep Hh). unfold pes_decode. cbn [t_hdr th_pusi th_cc]. rewrite Hu, land_next, Hcc, (Z.eqb_refl (next_cc (ps_cc p))).
  cbn [Z.eqb andb negb]. rewrite Eb in Ha.
  destruct (start_ok mem s (set_cc p (next_cc (ps_cc p))) u d0 _ c Hm Ha Hb Hpu) as (p' & (Hp & T & C) & Es).
  destruct (flush_ready mem s _ out Hm (ready_cc _ _ _ (next_cc (ps_cc p)) Hr)) as (s1 & p1 & Ef & Q1 & Q2 & Q3).
  rewrite Es, Ef. cbn [fst snd].
  eexists _, p'. split; [reflexivity|]. unfold set_progs; cbn [s_progs s_queue s_adts]. rewrite add_same.
  split; [reflexivity|]. split; [exact Hp|]. split; [exact T|]. split; [exact C|]. split; [exact Q3|].
  unfold only_pid; cbn [s_adts s_progs]. split; [exact Q2|]. intros q Hq. rewrite add_other by exact Hq. rewrite Q1. reflexivity.
Qed.

(** One unit. *)
Lemma ts_run_app mem a : forall s b s1 o1, ts_run mem s a = (s1, o1, Ok tt) ->
  ts_run mem s (a ++ b) = let '(s2, o2, r) := ts_run mem s1 b in (s2, o1 ++ o2, r).
Proof.
  induction a as [|d a IH]; intros s b s1 o1 E; cbn [app ts_run] in *.
  - injection E as <- <-. destruct (ts_run mem s b) as [[? ?] ?]. reflexivity.
  - destruct (ts_decode mem s d) as [[s2 o2] r2]. destruct r2 as [[]| | |]; try discriminate.
    destruct (ts_run mem s2 a) as [[s3 o3] r3] eqn:E3. injection E as <- <- ->.
    rewrite (IH _ b _ _ E3). destruct (ts_run mem s3 b) as [[? ?] ?]. rewrite app_assoc. reflexivity.
Qed.
Definition forwarded (k : tsp) : pkt := ts_on_packet TS_PROGRAM_PES (t_pusi k) (ts_bytes k).
Lemma unit_accept mem s pid p t out : mem_ok mem -> tu_ok pid t -> s_progs s pid = Some (PPes p) -> ready mem p out ->
  consecutive (ps_cc p) (map t_cc (tu_packets t)) -> (pu_len (tu_pes t) = 0 -> zlen (tu_data t) <= TS_DEFAULT_PES) ->
  exists s' p', ts_run mem s (map ts_bytes (tu_packets t)) = (s', map forwarded (tu_packets t), Ok tt) /\
    s_progs s' pid = Some (PPes p') /\
    pending mem p' (pu_len (tu_pes t)) (pu_pts (tu_pes t)) (pu_dts (tu_pes t)) (clip_len (pu_len (tu_pes t)) (tu_data t)) /\
    ps_type p' = ps_type p /\ ps_cc p' = List.last (map t_cc (tu_packets t)) (ps_cc p) /\ s_queue s' = s_queue s ++ out /\ only_pid pid s s'.
Proof.
  intros Hm (Hpu & Eb & Hk & Hu & Hus) Ep Hr Hcc Hroom. unfold tu_packets in *. unfold tu_data in *.
  inversion Hk as [|? ? (Hf & Epid & Hh) Hk']; subst. cbn [map consecutive] in Hcc. destruct Hcc as [Hc Hcc].
  rewrite zlen_app in Hroom.
  destruct (start_accept mem s _ p _ _ out Hm Hf Hh Hu Eb Hpu Ep Hr Hc) as (s1 & p1 & E1 & Ep1 & Hp1 & T1 & C1 & Q1 & O1 & O1').
  rewrite <- C1 in Hcc.
  destruct (middle_run mem _ _ _ _ _ s1 p1 _ Hm Hk' Hus Ep1 Hp1 Hcc Hroom) as (s2 & p2 & E2 & Ep2 & Hp2 & T2 & C2 & Q2 & O2 & O2').
  exists s2, p2. cbn [map ts_run]. rewrite E1, E2. unfold forwarded. rewrite Hu. split; [reflexivity|]. split; [exact Ep2|]. split; [exact Hp2|].
  split; [congruence|].
  split. { rewrite C2, C1. cbn [map]. rewrite last_cons. reflexivity. }
  split; [congruence|]. split; [congruence|]. intros q Hq. rewrite O2', O1'; auto.
Qed.
Lemma consecutive_app a : forall c b, consecutive c (a ++ b) -> consecutive c a /\ consecutive (List.last a c) b.
Proof.
  induction a as [|x a IH]; intros c b H; [split; [exact I|exact H]|]. cbn [app consecutive] in H |- *.
  destruct H as [H1 H2]. destruct (IH _ _ H2) as [H3 H4]. split; [split; assumption|].
  rewrite last_cons. exact H4.
Qed.
(** A whole stream of H.264 units: all but the last are delivered. *)
Definition tu_room (t : tsunit) : Prop := pu_len (tu_pes t) = 0 -> zlen (tu_data t) <= TS_DEFAULT_PES.
Definition h264_unit (mem : list Z) (t : tsunit) (out : list pkt) : Prop :=
  tu_room t /\
  h264_encode_avc (mkav (pu_dts (tu_pes t)) (pu_pts (tu_pes t)) 90) (-1)
    (codec_bytes TS_STREAM_H264 (pu_len (tu_pes t)) mem (clip_len (pu_len (tu_pes t)) (tu_data t))) = Ok out.
Lemma stream_accept mem pid ts : forall outs z s p out, mem_ok mem ->
  Forall (tu_ok pid) (ts ++ [z]) -> Forall2 (h264_unit mem) ts outs -> tu_room z ->
  s_progs s pid = Some (PPes p) -> ps_type p = TS_STREAM_H264 -> ready mem p out ->
  consecutive (ps_cc p) (map t_cc (flat_map tu_packets (ts ++ [z]))) ->
  exists s' p', ts_run mem s (map ts_bytes (flat_map tu_packets (ts ++ [z]))) = (s', map forwarded (flat_map tu_packets (ts ++ [z])), Ok tt) /\
    s_progs s' pid = Some (PPes p') /\
    pending mem p' (pu_len (tu_pes z)) (pu_pts (tu_pes z)) (pu_dts (tu_pes z)) (clip_len (pu_len (tu_pes z)) (tu_data z)) /\
    ps_type p' = TS_STREAM_H264 /\
    s_queue s' = s_queue s ++ out ++ concat outs /\ only_pid pid s s'.
Proof.
  induction ts as [|t ts IH]; intros outs z s p out Hm Hok Hout Hz Ep Htp Hr Hcc.
  - inversion Hout; subst. cbn [app flat_map concat] in *. rewrite app_nil_r in *. inversion Hok; subst.
    destruct (unit_accept mem s pid p z out Hm ltac:(assumption) Ep Hr Hcc Hz) as (s1 & p1 & E & Ep1 & Hp1 & T1 & C1 & Q1 & O1).
    exists s1, p1. rewrite app_nil_r. split; [exact E|]. split; [exact Ep1|]. split; [exact Hp1|]. split; [congruence|]. auto.
  - inversion Hout as [|? o1 ? outs' (L1 & L2) Hout']; subst. cbn [app flat_map] in *. inversion Hok as [|? ? Ht Hok']; subst.
    rewrite map_app in Hcc. apply consecutive_app in Hcc as [Hc1 Hc2].
    destruct (unit_accept mem s pid p t out Hm Ht Ep Hr Hc1 L1) as (s1 & p1 & E & Ep1 & Hp1 & T1 & C1 & Q1 & O1 & O1').
    destruct (IH outs' z s1 p1 o1 Hm Hok' Hout' Hz Ep1 ltac:(congruence)) as (s2 & p2 & E2 & Ep2 & Hp2 & T2 & Q2 & O2 & O2').
    { right. eexists _, (pu_pts (tu_pes t)), (pu_dts (tu_pes t)), _. split; [exact Hp1|]. split; [congruence|]. auto. }
    { rewrite C1. exact Hc2. }
    exists s2, p2. rewrite map_app, (ts_run_app _ _ _ _ _ _ E), E2, map_app. split; [reflexivity|]. split; [exact Ep2|]. split; [exact Hp2|].
    split; [exact T2|]. split; [|split; [congruence|intros; rewrite O2', O1'; auto]].
    cbn [concat]. rewrite Q2, Q1, <- app_assoc. reflexivity.
Qed.
