(** Lemmas for C239. *)
From Verif Require Import Base M_IO S_IO L_IO M_Packet M_Ts M_Text M_Http S_Http L_Http L_Http2 M_Tls S_Tls M_Https S_Https L_Https M_Flv S_Flv L_Flv M_Upload S_Upload L_Upload M_TsUp.

(** It is the demuxer of M_Ts.v. *)
Lemma ts_prog_same : forall fuel mem s b t, fst (run_plain (ts_prog fuel mem s b) t) = Ok (ts_demux fuel mem s (mkbr b (Some t))).
Proof.
  induction fuel as [|f IH]; intros mem s b t; [reflexivity|]. cbn [ts_prog ts_demux]. rewrite run_plain_bind.
  destruct (same_acquire SPS_TS_PACKET_SIZE b t) as (r & b1 & t1 & E1 & E2). unfold macquire in E1. rewrite E1, E2. cbn [br_buf br_io].
  destruct r as [u|c| |]; try reflexivity. destruct (slice (ab_data b1) (ab_ptr b1) SPS_TS_PACKET_SIZE) as [d|]; [|reflexivity].
  destruct (ts_decode mem s d) as [[s1 o] y]. destruct y as [u'|c| |]; try reflexivity. rewrite run_plain_bind.
  specialize (IH mem s1 (ab_clear b1) t1). destruct (run_plain (ts_prog f mem s1 (ab_clear b1)) t1) as [x t2]. cbn [fst] in IH. subst x.
  destruct (ts_demux f mem s1 (mkbr (ab_clear b1) (Some t1))) as [[s2 o2] x2]. reflexivity.
Qed.

(** It reads at least one byte at a time and stops at the first error. *)
Definition tsb (b : avbuf) : Prop := ab_ptr b = 0 /\ 0 <= ab_end b <= 188 /\ zlen (ab_data b) = 188.
Definition tq (x : res unit * avbuf) : Prop := match fst x with Ok _ => tsb (snd x) | _ => True end.
Lemma ts_loop_okb : forall fuel b, tsb b -> ab_end b < 188 -> 188 - ab_end b < Z.of_nat fuel -> okb tq gqe (acq_loop_prog fuel b 188).
Proof.
  induction fuel as [|f IH]; intros b Hb He Hf; [lia|]. destruct Hb as (H1 & H2 & H3). cbn [acq_loop_prog].
  assert (Hr : ab_remain b = 188 - ab_end b) by (unfold ab_remain, u64, ab_cap; rewrite H3; apply Z.mod_small; lia).
  constructor.
  - lia.
  - intros d Hd. unfold ab_store, ab_cap. rewrite H3. replace ((0 <=? ab_end b) && (ab_end b + zlen d <=? 188)) with true by lia. cbv zeta. cbn [ab_data ab_ptr ab_end ab_rw].
    set (b2 := mkab _ _ _ _). assert (A2 : tsb b2). { unfold tsb, b2. cbn [ab_data ab_ptr ab_end]. split; [exact H1|]. split; [lia|]. rewrite !zlen_app, zlen_take, zlen_drop by lia. lia. }
    assert (Hsz : ab_size b2 = ab_end b + zlen d) by (unfold ab_size, u64; cbn [b2 ab_ptr ab_end]; rewrite H1, Z.sub_0_r; apply Z.mod_small; lia).
    rewrite Hsz. destruct (Z.ltb_spec (ab_end b + zlen d) 188) as [K|K]; [|constructor; exact A2]. apply IH; [exact A2| |]; cbn [b2 ab_end]; lia.
  - intros c. eexists. split; reflexivity.
  - rewrite store_nil by (unfold ab_cap; lia). cbv zeta. change (zlen (@nil Z)) with 0. rewrite Z.add_0_r.
    assert (Hsz : ab_size (mkab (ab_data b) (ab_ptr b) (ab_end b) (ab_rw b)) = ab_end b) by (unfold ab_size, u64; cbn [ab_ptr ab_end]; rewrite H1, Z.sub_0_r; apply Z.mod_small; lia).
    rewrite Hsz. replace (ab_end b <? 188) with true by lia. destruct f as [|f]; [lia|]. cbn [acq_loop_prog]. eexists _, _, _. split; [reflexivity|].
    split; [|intros c; destruct b; reflexivity]. unfold ab_remain in Hr |- *. cbn [ab_end]. unfold ab_cap in *. cbn [ab_data]. rewrite Hr. lia.
Qed.
Lemma ts_acquire_okb : forall b, tsb b -> ab_end b = 0 -> okb tq gqe (gacquire 188 b).
Proof.
  intros b Hb He. destruct Hb as (H1 & H2 & H3). unfold gacquire.
  assert (Hsz : ab_size b = 0) by (unfold ab_size, u64; rewrite H1, He; reflexivity). rewrite Hsz. change (188 <=? 0) with false.
  assert (Hn : ab_norewind b = 188) by (unfold ab_norewind, u64, ab_cap; rewrite H1, H3; reflexivity).
  assert (Hc : ab_cap_size b = 188) by (unfold ab_cap_size; rewrite Hn; unfold ab_cap; rewrite H3; destruct (ab_rw b); reflexivity).
  rewrite Hc, Hn. change (188 <? 188) with false. cbv iota. rewrite Hn. change (188 <? 188) with false. cbv iota.
  apply ts_loop_okb; [split; [exact H1|]; split; [lia|exact H3]|lia|]. rewrite He. change (188 - 0) with 188. lia.
Qed.
Lemma ts_prog_okb : forall fuel mem s b, tsb b -> ab_end b = 0 -> okb (fun _ => True) (fun _ _ => True) (ts_prog fuel mem s b).
Proof.
  induction fuel as [|f IH]; intros mem s b Hb He; cbn [ts_prog]; [constructor; exact I|]. change SPS_TS_PACKET_SIZE with 188.
  eapply okb_bind; [apply ts_acquire_okb; assumption| |].
  - intros [r b1] Hr. unfold tq in Hr. cbn [fst snd] in Hr. destruct r as [u|c| |]; try (constructor; exact I).
    destruct (slice (ab_data b1) (ab_ptr b1) 188) as [d|]; [|constructor; exact I]. destruct (ts_decode mem s d) as [[s1 o] y].
    destruct y as [u'|c| |]; try (constructor; exact I). eapply okb_bind.
    + apply IH; [|reflexivity]. destruct Hr as (R1 & R2 & R3). split; [reflexivity|]. split; [cbn; lia|exact R3].
    + intros [[s2 o2] x2] _. constructor. exact I.
    + intros c [[s2 o2] x2] _. eexists. split; [reflexivity|exact I].
  - intros c [r b1] Hr. unfold gqe in Hr. cbn in Hr. subst r. eexists. split; [reflexivity|exact I].
Qed.
Lemma ts_publish_reads fuel mem fill : zlen fill = 188 -> reads_ok (ts_publish_prog fuel mem fill).
Proof.
  intros Hf. apply reads_body_ok, (okb_reads (fun _ => True) (fun _ _ => True)), ts_prog_okb; [|reflexivity]. split; [reflexivity|]. split; [cbn; lia|exact Hf].
Qed.
