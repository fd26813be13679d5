(** Lemmas for RTMP streaming. *)
From Verif Require Import Base M_Text M_Packet M_Flv S_Flv M_Rtmp S_Rtmp L_Rtmp M_Url M_RtmpSess S_RtmpSess L_RtmpSess
  L_IO L_Flv M_Live S_Live M_Stream S_Stream L_Stream M_RtmpRelay S_RtmpRelay.

Lemma rtmp_demux_case m : bytes (rm_body m) -> zlen (rm_body m) < 2 ^ 32 ->
  rtmp_demux_msg m = match spec_rtmp_msg m with
                     | RSkip => None | RPacket p => Some (Ok p) | RErr c => Some (Err c) | ROver => Some UB end.
Proof. exact (rtmp_demux_msg_ok m). Qed.

Lemma spec_rtmp_err_pos m c : spec_rtmp_msg m = RErr c -> c <> 0.
Proof.
  unfold spec_rtmp_msg. destruct (rm_type m =? 9).
  { unfold spec_rtmp_video. destruct (rm_body m) as [|flag b]; [discriminate|].
    destruct (_ && _); [intros [= <-]; discriminate|]. destruct (_ =? 5); [discriminate|].
    destruct b as [|x0 [|x1 [|x2 [|x3 b]]]]; try discriminate; intros H; injection H as <-; first [discriminate|destruct (_ <? _); discriminate]. }
  destruct (rm_type m =? 8).
  { unfold spec_rtmp_audio. destruct (rm_body m) as [|flag b]; [discriminate|].
    destruct (negb _); [intros [= <-]; discriminate|]. destruct b; discriminate. }
  destruct (_ || _); [unfold spec_rtmp_script; destruct (rm_body m); discriminate|discriminate].
Qed.

(** ** Publishing *)
Lemma rtmp_decode_prefix evs : forall s ps x s1 e, Forall message_ok (messages evs) ->
  rtmp_decode s evs = (ps, x, s1) -> initial ps (fst (spec_rtmp_all (messages evs) e)).
Proof.
  induction evs as [|ev l IH]; intros s ps x s1 e HF H; cbn [rtmp_decode] in H.
  - injection H as <- _ _. eexists. reflexivity.
  - destruct (hk_recv s ev) as [[c|c| |] s2]; try (injection H as <- _ _; eexists; reflexivity).
    destruct (c =? 0); cbn [negb] in H; [|injection H as <- _ _; eexists; reflexivity].
    destruct ev as [m n|c0 t sz]; cbn [messages] in *; [|eapply IH; eauto].
    destruct (Forall_inv HF) as (Hb & Hl & _). apply Forall_inv_tail in HF.
    rewrite rtmp_demux_case in H by (try exact Hb; lia). cbn [spec_rtmp_all].
    destruct (spec_rtmp_msg m) as [|p|c1|].
    + eapply IH; eauto.
    + destruct (rtmp_decode s2 l) as [[ps2 x2] s3] eqn:Ed. injection H as <- _ _.
      destruct (IH _ _ _ _ e HF Ed) as [z Hz]. destruct (spec_rtmp_all (messages l) e) as [q y]. cbn [fst] in *.
      exists z. cbn [app]. rewrite Hz. reflexivity.
    + injection H as <- _ _. eexists. reflexivity.
    + injection H as <- _ _. eexists. reflexivity.
Qed.

Lemma calm_orderly ev : calm ev -> orderly (fun _ _ => Some [AStr []]) ev.
Proof.
  intros (m & n & -> & Hn & H6 & H5). exists m, n. repeat split; auto. intros _. right.
  exists [], []. split; [reflexivity|]. intros H. cbn in H. intuition discriminate.
Qed.
Lemma calm_wire evs : Forall calm evs -> 0 <= wire evs.
Proof. induction 1 as [|ev evs (m & n & -> & Hn & _) _ IH]; cbn [wire]; lia. Qed.

Lemma rtmp_decode_calm evs : forall s, Forall calm evs -> Forall message_ok (messages evs) -> steady s ->
  hk_bytes (se_h s) + wire evs + 5000000 < 2 ^ 31 ->
  exists s1, rtmp_decode s evs =
    (publishes (messages evs),
     match problem (messages evs) with Err c => if c =? 0 then DWait else DEnd c | _ => DUB end, s1).
Proof.
  unfold publishes, problem.
  induction evs as [|ev l IH]; intros s HC HF Hs Hw; cbn [rtmp_decode].
  - eexists. reflexivity.
  - pose proof (Forall_inv HC) as Hc. pose proof (calm_wire _ (Forall_inv_tail HC)) as Hwl.
    assert (Hwe : wire (ev :: l) = wire [ev] + wire l) by (destruct ev; cbn [wire]; lia).
    destruct (orderly_recv _ s ev (calm_orderly _ Hc) Hs) as (s2 & -> & Hs2 & Hb2); [lia|].
    change (negb (0 =? 0)) with false. cbn iota. destruct Hc as (m & n & -> & _). cbn [messages] in *.
    destruct (Forall_inv HF) as (Hb & Hl & _). apply Forall_inv_tail in HF.
    destruct (IH s2 (Forall_inv_tail HC) HF Hs2 ltac:(lia)) as (s3 & He).
    rewrite rtmp_demux_case by (try exact Hb; lia). cbn [spec_rtmp_all].
    destruct (spec_rtmp_msg m) as [|p|c1|] eqn:Em.
    + rewrite He. eauto.
    + rewrite He. destruct (spec_rtmp_all (messages l) 0) as [q y]. cbn [fst snd]. eauto.
    + cbn [fst snd]. apply spec_rtmp_err_pos in Em. replace (c1 =? 0) with false by lia. eauto.
    + eauto.
Qed.

(** ** Playing *)
Definition no_silent (l : list sres) : Prop := Forall (fun r => r <> SFail 0) l.
Lemma rp_put_media heads w p : (forall n, 5 <= zlen (heads n)) -> media p = true ->
  rp_put heads w p = let '(c, w2) := rp_send (mkrp (rp_sends w) (S (rp_n w)) (rp_out w)) (rtmp_message p) in (Ok c, w2).
Proof. intros Hh Hm. unfold rp_put. rewrite rtmp_write_ok by (auto). reflexivity. Qed.
Lemma rp_put_other heads w p : media p = false ->
  rp_put heads w p = (Ok 0, mkrp (rp_sends w) (S (rp_n w)) (rp_out w)).
Proof.
  unfold media, rp_put, rtmp_write_packet. intros H. apply orb_false_iff in H as [H ->]. apply orb_false_iff in H as [-> ->].
  reflexivity.
Qed.

(** The code of the first failed send among the first [k]. *)
Lemma rp_batch_ok heads ps : (forall n, 5 <= zlen (heads n)) -> forall w, no_silent (rp_sends w) ->
  exists c w1 a, rp_batch heads w ps = (Ok c, w1) /\ rp_out w1 = rp_out w ++ a /\ no_silent (rp_sends w1) /\
    (forall x, In x (rp_sends w1) -> In x (rp_sends w)) /\
    ((c = 0 /\ a = map rtmp_message (filter media ps)) \/
     (c <> 0 /\ In (SFail c) (rp_sends w) /\ initial a (map rtmp_message (filter media ps)))).
Proof.
  intros Hh. induction ps as [|p ps IH]; intros w Hn; cbn [rp_batch].
  - exists 0, w, []. rewrite app_nil_r. repeat split; auto.
  - cbn [filter]. destruct (media p) eqn:Em.
    + rewrite rp_put_media by assumption. unfold rp_send. cbn [rp_sends rp_n rp_out].
      destruct (rp_sends w) as [|[|c] l] eqn:Es.
      * change (0 =? 0) with true. cbn iota. destruct (IH (mkrp (tl []) (S (rp_n w)) (rp_out w ++ [rtmp_message p]))) as (c & w1 & a & -> & Ho & Hn1 & Hi & H); [constructor|].
        cbn [rp_out rp_sends] in *. exists c, w1, (rtmp_message p :: a). split; [reflexivity|]. rewrite Ho, <- app_assoc. split; [reflexivity|].
        split; [exact Hn1|]. split; [auto|]. destruct H as [[-> ->]|(Hc & Hf & [z Hz])]; [left; auto|right].
        split; [exact Hc|]. split; [exact Hf|]. exists z. cbn [map app]. rewrite Hz. reflexivity.
      * change (0 =? 0) with true. cbn iota. cbn [tl]. destruct (IH (mkrp l (S (rp_n w)) (rp_out w ++ [rtmp_message p]))) as (c & w1 & a & -> & Ho & Hn1 & Hi & H); [exact (Forall_inv_tail Hn)|].
        cbn [rp_out rp_sends] in *. exists c, w1, (rtmp_message p :: a). split; [reflexivity|]. rewrite Ho, <- app_assoc. split; [reflexivity|].
        split; [exact Hn1|]. split; [intros x Hx; right; auto|]. destruct H as [[-> ->]|(Hc & Hf & [z Hz])]; [left; auto|right].
        split; [exact Hc|]. split; [right; exact Hf|]. exists z. cbn [map app]. rewrite Hz. reflexivity.
      * assert (c <> 0) by (intros ->; apply (Forall_inv Hn); reflexivity). replace (c =? 0) with false by lia.
        exists c, (mkrp l (S (rp_n w)) (rp_out w)), []. cbn [rp_out rp_sends]. rewrite app_nil_r. split; [reflexivity|]. split; [reflexivity|].
        split; [exact (Forall_inv_tail Hn)|]. split; [intros x Hx; right; exact Hx|]. right. split; [assumption|].
        split; [left; reflexivity|]. eexists. reflexivity.
    + rewrite rp_put_other by exact Em. change (0 =? 0) with true. cbn iota.
      destruct (IH (mkrp (rp_sends w) (S (rp_n w)) (rp_out w))) as (c & w1 & a & -> & Ho & Hn1 & Hi & H); [exact Hn|].
      cbn [rp_out rp_sends] in *. exists c, w1, a. auto.
Qed.
Lemma rp_loop_ok heads ds : (forall n, 5 <= zlen (heads n)) -> forall w, no_silent (rp_sends w) ->
  let full := map rtmp_message (filter media (concat (until_empty ds))) in
  exists r w1 a, rp_loop heads w ds = (r, w1) /\ rp_out w1 = rp_out w ++ a /\
    ((r = None /\ ~ In [] ds /\ a = full) \/
     (r = Some (Ok ERROR_SOCKET_TIMEOUT) /\ In [] ds /\ a = full) \/
     (exists c, r = Some (Ok c) /\ c <> 0 /\ In (SFail c) (rp_sends w) /\ initial a full)).
Proof.
  intros Hh. induction ds as [|d ds IH]; intros w Hn full.
  - exists None, w, []. rewrite app_nil_r. split; [reflexivity|]. split; [reflexivity|]. left. split; [reflexivity|]. split; [intros []|reflexivity].
  - destruct d as [|p d].
    + exists (Some (Ok ERROR_SOCKET_TIMEOUT)), w, []. rewrite app_nil_r. split; [reflexivity|]. split; [reflexivity|].
      right. left. split; [reflexivity|]. split; [left; reflexivity|reflexivity].
    + remember (p :: d) as pd eqn:Epd. assert (Hne : pd <> []) by (subst; discriminate).
      assert (Hu : until_empty (pd :: ds) = pd :: until_empty ds) by (subst; reflexivity).
      assert (Hl : rp_loop heads w (pd :: ds) = match rp_batch heads w pd with
         | (Ok c, w1) => if c =? 0 then rp_loop heads w1 ds else (Some (Ok c), w1) | (x, w1) => (Some x, w1) end) by (subst; reflexivity).
      rewrite Hl. subst full. rewrite Hu. cbn [concat]. rewrite filter_app, map_app. clear Hu Hl Epd p d.
      destruct (rp_batch_ok heads pd Hh w Hn) as (c & w1 & a & -> & Ho & Hn1 & Hi & [[-> ->]|(Hc & Hf & [z Hz])]).
      * change (0 =? 0) with true. cbn iota. destruct (IH w1 Hn1) as (r & w2 & b & -> & Ho2 & H).
        exists r, w2, (map rtmp_message (filter media pd) ++ b). split; [reflexivity|]. rewrite Ho2, Ho, <- app_assoc. split; [reflexivity|].
        destruct H as [(-> & H & ->)|[(-> & H & ->)|(c & -> & Hc & Hf & [z Hz])]].
        { left. split; [reflexivity|]. split; [|reflexivity]. intros [E|E]; auto. }
        { right. left. split; [reflexivity|]. split; [right; exact H|reflexivity]. }
        { right. right. exists c. split; [reflexivity|]. split; [exact Hc|]. split; [auto|]. exists z. rewrite <- app_assoc, Hz. reflexivity. }
      * replace (c =? 0) with false by lia. exists (Some (Ok c)), w1, a. split; [reflexivity|]. split; [exact Ho|].
        right. right. exists c. split; [reflexivity|]. split; [exact Hc|]. split; [exact Hf|].
        exists (z ++ map rtmp_message (filter media (concat (until_empty ds)))). rewrite app_assoc, Hz. reflexivity.
Qed.

(** ** Messages and packets *)
Ltac peel_bytes H := repeat match type of H with
  | bytes (_ :: _) => apply bytes_cons in H; let Hy := fresh "Hy" in destruct H as [Hy H] end.
Lemma flag_16 f : byte f -> u8 f = f.
Proof. intros H. apply Z.mod_small. exact H. Qed.
Lemma spec_resent m p : message_ok m -> spec_rtmp_msg m = RPacket p ->
  media p = true /\ resent m (rtmp_message p).
Proof.
  intros (Hb & Hl & Hts) H. assert (Hu : u32 (rm_ts m) = rm_ts m) by (apply Z.mod_small; exact Hts).
  unfold spec_rtmp_msg in H. destruct (rm_type m =? 9) eqn:E9.
  { unfold spec_rtmp_video in H. destruct (rm_body m) as [|flag b] eqn:Eb; [discriminate|].
    destruct (negb _ && negb _) eqn:Ec; [discriminate|]. pose proof (Forall_inv Hb) as Hf.
    destruct (flag / 16 =? 5) eqn:E5.
    - injection H as <-. split; [reflexivity|]. apply (rs_command _ _ flag b); [lia|reflexivity|lia|exact Eb|..].
      + unfold rtmp_message, rtmp_full_prefix, rtmp_prefix, is_script, is_audio. cbn [p_stream p_flags p_data rm_body].
        change (AV_STREAM_TYPE_VIDEO =? AV_STREAM_TYPE_SUBTITLE) with false. change (AV_STREAM_TYPE_VIDEO =? AV_STREAM_TYPE_AUDIO) with false.
        cbn iota. rewrite flag_16, land_f0_50, E5 by exact Hf. reflexivity.
      + cbn [rtmp_message rm_ts p_dts]. exact Hu.
      + reflexivity.
    - destruct b as [|ty [|c0 [|c1 [|c2 d]]]]; try discriminate. injection H as <-. split; [reflexivity|].
      peel_bytes Hb.
      apply (rs_video _ _ flag ty c0 c1 c2 d); [lia|reflexivity|lia|exact Eb|..].
      + unfold rtmp_message, rtmp_full_prefix, rtmp_prefix, is_script, is_audio. cbn [p_stream p_flags p_data rm_body p_pts p_dts].
        change (AV_STREAM_TYPE_VIDEO =? AV_STREAM_TYPE_SUBTITLE) with false. change (AV_STREAM_TYPE_VIDEO =? AV_STREAM_TYPE_AUDIO) with false.
        cbn iota. rewrite flag_16, land_f0_50, E5 by exact Hf. cbn [negb].
        unfold byte in *.
        assert (Hv : bev [c0; c1; c2] = c0 * 65536 + c1 * 256 + c2) by (unfold bev; cbn [fold_left]; lia).
        assert (Hs : - 2 ^ 23 <= flv_sign24 (bev [c0; c1; c2]) < 2 ^ 23 /\ (flv_sign24 (bev [c0; c1; c2])) mod 2 ^ 24 = bev [c0; c1; c2]).
        { rewrite Hv. unfold flv_sign24. destruct (_ <? _) eqn:E; (split; [lia|]).
          - apply Z.mod_small. lia.
          - symmetry. apply (Z.mod_unique _ _ (-1)); lia. }
        destruct Hs as [Hs1 Hs2]. rewrite cts_bytes_ok by lia.
        replace (rm_ts m + flv_sign24 (bev [c0; c1; c2]) - rm_ts m) with (flv_sign24 (bev [c0; c1; c2])) by lia.
        set (sv := flv_sign24 (bev [c0; c1; c2])) in *. clearbody sv. rewrite Hv in Hs2.
        assert (Hq : exists q, sv = c2 + (q * 256 + c1) * 256).
        { exists (sv / 2 ^ 24 * 256 + c0). pose proof (Z_div_mod_eq_full sv (2 ^ 24)). lia. }
        destruct Hq as [q Hq].
        replace (sv mod 16) with (c2 mod 16).
        2:{ replace sv with (c2 + (q * 4096 + c1 * 16) * 16) by lia. rewrite Z_mod_plus_full. reflexivity. }
        replace ((sv mod 2 ^ 24 / 16) mod 16) with (c2 / 16).
        2:{ rewrite Hs2. replace (c0 * 65536 + c1 * 256 + c2) with (c2 + (c0 * 4096 + c1 * 16) * 16) by lia. rewrite Z_div_plus_full by lia.
            replace (c2 / 16 + (c0 * 4096 + c1 * 16)) with (c2 / 16 + (c0 * 256 + c1) * 16) by lia. rewrite Z_mod_plus_full.
            symmetry. apply Z.mod_small. split; [apply Z.div_pos; lia|apply Z.div_lt_upper_bound; lia]. }
        cbn [app]. f_equal. f_equal. unfold is_video_seq, is_video. cbn [p_stream p_ptype].
        change (AV_STREAM_TYPE_VIDEO =? AV_STREAM_TYPE_VIDEO) with true. cbn [andb]. destruct (ty =? 0) eqn:Et; lia.
      + cbn [rtmp_message rm_ts p_dts]. exact Hu.
      + reflexivity. }
  destruct (rm_type m =? 8) eqn:E8.
  { unfold spec_rtmp_audio in H. destruct (rm_body m) as [|flag b] eqn:Eb; [discriminate|].
    destruct (negb _); [discriminate|]. destruct b as [|ty d]; [discriminate|]. injection H as <-.
    pose proof (Forall_inv Hb) as Hf. pose proof (Forall_inv (Forall_inv_tail Hb)) as Hy. unfold byte in *.
    split; [reflexivity|]. apply (rs_audio _ _ flag ty d); [lia|reflexivity|exact Eb|..].
    - unfold rtmp_message, rtmp_full_prefix, rtmp_prefix, is_script, is_audio. cbn [p_stream p_flags p_data rm_body].
      change (AV_STREAM_TYPE_AUDIO =? AV_STREAM_TYPE_SUBTITLE) with false. change (AV_STREAM_TYPE_AUDIO =? AV_STREAM_TYPE_AUDIO) with true.
      cbn iota. rewrite flag_16 by exact Hf. cbn [app]. f_equal. f_equal. unfold is_audio_seq, is_audio. cbn [p_stream p_ptype].
      change (AV_STREAM_TYPE_AUDIO =? AV_STREAM_TYPE_AUDIO) with true. cbn [andb]. destruct (ty =? 0) eqn:Et; lia.
    - cbn [rtmp_message rm_ts p_dts]. exact Hu.
    - reflexivity. }
  destruct ((rm_type m =? 18) || (rm_type m =? 15)) eqn:Es; [|discriminate].
  unfold spec_rtmp_script in H. destruct (rm_body m) as [|c b] eqn:Eb; [discriminate|]. injection H as <-.
  split; [reflexivity|]. apply rs_data; [lia|reflexivity|cbn; rewrite Eb; reflexivity| |reflexivity].
  cbn [rtmp_message rm_ts p_dts]. exact Hu.
Qed.

Lemma spec_all_from ms e : forall p, In p (fst (spec_rtmp_all ms e)) -> exists m, In m ms /\ spec_rtmp_msg m = RPacket p.
Proof.
  induction ms as [|m ms IH]; intros p H; [destruct H|]. cbn [spec_rtmp_all] in H.
  destruct (spec_rtmp_msg m) as [|q|c|] eqn:Em; try (destruct H; fail).
  - destruct (IH _ H) as (m' & Hi & Hs). exists m'. split; [right; exact Hi|exact Hs].
  - destruct (spec_rtmp_all ms e) as [qs y]. cbn [fst In] in H. destruct H as [->|H].
    + exists m. split; [left; reflexivity|exact Em].
    + destruct (IH _ H) as (m' & Hi & Hs). exists m'. split; [right; exact Hi|exact Hs].
Qed.
Lemma packets_from ms e (ps : list pkt) : (forall p, In p ps -> In p (fst (spec_rtmp_all ms e))) ->
  exists us, Forall2 (fun m p => In m ms /\ spec_rtmp_msg m = RPacket p) us ps.
Proof.
  induction ps as [|p ps IH]; intros H; [exists []; constructor|].
  destruct (spec_all_from ms e p (H p (or_introl eq_refl))) as (m & Hm).
  destruct IH as (us & HU); [intros q Hq; apply H; right; exact Hq|]. exists (m :: us). constructor; auto.
Qed.

(** ** As FLV *)
Lemma spec_tag m p : message_ok m -> spec_rtmp_msg m = RPacket p ->
  flv_tag p ++ be 4 (zlen (flv_tag p)) = flv_tag_text (as_tag m) /\ flv_media m = true /\ flv_fits p /\ flv_known p = true.
Proof.
  intros (Hb & Hl & Hts) H.
  assert (Hbody : flv_body p = rm_body m /\ p_dts p = rm_ts m /\ flv_known p = true /\
                  flv_type_byte p = (if rm_type m =? 15 then 18 else rm_type m) /\ flv_media m = true).
  { unfold spec_rtmp_msg in H. unfold flv_media. destruct (rm_type m =? 9) eqn:E9.
    { unfold spec_rtmp_video in H. destruct (rm_body m) as [|flag b] eqn:Eb; [discriminate|].
      assert (Hne : negb (zlen (flag :: b) =? 0) = true) by (rewrite zlen_cons; pose proof (zlen_nonneg b); lia). rewrite Hne.
      destruct (negb _ && negb _) eqn:Ec; [discriminate|]. pose proof (Forall_inv Hb) as Hf. unfold byte in Hf.
      assert (Hcmd : flv_video_command flag = (flag / 16 =? 5)).
      { unfold flv_video_command. rewrite (Z.mod_small (flag / 16)); [reflexivity|]. split; [apply Z.div_pos; lia|apply Z.div_lt_upper_bound; lia]. }
      replace (rm_type m =? 15) with false by lia.
      destruct (flag / 16 =? 5) eqn:E5.
      - injection H as <-. unfold flv_body, flv_prefix, flv_known, flv_type_byte. cbn [p_stream p_flags p_data p_dts].
        change (AV_STREAM_TYPE_VIDEO =? AV_STREAM_TYPE_AUDIO) with false. change (AV_STREAM_TYPE_VIDEO =? AV_STREAM_TYPE_VIDEO) with true.
        rewrite Hcmd. cbn iota. rewrite (Z.mod_small flag) by lia. repeat split; lia.
      - destruct b as [|ty [|c0 [|c1 [|c2 d]]]]; try discriminate. injection H as <-.
        unfold flv_body, flv_prefix, flv_known, flv_type_byte. cbn [p_stream p_flags p_data p_dts p_pts p_ptype].
        change (AV_STREAM_TYPE_VIDEO =? AV_STREAM_TYPE_AUDIO) with false. change (AV_STREAM_TYPE_VIDEO =? AV_STREAM_TYPE_VIDEO) with true.
        rewrite Hcmd. cbn iota. rewrite (Z.mod_small flag) by lia.
        peel_bytes Hb.
        unfold byte in *. rewrite (Z.mod_small ty) by lia.
        split; [|repeat split; lia].
        replace (rm_ts m + flv_sign24 (bev [c0; c1; c2]) - rm_ts m) with (flv_sign24 (bev [c0; c1; c2])) by lia.
        assert (Hv : bev [c0; c1; c2] = c0 * 65536 + c1 * 256 + c2) by (unfold bev; cbn [fold_left]; lia).
        assert (Hbe : be 3 (flv_sign24 (bev [c0; c1; c2])) = [c0; c1; c2]).
        { assert (Hs2 : (flv_sign24 (bev [c0; c1; c2])) mod 2 ^ 24 = bev [c0; c1; c2]).
          { rewrite Hv. unfold flv_sign24. destruct (_ <? _) eqn:E.
            - apply Z.mod_small. lia.
            - symmetry. apply (Z.mod_unique _ _ (-1)); lia. }
          rewrite <- (be_mod 3). change (256 ^ Z.of_nat 3) with (2 ^ 24). rewrite Hs2. apply (be_bev [c0; c1; c2]). repeat constructor; unfold byte; lia. }
        rewrite Hbe. reflexivity. }
    destruct (rm_type m =? 8) eqn:E8.
    { unfold spec_rtmp_audio in H. destruct (rm_body m) as [|flag b] eqn:Eb; [discriminate|].
      assert (Hne : negb (zlen (flag :: b) =? 0) = true) by (rewrite zlen_cons; pose proof (zlen_nonneg b); lia). rewrite Hne.
      destruct (negb (flag / 16 =? CODEC_AAC)); [discriminate|]. destruct b as [|ty d]; [discriminate|]. injection H as <-.
      pose proof (Forall_inv Hb) as Hf. pose proof (Forall_inv (Forall_inv_tail Hb)) as Hy. unfold byte in *.
      replace (rm_type m =? 15) with false by lia.
      unfold flv_body, flv_prefix, flv_known, flv_type_byte. cbn [p_stream p_flags p_data p_dts p_ptype].
      change (AV_STREAM_TYPE_AUDIO =? AV_STREAM_TYPE_AUDIO) with true. cbn iota. rewrite (Z.mod_small flag), (Z.mod_small ty) by lia.
      repeat split; lia. }
    destruct ((rm_type m =? 18) || (rm_type m =? 15)) eqn:Es; [|discriminate].
    unfold spec_rtmp_script in H. destruct (rm_body m) as [|c b] eqn:Eb; [discriminate|]. injection H as <-.
    assert (Hne : negb (zlen (c :: b) =? 0) = true) by (rewrite zlen_cons; pose proof (zlen_nonneg b); lia). rewrite Hne.
    unfold flv_body, flv_prefix, flv_known, flv_type_byte. cbn [p_stream p_flags p_data p_dts p_ptype].
    change (AV_STREAM_TYPE_SUBTITLE =? AV_STREAM_TYPE_AUDIO) with false. change (AV_STREAM_TYPE_SUBTITLE =? AV_STREAM_TYPE_VIDEO) with false.
    cbn iota. repeat split; try reflexivity; destruct (rm_type m =? 15) eqn:E15; lia. }
  destruct Hbody as (H1 & H2 & H3 & H4 & H5). unfold flv_fits. rewrite H1. split; [|auto].
  unfold flv_tag_text, flv_tag. rewrite H1, H2, H4. cbn [as_tag rm_type rm_body rm_ts rm_sid]. change (be 3 0) with [0; 0; 0].
  rewrite !zlen_app, !zlen_be. change (zlen [_]) with 1. change (zlen [0; 0; 0]) with 3.
  rewrite <- !app_assoc. change (Z.of_nat 3) with 3. change (Z.of_nat 1) with 1.
  match goal with |- context [be 4 (1 + ?x)] => replace (1 + x) with (zlen (rm_body m) + 11) by lia end. reflexivity.
Qed.
Lemma layout_text us : forall ps prev, Forall message_ok us -> Forall2 (fun m p => spec_rtmp_msg m = RPacket p) us ps ->
  exists last, flv_layout prev ps ++ be 4 last = be 4 prev ++ concat (map flv_tag_text (map as_tag us)).
Proof.
  induction us as [|m us IH]; intros ps prev HF H2; inversion H2; subst.
  - exists prev. reflexivity.
  - destruct (spec_tag m y (Forall_inv HF) H1) as (Ht & _).
    destruct (IH l' (zlen (flv_tag y)) (Forall_inv_tail HF) H4) as (last & Hlast). exists last.
    cbn [flv_layout map concat]. rewrite <- !app_assoc, Hlast, <- Ht, <- !app_assoc. reflexivity.
Qed.
