(** C250: sound that came over RTP, for a viewer of FLV. *)
From Verif Require Import Base M_IO S_IO L_IO M_Packet M_Flv S_Flv L_Flv P_Flv M_H264 M_AAC M_Ts M_Rtp M_RtpDemux
  S_Bits S_Fields S_Codec S_Ts S_Rtp S_RtpDemux L_Rtp L_Rtp2 L_RtpDemux P_Rtp P_RtpDemux.

(** C250: every access unit of the session, and nothing else, reaches the viewer, complete and in
    order, with the timestamp of its packet over 90 as time; the viewer is never told how to decode
    them: no tag carries the configuration of the decoder (a sequence header, type 0). *)
Theorem rtp_sound_in_flv : forall mem us ds e fuel fill,
  Forall (fun u : Z * rtp_packet * list (Z * list Z) => pk_media (snd (fst u)) /\
    Forall (fun a => au_ok a /\ snd a <> []) (snd u) /\ zlen (snd u) < 2 ^ 12 /\ bytes (au_payload (snd u))) us ->
  Forall fine ds -> filter media ds = map (fun u => (fst (fst u), rtp_bytes (snd (fst u)) (au_payload (snd u)))) us ->
  (length (flat_map snd us) < fuel)%nat -> 2 ^ 14 <= zlen fill < 2 ^ 24 ->
  exists ps s1 m out,
    rtp_read_all fuel mem (mkrd (fst (rtp_init_codec DNone 10)) []) ds e = (ps, Err e) /\
    flv_write_header None (mksink [] []) = (Ok tt, s1) /\
    flv_write_all flvmux0 ps s1 = (Ok tt, m, mksink [] out) /\
    (forall t, nonempty_chunks (t_chunks t) -> t_stream t = out ->
       exists hp r1, flv_demux (S (length ps)) (br_new fill t) = (Ok hp, (ps, Err (t_err t), r1))) /\
    map p_data ps = map snd (flat_map snd us) /\
    map p_dts ps = flat_map (fun u => repeat (pk_ts (snd (fst u)) / 90) (length (snd u))) us /\
    Forall (fun p => is_audio p = true /\ p_ptype p = 1) ps.
Proof.
  intros mem us ds e fuel fill Hu Hf Ed Hn Hfill.
  set (ps := flat_map (fun u : Z * rtp_packet * list (Z * list Z) => map (fun a => audio_pkt 1 (pk_ts (snd (fst u)) / 90) (snd a)) (snd u)) us).
  assert (LN : length ps = length (flat_map snd us)).
  { subst ps. clear. induction us as [|u us IH]; [reflexivity|]. cbn [flat_map]. rewrite !app_length, IH, map_length. reflexivity. }
  assert (TR : Forall (flv_transportable (zlen fill)) ps).
  { subst ps. clear - Hu Hfill. induction Hu as [|u us (Hk & Ha & _) _ IH]; [constructor|]. cbn [flat_map].
    apply Forall_app. split; [|exact IH].
    assert (T : 0 <= pk_ts (snd (fst u)) < 2 ^ 32).
    { destruct Hk as ((F & _) & _). unfold pk_fields, fields_fit in F. cbn [forallb fst snd] in F. lia. }
    apply Forall_forall. intros p Hp. apply in_map_iff in Hp as (a & <- & Ia). rewrite Forall_forall in Ha.
    destruct (Ha a Ia) as ((_ & Hl & Hb) & Hne). unfold flv_transportable, audio_pkt.
    cbn [p_data p_dts p_pts p_msg p_stream p_flags p_codec p_ptype]. repeat split; try assumption.
    - unfold flv_body. cbn [p_stream p_data p_flags p_ptype]. rewrite ?zlen_app.
      change (AV_STREAM_TYPE_AUDIO =? AV_STREAM_TYPE_AUDIO) with true. cbn iota. rewrite ?zlen_app.
      match goal with |- ?x <= _ => assert (x <= 2 + zlen (snd a)) end.
      { cbn. unfold zlen. cbn [length app]. rewrite ?app_length. cbn [length]. lia. }
      lia.
    - apply Z.div_pos; lia.
    - apply Z.div_lt_upper_bound; lia.
    - left. repeat split; try reflexivity; try (vm_compute; discriminate). }
  destruct (flv_mux_demux_roundtrip fill ps ltac:(lia) TR) as (s1 & m & out & W1 & W2 & W3).
  exists ps, s1, m, out. split; [|split; [exact W1|split; [exact W2|split; [exact W3|]]]].
  - refine (proj1 (rtp_aac_session_exact mem us ds e fuel _ Hf Ed _)).
    + eapply Forall_impl; [|exact Hu]. intros u (H1 & H2 & H3 & H4). split; [exact H1|]. split; [|split; assumption].
      eapply Forall_impl; [|exact H2]. intros a [? _]. assumption.
    + fold ps. lia.
  - subst ps. clear. induction us as [|u us (IH1 & IH2 & IH3)]; [repeat split; constructor|]. cbn [flat_map].
    rewrite !map_app, IH1, IH2. repeat split.
    + f_equal. rewrite map_map. reflexivity.
    + f_equal. rewrite map_map. induction (snd u) as [|a l IHl]; [reflexivity|]. cbn [map length repeat]. rewrite IHl. reflexivity.
    + apply Forall_app. split; [|exact IH3]. apply Forall_forall. intros p Hp. apply in_map_iff in Hp as (a & <- & _). split; reflexivity.
Qed.
Print Assumptions rtp_sound_in_flv.

(** Non-vacuity of C250: two packets with three units, a goodbye behind them. *)
Definition rf_us : list (Z * rtp_packet * list (Z * list Z)) :=
  [(0, mkpk 2 0 1 97 7 9000 5 [] None, [(0, [1; 2; 3]); (0, [4])]); (21, mkpk 2 0 1 97 8 11048 5 [] None, [(0, [5; 6])])].
Definition rf_ds : list (Z * list Z) :=
  map (fun u => (fst (fst u), rtp_bytes (snd (fst u)) (au_payload (snd u)))) rf_us ++ [(30, rd_bye)].
Example rtp_flv_case :
  Forall (fun u : Z * rtp_packet * list (Z * list Z) => pk_media (snd (fst u)) /\
    Forall (fun a => au_ok a /\ snd a <> []) (snd u) /\ zlen (snd u) < 2 ^ 12 /\ bytes (au_payload (snd u))) rf_us /\
  Forall fine rf_ds /\
  filter media rf_ds = map (fun u => (fst (fst u), rtp_bytes (snd (fst u)) (au_payload (snd u)))) rf_us /\
  map p_dts (fst (rtp_read_all 5 [] (mkrd (fst (rtp_init_codec DNone 10)) []) rf_ds ERROR_SOCKET_TIMEOUT)) = [100; 100; 122].
Proof.
  split; [|split; [|split; vm_compute; reflexivity]].
  - repeat constructor; try (vm_compute; discriminate); try (apply bytesb_spec; reflexivity); try (vm_compute; reflexivity).
  - repeat constructor; try (vm_compute; discriminate); try (intros H; vm_compute in H; discriminate H);
      try (apply bytesb_spec; reflexivity); try (intros S; vm_compute in S; intuition discriminate); try (intros H; vm_compute in H |- *; discriminate).
Qed.
