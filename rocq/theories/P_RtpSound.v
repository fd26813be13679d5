(** C249: the times of sound that comes over RTP. *)
From Verif Require Import Base M_Bits M_Fields M_Packet M_Cache M_H264 M_AAC M_Ts M_Rtp M_RtpDemux
  S_Bits S_Fields S_Codec S_Ts S_Rtp S_RtpDemux L_Bits L_Pack L_Align L_IO L_Rtp L_Rtp2 L_RtpDemux P_Rtp P_RtpDemux.

(** A sender of RFC 3640: one access unit of [step] samples in each packet, timestamps that
    count samples from [t0] modulo 2^32. *)
Definition sender (t0 step : Z) (us : list (Z * rtp_packet * list (Z * list Z))) : Prop :=
  Forall (fun u => pk_media (snd (fst u)) /\ Forall au_ok (snd u) /\ zlen (snd u) = 1 /\ bytes (au_payload (snd u))) us /\
  forall j u, nth_error us j = Some u -> pk_ts (snd (fst u)) = (t0 + step * Z.of_nat j) mod 2 ^ 32.

(** C249: the [j]-th unit of the session is delivered with the timestamp over 90. *)
Theorem rtp_sound_times : forall t0 step us mem ds e fuel, sender t0 step us -> Forall fine ds ->
  filter media ds = map (fun u => (fst (fst u), rtp_bytes (snd (fst u)) (au_payload (snd u)))) us ->
  (length us < fuel)%nat ->
  exists out, rtp_read_all fuel mem (mkrd (fst (rtp_init_codec DNone 10)) []) ds e = (out, Err e) /\
    length out = length us /\
    forall j p, nth_error out j = Some p -> p_dts p = ((t0 + step * Z.of_nat j) mod 2 ^ 32) / 90.
Proof.
  intros t0 step us mem ds e fuel [Hu Ht] Hf Ed Hn.
  set (out := flat_map (fun u : Z * rtp_packet * list (Z * list Z) => map (fun a => audio_pkt 1 (pk_ts (snd (fst u)) / 90) (snd a)) (snd u)) us).
  assert (L : length out = length us /\ forall j p, nth_error out j = Some p -> exists u, nth_error us j = Some u /\ p_dts p = pk_ts (snd (fst u)) / 90).
  { subst out. clear - Hu. induction Hu as [|u us (_ & _ & H1 & _) _ [IH1 IH2]]; [split; [reflexivity|intros [|] p E; discriminate E]|].
    cbn [flat_map]. destruct (snd u) as [|a [|b l]]; try (unfold zlen in H1; cbn [length] in H1; lia). cbn [map app length]. split; [lia|].
    intros [|j] p E; cbn [nth_error] in *; [|exact (IH2 j p E)]. injection E as <-. exists u. split; reflexivity. }
  destruct L as [L1 L2]. exists out. split; [|split; [exact L1|]].
  - refine (proj1 (rtp_aac_session_exact mem us ds e fuel _ Hf Ed _)).
    + eapply Forall_impl; [|exact Hu]. intros u (H1 & H2 & H3 & H4). split; [exact H1|]. split; [exact H2|]. split; [lia|exact H4].
    + fold out. rewrite L1. exact Hn.
  - intros j p E. destruct (L2 j p E) as (u & Eu & ->). rewrite (Ht j u Eu). reflexivity.
Qed.
Print Assumptions rtp_sound_times.

(** C249: so sound sampled at [rate] that lasts [ms] milliseconds is delivered as lasting
    [ms * rate / 90000], give or take a millisecond: right only for a rate of 90000. *)
Theorem rtp_sound_speed : forall t0 step us mem ds e fuel rate ms i j p q, sender t0 step us -> Forall fine ds ->
  filter media ds = map (fun u => (fst (fst u), rtp_bytes (snd (fst u)) (au_payload (snd u)))) us ->
  (length us < fuel)%nat -> 0 <= t0 -> 0 <= step -> t0 + step * Z.of_nat (length us) <= 2 ^ 32 ->
  let out := fst (rtp_read_all fuel mem (mkrd (fst (rtp_init_codec DNone 10)) []) ds e) in
  (i <= j)%nat -> nth_error out i = Some p -> nth_error out j = Some q ->
  ms * rate = 1000 * (step * Z.of_nat (j - i)) ->
  ms * rate - 90000 < 90000 * (p_dts q - p_dts p) < ms * rate + 90000.
Proof.
  intros t0 step us mem ds e fuel rate ms i j p q Hs Hf Ed Hn H0 H1 Hw out Hij Ei Ej Hm.
  destruct (rtp_sound_times t0 step us mem ds e fuel Hs Hf Ed Hn) as (o & E & Lo & T).
  subst out. rewrite E in *. cbn [fst] in *. rewrite (T _ _ Ei), (T _ _ Ej).
  assert (Z.of_nat j < Z.of_nat (length us)).
  { rewrite <- Lo. apply inj_lt. apply nth_error_Some. congruence. }
  destruct (Z.eq_dec step 0) as [->|].
  { rewrite Hm, !Z.mul_0_l, Z.sub_diag. lia. }
  assert (step * Z.of_nat i <= step * Z.of_nat j) by (apply Z.mul_le_mono_nonneg_l; lia).
  assert (step * Z.of_nat j < step * Z.of_nat (length us)) by (apply Z.mul_lt_mono_pos_l; lia).
  assert (0 <= step * Z.of_nat i) by (apply Z.mul_nonneg_nonneg; lia).
  rewrite Hm, Nat2Z.inj_sub, Z.mul_sub_distr_l by exact Hij.
  rewrite !Z.mod_small by lia.
  pose proof (Z.div_mod (t0 + step * Z.of_nat i) 90 ltac:(lia)). pose proof (Z.mod_pos_bound (t0 + step * Z.of_nat i) 90 ltac:(lia)).
  pose proof (Z.div_mod (t0 + step * Z.of_nat j) 90 ltac:(lia)). pose proof (Z.mod_pos_bound (t0 + step * Z.of_nat j) 90 ltac:(lia)).
  lia.
Qed.
Print Assumptions rtp_sound_speed.

(** C249: where the timestamps start again, so do the times: they fall by 2^32 samples over 90,
    more than 13 hours and 15 minutes, in one step. *)
Theorem rtp_sound_starts_again : forall t0 step us mem ds e fuel j p q, sender t0 step us -> Forall fine ds ->
  filter media ds = map (fun u => (fst (fst u), rtp_bytes (snd (fst u)) (au_payload (snd u)))) us ->
  (length us < fuel)%nat -> 0 <= step <= 2048 ->
  let out := fst (rtp_read_all fuel mem (mkrd (fst (rtp_init_codec DNone 10)) []) ds e) in
  nth_error out j = Some p -> nth_error out (S j) = Some q ->
  2 ^ 32 <= (t0 + step * Z.of_nat j) mod 2 ^ 32 + step ->
  p_dts q < 23 /\ 47721835 <= p_dts p.
Proof.
  intros t0 step us mem ds e fuel j p q Hs Hf Ed Hn H1 out Ei Ej Hw.
  destruct (rtp_sound_times t0 step us mem ds e fuel Hs Hf Ed Hn) as (o & E & Lo & T).
  subst out. rewrite E in *. cbn [fst] in *. rewrite (T _ _ Ei), (T _ _ Ej).
  replace (t0 + step * Z.of_nat (S j)) with (t0 + step * Z.of_nat j + step) by (rewrite Nat2Z.inj_succ; lia).
  pose proof (Z.mod_pos_bound (t0 + step * Z.of_nat j) (2 ^ 32) ltac:(lia)) as B.
  rewrite <- (Z.add_mod_idemp_l (t0 + step * Z.of_nat j)) by lia.
  set (x := (t0 + step * Z.of_nat j) mod 2 ^ 32) in *.
  replace (x + step) with (x + step - 2 ^ 32 + 1 * 2 ^ 32) by lia. rewrite Z.mod_add by lia.
  rewrite Z.mod_small by lia. split; [apply Z.div_lt_upper_bound; lia|apply Z.div_le_lower_bound; lia].
Qed.
Print Assumptions rtp_sound_starts_again.

(** C249: and all units of one packet are delivered with one time. *)
Theorem rtp_sound_units_together : forall k aus a b, pk_media k -> Forall au_ok aus -> zlen aus < 2 ^ 12 ->
  bytes (au_payload aus) -> zlen (rtp_bytes k (au_payload aus)) < 2 ^ 60 ->
  In a (fst (aac_rtp_decode (rtp_bytes k (au_payload aus)))) ->
  In b (fst (aac_rtp_decode (rtp_bytes k (au_payload aus)))) -> p_dts a = p_dts b.
Proof.
  intros k aus a b Hk Ha Hn Hb Hl. pose proof (aac_units_exact k aus [] Hk Ha Hn) as E. rewrite app_nil_r in E.
  rewrite (E Hb Hl). cbn [fst]. intros Ia Ib. apply in_map_iff in Ia as (x & <- & _). apply in_map_iff in Ib as (y & <- & _).
  reflexivity.
Qed.
Print Assumptions rtp_sound_units_together.

(** Non-vacuity of C249: two units of 1024 samples, one just before and one just behind the point where
    the timestamps start again, with a goodbye after them; sound of 48 kHz, 375 units, 8 seconds apart,
    in the formula: 4.27 seconds. *)
Definition snd_k (t : Z) : rtp_packet := mkpk 2 0 1 97 7 t 5 [] None.
Definition snd_us : list (Z * rtp_packet * list (Z * list Z)) :=
  [(0, snd_k (2 ^ 32 - 512), [(0, [1; 2; 3])]); (21, snd_k 512, [(0, [4; 5])])].
Definition snd_ds : list (Z * list Z) :=
  map (fun u => (fst (fst u), rtp_bytes (snd (fst u)) (au_payload (snd u)))) snd_us ++ [(30, rd_bye)].
Example rtp_sound_cases :
  sender (2 ^ 32 - 512) 1024 snd_us /\ Forall fine snd_ds /\
  filter media snd_ds = map (fun u => (fst (fst u), rtp_bytes (snd (fst u)) (au_payload (snd u)))) snd_us /\
  map p_dts (fst (rtp_read_all 5 [] (mkrd (fst (rtp_init_codec DNone 10)) []) snd_ds ERROR_SOCKET_TIMEOUT)) = [47721853; 5] /\
  8000 * 48000 = 1000 * (1024 * Z.of_nat 375) /\ 8000 * 48000 / 90000 = 4266.
Proof.
  split; [split|split; [|repeat split; vm_compute; reflexivity]].
  - repeat constructor; try (vm_compute; discriminate); try (apply bytesb_spec; reflexivity); try (vm_compute; reflexivity).
  - intros [|[|[|j]]] u E; try discriminate E; injection E as <-; reflexivity.
  - repeat constructor; try (vm_compute; discriminate); try (intros H; vm_compute in H; discriminate H);
      try (apply bytesb_spec; reflexivity); try (intros S; vm_compute in S; intuition discriminate); try (intros H; vm_compute in H |- *; discriminate).
Qed.
