(** C227, C228: reading length-prefixed H.264 and its sequence headers. *)
From Verif Require Import Base M_Bits S_Bits L_Bits M_Fields L_Align M_Packet M_H264 S_Codec L_H264 M_Avc S_Avc L_Avc.

(** C227: units behind sizes of one to four bytes are read back in order; up to
    three bytes at the end are ignored. *)
Theorem avc_roundtrip : forall (k : nat) us tail, (1 <= k <= 4)%nat -> Forall (avcc_unit k) us -> bytes tail ->
  zlen tail < 4 -> zlen (avcc k us ++ tail) < 2 ^ 29 ->
  np_decode (np_new true (Z.of_nat k - 1)) (avcc k us ++ tail) false =
    (np_new true (Z.of_nat k - 1), map nal_of us, Ok tt).
Proof.
  intros k us tail Hk HF Hb Ht Hl. unfold np_decode, np_data, np_new. cbn [np_avc np_nls].
  assert (Ek : (Z.of_nat k - 1 + 128) mod 256 - 128 = Z.of_nat k - 1) by (rewrite Z.mod_small; lia). rewrite Ek.
  destruct (Z.ltb_spec (Z.of_nat k - 1) 0); [lia|].
  assert (Hbb : bytes (avcc k us ++ tail)).
  { apply bytes_app. split; [|assumption]. clear - HF. induction HF as [|u us (Hu & _) _ IH]; [constructor|].
    rewrite avcc_cons. apply bytes_app. split; [apply be_bytes|]. apply bytes_app. auto. }
  rewrite (avc_data_read k Hk us _ _ _ tail (al_init _ Hbb ltac:(lia))); [reflexivity|assumption|assumption|assumption|].
  unfold zlen. lia.
Qed.
Print Assumptions avc_roundtrip.
(** Not vacuous: three units behind two-byte sizes, and three bytes too many. *)
Example avc_roundtrip_case :
  Forall (avcc_unit 2) [[0x67; 1; 2; 3]; [0x68; 9]; [0x65; 0; 0; 1; 5]] /\
  avcc 2 [[0x67; 1; 2; 3]; [0x68; 9]; [0x65; 0; 0; 1; 5]] =
    [0; 4; 0x67; 1; 2; 3; 0; 2; 0x68; 9; 0; 5; 0x65; 0; 0; 1; 5] /\
  np_decode (np_new true 1) ([0; 4; 0x67; 1; 2; 3; 0; 2; 0x68; 9; 0; 5; 0x65; 0; 0; 1; 5] ++ [7; 7; 7]) false =
    (mknp true 1, [mknal 0 3 7 [0x67; 1; 2; 3]; mknal 0 3 8 [0x68; 9]; mknal 0 3 5 [0x65; 0; 0; 1; 5]], Ok tt).
Proof.
  split; [|split; vm_compute; reflexivity].
  repeat match goal with |- Forall _ _ => constructor end;
    (split; [repeat (constructor; [unfold byte; lia|]); constructor|]);
    (split; [eexists _, _; split; [reflexivity|lia]|]); split; vm_compute; congruence || reflexivity.
Qed.

(** C227: whatever the data, what is returned is a split of it: the units are
    the front of the data, behind them are fewer than four bytes on success,
    and otherwise at least four that do not begin with a whole unit.  The only
    way to leave the memory is a size of 2^29 or more. *)
Theorem avc_read_any : forall (k : nat) buf, (1 <= k <= 4)%nat -> bytes buf -> zlen buf < 2 ^ 29 ->
  exists us tail r, np_decode (np_new true (Z.of_nat k - 1)) buf false = (np_new true (Z.of_nat k - 1), map nal_of us, r) /\
    buf = avcc k us ++ tail /\ Forall nal_ok us /\
    ((r = Ok tt /\ zlen tail < 4) \/
     (4 <= zlen tail /\ (r = Err ERROR_H264_DECODER \/ (r = UB /\ 2 ^ 29 <= bev (take (Z.of_nat k) tail))) /\
      ~ exists u t, nal_ok u /\ zlen u < 256 ^ Z.of_nat k /\ tail = be k (zlen u) ++ u ++ t)).
Proof.
  intros k buf Hk Hb Hl. unfold np_decode, np_data, np_new. cbn [np_avc np_nls].
  assert (Ek : (Z.of_nat k - 1 + 128) mod 256 - 128 = Z.of_nat k - 1) by (rewrite Z.mod_small; lia). rewrite Ek.
  destruct (Z.ltb_spec (Z.of_nat k - 1) 0); [lia|].
  destruct (avc_data_any k Hk (S (length buf)) _ _ _ (al_init _ Hb ltac:(lia)) Hl) as (us & tail & r & E & H1 & H2 & H3).
  { unfold zlen. lia. }
  exists us, tail, r. rewrite E. auto.
Qed.
Print Assumptions avc_read_any.
Example avc_read_any_case :
  np_decode (np_new true 3) [0; 0; 0; 2; 0x67; 1; 0; 0; 0; 9; 0x65; 1] false =
    (mknp true 3, [mknal 0 3 7 [0x67; 1]], Err ERROR_H264_DECODER) /\
  np_decode (np_new true 3) [0; 0; 0; 2; 0x67; 1; 0; 0; 0; 1; 0x80] false =
    (mknp true 3, [mknal 0 3 7 [0x67; 1]], Err ERROR_H264_DECODER) /\
  np_decode (np_new true (-1)) [0; 0; 0; 2; 0x67; 1] false = (mknp true (-1), [], Err ERROR_H264_DECODER).
Proof. vm_compute. auto. Qed.

(** C227: what the library's encoder makes of the slices and SEI of a list of
    units is read back as these units. *)
Theorem avc_encoded_read : forall ctx nls us ps, av_tb ctx <> 0 -> nls = -1 \/ nls = 3 ->
  Forall (fun u => bytes u /\ nal_ok u) us -> zlen (avcc 4 us) < 2 ^ 29 ->
  encode_avc ctx nls (map nal_of us) = Ok ps ->
  np_decode (np_new true 3) (flat_map p_data (filter is_media_pkt ps)) false =
    (np_new true 3, filter is_media (map nal_of us), Ok tt).
Proof.
  intros ctx nls us ps Ht Hn HF Hl He.
  rewrite encode_avc_ok in He; [|assumption|assumption|].
  2:{ apply Forall_map. eapply Forall_impl; [|exact HF]. intros u [Hu _]. exact Hu. }
  assert (Ep : ps = avc_packets ctx (map nal_of us)).
  { destruct (last_of is_sps (map nal_of us)) as [s|]; [destruct (zlen (n_buf s) <? 4); [discriminate|]|]; injection He as <-; reflexivity. }
  subst ps. unfold avc_packets. rewrite filter_app.
  set (hd := match last_of is_sps (map nal_of us) with Some s => _ | None => _ end).
  assert (Eh : filter is_media_pkt hd = []) by (unfold hd; destruct (last_of is_sps (map nal_of us)); reflexivity).
  rewrite Eh. cbn [app].
  set (ms := filter (fun u => is_media (nal_of u)) us).
  assert (E1 : filter is_media (map nal_of us) = map nal_of ms).
  { unfold ms. clear. induction us as [|u us IH]; [reflexivity|]. cbn [map filter].
    destruct (is_media (nal_of u)); cbn [map]; rewrite IH; reflexivity. }
  assert (E2 : flat_map p_data (filter is_media_pkt (flat_map (media_pkt ctx) (map nal_of us))) = avcc 4 ms).
  { unfold ms. clear. induction us as [|u us IH]; [reflexivity|]. cbn [map flat_map filter].
    rewrite filter_app, flat_map_app, IH. set (R := filter (fun u0 => is_media (nal_of u0)) us).
    unfold is_media, media_pkt.
    destruct (n_type (nal_of u) =? 5); cbn [orb]; [rewrite avcc_cons; cbn [filter flat_map app p_data video_pkt is_media_pkt p_ptype Z.eqb Pos.eqb n_buf nal_of]; rewrite app_nil_r, <- app_assoc; reflexivity|].
    destruct (n_type (nal_of u) =? 1); cbn [orb]; [rewrite avcc_cons; cbn [filter flat_map app p_data video_pkt is_media_pkt p_ptype Z.eqb Pos.eqb n_buf nal_of]; rewrite app_nil_r, <- app_assoc; reflexivity|].
    destruct (n_type (nal_of u) =? 6); cbn [orb]; [rewrite avcc_cons; cbn [filter flat_map app p_data video_pkt is_media_pkt p_ptype Z.eqb Pos.eqb n_buf nal_of]; rewrite app_nil_r, <- app_assoc; reflexivity|].
    reflexivity. }
  rewrite E1, E2. rewrite <- (app_nil_r (avcc 4 ms)).
  assert (Hsub : forall u, In u ms -> In u us) by (intros u Hu; apply filter_In in Hu as [Hu _]; exact Hu).
  assert (Hlen : zlen (avcc 4 ms) <= zlen (avcc 4 us)).
  { unfold ms. clear. induction us as [|u us IH]; [cbn; lia|]. cbn [filter].
    pose proof (zlen_nonneg u). destruct (is_media (nal_of u)); rewrite !avcc_cons, !zlen_app, zlen_be; lia. }
  assert (Hone : forall u, In u us -> zlen u <= zlen (avcc 4 us)).
  { clear. induction us as [|x us IH]; intros u Hi; [destruct Hi|destruct Hi as [->|Hu]]; rewrite avcc_cons, !zlen_app, zlen_be.
    - pose proof (zlen_nonneg (avcc 4 us)). lia.
    - specialize (IH u Hu). pose proof (zlen_nonneg x). lia. }
  change 3 with (Z.of_nat 4 - 1). apply avc_roundtrip; [lia| |constructor|rewrite zlen_nil; lia|rewrite app_nil_r; lia].
  apply Forall_forall. intros u Hu. apply Hsub in Hu. rewrite Forall_forall in HF. destruct (HF u Hu) as [Hb Hok].
  specialize (Hone u Hu). split; [assumption|]. split; [assumption|]. pose proof (zlen_nonneg u).
  change (256 ^ Z.of_nat 4) with (2 ^ 32). lia.
Qed.
Print Assumptions avc_encoded_read.
Example avc_encoded_case : exists ps,
  encode_avc (mkav 90 90 90) (-1) (map nal_of [[0x67; 1; 2; 3]; [0x68; 9]; [0x06; 5]; [0x65; 7; 8]]) = Ok ps /\
  filter is_media (map nal_of [[0x67; 1; 2; 3]; [0x68; 9]; [0x06; 5]; [0x65; 7; 8]]) =
    [nal_of [0x06; 5]; nal_of [0x65; 7; 8]].
Proof.
  exists (avc_packets (mkav 90 90 90) (map nal_of [[0x67; 1; 2; 3]; [0x68; 9]; [0x06; 5]; [0x65; 7; 8]])).
  split; vm_compute; reflexivity.
Qed.

(** C228: a configuration record with four-byte sizes and an SPS is refused,
    whatever stands behind, and nothing of it is returned. *)
Theorem avc_config_refused : forall p a b c r1 r2 n h t rest,
  bytes (config_record a b c r1 r2 n (h :: t) rest) -> zlen (config_record a b c r1 r2 n (h :: t) rest) < 2 ^ 60 ->
  0 <= r1 -> 0 <= r2 -> 1 <= n < 32 -> 2 <= zlen (h :: t) < 65536 -> h mod 32 = 7 ->
  np_decode p (config_record a b c r1 r2 n (h :: t) rest) true = (mknp true 3, [], Err ERROR_H264_DECODER).
Proof.
  intros p a b c r1 r2 n h t rest Hb Hl H1 H2 Hn Hs Hh. unfold np_decode.
  apply (config_unreadable p a b c r1 r2 n (h :: t) rest h t); auto. lia.
Qed.
Print Assumptions avc_config_refused.

(** C228: so no sequence header made by the library's own encoder is read by it. *)
Theorem avc_own_config_refuted : forall p sps pps h t pk, n_buf sps = h :: t -> h mod 32 = 7 -> bytes (n_buf sps) ->
  zlen (n_buf sps) < 65536 ->
  match pps with Some q => bytes (n_buf q) /\ zlen (n_buf q) < 65536 | None => True end ->
  avc_seq_header sps pps = Ok pk ->
  np_decode p (p_data pk) true = (mknp true 3, [], Err ERROR_H264_DECODER).
Proof.
  intros p sps pps h t pk Es Hh Hb Hs Hp He.
  assert (H4 : 4 <= zlen (n_buf sps)).
  { unfold avc_seq_header in He. destruct (Z.ltb_spec (zlen (n_buf sps)) 4); [discriminate|lia]. }
  assert (Hnth : forall i, (i < 4)%nat -> byte (nth i (n_buf sps) 0)).
  { intros i Hi. unfold bytes in Hb. rewrite Forall_forall in Hb. apply Hb. apply nth_In. unfold zlen in H4. lia. }
  rewrite avc_seq_header_ok in He; [|apply Hnth; lia|apply Hnth; lia|assumption].
  injection He as <-. cbn [p_data video_pkt].
  set (rest := match option_map n_buf pps with None => [0] | Some q => [1] ++ be 2 (zlen q) ++ q end).
  assert (E : avc_config (n_buf sps) (option_map n_buf pps) =
              config_record (nth 1 (n_buf sps) 0) 0 (nth 3 (n_buf sps) 0) 0 0 1 (h :: t) rest).
  { unfold avc_config, config_record, rest. rewrite <- Es. reflexivity. }
  assert (Hr : bytes rest /\ zlen rest < 70000).
  { unfold rest. destruct pps as [q|]; cbn [option_map].
    - destruct Hp as [Hq Hq2]. split; [|rewrite !zlen_app, zlen_be; change (zlen [1]) with 1; lia].
      apply bytes_app. split; [repeat constructor; unfold byte; lia|]. apply bytes_app. split; [apply be_bytes|assumption].
    - split; [repeat constructor; unfold byte; lia|cbn; lia]. }
  destruct Hr as [Hr1 Hr2]. rewrite E. rewrite Es in *. apply avc_config_refused; try lia.
  - unfold config_record. apply bytes_app. split.
    + repeat (constructor; [first [apply (Hnth 1%nat); lia|apply (Hnth 3%nat); lia|unfold byte; lia]|]). constructor.
    + apply bytes_app. split; [apply be_bytes|]. apply bytes_app. auto.
  - unfold config_record. rewrite !zlen_app, zlen_be. change (zlen [1; _; _; _; _; _]) with 6. lia.
Qed.
Print Assumptions avc_own_config_refuted.
Example avc_own_config_case : exists pk,
  avc_seq_header (nal_of [0x67; 0x42; 0; 0x1e; 9]) (Some (nal_of [0x68; 0xce])) = Ok pk /\
  p_data pk = config_record 0x42 0 0x1e 0 0 1 [0x67; 0x42; 0; 0x1e; 9] [1; 0; 2; 0x68; 0xce] /\
  np_decode (np_new false (-1)) (p_data pk) true = (mknp true 3, [], Err ERROR_H264_DECODER).
Proof.
  exists (video_pkt 0 0 0 0x17 (avc_config [0x67; 0x42; 0; 0x1e; 9] (Some [0x68; 0xce]))).
  split; [|split]; vm_compute; reflexivity.
Qed.

(** C228: a size field of 2^29 passes the check of a four-byte reader when
    enough bytes remain for its lower 29 bits, and the reader leaves the memory. *)
Theorem avc_size_wrap_refuted : forall j w h t, 1 <= j < 8 -> 0 <= w <= zlen (h :: t) -> 0 <= h < 128 -> bytes t ->
  zlen (h :: t) < 2 ^ 29 ->
  np_decode (np_new true 3) (be 4 (j * 2 ^ 29 + w) ++ h :: t) false = (np_new true 3, [], UB).
Proof.
  intros j w h t Hj Hw Hh Ht Hl. set (r := h :: t) in *.
  assert (Hb : bytes (be 4 (j * 2 ^ 29 + w) ++ r)).
  { apply bytes_app. split; [apply be_bytes|]. constructor; [unfold byte; lia|assumption]. }
  assert (L : zlen (be 4 (j * 2 ^ 29 + w) ++ r) = 4 + zlen r) by (rewrite zlen_app, zlen_be; reflexivity).
  pose proof (al_init _ Hb ltac:(lia)) as Ai. pose proof (zlen_nonneg r).
  unfold np_decode, np_data. change (np_new true 3) with (mknp true 3). cbn [np_avc np_nls Z.ltb Z.compare].
  cbn [avc_data]. rewrite (al_acquire_ok _ _ _ 4 Ai) by lia.
  assert (Ev : bev (be 4 (j * 2 ^ 29 + w)) = j * 2 ^ 29 + w).
  { rewrite bev_be. apply Z.mod_small. change (256 ^ Z.of_nat 4) with (8 * 2 ^ 29). lia. }
  assert (Em : w < 2 ^ 29) by lia.
  destruct (unit_step 3 _ _ _ Ai) as [D|[D|[D|D]]]; try lia; change (3 + 1) with 4 in D.
  all: rewrite take_app_exact, drop_app_exact in D by (rewrite zlen_be; reflexivity).
  all: rewrite Ev in D.
  - destruct D as [D _]. rewrite Z.add_comm, Z.mod_add, Z.mod_small in D by lia. lia.
  - destruct D as (_ & _ & _ & E). rewrite E. unfold r. destruct (Z.ltb_spec h 128); [reflexivity|lia].
  - destruct D as [D _]. lia.
  - destruct D as [D _]. lia.
Qed.
Print Assumptions avc_size_wrap_refuted.
Example avc_size_wrap_case : be 4 (1 * 2 ^ 29 + 2) = [0x20; 0; 0; 2] /\
  np_decode (np_new true 3) [0x20; 0; 0; 2; 0x65; 1; 2] false = (mknp true 3, [], UB).
Proof. vm_compute. auto. Qed.
