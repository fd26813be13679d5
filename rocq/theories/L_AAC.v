(** ADTS lemmas. *)
From Verif Require Import Base M_Bits S_Bits L_Bits L_BitsW M_Fields L_Align S_Fields L_Pack M_Packet M_H264 M_AAC S_Codec.

Definition hw := [1; 2; 1; 2; 4; 1; 3; 1; 1; 1; 1; 13; 11; 2].
Lemma adts_fields_snd f L : map snd (adts_fields f L) = 12 :: hw.
Proof. reflexivity. Qed.
Definition hdr_bytes_of (f : adts_frame) := if fr_pa f =? 0 then 9 else 7.

(** What decoding at an aligned position does. *)
Definition hdr_of (f : adts_frame) (L : Z) : adts :=
  mkadts (fr_pa f) (fr_profile f) (fr_sfi f) (fr_ch f) (fr_orig f) (fr_home f) L.

Lemma zlen_adts_header f L : zlen (adts_header f L) = 7.
Proof. unfold adts_header. rewrite zlen_be. reflexivity. Qed.

Lemma sync_bits rest : bytes rest -> 2 <= zlen rest -> bval (take 12 (bits_of rest)) = bev (take 2 rest) / 16.
Proof.
  intros Hb Hl. rewrite <- (bval_take_bytes 2 rest 16) by (assumption || lia).
  assert (Hz : zlen (take 16 (bits_of rest)) = 16) by (rewrite zlen_take, zlen_bits_of by lia; lia).
  replace (take 12 (bits_of rest)) with (take 12 (take 16 (bits_of rest))) by (rewrite take_take; reflexivity).
  rewrite bval_take_div by lia. rewrite Hz. reflexivity.
Qed.

Lemma adts_read buf c rest : al buf c rest -> 7 <= zlen rest ->
  exists c12 c', read_bits c 12 = Ok (bev (take 2 rest) / 16, c12) /\
    read_fields c12 hw = Ok (skipn 1 (bit_fields (bits_of rest) (12 :: hw)), c') /\ al buf c' (drop 7 rest).
Proof.
  intros H Hl. destruct (al_fields buf c rest (12 :: hw) 7 H) as (c' & E & Ha); [reflexivity|reflexivity|lia|].
  assert (Hb := al_bytes _ _ _ H).
  remember hw as w. cbn [read_fields] in E. destruct (read_bits c 12) as [[v c12]| | |] eqn:E12; cbn [bind fst snd] in E; try discriminate.
  destruct (read_fields c12 w) as [[vs c2]| | |] eqn:Ew; cbn [bind fst snd] in E; try discriminate.
  cbn [bit_fields] in E. injection E as Ev Evs Ec. subst c2. exists c12, c'.
  split; [|split; [|exact Ha]].
  - rewrite <- sync_bits, Ev by (assumption || lia). reflexivity.
  - rewrite Ew, Evs. reflexivity.
Qed.

Lemma fields_header f L tl : header_ok f L ->
  bit_fields (bits_of (adts_header f L ++ tl)) (12 :: hw) = map fst (adts_fields f L).
Proof.
  intros (Hf & _). unfold adts_header. rewrite <- (adts_fields_snd f L).
  apply fields_packed; [reflexivity|exact Hf|reflexivity].
Qed.
Lemma hd_fields bs w ws v vs : bit_fields bs (w :: ws) = v :: vs -> bval (take w bs) = v.
Proof. intros E. apply (f_equal (hd 0)) in E. exact E. Qed.
Lemma sync_of f L tl : header_ok f L -> bev (take 2 (adts_header f L ++ tl)) / 16 = 0xfff.
Proof.
  intros Hf. rewrite take_app_le by (rewrite zlen_adts_header; lia).
  assert (Hb : bytes (adts_header f L)) by apply be_bytes.
  rewrite <- sync_bits by (assumption || rewrite zlen_adts_header; lia).
  pose proof (fields_header f L [] Hf) as E. rewrite app_nil_r in E.
  apply hd_fields in E. exact E.
Qed.

Lemma adts_decode_ok buf c f L tl : al buf c (adts_header f L ++ tl) -> header_ok f L ->
  hdr_bytes_of f <= 7 + zlen tl ->
  exists c', adts_decode c = Ok (hdr_of f L, c') /\ al buf c' (drop (hdr_bytes_of f - 7) tl).
Proof.
  intros Ha Hh Hl. assert (Hz : zlen (adts_header f L ++ tl) = 7 + zlen tl) by (rewrite zlen_app, zlen_adts_header; lia).
  pose proof (zlen_nonneg tl) as H0.
  destruct (adts_read _ _ _ Ha ltac:(lia)) as (c12 & c1 & E1 & E2 & Ha1).
  rewrite sync_of in E1 by assumption. rewrite drop_app_exact in Ha1 by (rewrite zlen_adts_header; reflexivity).
  rewrite fields_header in E2 by assumption.
  unfold adts_decode. rewrite (al_acquire_ok _ _ _ 7 Ha) by lia. rewrite E1. cbn [bind fst snd].
  change (negb (4095 =? 4095)) with false. cbv iota. fold hw. rewrite E2.
  cbn [bind fst snd skipn map adts_fields]. unfold hdr_bytes_of in *.
  destruct (fr_pa f =? 0) eqn:Ep.
  - destruct (al_bits _ _ _ 16 2 Ha1) as (c2 & E3 & Ha2); [lia|lia|lia|]. rewrite E3. cbn [bind snd].
    eexists. split; [reflexivity|]. exact Ha2.
  - cbn [bind]. eexists. split; [reflexivity|]. change (7 - 7) with 0. rewrite drop_0 by lia. exact Ha1.
Qed.
Lemma adts_decode_UB buf c f L tl : al buf c (adts_header f L ++ tl) -> header_ok f L ->
  7 + zlen tl < hdr_bytes_of f -> adts_decode c = UB.
Proof.
  intros Ha Hh Hl. assert (Hz : zlen (adts_header f L ++ tl) = 7 + zlen tl) by (rewrite zlen_app, zlen_adts_header; lia).
  pose proof (zlen_nonneg tl) as H0.
  destruct (adts_read _ _ _ Ha ltac:(lia)) as (c12 & c1 & E1 & E2 & Ha1).
  rewrite sync_of in E1 by assumption. rewrite drop_app_exact in Ha1 by (rewrite zlen_adts_header; reflexivity).
  rewrite fields_header in E2 by assumption.
  unfold adts_decode. rewrite (al_acquire_ok _ _ _ 7 Ha) by lia. rewrite E1. cbn [bind fst snd].
  change (negb (4095 =? 4095)) with false. cbv iota. fold hw. rewrite E2.
  cbn [bind fst snd skipn map adts_fields]. unfold hdr_bytes_of in *.
  destruct (fr_pa f =? 0) eqn:Ep; [|lia].
  rewrite (al_bits_UB _ _ _ 16 Ha1) by lia. reflexivity.
Qed.
Lemma adts_decode_err buf c rest : al buf c rest -> zlen rest < 7 \/ bev (take 2 rest) / 16 <> 0xfff ->
  adts_decode c = Err ERROR_AAC_DECODER.
Proof.
  intros Ha Hr. unfold adts_decode. destruct (Z.lt_ge_cases (zlen rest) 7) as [Hs|Hs].
  - rewrite (al_acquire_no _ _ _ 7 Ha) by lia. reflexivity.
  - rewrite (al_acquire_ok _ _ _ 7 Ha) by lia.
    destruct (adts_read _ _ _ Ha Hs) as (c12 & c1 & E1 & _). rewrite E1. cbn [bind fst].
    destruct (Z.eqb_spec (bev (take 2 rest) / 16) 4095) as [E|E]; [lia|]. reflexivity.
Qed.
(** Every seven bytes with the sync word are a header. *)
Lemma header_exists rest : bytes rest -> 7 <= zlen rest -> bev (take 2 rest) / 16 = 0xfff ->
  exists f L, header_ok f L /\ take 7 rest = adts_header f L /\ fr_crc f = [] /\ fr_raw f = [].
Proof.
  intros Hb Hl Hs. assert (Hb7 : bytes (take 7 rest)) by (apply Forall_take; assumption).
  assert (Hz : zlen (take 7 rest) = Z.of_nat 7) by (rewrite zlen_take by lia; lia).
  destruct (header_repack 7 (take 7 rest) (12 :: hw) Hb7 Hz (eq_refl _) (eq_refl _)) as [E F].
  assert (Es : bval (take 12 (bits_of (take 7 rest))) = 4095).
  { rewrite sync_bits by (assumption || lia). rewrite take_take. exact Hs. }
  revert E F Es. generalize (bits_of (take 7 rest)). intros bs E F Es.
  cbn [hw bit_fields combine] in E, F. rewrite Es in E, F. revert E F.
  repeat match goal with |- context [bval ?x] => generalize (bval x); intros ? end.
  intros E F.
  eexists (mkframe _ _ _ _ _ _ _ _ _ _ _ _ _ [] []), _. split; [|split; [|split; reflexivity]].
  2: exact E. split; [exact F|split; constructor].
Qed.

(** AudioSpecificConfig. *)
Lemma asc_sweep : forallb (fun p => forallb (fun s => forallb (fun ch =>
   match asc_bytes (mkadts 0 (Z.of_nat p) (Z.of_nat s) (Z.of_nat ch) 0 0 0) with
   | Ok l => eqb_list l (asc (Z.of_nat p) (Z.of_nat s) (Z.of_nat ch)) | _ => false end)
   (seq 0 8)) (seq 0 16)) (seq 0 4) = true.
Proof. vm_compute. reflexivity. Qed.
Lemma asc_bytes_ok h : 0 <= ad_profile h < 4 -> 0 <= ad_sfi h < 16 -> 0 <= ad_ch h < 8 ->
  asc_bytes h = Ok (asc (ad_profile h) (ad_sfi h) (ad_ch h)).
Proof.
  intros Hp Hs Hc. pose proof asc_sweep as S. rewrite forallb_forall in S.
  specialize (S (Z.to_nat (ad_profile h))). rewrite in_seq in S. specialize (S ltac:(lia)).
  rewrite forallb_forall in S. specialize (S (Z.to_nat (ad_sfi h))). rewrite in_seq in S. specialize (S ltac:(lia)).
  rewrite forallb_forall in S. specialize (S (Z.to_nat (ad_ch h))). rewrite in_seq in S. specialize (S ltac:(lia)).
  rewrite !Z2Nat.id in S by lia. unfold asc_bytes in *. cbn [ad_profile ad_sfi ad_ch] in S.
  destruct (let? c := write_fields _ _ in Ok (bc_buf c)); try discriminate.
  apply eqb_list_spec in S. rewrite S. reflexivity.
Qed.

Definition config_of (cur : option params) (f : adts_frame) : list pkt :=
  if match cur with Some p => params_eqb p (fr_params f) && negb (fr_pa f =? 0) | None => false end
  then [] else [audio_pkt 0 0 (asc (fr_profile f) (fr_sfi f) (fr_ch f))].

Lemma fit_inv f L : header_ok f L -> 0 <= fr_profile f < 4 /\ 0 <= fr_sfi f < 16 /\ 0 <= fr_ch f < 8 /\
  0 <= fr_pa f < 2 /\ 0 <= L < 8192.
Proof.
  intros (H & _). unfold fields_fit, adts_fields in H. cbn [forallb fst snd] in H.
  change (2 ^ 1) with 2 in H. change (2 ^ 2) with 4 in H. change (2 ^ 3) with 8 in H.
  change (2 ^ 4) with 16 in H. change (2 ^ 13) with 8192 in H. lia.
Qed.

Lemma aac_round_ok ctx hdr cur buf c f L tl : av_tb ctx <> 0 -> hdr_rep hdr cur ->
  al buf c (adts_header f L ++ tl) -> header_ok f L -> hdr_bytes_of f <= 7 + zlen tl ->
  exists hdr2, hdr_rep hdr2 (Some (fr_params f)) /\
    let h := hdr_bytes_of f in
    (L = 0 -> aac_round ctx hdr c = (config_of cur f, hdr2, Err ERROR_AAC_DECODER)) /\
    (0 < L -> L < h \/ 7 + zlen tl < L -> aac_round ctx hdr c = (config_of cur f, hdr2, UB)) /\
    (h <= L <= 7 + zlen tl -> exists c2,
       aac_round ctx hdr c =
         (config_of cur f ++ [audio_pkt 1 (Z.quot (av_dts ctx) (av_tb ctx)) (take (L - h) (drop (h - 7) tl))], hdr2, Ok c2) /\
       al buf c2 (drop (L - 7) tl)).
Proof.
  intros Htb Hrep Ha Hh Hl. destruct (fit_inv _ _ Hh) as (Hp & Hs & Hc & Hpa & HL).
  destruct (adts_decode_ok _ _ _ _ _ Ha Hh Hl) as (c1 & E & Ha1).
  set (same := match cur with Some p => params_eqb p (fr_params f) && negb (fr_pa f =? 0) | None => false end).
  assert (Hx : exists hdr2, hdr_rep hdr2 (Some (fr_params f)) /\
     (let '(same, hdr1) := match hdr with
                           | None => (false, None)
                           | Some h => let (b, h') := adts_eq h (hdr_of f L) in (b, Some h')
                           end in (same, if same then hdr1 else Some (hdr_of f L))) = (same, hdr2)).
  { destruct hdr as [h|], cur as [p|]; cbn [hdr_rep] in Hrep; try contradiction.
    - unfold adts_eq.
      set (b := negb (ad_pa (hdr_of f L) =? 0) && _ && _ && _ && _ && _).
      assert (Eb : b = same).
      { unfold b, same. subst p. unfold params_eqb, fr_params, hdr_of. cbn [ad_pa ad_profile ad_sfi ad_ch ad_orig ad_home].
        destruct (fr_pa f =? 0); cbn [negb andb]; [rewrite andb_false_r; reflexivity|rewrite andb_true_r; reflexivity]. }
      rewrite <- Eb. eexists. split; [|reflexivity]. destruct b eqn:Ebb.
      + unfold hdr_rep, fr_params. cbn [ad_profile ad_sfi ad_ch ad_orig ad_home].
        unfold b, hdr_of in Ebb. cbn [ad_pa ad_profile ad_sfi ad_ch ad_orig ad_home] in Ebb.
        rewrite !andb_true_iff, !Z.eqb_eq in Ebb. destruct Ebb as (((((_ & ->) & ->) & ->) & ->) & ->). reflexivity.
      + reflexivity.
    - eexists. split; [|reflexivity]. reflexivity. }
  destruct Hx as (hdr2 & Hrep2 & Ex). exists hdr2. split; [exact Hrep2|].
  assert (Easc : (if same then Ok [] else let? d := asc_bytes (hdr_of f L) in Ok [audio_pkt 0 0 d]) = Ok (config_of cur f)).
  { unfold config_of. fold same. destruct same; [reflexivity|]. rewrite asc_bytes_ok by assumption. reflexivity. }
  assert (Er : aac_round ctx hdr c =
    if L <=? 0 then (config_of cur f, hdr2, Err ERROR_AAC_DECODER) else
    match (let? d := bc_peek c1 (L - hdr_bytes_of f) in
           let? c2 := skip_read_bytes c1 (L - hdr_bytes_of f) in
           Ok (audio_pkt 1 (Z.quot (av_dts ctx) (av_tb ctx)) d, c2)) with
    | Ok (p, c2) => (config_of cur f ++ [p], hdr2, Ok c2)
    | Err e => (config_of cur f, hdr2, Err e)
    | UB => (config_of cur f, hdr2, UB)
    | Fuel => (config_of cur f, hdr2, Fuel)
    end).
  { unfold aac_round. rewrite E.
    destruct (match hdr with Some h => let (b, h') := adts_eq h (hdr_of f L) in (b, Some h') | None => (false, None) end) as [sm hdr1].
    injection Ex as -> Eh. rewrite Eh, Easc. cbn [ad_len ad_pa hdr_of]. unfold cdiv.
    destruct (av_tb ctx =? 0) eqn:Et; [lia|]. cbn [bind].
    replace (L - 7 - (if fr_pa f =? 1 then 0 else 2)) with (L - hdr_bytes_of f); [reflexivity|].
    unfold hdr_bytes_of. destruct (fr_pa f =? 0) eqn:E0, (fr_pa f =? 1) eqn:E1; lia. }
  rewrite Er. pose proof (zlen_nonneg tl). assert (Hh7 : 7 <= hdr_bytes_of f) by (unfold hdr_bytes_of; destruct (fr_pa f =? 0); lia).
  assert (Hlen1 : zlen (drop (hdr_bytes_of f - 7) tl) = 7 + zlen tl - hdr_bytes_of f) by (rewrite zlen_drop by lia; lia).
  split; [|split].
  - intros ->. reflexivity.
  - intros H1 H2. destruct (L <=? 0) eqn:EL; [lia|]. rewrite (al_peek_UB _ _ _ _ Ha1) by lia. reflexivity.
  - intros H1. destruct (L <=? 0) eqn:EL; [lia|]. rewrite (al_peek _ _ _ _ Ha1) by lia. cbn [bind].
    destruct (al_skip _ _ _ (L - hdr_bytes_of f) Ha1) as (c2 & E2 & Ha2); [lia|]. rewrite E2. cbn [bind].
    eexists. split; [reflexivity|]. rewrite drop_drop in Ha2 by lia.
    replace (L - hdr_bytes_of f + (hdr_bytes_of f - 7)) with (L - 7) in Ha2 by lia. exact Ha2.
Qed.

Lemma zlen_adts_bytes f : zlen (adts_bytes f) = adts_len f.
Proof. unfold adts_bytes, adts_len. rewrite !zlen_app, zlen_adts_header. lia. Qed.

Lemma aac_frames ctx buf fs : forall fuel hdr cur c rest, av_tb ctx <> 0 -> hdr_rep hdr cur ->
  Forall frame_ok fs -> al buf c (flat_map adts_bytes fs ++ rest) ->
  zlen (flat_map adts_bytes fs ++ rest) <= Z.of_nat fuel ->
  exists fuel' hdr' c' cur', hdr_rep hdr' cur' /\ al buf c' rest /\ zlen rest <= Z.of_nat fuel' /\
    aac_loop fuel ctx hdr c =
      let '(ps, h, r) := aac_loop fuel' ctx hdr' c' in
      (aac_packets (Z.quot (av_dts ctx) (av_tb ctx)) cur fs ++ ps, h, r).
Proof.
  induction fs as [|f fs IH]; intros fuel hdr cur c rest Htb Hrep Hok Ha Hf.
  - exists fuel, hdr, c, cur. cbn [flat_map app] in *. repeat (split; [assumption|]).
    destruct (aac_loop fuel ctx hdr c) as [[ps h] r]. reflexivity.
  - inversion Hok as [|? ? (Hh & Hcrc) Hok']; subst. cbn [flat_map] in *.
    rewrite <- app_assoc in Ha, Hf. set (more := flat_map adts_bytes fs ++ rest) in *.
    assert (Hlf := zlen_adts_bytes f). rewrite zlen_app, Hlf in Hf.
    assert (Hal : adts_len f = 7 + zlen (fr_crc f) + zlen (fr_raw f)) by reflexivity.
    pose proof (zlen_nonneg (fr_crc f)). pose proof (zlen_nonneg (fr_raw f)). pose proof (zlen_nonneg more).
    destruct fuel as [|fuel]; [lia|]. cbn [aac_loop].
    rewrite (al_size _ _ _ Ha), zlen_app, Hlf. destruct (_ <=? 0) eqn:E0; [lia|].
    unfold adts_bytes in Ha. rewrite <- app_assoc in Ha.
    set (tl := (fr_crc f ++ fr_raw f) ++ more) in *.
    assert (Htl : zlen tl = zlen (fr_crc f) + zlen (fr_raw f) + zlen more) by (unfold tl; rewrite !zlen_app; lia).
    assert (Hhb : hdr_bytes_of f = 7 + zlen (fr_crc f)) by (rewrite Hcrc; unfold hdr_bytes_of; destruct (fr_pa f =? 0); reflexivity).
    destruct (aac_round_ok ctx hdr cur buf c f (adts_len f) tl Htb Hrep Ha Hh) as (hdr2 & Hrep2 & _ & _ & H3); [lia|].
    destruct (H3 ltac:(lia)) as (c2 & E2 & Ha2). rewrite E2.
    assert (Ed : drop (adts_len f - 7) tl = more).
    { unfold tl. apply drop_app_exact. rewrite zlen_app. lia. }
    rewrite Ed in Ha2.
    destruct (IH fuel hdr2 (Some (fr_params f)) c2 rest Htb Hrep2 Hok' Ha2) as (fuel' & hdr' & c' & cur' & R1 & R2 & R3 & R4).
    { fold more. lia. }
    exists fuel', hdr', c', cur'. split; [exact R1|]. split; [exact R2|]. split; [exact R3|].
    rewrite R4. destruct (aac_loop fuel' ctx hdr' c') as [[ps h] r]. cbn [aac_packets]. f_equal. f_equal.
    replace (take (adts_len f - hdr_bytes_of f) (drop (hdr_bytes_of f - 7) tl)) with (fr_raw f).
    2:{ unfold tl. rewrite <- app_assoc, drop_app_exact by lia. rewrite take_app_exact by lia. reflexivity. }
    rewrite <- !app_assoc. reflexivity.
Qed.

Lemma config_cases cur f : config_only (config_of cur f).
Proof.
  unfold config_of, config_only. destruct (match cur with Some _ => _ | None => _ end); [left; reflexivity|right].
  exists (fr_profile f), (fr_sfi f), (fr_ch f). reflexivity.
Qed.

Lemma aac_tail ctx buf c hdr cur rest fuel : av_tb ctx <> 0 -> hdr_rep hdr cur -> al buf c rest -> zlen rest <= Z.of_nat fuel ->
  (rest = [] -> aac_loop fuel ctx hdr c = ([], hdr, Ok tt)) /\
  (rejected rest -> exists ps h, aac_loop fuel ctx hdr c = (ps, h, Err ERROR_AAC_DECODER) /\
      config_only ps) /\
  (dangerous rest -> exists ps h, aac_loop fuel ctx hdr c = (ps, h, UB) /\
      config_only ps).
Proof.
  intros Htb Hrep Ha Hf. split; [|split].
  - intros ->. destruct fuel; cbn [aac_loop]; rewrite (al_size _ _ _ Ha); reflexivity.
  - intros Hr. assert (0 < zlen rest).
    { destruct Hr as [Hr|[Hr|(f & tl & Hr & -> & _)]]; try lia. rewrite zlen_app, zlen_adts_header. pose proof (zlen_nonneg tl). lia. }
    destruct fuel as [|fuel]; [lia|]. cbn [aac_loop]. rewrite (al_size _ _ _ Ha).
    destruct (zlen rest <=? 0) eqn:E0; [lia|].
    destruct Hr as [Hr|[Hr|(f & tl & Hh & Er & Hr)]].
    + exists [], hdr. unfold aac_round. rewrite (adts_decode_err _ _ _ Ha) by lia. split; [reflexivity|left; reflexivity].
    + exists [], hdr. unfold aac_round. rewrite (adts_decode_err _ _ _ Ha) by (right; apply Hr). split; [reflexivity|left; reflexivity].
    + rewrite Er in Ha. rewrite Er, zlen_app, zlen_adts_header in Hr. fold (hdr_bytes_of f) in Hr.
      destruct (aac_round_ok ctx hdr cur buf c f 0 tl Htb Hrep Ha Hh Hr) as (hdr2 & _ & H1 & _).
      rewrite (H1 eq_refl). eexists _, _. split; [reflexivity|]. apply config_cases.
  - intros (f & L & tl & Hh & Er & Hd). rewrite Er in Ha, Hf, Hd. rewrite zlen_app, zlen_adts_header in Hf, Hd.
    cbv zeta in Hd. fold (hdr_bytes_of f) in Hd. pose proof (zlen_nonneg tl).
    destruct fuel as [|fuel]; [lia|]. cbn [aac_loop]. rewrite (al_size _ _ _ Ha), zlen_app, zlen_adts_header.
    destruct (_ <=? 0) eqn:E0; [lia|].
    destruct (Z.lt_ge_cases (7 + zlen tl) (hdr_bytes_of f)) as [Hs|Hs].
    + exists [], hdr. unfold aac_round. rewrite (adts_decode_UB _ _ _ _ _ Ha Hh Hs). split; [reflexivity|left; reflexivity].
    + destruct (aac_round_ok ctx hdr cur buf c f L tl Htb Hrep Ha Hh Hs) as (hdr2 & _ & _ & H2 & _).
      rewrite H2 by lia. eexists _, _. split; [reflexivity|]. apply config_cases.
Qed.

(** Every byte string is a run of whole frames followed by one of the three tails. *)
Lemma aac_split n : forall buf, bytes buf -> zlen buf <= Z.of_nat n ->
  exists fs rest, buf = flat_map adts_bytes fs ++ rest /\ Forall frame_ok fs /\ (rest = [] \/ rejected rest \/ dangerous rest).
Proof.
  induction n as [|n IH]; intros buf Hb Hn; pose proof (zlen_nonneg buf) as H0.
  - exists [], []. split; [|split; [constructor|left; reflexivity]]. destruct buf; [reflexivity|rewrite zlen_cons in Hn; pose proof (zlen_nonneg buf); lia].
  - destruct (Z.eq_dec (zlen buf) 0) as [Hz|Hz].
    { exists [], []. split; [|split; [constructor|left; reflexivity]]. destruct buf; [reflexivity|rewrite zlen_cons in Hz; pose proof (zlen_nonneg buf); lia]. }
    destruct (Z.lt_ge_cases (zlen buf) 7) as [H7|H7].
    { exists [], buf. split; [reflexivity|split; [constructor|right; left; left; lia]]. }
    destruct (Z.eq_dec (bev (take 2 buf) / 16) 4095) as [Hs|Hs].
    2:{ exists [], buf. split; [reflexivity|split; [constructor|right; left; right; left; auto]]. }
    destruct (header_exists buf Hb H7 Hs) as (f & L & Hh & Eh & _ & _).
    assert (Eb : buf = adts_header f L ++ drop 7 buf) by (rewrite <- Eh; symmetry; apply take_drop).
    destruct (fit_inv _ _ Hh) as (_ & _ & _ & Hpa & HL).
    set (h := if fr_pa f =? 0 then 9 else 7).
    assert (Hh79 : 7 <= h <= 9) by (unfold h; destruct (fr_pa f =? 0); lia).
    destruct (Z.lt_ge_cases (zlen buf) h) as [Hh1|Hh1].
    { exists [], buf. split; [reflexivity|split; [constructor|right; right]].
      exists f, L, (drop 7 buf). split; [exact Hh|]. split; [exact Eb|]. cbv zeta. fold h. lia. }
    destruct (Z.eq_dec L 0) as [->|HL0].
    { exists [], buf. split; [reflexivity|split; [constructor|right; left; right; right]].
      exists f, (drop 7 buf). split; [exact Hh|]. split; [exact Eb|exact Hh1]. }
    destruct (Z.lt_ge_cases L h) as [Hh2|Hh2].
    { exists [], buf. split; [reflexivity|split; [constructor|right; right]].
      exists f, L, (drop 7 buf). split; [exact Hh|]. split; [exact Eb|]. cbv zeta. fold h. lia. }
    destruct (Z.lt_ge_cases (zlen buf) L) as [Hh3|Hh3].
    { exists [], buf. split; [reflexivity|split; [constructor|right; right]].
      exists f, L, (drop 7 buf). split; [exact Hh|]. split; [exact Eb|]. cbv zeta. fold h. lia. }
    set (g := mkframe (fr_id f) (fr_layer f) (fr_pa f) (fr_profile f) (fr_sfi f) (fr_priv f) (fr_ch f)
                (fr_orig f) (fr_home f) (fr_cb f) (fr_cs f) (fr_full f) (fr_nb f)
                (take (h - 7) (drop 7 buf)) (take (L - h) (drop h buf))).
    assert (Hd7 : zlen (drop 7 buf) = zlen buf - 7) by (rewrite zlen_drop by lia; lia).
    assert (Hdh : zlen (drop h buf) = zlen buf - h) by (rewrite zlen_drop by lia; lia).
    assert (Zc : zlen (fr_crc g) = h - 7) by (cbn [g fr_crc]; rewrite zlen_take by lia; lia).
    assert (Zr : zlen (fr_raw g) = L - h) by (cbn [g fr_raw]; rewrite zlen_take by lia; lia).
    assert (Lg : adts_len g = L) by (unfold adts_len; lia).
    assert (Og : frame_ok g).
    { split; [|rewrite Zc; unfold h; cbn [g fr_pa]; destruct (fr_pa f =? 0); reflexivity].
      rewrite Lg. split; [apply Hh|]. split; cbn [g fr_crc fr_raw]; apply Forall_take, Forall_drop; assumption. }
    destruct (IH (drop L buf)) as (fs & rest & Ebr & Hfs & Hrest).
    { apply Forall_drop; assumption. } { rewrite zlen_drop by lia. lia. }
    exists (g :: fs), rest. split; [|split; [constructor; assumption|exact Hrest]].
    cbn [flat_map]. rewrite <- app_assoc, <- Ebr. unfold adts_bytes. rewrite Lg.
    change (adts_header g L) with (adts_header f L). rewrite <- Eh. cbn [g fr_crc fr_raw].
    rewrite <- (take_drop L buf) at 1. f_equal.
    replace L with (7 + ((h - 7) + (L - h))) at 1 by lia. rewrite !take_add by lia.
    rewrite drop_drop by lia. repeat f_equal; lia.
Qed.
