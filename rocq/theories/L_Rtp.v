(** RTP and RTCP lemmas. *)
From Verif Require Import Base M_Bits S_Bits L_Bits L_BitsW M_Fields L_Align S_Fields L_Pack M_Packet M_Cache L_Cache
  M_H264 M_AAC S_Codec L_H264 M_Rtp S_Rtp.

(** ** Headers *)
Lemma be_app_fields k v : bits_of (be k v) = nbits (8 * Z.of_nat k) v.
Proof. apply bits_of_be. Qed.

Lemma bit_fields_flat_be4 l : forall tl, Forall (fun s => 0 <= s < 2 ^ 32) l ->
  bit_fields (bits_of (flat_map (be 4) l ++ tl)) (repeat 32 (length l)) = l.
Proof.
  induction l as [|x l IH]; intros tl H; [reflexivity|]. inversion H; subst.
  cbn [flat_map length repeat bit_fields]. rewrite <- app_assoc, bits_of_app, bits_of_be.
  change (8 * Z.of_nat 4) with 32.
  rewrite take_app_exact, drop_app_exact by (rewrite zlen_nbits by lia; reflexivity).
  rewrite IH by assumption. rewrite bval_nbits, Z.mod_small by lia. reflexivity.
Qed.
Lemma zsum_repeat w n : zsum (repeat w n) = w * Z.of_nat n.
Proof. induction n as [|n IH]; [cbn; lia|]. cbn [repeat zsum]. rewrite IH. lia. Qed.
Lemma widths_repeat w n : 0 <= w <= 32 -> widths_ok (repeat w n) = true.
Proof.
  intros H. unfold widths_ok. apply forallb_forall. intros x Hx. apply repeat_spec in Hx. subst. lia.
Qed.
Lemma zlen_flat_be4 l : zlen (flat_map (be 4) l) = 4 * zlen l.
Proof. induction l as [|x l IH]; [reflexivity|]. cbn [flat_map]. rewrite zlen_app, IH, zlen_be, zlen_cons. lia. Qed.
Lemma bytes_flat_be4 l : bytes (flat_map (be 4) l).
Proof. induction l as [|x l IH]; [constructor|]. cbn [flat_map]. apply bytes_app. split; [apply be_bytes|exact IH]. Qed.

Definition fixed_widths := [2; 1; 1; 4; 1; 7; 16; 32; 32].
Lemma pk_fields_snd k : map snd (pk_fields k) = fixed_widths.
Proof. reflexivity. Qed.
Lemma zlen_pk_head k : zlen (be 12 (pack (pk_fields k))) = 12.
Proof. rewrite zlen_be. reflexivity. Qed.
Lemma pk_read_fields k tl : fields_fit (pk_fields k) = true ->
  bit_fields (bits_of (be 12 (pack (pk_fields k)) ++ tl)) fixed_widths = map fst (pk_fields k).
Proof.
  intros Hf. rewrite <- (pk_fields_snd k). apply fields_packed; [reflexivity|exact Hf|reflexivity].
Qed.

(** What the header decoder hands over to payload decoders. *)
Definition dec_ext (k : rtp_packet) : option (Z * list Z) :=
  option_map (fun e => (fst e, take (zlen (snd e) / 4) (snd e))) (pk_ext k).
Definition dec_left (k : rtp_packet) : list Z :=
  match pk_ext k with None => [] | Some (_, d) => drop (zlen d / 4) d end.
Definition dec_hdr (k : rtp_packet) : rtp_hdr :=
  mkrtp (pk_version k) (pk_padding k) (match pk_ext k with Some _ => 1 | None => 0 end) (zlen (pk_csrc k))
        (pk_mark k) (pk_pt k) (pk_seq k) (pk_ts k) (pk_ssrc k) (pk_csrc k) (dec_ext k).

Lemma fixed_part buf c k tl : al buf c (rtp_head k ++ tl) -> pk_ok k ->
  exists c1 c2, bc_acquire c 12 = Ok tt /\ read_fields c fixed_widths = Ok (map fst (pk_fields k), c1) /\
    bc_acquire c1 (zlen (pk_csrc k) * 4) = Ok tt /\
    read_fields c1 (repeat 32 (Z.to_nat (zlen (pk_csrc k)))) = Ok (pk_csrc k, c2) /\ al buf c2 tl.
Proof.
  intros Ha (Hf & Hs & _). unfold rtp_head in Ha. rewrite <- app_assoc in Ha.
  assert (Hz : zlen (pk_csrc k) < 16).
  { unfold fields_fit, pk_fields in Hf. cbn [forallb fst snd] in Hf. change (2 ^ 4) with 16 in Hf. lia. }
  pose proof (zlen_nonneg (pk_csrc k)) as H0. pose proof (zlen_nonneg tl) as Ht.
  assert (Hl : zlen (be 12 (pack (pk_fields k)) ++ flat_map (be 4) (pk_csrc k) ++ tl) = 12 + 4 * zlen (pk_csrc k) + zlen tl)
    by (rewrite !zlen_app, zlen_flat_be4, zlen_pk_head; lia).
  destruct (al_fields _ _ _ fixed_widths 12 Ha) as (c1 & E1 & Ha1); [reflexivity|reflexivity|lia|].
  rewrite pk_read_fields in E1 by assumption. rewrite drop_app_exact in Ha1 by (rewrite zlen_pk_head; reflexivity).
  assert (Hl1 : zlen (flat_map (be 4) (pk_csrc k) ++ tl) = 4 * zlen (pk_csrc k) + zlen tl)
    by (rewrite zlen_app, zlen_flat_be4; lia).
  assert (En : Z.to_nat (zlen (pk_csrc k)) = length (pk_csrc k)) by (unfold zlen; lia).
  destruct (al_fields _ _ _ (repeat 32 (Z.to_nat (zlen (pk_csrc k)))) (4 * zlen (pk_csrc k)) Ha1) as (c2 & E2 & Ha2);
    [apply widths_repeat; lia|rewrite zsum_repeat; lia|lia|].
  rewrite En, bit_fields_flat_be4 in E2 by assumption.
  rewrite drop_app_exact in Ha2 by (rewrite zlen_flat_be4; lia).
  exists c1, c2. split; [apply (al_acquire_ok _ _ _ _ Ha); lia|]. split; [exact E1|].
  split; [apply (al_acquire_ok _ _ _ _ Ha1); lia|]. rewrite En. split; [exact E2|exact Ha2].
Qed.

Lemma header_decode_ok buf c k payload : al buf c (rtp_bytes k payload) -> pk_ok k ->
  exists c', rtp_header_decode c = Ok (dec_hdr k, c') /\ al buf c' (dec_left k ++ payload).
Proof.
  intros Ha Hk. assert (Hk' := Hk). unfold rtp_bytes in Ha.
  destruct (fixed_part _ _ _ _ Ha Hk) as (c1 & c2 & E0 & E1 & E2 & E3 & Ha2).
  unfold rtp_header_decode. rewrite E0. cbn [bind]. fold fixed_widths. rewrite E1.
  cbn [bind fst snd map pk_fields]. rewrite E2. cbn [bind]. rewrite E3. cbn [bind fst snd].
  destruct Hk' as (_ & _ & He). unfold dec_hdr, dec_ext, dec_left. destruct (pk_ext k) as [[prof d]|].
  - change (0 <? 1) with true. cbv iota. destruct He as (Hp & Hd & Hm & Hw).
    unfold ext_bytes in Ha2. rewrite <- !app_assoc in Ha2. pose proof (zlen_nonneg d) as H0. pose proof (zlen_nonneg payload) as H1.
    assert (Hl : zlen (be 2 prof ++ be 2 (zlen d / 4) ++ d ++ payload) = 4 + zlen d + zlen payload)
      by (rewrite !zlen_app, !zlen_be; lia).
    assert (Hq : 0 <= zlen d / 4 <= zlen d) by (zify_divmod; lia).
    unfold rtp_ext_decode. rewrite (al_acquire_ok _ _ _ _ Ha2) by lia. cbn [bind].
    destruct (al_fields _ _ _ [16; 16] 4 Ha2) as (c3 & E4 & Ha3); [reflexivity|reflexivity|lia|].
    cbn [bit_fields] in E4. rewrite app_assoc in E4.
    rewrite bits_of_app, bits_of_app, !bits_of_be in E4. change (8 * Z.of_nat 2) with 16 in E4.
    rewrite <- app_assoc in E4.
    rewrite take_app_exact, drop_app_exact, take_app_exact in E4 by (rewrite zlen_nbits by lia; reflexivity).
    rewrite !bval_nbits, !Z.mod_small in E4 by lia. rewrite E4. cbn [bind fst snd].
    replace (drop 4 (be 2 prof ++ be 2 (zlen d / 4) ++ d ++ payload)) with (d ++ payload) in Ha3.
    2:{ rewrite app_assoc. rewrite drop_app_exact by (rewrite zlen_app, !zlen_be; reflexivity). reflexivity. }
    destruct (Z.eqb_spec (zlen d / 4) 0) as [Ez|Ez].
    + cbn [bind fst snd option_map]. rewrite Ez, take_0, drop_0 by lia. eexists. split; [reflexivity|exact Ha3].
    + rewrite (al_acquire_ok _ _ _ _ Ha3) by (rewrite ?zlen_app; lia). cbn [bind].
      destruct (al_read_bytes _ _ _ (zlen d / 4) Ha3) as (c4 & E5 & Ha4); [rewrite zlen_app; lia|].
      rewrite E5. cbn [bind fst snd option_map]. rewrite take_app_le by lia. rewrite drop_app_le in Ha4 by lia.
      eexists. split; [reflexivity|exact Ha4].
  - change (0 <? 0) with false. cbv iota. cbn [ext_bytes app] in Ha2. eexists. split; [reflexivity|exact Ha2].
Qed.

Definition no_UB {A} (r : res A) : Prop := match r with Ok _ => True | Err e => e = ERROR_IO_NOT_ENOUGH | _ => False end.

Lemma al_acquire_cases buf c rest k : al buf c rest -> 0 <= k < 2 ^ 29 ->
  (bc_acquire c k = Ok tt /\ k <= zlen rest) \/ bc_acquire c k = Err ERROR_IO_NOT_ENOUGH.
Proof.
  intros H Hk. rewrite (al_acquire _ _ _ _ H Hk). destruct (Z.leb_spec k (zlen rest)); [left; auto|right; auto].
Qed.

Lemma bval_take_range bs w : 0 <= w <= zlen bs -> 0 <= bval (take w bs) < 2 ^ w.
Proof. intros H. pose proof (bval_range (take w bs)) as Hr. rewrite zlen_take, Z.min_l in Hr by lia. exact Hr. Qed.

Lemma header_decode_total buf c rest : al buf c rest ->
  (exists h c' rest', rtp_header_decode c = Ok (h, c') /\ al buf c' rest' /\
      exists used, rest = used ++ rest' /\ 12 <= zlen used) \/
  rtp_header_decode c = Err ERROR_IO_NOT_ENOUGH.
Proof.
  intros Ha. unfold rtp_header_decode.
  destruct (al_acquire_cases _ _ _ 12 Ha) as [[-> Hl]| ->]; [lia| |right; reflexivity]. cbn [bind].
  destruct (al_fields _ _ _ fixed_widths 12 Ha) as (c1 & E1 & Ha1); [reflexivity|reflexivity|lia|].
  fold fixed_widths. rewrite E1. cbn [bind fst snd bit_fields fixed_widths]. clear E1.
  set (cc := bval (take 4 _)).
  assert (Hcc : 0 <= cc < 16).
  { change 16 with (2 ^ 4). apply bval_take_range. rewrite !zlen_drop, zlen_bits_of by lia. lia. }
  clearbody cc. set (x := bval (take 1 (drop 1 (drop 2 (bits_of rest))))). clearbody x.
  destruct (al_acquire_cases _ _ _ (cc * 4) Ha1) as [[-> Hl1]| ->]; [lia| |right; reflexivity]. cbn [bind].
  destruct (al_fields _ _ _ (repeat 32 (Z.to_nat cc)) (4 * cc) Ha1) as (c2 & E2 & Ha2);
    [apply widths_repeat; lia|rewrite zsum_repeat; lia|lia|].
  rewrite E2. cbn [bind fst snd]. clear E2. rewrite drop_drop in Ha2 by lia. rewrite zlen_drop in Hl1 by lia.
  destruct (0 <? x).
  2:{ left. eexists _, _, _. split; [reflexivity|]. split; [exact Ha2|]. exists (take (4 * cc + 12) rest).
      rewrite take_drop, zlen_take by lia. split; [reflexivity|lia]. }
  unfold rtp_ext_decode.
  destruct (al_acquire_cases _ _ _ 4 Ha2) as [[-> Hl2]| ->]; [lia| |right; reflexivity]. cbn [bind].
  rewrite zlen_drop in Hl2 by lia.
  destruct (al_fields _ _ _ [16; 16] 4 Ha2) as (c3 & E3 & Ha3); [reflexivity|reflexivity|rewrite zlen_drop by lia; lia|].
  rewrite E3. cbn [bind fst snd bit_fields]. clear E3.
  rewrite drop_drop in Ha3 by lia.
  set (len := bval (take 16 (drop 16 _))).
  assert (Hlen : 0 <= len < 2 ^ 16).
  { apply bval_take_range. rewrite zlen_drop, zlen_bits_of, zlen_drop by lia. lia. }
  clearbody len.
  destruct (len =? 0).
  { cbn [bind fst snd]. left. eexists _, _, _. split; [reflexivity|]. split; [exact Ha3|]. exists (take (4 + (4 * cc + 12)) rest).
    rewrite take_drop, zlen_take by lia. split; [reflexivity|lia]. }
  destruct (al_acquire_cases _ _ _ len Ha3) as [[-> Hl3]| ->]; [lia| |right; reflexivity]. cbn [bind].
  destruct (al_read_bytes _ _ _ len Ha3) as (c4 & E4 & Ha4); [lia|].
  rewrite E4. cbn [bind fst snd]. left. rewrite drop_drop in Ha4 by lia. rewrite zlen_drop in Hl3 by lia.
  eexists _, _, _. split; [reflexivity|]. split; [exact Ha4|]. exists (take (len + (4 + (4 * cc + 12))) rest).
  rewrite take_drop, zlen_take by lia. split; [reflexivity|lia].
Qed.

(** ** NAL units *)
Lemma raw_nalu_ok now ts u : bytes u ->
  encode_raw_nalu (mkav (now * 90) ts 90) (-1) u = nal_result now ts u.
Proof.
  intros Hb. unfold encode_raw_nalu, nal_result. rewrite parse_nal_cases by assumption.
  destruct u as [|h t]; [reflexivity|].
  destruct (Z.ltb_spec h 128), (Z.leb_spec 128 h); try lia; [|reflexivity].
  cbn [bind]. rewrite encode_avc_ok.
  - unfold last_of. cbn [rev app find]. unfold is_sps. cbn [n_type nal_of nth n_buf]. unfold H264_NAL_SPS.
    destruct (h mod 32 =? 7); [|reflexivity]. cbn [andb n_buf]. destruct (zlen (h :: t) <? 4); reflexivity.
  - discriminate.
  - left; reflexivity.
  - constructor; [assumption|constructor].
Qed.
Lemma nalu_decode_ok now h buf c rest : al buf c rest ->
  match nal_result now (rh_ts h) rest with
  | Ok ps => exists c', nalu_decode now h c = Ok (ps, c') /\ al buf c' []
  | Err e => nalu_decode now h c = Err e
  | _ => False
  end.
Proof.
  intros Ha. pose proof (zlen_nonneg rest) as H0. unfold nalu_decode. rewrite (al_size _ _ _ Ha).
  rewrite (al_peek _ _ _ _ Ha) by lia. cbn [bind]. rewrite take_all by lia.
  rewrite raw_nalu_ok by apply (al_bytes _ _ _ Ha).
  destruct (al_skip _ _ _ (zlen rest) Ha) as (c' & E & Ha'); [lia|]. rewrite E.
  rewrite drop_all in Ha' by lia.
  destruct (nal_result now (rh_ts h) rest) as [ps|e| |] eqn:Er; cbn [bind].
  - exists c'. split; [reflexivity|exact Ha'].
  - reflexivity.
  - unfold nal_result in Er. destruct rest; [discriminate|]. destruct (128 <=? _); [discriminate|]. destruct (_ && _); discriminate.
  - unfold nal_result in Er. destruct rest; [discriminate|]. destruct (128 <=? _); [discriminate|]. destruct (_ && _); discriminate.
Qed.
Lemma nal_result_cases now ts u : (exists ps, nal_result now ts u = Ok ps) \/ (exists e, nal_result now ts u = Err e).
Proof.
  unfold nal_result. destruct u; [right; eauto|]. destruct (128 <=? _); [right; eauto|]. destruct (_ && _); [right|left]; eauto.
Qed.

(** ** Fragment buffer *)
Definition cbrep (mem : list Z) (b : cbuf) (u : list Z) : Prop :=
  cb_mem b = u ++ drop (zlen u) mem /\ cb_len b = zlen u /\ cb_head b = 0 /\ cb_cap b = zlen mem /\
  zlen u <= zlen mem /\ zlen mem < 2 ^ 32 /\ bytes u.
Definition strep (mem : list Z) (st : option cbuf) (u : option (list Z)) : Prop :=
  match st, u with
  | None, None => True
  | Some b, Some u => cbrep mem b u
  | _, _ => False
  end.
Lemma cbrep_append mem b u d : cbrep mem b u -> bytes d -> zlen u + zlen d <= zlen mem ->
  exists b', cb_append b d = Ok b' /\ cbrep mem b' (u ++ d).
Proof.
  intros (H1 & H2 & H3 & H4 & H5 & H6 & H7) Hd Hl. pose proof (zlen_nonneg u). pose proof (zlen_nonneg d).
  eexists. split.
  - apply (cb_append_ok b d u (drop (zlen u) mem)); try lia; try assumption.
    rewrite H1, zlen_app, zlen_drop by lia. lia.
  - unfold cbrep. cbn [cb_mem cb_len cb_head cb_cap]. rewrite zlen_app, drop_drop by lia.
    split; [rewrite <- app_assoc, (Z.add_comm (zlen d)); reflexivity|]. repeat (split; [lia|]). apply bytes_app. auto.
Qed.
Lemma cbrep_full mem b u d : cbrep mem b u -> zlen mem < zlen u + zlen d -> cb_append b d = Err (-1).
Proof.
  intros (H1 & H2 & H3 & H4 & H5 & H6 & H7) Hl. pose proof (zlen_nonneg u).
  apply cb_append_full; lia.
Qed.
Lemma cbrep_contents mem b u : cbrep mem b u -> cb_contents b = Ok u.
Proof.
  intros (H1 & H2 & H3 & H4 & H5 & H6 & H7). unfold cb_contents. rewrite H1, H2, H3.
  rewrite slice_some by (rewrite ?zlen_app, ?zlen_drop by (pose proof (zlen_nonneg u); lia); pose proof (zlen_nonneg u); lia).
  rewrite drop_0 by lia. rewrite take_app_exact by reflexivity. reflexivity.
Qed.
Lemma cbrep_new mem : zlen mem < 2 ^ 32 -> cbrep mem (cb_new mem (zlen mem) 0) [].
Proof.
  intros H. pose proof (zlen_nonneg mem). unfold cbrep, cb_new. cbn [cb_mem cb_len cb_head cb_cap app].
  rewrite Z.add_0_r. rewrite u32_id by lia. rewrite take_all by lia. change (zlen (@nil Z)) with 0. rewrite drop_0 by lia.
  repeat (split; [first [reflexivity|lia]|]). constructor.
Qed.

(** ** Fragmentation units *)
Lemma fh_fields : forall b, byte b -> bit_fields (byte_bits b) [1; 1; 1; 5] = [b / 128; b / 64 mod 2; b / 32 mod 2; b mod 32].
Proof.
  intros b Hb. apply eqb_list_spec. revert b Hb.
  apply (byte_sweep (fun h => eqb_list (bit_fields (byte_bits h) [1; 1; 1; 5]) [h / 128; h / 64 mod 2; h / 32 mod 2; h mod 32])).
  vm_compute. reflexivity.
Qed.
Lemma fu_header ind fh tl : byte ind -> byte fh ->
  bit_fields (bits_of (ind :: fh :: tl)) [1; 2; 5; 1; 1; 1; 5] =
    [ind / 128; ind / 32 mod 4; ind mod 32; fh / 128; fh / 64 mod 2; fh / 32 mod 2; fh mod 32].
Proof.
  intros Hi Hf. change [1; 2; 5; 1; 1; 1; 5] with ([1; 2; 5] ++ [1; 1; 1; 5]).
  assert (F1 : Forall (fun w => 0 <= w <= 32) [1; 2; 5]) by (repeat constructor; lia).
  assert (F2 : Forall (fun w => 0 <= w <= 32) [1; 1; 1; 5]) by (repeat constructor; lia).
  rewrite bit_fields_app by assumption. rewrite !bits_of_cons. change (zsum [1; 2; 5]) with 8.
  rewrite drop_app_exact by (rewrite zlen_byte_bits; reflexivity).
  rewrite !bit_fields_prefix by (try assumption; rewrite zlen_byte_bits; reflexivity || (cbn; lia)).
  rewrite nal_fields, fh_fields by assumption. reflexivity.
Qed.
Lemma nal_header_byte ind tp : byte ind -> 0 <= tp < 32 ->
  u8 (Z.lor (Z.lor (Z.shiftl (ind / 128) 7) (Z.shiftl (ind / 32 mod 4) 5)) tp) = ind / 32 * 32 + tp.
Proof.
  intros Hi Ht. set (x := ind / 32 * 32 + tp).
  assert (Hx : byte x) by (unfold x, byte in *; zify_divmod; lia).
  assert (E1 : ind / 128 = x / 128) by (unfold x, byte in *; zify_divmod; lia).
  assert (E2 : ind / 32 = x / 32) by (unfold x, byte in *; zify_divmod; lia).
  assert (E3 : tp = x mod 32) by (unfold x, byte in *; zify_divmod; lia).
  rewrite E1, E2, E3. clearbody x. clear - Hx. apply Z.eqb_eq. revert x Hx.
  apply (byte_sweep (fun x => u8 (Z.lor (Z.lor (Z.shiftl (x / 128) 7) (Z.shiftl (x / 32 mod 4) 5)) (x mod 32)) =? x)).
  vm_compute. reflexivity.
Qed.
Lemma land31 b : 0 <= b -> Z.land b 0x1f = b mod 32.
Proof. intros H. change 0x1f with (Z.ones 5). rewrite Z.land_ones by lia. reflexivity. Qed.

(** Out-of-range skips. *)
Lemma al_skip_out buf c rest n : al buf c rest -> zlen rest < n <= zlen rest + 2 ^ 58 ->
  exists c', skip_read_bytes c n = Ok c' /\ bc_buf c' = buf /\ bc_rem c' = 0 /\ bc_pos c' = zlen buf - 1 + (n - zlen rest) /\
    0 < n - zlen rest /\ zlen buf < 2 ^ 60.
Proof.
  intros H Hn. pose proof (al_len _ _ _ H) as HL. destruct H as (Hb & Hl & Eb & Er & Hv & Hp & ->).
  unfold skip_read_bytes. rewrite Er. cbn [Z.eqb]. eexists. split; [reflexivity|]. cbn [bc_buf bc_rem bc_pos].
  split; [assumption|]. split; [reflexivity|]. lia.
Qed.
Lemma out_size c d : bc_rem c = 0 -> bc_pos c = zlen (bc_buf c) - 1 + d -> 0 < d < 2 ^ 58 ->
  bc_size c = 2 ^ 61 - d /\ forall k, 0 <= k < 2 ^ 29 -> bc_acquire c k = Ok tt.
Proof.
  intros Hr Hp Hd. assert (E : size_bits c = 2 ^ 64 - 8 * d).
  { unfold size_bits. rewrite Hr, Hp.
    replace (zlen (bc_buf c) - (zlen (bc_buf c) - 1 + d) - 1) with (- d) by lia.
    unfold u64. rewrite Z.add_0_r, Z.mod_mod by lia. rewrite Z.mul_mod_idemp_l by lia.
    replace (- d * 8) with ((2 ^ 64 - 8 * d) + -1 * 2 ^ 64) by lia. rewrite Z.mod_add by lia. apply Z.mod_small. lia. }
  split.
  - unfold bc_size. rewrite E. replace (2 ^ 64 - 8 * d) with ((2 ^ 61 - d) * 8) by lia. apply Z.div_mul. lia.
  - intros k Hk. unfold bc_acquire, acquire_bits. rewrite E.
    replace (u32 (k * 8)) with (k * 8) by (unfold u32; rewrite Z.mod_small by lia; reflexivity).
    destruct (Z.leb_spec (k * 8) (2 ^ 64 - 8 * d)); [reflexivity|lia].
Qed.
Lemma out_read c d n : bc_rem c = 0 -> bc_pos c = zlen (bc_buf c) - 1 + d -> 0 < d -> 0 < n -> read_bits c n = UB.
Proof.
  intros Hr Hp Hd Hn. unfold read_bits. destruct (Z.to_nat n) eqn:En; [lia|]. cbn [read_bits_loop].
  destruct (n <=? 0) eqn:E; [lia|]. rewrite Hr. cbn [Z.eqb]. unfold bc_next. rewrite Hr. cbn [Z.eqb negb].
  destruct (nthz (bc_buf c) (bc_pos c + 1)) eqn:E1; [apply nthz_some_range in E1; lia|]. reflexivity.
Qed.
Lemma out_peek c d n : bc_rem c = 0 -> bc_pos c = zlen (bc_buf c) - 1 + d -> 0 < d -> bc_peek c n = UB.
Proof.
  intros Hr Hp Hd. unfold bc_peek, bc_off. rewrite Hr. cbn [Z.ltb Z.compare]. unfold slice.
  destruct ((0 <=? bc_pos c + 1) && (0 <=? n) && (bc_pos c + 1 + n <=? zlen (bc_buf c))) eqn:E; [lia|reflexivity].
Qed.

(** ** Payload refinement *)
Definition of_unit (now ts : Z) (u : list Z) : list pkt * res unit :=
  match nal_result now ts u with
  | Ok ps => (ps, Ok tt) | Err e => ([], Err e) | UB => ([], UB) | Fuel => ([], Fuel)
  end.
Lemma nalu_decode_emit now h buf c rest {S} (st : S) : al buf c rest ->
  match nalu_decode now h c with
  | Ok (ps, _) => (st, (ps, Ok tt))
  | Err e => (st, ([], Err e)) | UB => (st, ([], UB)) | Fuel => (st, ([], Fuel))
  end = (st, of_unit now (rh_ts h) rest).
Proof.
  intros Ha. pose proof (nalu_decode_ok now h _ _ _ Ha) as H. unfold of_unit.
  destruct (nal_result now (rh_ts h) rest); try contradiction; [destruct H as (c' & -> & _)|rewrite H]; reflexivity.
Qed.

Definition agg_spec (now ts : Z) (l : list Z) : list pkt * res unit :=
  match l with
  | [] => ([], Ok tt)
  | sz :: u => if zlen u <? sz then ([], Err ERROR_IO_NOT_ENOUGH) else of_unit now ts u
  end.
Lemma one_byte x l : byte x -> bval (take 8 (bits_of (x :: l))) = x.
Proof.
  intros Hx. rewrite bits_of_cons, take_app_exact by (rewrite zlen_byte_bits; reflexivity).
  assert (E : byte_bits x = bits_of [x]) by (rewrite bits_of_cons; change (bits_of []) with (@nil bool); rewrite app_nil_r; reflexivity). rewrite E.
  rewrite bval_bits_of by (constructor; [assumption|constructor]). unfold bev. cbn [fold_left]. lia.
Qed.
Lemma stap_loop_ok f now h buf c rest : al buf c rest -> stap_loop (S (S f)) now h c = agg_spec now (rh_ts h) rest.
Proof.
  intros Ha. assert (Hb := al_bytes _ _ _ Ha). remember (S f) as g. cbn [stap_loop].
  rewrite (al_size _ _ _ Ha). destruct rest as [|sz u]; [reflexivity|].
  assert (Hz := zlen_nonneg u). rewrite zlen_cons. destruct (1 + zlen u <=? 0) eqn:E0; [lia|].
  apply bytes_cons in Hb as [Hsz Hu].
  destruct (al_bits _ _ _ 8 1 Ha) as (c1 & E1 & Ha1); [lia|lia|rewrite zlen_cons; lia|].
  rewrite E1. cbn [bind fst snd]. rewrite one_byte by assumption. change (drop 1 (sz :: u)) with u in Ha1.
  rewrite (al_acquire _ _ _ _ Ha1) by (unfold byte in Hsz; lia). cbn [agg_spec].
  destruct (Z.leb_spec sz (zlen u)), (Z.ltb_spec (zlen u) sz); try lia; [|reflexivity]. cbn [bind].
  pose proof (nalu_decode_ok now h _ _ _ Ha1) as H'. unfold of_unit.
  destruct (nal_result now (rh_ts h) u); try contradiction; [destruct H' as (c' & -> & Ha')|rewrite H'; reflexivity].
  subst g. cbn [stap_loop]. rewrite (al_size _ _ _ Ha'). change (zlen (@nil Z) <=? 0) with true. cbv iota. rewrite app_nil_r. reflexivity.
Qed.
Definition magg_spec (off now ts : Z) (l : list Z) : list pkt * res unit :=
  match l with
  | [] => ([], Ok tt)
  | sz :: _ =>
      if zlen l <? 2 + off then ([], Err ERROR_IO_NOT_ENOUGH)
      else if zlen (drop (2 + off) l) <? sz then ([], Err ERROR_IO_NOT_ENOUGH)
      else of_unit now ts (drop (2 + off) l)
  end.
Lemma mtap_loop_ok f off now h buf c rest : al buf c rest -> 2 <= off <= 3 ->
  mtap_loop (S (S f)) off now h c = magg_spec off now (rh_ts h) rest.
Proof.
  intros Ha Ho. assert (Hb := al_bytes _ _ _ Ha). remember (S f) as g. cbn [mtap_loop].
  rewrite (al_size _ _ _ Ha). unfold magg_spec. destruct rest as [|sz u]; [reflexivity|].
  remember (sz :: u) as l. assert (Hl1 : 1 <= zlen l) by (subst l; rewrite zlen_cons; pose proof (zlen_nonneg u); lia).
  destruct (zlen l <=? 0) eqn:E0; [lia|].
  rewrite (al_acquire _ _ _ _ Ha) by lia. change (1 + 1) with 2.
  destruct (Z.leb_spec (2 + off) (zlen l)), (Z.ltb_spec (zlen l) (2 + off)); try lia; [|reflexivity]. cbn [bind].
  destruct (al_fields _ _ _ [8; 8; 8 * off] (2 + off) Ha) as (c1 & E1 & Ha1);
    [cbn [forallb]; lia|cbn [zsum]; lia|lia|].
  rewrite E1. cbn [bind fst snd bit_fields].
  assert (Hsz : bval (take 8 (bits_of l)) = sz /\ byte sz).
  { subst l. apply bytes_cons in Hb as [Hsz Hu]. split; [apply one_byte|]; assumption. }
  destruct Hsz as [-> Hsz].
  rewrite (al_acquire _ _ _ _ Ha1) by (unfold byte in Hsz; lia).
  destruct (Z.leb_spec sz (zlen (drop (2 + off) l))), (Z.ltb_spec (zlen (drop (2 + off) l)) sz); try lia; [|reflexivity]. cbn [bind].
  pose proof (nalu_decode_ok now h _ _ _ Ha1) as H'. unfold of_unit.
  destruct (nal_result now (rh_ts h) (drop (2 + off) l)); try contradiction; [destruct H' as (c' & -> & Ha')|rewrite H'; reflexivity].
  subst g. cbn [mtap_loop]. rewrite (al_size _ _ _ Ha'). change (zlen (@nil Z) <=? 0) with true. cbv iota. rewrite app_nil_r. reflexivity.
Qed.

(** A fragment payload, FU-A or FU-B. *)
Definition fu_spec (cap now ts : Z) (st : option (list Z)) (l : list Z) : option (list Z) * (list pkt * res unit) :=
  match l with
  | ind :: fh :: chunk =>
      if ind mod 32 =? 29 then
        if zlen chunk <? 2 then
          match st, fh / 128 =? 1 with
          | Some u, true => (Some u, ([], Err ERROR_RTP_DECODER_H264))
          | None, false => (None, ([], Ok tt))
          | None, true => (Some [ind / 32 * 32 + fh mod 32], ([], UB))
          | Some u, false => (Some u, ([], UB))
          end
        else fu_step cap now ts st ind fh (drop 2 chunk)
      else fu_step cap now ts st ind fh chunk
  | _ => (st, ([], Err ERROR_IO_NOT_ENOUGH))
  end.

Lemma zlen2_inv {A} (l : list A) : 2 <= zlen l -> exists a b t, l = a :: b :: t.
Proof. intros H. destruct l as [|a [|b t]]; cbn in H; try lia. eauto. Qed.

(** The part after the two header bytes. *)
Definition fu_rest (mem : list Z) (now : Z) (h : rtp_hdr) (st : option cbuf) (f nri s e tp : Z) (c1 : bitctx)
  : option cbuf * emit :=
      match (if s =? 1 then
               match st with
               | Some _ => Err ERROR_RTP_DECODER_H264
               | None =>
                   let? b := cb_append (cb_new mem (zlen mem) 0)
                               [u8 (Z.lor (Z.lor (Z.shiftl f 7) (Z.shiftl nri 5)) tp)] in
                   Ok (Some b)
               end
             else Ok st) with
      | Ok None => (None, ([], Ok tt))
      | Ok (Some b) =>
          match (let? d := bc_peek c1 (bc_size c1) in
                 let? b1 := cb_append b d in
                 Ok b1) with
          | Ok b1 =>
              if e =? 1 then
                match (let? u := cb_contents b1 in nalu_decode now h (bc_init u)) with
                | Ok (ps, _) => (None, (ps, Ok tt))
                | Err er => (Some b1, ([], Err er))
                | UB => (Some b1, ([], UB)) | Fuel => (Some b1, ([], Fuel))
                end
              else (Some b1, ([], Ok tt))
          | Err er => (Some b, ([], Err er))
          | UB => (Some b, ([], UB)) | Fuel => (Some b, ([], Fuel))
          end
      | Err er => (st, ([], Err er))
      | UB => (st, ([], UB)) | Fuel => (st, ([], Fuel))
      end.

(** The unit being collected once the start bit has been looked at. *)
Lemma fu_base mem st u0 ind fh : strep mem st u0 -> 1 <= zlen mem < 2 ^ 32 -> byte ind -> byte fh ->
  (if fh / 128 =? 1 then
     match st with
     | Some _ => Err ERROR_RTP_DECODER_H264
     | None =>
         let? b := cb_append (cb_new mem (zlen mem) 0)
                     [u8 (Z.lor (Z.lor (Z.shiftl (ind / 128) 7) (Z.shiftl (ind / 32 mod 4) 5)) (fh mod 32))] in
         Ok (Some b)
     end
   else Ok st) = Err ERROR_RTP_DECODER_H264 /\ (fh / 128 =? 1) = true /\ (exists u, u0 = Some u) \/
  (exists st1 u1, (if fh / 128 =? 1 then
     match st with
     | Some _ => Err ERROR_RTP_DECODER_H264
     | None =>
         let? b := cb_append (cb_new mem (zlen mem) 0)
                     [u8 (Z.lor (Z.lor (Z.shiftl (ind / 128) 7) (Z.shiftl (ind / 32 mod 4) 5)) (fh mod 32))] in
         Ok (Some b)
     end
   else Ok st) = Ok st1 /\ strep mem st1 u1 /\
     match u0, fh / 128 =? 1 with
     | None, true => u1 = Some [ind / 32 * 32 + fh mod 32]
     | None, false => u1 = None
     | Some u, false => u1 = Some u
     | Some u, true => False
     end).
Proof.
  intros Hst Hm Hi Hf. destruct (fh / 128 =? 1) eqn:Es.
  - destruct st as [b|], u0 as [u|]; cbn [strep] in Hst; try contradiction.
    + left. split; [reflexivity|split; [reflexivity|eauto]].
    + right. rewrite nal_header_byte by (assumption || (zify_divmod; lia)).
      set (hb := ind / 32 * 32 + fh mod 32).
      assert (Hhb : byte hb) by (unfold hb, byte in *; zify_divmod; lia).
      destruct (cbrep_append mem _ [] [hb] (cbrep_new mem ltac:(lia))) as (b' & Eb & Rb).
      { constructor; [exact Hhb|constructor]. } { change (zlen (@nil Z)) with 0. rewrite zlen_cons. change (zlen (@nil Z)) with 0. lia. }
      rewrite Eb. cbn [bind]. exists (Some b'), (Some [hb]). split; [reflexivity|]. split; [exact Rb|reflexivity].
  - right. exists st, u0. split; [reflexivity|]. split; [exact Hst|]. destruct u0; reflexivity.
Qed.

Lemma fu_rest_ok mem now h st u0 ind fh buf c1 chunk : strep mem st u0 -> 1 <= zlen mem < 2 ^ 32 ->
  byte ind -> byte fh -> al buf c1 chunk ->
  exists st', fu_rest mem now h st (ind / 128) (ind / 32 mod 4) (fh / 128) (fh / 64 mod 2) (fh mod 32) c1 =
     (st', snd (fu_step (zlen mem) now (rh_ts h) u0 ind fh chunk)) /\
     strep mem st' (fst (fu_step (zlen mem) now (rh_ts h) u0 ind fh chunk)).
Proof.
  intros Hst Hm Hi Hf Ha. unfold fu_rest, fu_step.
  destruct (fu_base mem st u0 ind fh Hst Hm Hi Hf) as [(-> & Es & u & ->)|(st1 & u1 & -> & Hst1 & Hu)].
  - rewrite Es. cbn [fst snd]. exists st. split; [reflexivity|exact Hst].
  - destruct st1 as [b|], u1 as [u|]; cbn [strep] in Hst1; try contradiction.
    2:{ destruct u0 as [u'|], (fh / 128 =? 1); try contradiction; try discriminate. cbn [fst snd]. exists None. split; [reflexivity|constructor]. }
    assert (Hcase : match u0, fh / 128 =? 1 with
         | Some u, true => (Some u, ([], Err ERROR_RTP_DECODER_H264))
         | None, false => (None, ([], Ok tt))
         | Some u, false => fu_add (zlen mem) now (rh_ts h) u (fh / 64 mod 2 =? 1) chunk
         | None, true => fu_add (zlen mem) now (rh_ts h) [ind / 32 * 32 + fh mod 32] (fh / 64 mod 2 =? 1) chunk
         end = fu_add (zlen mem) now (rh_ts h) u (fh / 64 mod 2 =? 1) chunk).
    { destruct u0 as [u'|], (fh / 128 =? 1); try contradiction; try discriminate; injection Hu as ->; reflexivity. }
    rewrite Hcase. clear Hcase Hu. unfold fu_add.
    pose proof (zlen_nonneg chunk) as H0. rewrite (al_size _ _ _ Ha), (al_peek _ _ _ _ Ha) by lia.
    rewrite take_all by lia. cbn [bind].
    destruct (Z.ltb_spec (zlen mem) (zlen u + zlen chunk)) as [Hbig|Hfit].
    { rewrite (cbrep_full mem b u chunk) by assumption. cbn [bind fst snd]. exists (Some b). split; [reflexivity|exact Hst1]. }
    destruct (cbrep_append mem b u chunk Hst1 (al_bytes _ _ _ Ha) Hfit) as (b' & Eb & Rb). rewrite Eb. cbn [bind].
    destruct (fh / 64 mod 2 =? 1).
    2:{ cbn [fst snd]. exists (Some b'). split; [reflexivity|exact Rb]. }
    rewrite (cbrep_contents mem b' (u ++ chunk) Rb). cbn [bind].
    assert (Hal : al (u ++ chunk) (bc_init (u ++ chunk)) (u ++ chunk)).
    { apply al_init; [apply Rb|]. rewrite zlen_app. lia. }
    pose proof (nalu_decode_ok now h _ _ _ Hal) as HN.
    destruct (nal_result now (rh_ts h) (u ++ chunk)) as [ps|e| |]; try contradiction.
    + destruct HN as (c' & -> & _). cbn [fst snd]. exists None. split; [reflexivity|constructor].
    + rewrite HN. cbn [fst snd]. exists (Some b'). split; [reflexivity|exact Rb].
Qed.

Lemma fu_decode_ok mem now h st u0 buf c rest : strep mem st u0 -> 1 <= zlen mem < 2 ^ 32 -> al buf c rest ->
  exists st', fu_decode mem now h st c = (st', snd (fu_spec (zlen mem) now (rh_ts h) u0 rest)) /\
     strep mem st' (fst (fu_spec (zlen mem) now (rh_ts h) u0 rest)).
Proof.
  intros Hst Hm Ha. unfold fu_decode. rewrite (al_acquire _ _ _ _ Ha) by lia.
  destruct (Z.leb_spec 2 (zlen rest)) as [H2|H2].
  2:{ exists st. unfold fu_spec. destruct rest as [|i [|f r]]; [split; [reflexivity|exact Hst]..|].
      rewrite !zlen_cons in H2. pose proof (zlen_nonneg r). lia. }
  destruct (zlen2_inv rest H2) as (ind & fh & chunk & ->).
  assert (Hb := al_bytes _ _ _ Ha). apply bytes_cons in Hb as [Hi Hb]. apply bytes_cons in Hb as [Hf Hb].
  destruct (al_fields _ _ _ [1; 2; 5; 1; 1; 1; 5] 2 Ha) as (c1 & E1 & Ha1); [reflexivity|reflexivity|assumption|].
  rewrite fu_header in E1 by assumption. cbn [bind]. rewrite E1. cbn [bind fst snd]. change (drop 2 (ind :: fh :: chunk)) with chunk in Ha1.
  unfold fu_spec. destruct (ind mod 32 =? 29).
  - pose proof (zlen_nonneg chunk) as H0. destruct (Z.ltb_spec (zlen chunk) 2) as [Hs|Hs].
    + destruct (al_skip_out _ _ _ 2 Ha1) as (c2 & -> & Eb & Er & Ep & Hd & Hbl); [lia|]. cbn [bind].
      fold (fu_rest mem now h st (ind / 128) (ind / 32 mod 4) (fh / 128) (fh / 64 mod 2) (fh mod 32) c2).
      unfold fu_rest.
      destruct (fu_base mem st u0 ind fh Hst Hm Hi Hf) as [(-> & Es & u & ->)|(st1 & u1 & -> & Hst1 & Hu)].
      * rewrite Es. cbn [fst snd]. exists st. split; [reflexivity|exact Hst].
      * rewrite <- Eb in Ep. rewrite (out_peek c2 (2 - zlen chunk)) by (assumption || lia). cbn [bind].
        destruct st1 as [b|], u1 as [u|]; cbn [strep] in Hst1; try contradiction;
          destruct u0 as [u'|], (fh / 128 =? 1); try contradiction; try discriminate; try (injection Hu as ->);
          cbn [fst snd]; (eexists; split; [reflexivity|assumption || constructor]).
    + destruct (al_skip _ _ _ 2 Ha1) as (c2 & -> & Ha2); [lia|]. cbn [bind].
      apply (fu_rest_ok mem now h st u0 ind fh buf c2 (drop 2 chunk)); assumption.
  - cbn [bind]. apply (fu_rest_ok mem now h st u0 ind fh buf c1 chunk); assumption.
Qed.

(** The whole payload decoder. *)
Definition payload_spec (cap now ts : Z) (st : option (list Z)) (l : list Z) : option (list Z) * (list pkt * res unit) :=
  match l with
  | [] => (st, ([], Err ERROR_IO_NOT_ENOUGH))
  | b :: _ =>
      let tp := b mod 32 in
      if (0 <? tp) && (tp <? 24) then (st, of_unit now ts l)
      else if tp =? 24 then (st, agg_spec now ts l)
      else if tp =? 25 then (st, if zlen l <? 2 then ([], UB) else agg_spec now ts (drop 2 l))
      else if tp =? 26 then (st, magg_spec 2 now ts l)
      else if tp =? 27 then (st, if zlen l <? 3 then ([], UB) else magg_spec 3 now ts (drop 3 l))
      else if (tp =? 28) || (tp =? 29) then fu_spec cap now ts st l
      else (st, ([], Err ERROR_RTP_PROBE))
  end.

Lemma payload_ok mem now h st u0 buf c rest : strep mem st u0 -> 1 <= zlen mem < 2 ^ 32 -> al buf c rest ->
  exists st', h264_rtp_payload mem now h st c = (st', snd (payload_spec (zlen mem) now (rh_ts h) u0 rest)) /\
     strep mem st' (fst (payload_spec (zlen mem) now (rh_ts h) u0 rest)).
Proof.
  intros Hst Hm Ha. unfold h264_rtp_payload. rewrite (al_acquire _ _ _ _ Ha) by lia.
  destruct rest as [|b r]; [exists st; split; [reflexivity|exact Hst]|].
  assert (Hb := al_bytes _ _ _ Ha). apply bytes_cons in Hb as [Hi Hb].
  remember (b :: r) as l. assert (Hl : 1 <= zlen l) by (subst l; rewrite zlen_cons; pose proof (zlen_nonneg r); lia).
  destruct (Z.leb_spec 1 (zlen l)); [|lia]. cbn [bind]. rewrite (al_peek _ _ _ _ Ha) by lia.
  replace (nth 0 (take 1 l) 0) with b by (subst l; reflexivity).
  rewrite land31 by (unfold byte in Hi; lia).
  unfold payload_spec. replace (match l with [] => _ | b :: _ => _ end) with
    (let tp := b mod 32 in
      if (0 <? tp) && (tp <? 24) then (u0, of_unit now (rh_ts h) l)
      else if tp =? 24 then (u0, agg_spec now (rh_ts h) l)
      else if tp =? 25 then (u0, if zlen l <? 2 then ([], UB) else agg_spec now (rh_ts h) (drop 2 l))
      else if tp =? 26 then (u0, magg_spec 2 now (rh_ts h) l)
      else if tp =? 27 then (u0, if zlen l <? 3 then ([], UB) else magg_spec 3 now (rh_ts h) (drop 3 l))
      else if (tp =? 28) || (tp =? 29) then fu_spec (zlen mem) now (rh_ts h) u0 l
      else (u0, ([], Err ERROR_RTP_PROBE))) by (subst l; reflexivity).
  cbv zeta. set (tp := b mod 32).
  destruct ((0 <? tp) && (tp <? 24)).
  { exists st. cbn [fst snd]. split; [exact (nalu_decode_emit now h buf c l st Ha)|exact Hst]. }
  assert (Hfl : exists f, S (length (bc_buf c)) = S (S f)).
  { pose proof (al_le _ _ _ Ha). destruct Ha as (_ & _ & Eb & _). rewrite Eb. unfold zlen in *. exists (length buf - 1)%nat. lia. }
  destruct Hfl as (fl & Hfl).
  destruct (Z.eqb_spec tp 24) as [E24|E24].
  { cbn [orb]. unfold stap_decode. replace (tp =? 25) with false by lia. rewrite Hfl.
    rewrite (stap_loop_ok fl now h buf c l Ha). cbn [fst snd]. exists st. split; [reflexivity|exact Hst]. }
  destruct (Z.eqb_spec tp 25) as [E25|E25].
  { cbn [orb]. unfold stap_decode. replace (tp =? 25) with true by lia. rewrite Hfl. cbn [fst snd]. exists st. split; [|exact Hst]. f_equal.
    destruct (Z.ltb_spec (zlen l) 2) as [Hs|Hs].
    - destruct (al_skip_out _ _ _ 2 Ha) as (c2 & -> & Eb & Er & Ep & Hd & Hbl); [lia|].
      rewrite <- Eb in Ep. cbn [stap_loop]. destruct (out_size c2 (2 - zlen l)) as [-> _]; [assumption|assumption|lia|].
      destruct (2 ^ 61 - (2 - zlen l) <=? 0) eqn:E0; [lia|].
      rewrite (out_read c2 (2 - zlen l)) by (assumption || lia). reflexivity.
    - destruct (al_skip _ _ _ 2 Ha) as (c2 & -> & Ha2); [lia|]. apply (stap_loop_ok fl now h buf c2 _ Ha2). }
  cbn [orb].
  destruct (Z.eqb_spec tp 26) as [E26|E26].
  { cbn [orb]. unfold mtap_decode. replace (tp =? 27) with false by lia. replace (tp =? 26) with true by lia. rewrite Hfl.
    rewrite (mtap_loop_ok fl 2 now h buf c l Ha) by lia. cbn [fst snd]. exists st. split; [reflexivity|exact Hst]. }
  destruct (Z.eqb_spec tp 27) as [E27|E27].
  { cbn [orb]. unfold mtap_decode. replace (tp =? 27) with true by lia. replace (tp =? 26) with false by lia. rewrite Hfl.
    cbn [fst snd]. exists st. split; [|exact Hst]. f_equal.
    destruct (Z.ltb_spec (zlen l) 3) as [Hs|Hs].
    - destruct (al_skip_out _ _ _ 3 Ha) as (c2 & -> & Eb & Er & Ep & Hd & Hbl); [lia|].
      rewrite <- Eb in Ep. cbn [mtap_loop]. destruct (out_size c2 (3 - zlen l)) as [-> Hacq]; [assumption|assumption|lia|].
      destruct (2 ^ 61 - (3 - zlen l) <=? 0) eqn:E0; [lia|]. rewrite Hacq by lia. cbn [bind read_fields].
      rewrite (out_read c2 (3 - zlen l)) by (assumption || lia). reflexivity.
    - destruct (al_skip _ _ _ 3 Ha) as (c2 & -> & Ha2); [lia|]. apply (mtap_loop_ok fl 3 now h buf c2 _ Ha2). lia. }
  cbn [orb]. destruct ((tp =? 28) || (tp =? 29)).
  - apply (fu_decode_ok mem now h st u0 buf c l); assumption.
  - exists st. split; [reflexivity|exact Hst].
Qed.
