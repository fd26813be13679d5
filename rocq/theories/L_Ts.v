(** TS lemmas. *)
From Verif Require Import Base M_Bits S_Bits L_Bits M_Fields L_Align S_Fields L_Pack M_Packet M_Cache L_Cache
  M_H264 M_AAC L_Rtp M_Ts S_Ts.

(** ** Cursor helpers *)
Lemma al_off buf c rest : al buf c rest -> bc_off c = zlen buf - zlen rest.
Proof.
  intros H. pose proof (al_len _ _ _ H). destruct H as (_ & _ & _ & Er & _). unfold bc_off. rewrite Er. cbn. lia.
Qed.
Lemma al_buf buf c rest : al buf c rest -> bc_buf c = buf.
Proof. intros (_ & _ & E & _). exact E. Qed.
Lemma al_rem buf c rest : al buf c rest -> bc_rem c = 0.
Proof. intros (_ & _ & _ & E & _). exact E. Qed.
Lemma al_rest buf c rest : al buf c rest -> drop (bc_off c) buf = rest.
Proof. intros H. destruct H as (_ & _ & _ & Er & _ & _ & ->). unfold bc_off. rewrite Er. reflexivity. Qed.

Definition bits8 := [1; 1; 1; 1; 1; 1; 1; 1].
Lemma flags_sweep : forallb (fun f => if list_eq_dec Z.eq_dec (bit_fields (bits_of [f]) bits8)
  (map (bit f) [7; 6; 5; 4; 3; 2; 1; 0]) then true else false) (map Z.of_nat (seq 0 256)) = true.
Proof. vm_compute. reflexivity. Qed.
Lemma byte_in_seq f : byte f -> In f (map Z.of_nat (seq 0 256)).
Proof.
  intros H. unfold byte in H. replace f with (Z.of_nat (Z.to_nat f)) by lia.
  apply in_map, in_seq. lia.
Qed.
Lemma flags8 f r : byte f -> bit_fields (bits_of (f :: r)) bits8 = map (bit f) [7; 6; 5; 4; 3; 2; 1; 0].
Proof.
  intros H. change (f :: r) with ([f] ++ r). rewrite bits_of_app, bit_fields_prefix.
  - pose proof flags_sweep as S. rewrite forallb_forall in S. specialize (S f (byte_in_seq f H)).
    destruct (list_eq_dec _ _ _); [assumption|discriminate].
  - unfold bits8. repeat constructor; lia.
  - rewrite zlen_bits_of. cbn. lia.
Qed.
Lemma bit_01 f i : bit f i = 0 \/ bit f i = 1.
Proof. unfold bit. pose proof (Z.mod_pos_bound (f / 2 ^ i) 2 ltac:(lia)). lia. Qed.

(** A step consumes exactly [n] bytes, or leaves the buffer. *)
Definition adv (buf : list Z) (rest : list Z) (n : Z) (r : res bitctx) : Prop :=
  if n <=? zlen rest then exists c', r = Ok c' /\ al buf c' (drop n rest) else r = UB.

Lemma al_bits_adv buf c rest n k : al buf c rest -> 0 < k -> n = 8 * k ->
  adv buf rest k (let? r := read_bits c n in Ok (snd r)).
Proof.
  intros H Hk ->. unfold adv. destruct (Z.leb_spec k (zlen rest)).
  - destruct (al_cur _ _ _ H) as [Hc H7].
    destruct (read_bits_ok c (bits_of rest) (8 * k) Hc H7) as (c' & E & Hc' & H7' & Eb); [rewrite zlen_bits_of; lia|].
    rewrite E. cbn [bind snd]. exists c'. split; [reflexivity|].
    rewrite drop_bits_of in Hc' by lia.
    apply cur_al; try assumption.
    + rewrite Eb. apply (al_buf _ _ _ H).
    + destruct H as (_ & Hl & _); exact Hl.
    + apply Forall_drop. apply (al_bytes _ _ _ H).
  - rewrite (al_bits_UB buf c rest (8 * k) H) by lia. reflexivity.
Qed.
Lemma read_bits_UB c bs n : cur c bs -> zlen bs < n -> read_bits c n = UB.
Proof.
  intros Hc Hn. unfold read_bits. apply (read_bits_short _ _ bs); try assumption. pose proof (zlen_nonneg bs). lia.
Qed.
Lemma read_fields_adv ws : forall c bs, cur c bs -> bc_rem c <= 7 -> Forall (fun w => 0 <= w) ws ->
  if zsum ws <=? zlen bs
  then exists v c', read_fields c ws = Ok (v, c') /\ cur c' (drop (zsum ws) bs) /\ bc_rem c' <= 7 /\ bc_buf c' = bc_buf c
  else read_fields c ws = UB.
Proof.
  induction ws as [|w ws IH]; intros c bs Hc H7 Hw; cbn [read_fields zsum].
  - pose proof (zlen_nonneg bs). destruct (Z.leb_spec 0 (zlen bs)); [|lia].
    exists [], c. rewrite drop_0 by lia. auto.
  - inversion Hw; subst.
    assert (Hs : 0 <= zsum ws) by (clear - H2; induction H2; cbn [zsum]; lia).
    destruct (Z_le_dec w (zlen bs)) as [Hle|Hgt].
    + destruct (read_bits_ok c bs w Hc H7) as (c' & E & Hc' & H7' & Eb); [lia|].
      rewrite E. cbn [bind fst snd]. specialize (IH c' _ Hc' H7' H2). rewrite zlen_drop in IH by lia.
      rewrite Z.max_r in IH by lia.
      destruct (Z.leb_spec (w + zsum ws) (zlen bs)), (Z.leb_spec (zsum ws) (zlen bs - w)); try lia.
      * destruct IH as (v & c2 & E2 & Hc2 & H72 & Eb2). rewrite E2. cbn [bind fst snd].
        eexists _, c2. split; [reflexivity|]. rewrite drop_drop in Hc2 by lia. rewrite Eb2, Eb.
        replace (w + zsum ws) with (zsum ws + w) by lia. auto.
      * rewrite IH. reflexivity.
    + destruct (Z.leb_spec (w + zsum ws) (zlen bs)); [lia|]. rewrite (read_bits_UB c bs w Hc) by lia. reflexivity.
Qed.
Lemma al_fields_adv buf c rest ws k : al buf c rest -> Forall (fun w => 0 <= w) ws -> zsum ws = 8 * k ->
  adv buf rest k (let? r := read_fields c ws in Ok (snd r)).
Proof.
  intros H Hw Hk. destruct (al_cur _ _ _ H) as [Hc H7]. pose proof (read_fields_adv ws c _ Hc H7 Hw) as R.
  assert (Hs : 0 <= zsum ws) by (clear - Hw; induction Hw; cbn [zsum]; lia).
  rewrite zlen_bits_of, Hk in R. unfold adv.
  destruct (Z.leb_spec k (zlen rest)), (Z.leb_spec (8 * k) (8 * zlen rest)); try lia.
  - destruct R as (v & c' & E & Hc' & H7' & Eb). rewrite E. cbn [bind snd]. exists c'. split; [reflexivity|].
    rewrite drop_bits_of in Hc' by lia. apply cur_al; try assumption.
    + rewrite Eb. apply (al_buf _ _ _ H).
    + destruct H as (_ & Hl & _); exact Hl.
    + apply Forall_drop. apply (al_bytes _ _ _ H).
  - rewrite R. reflexivity.
Qed.
Lemma al_read_bytes_adv buf c rest k : al buf c rest -> 0 <= k ->
  adv buf rest k (let? r := bc_read_bytes c k in Ok (snd r)).
Proof.
  intros H Hk. unfold adv. destruct (Z.leb_spec k (zlen rest)).
  - destruct (al_read_bytes buf c rest k H) as (c' & E & Ha); [lia|]. rewrite E. cbn [bind snd]. eauto.
  - unfold bc_read_bytes. pose proof (al_len _ _ _ H) as HL. destruct H as (_ & _ & Eb & Er & _ & Hp & _).
    rewrite Er, Eb. cbn [Z.eqb negb]. unfold slice.
    destruct ((0 <=? bc_pos c + 1) && (0 <=? k) && (bc_pos c + 1 + k <=? zlen buf)) eqn:E; [lia|reflexivity].
Qed.
Lemma adv_if buf c rest k (b : bool) r : al buf c rest -> 0 <= k -> adv buf rest k r ->
  adv buf rest (if b then k else 0) (if b then r else Ok c).
Proof.
  intros H Hk Hr. destruct b; [exact Hr|]. unfold adv. pose proof (zlen_nonneg rest).
  destruct (Z.leb_spec 0 (zlen rest)); [|lia]. exists c. rewrite drop_0 by lia. auto.
Qed.
Lemma adv_bind buf rest n m r (f : bitctx -> res bitctx) : 0 <= n -> 0 <= m -> adv buf rest n r ->
  (forall c, al buf c (drop n rest) -> adv buf (drop n rest) m (f c)) ->
  adv buf rest (n + m) (let? c := r in f c).
Proof.
  intros Hn Hm Hr Hf. unfold adv in Hr. destruct (Z.leb_spec n (zlen rest)).
  - destruct Hr as (c' & -> & Ha). cbn [bind]. specialize (Hf c' Ha). unfold adv in *.
    rewrite zlen_drop in Hf by lia. rewrite Z.max_r in Hf by lia.
    destruct (Z.leb_spec m (zlen rest - n)), (Z.leb_spec (n + m) (zlen rest)); try lia; [|exact Hf].
    destruct Hf as (c2 & E & Ha2). exists c2. rewrite drop_drop in Ha2 by lia.
    replace (n + m) with (m + n) by lia. auto.
  - subst r. cbn [bind]. unfold adv. destruct (Z.leb_spec (n + m) (zlen rest)); [lia|reflexivity].
Qed.

Lemma take_1_drop {A} (l : list A) i x : nthz l i = Some x -> take 1 (drop i l) = [x].
Proof.
  intros H. pose proof (nthz_some_range _ _ _ H). assert (E : nthz (drop i l) 0 = Some x)
    by (rewrite nthz_drop by lia; rewrite Z.add_0_r; exact H).
  destruct (drop i l) as [|y r]; [discriminate|]. rewrite nthz_0 in E. injection E as ->.
  unfold take. reflexivity.
Qed.

(** ** Adaptation field *)
(** A cursor beyond the packet. *)
Definition outside (buf : list Z) (c : bitctx) : Prop :=
  bc_buf c = buf /\ bc_rem c = 0 /\ zlen buf < bc_pos c + 1 <= zlen buf + 65536.

Definition af_rest_result (buf body : list Z) (fits : Prop) (r : res bitctx) : Prop :=
  (fits /\ exists c', r = Ok c' /\ al buf c' body) \/
  (~ fits /\ (r = UB \/ r = Err ERROR_IO_NOT_ENOUGH \/ exists c', r = Ok c' /\ outside buf c')).

Lemma af_decode_ok buf c a body : al buf c (zlen a :: a ++ body) -> zlen buf = 188 ->
  af_rest_result buf body (af_fits a) (af_decode c).
Proof.
  intros Ha Hbuf. pose proof (al_le _ _ _ Ha) as Hle. rewrite zlen_cons, zlen_app in Hle.
  pose proof (zlen_nonneg a) as H0. pose proof (zlen_nonneg body) as H1.
  assert (Hby : bytes (zlen a :: a ++ body)) by (apply (al_bytes _ _ _ Ha)).
  unfold af_decode. rewrite (al_acquire_ok _ _ _ 1 Ha) by (try rewrite zlen_cons, zlen_app; lia). cbn [bind].
  destruct (al_bits _ _ _ 8 1 Ha) as (c1 & E1 & Ha1); [lia|lia|rewrite zlen_cons, zlen_app; lia|].
  rewrite E1. cbn [bind fst snd]. rewrite (bval_take_bytes 1) in * by (assumption || lia).
  change (take 1 (zlen a :: a ++ body)) with [zlen a] in *. change (drop 1 (zlen a :: a ++ body)) with (a ++ body) in Ha1.
  replace (bev [zlen a]) with (zlen a) by (unfold bev; cbn [fold_left]; lia). clear E1.
  destruct a as [|f a'].
  { left. split; [exact I|]. change (zlen (@nil Z)) with 0. cbn [Z.leb Z.compare]. exists c1. auto. }
  assert (Hz : zlen (f :: a') = 1 + zlen a') by apply zlen_cons. pose proof (zlen_nonneg a') as H0'.
  destruct (Z.leb_spec (zlen (f :: a')) 0); [lia|].
  rewrite (al_acquire_ok _ _ _ (zlen (f :: a')) Ha1) by (try rewrite zlen_app; lia). cbn [bind].
  destruct (al_fields _ _ _ bits8 1 Ha1) as (c2 & E2 & Ha2); [reflexivity|reflexivity|rewrite zlen_app; lia|].
  fold bits8. rewrite E2. cbn [bind fst snd].
  assert (Hf : byte f) by (inversion Hby as [|? ? _ H2]; inversion H2; assumption).
  cbn [app] in *. rewrite flags8 by assumption. cbn [map]. unfold fld; cbn [nth].
  change (drop 1 (f :: a' ++ body)) with (a' ++ body) in Ha2.
  set (X := f :: a' ++ body) in *.
  assert (Hlx : zlen X = zlen (f :: a') + zlen body) by (unfold X; rewrite !zlen_cons, zlen_app; lia).
  assert (Ho1 : bc_off c1 = 188 - zlen X) by (rewrite (al_off _ _ _ Ha1); lia).
  set (p := af_fixed f).
  assert (Hp : 1 <= p <= 14).
  { unfold p, af_fixed. pose proof (bit_01 f 4). pose proof (bit_01 f 3). pose proof (bit_01 f 2). lia. }
  assert (S : adv buf X p (af_parts [bit f 7; bit f 6; bit f 5; bit f 4; bit f 3; bit f 2; bit f 1; bit f 0] c2)).
  { unfold p, af_fixed.
    assert (Hadv : adv buf (a' ++ body) (6 * bit f 4 + (6 * bit f 3 + bit f 2))
       (af_parts [bit f 7; bit f 6; bit f 5; bit f 4; bit f 3; bit f 2; bit f 1; bit f 0] c2)).
    { unfold af_parts, fld. cbn [nth]. pose proof (bit_01 f 4). pose proof (bit_01 f 3). pose proof (bit_01 f 2).
      apply adv_bind; [lia|lia| |].
      - replace (6 * bit f 4) with (if bit f 4 =? 1 then 6 else 0) by (destruct (Z.eqb_spec (bit f 4) 1); lia).
        apply adv_if; [assumption|lia|]. apply al_fields_adv; [assumption|repeat constructor; lia|reflexivity].
      - intros c3 Ha3. apply adv_bind; [lia|lia| |].
        + replace (6 * bit f 3) with (if bit f 3 =? 1 then 6 else 0) by (destruct (Z.eqb_spec (bit f 3) 1); lia).
          apply adv_if; [assumption|lia|]. apply al_read_bytes_adv; [assumption|lia].
        + intros c4 Ha4. replace (bit f 2) with (if bit f 2 =? 1 then 1 else 0) at 1 by (destruct (Z.eqb_spec (bit f 2) 1); lia).
          apply adv_if; [assumption|lia|]. apply al_bits_adv; [assumption|lia|reflexivity]. }
    unfold adv in *. unfold X. rewrite zlen_cons.
    replace (1 + 6 * bit f 4 + 6 * bit f 3 + bit f 2) with (1 + (6 * bit f 4 + (6 * bit f 3 + bit f 2))) by lia.
    set (m := 6 * bit f 4 + (6 * bit f 3 + bit f 2)) in *.
    assert (0 <= m) by (unfold m; pose proof (bit_01 f 4); pose proof (bit_01 f 3); pose proof (bit_01 f 2); lia).
    destruct (Z.leb_spec m (zlen (a' ++ body))), (Z.leb_spec (1 + m) (1 + zlen (a' ++ body))); try lia; [|assumption].
    destruct Hadv as (c' & E & Hc'). exists c'. split; [exact E|].
    replace (1 + m) with (m + 1) by lia. rewrite <- drop_drop by lia. exact Hc'. }
  unfold adv in S. destruct (Z.leb_spec p (zlen X)) as [Hpx|Hpx].
  2:{ right. rewrite S. cbn [bind]. split; [|auto]. unfold af_fits. fold p. lia. }
  destruct S as (c3 & -> & Ha3). cbn [bind].
  destruct (Z.eqb_spec (bit f 0) 1) as [Hext|Hext].
  - destruct (Z_le_dec (p + 1) (zlen X)) as [Hp1|Hp1].
    2:{ right. rewrite (al_bits_UB _ _ _ 8 Ha3) by (rewrite zlen_drop by lia; lia). cbn [bind]. split; [|auto].
        unfold af_fits. fold p. intros (_ & H2). destruct (H2 Hext) as (n & En & _). apply nthz_some_range in En. lia. }
    destruct (al_bits _ _ _ 8 1 Ha3) as (c4 & E4 & Ha4); [lia|lia|rewrite zlen_drop by lia; lia|].
    rewrite E4. cbn [bind fst snd].
    destruct (nthz X p) as [n|] eqn:En; [|apply nthz_none in En; lia].
    assert (Hn : byte n).
    { eapply nthz_byte; [apply (al_bytes _ _ _ Ha1)|eassumption]. }
    rewrite (bval_take_bytes 1) by (try apply Forall_drop; (apply (al_bytes _ _ _ Ha1)) || lia).
    rewrite (take_1_drop X p n En). replace (bev [n]) with n by (unfold bev; cbn [fold_left]; lia).
    rewrite drop_drop in Ha4 by lia. unfold byte in Hn.
    destruct (Z_le_dec (p + 1 + n) (zlen X)) as [Hpn|Hpn].
    2:{ right. rewrite (al_acquire_no _ _ _ n Ha4) by (try rewrite zlen_drop by lia; lia). cbn [bind]. split; [|auto].
        unfold af_fits. fold p. intros (_ & H2). destruct (H2 Hext) as (n' & En' & Hn').
        unfold X in En. change (f :: a' ++ body) with ((f :: a') ++ body) in En. rewrite nthz_app_l in En by (apply nthz_some_range in En'; lia).
        rewrite En' in En. injection En as ->. unfold p in *. lia. }
    rewrite (al_acquire_ok _ _ _ n Ha4) by (try rewrite zlen_drop by lia; lia). cbn [bind].
    destruct (al_read_bytes _ _ _ n Ha4) as (c5 & -> & Ha5); [rewrite zlen_drop by lia; lia|]. cbn [bind snd].
    rewrite drop_drop in Ha5 by lia. rewrite (al_off _ _ _ Ha5), zlen_drop by lia. rewrite Ho1.
    replace (zlen buf - Z.max 0 (zlen X - (n + (1 + p))) - (188 - zlen X)) with (p + 1 + n) by lia.
    destruct (Z_le_dec (p + 1 + n) (zlen (f :: a'))) as [Hfit|Hfit].
    + left. split.
      { unfold af_fits. fold p. split; [lia|]. intros _. exists n. split; [|lia].
        unfold X in En. change (f :: a' ++ body) with ((f :: a') ++ body) in En. rewrite nthz_app_l in En by lia. exact En. }
      unfold u16. rewrite Z.mod_small by lia.
      destruct (al_skip _ _ _ (zlen (f :: a') - (p + 1 + n)) Ha5) as (c6 & E6 & Ha6); [rewrite zlen_drop by lia; lia|].
      exists c6. split; [exact E6|]. rewrite drop_drop in Ha6 by lia.
      replace (zlen (f :: a') - (p + 1 + n) + (n + (1 + p))) with (zlen (f :: a')) in Ha6 by lia.
      unfold X in Ha6. change (f :: a' ++ body) with ((f :: a') ++ body) in Ha6. rewrite drop_app_exact in Ha6 by reflexivity. exact Ha6.
    + right. split.
      { unfold af_fits. fold p. intros (_ & H2). destruct (H2 Hext) as (n' & En' & Hn').
        unfold X in En. change (f :: a' ++ body) with ((f :: a') ++ body) in En. rewrite nthz_app_l in En by (apply nthz_some_range in En'; lia).
        rewrite En' in En. injection En as ->. unfold p in *. lia. }
      right. right. unfold skip_read_bytes. rewrite (al_rem _ _ _ Ha5). cbn [Z.eqb]. eexists. split; [reflexivity|].
      unfold outside. cbn [bc_buf bc_rem bc_pos]. split; [apply (al_buf _ _ _ Ha5)|]. split; [reflexivity|].
      pose proof (al_len _ _ _ Ha5) as HL. rewrite zlen_drop in HL by lia.
      unfold u16. replace (zlen (f :: a') - (p + 1 + n)) with (65536 - (p + 1 + n - zlen (f :: a')) + -1 * 2 ^ 16) by lia.
      rewrite Z.mod_add by lia. rewrite Z.mod_small by lia. lia.
  - cbn [bind]. rewrite (al_off _ _ _ Ha3), zlen_drop by lia. rewrite Ho1.
    replace (zlen buf - Z.max 0 (zlen X - p) - (188 - zlen X)) with p by lia.
    destruct (Z_le_dec p (zlen (f :: a'))) as [Hfit|Hfit].
    + left. split; [unfold af_fits; fold p; split; [lia|tauto]|].
      unfold u16. rewrite Z.mod_small by lia.
      destruct (al_skip _ _ _ (zlen (f :: a') - p) Ha3) as (c6 & E6 & Ha6); [rewrite zlen_drop by lia; lia|].
      exists c6. split; [exact E6|]. rewrite drop_drop in Ha6 by lia.
      replace (zlen (f :: a') - p + p) with (zlen (f :: a')) in Ha6 by lia.
      unfold X in Ha6. change (f :: a' ++ body) with ((f :: a') ++ body) in Ha6. rewrite drop_app_exact in Ha6 by reflexivity. exact Ha6.
    + right. split; [unfold af_fits; fold p; lia|].
      right. right. unfold skip_read_bytes. rewrite (al_rem _ _ _ Ha3). cbn [Z.eqb]. eexists. split; [reflexivity|].
      unfold outside. cbn [bc_buf bc_rem bc_pos]. split; [apply (al_buf _ _ _ Ha3)|]. split; [reflexivity|].
      pose proof (al_len _ _ _ Ha3) as HL. rewrite zlen_drop in HL by lia.
      unfold u16. replace (zlen (f :: a') - p) with (65536 - (p - zlen (f :: a')) + -1 * 2 ^ 16) by lia.
      rewrite Z.mod_add by lia. rewrite Z.mod_small by lia. lia.
Qed.

(** ** Packet header *)
Lemma read_fields_cons_inv c w ws v vs c' : read_fields c (w :: ws) = Ok (v :: vs, c') ->
  exists c1, read_bits c w = Ok (v, c1) /\ read_fields c1 ws = Ok (vs, c').
Proof.
  cbn [read_fields]. destruct (read_bits c w) as [[x c1]| | |]; cbn [bind fst snd]; try discriminate.
  destruct (read_fields c1 ws) as [[y c2]| | |] eqn:E; cbn [bind fst snd]; try discriminate.
  intros H. injection H as -> -> ->. exists c1. auto.
Qed.
Definition t_hdr (k : tsp) : tshdr := mkts (t_pusi k) (t_pid k) (t_afc k) (t_cc k).
Lemma t_fields_len k : zlen (be 4 (pack (t_fields k))) = 4.
Proof. rewrite zlen_be. reflexivity. Qed.
Lemma ts_ok_len k : ts_ok k -> 4 + zlen (af_bytes k) + zlen (t_body k) = 188.
Proof. intros (_ & _ & H). unfold ts_bytes in H. rewrite !zlen_app, t_fields_len in H. lia. Qed.

Lemma tsp_decode_head k : ts_ok k -> exists c,
  al (ts_bytes k) c (af_bytes k ++ t_body k) /\
  tsp_decode (bc_init (ts_bytes k)) =
    match t_af k with
    | Some _ => let? c := af_decode c in Ok (t_hdr k, c)
    | None => Ok (t_hdr k, c)
    end.
Proof.
  intros Hk. assert (Hk' := Hk). destruct Hk' as (Hf & Hb & Hl).
  assert (Ha : al (ts_bytes k) (bc_init (ts_bytes k)) (ts_bytes k)) by (apply al_init; [assumption|lia]).
  unfold tsp_decode. rewrite (al_acquire_ok _ _ _ SPS_TS_PACKET_SIZE Ha) by (unfold SPS_TS_PACKET_SIZE; lia).
  destruct (al_fields _ _ _ [8; 1; 1; 1; 13; 2; 2; 4] 4 Ha) as (c & E & Hc); [reflexivity|reflexivity|lia|].
  unfold ts_bytes at 2 in E.
  change [8; 1; 1; 1; 13; 2; 2; 4] with (map snd (t_fields k)) in E at 2.
  rewrite (fields_packed 4 (t_fields k)) in E by (assumption || reflexivity). cbn [t_fields map fst] in E.
  apply read_fields_cons_inv in E as (c1 & E1 & E2). rewrite E1. cbn [bind fst snd]. cbn [Z.eqb Pos.eqb negb].
  rewrite E2. cbn [bind fst snd]. unfold fld; cbn [nth]. cbn [th_afc].
  exists c. split.
  { unfold ts_bytes at 2 in Hc. rewrite drop_app_exact in Hc by (rewrite zlen_be; reflexivity). exact Hc. }
  unfold t_hdr. unfold t_afc. destruct (t_af k), (t_has k); reflexivity.
Qed.

Lemma tsp_decode_fits k : pk_fits k -> exists c,
  tsp_decode (bc_init (ts_bytes k)) = Ok (t_hdr k, c) /\ al (ts_bytes k) c (t_body k).
Proof.
  intros (Hk & Hf). destruct (tsp_decode_head k Hk) as (c & Ha & E). rewrite E. unfold af_bytes in Ha.
  destruct (t_af k) as [a|].
  - cbn [app] in Ha. destruct (af_decode_ok _ _ _ _ Ha) as [(_ & c' & E' & Ha')|[Hn _]]; [destruct Hk as (_ & _ & H); exact H| |tauto].
    rewrite E'. cbn [bind]. eauto.
  - eauto.
Qed.
Lemma tsp_decode_misfit k a : ts_ok k -> t_af k = Some a -> ~ af_fits a ->
  tsp_decode (bc_init (ts_bytes k)) = UB \/ tsp_decode (bc_init (ts_bytes k)) = Err ERROR_IO_NOT_ENOUGH \/
  exists c, tsp_decode (bc_init (ts_bytes k)) = Ok (t_hdr k, c) /\ outside (ts_bytes k) c.
Proof.
  intros Hk Ea Hn. destruct (tsp_decode_head k Hk) as (c & Ha & E). rewrite E. unfold af_bytes in Ha.
  rewrite Ea in *. cbn [app] in Ha.
  destruct (af_decode_ok _ _ _ _ Ha) as [(Hf & _)|[_ R]]; [destruct Hk as (_ & _ & H); exact H|tauto|].
  destruct R as [->|[->|(c' & -> & Ho)]]; cbn [bind]; eauto.
Qed.
