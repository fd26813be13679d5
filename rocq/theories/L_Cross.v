(** Lemmas for P_Cross: what the packets of a transport stream look like,
    whatever bytes came in. *)
From Verif Require Import Base M_Bits S_Bits L_Bits M_Fields L_Align S_Fields L_Pack M_Packet M_IO S_IO L_IO M_Cache S_Cache L_Cache
  M_H264 M_AAC S_Codec L_AAC P_Codec M_Ts S_Ts L_Ts L_Ts2 L_Ts3 M_Flv S_Flv L_Flv S_Cross S_Stream L_Stream.

(** *** The cursor: values within their widths, same buffer *)
Lemma top_bits_range nr v t : top_bits nr v = Ok t -> 1 <= nr <= 8 /\ 0 <= t < 2 ^ nr.
Proof.
  intros H.
  assert (Hn : nr = 1 \/ nr = 2 \/ nr = 3 \/ nr = 4 \/ nr = 5 \/ nr = 6 \/ nr = 7 \/ nr = 8).
  { unfold top_bits in H. destruct nr as [|q|q]; try discriminate. do 4 (try (destruct q as [q|q|]; try discriminate)); auto 10. }
  split; [lia|].
  assert (R : forall m k, 0 <= k -> 0 <= m -> m < 2 ^ (8) -> 0 <= Z.shiftr (Z.land v m) k < 2 ^ (8 - k) \/ 8 < k).
  { intros m k Hk Hm0 Hm. destruct (Z_lt_dec 8 k); [right; lia|left].
    rewrite Z.shiftr_div_pow2 by lia. assert (B : 0 <= Z.land v m < 2 ^ 8).
    { assert (E : Z.land v m = Z.land v m mod 2 ^ 8).
      { rewrite <- Z.land_ones by lia. rewrite <- Z.land_assoc, Z.land_ones by lia. rewrite (Z.mod_small m) by lia. reflexivity. }
      rewrite E. apply Z.mod_pos_bound. lia. }
    assert (P : 2 ^ 8 = 2 ^ (8 - k) * 2 ^ k) by (rewrite <- Z.pow_add_r by lia; f_equal; lia).
    assert (0 < 2 ^ k) by (apply Z.pow_pos_nonneg; lia).
    split; [apply Z.div_pos; lia|]. apply Z.div_lt_upper_bound; lia. }
  destruct Hn as [->|[->|[->|[->|[->|[->|[->| ->]]]]]]]; cbn [top_bits] in H; injection H as <-.
  - destruct (R 0x80 7) as [R'|]; try lia; exact R'.
  - destruct (R 0xc0 6) as [R'|]; try lia; exact R'.
  - destruct (R 0xe0 5) as [R'|]; try lia; exact R'.
  - destruct (R 0xf0 4) as [R'|]; try lia; exact R'.
  - destruct (R 0xf8 3) as [R'|]; try lia; exact R'.
  - destruct (R 0xfc 2) as [R'|]; try lia; exact R'.
  - destruct (R 0xfe 1) as [R'|]; try lia; exact R'.
  - destruct (R 0xff 0) as [R'|]; try lia; exact R'.
Qed.
Lemma read_bits_loop_range fuel : forall c n num k v c', 0 <= k -> 0 <= num < 2 ^ k -> 0 <= n -> k + n <= 32 ->
  read_bits_loop fuel c n num = Ok (v, c') -> 0 <= v < 2 ^ (k + n) /\ bc_buf c' = bc_buf c.
Proof.
  induction fuel as [|f IH]; intros c n num k v c' Hk Hnum Hn Hw H; cbn [read_bits_loop] in H.
  - destruct (Z.leb_spec n 0); [|discriminate]. injection H as <- <-. assert (n = 0) as -> by lia. rewrite Z.add_0_r. auto.
  - destruct (Z.leb_spec n 0). { injection H as <- <-. assert (n = 0) as -> by lia. rewrite Z.add_0_r. auto. }
    destruct (if bc_rem c =? 0 then bc_next c else Ok c) as [c1| | |] eqn:E1; try discriminate. cbn [bind] in H.
    assert (B1 : bc_buf c1 = bc_buf c).
    { destruct (bc_rem c =? 0); [|injection E1 as <-; reflexivity]. unfold bc_next in E1. destruct (negb _); [discriminate|].
      destruct (nthz _ _); [|discriminate]. injection E1 as <-. reflexivity. }
    set (nr := Z.min n (bc_rem c1)) in *. destruct (top_bits nr (bc_val c1)) as [t| | |] eqn:Et; try discriminate. cbn [bind] in H.
    apply top_bits_range in Et as [Hnr Ht]. assert (nr <= n) by (unfold nr; lia).
    rewrite lor_u32 in H by lia.
    assert (P : 2 ^ (k + nr) = 2 ^ k * 2 ^ nr) by (apply Z.pow_add_r; lia).
    assert (Hb : 2 ^ (k + nr) <= 2 ^ 32) by (apply Z.pow_le_mono_r; lia).
    assert (Hv : 0 <= num * 2 ^ nr + t < 2 ^ (k + nr)) by nia.
    unfold u32 in H. rewrite Z.mod_small in H by lia.
    apply IH with (k := k + nr) in H; try lia. cbn [bc_buf] in H. rewrite B1 in H.
    replace (k + nr + (n - nr)) with (k + n) in H by lia. exact H.
Qed.
Lemma read_bits_range c n v c' : 0 <= n <= 32 -> read_bits c n = Ok (v, c') -> 0 <= v < 2 ^ n /\ bc_buf c' = bc_buf c.
Proof.
  intros Hn H. apply read_bits_loop_range with (k := 0) in H; try lia. exact H.
Qed.
Definition widths (ws : list Z) : Prop := Forall (fun w => 0 <= w <= 32) ws.
Lemma read_fields_range ws : forall c v c', widths ws -> read_fields c ws = Ok (v, c') ->
  (forall i, 0 <= fld v i < 2 ^ (nth i ws 0)) /\ bc_buf c' = bc_buf c.
Proof.
  induction ws as [|w ws IH]; intros c v c' Hw H; cbn [read_fields] in H.
  - injection H as <- <-. split; [|reflexivity]. intros i. unfold fld. destruct i; cbn; lia.
  - inversion Hw as [|? ? Hw0 Hw']; subst. destruct (read_bits c w) as [[x c1]| | |] eqn:E; try discriminate. cbn [bind fst snd] in H.
    destruct (read_fields c1 ws) as [[xs c2]| | |] eqn:E2; try discriminate. cbn [bind fst snd] in H. injection H as <- <-.
    apply read_bits_range in E as [Hx B]; [|exact Hw0]. apply IH in E2 as [Hxs B2]; [|exact Hw']. split; [|congruence].
    intros [|i]; cbn [fld nth]; [exact Hx|apply Hxs].
Qed.
Lemma read_bits_loop_buf fuel : forall c n num v c', read_bits_loop fuel c n num = Ok (v, c') -> bc_buf c' = bc_buf c.
Proof.
  induction fuel as [|f IH]; intros c n num v c' H; cbn [read_bits_loop] in H.
  - destruct (n <=? 0); [|discriminate]. injection H as <- <-. reflexivity.
  - destruct (n <=? 0); [injection H as <- <-; reflexivity|].
    destruct (if bc_rem c =? 0 then bc_next c else Ok c) as [c1| | |] eqn:E1; try discriminate. cbn [bind] in H.
    assert (B1 : bc_buf c1 = bc_buf c).
    { destruct (bc_rem c =? 0); [|injection E1 as <-; reflexivity]. unfold bc_next in E1. destruct (negb _); [discriminate|].
      destruct (nthz _ _); [|discriminate]. injection E1 as <-. reflexivity. }
    destruct (top_bits _ _); try discriminate. cbn [bind] in H. apply IH in H. cbn [bc_buf] in H. congruence.
Qed.
Lemma read_bits_buf c n v c' : read_bits c n = Ok (v, c') -> bc_buf c' = bc_buf c.
Proof. apply read_bits_loop_buf. Qed.
Lemma read_fields_buf ws : forall c v c', read_fields c ws = Ok (v, c') -> bc_buf c' = bc_buf c.
Proof.
  induction ws as [|w ws IH]; intros c v c' H; cbn [read_fields] in H; [injection H as <- <-; reflexivity|].
  destruct (read_bits c w) as [[x c1]| | |] eqn:E; try discriminate. cbn [bind fst snd] in H.
  destruct (read_fields c1 ws) as [[xs c2]| | |] eqn:E2; try discriminate. cbn [bind fst snd] in H. injection H as <- <-.
  apply read_bits_buf in E. apply IH in E2. congruence.
Qed.
(** A reading step that gives back a cursor of the same buffer. *)
Definition samebuf (b : list Z) (r : res bitctx) : Prop := forall c, r = Ok c -> bc_buf c = b.
Lemma samebuf_bind {A} b (r : res A) (f : A -> res bitctx) : (forall a, r = Ok a -> samebuf b (f a)) -> samebuf b (let? a := r in f a).
Proof. intros H c E. destruct r as [a| | |]; try discriminate. cbn [bind] in E. exact (H a eq_refl c E). Qed.
Lemma samebuf_skip c n : samebuf (bc_buf c) (skip_read_bytes c n).
Proof.
  intros c' H. unfold skip_read_bytes in H. destruct (bc_rem c =? 0); [injection H as <-; reflexivity|].
  destruct (nthz _ _); [|discriminate]. injection H as <-. reflexivity.
Qed.
Lemma read_bytes_buf c n d c' : bc_read_bytes c n = Ok (d, c') -> bc_buf c' = bc_buf c.
Proof.
  unfold bc_read_bytes. destruct (negb _); [discriminate|]. destruct (slice _ _ _); [|discriminate]. intros [= <- <-]. reflexivity.
Qed.
Lemma bc_get_buf c n d c' : bc_get c n = Ok (d, c') -> bc_buf c' = bc_buf c.
Proof.
  unfold bc_get. destruct (bc_acquire c n); try discriminate. cbn [bind]. destruct (bc_peek c n); try discriminate. cbn [bind].
  destruct (skip_read_bytes c n) as [c1| | |] eqn:E; try discriminate. intros [= <- <-]. exact (samebuf_skip _ _ _ E).
Qed.

Lemma samebuf_ok b c : bc_buf c = b -> samebuf b (Ok c).
Proof. intros H c' [= <-]. exact H. Qed.
Ltac sb := repeat first
  [ apply samebuf_bind; intros
  | match goal with
    | H : read_bits _ _ = Ok ?r |- _ => destruct r; apply read_bits_buf in H; cbn [fst snd] in *
    | H : read_fields _ _ = Ok ?r |- _ => destruct r; apply read_fields_buf in H; cbn [fst snd] in *
    | H : bc_read_bytes _ _ = Ok ?r |- _ => destruct r; apply read_bytes_buf in H; cbn [fst snd] in *
    | H : bc_get _ _ = Ok ?r |- _ => destruct r; apply bc_get_buf in H; cbn [fst snd] in *
    | |- samebuf _ (if ?b then _ else _) => destruct b
    | |- samebuf _ (Ok _) => apply samebuf_ok; cbn [fst snd]; congruence
    | |- samebuf _ (skip_read_bytes ?c _) => let E := fresh in intros ? E; apply samebuf_skip in E; congruence
    end ].
Lemma samebuf_eq b b' r : b = b' -> samebuf b r -> samebuf b' r.
Proof. intros ->. auto. Qed.
Lemma af_parts_buf fl c : samebuf (bc_buf c) (af_parts fl c).
Proof.
  unfold af_parts. apply samebuf_bind. intros c1 H1.
  assert (B1 : bc_buf c1 = bc_buf c) by (match type of H1 with ?t = _ => assert (Q : samebuf (bc_buf c) t) by sb end; exact (Q _ H1)).
  apply samebuf_bind. intros c2 H2.
  assert (B2 : bc_buf c2 = bc_buf c1) by (match type of H2 with ?t = _ => assert (Q : samebuf (bc_buf c1) t) by sb end; exact (Q _ H2)).
  sb.
Qed.
Lemma af_decode_buf c : samebuf (bc_buf c) (af_decode c).
Proof.
  unfold af_decode. apply samebuf_bind; intros _ _. apply samebuf_bind; intros [alen c1] H1. cbn [fst snd]. apply read_bits_buf in H1.
  destruct (alen <=? 0); [sb|]. apply samebuf_bind; intros _ _. apply samebuf_bind; intros [fl c2] H2. cbn [fst snd]. apply read_fields_buf in H2.
  apply samebuf_bind; intros c3 H3. apply af_parts_buf in H3. apply samebuf_bind. intros c4 H4.
  assert (B4 : bc_buf c4 = bc_buf c3).
  { destruct (fld fl 7 =? 1); [|injection H4 as <-; reflexivity].
    destruct (read_bits c3 8) as [[x c5]| | |] eqn:E5; try discriminate. cbn [bind fst snd] in H4. apply read_bits_buf in E5.
    destruct (bc_acquire c5 x); try discriminate. cbn [bind] in H4.
    destruct (bc_read_bytes c5 x) as [[y c6]| | |] eqn:E6; try discriminate. cbn [bind snd] in H4. injection H4 as <-. apply read_bytes_buf in E6. congruence. }
  sb.
Qed.
Lemma tsp_decode_buf d h c : tsp_decode (bc_init d) = Ok (h, c) -> bc_buf c = d.
Proof.
  unfold tsp_decode. destruct (bc_acquire _ _); try discriminate.
  destruct (read_bits (bc_init d) 8) as [[x c1]| | |] eqn:E1; try discriminate. cbn [bind fst snd]. apply read_bits_buf in E1. cbn [bc_init bc_buf] in E1.
  destruct (negb _); [discriminate|].
  destruct (read_fields c1 _) as [[v c2]| | |] eqn:E2; try discriminate. cbn [bind fst snd]. apply read_fields_buf in E2.
  destruct (0 <? _).
  - destruct (af_decode c2) as [c3| | |] eqn:E3; try discriminate. cbn [bind]. intros [= _ <-]. apply af_decode_buf in E3. congruence.
  - intros [= _ <-]. congruence.
Qed.
(** *** Stamps *)
Definition stamp33 (v : Z) : Prop := -1 <= v < 2 ^ 33.
Lemma pes_stamp_range c v c' : pes_stamp c = Ok (v, c') -> stamp33 v /\ bc_buf c' = bc_buf c.
Proof.
  unfold pes_stamp. destruct (bc_acquire c 5); try discriminate. cbn [bind].
  destruct (read_fields c [4; 3; 1; 15; 1; 15; 1]) as [[f c1]| | |] eqn:E; try discriminate. cbn [bind fst snd].
  apply read_fields_range in E as [R B]; [|unfold widths; repeat constructor; lia].
  pose proof (R 1%nat) as R1. pose proof (R 3%nat) as R3. pose proof (R 5%nat) as R5. cbn [nth] in R1, R3, R5.
  rewrite pts_value by lia. intros [= <- <-]. split; [unfold stamp33; lia|exact B].
Qed.
Lemma opt_fields_buf flag n ws c : samebuf (bc_buf c) (opt_fields flag n ws c).
Proof. unfold opt_fields. destruct (flag =? 0); sb. Qed.
Lemma opt_skip_buf flag n c : samebuf (bc_buf c) (opt_skip flag n c).
Proof. unfold opt_skip. destruct (flag =? 0); sb. Qed.
Lemma opt_get_buf flag n c : samebuf (bc_buf c) (opt_get flag n c).
Proof. unfold opt_get. destruct (flag =? 0); sb. Qed.
Lemma opt_block_buf flag ws i c : samebuf (bc_buf c) (opt_block flag ws i c).
Proof. unfold opt_block. destruct (flag =? 0); sb. Qed.
Lemma pes_ext_buf flag c : samebuf (bc_buf c) (pes_ext flag c).
Proof.
  unfold pes_ext. destruct (flag =? 0); [sb|]. apply samebuf_bind; intros _ _. apply samebuf_bind; intros [v c1] H1. cbn [fst snd]. apply read_fields_buf in H1.
  rewrite <- H1. apply samebuf_bind; intros c2 H2. apply opt_get_buf in H2. rewrite <- H2.
  apply samebuf_bind; intros c3 H3. apply opt_block_buf in H3. rewrite <- H3.
  apply samebuf_bind; intros c4 H4. apply opt_skip_buf in H4. rewrite <- H4.
  apply samebuf_bind; intros c5 H5. apply opt_skip_buf in H5. rewrite <- H5. apply opt_block_buf.
Qed.
Lemma pes_tail_buf v pos c : samebuf (bc_buf c) (pes_tail v pos c).
Proof.
  unfold pes_tail. apply samebuf_bind; intros c1 H1. apply opt_fields_buf in H1. rewrite <- H1.
  apply samebuf_bind; intros c2 H2. apply opt_fields_buf in H2. rewrite <- H2.
  apply samebuf_bind; intros c3 H3. apply opt_skip_buf in H3. rewrite <- H3.
  apply samebuf_bind; intros c4 H4. apply opt_skip_buf in H4. rewrite <- H4.
  apply samebuf_bind; intros c5 H5. apply opt_fields_buf in H5. rewrite <- H5.
  apply samebuf_bind; intros c6 H6. apply pes_ext_buf in H6. rewrite <- H6.
  apply samebuf_bind; intros _ _. apply samebuf_skip.
Qed.
Lemma pes_header_range c ts r : pes_header c = (ts, r) -> stamp33 (fst ts) /\ stamp33 (snd ts) /\ samebuf (bc_buf c) r.
Proof.
  assert (S1 : stamp33 (-1)) by (unfold stamp33; lia).
  unfold pes_header. destruct (read_fields c _) as [[v c0]| | |] eqn:E; [|intros [= <- <-]; cbn; repeat split; auto; try (unfold stamp33; lia); intros ? [=]..].
  apply read_fields_buf in E.
  destruct (if 0 <? Z.land (fld v 6) 2 then pes_stamp c0 else Ok (-1, c0)) as [[pts c1]| | |] eqn:E1; [|intros [= <- <-]; cbn; repeat split; auto; try (unfold stamp33; lia); intros ? [=]..].
  assert (P : stamp33 pts /\ bc_buf c1 = bc_buf c0).
  { destruct (0 <? _); [apply pes_stamp_range in E1; exact E1|injection E1 as <- <-; auto]. }
  destruct (if fld v 6 =? 3 then pes_stamp c1 else Ok (pts, c1)) as [[dts c2]| | |] eqn:E2; [|intros [= <- <-]; cbn; repeat split; try apply P; intros ? [=]..].
  assert (D : stamp33 dts /\ bc_buf c2 = bc_buf c1).
  { destruct (_ =? 3); [apply pes_stamp_range in E2; exact E2|injection E2 as <- <-; tauto]. }
  intros [= <- <-]. cbn [fst snd]. split; [tauto|]. split; [tauto|].
  eapply samebuf_eq; [|apply pes_tail_buf]. destruct P, D; congruence.
Qed.

(** *** Packets as a transport stream makes them *)
Inductive ts_made : pkt -> Prop :=
| Made_config d : bytes d -> d <> [] -> zlen d < 200000 -> ts_made (video_pkt 0 0 0 0x17 d)
| Made_media dts pts flags d : stamp33 dts -> stamp33 pts -> flags = 0x17 \/ flags = 0x27 \/ flags = 0x57 ->
    bytes d -> d <> [] -> zlen d < 200000 -> ts_made (video_pkt 1 (Z.quot dts 90) (Z.quot pts 90) flags d)
| Made_asc d : bytes d -> d <> [] -> zlen d < 200000 -> ts_made (audio_pkt 0 0 d)
| Made_audio dts d : stamp33 dts -> bytes d -> zlen d < 200000 -> ts_made (audio_pkt 1 (Z.quot dts 90) d).
Lemma slice_bytes l i n d : bytes l -> slice l i n = Some d -> bytes d.
Proof.
  intros Hb H. apply slice_inv in H as (_ & _ & _ & ->). apply bytes_take, bytes_drop, Hb.
Qed.
Lemma be4_bytes n b : bytes b -> bytes (be 4 n ++ b).
Proof. intros H. apply bytes_app. split; [apply be_bytes|exact H]. Qed.
Lemma h264_made dts pts d ps : stamp33 dts -> stamp33 pts -> bytes d -> zlen d < 65536 ->
  h264_encode_avc (mkav dts pts 90) (-1) d = Ok ps -> Forall ts_made ps.
Proof.
  intros Hd Hp Hb Hl H. unfold h264_encode_avc in H.
  pose proof (annexb_split_total d Hb ltac:(lia)) as T. destruct (h264_decode d) as [ns|e| |]; try discriminate. cbn [bind] in H.
  assert (N : Forall (fun n => bytes (n_buf n) /\ zlen (n_buf n) < 65536) ns).
  { destruct T as [(_ & ->)|(_ & lead & _ & E & _)]; [constructor|]. subst d. clear - Hb Hl.
    apply bytes_app in Hb as [_ Hb]. rewrite zlen_app in Hl. pose proof (zlen_nonneg lead).
    assert (Hl' : zlen (flat_map unit_bytes ns) < 65536) by lia. clear - Hb Hl'.
    induction ns as [|n ns IH]; [constructor|]. cbn [flat_map] in Hb, Hl'. unfold unit_bytes at 1 in Hb. unfold unit_bytes at 1 in Hl'.
    rewrite !zlen_app in Hl'. pose proof (zlen_nonneg (flat_map unit_bytes ns)). pose proof (zlen_nonneg [0;0;1]). pose proof (zlen_nonneg (n_buf n)).
    apply bytes_app in Hb as [Hb1 Hb2]. apply bytes_app in Hb1 as [_ Hb1].
    constructor; [split; [exact Hb1|lia]|apply IH; [exact Hb2|lia]]. }
  rewrite avc_conversion_exact in H; [|cbn; lia|left; reflexivity|eapply Forall_impl; [|exact N]; cbn; tauto].
  assert (E : ps = avc_packets (mkav dts pts 90) ns).
  { destruct (last_of is_sps ns); [destruct (_ <? 4); [discriminate|]|]; injection H as <-; reflexivity. }
  subst ps. unfold avc_packets. rewrite Forall_forall in N. apply Forall_app. split.
  - destruct (last_of is_sps ns) as [s|] eqn:Es; [|constructor]. constructor; [|constructor].
    assert (Is : bytes (n_buf s) /\ zlen (n_buf s) < 65536).
    { apply N. unfold last_of in Es. apply find_some in Es as [Es _]. apply in_rev. exact Es. }
    assert (Ip : forall b, option_map n_buf (last_of is_pps ns) = Some b -> bytes b /\ zlen b < 65536).
    { intros b Eb. destruct (last_of is_pps ns) as [q|] eqn:Eq; [|discriminate]. injection Eb as <-. apply N.
      unfold last_of in Eq. apply find_some in Eq as [Eq _]. apply in_rev. exact Eq. }
    assert (Nb : forall i, byte (nth i (n_buf s) 0)).
    { intros i. destruct (nth_in_or_default i (n_buf s) 0) as [Hi| ->]; [|unfold byte; lia]. destruct Is as [Is _]. unfold bytes in Is. rewrite Forall_forall in Is. auto. }
    apply Made_config; unfold avc_config.
    + apply bytes_app. split; [repeat (apply bytes_cons; split; [first [apply Nb|unfold byte; lia]|]); constructor|].
      apply bytes_app. split; [apply be_bytes|]. apply bytes_app. split; [tauto|].
      destruct (option_map n_buf (last_of is_pps ns)) as [q|]; [|repeat constructor; unfold byte; lia].
      apply bytes_app. split; [repeat constructor; unfold byte; lia|]. apply bytes_app. split; [apply be_bytes|]. apply Ip; reflexivity.
    + discriminate.
    + destruct (option_map n_buf (last_of is_pps ns)) as [q|]; [destruct (Ip q eq_refl) as [_ Lq]|]; rewrite ?zlen_app, ?zlen_be by lia;
        change (zlen [1; nth 1 (n_buf s) 0; 0; nth 3 (n_buf s) 0; 3; 1]) with 6; [change (zlen [1]) with 1|change (zlen [0]) with 1]; lia.
  - apply Forall_forall. intros p Hpk. apply in_flat_map in Hpk as (n & Hn & Hpk). destruct (N n Hn) as [Nb Nl]. unfold media_pkt in Hpk.
    cbn [av_dts av_pts av_tb] in Hpk.
    assert (D : bytes (be 4 (zlen (n_buf n)) ++ n_buf n) /\ be 4 (zlen (n_buf n)) ++ n_buf n <> [] /\ zlen (be 4 (zlen (n_buf n)) ++ n_buf n) < 200000).
    { split; [apply be4_bytes; exact Nb|]. rewrite zlen_app, zlen_be. split; [|lia]. intros E. apply app_eq_nil in E as [E _]. apply (f_equal zlen) in E. rewrite zlen_be in E. cbn in E. lia. }
    destruct D as (D1 & D2 & D3).
    destruct (n_type n =? 5); [|destruct (n_type n =? 1); [|destruct (n_type n =? 6); [|destruct Hpk]]];
      (destruct Hpk as [<-|[]]; apply Made_media; auto).
Qed.
Lemma adts_decode_range c t c' : adts_decode c = Ok (t, c') ->
  0 <= ad_profile t < 4 /\ 0 <= ad_sfi t < 16 /\ 0 <= ad_ch t < 8 /\ 0 <= ad_len t < 8192 /\ bc_buf c' = bc_buf c.
Proof.
  unfold adts_decode. destruct (bc_acquire c 7); try discriminate.
  destruct (read_bits c 12) as [[x c1]| | |] eqn:E1; try discriminate. cbn [bind fst snd]. apply read_bits_buf in E1.
  destruct (negb _); [discriminate|].
  destruct (read_fields c1 _) as [[v c2]| | |] eqn:E2; try discriminate. cbn [bind fst snd].
  apply read_fields_range in E2 as [R B]; [|unfold widths; repeat constructor; lia].
  destruct v as [|id [|layer [|pa [|profile [|sfi [|priv [|ch [|orig [|home [|cb [|cs [|len [|full [|nb [|]]]]]]]]]]]]]]]; try discriminate.
  pose proof (R 3%nat) as R3. pose proof (R 4%nat) as R4. pose proof (R 6%nat) as R6. pose proof (R 11%nat) as R11.
  unfold fld in R3, R4, R6, R11. cbn [nth] in R3, R4, R6, R11.
  destruct (if pa =? 0 then let? r3 := read_bits c2 16 in Ok (snd r3) else Ok c2) as [c3| | |] eqn:E3; try discriminate.
  cbn [bind]. intros [= <- <-]. cbn [ad_profile ad_sfi ad_ch ad_len].
  assert (B3 : bc_buf c3 = bc_buf c2).
  { match type of E3 with ?t = _ => assert (Q : samebuf (bc_buf c2) t) by sb end. exact (Q _ E3). }
  change (2 ^ 2) with 4 in R3. change (2 ^ 4) with 16 in R4. change (2 ^ 3) with 8 in R6. change (2 ^ 13) with 8192 in R11.
  repeat split; try lia. congruence.
Qed.
Lemma aac_round_made dts pts hdr c ps hdr2 r : stamp33 dts -> bytes (bc_buf c) -> aac_round (mkav dts pts 90) hdr c = (ps, hdr2, r) ->
  Forall ts_made ps /\ samebuf (bc_buf c) r.
Proof.
  intros Hd Hb H. unfold aac_round in H. destruct (adts_decode c) as [[t c1]| | |] eqn:E;
    [|injection H as <- _ <-; split; [constructor|intros ? [=]]..].
  apply adts_decode_range in E as (Rp & Rs & Rc & Rl & B).
  destruct (match hdr with None => (false, None) | Some h => let (b, h') := adts_eq h t in (b, Some h') end) as [same hdr1].
  assert (Hh : exists hd, (if same then Ok [] else let? d := asc_bytes t in Ok [audio_pkt 0 0 d]) = Ok hd /\ Forall ts_made hd).
  { destruct same; [exists []; split; [reflexivity|constructor]|]. rewrite asc_bytes_ok by assumption. cbn [bind].
    eexists. split; [reflexivity|]. constructor; [|constructor]. apply Made_asc.
    - apply be_bytes.
    - intros E. apply (f_equal zlen) in E. unfold asc in E. rewrite zlen_be in E. cbn in E. lia.
    - unfold asc. rewrite zlen_be. lia. }
  destruct Hh as (hd & Eh & Fh). rewrite Eh in H. destruct (ad_len t <=? 0); [injection H as <- _ <-; split; [exact Fh|intros ? [=]]|].
  set (size := ad_len t - 7 - (if ad_pa t =? 1 then 0 else 2)) in *. unfold cdiv in H. cbn [av_tb av_dts Z.eqb bind] in H.
  destruct (bc_peek c1 size) as [d| | |] eqn:Ep; cbn [bind] in H; [|injection H as <- _ <-; split; [exact Fh|intros ? [=]]..].
  destruct (skip_read_bytes c1 size) as [c2| | |] eqn:Es; cbn [bind] in H; [|injection H as <- _ <-; split; [exact Fh|intros ? [=]]..].
  injection H as <- _ <-. split.
  - apply Forall_app. split; [exact Fh|]. constructor; [|constructor]. unfold bc_peek in Ep.
    destruct (slice (bc_buf c1) (bc_off c1) size) as [d'|] eqn:Esl; [|discriminate]. injection Ep as <-.
    apply Made_audio; [exact Hd|eapply slice_bytes; [|exact Esl]; rewrite B; exact Hb|].
    rewrite (zlen_slice _ _ _ _ Esl). unfold size. destruct (ad_pa t =? 1); lia.
  - apply samebuf_ok. apply samebuf_skip in Es. congruence.
Qed.
Lemma aac_loop_made dts pts fuel : forall hdr c ps hdr2 r, stamp33 dts -> bytes (bc_buf c) ->
  aac_loop fuel (mkav dts pts 90) hdr c = (ps, hdr2, r) -> Forall ts_made ps.
Proof.
  induction fuel as [|f IH]; intros hdr c ps hdr2 r Hd Hb H; cbn [aac_loop] in H.
  - destruct (bc_size c <=? 0); injection H as <- _ _; constructor.
  - destruct (bc_size c <=? 0); [injection H as <- _ _; constructor|].
    destruct (aac_round (mkav dts pts 90) hdr c) as [[ps1 h1] r1] eqn:E. apply aac_round_made in E as [F S]; try assumption.
    destruct r1 as [c2| | |]; [|injection H as <- _ _; exact F..].
    destruct (aac_loop f (mkav dts pts 90) h1 c2) as [[ps2 h2] r2] eqn:E2. injection H as <- _ _.
    apply IH in E2; [|exact Hd|rewrite (S c2 eq_refl); exact Hb]. apply Forall_app. auto.
Qed.

(** *** The state of the demuxer *)
Definition pes_sane (p : pesst) : Prop :=
  stamp33 (ps_pts p) /\ stamp33 (ps_dts p) /\ 0 <= ps_len p < 65536 /\ forall b, ps_buf p = Some b -> bytes (cb_mem b).
Definition ts_sane (s : tsst) : Prop :=
  (forall q p, s_progs s q = Some (PPes p) -> pes_sane p) /\ Forall ts_made (s_queue s).
Lemma stamp33_none : stamp33 (-1).
Proof. unfold stamp33. lia. Qed.
Lemma reset_sane p : pes_sane (pes_reset p).
Proof. unfold pes_sane, pes_reset; cbn. pose proof stamp33_none. split; [assumption|]. split; [assumption|]. split; [lia|]. discriminate. Qed.
Lemma new_sane t : pes_sane (pes_new t).
Proof. unfold pes_sane, pes_new; cbn. pose proof stamp33_none. split; [assumption|]. split; [assumption|]. split; [lia|]. discriminate. Qed.
Lemma init_sane mem p n : bytes mem -> 0 <= n < 65536 -> pes_sane (pes_init mem p n).
Proof.
  intros Hm Hn. unfold pes_sane, pes_init; cbn [ps_pts ps_dts ps_len ps_buf]. pose proof stamp33_none.
  split; [assumption|]. split; [assumption|]. split; [lia|]. intros b [= <-]. cbn [cb_new cb_mem]. apply bytes_take, Hm.
Qed.
Lemma dump_sane p c p' r : pes_sane p -> bytes (bc_buf c) -> pes_dump p c = (p', r) -> pes_sane p'.
Proof.
  intros (S1 & S2 & S3 & S4) Hb H. unfold pes_dump in H. destruct (ps_buf p) as [b|] eqn:Eb.
  2:{ injection H as <- _. unfold pes_sane. rewrite Eb. auto. }
  set (left := if 0 <? ps_len p then _ else _) in H.
  destruct (cb_remain b <? left). { injection H as <- _. unfold pes_sane. rewrite Eb. auto. }
  destruct (let? d := bc_peek c left in cb_append b d) as [b'| | |] eqn:Ea; [|injection H as <- _; unfold pes_sane; rewrite Eb; auto..].
  injection H as <- _. unfold pes_sane, set_buf; cbn [ps_pts ps_dts ps_len ps_buf]. split; [exact S1|]. split; [exact S2|]. split; [exact S3|].
  intros b0 [= <-]. unfold bc_peek in Ea. destruct (slice (bc_buf c) (bc_off c) left) as [d|] eqn:Es; [|discriminate]. cbn [of_opt bind] in Ea.
  unfold cb_append in Ea. destruct (_ <? zlen d); [discriminate|]. destruct (slice (cb_mem b) _ _); [|discriminate]. cbn [of_opt bind] in Ea.
  injection Ea as <-. cbn [cb_mem]. specialize (S4 b eq_refl). apply bytes_app. split; [apply bytes_take, S4|]. apply bytes_app. split; [|apply bytes_drop, S4].
  eapply slice_bytes; [exact Hb|exact Es].
Qed.
Lemma complete_made s p len b s' r : pes_sane p -> 0 <= len < 65536 -> ps_buf p = Some b -> Forall ts_made (s_queue s) ->
  on_pes_complete s p len b = (s', r) -> Forall ts_made (s_queue s').
Proof.
  intros (S1 & S2 & S3 & S4) Hl Eb Hq H. specialize (S4 b Eb). unfold on_pes_complete in H. destruct (ps_type p =? TS_STREAM_H264).
  - destruct (let? d := of_opt (slice (cb_mem b) (cb_head b) len) in h264_encode_avc _ _ d) as [ps| | |] eqn:E; [|injection H as <- _; exact Hq..].
    injection H as <- _. cbn [s_queue]. apply Forall_app. split; [exact Hq|].
    destruct (slice (cb_mem b) (cb_head b) len) as [d|] eqn:Es; [|discriminate]. cbn [of_opt bind] in E.
    eapply h264_made; [exact S2|exact S1| | |exact E]; [eapply slice_bytes; [exact S4|exact Es]|]. rewrite (zlen_slice _ _ _ _ Es). lia.
  - destruct (ps_type p =? TS_STREAM_AAC); [|injection H as <- _; exact Hq].
    destruct (cb_contents b) as [d| | |] eqn:Ec; [|injection H as <- _; exact Hq..].
    destruct (aac_encode_avc _ _ d) as [[ps hdr] x] eqn:Ea. destruct x; injection H as <- _; try exact Hq.
    cbn [s_queue]. apply Forall_app. split; [exact Hq|]. unfold aac_encode_avc in Ea. eapply aac_loop_made; [exact S2| |exact Ea].
    cbn [bc_init bc_buf]. unfold cb_contents in Ec. destruct (slice _ _ _) as [d'|] eqn:Es; [|discriminate]. injection Ec as <-. eapply slice_bytes; [exact S4|exact Es].
Qed.
Lemma flush_made s p s' p' r : pes_sane p -> Forall ts_made (s_queue s) -> pes_flush s p = (s', p', r) ->
  Forall ts_made (s_queue s') /\ pes_sane p'.
Proof.
  intros Hp Hq H. unfold pes_flush in H. destruct (ps_buf p) as [b|] eqn:Eb; [|injection H as <- <- _; auto].
  set (len := if ps_len p =? 0 then _ else _) in H. assert (Hl : 0 <= len < 65536).
  { unfold len. destruct Hp as (_ & _ & Hl & _). destruct (ps_len p =? 0); [|lia]. unfold u16. apply Z.mod_pos_bound. lia. }
  destruct (on_pes_complete s p len b) as [s1 x] eqn:E. injection H as <- <- _.
  split; [eapply complete_made; [exact Hp|exact Hl|exact Eb|exact Hq|exact E]|apply reset_sane].
Qed.
Lemma start_made mem s p c s' p' r : bytes mem -> bytes (bc_buf c) -> pes_sane p -> Forall ts_made (s_queue s) ->
  pes_start mem s p c = (s', p', r) -> Forall ts_made (s_queue s') /\ pes_sane p'.
Proof.
  intros Hm Hb Hp Hq H. unfold pes_start in H. destruct (bc_acquire c 9); [|injection H as <- <- _; auto..].
  destruct (pes_flush s p) as [[s1 p1] x] eqn:Ef. apply flush_made in Ef as [Hq1 Hp1]; try assumption.
  destruct x; [|injection H as <- <- _; auto..].
  destruct (read_fields c [24; 8; 16]) as [[v c1]| | |] eqn:E1; [|injection H as <- <- _; auto..].
  apply read_fields_range in E1 as [R B]; [|unfold widths; repeat constructor; lia].
  pose proof (R 2%nat) as R2. cbn [nth] in R2. change (2 ^ 16) with 65536 in R2.
  pose proof (init_sane mem p1 (fld v 2) Hm R2) as Hi. set (p2 := pes_init mem p1 (fld v 2)) in *.
  destruct (negb _); [injection H as <- <- _; auto|]. destruct (fld v 1 =? 0xbe); [injection H as <- <- _; auto|].
  destruct (plain_sid (fld v 1)).
  { destruct (pes_dump p2 c1) as [p3 r3] eqn:Ed. apply dump_sane in Ed; [|exact Hi|rewrite B; exact Hb]. injection H as <- <- _; auto. }
  destruct (pes_header c1) as [ts r2] eqn:Eh. apply pes_header_range in Eh as (T1 & T2 & Sb).
  assert (H3 : pes_sane (set_ts p2 (fst ts) (snd ts))).
  { destruct Hi as (_ & _ & I3 & I4). unfold pes_sane, set_ts; cbn [ps_pts ps_dts ps_len ps_buf]. auto. }
  destruct r2 as [c2| | |]; [|injection H as <- <- _; auto..].
  destruct (pes_dump (set_ts p2 (fst ts) (snd ts)) c2) as [p4 r4] eqn:Ed.
  apply dump_sane in Ed; [|exact H3|rewrite (Sb c2 eq_refl), B; exact Hb]. injection H as <- <- _; auto.
Qed.
Lemma pmt_add_sane f e : (forall q p, f q = Some (PPes p) -> pes_sane p) -> forall q p, pmt_add f e q = Some (PPes p) -> pes_sane p.
Proof.
  intros Hf q p H. unfold pmt_add in H. destruct (_ || _); [|eauto]. destruct (f (snd e)) eqn:E; [eauto|].
  unfold add_program in H. destruct (q =? snd e); [injection H as <-; apply new_sane|eauto].
Qed.
Lemma psi_sane tbl pusi f c : (forall q p, f q = Some (PPes p) -> pes_sane p) ->
  forall q p, fst (psi_decode tbl pusi f c) q = Some (PPes p) -> pes_sane p.
Proof.
  intros Hf q p. destruct (psi_decode_table tbl pusi f c) as [->|(c1 & slen & E)]; [apply Hf|]. rewrite E. clear E. revert q p.
  assert (HP : forall l g, (forall q p, g q = Some (PPes p) -> pes_sane p) ->
    forall q p, fold_left (fun f pid => add_program f pid PPmt) l g q = Some (PPes p) -> pes_sane p).
  { induction l as [|x l IH]; intros g Hg; [exact Hg|]. cbn [fold_left]. apply IH. intros q p H. unfold add_program in H. destruct (q =? x); [discriminate|eauto]. }
  assert (HM : forall l g, (forall q p, g q = Some (PPes p) -> pes_sane p) ->
    forall q p, fold_left pmt_add l g q = Some (PPes p) -> pes_sane p).
  { induction l as [|x l IH]; intros g Hg; [exact Hg|]. cbn [fold_left]. apply IH. apply pmt_add_sane, Hg. }
  destruct tbl; intros q p1 H.
  - unfold pat_decode in H. destruct (if 0 <? _ then _ else _) as [[l c2]| | |]; cbn [fst] in H; eauto.
  - rewrite sdt_decode_same in H. eauto.
  - unfold pmt_decode in H. destruct (let? _ := bc_acquire c1 4 in _) as [[v c2]| | |]; cbn [fst] in H; eauto.
    destruct (if 0 <? _ then _ else _) as [c3| | |]; cbn [fst] in H; eauto.
    destruct (pmt_loop _ _ _) as [[l| | |] c4]; cbn [fst] in H; eauto.
  - rewrite sdt_decode_same in H. eauto.
Qed.
Lemma decode_sane mem s d : bytes mem -> bytes d -> ts_sane s -> ts_sane (fst (fst (ts_decode mem s d))).
Proof.
  intros Hm Hb [Hp Hq]. unfold ts_decode. destruct (tsp_decode (bc_init d)) as [[h c]| | |] eqn:E; try (split; assumption).
  apply tsp_decode_buf in E. assert (Hc : bytes (bc_buf c)) by (rewrite E; exact Hb). clear E.
  destruct (s_progs s (th_pid h)) as [pr|] eqn:Ep; [|split; assumption].
  destruct (_ && _); [split; assumption|].
  assert (HS : ts_sane (fst (match pr with
              | PPes p =>
                  let '(s1, p1, r) := pes_decode mem s p h c in
                  (set_progs s1 (add_program (s_progs s1) (th_pid h) (PPes p1)), r)
              | _ => let '(f, r) := psi_decode pr (th_pusi h) (s_progs s) c in (set_progs s f, r)
              end))).
  { assert (HPsi : forall t, ts_sane (fst (let '(f, r) := psi_decode t (th_pusi h) (s_progs s) c in (set_progs s f, r)))).
    { intros t. pose proof (psi_sane t (th_pusi h) (s_progs s) c Hp) as Q. destruct (psi_decode t (th_pusi h) (s_progs s) c) as [f r]. split; [exact Q|exact Hq]. }
    destruct pr as [| | |p]; try apply HPsi.
    pose proof (Hp _ _ Ep) as Sp. pose proof (decode_progs mem s p h c) as Hsame.
    assert (HD : Forall ts_made (s_queue (fst (fst (pes_decode mem s p h c)))) /\ pes_sane (snd (fst (pes_decode mem s p h c)))).
    { unfold pes_decode. destruct (_ && _); [cbn; auto|]. destruct (negb _); [cbn; auto|].
      assert (Sc : pes_sane (set_cc p (th_cc h))) by (destruct Sp as (? & ? & ? & ?); unfold pes_sane, set_cc; cbn; auto).
      destruct (th_pusi h =? 0).
      - destruct (pes_dump (set_cc p (th_cc h)) c) as [p1 r1] eqn:Ed. apply dump_sane in Ed; auto.
      - destruct (pes_start mem s (set_cc p (th_cc h)) c) as [[s1 p1] r1] eqn:Es. apply start_made in Es; auto. }
    destruct (pes_decode mem s p h c) as [[s1 p1] r1]. cbn [fst snd] in *. destruct HD as [HD1 HD2]. split; [|exact HD1].
    cbn [set_progs s_progs]. intros q p0 H. unfold add_program in H. destruct (q =? th_pid h); [injection H as <-; exact HD2|]. rewrite Hsame in H. eauto. }
  destruct (match pr with PPes p => _ | _ => _ end) as [s' r]. destruct r; exact HS.
Qed.
Lemma run_sane mem ds : forall s s' o r, bytes mem -> Forall bytes ds -> ts_sane s -> ts_run mem s ds = (s', o, r) -> ts_sane s'.
Proof.
  induction ds as [|d ds IH]; intros s s' o r Hm Hd Hs H; cbn [ts_run] in H; [injection H as <- _ _; exact Hs|].
  inversion Hd as [|? ? Hd0 Hd']; subst. pose proof (decode_sane mem s d Hm Hd0 Hs) as S1.
  destruct (ts_decode mem s d) as [[s1 o1] x]. cbn [fst] in S1. destruct x; [|injection H as <- _ _; exact S1..].
  destruct (ts_run mem s1 ds) as [[s2 o2] r2] eqn:E. injection H as <- _ _. eapply IH; eassumption.
Qed.
Lemma new_ts_sane : ts_sane ts_new.
Proof.
  split; [|constructor]. intros q p H. unfold ts_new in H; cbn [s_progs] in H. unfold add_program in H.
  destruct (q =? SDT_PID); [discriminate|]. destruct (q =? PAT_PID); discriminate.
Qed.

(** *** Such packets in FLV *)
Lemma quot90 v : stamp33 v -> 0 <= Z.quot v 90 < 2 ^ 32.
Proof.
  unfold stamp33. intros H. destruct (Z.eq_dec v (-1)) as [->|]; [cbn; lia|]. rewrite Z.quot_div_nonneg by lia.
  split; [apply Z.div_pos; lia|]. apply Z.div_lt_upper_bound; lia.
Qed.
Lemma sign24_back x : (flv_sign24 (x mod 2 ^ 24)) mod 2 ^ 24 = x mod 2 ^ 24.
Proof.
  unfold flv_sign24. pose proof (Z.mod_pos_bound x (2 ^ 24) ltac:(lia)). destruct (x mod 2 ^ 24 <? 2 ^ 23).
  - apply Z.mod_small. lia.
  - symmetry. apply Z.mod_unique with (-1); lia.
Qed.
Lemma sign24_range x : - 2 ^ 23 <= flv_sign24 (x mod 2 ^ 24) < 2 ^ 23.
Proof.
  unfold flv_sign24. pose proof (Z.mod_pos_bound x (2 ^ 24) ltac:(lia)). destruct (Z.ltb_spec (x mod 2 ^ 24) (2 ^ 23)); lia.
Qed.
Lemma be3_mod v : be 3 (v mod 2 ^ 24) = be 3 v.
Proof. exact (be_mod 3 v). Qed.
Lemma slice_as_flv D P f d : f = 0x17 \/ f = 0x27 -> 0 <= D < 2 ^ 32 -> bytes d -> d <> [] -> zlen d < 200000 ->
  let p := video_pkt 1 D P f d in flv_transportable (2 ^ 18) (as_flv p) /\ flv_tag p = flv_tag (as_flv p) /\ flv_fits p.
Proof.
  intros Hf Q1 Hb Hn Hl p. set (P2 := D + flv_sign24 ((P - D) mod 2 ^ 24)).
  assert (E : as_flv p = video_pkt 1 D P2 f d) by (destruct Hf as [->| ->]; reflexivity). rewrite E.
  assert (B0 : forall q, flv_body (video_pkt 1 D q f d) = [f; 1] ++ be 3 (q - D) ++ d) by (intros q; destruct Hf as [->| ->]; reflexivity).
  assert (B : flv_body p = flv_body (video_pkt 1 D P2 f d)).
  { unfold p. rewrite !B0. f_equal. f_equal. rewrite <- (be3_mod (P - D)), <- (be3_mod (P2 - D)). f_equal.
    replace (P2 - D) with (flv_sign24 ((P - D) mod 2 ^ 24)) by (unfold P2; lia). rewrite sign24_back. reflexivity. }
  assert (L : zlen (flv_body p) = 5 + zlen d).
  { unfold p. rewrite B0, !zlen_app, zlen_be. change (zlen [f; 1]) with 2. lia. }
  split; [|split; [unfold flv_tag; rewrite B; reflexivity|split; [reflexivity|lia]]].
  split; [exact Hb|]. split; [exact Hn|]. split; [rewrite <- B; lia|]. split; [exact Q1|]. split; [reflexivity|].
  right; left. pose proof (sign24_range (P - D)). cbn [p_stream p_flags p_codec p_ptype p_pts p_dts video_pkt].
  replace (P2 - D) with (flv_sign24 ((P - D) mod 2 ^ 24)) by (unfold P2; lia).
  unfold byte, CODEC_H264, CODEC_H265. destruct Hf as [->| ->]; [change (23 / 16) with 1; change (23 mod 16) with 7|change (39 / 16) with 2; change (39 mod 16) with 7];
    repeat split; try lia.
Qed.
Lemma made_as_flv p : ts_made p -> p_data p <> [] ->
  flv_transportable (2 ^ 18) (as_flv p) /\ flv_tag p = flv_tag (as_flv p) /\ flv_fits p.
Proof.
  intros M Hd.
  assert (Z1 : forall z, zlen (be 3 z) = 3) by (intros; rewrite zlen_be; lia).
  destruct M as [d Hb Hn Hl|dts pts flags d S1 S2 Hf Hb Hn Hl|d Hb Hn Hl|dts d S1 Hb Hl].
  - assert (E : as_flv (video_pkt 0 0 0 23 d) = video_pkt 0 0 0 23 d) by reflexivity. rewrite E.
    assert (L : zlen (flv_body (video_pkt 0 0 0 23 d)) = 5 + zlen d) by (unfold flv_body; rewrite zlen_app; reflexivity).
    split; [|split; [reflexivity|split; [reflexivity|lia]]].
    split; [exact Hb|]. split; [exact Hn|]. split; [lia|]. split; [cbn; lia|]. split; [reflexivity|].
    right; left. unfold byte, CODEC_H264, CODEC_H265; cbn. repeat split; try lia.
  - pose proof (quot90 _ S1) as Q1. set (D := Z.quot dts 90) in *. set (P := Z.quot pts 90) in *.
    destruct Hf as [->|[->| ->]].
    1: apply slice_as_flv; auto. 1: apply slice_as_flv; auto.
    assert (E : as_flv (video_pkt 1 D P 87 d) = video_pkt 0 D 0 87 d) by reflexivity. rewrite E.
    assert (L : zlen (flv_body (video_pkt 1 D P 87 d)) = 1 + zlen d) by (unfold flv_body; rewrite zlen_app; reflexivity).
    split; [|split; [reflexivity|split; [reflexivity|lia]]].
    split; [exact Hb|]. split; [exact Hn|]. split; [change (zlen (flv_body (video_pkt 0 D 0 87 d))) with (zlen (flv_body (video_pkt 1 D P 87 d))); lia|].
    split; [exact Q1|]. split; [reflexivity|].
    right; right; left. cbn [p_stream p_flags p_codec p_ptype p_pts p_dts video_pkt]; unfold byte. change (87 / 16) with 5. change (87 mod 16) with 7.
    unfold CODEC_H264, CODEC_H265. repeat split; try lia.
  - assert (E : as_flv (audio_pkt 0 0 d) = audio_pkt 0 0 d) by reflexivity. rewrite E.
    assert (L : zlen (flv_body (audio_pkt 0 0 d)) = 2 + zlen d) by (unfold flv_body; rewrite zlen_app; reflexivity).
    split; [|split; [reflexivity|split; [reflexivity|lia]]].
    split; [exact Hb|]. split; [exact Hn|]. split; [lia|]. split; [cbn; lia|]. split; [reflexivity|].
    left. unfold byte; cbn. repeat split; try lia.
  - pose proof (quot90 _ S1) as Q1. set (D := Z.quot dts 90) in *.
    assert (E : as_flv (audio_pkt 1 D d) = audio_pkt 1 D d) by reflexivity. rewrite E. cbn [p_data audio_pkt] in Hd.
    assert (L : zlen (flv_body (audio_pkt 1 D d)) = 2 + zlen d) by (unfold flv_body; rewrite zlen_app; reflexivity).
    split; [|split; [reflexivity|split; [reflexivity|lia]]].
    split; [exact Hb|]. split; [exact Hd|]. split; [lia|]. split; [exact Q1|]. split; [reflexivity|].
    left. cbn [p_stream p_flags p_codec p_ptype p_pts p_dts audio_pkt]. unfold byte. change (AAC_FLAGS) with 175. change (175 / 16) with 10. unfold CODEC_AAC. repeat split; try lia.
Qed.

(** ** Reading a file with an empty AAC frame in it *)
Lemma layout_bytes_data ps : Forall (fun p => bytes (p_data p)) ps -> forall prev, bytes (flv_layout prev ps).
Proof.
  induction 1 as [|p ps Hp HF IH]; intros prev; cbn [flv_layout]; [apply bytes_nil|].
  apply bytes_app. split; [apply be_bytes|]. apply bytes_app. split; [|apply IH].
  unfold flv_tag, flv_body.
  repeat (apply bytes_app; split; try apply be_bytes; try exact Hp; try apply bytes_prefix).
  - apply bytes_cons; split; [|apply bytes_nil]. unfold flv_type_byte. destruct (_ =? _); [|destruct (_ =? _)]; split; lia.
  - apply bytesb_spec. reflexivity.
Qed.
Lemma spec_flv_empty_audio cap e ts more prev : 2 <= cap ->
  spec_flv_next cap e (flv_layout prev (audio_pkt 1 ts [] :: more)) = FErr ERROR_FLV_TAG.
Proof.
  intros Hc. cbn [flv_layout]. set (rest := flv_layout _ more). pose proof (zlen_nonneg rest). unfold flv_tag.
  destruct (be4 prev) as (x0 & x1 & x2 & x3 & ->). destruct (be3 (p_dts (audio_pkt 1 ts []))) as (y0 & y1 & y2 & ->). rewrite be_1.
  change (flv_body (audio_pkt 1 ts [])) with [175; 1]. change (be 3 (zlen [175; 1])) with [0; 0; 2]. cbn [p_dts audio_pkt].
  cbn [seq rev app map flv_type_byte p_stream audio_pkt]. unfold spec_flv_next.
  change (bev [0; 0; 2]) with 2. destruct (Z.ltb_spec cap 2); [lia|].
  rewrite !zlen_cons. destruct (Z.ltb_spec (1 + (1 + zlen rest)) 2); [lia|]. reflexivity.
Qed.
Lemma spec_flv_empty_all cap e ps ts more : 2 <= cap < 2 ^ 24 -> Forall (flv_transportable cap) ps ->
  forall prev fuel, spec_flv_all (S (length ps + fuel)) cap e (flv_layout prev (ps ++ audio_pkt 1 ts [] :: more)) = (ps, EErr ERROR_FLV_TAG).
Proof.
  intros Hc. induction ps as [|p ps IH]; intros HF prev fuel.
  - cbn [app length]. remember (0 + fuel)%nat as f. cbn [spec_flv_all]. rewrite spec_flv_empty_audio by lia. reflexivity.
  - inversion_clear HF as [|? ? Hp HF']. cbn [flv_layout length app Nat.add].
    remember (S (length ps + fuel)) as f. cbn [spec_flv_all].
    rewrite spec_flv_next_tag by (assumption || lia). subst f. rewrite IH by assumption. reflexivity.
Qed.
Lemma flv_empty_audio fill t ps ts more fuel : 15 <= zlen fill < 2 ^ 24 -> nonempty_chunks (t_chunks t) ->
  Forall (flv_transportable (zlen fill)) ps -> Forall (fun p => bytes (p_data p)) more ->
  t_stream t = flv_default_header ++ flv_layout 0 (ps ++ audio_pkt 1 ts [] :: more) ->
  exists hp r2, flv_demux (S (length ps + fuel)) (br_new fill t) = (Ok hp, (ps, Err ERROR_FLV_TAG, r2)).
Proof.
  intros Hf Hn HF Hm Ht.
  destruct (flv_demux_stream fill t flv_default_header (flv_layout 0 (ps ++ audio_pkt 1 ts [] :: more)) (S (length ps + fuel)))
    as (hp & x & r1 & Hd & _ & Hx); try assumption; try lia; try reflexivity.
  { apply layout_bytes_data. apply Forall_app. split; [|constructor; [constructor|exact Hm]].
    eapply Forall_impl; [|exact HF]. intros p Hp. apply Hp. }
  rewrite spec_flv_empty_all in Hd, Hx by (assumption || lia). cbn [fst snd flv_end_ok] in *. subst x. eauto.
Qed.
Lemma asc_transportable a b c : flv_transportable (2 ^ 13) (audio_pkt 0 0 (asc a b c)).
Proof.
  unfold asc. split; [apply be_bytes|]. split; [cbn [audio_pkt p_data]; intros X; apply (f_equal (@length Z)) in X; rewrite be_length in X; discriminate|]. split; [unfold flv_body; rewrite zlen_app; cbn [audio_pkt p_data]; rewrite zlen_be; change (zlen (flv_prefix _)) with 2; lia|].
  split; [cbn; lia|]. split; [reflexivity|]. left. unfold byte. cbn. repeat split; lia.
Qed.
Lemma raw_transportable ts f : frame_ok f -> fr_raw f <> [] -> 0 <= ts < 2 ^ 32 -> flv_transportable (2 ^ 13) (audio_pkt 1 ts (fr_raw f)).
Proof.
  intros ((Hf & _ & Hb) & Hc) Hn Ht. split; [exact Hb|]. split; [exact Hn|]. split.
  - unfold flv_body. rewrite zlen_app. cbn [audio_pkt p_data]. change (zlen (flv_prefix _)) with 2.
    unfold fields_fit, adts_fields in Hf. cbn [forallb] in Hf. rewrite !andb_true_iff in Hf.
    destruct Hf as (_ & _ & _ & _ & _ & _ & _ & _ & _ & _ & _ & _ & HL & _). unfold adts_len in HL. cbn [fst snd] in HL.
    pose proof (zlen_nonneg (fr_crc f)). lia.
  - split; [exact Ht|]. split; [reflexivity|]. left. unfold byte. cbn. repeat split; lia.
Qed.
Lemma aac_empty_at ts f fs2 fs1 : 0 <= ts < 2 ^ 32 -> Forall frame_ok (fs1 ++ f :: fs2) -> Forall (fun g => fr_raw g <> []) fs1 -> fr_raw f = [] ->
  forall cur, exists ps1 ps2, aac_packets ts cur (fs1 ++ f :: fs2) = ps1 ++ audio_pkt 1 ts [] :: ps2 /\ (length fs1 <= length ps1)%nat /\
    Forall (flv_transportable (2 ^ 13)) ps1 /\ Forall (fun p => bytes (p_data p)) ps2.
Proof.
  intros Ht. induction fs1 as [|g fs1 IH]; intros HF Hne He cur.
  - cbn [app aac_packets]. eexists _, _. rewrite He. split; [reflexivity|]. split; [cbn; lia|].
    split. { destruct (match cur with Some _ => _ | None => _ end); constructor; [apply asc_transportable|constructor]. }
    cbn [app] in HF. inversion HF as [|? ? _ HF2]; subst. generalize (Some (fr_params f)). clear - HF2. induction HF2 as [|g r Hg _ IH]; intros c; cbn [aac_packets]; [constructor|].
    apply Forall_app. split.
    + destruct (match c with Some _ => _ | None => _ end); constructor; [apply be_bytes|constructor].
    + constructor; [apply Hg|apply IH].
  - cbn [app] in HF. inversion HF as [|? ? Hg HF']; subst. inversion Hne as [|? ? Hn Hne']; subst.
    destruct (IH HF' Hne' He (Some (fr_params g))) as (ps1 & ps2 & E & L & F1 & F2). cbn [app aac_packets]. rewrite E.
    match goal with |- context [(if ?b then [] else ?c) ++ _] => set (k := if b then [] else c) end. exists (k ++ audio_pkt 1 ts (fr_raw g) :: ps1), ps2.
    split; [rewrite <- app_assoc; reflexivity|]. split; [rewrite app_length; cbn; lia|]. split; [|exact F2].
    apply Forall_app. split; [|constructor; [apply raw_transportable; assumption|exact F1]].
    unfold k. destruct (match cur with Some _ => _ | None => _ end); constructor; [apply asc_transportable|constructor].
Qed.

(** ** What a newcomer is given *)
Lemma from_last_key_app x r : existsb is_keyframe r = true -> from_last_key (x ++ r) = from_last_key r.
Proof.
  intros H. induction x as [|a x IH]; [reflexivity|]. cbn [app from_last_key]. rewrite existsb_app, H, orb_true_r. exact IH.
Qed.
Lemma from_last_key_in m p : In p (from_last_key m) -> In p m.
Proof. intros H. destruct (from_last_key_suffix m) as [old E]. rewrite E. apply in_or_app. right. exact H. Qed.
Lemma media_pkt_made ctx n p : In p (media_pkt ctx n) -> p_stream p = AV_STREAM_TYPE_VIDEO /\ p_ptype p = 1 /\
  p_data p = be 4 (zlen (n_buf n)) ++ n_buf n /\ p_flags p = (if n_type n =? 5 then 0x17 else if n_type n =? 1 then 0x27 else 0x57).
Proof.
  unfold media_pkt. intros H. destruct (n_type n =? 5); [|destruct (n_type n =? 1); [|destruct (n_type n =? 6)]];
    cbn in H; try contradiction; destruct H as [<-|[]]; repeat split.
Qed.
Lemma last_such_app f a b : last_such f (a ++ b) = match last_such f b with Some x => Some x | None => last_such f a end.
Proof.
  induction a as [|x a IH]; cbn [app last_such]; [destruct (last_such f b); reflexivity|]. rewrite IH.
  destruct (last_such f b); reflexivity.
Qed.
Lemma last_such_none f l : (forall p, In p l -> f p = false) -> last_such f l = None.
Proof.
  induction l as [|x l IH]; intros H; [reflexivity|]. cbn. rewrite IH by (intros q Hq; apply H; right; exact Hq).
  rewrite (H x) by (left; reflexivity). reflexivity.
Qed.
Lemma last_such_has f l : existsb f l = true -> exists p, last_such f l = Some p /\ In p l /\ f p = true.
Proof.
  induction l as [|x l IH]; cbn; [discriminate|]. intros H. destruct (existsb f l) eqn:E.
  - destruct (IH eq_refl) as (p & -> & I & Fp). eauto.
  - rewrite orb_false_r in H. rewrite H. destruct (last_such f l) as [q|] eqn:Q; [|eauto].
    exfalso. assert (existsb f l = true) as Y; [|congruence]. clear - Q. induction l as [|y l IH]; [discriminate|]. cbn in Q |- *.
    destruct (last_such f l); [rewrite (IH Q); apply orb_true_r|]. destruct (f y); [reflexivity|discriminate].
Qed.
Lemma last_such_both f l p : last_such f l = Some p -> In p l /\ f p = true.
Proof.
  induction l as [|x l IH]; cbn; [discriminate|]. destruct (last_such f l) as [q|].
  - intros H. destruct (IH H). auto.
  - destruct (f x) eqn:F; [|discriminate]. intros [= <-]. auto.
Qed.
