(** Lemmas about length-prefixed data. *)
From Verif Require Import Base M_Bits S_Bits L_Bits L_BitsW M_Fields L_Align M_Packet M_H264 M_AAC S_Codec L_H264 M_Avc S_Avc.

Lemma acquire_gen buf c rest v : al buf c rest ->
  bc_acquire c v = if v mod 2 ^ 29 <=? zlen rest then Ok tt else Err ERROR_IO_NOT_ENOUGH.
Proof.
  intros H. unfold bc_acquire, acquire_bits. rewrite (al_size_bits _ _ _ H). unfold u32.
  change (2 ^ 32) with (2 ^ 29 * 8). rewrite Z.mul_mod_distr_r by lia.
  destruct (Z.leb_spec (v mod 2 ^ 29 * 8) (8 * zlen rest)); destruct (Z.leb_spec (v mod 2 ^ 29) (zlen rest)); try lia; reflexivity.
Qed.

(** One round. *)
Lemma unit_step nls buf c rest : al buf c rest -> 0 <= nls <= 3 -> 4 <= zlen rest ->
  let v := bev (take (nls + 1) rest) in
  let r1 := drop (nls + 1) rest in
  (v mod 2 ^ 29 > zlen r1 /\ avc_unit nls c = Err ERROR_H264_DECODER) \/
  (v mod 2 ^ 29 <= zlen r1 /\ zlen r1 < v /\ 2 ^ 29 <= v /\
     avc_unit nls c = match r1 with [] => UB | h :: _ => if h <? 128 then UB else Err ERROR_H264_DECODER end) \/
  (v <= zlen r1 /\ ~ nal_ok (take v r1) /\ avc_unit nls c = Err ERROR_H264_DECODER) \/
  (v <= zlen r1 /\ nal_ok (take v r1) /\
     exists c2, avc_unit nls c = Ok (nal_of (take v r1), c2) /\ al buf c2 (drop v r1)).
Proof.
  intros Hal Hn H4 v r1. pose proof (al_bytes _ _ _ Hal) as Hb.
  destruct (al_bits _ _ _ ((nls + 1) * 8) (nls + 1) Hal ltac:(lia) ltac:(lia) ltac:(lia)) as (c1 & E1 & A1).
  rewrite (bval_take_bytes (nls + 1)) in E1 by (assumption || lia).
  fold v in E1. fold r1 in A1. unfold avc_unit. rewrite E1. cbn [bind].
  pose proof (bev_range (take (nls + 1) rest) (Forall_take _ _ _ Hb)) as Hv. fold v in Hv.
  rewrite (acquire_gen _ _ _ _ A1), (al_size _ _ _ A1).
  pose proof (zlen_nonneg r1). pose proof (al_bytes _ _ _ A1) as Hb1.
  destruct (Z.leb_spec (v mod 2 ^ 29) (zlen r1)) as [Hm|Hm]; [|left; split; [lia|reflexivity]].
  right. destruct (Z.ltb_spec (zlen r1) v) as [Hs|Hs].
  - left. split; [assumption|]. split; [assumption|]. split.
    { destruct (Z_lt_dec v (2 ^ 29)); [|lia]. rewrite Z.mod_small in Hm by lia. lia. }
    destruct r1 as [|h t] eqn:Er.
    + rewrite (al_peek_UB _ _ _ 1 A1); [reflexivity|right; rewrite zlen_nil; lia].
    + rewrite (al_peek _ _ _ 1 A1); [|rewrite zlen_cons in *; pose proof (zlen_nonneg t); lia].
      cbn [bind]. rewrite take_cons by lia. change (1 - 1) with 0. rewrite take_0 by lia.
      rewrite parse_nal_cases by (apply bytes_cons in Hb1 as [Hx _]; constructor; [exact Hx|constructor]).
      destruct (h <? 128); reflexivity.
  - right. rewrite (al_peek _ _ _ v A1) by lia. cbn [bind].
    assert (Hbt : bytes (take v r1)) by (apply Forall_take; assumption).
    rewrite parse_nal_cases by assumption. destruct (al_skip _ _ _ v A1 ltac:(lia)) as (c2 & E2 & A2).
    destruct (take v r1) as [|h t] eqn:Et.
    + left. split; [assumption|]. split; [intros (? & ? & ? & _); discriminate|reflexivity].
    + apply bytes_cons in Hbt as [Hh _]. unfold byte in Hh. destruct (Z.ltb_spec h 128).
      * right. split; [assumption|]. split; [exists h, t; split; [reflexivity|lia]|].
        cbn [bind]. rewrite E2. exists c2. split; [reflexivity|assumption].
      * left. split; [assumption|]. split; [intros (? & ? & E & ?); injection E as <- <-; lia|reflexivity].
Qed.

Lemma avcc_cons k u us : avcc k (u :: us) = be k (zlen u) ++ u ++ avcc k us.
Proof. unfold avcc. cbn [flat_map]. rewrite <- app_assoc. reflexivity. Qed.

Lemma pow256 k : (1 <= k <= 4)%nat -> 256 ^ Z.of_nat k <= 2 ^ 32.
Proof. intros H. change (2 ^ 32) with (256 ^ 4). apply Z.pow_le_mono_r; lia. Qed.

Lemma avc_data_read k : (1 <= k <= 4)%nat -> forall us f buf c tail, al buf c (avcc k us ++ tail) ->
  Forall (avcc_unit k) us -> zlen tail < 4 -> zlen buf < 2 ^ 29 -> zlen (avcc k us ++ tail) < Z.of_nat f ->
  avc_data f (Z.of_nat k - 1) c = (map nal_of us, Ok tt).
Proof.
  intros Hk. induction us as [|u us IH]; intros f buf c tail Hal HF Ht Hl Hf.
  - cbn [avcc flat_map app] in *. destruct f; cbn [avc_data]; rewrite (al_acquire_no _ _ _ _ Hal) by lia; reflexivity.
  - inversion HF as [|? ? (Hb & Hn & Hs & H4) HF']; subst.
    rewrite avcc_cons, <- !app_assoc in *. set (R := avcc k us ++ tail) in *.
    pose proof (zlen_nonneg u). pose proof (zlen_nonneg R).
    rewrite !zlen_app, zlen_be in Hf.
    destruct f as [|f]; [lia|]. cbn [avc_data].
    rewrite (al_acquire_ok _ _ _ 4 Hal) by (rewrite ?zlen_app, ?zlen_be; lia).
    destruct (unit_step (Z.of_nat k - 1) _ _ _ Hal) as [D|[D|[D|D]]]; try lia.
    { rewrite !zlen_app, zlen_be; lia. }
    all: replace (Z.of_nat k - 1 + 1) with (Z.of_nat k) in D by lia.
    all: rewrite take_app_exact, drop_app_exact in D by (rewrite zlen_be; reflexivity).
    all: rewrite bev_be, (Z.mod_small _ (256 ^ Z.of_nat k)) in D by lia.
    + destruct D as [D _]. pose proof (al_le _ _ _ Hal) as L. rewrite !zlen_app in L. rewrite zlen_be in L.
      rewrite Z.mod_small in D by lia. rewrite zlen_app in D. lia.
    + destruct D as (_ & D & _). rewrite zlen_app in D. lia.
    + destruct D as (_ & D & _). rewrite take_app_exact in D by reflexivity. contradiction.
    + destruct D as (_ & _ & c2 & E & A). rewrite take_app_exact, ?drop_app_exact in * by reflexivity.
      rewrite E. rewrite (IH f buf c2 tail A HF' Ht Hl) by (fold R; lia). reflexivity.
Qed.

(** What can be said of any data. *)
Definition ends (k : nat) (tail : list Z) (r : res unit) : Prop :=
  (r = Ok tt /\ zlen tail < 4) \/
  (4 <= zlen tail /\ (r = Err ERROR_H264_DECODER \/ (r = UB /\ 2 ^ 29 <= bev (take (Z.of_nat k) tail))) /\
   ~ exists u t, nal_ok u /\ zlen u < 256 ^ Z.of_nat k /\ tail = be k (zlen u) ++ u ++ t).

Lemma avc_data_any k : (1 <= k <= 4)%nat -> forall f buf c rest, al buf c rest -> zlen buf < 2 ^ 29 ->
  zlen rest < Z.of_nat f ->
  exists us tail r, avc_data f (Z.of_nat k - 1) c = (map nal_of us, r) /\ rest = avcc k us ++ tail /\
    Forall nal_ok us /\ ends k tail r.
Proof.
  intros Hk. induction f as [|f IH]; intros buf c rest Hal Hl Hf; [pose proof (zlen_nonneg rest); lia|].
  cbn [avc_data]. destruct (Z_lt_dec (zlen rest) 4) as [H4|H4].
  { rewrite (al_acquire_no _ _ _ _ Hal) by lia. exists [], rest, (Ok tt). split; [reflexivity|].
    split; [reflexivity|]. split; [constructor|left; auto]. }
  rewrite (al_acquire_ok _ _ _ 4 Hal) by lia.
  assert (Hshape : forall u t, zlen u < 256 ^ Z.of_nat k -> rest = be k (zlen u) ++ u ++ t ->
    bev (take (Z.of_nat k) rest) = zlen u /\ drop (Z.of_nat k) rest = u ++ t).
  { intros u t Hu ->. rewrite take_app_exact, drop_app_exact by (rewrite zlen_be; reflexivity). rewrite bev_be, Z.mod_small; [auto|].
    split; [apply zlen_nonneg|assumption]. }
  pose proof (al_bytes _ _ _ Hal) as Hb. pose proof (al_le _ _ _ Hal) as HL.
  destruct (unit_step (Z.of_nat k - 1) _ _ _ Hal) as [D|[D|[D|D]]]; try lia.
  all: replace (Z.of_nat k - 1 + 1) with (Z.of_nat k) in D by lia.
  - destruct D as [D E]. rewrite E. exists [], rest, (Err ERROR_H264_DECODER).
    split; [reflexivity|]. split; [reflexivity|]. split; [constructor|]. right. split; [lia|]. split; [auto|].
    intros (u & t & Hn & Hu & Er). destruct (Hshape u t Hu Er) as [E1 E2]. rewrite E1, E2 in D.
    rewrite zlen_app in D. pose proof (zlen_nonneg u). pose proof (zlen_nonneg t). 
    assert (zlen u mod 2 ^ 29 <= zlen u) by (apply Z.mod_le; lia). lia.
  - destruct D as (D1 & D2 & D3 & E).
    assert (Hno : ~ exists u t, nal_ok u /\ zlen u < 256 ^ Z.of_nat k /\ rest = be k (zlen u) ++ u ++ t).
    { intros (u & t & Hn & Hu & Er). destruct (Hshape u t Hu Er) as [E1 E2]. rewrite E1, E2 in D2.
      rewrite zlen_app in D2. pose proof (zlen_nonneg t). lia. }
    destruct (drop (Z.of_nat k) rest) as [|h t]; [|destruct (h <? 128)]; rewrite E.
    all: eexists [], rest, _; split; [reflexivity|]; split; [reflexivity|]; split; [constructor|];
      right; split; [lia|]; split; [auto|assumption].
  - destruct D as (D1 & D2 & E). rewrite E. exists [], rest, (Err ERROR_H264_DECODER).
    split; [reflexivity|]. split; [reflexivity|]. split; [constructor|]. right. split; [lia|]. split; [auto|].
    intros (u & t & Hn & Hu & Er). destruct (Hshape u t Hu Er) as [E1 E2]. rewrite E1, E2 in D2.
    rewrite take_app_exact in D2 by reflexivity. contradiction.
  - destruct D as (D1 & D2 & c2 & E & A). rewrite E.
    set (v := bev (take (Z.of_nat k) rest)) in *. set (r1 := drop (Z.of_nat k) rest) in *.
    assert (Lr : zlen r1 = zlen rest - Z.of_nat k) by (unfold r1; rewrite zlen_drop; lia).
    assert (Hv0 : 0 <= v) by (apply bev_range; apply Forall_take; assumption).
    destruct (IH buf c2 _ A Hl) as (us & tail & r & E2 & E3 & HF & He).
    { rewrite zlen_drop by lia. lia. }
    rewrite E2. exists (take v r1 :: us), tail, r. split; [reflexivity|]. split; [|split; [constructor; assumption|assumption]].
    rewrite avcc_cons, <- !app_assoc, <- E3, take_drop. rewrite zlen_take by lia. rewrite Z.min_l by lia.
    unfold v. assert (El : length (take (Z.of_nat k) rest) = k).
    { apply Nat2Z.inj. fold (zlen (take (Z.of_nat k) rest)). rewrite zlen_take; lia. }
    rewrite <- El at 1. rewrite be_bev by (apply Forall_take; assumption). unfold r1. rewrite take_drop. reflexivity.
Qed.

(** ** Sequence headers *)
Lemma cfg_e e : byte e -> bit_fields (byte_bits e) [6; 2] = [e / 4; e mod 4].
Proof.
  intros Hh. apply eqb_list_spec. revert e Hh.
  apply (byte_sweep (fun h => eqb_list (bit_fields (byte_bits h) [6; 2]) [h / 4; h mod 4])). vm_compute. reflexivity.
Qed.
Lemma cfg_n e : byte e -> bit_fields (byte_bits e) [3; 5] = [e / 32; e mod 32].
Proof.
  intros Hh. apply eqb_list_spec. revert e Hh.
  apply (byte_sweep (fun h => eqb_list (bit_fields (byte_bits h) [3; 5]) [h / 32; h mod 32])). vm_compute. reflexivity.
Qed.
Lemma cfg_b e : byte e -> bit_fields (byte_bits e) [8] = [e].
Proof.
  intros Hh. apply eqb_list_spec. revert e Hh.
  apply (byte_sweep (fun h => eqb_list (bit_fields (byte_bits h) [8]) [h])). vm_compute. reflexivity.
Qed.
Lemma fields_byte x l ws ws2 : Forall (fun w => 0 <= w <= 32) ws -> zsum ws = 8 ->
  bit_fields (bits_of (x :: l)) (ws ++ ws2) = bit_fields (byte_bits x) ws ++ bit_fields (bits_of l) ws2.
Proof.
  intros Hw Hs. rewrite bit_fields_app, Hs by assumption. rewrite bits_of_cons.
  rewrite bit_fields_prefix by (rewrite ?zlen_byte_bits; assumption || lia).
  rewrite drop_app_exact by reflexivity. reflexivity.
Qed.
Lemma cfg_fields v a b c e n l : byte v -> byte a -> byte b -> byte c -> byte e -> byte n ->
  bit_fields (bits_of (v :: a :: b :: c :: e :: n :: l)) [8; 8; 8; 8; 6; 2; 3; 5] =
  [v; a; b; c; e / 4; e mod 4; n / 32; n mod 32].
Proof.
  intros. change [8; 8; 8; 8; 6; 2; 3; 5] with ([8] ++ [8] ++ [8] ++ [8] ++ [6; 2] ++ [3; 5] ++ []).
  rewrite !fields_byte by (reflexivity || (repeat constructor; lia)).
  rewrite !cfg_b, cfg_e, cfg_n by assumption. reflexivity.
Qed.

Lemma first_set_fails buf c s rest h t n : al buf c (be 2 (zlen s) ++ s ++ rest) -> s = h :: t -> h mod 32 <> 0 ->
  2 <= zlen s < 65536 -> 
  np_sets (S n) (mknp true 3) c = ([], Err ERROR_H264_DECODER).
Proof.
  intros Hal Es Hh Hs. cbn [np_sets].
  destruct (al_bits _ _ _ 16 2 Hal) as (c1 & E1 & A1); try lia.
  { rewrite !zlen_app, zlen_be. pose proof (zlen_nonneg rest). lia. }
  rewrite (bval_take_bytes 2) in E1 by (lia || apply (al_bytes _ _ _ Hal)).
  rewrite take_app_exact in E1 by (rewrite zlen_be; reflexivity). rewrite drop_app_exact in A1 by (rewrite zlen_be; reflexivity).
  rewrite bev_be, Z.mod_small in E1 by (cbn; lia). rewrite E1.
  rewrite (al_acquire _ _ _ _ A1) by lia.
  destruct (Z.leb_spec (zlen s + 2) (zlen (s ++ rest))) as [Hle|]; [|reflexivity].
  rewrite (al_peek _ _ _ _ A1) by lia. set (b := take (zlen s + 2) (s ++ rest)).
  assert (Hb : bytes b) by (apply Forall_take; apply (al_bytes _ _ _ A1)).
  assert (Lb : zlen b = zlen s + 2) by (unfold b; rewrite zlen_take; lia).
  pose proof (al_init b Hb ltac:(lia)) as Ai.
  assert (E : np_data (mknp true 3) b = ([], Err ERROR_H264_DECODER)).
  { unfold np_data. cbn [np_avc np_nls Z.ltb Z.compare avc_data].
    rewrite (al_acquire_ok _ _ _ 4 Ai) by lia.
    assert (Hm : zlen (drop 4 b) < bev (take 4 b) mod 2 ^ 29).
    { rewrite zlen_drop by lia. assert (Eb : exists b', b = h :: b').
      { unfold b. rewrite Es. cbn [app]. rewrite take_cons; [eexists; reflexivity|]. pose proof (zlen_nonneg (h :: t)). lia. }
      destruct Eb as (b' & Eb). rewrite Eb, zlen_cons in *. apply bytes_cons in Hb as [Hh0 Hb'].
      rewrite take_cons by lia. change (4 - 1) with 3. rewrite bev_cons.
      pose proof (bev_range (take 3 b') (Forall_take _ _ _ Hb')) as Hr.
      rewrite zlen_take in * by lia. rewrite Z.min_l in * by lia.
      set (w := bev (take 3 b')) in *. change (256 ^ 3) with 16777216 in *. change (2 ^ 29) with 536870912.
      unfold byte in Hh0. clear - Hh Hh0 Hr Lb Hs.
      Z.div_mod_to_equations. lia. }
    destruct (unit_step 3 _ _ _ Ai) as [D|[D|[D|D]]]; try lia; change (3 + 1) with 4 in D.
    - destruct D as [_ ->]. reflexivity.
    - destruct D as (D & D2 & _). lia.
    - destruct D as (D & _). assert (bev (take 4 b) mod 2 ^ 29 <= bev (take 4 b)); [|lia].
      apply Z.mod_le; [|lia]. apply bev_range. apply Forall_take; assumption.
    - destruct D as (D & _). assert (bev (take 4 b) mod 2 ^ 29 <= bev (take 4 b)); [|lia].
      apply Z.mod_le; [|lia]. apply bev_range. apply Forall_take; assumption. }
  rewrite E. reflexivity.
Qed.

Lemma config_unreadable p a b c r1 r2 n s rest h t : bytes (config_record a b c r1 r2 n s rest) ->
  zlen (config_record a b c r1 r2 n s rest) < 2 ^ 60 -> s = h :: t -> h mod 32 <> 0 ->
  1 <= n < 32 -> 0 <= r2 -> 0 <= r1 -> 2 <= zlen s < 65536 ->
  np_header p (config_record a b c r1 r2 n s rest) = (mknp true 3, [], Err ERROR_H264_DECODER).
Proof.
  intros Hb Hl Es Hh Hn Hr2 Hr1 Hs. pose proof (al_init _ Hb Hl) as Hal.
  set (buf := config_record a b c r1 r2 n s rest) in *.
  assert (Eb : buf = 1 :: a :: b :: c :: 4 * r1 + 3 :: 32 * r2 + n :: be 2 (zlen s) ++ s ++ rest) by reflexivity.
  assert (Lb : 7 <= zlen buf).
  { rewrite Eb, !zlen_cons, !zlen_app, zlen_be. pose proof (zlen_nonneg rest). lia. }
  assert (Hbs : Forall byte [1; a; b; c; 4 * r1 + 3; 32 * r2 + n]).
  { unfold bytes in Hb. rewrite Eb in Hb. change (Forall byte ([1; a; b; c; 4 * r1 + 3; 32 * r2 + n] ++ be 2 (zlen s) ++ s ++ rest)) in Hb.
    apply Forall_app in Hb as [Hb _]. exact Hb. }
  destruct (al_fields _ _ _ [8; 8; 8; 8; 6; 2; 3; 5] 6 Hal) as (c1 & E1 & A1); try reflexivity; [lia|].
  unfold np_header. rewrite (al_acquire_ok _ _ _ 7 Hal) by lia. rewrite E1.
  inversion Hbs as [|? ? B1 Q1]; inversion Q1 as [|? ? B2 Q2]; inversion Q2 as [|? ? B3 Q3]; inversion Q3 as [|? ? B4 Q4];
    inversion Q4 as [|? ? B5 Q5]; inversion Q5 as [|? ? B6 Q6]; subst.
  rewrite Eb in A1 at 2. rewrite Eb. rewrite cfg_fields by assumption. cbn [Z.eqb Pos.eqb].
  replace ((4 * r1 + 3) mod 4) with 3 by (rewrite Z.add_comm, (Z.mul_comm 4), Z.mod_add by lia; reflexivity).
  replace ((32 * r2 + n) mod 32) with n by (rewrite Z.add_comm, (Z.mul_comm 32), Z.mod_add by lia; symmetry; apply Z.mod_small; lia).
  destruct (Z.to_nat n) as [|m] eqn:En; [lia|].
  assert (A2 : al buf c1 (be 2 (zlen (h :: t)) ++ (h :: t) ++ rest)).
  { rewrite <- (drop_app_exact 6 [1; a; b; c; 4 * r1 + 3; 32 * r2 + n] (be 2 (zlen (h :: t)) ++ (h :: t) ++ rest)) by reflexivity.
    exact A1. }
  rewrite (first_set_fails buf c1 (h :: t) rest h t m A2 eq_refl Hh Hs). reflexivity.
Qed.
