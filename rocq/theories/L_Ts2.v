(** TS lemmas: the PES header. *)
From Verif Require Import Base M_Bits S_Bits L_Bits M_Fields L_Align S_Fields L_Pack M_Packet M_Cache L_Cache
  M_H264 M_AAC L_Rtp M_Ts S_Ts L_Ts.

(** From byte [o] of [X] on; a step that ends at byte [o'] (if it can be told). *)
Definition stage (buf X : list Z) (o : option Z) (r : res bitctx) : Prop :=
  match o with
  | Some o => if o <=? zlen X then exists c, r = Ok c /\ al buf c (drop o X) else r = Err ERROR_IO_NOT_ENOUGH
  | None => r = Err ERROR_IO_NOT_ENOUGH
  end.
Definition mono (X : list Z) (o : Z) (o' : option Z) : Prop :=
  zlen X < o -> match o' with Some q => zlen X < q | None => True end.
Lemma stage_bind buf X o o' r f : stage buf X (Some o) r -> mono X o o' ->
  (forall c, o <= zlen X -> al buf c (drop o X) -> stage buf X o' (f c)) ->
  stage buf X o' (let? c := r in f c).
Proof.
  intros Hr Hm Hf. cbn [stage] in Hr. destruct (Z.leb_spec o (zlen X)).
  - destruct Hr as (c & -> & Ha). cbn [bind]. auto.
  - subst r. cbn [bind]. specialize (Hm H). destruct o' as [q|]; cbn [stage]; [|reflexivity].
    destruct (Z.leb_spec q (zlen X)); [lia|reflexivity].
Qed.
Lemma stage_here buf X o c : al buf c (drop o X) -> o <= zlen X -> stage buf X (Some o) (Ok c).
Proof. intros Ha Ho. cbn [stage]. destruct (Z.leb_spec o (zlen X)); [eauto|lia]. Qed.

Section Steps.
  Variables (buf X : list Z) (o : Z) (c : bitctx).
  Hypotheses (Ha : al buf c (drop o X)) (Ho : 0 <= o <= zlen X).
  Let Hz : zlen (drop o X) = zlen X - o.
  Proof. rewrite zlen_drop by lia. lia. Qed.

  Lemma stage_acquire n (f : res bitctx) : 0 <= n < 2 ^ 29 ->
    (o + n <= zlen X -> exists c', f = Ok c' /\ al buf c' (drop (o + n) X)) ->
    stage buf X (Some (o + n)) (let? _ := bc_acquire c n in f).
  Proof.
    intros Hn Hf. rewrite (al_acquire _ _ _ _ Ha Hn), Hz. cbn [stage].
    destruct (Z.leb_spec n (zlen X - o)), (Z.leb_spec (o + n) (zlen X)); try lia; cbn [bind]; auto.
  Qed.
  Lemma stage_fields flag n ws : 0 <= n < 2 ^ 29 -> Forall (fun w => 0 <= w) ws -> zsum ws = 8 * n ->
    stage buf X (Some (o + (if flag =? 0 then 0 else n))) (opt_fields flag n ws c).
  Proof.
    intros Hn Hw Hs. unfold opt_fields. destruct (flag =? 0); [rewrite Z.add_0_r; apply stage_here; [assumption|lia]|].
    apply stage_acquire; [assumption|]. intros Hle.
    pose proof (al_fields_adv _ _ _ ws n Ha Hw Hs) as R. unfold adv in R. rewrite Hz in R.
    destruct (Z.leb_spec n (zlen X - o)); [|lia]. destruct R as (c' & E & Ha'). exists c'. split; [exact E|].
    rewrite drop_drop in Ha' by lia. rewrite Z.add_comm. exact Ha'.
  Qed.
  Lemma stage_skip flag n : 0 <= n < 2 ^ 29 ->
    stage buf X (Some (o + (if flag =? 0 then 0 else n))) (opt_skip flag n c).
  Proof.
    intros Hn. unfold opt_skip. destruct (flag =? 0); [rewrite Z.add_0_r; apply stage_here; [assumption|lia]|].
    apply stage_acquire; [assumption|]. intros Hle.
    destruct (al_skip _ _ _ n Ha) as (c' & E & Ha'); [lia|]. exists c'. split; [exact E|].
    rewrite drop_drop in Ha' by lia. rewrite Z.add_comm. exact Ha'.
  Qed.
  Lemma stage_bc_get n : 0 <= n < 2 ^ 29 -> stage buf X (Some (o + n)) (let? r := bc_get c n in Ok (snd r)).
  Proof.
    intros Hn. unfold bc_get. cbn [stage]. rewrite (al_acquire _ _ _ _ Ha Hn), Hz.
    destruct (Z.leb_spec n (zlen X - o)), (Z.leb_spec (o + n) (zlen X)); try lia; cbn [bind]; [|reflexivity].
    rewrite (al_peek _ _ _ n Ha) by lia. cbn [bind].
    destruct (al_skip _ _ _ n Ha) as (c' & -> & Ha'); [lia|]. cbn [bind snd]. exists c'. split; [reflexivity|].
    rewrite drop_drop in Ha' by lia. rewrite Z.add_comm. exact Ha'.
  Qed.
  Lemma stage_get flag n : 0 <= n < 2 ^ 29 ->
    stage buf X (Some (o + (if flag =? 0 then 0 else n))) (opt_get flag n c).
  Proof.
    intros Hn. unfold opt_get. destruct (flag =? 0); [rewrite Z.add_0_r; apply stage_here; [assumption|lia]|].
    apply stage_bc_get; assumption.
  Qed.
End Steps.

Lemma seven_sweep : forallb (fun f => bval (drop 1 (bits_of [f])) =? f mod 128) (map Z.of_nat (seq 0 256)) = true.
Proof. vm_compute. reflexivity. Qed.
Lemma seven_bits f r : byte f -> nth 1 (bit_fields (bits_of (f :: r)) [1; 7]) 0 = f mod 128.
Proof.
  intros H. change (f :: r) with ([f] ++ r). rewrite bits_of_app, bit_fields_prefix.
  - pose proof seven_sweep as S. rewrite forallb_forall in S. specialize (S f (byte_in_seq f H)).
    cbn [bit_fields nth]. rewrite take_all; [lia|]. rewrite zlen_drop, zlen_bits_of by lia. cbn. lia.
  - repeat constructor; lia.
  - rewrite zlen_bits_of. cbn. lia.
Qed.
Lemma eight_bits f r : byte f -> nth 0 (bit_fields (bits_of (f :: r)) [8]) 0 = f.
Proof.
  intros H. cbn [bit_fields nth]. rewrite bits_of_cons. rewrite take_app_exact by (rewrite zlen_byte_bits; reflexivity).
  apply bval_byte_bits. assumption.
Qed.
Lemma drop_nthz {A} (X : list A) o x : nthz X o = Some x -> drop o X = x :: drop (o + 1) X.
Proof.
  intros H. pose proof (nthz_some_range _ _ _ H) as Hr. pose proof (take_1_drop X o x H) as E.
  rewrite <- (take_drop 1 (drop o X)), E, drop_drop by lia. cbn [app]. rewrite (Z.add_comm 1 o). reflexivity.
Qed.

Lemma stage_block buf X o c flag ws i m : al buf c (drop o X) -> 0 <= o <= zlen X -> 0 < m <= 256 ->
  forallb (fun w => (0 <=? w) && (w <=? 32)) ws = true -> zsum ws = 8 ->
  (forall f r, byte f -> nth i (bit_fields (bits_of (f :: r)) ws) 0 = f mod m) ->
  stage buf X (opt_len X flag m o) (opt_block flag ws i c).
Proof.
  intros Ha Ho Hm Hw Hs Hv. unfold opt_len, opt_block. destruct (flag =? 0); [apply stage_here; [assumption|lia]|].
  assert (Hz : zlen (drop o X) = zlen X - o) by (rewrite zlen_drop by lia; lia).
  destruct (nthz X o) as [n|] eqn:En.
  - pose proof (nthz_some_range _ _ _ En) as Hr.
    rewrite (al_acquire_ok _ _ _ 1 Ha) by lia. cbn [bind].
    destruct (al_fields _ _ _ ws 1 Ha) as (c1 & E1 & Ha1); [assumption|lia|lia|]. rewrite E1. cbn [bind fst snd].
    pose proof (drop_nthz _ _ _ En) as Ed. pose proof (al_bytes _ _ _ Ha) as Hb. rewrite Ed in Hb. inversion Hb; subst.
    rewrite Ed. unfold fld. rewrite Hv by assumption. rewrite drop_drop in Ha1 by lia.
    pose proof (Z.mod_pos_bound n m ltac:(lia)). rewrite (Z.add_comm 1 o) in Ha1.
    apply stage_bc_get; [assumption|lia|lia].
  - apply nthz_none in En. cbn [stage]. rewrite (al_acquire_no _ _ _ 1 Ha) by lia. reflexivity.
Qed.
Lemma opt_len_mono X o o1 flag m : 0 < m -> o <= o1 -> mono X o (opt_len X flag m o1).
Proof.
  intros Hm Ho Hx. unfold opt_len. destruct (flag =? 0); [lia|]. destruct (nthz X o1) eqn:E; [|exact I].
  apply nthz_some_range in E. lia.
Qed.

(** The optional parts after the time stamps end where [opt_size] says. *)
Lemma sel_01 f i : (if bit f i =? 0 then 0 else 1) = bit f i.
Proof. destruct (bit_01 f i) as [->| ->]; reflexivity. Qed.
Lemma sel_n f i n : (if bit f i =? 0 then 0 else n) = n * bit f i.
Proof. destruct (bit_01 f i) as [->| ->]; cbn; lia. Qed.

Definition wext := [1; 1; 1; 1; 3; 1].
Lemma ext_sweep : forallb (fun f => if list_eq_dec Z.eq_dec (bit_fields (bits_of [f]) wext)
    [bit f 7; bit f 6; bit f 5; bit f 4; (f / 2) mod 8; bit f 0] then true else false) (map Z.of_nat (seq 0 256)) = true.
Proof. vm_compute. reflexivity. Qed.
Lemma ext_flags f r : byte f -> exists x,
  bit_fields (bits_of (f :: r)) [1; 1; 1; 1; 3; 1] = [bit f 7; bit f 6; bit f 5; bit f 4; x; bit f 0].
Proof.
  intros H. exists ((f / 2) mod 8). change (f :: r) with ([f] ++ r). rewrite bits_of_app, bit_fields_prefix.
  - pose proof ext_sweep as S. rewrite forallb_forall in S. specialize (S f (byte_in_seq f H)).
    destruct (list_eq_dec _ _ _) as [E|]; [exact E|discriminate].
  - repeat constructor; lia.
  - rewrite zlen_bits_of. cbn. lia.
Qed.

Definition ext_end (X : list Z) (flag o : Z) : option Z :=
  if flag =? 0 then Some o
  else match nthz X o with
       | None => None
       | Some e =>
           match opt_len X (bit e 6) 256 (o + 1 + 16 * bit e 7) with
           | None => None
           | Some o => opt_len X (bit e 0) 128 (o + 2 * bit e 5 + 2 * bit e 4)
           end
       end.
Lemma ext_end_mono X o o1 flag : o <= o1 -> mono X o (ext_end X flag o1).
Proof.
  intros Ho Hx. unfold ext_end. destruct (flag =? 0); [lia|]. destruct (nthz X o1) eqn:E; [|exact I].
  apply nthz_some_range in E. lia.
Qed.
Lemma opt_len_ge X flag m o n : 0 < m -> opt_len X flag m o = Some n -> o <= n.
Proof.
  intros Hm H. unfold opt_len in H. destruct (flag =? 0); [injection H; lia|].
  destruct (nthz X o) as [y|]; [|discriminate]. pose proof (Z.mod_pos_bound y m Hm). injection H; lia.
Qed.
Lemma ext_end_ge X flag o n : ext_end X flag o = Some n -> o <= n.
Proof.
  intros H. unfold ext_end in H. destruct (flag =? 0); [injection H; lia|].
  destruct (nthz X o) as [e|]; [|discriminate].
  destruct (opt_len X (bit e 6) 256 (o + 1 + 16 * bit e 7)) as [o2|] eqn:E; [|discriminate].
  apply opt_len_ge in E; [|lia]. apply opt_len_ge in H; [|lia].
  pose proof (bit_01 e 7). pose proof (bit_01 e 5). pose proof (bit_01 e 4). lia.
Qed.
Lemma opt_size_ext f h : opt_size f h = ext_end h (bit f 0) (opt_fixed f).
Proof. reflexivity. Qed.

Lemma stage_ext buf X o c flag : al buf c (drop o X) -> 0 <= o <= zlen X ->
  stage buf X (ext_end X flag o) (pes_ext flag c).
Proof.
  intros Ha Ho. unfold ext_end, pes_ext. destruct (flag =? 0); [apply stage_here; [assumption|lia]|].
  assert (Hz : zlen (drop o X) = zlen X - o) by (rewrite zlen_drop by lia; lia).
  destruct (nthz X o) as [e|] eqn:En.
  2:{ apply nthz_none in En. cbn [stage]. rewrite (al_acquire_no _ _ _ 1 Ha) by lia. reflexivity. }
  pose proof (nthz_some_range _ _ _ En) as Hr.
  rewrite (al_acquire_ok _ _ _ 1 Ha) by lia. cbn [bind].
  destruct (al_fields _ _ _ [1; 1; 1; 1; 3; 1] 1 Ha) as (c1 & E1 & Ha1); [reflexivity|reflexivity|lia|].
  rewrite E1. cbn [bind fst snd].
  pose proof (drop_nthz _ _ _ En) as Ed. pose proof (al_bytes _ _ _ Ha) as Hb. rewrite Ed in Hb. inversion Hb; subst.
  rewrite Ed. destruct (ext_flags e (drop (o + 1) X)) as (x & ->); [assumption|]. unfold fld; cbn [nth].
  rewrite drop_drop, (Z.add_comm 1 o) in Ha1 by lia.
  pose proof (bit_01 e 7). pose proof (bit_01 e 5). pose proof (bit_01 e 4).
  set (o1 := o + 1 + 16 * bit e 7).
  apply (stage_bind buf X o1).
  { replace o1 with (o + 1 + (if bit e 7 =? 0 then 0 else 16)) by (unfold o1; rewrite sel_n; reflexivity).
    apply stage_get; [assumption|lia|lia]. }
  { intros Hx. unfold opt_len. destruct (bit e 6 =? 0).
    - destruct (bit e 0 =? 0); [lia|]. destruct (nthz X (o1 + 2 * bit e 5 + 2 * bit e 4)) eqn:E; [|exact I]. apply nthz_some_range in E. lia.
    - destruct (nthz X o1) eqn:E; [|exact I]. apply nthz_some_range in E. lia. }
  intros c2 Ho1 Ha2.
  assert (Sb : stage buf X (opt_len X (bit e 6) 256 o1) (opt_block (bit e 6) [8] 0 c2)).
  { apply stage_block; try assumption; try reflexivity; try lia.
    intros f r Hf. rewrite eight_bits by assumption. unfold byte in Hf. rewrite Z.mod_small; lia. }
  destruct (opt_len X (bit e 6) 256 o1) as [o2|] eqn:E2.
  2:{ cbn [stage] in *. rewrite Sb. reflexivity. }
  assert (H12 : o1 <= o2).
  { unfold opt_len in E2. destruct (bit e 6 =? 0); [injection E2; lia|]. destruct (nthz X o1); [|discriminate].
    pose proof (Z.mod_pos_bound z 256 ltac:(lia)). injection E2; lia. }
  apply (stage_bind buf X o2); [exact Sb|apply opt_len_mono; lia|]. intros c3 Ho3 Ha3.
  apply (stage_bind buf X (o2 + 2 * bit e 5)).
  { replace (2 * bit e 5) with (if bit e 5 =? 0 then 0 else 2) by (rewrite sel_n; reflexivity).
    apply stage_skip; [assumption|lia|lia]. }
  { apply opt_len_mono; lia. }
  intros c4 Ho4 Ha4. apply (stage_bind buf X (o2 + 2 * bit e 5 + 2 * bit e 4)).
  { replace (2 * bit e 4) with (if bit e 4 =? 0 then 0 else 2) by (rewrite sel_n; reflexivity).
    apply stage_skip; [assumption|lia|lia]. }
  { apply opt_len_mono; lia. }
  intros c5 Ho5 Ha5. apply stage_block; try assumption; try reflexivity; try lia.
  intros f r Hf. apply seven_bits. assumption.
Qed.

(** The part after the time stamps, with the stuffing. *)
Definition tail_sum (f : Z) : Z := 6 * bit f 5 + 3 * bit f 4 + bit f 3 + bit f 2 + 2 * bit f 1.
Definition vflags (a b c d e g : Z) (f hdl : Z) : list Z :=
  [a; b; c; d; e; g; 2 * bit f 7 + bit f 6; bit f 5; bit f 4; bit f 3; bit f 2; bit f 1; bit f 0; hdl].
Lemma tail_sum_range f : 0 <= tail_sum f <= 13.
Proof.
  unfold tail_sum. pose proof (bit_01 f 5). pose proof (bit_01 f 4). pose proof (bit_01 f 3). pose proof (bit_01 f 2).
  pose proof (bit_01 f 1). lia.
Qed.
Lemma acquire_negative buf c rest n : al buf c rest -> zlen buf <= 65536 -> - 65536 <= n < 0 ->
  bc_acquire c n = Err ERROR_IO_NOT_ENOUGH.
Proof.
  intros Ha Hb Hn. pose proof (al_le _ _ _ Ha). unfold bc_acquire, acquire_bits.
  rewrite (al_size_bits _ _ _ Ha). unfold u32.
  replace (n * 8) with (2 ^ 32 + n * 8 + -1 * 2 ^ 32) by lia. rewrite Z.mod_add by lia. rewrite Z.mod_small by lia.
  destruct (Z.leb_spec (2 ^ 32 + n * 8) (8 * zlen rest)); [lia|reflexivity].
Qed.

Lemma pes_tail_ok buf X o c a1 a2 a3 a4 a5 a6 f hdl pos : al buf c (drop o X) -> 0 <= o <= zlen X ->
  zlen X <= zlen buf <= 188 -> pos = zlen buf - zlen X -> 0 <= hdl < 256 ->
  match ext_end X (bit f 0) (o + tail_sum f) with
  | Some n => if n <=? hdl then stage buf X (Some hdl) (pes_tail (vflags a1 a2 a3 a4 a5 a6 f hdl) pos c)
              else pes_tail (vflags a1 a2 a3 a4 a5 a6 f hdl) pos c = Err ERROR_IO_NOT_ENOUGH
  | None => pes_tail (vflags a1 a2 a3 a4 a5 a6 f hdl) pos c = Err ERROR_IO_NOT_ENOUGH
  end.
Proof.
  intros Ha Ho Hb Hp Hh. unfold pes_tail, vflags, fld; cbn [nth].
  pose proof (al_le _ _ _ Ha) as Hle. rewrite zlen_drop in Hle by lia.
  assert (S : stage buf X (ext_end X (bit f 0) (o + tail_sum f))
    (let? c := opt_fields (bit f 5) 6 [8; 16; 16; 8] c in let? c := opt_fields (bit f 4) 3 [24] c in
     let? c := opt_skip (bit f 3) 1 c in let? c := opt_skip (bit f 2) 1 c in
     let? c := opt_fields (bit f 1) 2 [16] c in pes_ext (bit f 0) c)).
  { pose proof (bit_01 f 5). pose proof (bit_01 f 4). pose proof (bit_01 f 3). pose proof (bit_01 f 2). pose proof (bit_01 f 1).
    pose proof (tail_sum_range f). unfold tail_sum in *.
    apply (stage_bind buf X (o + (if bit f 5 =? 0 then 0 else 6)));
      [apply stage_fields; [assumption|lia|lia|repeat constructor; lia|reflexivity]|rewrite sel_n; apply ext_end_mono; lia|].
    rewrite sel_n. intros c1 Ho1 Ha1.
    apply (stage_bind buf X (o + 6 * bit f 5 + (if bit f 4 =? 0 then 0 else 3)));
      [apply stage_fields; [assumption|lia|lia|repeat constructor; lia|reflexivity]|rewrite sel_n; apply ext_end_mono; lia|].
    rewrite sel_n. intros c2 Ho2 Ha2.
    apply (stage_bind buf X (o + 6 * bit f 5 + 3 * bit f 4 + (if bit f 3 =? 0 then 0 else 1)));
      [apply stage_skip; [assumption|lia|lia]|rewrite sel_n; apply ext_end_mono; lia|].
    rewrite sel_n. intros c3 Ho3 Ha3.
    apply (stage_bind buf X (o + 6 * bit f 5 + 3 * bit f 4 + 1 * bit f 3 + (if bit f 2 =? 0 then 0 else 1)));
      [apply stage_skip; [assumption|lia|lia]|rewrite sel_n; apply ext_end_mono; lia|].
    rewrite sel_n. intros c4 Ho4 Ha4.
    apply (stage_bind buf X (o + 6 * bit f 5 + 3 * bit f 4 + 1 * bit f 3 + 1 * bit f 2 + (if bit f 1 =? 0 then 0 else 2)));
      [apply stage_fields; [assumption|lia|lia|repeat constructor; lia|reflexivity]|rewrite sel_n; apply ext_end_mono; lia|].
    rewrite sel_n. intros c5 Ho5 Ha5.
    replace (o + (6 * bit f 5 + 3 * bit f 4 + bit f 3 + bit f 2 + 2 * bit f 1))
      with (o + 6 * bit f 5 + 3 * bit f 4 + 1 * bit f 3 + 1 * bit f 2 + 2 * bit f 1) by lia.
    apply stage_ext; [assumption|lia]. }
  set (fin := fun c0 : bitctx => let? _ := bc_acquire c0 (hdl - (bc_off c0 - pos)) in skip_read_bytes c0 (hdl - (bc_off c0 - pos))).
  match goal with |- context [let? c := opt_fields (bit f 5) 6 [8; 16; 16; 8] ?cc in @?K c] =>
    replace (let? c := opt_fields (bit f 5) 6 [8; 16; 16; 8] cc in K c) with
    (let? c := (let? c := opt_fields (bit f 5) 6 [8; 16; 16; 8] cc in let? c := opt_fields (bit f 4) 3 [24] c in
     let? c := opt_skip (bit f 3) 1 c in let? c := opt_skip (bit f 2) 1 c in
     let? c := opt_fields (bit f 1) 2 [16] c in pes_ext (bit f 0) c) in fin c)
  end.
  2:{ unfold fin. repeat (match goal with |- bind (bind ?q _) _ = bind ?q _ => destruct q end; cbn [bind]; try reflexivity). }
  destruct (ext_end X (bit f 0) (o + tail_sum f)) as [n|] eqn:En; cbn [stage] in S; [|rewrite S; reflexivity].
  assert (Hn0 : o <= n).
  { pose proof (tail_sum_range f). apply ext_end_ge in En. lia. }
  destruct (Z.leb_spec n (zlen X)) as [Hnx|Hnx].
  - destruct S as (c' & -> & Ha'). cbn [bind]. unfold fin.
    rewrite (al_off _ _ _ Ha'), zlen_drop by lia. replace (zlen buf - Z.max 0 (zlen X - n) - pos) with n by lia.
    destruct (Z.leb_spec n hdl) as [Hnh|Hnh].
    + replace hdl with (n + (hdl - n)) at 1 by lia. apply stage_acquire; [assumption|lia|lia|].
      intros Hx. destruct (al_skip _ _ _ (hdl - n) Ha') as (c2 & E2 & Ha2); [rewrite zlen_drop by lia; lia|].
      exists c2. split; [exact E2|]. rewrite drop_drop in Ha2 by lia. rewrite (Z.add_comm n). exact Ha2.
    + rewrite (acquire_negative _ _ _ _ Ha') by lia. reflexivity.
  - rewrite S. cbn [bind stage]. destruct (Z.leb_spec n hdl); [|reflexivity].
    destruct (Z.leb_spec hdl (zlen X)); [lia|reflexivity].
Qed.

(** Time stamps. *)
Definition wstamp := [4; 3; 1; 15; 1; 15; 1].
Lemma stamp_sweep : forallb (fun f => bval (take 3 (drop 4 (bits_of [f]))) =? (f / 2) mod 8) (map Z.of_nat (seq 0 256)) = true.
Proof. vm_compute. reflexivity. Qed.
Lemma bits15 a b r : byte a -> byte b -> bval (take 15 (bits_of (a :: b :: r))) = (a * 256 + b) / 2.
Proof.
  intros Ha Hb. change (a :: b :: r) with ([a; b] ++ r). rewrite bits_of_app.
  rewrite take_app_le by (rewrite zlen_bits_of; cbn; lia).
  rewrite bval_take_div by (rewrite zlen_bits_of; cbn; lia). rewrite zlen_bits_of.
  change (8 * zlen [a; b] - 15) with 1. rewrite bval_bits_of by (apply bytes_cons; split; [assumption|]; apply bytes_cons; split; [assumption|constructor]).
  unfold bev; cbn [fold_left]. f_equal; lia.
Qed.
Lemma pts_value p1 p2 p3 : 0 <= p1 < 8 -> 0 <= p2 < 2 ^ 15 -> 0 <= p3 < 2 ^ 15 ->
  Z.lor (Z.lor (Z.land (Z.shiftl p1 30) 0x1c0000000) (Z.shiftl p2 15)) p3 = p1 * 2 ^ 30 + p2 * 2 ^ 15 + p3.
Proof.
  intros H1 H2 H3.
  replace (Z.land (Z.shiftl p1 30) 0x1c0000000) with (p1 * 2 ^ 30).
  2:{ assert (C : p1 = 0 \/ p1 = 1 \/ p1 = 2 \/ p1 = 3 \/ p1 = 4 \/ p1 = 5 \/ p1 = 6 \/ p1 = 7) by lia.
      repeat (destruct C as [->|C]; [reflexivity|]). subst. reflexivity. }
  rewrite Z.shiftl_mul_pow2 by lia. rewrite (lor_add p1 (p2 * 2 ^ 15) 30) by lia.
  replace (p1 * 2 ^ 30 + p2 * 2 ^ 15) with ((p1 * 2 ^ 15 + p2) * 2 ^ 15) by lia.
  rewrite (lor_add _ p3 15) by lia. lia.
Qed.
Lemma five_bytes (Y : list Z) : 5 <= zlen Y -> exists b0 b1 b2 b3 b4 r, Y = b0 :: b1 :: b2 :: b3 :: b4 :: r.
Proof.
  intros H. destruct Y as [|b0 [|b1 [|b2 [|b3 [|b4 r]]]]]; try (cbn in H; lia). repeat eexists.
Qed.
Lemma pes_stamp_ok buf X o c : al buf c (drop o X) -> 0 <= o <= zlen X ->
  if o + 5 <=? zlen X
  then exists c', pes_stamp c = Ok (stamp (take 5 (drop o X)), c') /\ al buf c' (drop (o + 5) X)
  else pes_stamp c = Err ERROR_IO_NOT_ENOUGH.
Proof.
  intros Ha Ho. assert (Hz : zlen (drop o X) = zlen X - o) by (rewrite zlen_drop by lia; lia).
  unfold pes_stamp. destruct (Z.leb_spec (o + 5) (zlen X)).
  2:{ rewrite (al_acquire_no _ _ _ 5 Ha) by lia. reflexivity. }
  rewrite (al_acquire_ok _ _ _ 5 Ha) by lia. cbn [bind]. fold wstamp.
  destruct (al_fields _ _ _ wstamp 5 Ha) as (c1 & E1 & Ha1); [reflexivity|reflexivity|lia|].
  rewrite E1. cbn [bind fst snd]. rewrite drop_drop, (Z.add_comm 5 o) in Ha1 by lia.
  exists c1. split; [|exact Ha1]. f_equal. f_equal. clear E1.
  destruct (five_bytes (drop o X)) as (b0 & b1 & b2 & b3 & b4 & r & E); [lia|].
  pose proof (al_bytes _ _ _ Ha) as Hb. rewrite E in *.
  inversion Hb as [|? ? B0 H1]; subst. inversion H1 as [|? ? B1 H2]; subst. inversion H2 as [|? ? B2 H3]; subst.
  inversion H3 as [|? ? B3 H4]; subst. inversion H4 as [|? ? B4 H5]; subst.
  unfold wstamp, fld. cbn [bit_fields nth]. rewrite !drop_drop by lia. cbn [Z.add Pos.add Pos.succ].
  change (take 5 (b0 :: b1 :: b2 :: b3 :: b4 :: r)) with [b0; b1; b2; b3; b4].
  unfold stamp; cbn [nth].
  change 24 with (8 * 3) at 1. change 8 with (8 * 1) at 1. rewrite !drop_bits_of by lia.
  change (drop 1 (b0 :: b1 :: b2 :: b3 :: b4 :: r)) with (b1 :: b2 :: b3 :: b4 :: r).
  change (drop 3 (b0 :: b1 :: b2 :: b3 :: b4 :: r)) with (b3 :: b4 :: r).
  rewrite !bits15 by assumption.
  assert (E0 : bval (take 3 (drop 4 (bits_of (b0 :: b1 :: b2 :: b3 :: b4 :: r)))) = (b0 / 2) mod 8).
  { change (b0 :: b1 :: b2 :: b3 :: b4 :: r) with ([b0] ++ b1 :: b2 :: b3 :: b4 :: r). rewrite bits_of_app.
    assert (Z8 : zlen (bits_of [b0]) = 8) by (rewrite zlen_bits_of; reflexivity).
    rewrite drop_app_le, take_app_le by (try rewrite zlen_drop; lia).
    pose proof stamp_sweep as S. rewrite forallb_forall in S. specialize (S b0 (byte_in_seq b0 B0)). lia. }
  rewrite E0. unfold byte in *. apply pts_value.
  - apply Z.mod_pos_bound. lia.
  - change (2 ^ 15) with 32768. zify_divmod; lia.
  - change (2 ^ 15) with 32768. zify_divmod; lia.
Qed.

(** The whole PES header. *)
Definition wflags := [2; 1; 1; 1; 1; 1; 1].
Lemma wflags_sweep : forallb (fun f => if list_eq_dec Z.eq_dec (bit_fields (bits_of [f]) wflags)
  [2 * bit f 7 + bit f 6; bit f 5; bit f 4; bit f 3; bit f 2; bit f 1; bit f 0] then true else false)
  (map Z.of_nat (seq 0 256)) = true.
Proof. vm_compute. reflexivity. Qed.
Lemma header_flags f1 f2 hdl X : byte f1 -> byte f2 -> byte hdl -> exists a b c d e g,
  bit_fields (bits_of (f1 :: f2 :: hdl :: X)) [2; 2; 1; 1; 1; 1; 2; 1; 1; 1; 1; 1; 1; 8] = vflags a b c d e g f2 hdl.
Proof.
  intros H1 H2 H3.
  change [2; 2; 1; 1; 1; 1; 2; 1; 1; 1; 1; 1; 1; 8] with ([2; 2; 1; 1; 1; 1] ++ (wflags ++ [8])).
  rewrite bit_fields_app by (repeat constructor; lia). change (zsum [2; 2; 1; 1; 1; 1]) with (8 * 1).
  rewrite drop_bits_of by lia. change (drop 1 (f1 :: f2 :: hdl :: X)) with (f2 :: hdl :: X).
  rewrite (bit_fields_app _ wflags) by (unfold wflags; repeat constructor; lia). change (zsum wflags) with (8 * 1).
  rewrite drop_bits_of by lia. change (drop 1 (f2 :: hdl :: X)) with (hdl :: X).
  assert (E : bit_fields (bits_of (f2 :: hdl :: X)) wflags =
    [2 * bit f2 7 + bit f2 6; bit f2 5; bit f2 4; bit f2 3; bit f2 2; bit f2 1; bit f2 0]).
  { change (f2 :: hdl :: X) with ([f2] ++ hdl :: X). rewrite bits_of_app, bit_fields_prefix.
    - pose proof wflags_sweep as S. rewrite forallb_forall in S. specialize (S f2 (byte_in_seq f2 H2)).
      destruct (list_eq_dec _ _ _) as [E|]; [exact E|discriminate].
    - unfold wflags. repeat constructor; lia.
    - rewrite zlen_bits_of. cbn. lia. }
  rewrite E. pose proof (eight_bits hdl X H3) as E8. cbn [bit_fields nth] in E8. cbn [bit_fields app]. rewrite E8.
  unfold vflags. do 6 eexists. reflexivity.
Qed.

Definition x_pts (f : Z) (X : list Z) : Z := if bit f 7 =? 1 then stamp (take 5 X) else -1.
Definition x_dts (f : Z) (X : list Z) : Z := if bit f 7 * bit f 6 =? 1 then stamp (take 5 (drop 5 X)) else x_pts f X.
Definition head_fits (f hdl : Z) (X : list Z) : Prop :=
  exists n, opt_size f X = Some n /\ n <= hdl /\ hdl <= zlen X.

Lemma pes_header_ok buf X f1 f2 hdl c : al buf c (f1 :: f2 :: hdl :: X) -> zlen buf <= 188 ->
  (head_fits f2 hdl X /\ exists c', pes_header c = ((x_pts f2 X, x_dts f2 X), Ok c') /\ al buf c' (drop hdl X)) \/
  (~ head_fits f2 hdl X /\ exists ts, pes_header c = (ts, Err ERROR_IO_NOT_ENOUGH)).
Proof.
  intros Ha Hb. pose proof (al_bytes _ _ _ Ha) as Hby. pose proof (al_le _ _ _ Ha) as Hle.
  rewrite !zlen_cons in Hle. pose proof (zlen_nonneg X) as H0.
  inversion Hby as [|? ? B1 Hby1]; subst. inversion Hby1 as [|? ? B2 Hby2]; subst. inversion Hby2 as [|? ? B3 Hby3]; subst.
  unfold pes_header.
  destruct (al_fields _ _ _ [2; 2; 1; 1; 1; 1; 2; 1; 1; 1; 1; 1; 1; 8] 3 Ha) as (c0 & E0 & Ha0);
    [reflexivity|reflexivity|rewrite !zlen_cons; lia|].
  destruct (header_flags f1 f2 hdl X B1 B2 B3) as (a1 & a2 & a3 & a4 & a5 & a6 & Ef). rewrite Ef in E0. rewrite E0.
  change (drop 3 (f1 :: f2 :: hdl :: X)) with X in Ha0. unfold byte in B3.
  replace (fld (vflags a1 a2 a3 a4 a5 a6 f2 hdl) 6) with (2 * bit f2 7 + bit f2 6) by reflexivity.
  assert (Hpos : bc_off c0 = zlen buf - zlen X) by apply (al_off _ _ _ Ha0).
  assert (HX : drop 0 X = X) by (apply drop_0; lia). rewrite <- HX in Ha0.
  destruct (bit_01 f2 7) as [B7|B7].
  - (* no stamps *)
    replace (0 <? Z.land (2 * bit f2 7 + bit f2 6) 2) with false
      by (rewrite B7; destruct (bit_01 f2 6) as [-> | ->]; reflexivity).
    replace (2 * bit f2 7 + bit f2 6 =? 3) with false by (rewrite B7; destruct (bit_01 f2 6) as [-> | ->]; reflexivity).
    assert (Ep : x_pts f2 X = -1) by (unfold x_pts; rewrite B7; reflexivity).
    assert (Ed : x_dts f2 X = -1) by (unfold x_dts; rewrite B7; exact Ep).
    assert (Es : opt_size f2 X = ext_end X (bit f2 0) (0 + tail_sum f2)).
    { rewrite opt_size_ext. unfold opt_fixed, tail_sum. rewrite B7. f_equal; lia. }
    pose proof (pes_tail_ok buf X 0 c0 a1 a2 a3 a4 a5 a6 f2 hdl (bc_off c0) Ha0 ltac:(lia) ltac:(lia) Hpos ltac:(lia)) as T.
    unfold head_fits. rewrite <- Es in T. rewrite Ep, Ed.
    destruct (opt_size f2 X) as [n|]; [|right; split; [intros (n & E & _); discriminate|rewrite T; eauto]].
    destruct (Z.leb_spec n hdl); [|right; split; [intros (n' & E & H'); injection E as ->; lia|rewrite T; eauto]].
    cbn [stage] in T. destruct (Z.leb_spec hdl (zlen X)).
    + left. split; [exists n; auto|]. destruct T as (c' & -> & Ha'). eauto.
    + right. split; [intros (n' & _ & H'); lia|]. rewrite T. eauto.
  - (* PTS *)
    replace (0 <? Z.land (2 * bit f2 7 + bit f2 6) 2) with true
      by (rewrite B7; destruct (bit_01 f2 6) as [-> | ->]; reflexivity).
    assert (Ep : x_pts f2 X = stamp (take 5 X)) by (unfold x_pts; rewrite B7; reflexivity).
    assert (E5 : 5 <= opt_fixed f2).
    { unfold opt_fixed. rewrite B7. pose proof (bit_01 f2 6). pose proof (tail_sum_range f2). unfold tail_sum in *. lia. }
    pose proof (pes_stamp_ok buf X 0 c0 Ha0 ltac:(lia)) as P1. rewrite HX in P1.
    destruct (Z.leb_spec (0 + 5) (zlen X)) as [H5|H5].
    2:{ rewrite P1. cbn [recast]. right. split; [|eauto]. intros (n & E & Hn & Hh). rewrite opt_size_ext in E. apply ext_end_ge in E. lia. }
    destruct P1 as (c1 & -> & Ha1). change (0 + 5) with 5 in *.
    destruct (bit_01 f2 6) as [B6|B6].
    + replace (2 * bit f2 7 + bit f2 6 =? 3) with false by (rewrite B7, B6; reflexivity).
      assert (Ed : x_dts f2 X = stamp (take 5 X)) by (unfold x_dts; rewrite B7, B6; exact Ep).
      assert (Es : opt_size f2 X = ext_end X (bit f2 0) (5 + tail_sum f2)).
      { rewrite opt_size_ext. unfold opt_fixed, tail_sum. rewrite B7, B6. f_equal; lia. }
      pose proof (pes_tail_ok buf X 5 c1 a1 a2 a3 a4 a5 a6 f2 hdl (bc_off c0) Ha1 ltac:(lia) ltac:(lia) Hpos ltac:(lia)) as T.
      unfold head_fits. rewrite <- Es in T. rewrite Ep, Ed.
      destruct (opt_size f2 X) as [n|]; [|right; split; [intros (n & E & _); discriminate|rewrite T; eauto]].
      destruct (Z.leb_spec n hdl); [|right; split; [intros (n' & E & H'); injection E as ->; lia|rewrite T; eauto]].
      cbn [stage] in T. destruct (Z.leb_spec hdl (zlen X)).
      * left. split; [exists n; auto|]. destruct T as (c' & -> & Ha'). eauto.
      * right. split; [intros (n' & _ & H'); lia|]. rewrite T. eauto.
    + replace (2 * bit f2 7 + bit f2 6 =? 3) with true by (rewrite B7, B6; reflexivity).
      assert (Ed : x_dts f2 X = stamp (take 5 (drop 5 X))) by (unfold x_dts; rewrite B7, B6; reflexivity).
      assert (E10 : 10 <= opt_fixed f2).
      { unfold opt_fixed. rewrite B7, B6. pose proof (tail_sum_range f2). unfold tail_sum in *. lia. }
      pose proof (pes_stamp_ok buf X 5 c1 Ha1 ltac:(lia)) as P2.
      destruct (Z.leb_spec (5 + 5) (zlen X)) as [H10|H10].
      2:{ rewrite P2. cbn [recast]. right. split; [|eauto]. intros (n & E & Hn & Hh). rewrite opt_size_ext in E. apply ext_end_ge in E. lia. }
      destruct P2 as (c2 & -> & Ha2). change (5 + 5) with 10 in *.
      assert (Es : opt_size f2 X = ext_end X (bit f2 0) (10 + tail_sum f2)).
      { rewrite opt_size_ext. unfold opt_fixed, tail_sum. rewrite B7, B6. f_equal; lia. }
      pose proof (pes_tail_ok buf X 10 c2 a1 a2 a3 a4 a5 a6 f2 hdl (bc_off c0) Ha2 ltac:(lia) ltac:(lia) Hpos ltac:(lia)) as T.
      unfold head_fits. rewrite <- Es in T. rewrite Ep, Ed.
      destruct (opt_size f2 X) as [n|]; [|right; split; [intros (n & E & _); discriminate|rewrite T; eauto]].
      destruct (Z.leb_spec n hdl); [|right; split; [intros (n' & E & H'); injection E as ->; lia|rewrite T; eauto]].
      cbn [stage] in T. destruct (Z.leb_spec hdl (zlen X)).
      * left. split; [exists n; auto|]. destruct T as (c' & -> & Ha'). eauto.
      * right. split; [intros (n' & _ & H'); lia|]. rewrite T. eauto.
Qed.
