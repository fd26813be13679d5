(** Adaptation fields that do not hold what they announce, exactly. *)
From Verif Require Import Base M_Bits S_Bits L_Bits M_Fields L_Align S_Fields L_Pack M_Packet M_IO S_IO L_IO M_Cache L_Cache
  M_H264 M_AAC L_Rtp M_Ts S_Ts L_Ts L_Ts2 L_Ts3 L_Ts4 L_Ts5 S_TsMap L_TsMap S_Codec P_Codec S_TsAll L_TsAll.

(** The field announces private data that does not even fit the packet: [X] is all that
    follows the length byte. *)
Definition af_denied (X : list Z) : Prop :=
  match X with
  | [] => False
  | f :: _ => bit f 0 = 1 /\ exists n, nthz X (af_fixed f) = Some n /\ zlen X < af_fixed f + 1 + n
  end.

Lemma af_misfit buf c a body : al buf c (zlen a :: a ++ body) -> zlen buf = 188 -> zlen (a ++ body) = 183 -> ~ af_fits a ->
  (af_denied (a ++ body) /\ af_decode c = Err ERROR_IO_NOT_ENOUGH) \/
  (~ af_denied (a ++ body) /\ exists c', af_decode c = Ok c' /\ outside buf c').
Proof.
  intros Ha Hbuf H183 Hnf. pose proof (al_le _ _ _ Ha) as Hle. rewrite zlen_cons in Hle. rewrite zlen_app in H183, Hle.
  pose proof (zlen_nonneg a) as H0. pose proof (zlen_nonneg body) as H1.
  assert (Hby : bytes (zlen a :: a ++ body)) by (apply (al_bytes _ _ _ Ha)).
  unfold af_decode. rewrite (al_acquire_ok _ _ _ 1 Ha) by (try rewrite zlen_cons, zlen_app; lia). cbn [bind].
  destruct (al_bits _ _ _ 8 1 Ha) as (c1 & E1 & Ha1); [lia|lia|rewrite zlen_cons, zlen_app; lia|].
  rewrite E1. cbn [bind fst snd]. rewrite (bval_take_bytes 1) in * by (assumption || lia).
  change (take 1 (zlen a :: a ++ body)) with [zlen a] in *. change (drop 1 (zlen a :: a ++ body)) with (a ++ body) in Ha1.
  replace (bev [zlen a]) with (zlen a) by (unfold bev; cbn [fold_left]; lia). clear E1.
  destruct a as [|f a']; [exfalso; apply Hnf; exact I|].
  assert (Hz : zlen (f :: a') = 1 + zlen a') by apply zlen_cons. pose proof (zlen_nonneg a') as H0'.
  destruct (Z.leb_spec (zlen (f :: a')) 0); [lia|].
  rewrite (al_acquire_ok _ _ _ (zlen (f :: a')) Ha1) by (try rewrite zlen_app; lia). cbn [bind].
  destruct (al_fields _ _ _ bits8 1 Ha1) as (c2 & E2 & Ha2); [reflexivity|reflexivity|rewrite zlen_app; lia|].
  fold bits8. rewrite E2. cbn [bind fst snd].
  assert (Hf : byte f) by (inversion Hby as [|? ? _ H2]; inversion H2; assumption).
  cbn [app] in *. rewrite flags8 by assumption. cbn [map]. unfold fld; cbn [nth].
  change (drop 1 (f :: a' ++ body)) with (a' ++ body) in Ha2.
  set (X := f :: a' ++ body) in *.
  assert (Hlx : zlen X = 183) by (unfold X; rewrite !zlen_cons, zlen_app; lia).
  assert (Ho1 : bc_off c1 = 188 - zlen X) by (rewrite (al_off _ _ _ Ha1); lia).
  unfold af_denied. fold X.
  set (p := af_fixed f) in *.
  assert (Hp : 1 <= p <= 14).
  { unfold p, af_fixed. pose proof (bit_01 f 4). pose proof (bit_01 f 3). pose proof (bit_01 f 2). lia. }
  assert (S : adv buf X p (af_parts [bit f 7; bit f 6; bit f 5; bit f 4; bit f 3; bit f 2; bit f 1; bit f 0] c2)).
  { unfold p, af_fixed.
    assert (Hadv : adv buf (a' ++ body) (6 * bit f 4 + (6 * bit f 3 + bit f 2))
       (af_parts [bit f 7; bit f 6; bit f 5; bit f 4; bit f 3; bit f 2; bit f 1; bit f 0] c2)).
    { unfold af_parts, fld. cbn [nth]. pose proof (bit_01 f 4). pose proof (bit_01 f 3). pose proof (bit_01 f 2).
      apply adv_bind; [lia|lia| |].
      - replace (6 * bit f 4) with (if bit f 4 =? 1 then 6 else 0) by (destruct (Z.eqb_spec (bit f 4) 1); lia).
        apply adv_if; [assumption|lia|]. apply al_fields_adv; [assumption|repeat constructor; lia|reflexivity].
      - intros c3 Ha3. apply adv_bind; [lia|lia| |].
        + replace (6 * bit f 3) with (if bit f 3 =? 1 then 6 else 0) by (destruct (Z.eqb_spec (bit f 3) 1); lia).
          apply adv_if; [assumption|lia|]. apply al_read_bytes_adv; [assumption|lia].
        + intros c4 Ha4. replace (bit f 2) with (if bit f 2 =? 1 then 1 else 0) at 1 by (destruct (Z.eqb_spec (bit f 2) 1); lia).
          apply adv_if; [assumption|lia|]. apply al_bits_adv; [assumption|lia|reflexivity]. }
    unfold adv in *. unfold X. rewrite zlen_cons.
    replace (1 + 6 * bit f 4 + 6 * bit f 3 + bit f 2) with (1 + (6 * bit f 4 + (6 * bit f 3 + bit f 2))) by lia.
    set (m := 6 * bit f 4 + (6 * bit f 3 + bit f 2)) in *.
    assert (0 <= m) by (unfold m; pose proof (bit_01 f 4); pose proof (bit_01 f 3); pose proof (bit_01 f 2); lia).
    destruct (Z.leb_spec m (zlen (a' ++ body))), (Z.leb_spec (1 + m) (1 + zlen (a' ++ body))); try lia; [|assumption].
    destruct Hadv as (c' & E & Hc'). exists c'. split; [exact E|].
    replace (1 + m) with (m + 1) by lia. rewrite <- drop_drop by lia. exact Hc'. }
  unfold adv in S. destruct (Z.leb_spec p (zlen X)) as [Hpx|Hpx]; [|lia].
  destruct S as (c3 & -> & Ha3). cbn [bind].
  destruct (Z.eqb_spec (bit f 0) 1) as [Hext|Hext].
  - destruct (al_bits _ _ _ 8 1 Ha3) as (c4 & E4 & Ha4); [lia|lia|rewrite zlen_drop by lia; lia|].
    rewrite E4. cbn [bind fst snd].
    destruct (nthz X p) as [n|] eqn:En; [|apply nthz_none in En; lia].
    assert (Hn : byte n).
    { eapply nthz_byte; [apply (al_bytes _ _ _ Ha1)|eassumption]. }
    rewrite (bval_take_bytes 1) by (try apply Forall_drop; (apply (al_bytes _ _ _ Ha1)) || lia).
    rewrite (take_1_drop X p n En). replace (bev [n]) with n by (unfold bev; cbn [fold_left]; lia).
    rewrite drop_drop in Ha4 by lia. unfold byte in Hn.
    destruct (Z_le_dec (p + 1 + n) (zlen X)) as [Hpn|Hpn].
    2:{ left. rewrite (al_acquire_no _ _ _ n Ha4) by (try rewrite zlen_drop by lia; lia). cbn [bind]. split; [|reflexivity].
        split; [exact Hext|]. exists n. split; [exact En|fold p; lia]. }
    right. split. { intros (_ & n' & En' & Q). fold p in En', Q. rewrite En in En'. injection En' as <-. lia. }
    rewrite (al_acquire_ok _ _ _ n Ha4) by (try rewrite zlen_drop by lia; lia). cbn [bind].
    destruct (al_read_bytes _ _ _ n Ha4) as (c5 & -> & Ha5); [rewrite zlen_drop by lia; lia|]. cbn [bind snd].
    rewrite drop_drop in Ha5 by lia. rewrite (al_off _ _ _ Ha5), zlen_drop by lia. rewrite Ho1.
    replace (zlen buf - Z.max 0 (zlen X - (n + (1 + p))) - (188 - zlen X)) with (p + 1 + n) by lia.
    destruct (Z_le_dec (p + 1 + n) (zlen (f :: a'))) as [Hfit|Hfit].
    + exfalso. apply Hnf. unfold af_fits. fold p. split; [lia|]. intros _. exists n. split; [|lia].
      unfold X in En. change (f :: a' ++ body) with ((f :: a') ++ body) in En. rewrite nthz_app_l in En by lia. exact En.
    + unfold skip_read_bytes. rewrite (al_rem _ _ _ Ha5). cbn [Z.eqb]. eexists. split; [reflexivity|].
      unfold outside. cbn [bc_buf bc_rem bc_pos]. split; [apply (al_buf _ _ _ Ha5)|]. split; [reflexivity|].
      pose proof (al_len _ _ _ Ha5) as HL. rewrite zlen_drop in HL by lia.
      unfold u16. replace (zlen (f :: a') - (p + 1 + n)) with (65536 - (p + 1 + n - zlen (f :: a')) + -1 * 2 ^ 16) by lia.
      rewrite Z.mod_add by lia. rewrite Z.mod_small by lia. lia.
  - right. split; [intros (Q & _); contradiction|]. cbn [bind]. rewrite (al_off _ _ _ Ha3), zlen_drop by lia. rewrite Ho1.
    replace (zlen buf - Z.max 0 (zlen X - p) - (188 - zlen X)) with p by lia.
    destruct (Z_le_dec p (zlen (f :: a'))) as [Hfit|Hfit].
    + exfalso. apply Hnf. unfold af_fits; fold p; split; [lia|tauto].
    + unfold skip_read_bytes. rewrite (al_rem _ _ _ Ha3). cbn [Z.eqb]. eexists. split; [reflexivity|].
      unfold outside. cbn [bc_buf bc_rem bc_pos]. split; [apply (al_buf _ _ _ Ha3)|]. split; [reflexivity|].
      pose proof (al_len _ _ _ Ha3) as HL. rewrite zlen_drop in HL by lia.
      unfold u16. replace (zlen (f :: a') - p) with (65536 - (p - zlen (f :: a')) + -1 * 2 ^ 16) by lia.
      rewrite Z.mod_add by lia. rewrite Z.mod_small by lia. lia.
Qed.
Lemma tsp_misfit k a : ts_ok k -> t_af k = Some a -> ~ af_fits a ->
  (af_denied (a ++ t_body k) /\ tsp_decode (bc_init (ts_bytes k)) = Err ERROR_IO_NOT_ENOUGH) \/
  (~ af_denied (a ++ t_body k) /\ exists c, tsp_decode (bc_init (ts_bytes k)) = Ok (t_hdr k, c) /\ outside (ts_bytes k) c).
Proof.
  intros Hk Ea Hn. destruct (tsp_decode_head k Hk) as (c & Ha & E). rewrite E. pose proof (ts_ok_len k Hk) as HL. unfold af_bytes in Ha, HL.
  rewrite Ea in *. cbn [app] in Ha. rewrite zlen_cons in HL.
  destruct (af_misfit _ _ _ _ Ha) as [(D & ->)|(D & c' & -> & Ho)]; [destruct Hk as (_ & _ & H); exact H|rewrite zlen_app; lia|exact Hn| |]; cbn [bind]; [left|right]; eauto.
Qed.

(** ** Exactly when such a packet reads outside *)
Definition slips (mem : list Z) (s : tsst) (k : tsp) : Prop :=
  exists a, t_af k = Some a /\ ~ af_fits a /\ ~ af_denied (a ++ t_body k) /\
  match s_progs s (t_pid k) with
  | None => False
  | Some PPat | Some PPmt => True
  | Some PSdt => t_has k = true
  | Some (PPes p) => t_has k = true /\ t_cc k = next_cc (ps_cc p) /\ exists u, holds mem p u /\
      if t_pusi k =? 0 then exists v, u = Some v /\ un_len v <> 0
      else forall e, snd (handed mem (ps_type p) u (s_adts s)) <> Err e
  end.

Lemma misfit_exact mem s k a : mem_ok mem -> bytes mem -> all_hold mem s -> ts_ok k -> t_af k = Some a -> ~ af_fits a ->
  let '(s', o, r) := ts_decode mem s (ts_bytes k) in r <> Fuel /\ (r = UB <-> slips mem s k) /\ (r = Ok tt -> s' = s /\ o = []).
Proof.
  intros Hm Hb Hall Hk Ea Hn.
  pose proof (misfit_step mem s k a Hm Hb Hall Hk Ea Hn) as M.
  destruct (ts_decode mem s (ts_bytes k)) as [[s' o] r] eqn:Ed. destruct M as [M1 M2]. split; [exact M1|]. split; [|exact M2]. clear M1 M2.
  assert (Er : r = snd (ts_decode mem s (ts_bytes k))) by (rewrite Ed; reflexivity). clear Ed. subst r.
  destruct (tsp_misfit k a Hk Ea Hn) as [(D & E)|(D & c & E & Ho)].
  { unfold ts_decode. rewrite E. cbn [snd recast]. split; [discriminate|]. intros (a' & Ea' & _ & D' & _). rewrite Ea in Ea'. injection Ea' as <-. contradiction. }
  assert (Sl : slips mem s k <-> match s_progs s (t_pid k) with
     | None => False
     | Some PPat | Some PPmt => True
     | Some PSdt => t_has k = true
     | Some (PPes p) => t_has k = true /\ t_cc k = next_cc (ps_cc p) /\ exists u, holds mem p u /\
         if t_pusi k =? 0 then exists v, u = Some v /\ un_len v <> 0
         else forall e, snd (handed mem (ps_type p) u (s_adts s)) <> Err e
     end).
  { unfold slips. split; [intros (a' & _ & _ & _ & Q); exact Q|intros Q; exists a; auto]. }
  rewrite Sl. clear Sl. rewrite (ts_decode_ctx mem s k c E). destruct (outside_facts k c Hk Ho) as (Fa & Fr & Fp). unfold ts_after.
  assert (Sz : 2 ^ 60 <= bc_size c).
  { destruct Ho as (B1 & B2 & B3). assert (L : zlen (ts_bytes k) = 188) by apply Hk.
    assert (Hp : bc_pos c = zlen (bc_buf c) - 1 + (bc_pos c - 187)) by (rewrite B1, L; lia).
    destruct (out_size c (bc_pos c - 187) B2 Hp ltac:(lia)) as [-> _]. lia. }
  destruct (s_progs s (t_pid k)) as [pr|] eqn:Epr; [|split; [discriminate|tauto]].
  assert (Hpsi : forall t, psi_decode t (t_pusi k) (s_progs s) c = (s_progs s, UB)).
  { intros t. unfold psi_decode. rewrite (Fa 8) by lia. cbn [bind]. destruct (t_pusi k =? 1); [rewrite (Fr 8) by lia; reflexivity|].
    cbn [bind read_fields]. rewrite (Fr 8) by lia. reflexivity. }
  unfold ts_program. destruct pr as [| | |p].
  1-3: cbn [is_section prog_type]; rewrite Hpsi; destruct (t_has k); cbn; tauto || (split; [discriminate|discriminate]) || idtac.

  replace (negb (t_has k) && negb (is_section (PPes p))) with (negb (t_has k)) by (destruct (t_has k); reflexivity).
  destruct (t_has k); cbn [negb]; [|split; [discriminate|intros [Q _]; discriminate]].
  assert (Out : snd (match (let '(s1, p1, r) := pes_decode mem s p (t_hdr k) c in (set_progs s1 (add_program (s_progs s1) (t_pid k) (PPes p1)), r)) with
      | (s1, Ok _) => (s1, [ts_on_packet (prog_type (PPes p)) (t_pusi k) (ts_bytes k)], Ok tt)
      | (s1, e) => (s1, [], e)
      end) = UB <-> snd (pes_decode mem s p (t_hdr k) c) = UB).
  { destruct (pes_decode mem s p (t_hdr k) c) as [[s1 p1] [[]|e| |]]; cbn [snd]; tauto. }
  rewrite Out. clear Out. destruct (Hall _ _ Epr) as (u & Hu).
  assert (Ex : (exists u, holds mem p u /\ (if t_pusi k =? 0 then exists v, u = Some v /\ un_len v <> 0 else forall e, snd (handed mem (ps_type p) u (s_adts s)) <> Err e)) <->
     (if t_pusi k =? 0 then exists v, u = Some v /\ un_len v <> 0 else forall e, snd (handed mem (ps_type p) u (s_adts s)) <> Err e)).
  { split; [|intros Q; exists u; auto]. intros (w & Hw & Q). assert (w = u); [|subst w; exact Q].
    destruct w as [w|]; [symmetry; apply (held_same mem p w u Hw Hu)|]. destruct u as [v|]; [apply (held_same mem p v None Hu Hw)|reflexivity]. }
  rewrite Ex. clear Ex.
  unfold pes_decode. cbn [t_hdr th_pusi th_cc]. rewrite land_next.
  assert (Hu' : holds mem (set_cc p (t_cc k)) u) by (destruct u as [v|]; cbn [holds] in *; [destruct Hu; split; [apply pending_cc|]; assumption|exact Hu]).
  assert (St : snd (pes_start mem s (set_cc p (t_cc k)) c) = UB <-> forall e, snd (handed mem (ps_type p) u (s_adts s)) <> Err e).
  { destruct (flush_every mem s _ u Hm Hu') as (s1 & p1 & r & Ef & _ & Dn). pose proof (flush_fuel mem s _ u Hm Hb Hu') as N.
    unfold pes_start. rewrite (Fa 9) by lia. rewrite Ef in *. cbn [snd] in N. cbn [set_cc ps_type] in Dn.
    destruct (handed mem (ps_type p) u (s_adts s)) as [[ps ad] q]. destruct Dn as (_ & <- & _). cbn [snd].
    destruct r as [x|e| |]; [|split; [discriminate|intros Q; exfalso; apply (Q e); reflexivity]|split; [discriminate|reflexivity]|congruence].
    cbn [read_fields]. rewrite (Fr 24) by lia. cbn [bind recast snd]. split; [discriminate|reflexivity]. }
  destruct u as [v|]; cbn [holds] in Hu.
  - assert (Hd : snd (pes_dump (set_cc p (t_cc k)) c) = UB <-> un_len v <> 0).
    { destruct Hu' as [(E1 & E2 & E3 & Hl & Hes & Eb) _]. unfold pes_dump. rewrite Eb, E1. cbn [cb_len]. pose proof (zlen_nonneg (un_es v)) as H0. pose proof (capacity_range _ Hl) as Hc.
      unfold cb_remain; cbn [cb_cap cb_len]. unfold TS_DEFAULT_PES in *. unfold u32. rewrite Z.mod_small by lia.
      destruct (Z.ltb_spec 0 (un_len v)) as [L|L].
      - unfold capacity in *. destruct (Z.ltb_spec 0 (un_len v)); [|lia]. unfold u64. rewrite (Z.mod_small (un_len v - zlen (un_es v)) (2 ^ 64)) by lia.
        rewrite Z.min_l by lia. rewrite Z.ltb_irrefl. rewrite Fp. cbn [bind recast snd]. split; [lia|reflexivity].
      - destruct (Z.ltb_spec (capacity (un_len v) - zlen (un_es v)) (bc_size c)); [|lia]. cbn [snd]. split; [discriminate|lia]. }
    destruct Hu as [(_ & _ & _ & _ & _ & Eb) _]. rewrite Eb. cbn [negb]. rewrite andb_false_r.
    destruct (Z.eqb_spec (t_cc k) (next_cc (ps_cc p))) as [Ec|Nc]; cbn [negb]; [|split; [discriminate|tauto]].
    destruct (t_pusi k =? 0).
    + destruct (pes_dump (set_cc p (t_cc k)) c) as [p1 r]. cbn [snd] in *. rewrite Hd. split; [intros Q; split; [reflexivity|]; split; [exact Ec|eauto]|].
      intros (_ & _ & w & [= <-] & Q). exact Q.
    + rewrite St. tauto.
  - rewrite Hu. cbn [negb]. rewrite andb_true_r. destruct (t_pusi k =? 0).
    + split; [discriminate|]. intros (_ & _ & w & Q & _). discriminate.
    + destruct (Z.eqb_spec (t_cc k) (next_cc (ps_cc p))) as [Ec|Nc]; cbn [negb]; [|split; [discriminate|tauto]]. rewrite St. tauto.
Qed.

(** A packet that makes the demuxer read outside in state [s], one way or the other. *)
Definition overreads (mem : list Z) (s : tsst) (k : tsp) : Prop := (pk_fits k /\ reads_outside mem s k) \/ slips mem s k.
Lemma fits_or_not k : ts_ok k -> pk_fits k \/ exists a, t_af k = Some a /\ ~ af_fits a.
Proof.
  intros Hk. destruct (t_af k) as [a|] eqn:Ea; [|left; split; [exact Hk|rewrite Ea; exact I]].
  assert (Da : af_fits a \/ ~ af_fits a).
  { destruct a as [|f a']; [left; exact I|]. unfold af_fits. destruct (Z_le_dec (af_fixed f) (zlen (f :: a'))) as [L|L]; [|right; tauto].
    destruct (Z.eq_dec (bit f 0) 1) as [B|B]; [|left; split; [exact L|tauto]].
    destruct (nthz (f :: a') (af_fixed f)) as [n|]; [|right; intros (_ & Q); destruct (Q B) as (n & Q' & _); discriminate].
    destruct (Z_le_dec (af_fixed f + 1 + n) (zlen (f :: a'))) as [L2|L2]; [left; split; [exact L|]; intros _; exists n; auto|].
    right. intros (_ & Q). destruct (Q B) as (n' & [= <-] & Q'). contradiction. }
  destruct Da as [Da|Da]; [left; split; [exact Hk|rewrite Ea; exact Da]|right; exists a; auto].
Qed.
Lemma packet_exactly mem s k : mem_ok mem -> bytes mem -> all_hold mem s -> ts_ok k ->
  let '(s', o, r) := ts_decode mem s (ts_bytes k) in r <> Fuel /\ (r = UB <-> overreads mem s k) /\ (r = Ok tt -> all_hold mem s').
Proof.
  intros Hm Hb Hall Hk. destruct (fits_or_not k Hk) as [Hf|(a & Ea & Hn)].
  - pose proof (packet_outside mem s k Hm Hb Hf Hall) as P. destruct (ts_decode mem s (ts_bytes k)) as [[s1 o] r]. destruct P as (P1 & P2 & P3).
    split; [exact P1|]. split; [|exact P3]. rewrite P2. unfold overreads. split; [auto|]. intros [[_ Q]|(a & Ea & Hn & _)]; [exact Q|].
    exfalso. destruct Hf as [_ Hf]. rewrite Ea in Hf. contradiction.
  - pose proof (misfit_exact mem s k a Hm Hb Hall Hk Ea Hn) as P. destruct (ts_decode mem s (ts_bytes k)) as [[s1 o] r]. destruct P as (P1 & P2 & P3).
    split; [exact P1|]. split; [|intros Er; destruct (P3 Er) as [-> _]; exact Hall]. rewrite P2. unfold overreads. split; [auto|]. intros [[[_ Hf] _]|Q]; [|exact Q].
    rewrite Ea in Hf. contradiction.
Qed.

(** ** Sessions *)
Lemma session_exact mem s ds : mem_ok mem -> bytes mem -> all_hold mem s -> Forall (fun d => bytes d /\ zlen d = 188) ds ->
  snd (ts_run mem s ds) <> Fuel /\
  (snd (ts_run mem s ds) = UB <->
   exists pre k post s1 o1, ds = pre ++ ts_bytes k :: post /\ ts_ok k /\ ts_run mem s pre = (s1, o1, Ok tt) /\ overreads mem s1 k) /\
  (snd (ts_run mem s ds) = Ok tt -> all_hold mem (fst (fst (ts_run mem s ds)))).
Proof.
  intros Hm Hb Hall Hd. revert s Hall. induction ds as [|d ds IH]; intros s Hall.
  { split; [discriminate|]. split; [|intros _; exact Hall]. split; [discriminate|]. intros ([|? ?] & k & post & s1 & o1 & E & _); discriminate. }
  inversion Hd as [|? ? [Hdb Hdl] Hd']; subst. specialize (IH Hd'). cbn [ts_run].
  assert (One : let '(s1, o, r) := ts_decode mem s d in
     r <> Fuel /\ (r = Ok tt -> all_hold mem s1) /\ (r = UB -> exists k, d = ts_bytes k /\ ts_ok k /\ overreads mem s k)).
  { destruct (block_cases mem s d Hdb Hdl) as [(_ & ->)|[(_ & _ & _ & ->)|(_ & k & Hk & ->)]]; [split; [discriminate|]; split; discriminate..|].
    pose proof (packet_exactly mem s k Hm Hb Hall Hk) as P. destruct (ts_decode mem s (ts_bytes k)) as [[s1 o] r]. destruct P as (P1 & P2 & P3).
    split; [exact P1|]. split; [exact P3|]. intros Er. exists k. split; [reflexivity|]. split; [exact Hk|]. apply P2, Er. }
  assert (Back : forall pre k post s2 o2, d :: ds = pre ++ ts_bytes k :: post -> ts_ok k -> ts_run mem s pre = (s2, o2, Ok tt) -> overreads mem s2 k ->
     (snd (ts_decode mem s d) = UB) \/
     (exists pre', ds = pre' ++ ts_bytes k :: post /\ exists s1 o1 o3, ts_decode mem s d = (s1, o1, Ok tt) /\ ts_run mem s1 pre' = (s2, o3, Ok tt))).
  { intros pre k post s2 o2 E Hk R Hr. destruct pre as [|d' pre]; cbn [app] in E; injection E as Eh E.
    - left. rewrite Eh. cbn [ts_run] in R. injection R as <- <-. pose proof (packet_exactly mem s k Hm Hb Hall Hk) as P.
      destruct (ts_decode mem s (ts_bytes k)) as [[s1 o] r]. apply P, Hr.
    - right. subst d'. exists pre. split; [exact E|]. cbn [ts_run] in R. destruct (ts_decode mem s d) as [[s1 o1] r1]. destruct r1 as [[]| | |]; [|injection R; discriminate..].
      destruct (ts_run mem s1 pre) as [[s3 o3] r3] eqn:E3. injection R as -> _ ->. exists s1, o1, o3. auto. }
  destruct (ts_decode mem s d) as [[s1 o] r] eqn:Ed. destruct One as (O1 & O2 & O3). cbn [snd] in Back.
  destruct r as [[]|e| |].
  - destruct (IH s1 (O2 eq_refl)) as (I1 & I2 & I3). destruct (ts_run mem s1 ds) as [[s2 o2] r2]. cbn [fst snd] in *. split; [exact I1|]. split; [|exact I3]. rewrite I2. split.
    + intros (pre & k & post & s3 & o3 & -> & Hk & R & Ho). exists (d :: pre), k, post, s3, (o ++ o3). split; [reflexivity|]. split; [exact Hk|]. split; [|exact Ho].
      cbn [ts_run]. rewrite Ed, R. reflexivity.
    + intros (pre & k & post & s3 & o3 & E & Hk & R & Ho). destruct (Back pre k post s3 o3 E Hk R Ho) as [Q|(pre' & -> & s4 & o4 & o5 & [= <- <-] & R')]; [discriminate|].
      exists pre', k, post, s3, o5. auto.
  - split; [discriminate|]. split; [|discriminate]. split; [discriminate|]. intros (pre & k & post & s3 & o3 & E & Hk & R & Ho). destruct (Back pre k post s3 o3 E Hk R Ho) as [Q|(pre' & _ & s4 & o4 & o5 & [=] & _)]; exact Q.
  - split; [discriminate|]. split; [|discriminate]. split; [|reflexivity]. intros _. destruct (O3 eq_refl) as (k & -> & Hk & Ho). exists [], k, ds, s, []. split; [reflexivity|]. split; [exact Hk|]. split; [reflexivity|exact Ho].
  - congruence.
Qed.

(** Input: whole blocks, then a part of one. *)
Definition ts_outside (mem : list Z) (s : tsst) (input : list Z) : Prop :=
  exists ds k rest s1 o1, input = concat ds ++ ts_bytes k ++ rest /\ Forall (fun d => zlen d = 188) ds /\ ts_ok k /\
    ts_run mem s ds = (s1, o1, Ok tt) /\ overreads mem s1 k.
Lemma cut_188 : forall n (l : list Z), (length l <= n)%nat ->
  exists ds tail, l = concat ds ++ tail /\ Forall (fun d => zlen d = 188) ds /\ zlen tail < 188 /\ (length ds <= length l)%nat.
Proof.
  induction n as [|n IH]; intros l Hl.
  - destruct l; [|cbn in Hl; lia]. exists [], []. split; [reflexivity|]. split; [constructor|]. split; [reflexivity|cbn; lia].
  - destruct (Z_lt_dec (zlen l) 188) as [L|L]; [exists [], l; split; [reflexivity|]; split; [constructor|]; split; [exact L|cbn; lia]|].
    assert (Ld : zlen (drop 188 l) = zlen l - 188) by (rewrite zlen_drop by lia; lia).
    destruct (IH (drop 188 l)) as (ds & tail & E & Hd & Ht & Hn); [unfold zlen in *; lia|].
    exists (take 188 l :: ds), tail. split; [cbn [concat]; rewrite <- app_assoc, <- E; apply split_take|]. split; [constructor; [rewrite zlen_take by lia; lia|exact Hd]|].
    split; [exact Ht|]. cbn [length]. unfold zlen in *. lia.
Qed.
Lemma prefix_188 : forall (pre ds : list (list Z)) (y z tail : list Z), Forall (fun d => zlen d = 188) pre -> Forall (fun d => zlen d = 188) ds -> zlen y = 188 -> zlen tail < 188 ->
  concat ds ++ tail = concat pre ++ y ++ z -> exists post, ds = pre ++ y :: post.
Proof.
  induction pre as [|d pre IH]; intros ds y z tail Hp Hd Hy Ht E.
  - destruct ds as [|d ds]; cbn [concat app] in E. { exfalso. apply (f_equal zlen) in E. rewrite zlen_app in E. pose proof (zlen_nonneg z). lia. }
    inversion Hd as [|? ? Hl _]; subst. rewrite <- app_assoc in E. apply (f_equal (take 188)) in E. rewrite !take_app_exact in E by (symmetry; assumption). subst d. exists ds. reflexivity.
  - inversion Hp as [|? ? Hl Hp']; subst. destruct ds as [|d' ds]; cbn [concat app] in E.
    { exfalso. apply (f_equal zlen) in E. rewrite !zlen_app in E. pose proof (zlen_nonneg z). pose proof (zlen_nonneg (concat pre)). lia. }
    inversion Hd as [|? ? Hl' Hd']; subst. rewrite <- !app_assoc in E. assert (E1 := f_equal (take 188) E). rewrite !take_app_exact in E1 by (symmetry; assumption). subst d'.
    apply app_inv_head in E. destruct (IH ds y z tail Hp' Hd' Hy Ht E) as (post & ->). exists post. reflexivity.
Qed.
Lemma blocks_outside mem s ds tail : mem_ok mem -> bytes mem -> all_hold mem s -> bytes (concat ds ++ tail) -> Forall (fun d => zlen d = 188) ds -> zlen tail < 188 ->
  snd (ts_run mem s ds) <> Fuel /\ (snd (ts_run mem s ds) = UB <-> ts_outside mem s (concat ds ++ tail)) /\
  (snd (ts_run mem s ds) = Ok tt -> all_hold mem (fst (fst (ts_run mem s ds)))).
Proof.
  intros Hm Hb Hall Hi Hd Ht.
  assert (Hdb : Forall (fun d => bytes d /\ zlen d = 188) ds).
  { apply Forall_app in Hi. destruct Hi as [Hi _]. clear - Hi Hd. induction ds as [|d ds IH]; [constructor|]. inversion Hd; subst. cbn [concat] in Hi. apply Forall_app in Hi. destruct Hi.
    constructor; [split; assumption|]. apply IH; assumption. }
  destruct (session_exact mem s ds Hm Hb Hall Hdb) as (N & Iff & Ok'). split; [exact N|]. split; [|exact Ok']. rewrite Iff. unfold ts_outside. split.
  - intros (pre & k & post & s1 & o1 & -> & Hk & R & Ho). exists pre, k, (concat post ++ tail), s1, o1. apply Forall_app in Hd. destruct Hd as [Hd _].
    split; [rewrite concat_app; cbn [concat]; rewrite <- !app_assoc; reflexivity|]. auto.
  - intros (pre & k & rest & s1 & o1 & E & Hp & Hk & R & Ho). assert (Hkl : zlen (ts_bytes k) = 188) by apply Hk.
    destruct (prefix_188 pre ds (ts_bytes k) rest tail Hp Hd Hkl Ht E) as (post & ->). exists pre, k, post, s1, o1. auto.
Qed.
