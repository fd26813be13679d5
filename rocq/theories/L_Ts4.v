(** TS lemmas: steps and runs of the demultiplexer. *)
From Verif Require Import Base M_Bits S_Bits L_Bits M_Fields L_Align S_Fields L_Pack M_Packet M_Cache L_Cache
  M_H264 M_AAC L_Rtp M_Ts S_Ts L_Ts L_Ts2 L_Ts3.

Lemma pusi_01 k : ts_ok k -> t_pusi k = 0 \/ t_pusi k = 1.
Proof.
  intros (H & _). unfold fields_fit, t_fields in H. cbn [forallb fst snd] in H.
  change (2 ^ 1) with 2 in H. lia.
Qed.
Lemma afc_has k : (Z.land (t_afc k) 1 =? 0) = negb (t_has k).
Proof. unfold t_afc. destruct (t_af k), (t_has k); reflexivity. Qed.

Definition ts_program (mem : list Z) (s : tsst) (k : tsp) (c : bitctx) (pr : prog) : tsst * res unit :=
  match pr with
  | PPes p =>
      let '(s1, p1, r) := pes_decode mem s p (t_hdr k) c in
      (set_progs s1 (add_program (s_progs s1) (t_pid k) (PPes p1)), r)
  | _ => let '(f, r) := psi_decode pr (t_pusi k) (s_progs s) c in (set_progs s f, r)
  end.
Definition ts_after (mem : list Z) (s : tsst) (k : tsp) (c : bitctx) : tsst * list pkt * res unit :=
  match s_progs s (t_pid k) with
  | None => (s, [], Ok tt)
  | Some pr =>
      if negb (t_has k) && negb (is_section pr) then (s, [], Ok tt)
      else
        let '(s', r) := ts_program mem s k c pr in
        match r with
        | Ok _ => (s', [ts_on_packet (prog_type pr) (t_pusi k) (ts_bytes k)], Ok tt)
        | e => (s', [], e)
        end
  end.
Lemma ts_decode_ctx mem s k c : tsp_decode (bc_init (ts_bytes k)) = Ok (t_hdr k, c) ->
  ts_decode mem s (ts_bytes k) = ts_after mem s k c.
Proof.
  intros E. unfold ts_decode, ts_after. rewrite E. cbn [t_hdr th_pid th_afc th_pusi]. rewrite afc_has.
  destruct (s_progs s (t_pid k)) as [pr|]; [|reflexivity]. destruct (_ && _); [reflexivity|].
  unfold ts_program. destruct pr; reflexivity.
Qed.
Lemma ts_decode_fits mem s k : pk_fits k -> exists c, al (ts_bytes k) c (t_body k) /\ zlen (ts_bytes k) <= 188 /\
  ts_decode mem s (ts_bytes k) = ts_after mem s k c.
Proof.
  intros H. destruct (tsp_decode_fits k H) as (c & E & Ha). exists c. split; [exact Ha|].
  split; [destruct H as ((_ & _ & L) & _); lia|]. apply ts_decode_ctx, E.
Qed.
(** A packet that is accepted was decoded with its own header. *)
Lemma ts_decode_any mem s k : ts_ok k ->
  (exists c, ts_decode mem s (ts_bytes k) = ts_after mem s k c) \/
  (exists e, ts_decode mem s (ts_bytes k) = (s, [], e) /\ e <> Ok tt).
Proof.
  intros H. destruct (tsp_decode_head k H) as (c & _ & E). destruct (t_af k).
  - destruct (af_decode c) as [c'|x| |]; cbn [bind] in E.
    + left. exists c'. apply ts_decode_ctx, E.
    + right. unfold ts_decode. rewrite E. eexists. split; [reflexivity|discriminate].
    + right. unfold ts_decode. rewrite E. eexists. split; [reflexivity|discriminate].
    + right. unfold ts_decode. rewrite E. eexists. split; [reflexivity|discriminate].
  - left. exists c. apply ts_decode_ctx, E.
Qed.

(** ** Frame *)
Lemma program_keeps mem s k c pr q x : s_progs s (t_pid k) = Some pr -> s_progs s q = Some x ->
  (q <> t_pid k \/ is_section pr = true \/ pr = PSdt) ->
  s_progs (fst (ts_program mem s k c pr)) q = Some x \/ s_progs (fst (ts_program mem s k c pr)) q = Some PPmt.
Proof.
  intros Epr Ex Hq. unfold ts_program. destruct pr as [| | |p].
  1-3: pose proof (psi_decode_keeps) as K;
    match goal with |- context [psi_decode ?t ?u ?f ?c] => specialize (K t u f c); destruct (psi_decode t u f c) as [f' r] end;
    exact (K _ _ Ex).
  destruct Hq as [Hq|[Hq|Hq]]; [|discriminate|discriminate].
  pose proof (decode_progs mem s p (t_hdr k) c) as D. destruct (pes_decode mem s p (t_hdr k) c) as [[s1 p1] r]. cbn [fst] in *.
  unfold set_progs; cbn [s_progs]. rewrite add_other by assumption. rewrite D. auto.
Qed.
Lemma after_keeps mem s k c q x : s_progs s q = Some x -> q <> t_pid k ->
  s_progs (fst (fst (ts_after mem s k c))) q = Some x \/ s_progs (fst (fst (ts_after mem s k c))) q = Some PPmt.
Proof.
  intros Ex Hq. unfold ts_after. destruct (s_progs s (t_pid k)) as [pr|] eqn:Epr; [|cbn; auto].
  destruct (_ && _); [cbn; auto|].
  pose proof (program_keeps mem s k c pr q x Epr Ex (or_introl Hq)) as K. destruct (ts_program mem s k c pr) as [s' r].
  cbn [fst] in K. destruct r; exact K.
Qed.
Lemma decode_keeps mem s k q x : ts_ok k -> s_progs s q = Some x -> q <> t_pid k ->
  s_progs (fst (fst (ts_decode mem s (ts_bytes k)))) q = Some x \/ s_progs (fst (fst (ts_decode mem s (ts_bytes k)))) q = Some PPmt.
Proof.
  intros Hk Ex Hq. destruct (ts_decode_any mem s k Hk) as [(c & ->)|(e & -> & _)]; [apply after_keeps; assumption|cbn; auto].
Qed.
(** A program map stays one. *)
Lemma decode_pmt mem s k q : ts_ok k -> s_progs s q = Some PPmt -> s_progs (fst (fst (ts_decode mem s (ts_bytes k)))) q = Some PPmt.
Proof.
  intros Hk Ex. destruct (ts_decode_any mem s k Hk) as [(c & ->)|(e & -> & _)]; [|exact Ex].
  unfold ts_after. destruct (s_progs s (t_pid k)) as [pr|] eqn:Epr; [|exact Ex].
  destruct (_ && _); [exact Ex|].
  assert (K : s_progs (fst (ts_program mem s k c pr)) q = Some PPmt).
  { destruct (Z.eq_dec q (t_pid k)) as [->|N].
    - destruct (program_keeps mem s k c pr (t_pid k) PPmt Epr Ex) as [K|K]; [|exact K|exact K].
      right. rewrite Ex in Epr. injection Epr as <-. auto.
    - destruct (program_keeps mem s k c pr q PPmt Epr Ex (or_introl N)); assumption. }
  destruct (ts_program mem s k c pr) as [s' r]. destruct r; exact K.
Qed.
Lemma run_pmt mem l : forall s q, Forall ts_ok l -> s_progs s q = Some PPmt ->
  s_progs (fst (fst (ts_run mem s (map ts_bytes l)))) q = Some PPmt.
Proof.
  induction l as [|k l IH]; intros s q Hl E; [exact E|]. inversion Hl as [|? ? Hk Hl']; subst. cbn [map ts_run].
  pose proof (decode_pmt mem s k q Hk E) as K. destruct (ts_decode mem s (ts_bytes k)) as [[s1 o] r]. cbn [fst] in K.
  specialize (IH s1 q Hl' K). destruct r; try exact K. destruct (ts_run mem s1 (map ts_bytes l)) as [[s2 o2] r2]. exact IH.
Qed.

(** ** One packet of an elementary stream *)
Lemma after_pes mem s k c p : s_progs s (t_pid k) = Some (PPes p) -> t_has k = true ->
  ts_after mem s k c =
    let '(s1, p1, r) := pes_decode mem s p (t_hdr k) c in
    let s' := set_progs s1 (add_program (s_progs s1) (t_pid k) (PPes p1)) in
    match r with
    | Ok _ => (s', [ts_on_packet TS_PROGRAM_PES (t_pusi k) (ts_bytes k)], Ok tt)
    | e => (s', [], e)
    end.
Proof.
  intros Ep Hh. unfold ts_after. rewrite Ep, Hh. cbn [negb andb]. unfold ts_program.
  destruct (pes_decode mem s p (t_hdr k) c) as [[s1 p1] r]. reflexivity.
Qed.
Lemma land_next cc : Z.land (cc + 1) 0x0f = next_cc cc.
Proof. unfold next_cc. change 15 with (Z.ones 4). rewrite Z.land_ones by lia. reflexivity. Qed.

Lemma clip_clip len a b : clip_len len (clip_len len a ++ b) = clip_len len (a ++ b).
Proof.
  unfold clip_len. destruct (Z.eqb_spec len 0); [reflexivity|].
  destruct (Z_le_dec len 0).
  { unfold take. replace (Z.to_nat len) with 0%nat by lia. reflexivity. }
  destruct (Z_le_dec (zlen a) len).
  - rewrite (take_all len a) by lia. reflexivity.
  - rewrite !take_app_le by (try rewrite zlen_take by lia; lia). rewrite take_take by lia. f_equal. lia.
Qed.

(** A packet inside a unit. *)
Lemma step_middle mem s k s' o pid p p' len pts dts es : mem_ok mem -> ts_ok k ->
  (t_pid k = pid -> t_has k = true -> t_pusi k = 0 /\ pk_fits k) ->
  ts_decode mem s (ts_bytes k) = (s', o, Ok tt) ->
  s_progs s pid = Some (PPes p) -> pending mem p len pts dts (clip_len len es) ->
  s_progs s' pid = Some (PPes p') ->
  pending mem p' len pts dts (clip_len len (es ++ payloads pid [k])) /\ ps_type p' = ps_type p.
Proof.
  intros Hm Hk Hmid E Ep Hp Ep'. unfold payloads. cbn [flat_map]. rewrite app_nil_r.
  destruct (Z.eqb_spec (t_pid k) pid) as [Epid|Npid]; cbn [andb].
  2:{ rewrite app_nil_r. destruct (decode_keeps mem s k pid _ Hk Ep ltac:(congruence)) as [K|K]; rewrite E in K; cbn [fst] in K; [|congruence].
      assert (p' = p) by congruence. subst. auto. }
  destruct (t_has k) eqn:Hh.
  - destruct (Hmid Epid eq_refl) as (Hu & Hf). destruct (ts_decode_fits mem s k Hf) as (c & Ha & Hb & E').
    rewrite E' in E. rewrite <- Epid in *. rewrite (after_pes _ _ _ _ _ Ep Hh) in E. unfold pes_decode in E.
    cbn [t_hdr th_pusi th_cc] in E. rewrite Hu in E. cbn [Z.eqb andb] in E.
    assert (Hbuf : exists b, ps_buf p = Some b) by (destruct Hp as (_ & _ & _ & _ & _ & Hp); eauto).
    destruct Hbuf as (b & Eb). rewrite Eb in E. cbn [negb] in E.
    destruct (t_cc k =? Z.land (ps_cc p + 1) 15); cbn [negb] in E; [|discriminate].
    pose proof (pending_cc _ _ _ _ _ (t_cc k) _ Hp) as Hp1.
    destruct (dump_ok _ _ _ _ _ _ _ _ _ Hm Hp1 Ha Hb) as [(_ & Ed)|(_ & p2 & Ed & Hp2 & T2 & _)]; rewrite Ed in E; [discriminate|].
    injection E as <- <-. unfold set_progs in Ep'; cbn [s_progs] in Ep'. rewrite add_same in Ep'. injection Ep' as <-.
    rewrite clip_clip in Hp2. auto.
  - rewrite app_nil_r.
    destruct (ts_decode_any mem s k Hk) as [(c & E')|(e & E' & Ne)]; rewrite E' in E; [|congruence].
    unfold ts_after in E. rewrite Epid, Ep, Hh in E. cbn [negb andb is_section prog_type] in E.
    change ((TS_PROGRAM_PES =? TS_PROGRAM_PAT) || (TS_PROGRAM_PES =? TS_PROGRAM_PMT)) with false in E. cbn [negb] in E.
    injection E as <- <-. assert (p' = p) by congruence. subst. auto.
Qed.
Lemma run_middle mem pid len pts dts l : forall s s' o p p' es, mem_ok mem -> Forall ts_ok l ->
  (forall k, In k l -> t_pid k = pid -> t_has k = true -> t_pusi k = 0 /\ pk_fits k) ->
  ts_run mem s (map ts_bytes l) = (s', o, Ok tt) ->
  s_progs s pid = Some (PPes p) -> pending mem p len pts dts (clip_len len es) ->
  s_progs s' pid = Some (PPes p') ->
  pending mem p' len pts dts (clip_len len (es ++ payloads pid l)) /\ ps_type p' = ps_type p.
Proof.
  induction l as [|k l IH]; intros s s' o p p' es Hm Hl Hmid E Ep Hp Ep'.
  - cbn [map ts_run] in E. injection E as <- <-. assert (p' = p) by congruence. subst. cbn. rewrite app_nil_r. auto.
  - inversion Hl as [|? ? Hk Hl']; subst. cbn [map ts_run] in E.
    destruct (ts_decode mem s (ts_bytes k)) as [[s1 o1] r1] eqn:E1. destruct r1 as [[]|e| |]; try discriminate.
    destruct (ts_run mem s1 (map ts_bytes l)) as [[s2 o2] r2] eqn:E2. injection E as <- <- ->.
    assert (exists p1, s_progs s1 pid = Some (PPes p1)) as (p1 & Ep1).
    { assert (NP : s_progs s1 pid <> Some PPmt).
      { intros K. pose proof (run_pmt mem l s1 pid Hl' K) as K2. rewrite E2 in K2. cbn [fst] in K2. congruence. }
      destruct (Z.eq_dec (t_pid k) pid) as [Epid|Npid].
      - destruct (ts_decode_any mem s k Hk) as [(c & E')|(e & E' & Ne)]; rewrite E' in E1; [|congruence].
        unfold ts_after in E1. rewrite Epid, Ep in E1. destruct (_ && _).
        { injection E1 as <- <-. eauto. }
        unfold ts_program in E1. rewrite Epid in E1.
        destruct (pes_decode mem s p (t_hdr k) c) as [[sx px] rx]. destruct rx as [[]|e| |]; try discriminate.
        injection E1 as <- <-. exists px. unfold set_progs; cbn [s_progs]. apply add_same.
      - destruct (decode_keeps mem s k pid _ Hk Ep ltac:(congruence)) as [K|K]; rewrite E1 in K; cbn [fst] in K; [eauto|congruence]. }
    destruct (step_middle _ _ _ _ _ _ _ _ _ _ _ _ Hm Hk (Hmid k (or_introl eq_refl)) E1 Ep Hp Ep1) as (Hp1 & T1).
    destruct (IH s1 s2 o2 p1 p' (es ++ payloads pid [k]) Hm Hl' ltac:(intros; apply Hmid; [right; assumption|assumption|assumption]) E2 Ep1 Hp1 Ep') as (Hp2 & T2).
    split; [|congruence]. unfold payloads in *. cbn [flat_map] in *. rewrite app_nil_r in Hp2. rewrite <- app_assoc in Hp2. exact Hp2.
Qed.

(** A unit start. *)
Lemma step_start mem s k s' o p u d0 : mem_ok mem -> pk_fits k -> t_has k = true -> t_pusi k = 1 ->
  t_body k = pes_head u ++ d0 -> pu_ok u ->
  ts_decode mem s (ts_bytes k) = (s', o, Ok tt) -> s_progs s (t_pid k) = Some (PPes p) ->
  exists p', s_progs s' (t_pid k) = Some (PPes p') /\ ps_type p' = ps_type p /\ ps_cc p' = t_cc k /\
    pending mem p' (pu_len u) (pu_pts u) (pu_dts u) (clip_len (pu_len u) d0).
Proof.
  intros Hm Hf Hh Hu Eb Hpu E Ep. destruct (ts_decode_fits mem s k Hf) as (c & Ha & Hb & E'). rewrite E' in E.
  rewrite (after_pes _ _ _ _ _ Ep Hh) in E. unfold pes_decode in E. cbn [t_hdr th_pusi th_cc] in E. rewrite Hu in E.
  cbn [Z.eqb andb] in E. destruct (negb _) in E; [discriminate|].
  rewrite Eb in Ha. destruct (start_ok mem s (set_cc p (t_cc k)) u d0 _ c Hm Ha Hb Hpu) as (p' & (Hp & T & C) & Es).
  rewrite Es in E. destruct (snd (pes_flush s (set_cc p (t_cc k)))); try discriminate.
  injection E as <- <-. exists p'. unfold set_progs; cbn [s_progs]. rewrite add_same. auto.
Qed.
(** A unit start hands over the unit before it. *)
Lemma step_flush mem s k s' o p len pts dts es : mem_ok mem -> pk_fits k -> t_has k = true -> t_pusi k = 1 ->
  ts_decode mem s (ts_bytes k) = (s', o, Ok tt) -> s_progs s (t_pid k) = Some (PPes p) -> pending mem p len pts dts es ->
  unit_done (ps_type p) len pts dts mem es s s' (Ok tt).
Proof.
  intros Hm Hf Hh Hu E Ep Hp. destruct (ts_decode_fits mem s k Hf) as (c & Ha & Hb & E'). rewrite E' in E.
  rewrite (after_pes _ _ _ _ _ Ep Hh) in E. unfold pes_decode in E. cbn [t_hdr th_pusi th_cc] in E. rewrite Hu in E.
  cbn [Z.eqb andb] in E. destruct (negb _) in E; [discriminate|].
  unfold pes_start in E. destruct (bc_acquire c 9); try discriminate.
  destruct (flush_ok mem s (set_cc p (t_cc k)) len pts dts es Hm (pending_cc _ _ _ _ _ _ _ Hp)) as (s1 & r & Ef & _ & D).
  rewrite Ef in E. destruct r as [[]|e| |]; try discriminate.
  assert (Q : s_queue s' = s_queue s1 /\ s_adts s' = s_adts s1).
  { destruct (read_fields c [24; 8; 16]) as [[v c1]| | |]; try discriminate.
    destruct (negb (fld v 0 =? 1)); [discriminate|].
    destruct (fld v 1 =? 0xbe). { injection E as <- <-. auto. }
    destruct (plain_sid (fld v 1)).
    { destruct (pes_dump _ c1) as [p3 r3]. destruct r3; try discriminate. injection E as <- <-. auto. }
    destruct (pes_header c1) as [ts r2]. destruct r2 as [c2| | |]; try discriminate.
    destruct (pes_dump _ c2) as [p3 r3]. destruct r3; try discriminate. injection E as <- <-. auto. }
  destruct Q as [Q1 Q2]. unfold unit_done in D |- *. rewrite Q1, Q2. exact D.
Qed.
