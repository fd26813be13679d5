(** Property C236: every packet of an elementary stream, and exactly when a transport
    stream makes the demuxer read outside its buffers. *)
From Verif Require Import Base M_Bits M_Fields L_Align S_Fields L_Pack M_Packet M_IO S_IO M_Cache M_H264 M_AAC M_Ts S_Ts L_Ts L_Ts2 L_Ts3 L_Ts4 L_Ts5 L_TsEx S_TsMap L_TsMap S_Codec S_TsAll L_TsAll.

(** C236: a packet with payload of an elementary stream, whatever the payload.  Depending
    on the counter, the start flag and the pending unit it is refused, its bytes are added
    to the unit, or the unit goes to the codec parser and the next one begins (or the
    session ends because no unit can begin there). *)
Theorem ts_stream_packet : forall mem s k p u, mem_ok mem -> pk_fits k -> t_has k = true -> s_progs s (t_pid k) = Some (PPes p) -> holds mem p u ->
  exists s' o r, ts_decode mem s (ts_bytes k) = (s', o, r) /\
    (forall q, q <> t_pid k -> s_progs s' q = s_progs s q) /\
    map p_data o = (match r with Ok _ => [ts_bytes k] | _ => [] end) /\
    match stream_step (ps_cc p) u k with
    | Denied e => r = Err e /\ s_queue s' = s_queue s /\ s_adts s' = s_adts s
    | Kept u' => r = Ok tt /\ s_queue s' = s_queue s /\ s_adts s' = s_adts s /\ carries_on mem s' k p u'
    | Passed b =>
        let '(ps, a, q) := handed mem (ps_type p) u (s_adts s) in
        s_queue s' = s_queue s ++ ps /\ s_adts s' = a /\
        match q with
        | Ok _ => r = begun_ends b /\ forall u', b = Begun u' -> carries_on mem s' k p u'
        | e => r = e
        end
    end.
Proof. exact stream_every. Qed.
Print Assumptions ts_stream_packet.

(** C236: and a packet of the service description. *)
Theorem ts_service_packet : forall mem s k, pk_fits k -> s_progs s (t_pid k) = Some PSdt -> t_has k = true ->
  match table_of service_table (t_pusi k) (t_body k) with
  | Listed _ => exists s' o, ts_decode mem s (ts_bytes k) = (s', o, Ok tt) /\ s_queue s' = s_queue s /\ map p_data o = [ts_bytes k] /\ forall q, s_progs s' q = s_progs s q
  | Refused => exists s', ts_decode mem s (ts_bytes k) = (s', [], Err ERROR_IO_NOT_ENOUGH) /\ s_queue s' = s_queue s /\ forall q, s_progs s' q = s_progs s q
  | Overrun => snd (ts_decode mem s (ts_bytes k)) = UB
  end.
Proof.
  intros mem s k Hf Ep Hh. destruct (ts_decode_fits mem s k Hf) as (c & Ha & Hb & E). rewrite E. unfold ts_after. rewrite Ep, Hh. cbn [negb andb]. unfold ts_program.
  assert (0 <= t_pusi k <= 1) by (destruct (pusi_01 k (proj1 Hf)); lia).
  destruct (psi_service_every _ _ (t_pusi k) _ (s_progs s) Ha Hb ltac:(assumption)) as (f2 & P & R). rewrite P.
  destruct (table_of service_table (t_pusi k) (t_body k)) as [es| |]; cbn [ends].
  - rewrite (R ltac:(discriminate)). eexists _, _. split; [reflexivity|]. split; [reflexivity|]. split; [reflexivity|]. reflexivity.
  - rewrite (R ltac:(discriminate)). eexists. split; [reflexivity|]. split; reflexivity.
  - reflexivity.
Qed.
Print Assumptions ts_service_packet.

(** C236: a packet with a proper adaptation field makes the demuxer read outside exactly
    if it is a table whose lengths overrun the packet, or if it completes an AAC unit
    that ends in a broken frame.  Nothing else in it can. *)
Theorem ts_reads_outside_exactly : forall mem s k, mem_ok mem -> bytes mem -> pk_fits k -> all_hold mem s ->
  let '(s', o, r) := ts_decode mem s (ts_bytes k) in
  r <> Fuel /\ (r = UB <-> reads_outside mem s k) /\ (r = Ok tt -> all_hold mem s').
Proof. exact packet_outside. Qed.
Print Assumptions ts_reads_outside_exactly.

(** C236: any 188 bytes: refused for the sync byte, refused for an adaptation field longer
    than the packet, or a packet in the sense of S_Ts.v. *)
Theorem ts_every_block : forall mem s d, bytes d -> zlen d = 188 ->
  (nth 0 d 0 <> 0x47 /\ ts_decode mem s d = (s, [], Err ERROR_TS_PACKET_DECODE)) \/
  (nth 0 d 0 = 0x47 /\ nth 3 d 0 / 32 mod 2 = 1 /\ 183 < nth 4 d 0 /\ ts_decode mem s d = (s, [], Err ERROR_IO_NOT_ENOUGH)) \/
  (nth 0 d 0 = 0x47 /\ exists k, ts_ok k /\ d = ts_bytes k).
Proof. exact block_cases. Qed.
Print Assumptions ts_every_block.

(** C236: a whole session of arbitrary blocks.  If it ends in a read outside, the block it
    ends with has an adaptation field that does not fit, or is one of those above; and
    each of those ends it that way. *)
Theorem ts_session_outside : forall mem s ds, mem_ok mem -> bytes mem -> all_hold mem s -> Forall (fun d => bytes d /\ zlen d = 188) ds ->
  snd (ts_run mem s ds) <> Fuel /\
  (snd (ts_run mem s ds) = UB -> exists pre k post s1 o1, ds = pre ++ ts_bytes k :: post /\ ts_ok k /\ ts_run mem s pre = (s1, o1, Ok tt) /\
     ((exists a, t_af k = Some a /\ ~ af_fits a) \/ (pk_fits k /\ reads_outside mem s1 k))) /\
  (forall pre k post s1 o1, ds = pre ++ ts_bytes k :: post -> pk_fits k -> ts_run mem s pre = (s1, o1, Ok tt) -> reads_outside mem s1 k ->
     snd (ts_run mem s ds) = UB).
Proof.
  intros mem s ds Hm Hb Hall Hd. revert s Hall. induction ds as [|d ds IH]; intros s Hall.
  { split; [discriminate|]. split; [discriminate|]. intros [|? ?] k post s1 o1 E; discriminate. }
  inversion Hd as [|? ? [Hdb Hdl] Hd']; subst. specialize (IH Hd'). cbn [ts_run].
  (* what one block does *)
  assert (One : let '(s1, o, r) := ts_decode mem s d in
     r <> Fuel /\ (r = Ok tt -> all_hold mem s1) /\
     (r = UB -> exists k, d = ts_bytes k /\ ts_ok k /\ ((exists a, t_af k = Some a /\ ~ af_fits a) \/ (pk_fits k /\ reads_outside mem s k)))).
  { destruct (block_cases mem s d Hdb Hdl) as [(_ & ->)|[(_ & _ & _ & ->)|(_ & k & Hk & ->)]].
    - split; [discriminate|]. split; discriminate.
    - split; [discriminate|]. split; discriminate.
    - assert (Dec : pk_fits k \/ exists a, t_af k = Some a /\ ~ af_fits a).
      { destruct (t_af k) as [a|] eqn:Ea; [|left; split; [exact Hk|rewrite Ea; exact I]].
        assert (Da : af_fits a \/ ~ af_fits a).
        { destruct a as [|f a']; [left; exact I|]. unfold af_fits. destruct (Z_le_dec (af_fixed f) (zlen (f :: a'))) as [L|L]; [|right; tauto].
          destruct (Z.eq_dec (bit f 0) 1) as [B|B]; [|left; split; [exact L|tauto]].
          destruct (nthz (f :: a') (af_fixed f)) as [n|]; [|right; intros (_ & Q); destruct (Q B) as (n & Q' & _); discriminate].
          destruct (Z_le_dec (af_fixed f + 1 + n) (zlen (f :: a'))) as [L2|L2]; [left; split; [exact L|]; intros _; exists n; auto|].
          right. intros (_ & Q). destruct (Q B) as (n' & [= <-] & Q'). contradiction. }
        destruct Da as [Da|Da]; [left; split; [exact Hk|rewrite Ea; exact Da]|right; exists a; auto]. }
      destruct Dec as [Hf|(a & Ea & Hn)].
      + pose proof (packet_outside mem s k Hm Hb Hf Hall) as P. destruct (ts_decode mem s (ts_bytes k)) as [[s1 o] r]. destruct P as (P1 & P2 & P3).
        split; [exact P1|]. split; [exact P3|]. intros ->. exists k. split; [reflexivity|]. split; [exact Hk|]. right. split; [exact Hf|]. apply P2. reflexivity.
      + pose proof (misfit_step mem s k a Hm Hb Hall Hk Ea Hn) as P. destruct (ts_decode mem s (ts_bytes k)) as [[s1 o] r]. destruct P as (P1 & P2).
        split; [exact P1|]. split; [intros Er; destruct (P2 Er) as [-> _]; exact Hall|]. intros _. exists k. split; [reflexivity|]. split; [exact Hk|]. left. eauto. }
  assert (Back : forall pre k post s2 o2, d :: ds = pre ++ ts_bytes k :: post -> pk_fits k -> ts_run mem s pre = (s2, o2, Ok tt) -> reads_outside mem s2 k ->
     (pre = [] /\ snd (ts_decode mem s d) = UB) \/
     (exists pre', pre = d :: pre' /\ exists s1 o1 o3, ts_decode mem s d = (s1, o1, Ok tt) /\ ts_run mem s1 pre' = (s2, o3, Ok tt))).
  { intros pre k post s2 o2 E Hf R Hr. destruct pre as [|d' pre]; cbn [app] in E; injection E as Eh E.
    - left. rewrite Eh. split; [reflexivity|]. cbn [ts_run] in R. injection R as <- <-. pose proof (packet_outside mem s k Hm Hb Hf Hall) as P.
      destruct (ts_decode mem s (ts_bytes k)) as [[s1 o] r]. apply P, Hr.
    - right. subst d'. exists pre. split; [reflexivity|]. cbn [ts_run] in R. destruct (ts_decode mem s d) as [[s1 o1] r1]. destruct r1 as [[]| | |]; [|injection R; discriminate..].
      destruct (ts_run mem s1 pre) as [[s3 o3] r3] eqn:E3. injection R as -> _ ->. exists s1, o1, o3. auto. }
  destruct (ts_decode mem s d) as [[s1 o] r] eqn:Ed. destruct One as (O1 & O2 & O3). cbn [snd] in Back.
  destruct r as [[]|e| |].
  - specialize (IH s1 (O2 eq_refl)). destruct (ts_run mem s1 ds) as [[s2 o2] r2] eqn:Er. cbn [snd] in *. destruct IH as (I1 & I2 & I3).
    split; [exact I1|]. split.
    + intros E. destruct (I2 E) as (pre & k & post & s3 & o3 & -> & Hk & R & H). exists (d :: pre), k, post, s3, (o ++ o3). split; [reflexivity|]. split; [exact Hk|].
      split; [|exact H]. cbn [ts_run]. rewrite Ed, R. reflexivity.
    + intros pre k post s3 o3 E Hf R Hr. destruct (Back _ _ _ _ _ E Hf R Hr) as [(_ & K)|(pre' & -> & s1' & o1' & o3' & [= <- <-] & R')]; [discriminate|].
      cbn [app] in E. injection E as E. apply (I3 pre' k post s3 o3' E Hf R' Hr).
  - cbn [snd]. split; [discriminate|]. split; [discriminate|]. intros pre k post s3 o3 E Hf R Hr. destruct (Back _ _ _ _ _ E Hf R Hr) as [(_ & K)|(pre' & -> & s1' & o1' & o3' & K & _)]; discriminate.
  - cbn [snd]. split; [discriminate|]. split; [|reflexivity]. intros _. destruct (O3 eq_refl) as (k & -> & Hk & H). exists [], k, ds, s, []. auto.
  - congruence.
Qed.
Print Assumptions ts_session_outside.

(** The new session of the program satisfies the hypothesis; an AAC unit whose frame
    announces more bytes than there are, completed by the next start of a unit, is one of
    the cases; so are units of each kind in [stream_step]. *)
Definition ex_aac : list Z := [0; 0; 1; 0xc0; 0; 0; 0x80; 0; 0] ++ adts_header (mkframe 0 0 1 1 4 0 2 0 0 0 0 2047 0 [] []) 8191 ++ repeat 7 168.
Definition ex_akt (cc : Z) : tsp := mktsp 0 1 0 257 0 cc None true ex_aac.
Definition ex_aun : unit_in := mkun 0 (-1) (-1) (drop 9 ex_aac).
Example ts_all_cases :
  (forall mem, all_hold mem ts_new) /\ mem_ok ex_mem /\
  begin_unit ex_aac = Begun ex_aun /\ begin_unit (1 :: ex_aac) = Unprefixed /\
  begin_unit ([0; 0; 1; 0xe0; 0; 0; 0x80; 0x80; 9] ++ repeat 0 8) = Headless /\
  begin_unit ([0; 0; 1; 0xbe; 0; 3] ++ [1; 2; 3]) = Begun (mkun 3 (-1) (-1) []) /\
  begin_unit ([0; 0; 1; 0xbf; 0; 2] ++ [1; 2; 3]) = Begun (mkun 2 (-1) (-1) [1; 2]) /\
  stream_step 15 None (ex_akt 0) = Passed (Begun ex_aun) /\ stream_step 15 None (ex_akt 1) = Denied ERROR_TS_PACKET_CC_CONTINUE /\
  stream_step 0 (Some ex_aun) (mktsp 0 0 0 257 0 1 None true [5; 6]) = Kept (mkun 0 (-1) (-1) (drop 9 ex_aac ++ [5; 6])) /\
  exists s1 o1, ts_run ex_mem ex_state [ts_bytes (ex_akt 0)] = (s1, o1, Ok tt) /\ reads_outside ex_mem s1 (ex_akt 1) /\
    snd (ts_run ex_mem ex_state [ts_bytes (ex_akt 0); ts_bytes (ex_akt 1)]) = UB.
Proof.
  split. { intros mem q p. unfold ts_new, add_program. cbn [s_progs]. destruct (q =? SDT_PID); [discriminate|]. destruct (q =? PAT_PID); discriminate. }
  split; [exact ex_mem_ok|].
  do 8 (split; [vm_compute; reflexivity|]).
  assert (Hf : forall cc, cc = 0 \/ cc = 1 -> pk_fits (ex_akt cc)) by (intros cc [-> | ->]; apply pk_check; [vm_compute; reflexivity|exact I|vm_compute; reflexivity|exact I]).
  assert (Hb : bytes ex_mem) by (unfold ex_mem; apply Forall_forall; intros x Hx; apply repeat_spec in Hx; subst x; unfold byte; lia).
  assert (Hall : all_hold ex_mem ex_state).
  { intros q p. unfold ex_state, ts_new, add_program. cbn [s_progs]. destruct (q =? 256); [intros [= <-]; exists None; reflexivity|]. destruct (q =? 257); [intros [= <-]; exists None; reflexivity|].
    destruct (q =? SDT_PID); [discriminate|]. destruct (q =? PAT_PID); discriminate. }
  destruct (stream_every ex_mem ex_state (ex_akt 0) (pes_new TS_STREAM_AAC) None ex_mem_ok (Hf 0 (or_introl eq_refl)) eq_refl eq_refl eq_refl) as (s1 & o1 & r & E & _ & _ & D).
  assert (S1 : stream_step (ps_cc (pes_new TS_STREAM_AAC)) None (ex_akt 0) = Passed (Begun ex_aun)) by (vm_compute; reflexivity).
  rewrite S1 in D. cbn [handed begun_ends] in D. destruct D as (_ & _ & -> & D). destruct (D _ eq_refl) as (p' & E' & T' & C' & H').
  assert (R1 : ts_run ex_mem ex_state [ts_bytes (ex_akt 0)] = (s1, o1 ++ [], Ok tt)) by (cbn [ts_run]; rewrite E; reflexivity).
  assert (Ro : reads_outside ex_mem s1 (ex_akt 1)).
  { unfold reads_outside. change (t_pid (ex_akt 1)) with (t_pid (ex_akt 0)). rewrite E'. split; [reflexivity|]. split; [exact T'|]. exists ex_aun, (Begun ex_aun).
    split; [exact H'|]. split; [rewrite C'; vm_compute; reflexivity|]. exists [], (drop 9 ex_aac). split; [reflexivity|]. split; [constructor|].
    exists (mkframe 0 0 1 1 4 0 2 0 0 0 0 2047 0 [] []), 8191, (repeat 7 168). split; [split; [vm_compute; reflexivity|split; constructor]|]. split; [vm_compute; reflexivity|].
    right. split; [lia|]. right. vm_compute. reflexivity. }
  exists s1, (o1 ++ []). split; [exact R1|]. split; [exact Ro|].
  assert (Hd : Forall (fun d => bytes d /\ zlen d = 188) [ts_bytes (ex_akt 0); ts_bytes (ex_akt 1)]).
  { constructor; [|constructor; [|constructor]]; apply Hf; auto. }
  destruct (ts_session_outside ex_mem ex_state _ ex_mem_ok Hb Hall Hd) as (_ & _ & B).
  apply (B [ts_bytes (ex_akt 0)] (ex_akt 1) [] s1 (o1 ++ []) eq_refl (Hf 1 (or_intror eq_refl)) R1 Ro).
Qed.
