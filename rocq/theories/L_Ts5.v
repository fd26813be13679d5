(** TS lemmas: program tables, continuity, forwarding, input chunking. *)
From Verif Require Import Base M_Bits S_Bits L_Bits M_Fields L_Align S_Fields L_Pack M_Packet M_IO S_IO L_IO M_Cache L_Cache
  M_H264 M_AAC L_Rtp M_Ts S_Ts L_Ts L_Ts2 L_Ts3 L_Ts4.

(** ** Program tables *)
Lemma al_packed buf c fs k rest : al buf c (be k (pack fs) ++ rest) -> widths_ok (map snd fs) = true ->
  fields_fit fs = true -> zsum (map snd fs) = 8 * Z.of_nat k ->
  exists c', read_fields c (map snd fs) = Ok (map fst fs, c') /\ al buf c' rest.
Proof.
  intros Ha Hw Hf Hs. pose proof (zlen_nonneg rest).
  destruct (al_fields _ _ _ (map snd fs) (Z.of_nat k) Ha Hw Hs) as (c' & E & Ha'); [rewrite zlen_app, zlen_be; lia|].
  rewrite (fields_packed k fs rest) in E by assumption. rewrite drop_app_exact in Ha' by (rewrite zlen_be; reflexivity).
  eauto.
Qed.
Definition pat_ok (es : list (Z * Z)) : Prop := Forall (fun e => 0 <= fst e < 65536 /\ 0 <= snd e < 8192) es.
Lemma zlen_pat es : zlen (pat_tbl es) = 4 * zlen es.
Proof.
  induction es as [|e es IH]; [reflexivity|]. unfold pat_tbl in *. cbn [flat_map]. rewrite zlen_app, zlen_be, zlen_cons. lia.
Qed.
Lemma pat_loop_ok buf es : forall fuel c rest, al buf c (pat_tbl es ++ rest) -> pat_ok es -> (length es <= fuel)%nat ->
  exists c', pat_loop fuel c (4 * zlen es) = Ok (map snd es, c') /\ al buf c' rest.
Proof.
  induction es as [|e es IH]; intros fuel c rest Ha Hok Hf.
  - exists c. split; [|exact Ha]. destruct fuel; reflexivity.
  - inversion Hok as [|? ? [H1 H2] Hok']; subst. cbn [length] in Hf. destruct fuel as [|fuel]; [lia|].
    cbn [pat_loop]. pose proof (zlen_nonneg es). rewrite zlen_cons.
    destruct (Z.leb_spec (4 * (1 + zlen es)) 0); [lia|].
    unfold pat_tbl in Ha. cbn [flat_map] in Ha. rewrite <- app_assoc in Ha.
    destruct (al_packed _ _ _ _ _ Ha) as (c1 & E1 & Ha1).
    { reflexivity. }
    { unfold fields_fit. cbn [forallb fst snd]. change (2 ^ 16) with 65536. change (2 ^ 13) with 8192. lia. }
    { reflexivity. }
    cbn [map fst snd] in E1. rewrite E1. cbn [bind fst snd]. unfold fld; cbn [nth].
    destruct (IH fuel c1 rest Ha1 Hok' ltac:(lia)) as (c2 & E2 & Ha2).
    replace (4 * (1 + zlen es) - 4) with (4 * zlen es) by lia. rewrite E2. cbn [bind fst snd map]. eauto.
Qed.

(** The section header. *)
Definition sec_ok (tid extid ver num last : Z) : Prop :=
  byte tid /\ 0 <= extid < 65536 /\ 0 <= ver < 32 /\ byte num /\ byte last.
Lemma psi_section tbl buf c start tid extid ver num last T crc rest f :
  al buf c (section start tid extid ver num last T crc rest) -> zlen buf <= 188 -> sec_ok tid extid ver num last -> zlen crc = 4 ->
  exists c1, al buf c1 (T ++ crc ++ rest) /\
    psi_decode tbl (if start : bool then 1 else 0) f c =
    let '(f', c2, r) :=
        match tbl with
        | PPat => pat_decode (5 + zlen T + 4) f c1
        | PPmt => pmt_decode (5 + zlen T + 4) f c1
        | _ => sdt_decode f c1
        end in
      match r with
      | UB => (f', UB)
      | Fuel => (f', Fuel)
      | _ => match read_bits c2 32 with
             | Ok _ => (f', r)
             | e => (f', recast e)
             end
      end.
Proof.
  intros Ha Hb (H1 & H2 & H3 & H4 & H5) Hc. unfold byte in *. unfold psi_decode. pose proof (al_le _ _ _ Ha) as Hle. unfold section in Ha, Hle.
  pose proof (zlen_nonneg T). pose proof (zlen_nonneg rest).
  rewrite !zlen_app, zlen_be, Hc in Hle.
  rewrite (al_acquire_ok _ _ _ 8 Ha) by (try (rewrite !zlen_app, zlen_be; pose proof (zlen_nonneg (if start then [0] else [])); lia); lia).
  cbn [bind].
  assert (exists c0, (if (if start then 1 else 0) =? 1 then let? r := read_bits c 8 in Ok (snd r) else Ok c) = Ok c0 /\
    al buf c0 (be 8 (pack [(tid, 8); (1, 1); (0, 1); (3, 2); (5 + zlen T + 4, 12); (extid, 16); (3, 2); (ver, 5); (1, 1);
              (num, 8); (last, 8)]) ++ T ++ crc ++ rest)) as (c0 & E0 & Ha0).
  { destruct start; cbn [Z.eqb Pos.eqb].
    - destruct (al_bits _ _ _ 8 1 Ha) as (c0 & E & Ha0); [lia|lia|rewrite zlen_app; change (zlen [0]) with 1; match goal with |- context [zlen (?a ++ ?b)] => pose proof (zlen_nonneg (a ++ b)) end; lia|].
      rewrite E. cbn [bind snd]. rewrite (drop_app_exact _ [0]) in Ha0 by reflexivity. eauto.
    - eauto. }
  rewrite E0. cbn [bind].
  destruct (al_packed _ _ _ _ _ Ha0) as (c1 & E1 & Ha1).
  { reflexivity. }
  { unfold fields_fit. cbn [forallb fst snd]. change (2 ^ 8) with 256. change (2 ^ 16) with 65536. change (2 ^ 12) with 4096.
    change (2 ^ 5) with 32. change (2 ^ 1) with 2. change (2 ^ 2) with 4. pose proof (zlen_nonneg (if start then [0] else [])); lia. }
  { reflexivity. }
  cbn [map fst snd] in E1. rewrite E1. exists c1. split; [exact Ha1|]. unfold fld; cbn [nth]. reflexivity.
Qed.
Lemma crc_ok buf c crc rest : al buf c (crc ++ rest) -> zlen crc = 4 -> exists x, read_bits c 32 = Ok x.
Proof.
  intros Ha Hc. pose proof (zlen_nonneg rest).
  destruct (al_bits _ _ _ 32 4 Ha) as (c0 & E & _); [lia|lia|rewrite zlen_app; lia|]. eauto.
Qed.
Lemma psi_pat buf c start tid extid ver num last es crc rest f :
  al buf c (section start tid extid ver num last (pat_tbl es) crc rest) -> zlen buf <= 188 -> sec_ok tid extid ver num last -> zlen crc = 4 ->
  pat_ok es ->
  psi_decode PPat (if start : bool then 1 else 0) f c = (fold_left (fun f pid => add_program f pid PPmt) (map snd es) f, Ok tt).
Proof.
  intros Ha Hb Hs Hc Hok. destruct (psi_section PPat _ _ _ _ _ _ _ _ _ _ _ f Ha Hb Hs Hc) as (c1 & Ha1 & E). rewrite E.
  unfold pat_decode. rewrite zlen_pat. replace (5 + 4 * zlen es + 4 - 5 - 4) with (4 * zlen es) by lia.
  pose proof (al_le _ _ _ Ha1) as Hle. rewrite !zlen_app, zlen_pat in Hle. pose proof (zlen_nonneg es). pose proof (zlen_nonneg rest).
  assert (exists c2, (if 0 <? 4 * zlen es then let? _ := bc_acquire c1 (4 * zlen es) in pat_loop (Z.to_nat (4 * zlen es)) c1 (4 * zlen es) else Ok ([], c1)) =
    Ok (map snd es, c2) /\ al buf c2 (crc ++ rest)) as (c2 & E2 & Ha2).
  { destruct (Z.ltb_spec 0 (4 * zlen es)).
    - rewrite (al_acquire_ok _ _ _ (4 * zlen es) Ha1) by (try rewrite !zlen_app, zlen_pat; lia). cbn [bind].
      apply pat_loop_ok; try assumption. unfold zlen in *. lia.
    - destruct es; [|rewrite zlen_cons in *; pose proof (zlen_nonneg es); lia]. exists c1. split; [reflexivity|exact Ha1]. }
  rewrite E2. destruct (crc_ok _ _ _ _ Ha2 Hc) as (x & ->). reflexivity.
Qed.

Definition pmt_ok (es : list (Z * Z * list Z)) : Prop :=
  Forall (fun e => byte (fst (fst e)) /\ 0 <= snd (fst e) < 8192 /\ zlen (snd e) < 4096) es.
Lemma zlen_pmt_entry e : zlen (pmt_entry e) = 5 + zlen (snd e).
Proof. unfold pmt_entry. rewrite zlen_app, zlen_be. lia. Qed.
Lemma zlen_pmt_entries es : 5 * zlen es <= zlen (flat_map pmt_entry es).
Proof.
  induction es as [|e es IH]; [cbn; lia|]. cbn [flat_map]. rewrite zlen_app, zlen_cons, zlen_pmt_entry. pose proof (zlen_nonneg (snd e)). lia.
Qed.
Lemma al_bc_get buf c d rest : al buf c (d ++ rest) -> zlen buf <= 188 -> exists c', bc_get c (zlen d) = Ok (d, c') /\ al buf c' rest.
Proof.
  intros Ha Hb. pose proof (al_le _ _ _ Ha) as Hle. rewrite zlen_app in Hle. pose proof (zlen_nonneg d). pose proof (zlen_nonneg rest).
  unfold bc_get. rewrite (al_acquire_ok _ _ _ (zlen d) Ha) by (try rewrite zlen_app; lia). cbn [bind].
  rewrite (al_peek _ _ _ (zlen d) Ha) by (rewrite zlen_app; lia). cbn [bind].
  destruct (al_skip _ _ _ (zlen d) Ha) as (c' & E & Ha'); [rewrite zlen_app; lia|]. rewrite E. cbn [bind].
  rewrite take_app_exact by reflexivity. rewrite drop_app_exact in Ha' by reflexivity. eauto.
Qed.
Lemma get_pos buf c d rest : al buf c (d ++ rest) -> zlen buf <= 188 ->
  exists c', (if 0 <? zlen d then let? r := bc_get c (zlen d) in Ok (snd r) else Ok c) = Ok c' /\ al buf c' rest.
Proof.
  intros Ha Hb. destruct (Z.ltb_spec 0 (zlen d)).
  - destruct (al_bc_get _ _ _ _ Ha Hb) as (c' & E & Ha'). rewrite E. cbn [bind snd]. eauto.
  - exists c. split; [reflexivity|]. destruct d; [exact Ha|]. rewrite zlen_cons in H. pose proof (zlen_nonneg d). lia.
Qed.
Lemma pmt_loop_ok buf es : forall fuel c rest, al buf c (flat_map pmt_entry es ++ rest) -> zlen buf <= 188 -> pmt_ok es -> (length es <= fuel)%nat ->
  exists c', pmt_loop fuel c (zlen (flat_map pmt_entry es)) = (Ok (map fst es), c') /\ al buf c' rest.
Proof.
  induction es as [|e es IH]; intros fuel c rest Ha Hb Hok Hf.
  - exists c. split; [|exact Ha]. destruct fuel; reflexivity.
  - inversion Hok as [|? ? (H1 & H2 & H3) Hok']; subst. cbn [length] in Hf. destruct fuel as [|fuel]; [lia|].
    cbn [pmt_loop]. cbn [flat_map] in *. rewrite zlen_app, zlen_pmt_entry.
    pose proof (zlen_nonneg (snd e)). pose proof (zlen_nonneg (flat_map pmt_entry es)).
    destruct (Z.leb_spec (5 + zlen (snd e) + zlen (flat_map pmt_entry es)) 0); [lia|].
    unfold pmt_entry at 1 in Ha. rewrite <- !app_assoc in Ha. unfold byte in H1.
    destruct (al_packed _ _ _ _ _ Ha) as (c1 & E1 & Ha1).
    { reflexivity. }
    { unfold fields_fit. cbn [forallb fst snd]. change (2 ^ 8) with 256. change (2 ^ 13) with 8192. change (2 ^ 12) with 4096.
      change (2 ^ 3) with 8. change (2 ^ 4) with 16. lia. }
    { reflexivity. }
    cbn [map fst snd] in E1. rewrite E1. unfold fld; cbn [nth].
    destruct (get_pos _ _ _ _ Ha1 Hb) as (c2 & E2 & Ha2). rewrite E2.
    destruct (IH fuel c2 rest Ha2 Hb Hok' ltac:(lia)) as (c3 & E3 & Ha3).
    replace (5 + zlen (snd e) + zlen (flat_map pmt_entry es) - (5 + zlen (snd e))) with (zlen (flat_map pmt_entry es)) by lia.
    rewrite E3. cbn [map]. destruct e as [[a b] d]. cbn [fst snd]. eauto.
Qed.
Lemma psi_pmt buf c start tid extid ver num last pcr desc es crc rest f :
  al buf c (section start tid extid ver num last (pmt_tbl pcr desc es) crc rest) -> zlen buf <= 188 -> sec_ok tid extid ver num last -> zlen crc = 4 ->
  0 <= pcr < 8192 -> pmt_ok es ->
  psi_decode PPmt (if start : bool then 1 else 0) f c = (fold_left pmt_add (map fst es) f, Ok tt).
Proof.
  intros Ha Hb Hs Hc Hpcr Hok. destruct (psi_section PPmt _ _ _ _ _ _ _ _ _ _ _ f Ha Hb Hs Hc) as (c1 & Ha1 & E). rewrite E.
  unfold pmt_decode. pose proof (al_le _ _ _ Ha1) as Hle. unfold pmt_tbl in Ha1, Hle. rewrite !zlen_app, zlen_be in Hle.
  pose proof (zlen_nonneg desc). pose proof (zlen_nonneg (flat_map pmt_entry es)). pose proof (zlen_nonneg rest).
  rewrite (al_acquire_ok _ _ _ 4 Ha1) by (try rewrite !zlen_app, zlen_be; lia). cbn [bind].
  rewrite <- !app_assoc in Ha1.
  destruct (al_packed _ _ _ _ _ Ha1) as (c2 & E2 & Ha2).
  { reflexivity. }
  { unfold fields_fit. cbn [forallb fst snd]. change (2 ^ 10) with 1024. change (2 ^ 13) with 8192. change (2 ^ 2) with 4.
      change (2 ^ 3) with 8. change (2 ^ 4) with 16. lia. }
  { reflexivity. }
  cbn [map fst snd] in E2. rewrite E2. unfold fld; cbn [nth].
  destruct (get_pos _ _ _ _ Ha2 Hb) as (c3 & E3 & Ha3). rewrite E3.
  unfold pmt_tbl. rewrite !zlen_app, zlen_be.
  replace (5 + (Z.of_nat 4 + (zlen desc + zlen (flat_map pmt_entry es))) + 4 - 5 - 4 - zlen desc - 4) with (zlen (flat_map pmt_entry es)) by lia.
  destruct (pmt_loop_ok _ _ (Z.to_nat (zlen (flat_map pmt_entry es))) _ _ Ha3 Hb Hok) as (c4 & E4 & Ha4).
  { pose proof (zlen_pmt_entries es). unfold zlen in *. lia. }
  rewrite E4. destruct (crc_ok _ _ _ _ Ha4 Hc) as (x & ->). reflexivity.
Qed.

(** What the tables say about a pid. *)
Lemma pat_lookup pids : forall f q, fold_left (fun f pid => add_program f pid PPmt) pids f q =
  if existsb (Z.eqb q) pids then Some PPmt else f q.
Proof.
  induction pids as [|x pids IH]; intros f q; [reflexivity|]. cbn [fold_left existsb]. rewrite IH.
  unfold add_program. destruct (q =? x); cbn [orb]; destruct (existsb _ _); reflexivity.
Qed.
Definition supported (tp : Z) : bool := (tp =? TS_STREAM_AAC) || (tp =? TS_STREAM_H264) || (tp =? TS_STREAM_H265).
Lemma pmt_lookup l : forall f q, fold_left pmt_add l f q =
  match f q with
  | Some x => Some x
  | None => match find (fun e => supported (fst e) && (snd e =? q)) l with
            | Some e => Some (PPes (pes_new (fst e)))
            | None => None
            end
  end.
Proof.
  induction l as [|e l IH]; intros f q; cbn [fold_left find]. { destruct (f q); reflexivity. }
  rewrite IH. unfold pmt_add. fold (supported (fst e)). destruct (supported (fst e)); cbn [andb]; [|reflexivity].
  destruct (Z.eqb_spec (snd e) q) as [<-|N].
  - destruct (f (snd e)) eqn:Ef; [rewrite Ef; reflexivity|rewrite add_same; reflexivity].
  - destruct (f (snd e)); [reflexivity|]. rewrite add_other by congruence. reflexivity.
Qed.

(** ** Continuity *)
Definition same_state (s s' : tsst) : Prop :=
  s_queue s' = s_queue s /\ s_adts s' = s_adts s /\ forall q, s_progs s' q = s_progs s q.
Lemma same_state_refl s : same_state s s.
Proof. repeat split. Qed.
Lemma same_state_trans a b c : same_state a b -> same_state b c -> same_state a c.
Proof. intros (H1 & H2 & H3) (H4 & H5 & H6). split; [congruence|]. split; [congruence|]. intros q. rewrite H6. apply H3. Qed.
Lemma put_back s q p : s_progs s q = Some (PPes p) -> same_state s (set_progs s (add_program (s_progs s) q (PPes p))).
Proof.
  intros E. split; [reflexivity|]. split; [reflexivity|]. intros x. unfold set_progs; cbn [s_progs].
  destruct (Z.eq_dec x q) as [->|N]; [rewrite add_same; congruence|apply add_other; exact N].
Qed.
Lemma dump_cc p c : ps_cc (fst (pes_dump p c)) = ps_cc p.
Proof.
  unfold pes_dump. destruct (ps_buf p) as [b|]; [|reflexivity]. destruct (_ <? _); [reflexivity|]. destruct (bind _ _); reflexivity.
Qed.
Lemma start_cc mem s p c : ps_cc (snd (fst (pes_start mem s p c))) = ps_cc p.
Proof.
  unfold pes_start. destruct (bc_acquire c 9); try reflexivity.
  pose proof (flush_keeps s p) as [_ K]. destruct (pes_flush s p) as [[s1 p1] r]. cbn [fst snd] in K.
  destruct r; cbn [fst snd]; try exact K.
  destruct (read_fields c [24; 8; 16]) as [[v c1]| | |]; cbn [fst snd]; try exact K.
  destruct (negb (fld v 0 =? 1)); [exact K|]. destruct (fld v 1 =? 0xbe); [exact K|].
  destruct (plain_sid (fld v 1)).
  { pose proof (dump_cc (pes_init mem p1 (fld v 2)) c1) as D. destruct (pes_dump _ c1) as [p3 r3]. cbn [fst snd] in *. rewrite D. exact K. }
  destruct (pes_header c1) as [ts r2]. destruct r2 as [c2| | |]; cbn [fst snd]; try exact K.
  match goal with |- context [pes_dump ?x c2] => pose proof (dump_cc x c2) as D; destruct (pes_dump x c2) as [p3 r3] end.
  cbn [fst snd] in *. rewrite D. exact K.
Qed.
Lemma cc_step mem s k p : pk_fits k -> t_has k = true -> s_progs s (t_pid k) = Some (PPes p) ->
  exists s' o r, ts_decode mem s (ts_bytes k) = (s', o, r) /\
    (t_pusi k = 0 -> ps_buf p = None -> r = Err ERROR_TS_PACKET_DECODE /\ o = [] /\ same_state s s') /\
    (t_pusi k = 1 \/ ps_buf p <> None -> t_cc k <> next_cc (ps_cc p) ->
       r = Err ERROR_TS_PACKET_CC_CONTINUE /\ o = [] /\ same_state s s') /\
    (t_pusi k = 1 \/ ps_buf p <> None -> t_cc k = next_cc (ps_cc p) ->
       exists p', s_progs s' (t_pid k) = Some (PPes p') /\ ps_cc p' = t_cc k).
Proof.
  intros Hf Hh Ep. destruct (ts_decode_fits mem s k Hf) as (c & Ha & Hb & E). rewrite E, (after_pes _ _ _ _ _ Ep Hh).
  unfold pes_decode. cbn [t_hdr th_pusi th_cc]. rewrite land_next.
  destruct (pusi_01 k (proj1 Hf)) as [Eu|Eu]; rewrite Eu; cbn [Z.eqb andb].
  - destruct (ps_buf p) as [b|] eqn:Eb; cbn [negb].
    + destruct (Z.eqb_spec (t_cc k) (next_cc (ps_cc p))); cbn [negb].
      * pose proof (dump_cc (set_cc p (t_cc k)) c) as D. destruct (pes_dump _ c) as [p1 r]. cbn [fst] in D.
        destruct r; eexists _, _, _; (split; [reflexivity|]); (split; [discriminate|]); (split; [intros; lia|]); intros _ _;
          exists p1; (split; [apply add_same|exact D]).
      * eexists _, _, _. split; [reflexivity|]. split; [discriminate|]. split; [|intros; lia]. intros _ _. auto using put_back.
    + eexists _, _, _. split; [reflexivity|]. split; [auto using put_back|]. split; intros [H|H]; [discriminate|congruence|discriminate|congruence].
  - destruct (Z.eqb_spec (t_cc k) (next_cc (ps_cc p))); cbn [negb].
    + pose proof (start_cc mem s (set_cc p (t_cc k)) c) as D. destruct (pes_start _ _ _ c) as [[s1 p1] r]. cbn [fst snd] in D.
      destruct r; eexists _, _, _; (split; [reflexivity|]); (split; [discriminate|]); (split; [intros; lia|]); intros _ _;
          exists p1; (split; [apply add_same|exact D]).
    + eexists _, _, _. split; [reflexivity|]. split; [discriminate|]. split; [|intros; lia]. intros _ _. auto using put_back.
Qed.
Lemma run_pes mem l : forall s s' o p' pid p, Forall ts_ok l -> ts_run mem s (map ts_bytes l) = (s', o, Ok tt) ->
  s_progs s pid = Some (PPes p) -> s_progs s' pid = Some (PPes p') ->
  (forall k, In k l -> t_pid k = pid -> t_has k = true -> pk_fits k) ->
  consecutive (ps_cc p) (counters pid l).
Proof.
  induction l as [|k l IH]; intros s s' o p' pid p Hl E Ep Ep' Hfit; [exact I|].
  inversion Hl as [|? ? Hk Hl']; subst. cbn [map ts_run] in E.
  destruct (ts_decode mem s (ts_bytes k)) as [[s1 o1] r1] eqn:E1. destruct r1 as [[]|e| |]; try discriminate.
  destruct (ts_run mem s1 (map ts_bytes l)) as [[s2 o2] r2] eqn:E2. injection E as <- <- ->.
  assert (NP : s_progs s1 pid <> Some PPmt).
  { intros K. pose proof (run_pmt mem l s1 pid Hl' K) as K2. rewrite E2 in K2. cbn [fst] in K2. congruence. }
  assert (Hfit' : forall k, In k l -> t_pid k = pid -> t_has k = true -> pk_fits k) by (intros; apply Hfit; [right; assumption|assumption|assumption]).
  unfold counters. cbn [filter]. destruct (Z.eqb_spec (t_pid k) pid) as [Epid|Npid]; cbn [andb].
  - destruct (t_has k) eqn:Hh.
    + subst pid. destruct (cc_step mem s k p (Hfit k (or_introl eq_refl) eq_refl Hh) Hh Ep) as (sx & ox & rx & Ex & C1 & C2 & C3).
      rewrite E1 in Ex. injection Ex as <- <- <-.
      assert (Hu : t_pusi k = 1 \/ ps_buf p <> None).
      { destruct (pusi_01 k Hk) as [Eu|Eu]; [|auto]. right. intros Eb. destruct (C1 Eu Eb) as (? & _). discriminate. }
      destruct (Z.eq_dec (t_cc k) (next_cc (ps_cc p))) as [Ec|Nc]; [|destruct (C2 Hu Nc) as (? & _); discriminate].
      destruct (C3 Hu Ec) as (p1 & Ep1 & Ecc). cbn [map consecutive]. split; [exact Ec|]. rewrite <- Ecc.
      eapply IH; eauto.
    + destruct (ts_decode_any mem s k Hk) as [(c & E')|(e & E' & Ne)]; rewrite E' in E1; [|congruence].
      unfold ts_after in E1. rewrite Epid, Ep, Hh in E1. cbn [negb andb is_section prog_type] in E1.
      change ((TS_PROGRAM_PES =? TS_PROGRAM_PAT) || (TS_PROGRAM_PES =? TS_PROGRAM_PMT)) with false in E1. cbn [negb] in E1.
      injection E1 as <- <-. eapply IH; eauto.
  - destruct (decode_keeps mem s k pid _ Hk Ep ltac:(congruence)) as [K|K]; rewrite E1 in K; cbn [fst] in K; [|congruence].
    eapply IH; eauto.
Qed.

(** Packets offered one after the other, whatever the outcome. *)
Fixpoint ts_feed (mem : list Z) (s : tsst) (ds : list (list Z)) : tsst * list (res unit) :=
  match ds with
  | [] => (s, [])
  | d :: ds' =>
      let '(s1, _, r) := ts_decode mem s d in
      let '(s2, rs) := ts_feed mem s1 ds' in (s2, r :: rs)
  end.
Lemma feed_rejected mem pid p l : forall s i,
  s_progs s pid = Some (PPes p) -> ps_buf p <> None ->
  (forall n k, nthz l n = Some k -> pk_fits k /\ t_pid k = pid /\ t_has k = true /\ t_cc k = (ps_cc p + i + n) mod 16) ->
  2 <= i -> i + zlen l <= 17 ->
  exists s', ts_feed mem s (map ts_bytes l) = (s', map (fun _ => Err ERROR_TS_PACKET_CC_CONTINUE) l) /\ same_state s s'.
Proof.
  induction l as [|k l IH]; intros s i Ep Hb Hl Hi Hlen. { exists s. split; [reflexivity|apply same_state_refl]. }
  rewrite zlen_cons in Hlen. pose proof (zlen_nonneg l).
  destruct (Hl 0 k (nthz_0 _ _)) as (Hf & Epid & Hh & Ec). subst pid.
  destruct (cc_step mem s k p Hf Hh Ep) as (s1 & o & r & E & _ & C2 & _). cbn [map ts_feed]. rewrite E.
  destruct (C2 (or_intror Hb)) as (-> & _ & Hs).
  { rewrite Ec. unfold next_cc. clear - Hi Hlen H. intros X. pose proof (Z.div_mod (ps_cc p + i + 0) 16 ltac:(lia)). pose proof (Z.div_mod (ps_cc p + 1) 16 ltac:(lia)). lia. }
  assert (Ep1 : s_progs s1 (t_pid k) = Some (PPes p)) by (destruct Hs as (_ & _ & Hs); rewrite Hs; exact Ep).
  destruct (IH s1 (i + 1) Ep1 Hb) as (s2 & E2 & Hs2).
  { intros n k' Hn. pose proof (nthz_some_range _ _ _ Hn). destruct (Hl (n + 1) k') as (A & B & C & D).
    { rewrite nthz_cons by lia. rewrite <- Hn. f_equal; lia. }
    split; [exact A|]. split; [exact B|]. split; [exact C|]. rewrite D. f_equal; lia. }
  { lia. } { lia. }
  rewrite E2. exists s2. split; [reflexivity|]. eapply same_state_trans; eassumption.
Qed.

(** ** What viewers of the raw stream get *)
Lemma decode_forwards mem s d s' o r : ts_decode mem s d = (s', o, r) ->
  o = [] \/ exists tp pusi, o = [ts_on_packet tp pusi d].
Proof.
  unfold ts_decode. destruct (tsp_decode (bc_init d)) as [[h c]| | |]; try (intros [= <- <- <-]; auto; fail).
  destruct (s_progs s (th_pid h)) as [pr|]; [|intros [= <- <- <-]; auto].
  destruct (_ && _); [intros [= <- <- <-]; auto|].
  destruct (match pr with PPes _ => _ | _ => _ end) as [s1 r1].
  destruct r1; intros [= <- <- <-]; eauto.
Qed.
Lemma run_forwards mem ds : forall s s' o r, ts_run mem s ds = (s', o, r) -> subseq (map p_data o) ds.
Proof.
  assert (Hnil : forall ds : list (list Z), subseq [] ds) by (induction ds0; constructor; assumption).
  induction ds as [|d ds IH]; intros s s' o r E; cbn [ts_run] in E. { injection E as <- <- <-. constructor. }
  destruct (ts_decode mem s d) as [[s1 o1] r1] eqn:E1.
  assert (Ho : forall o2, subseq (map p_data o2) ds -> subseq (map p_data (o1 ++ o2)) (d :: ds)).
  { intros o2 H2. rewrite map_app. destruct (decode_forwards _ _ _ _ _ _ E1) as [->|(tp & pu & ->)]; cbn; constructor; exact H2. }
  destruct r1; try (injection E as <- <- <-; specialize (Ho [] (Hnil ds)); rewrite app_nil_r in Ho; exact Ho).
  destruct (ts_run mem s1 ds) as [[s2 o2] r2] eqn:E2. injection E as <- <- <-. eauto.
Qed.

(** ** Input chunking *)
Definition idle (r : breader) : Prop :=
  br_ok r /\ ab_ptr (br_buf r) = 0 /\ ab_end (br_buf r) = 0 /\ ab_rw (br_buf r) = false /\ ab_cap (br_buf r) = 188 /\
  exists t, br_io r = Some t.
Lemma acquire_loop_io fuel : forall r n x r1, acquire_loop fuel r n = (x, r1) -> (exists t, br_io r = Some t) -> exists t, br_io r1 = Some t.
Proof.
  induction fuel as [|f IH]; intros r n x r1 E (t & Et); cbn [acquire_loop] in E; [injection E as <- <-; eauto|].
  rewrite Et in E. destruct (t_read t _) as [y t1]. destruct y; try (injection E as <- <-; cbn; eauto; fail).
  destruct (ab_store _ _ _); try (injection E as <- <-; cbn; eauto; fail).
  destruct (_ <? n); [eapply IH; [exact E|cbn; eauto]|injection E as <- <-; cbn; eauto].
Qed.
Lemma acquire_loop_ptr fuel : forall r n x r1, acquire_loop fuel r n = (x, r1) -> ab_ptr (br_buf r1) = ab_ptr (br_buf r).
Proof.
  induction fuel as [|f IH]; intros r n x r1 E; cbn [acquire_loop] in E; [injection E as <- <-; reflexivity|].
  destruct (br_io r); [|injection E as <- <-; reflexivity].
  destruct (t_read _ _) as [y t1]. destruct y; try (injection E as <- <-; reflexivity).
  destruct (ab_store (br_buf r) (ab_end (br_buf r)) a) as [b| | |] eqn:Eb; try (injection E as <- <-; reflexivity).
  assert (ab_ptr b = ab_ptr (br_buf r)).
  { unfold ab_store in Eb. destruct (_ && _); [|discriminate]. injection Eb as <-. reflexivity. }
  destruct (_ <? n); [apply IH in E; rewrite E; cbn; assumption|injection E as <- <-; cbn; assumption].
Qed.
Lemma acquire_packet r : idle r -> exists x r1, acquire r 188 = (x, r1) /\ ab_ptr (br_buf r1) = 0 /\
  br_ok r1 /\ br_stream r1 = br_stream r /\ ab_cap (br_buf r1) = 188 /\ br_err r1 = br_err r /\ ab_rw (br_buf r1) = false /\ (exists t, br_io r1 = Some t) /\
  (188 <= zlen (br_stream r) -> x = Ok tt /\ ab_end (br_buf r1) = 188) /\
  (zlen (br_stream r) < 188 -> x = Err (br_err r)).
Proof.
  intros (Hok & Hp & He & Hrw & Hc & Hio). unfold acquire, ab_size, ab_cap_size, ab_norewind. rewrite Hp, He, Hrw, Hc.
  replace (u64 (0 - 0)) with 0 by reflexivity. replace (u64 (188 - 0)) with 188 by reflexivity. cbn [Z.leb Z.ltb Z.compare Pos.compare Pos.compare_cont].
  rewrite Hp, Hc. replace (u64 (188 - 0)) with 188 by reflexivity. cbn [Z.ltb Z.compare Pos.compare Pos.compare_cont].
  replace (mkbr (br_buf r) (br_io r)) with r by (destruct r; reflexivity).
  destruct (acquire_loop_ok (S (Z.to_nat 188)) r 188) as (x & r1 & E & A1 & A2 & A3 & A4 & A5 & A6 & A7); try assumption; try lia.
  exists x, r1. split; [exact E|]. pose proof (acquire_loop_ptr _ _ _ _ _ E) as P. rewrite Hp in P.
  split; [exact P|]. split; [exact A1|]. split; [exact A2|]. split; [lia|]. split; [exact A4|]. split; [congruence|].
  split; [eapply acquire_loop_io; eassumption|]. split; [|exact A7]. intros H. destruct (A6 H) as (-> & H2). split; [reflexivity|].
  destruct A1 as (_ & A1 & _). lia.
Qed.
Lemma demux_chunks mem ds : forall fuel s r tail, (length ds < fuel)%nat -> idle r -> Forall (fun d => zlen d = 188) ds -> zlen tail < 188 ->
  br_stream r = concat ds ++ tail ->
  ts_demux fuel mem s r =
    let '(s', o, x) := ts_run mem s ds in
    (s', o, match x with Ok _ => Err (br_err r) | e => e end).
Proof.
  induction ds as [|d ds IH]; intros fuel s r tail Hfuel Hi Hd Ht Es; (destruct fuel as [|fuel]; [cbn [length] in Hfuel; lia|]); cbn [ts_demux];
    destruct (acquire_packet r Hi) as (x & r1 & E & P & A1 & A2 & A3 & A4 & A5 & A8 & A6 & A7); change SPS_TS_PACKET_SIZE with 188; rewrite E.
  - cbn [concat app] in Es. rewrite A7 by (rewrite Es; lia). reflexivity.
  - inversion Hd as [|? ? Hz Hd']; subst. cbn [concat] in Es. rewrite <- app_assoc in Es.
    destruct A6 as (-> & He); [rewrite Es, zlen_app, Hz; pose proof (zlen_nonneg (concat ds ++ tail)); lia|].
    assert (Edata : ab_data (br_buf r1) = d /\ t_stream match br_io r1 with Some t => t | None => mktr [] 0 end = concat ds ++ tail).
    { unfold br_stream, br_pending in A2. rewrite P, He in A2. destruct A8 as (t & Et). rewrite Et in *.
      change (drop 0 (ab_data (br_buf r1))) with (ab_data (br_buf r1)) in A2. unfold ab_cap in A3. rewrite take_all in A2 by lia.
      unfold br_stream, br_pending in Es. rewrite Es in A2.
      assert (L : take 188 (ab_data (br_buf r1) ++ t_stream t) = take 188 (d ++ concat ds ++ tail)) by congruence.
      assert (R : drop 188 (ab_data (br_buf r1) ++ t_stream t) = drop 188 (d ++ concat ds ++ tail)) by congruence.
      rewrite !take_app_exact in L by lia. rewrite !drop_app_exact in R by lia. auto. }
    destruct Edata as [Ed Et]. rewrite P, Ed. rewrite slice_some by lia. change (drop 0 d) with d. rewrite take_all by lia.
    cbn [ts_run]. destruct (ts_decode mem s d) as [[s1 o] y]. destruct y; try reflexivity.
    set (r2 := mkbr (ab_clear (br_buf r1)) (br_io r1)).
    assert (I2 : idle r2).
    { destruct A1 as (B1 & B2 & B3 & B4). unfold idle, br_ok, r2, ab_clear. cbn [br_buf br_io ab_ptr ab_end ab_rw ab_data].
      unfold ab_cap in *. cbn [ab_data]. repeat split; try assumption; try lia. }
    assert (S2 : br_stream r2 = concat ds ++ tail).
    { unfold br_stream, br_pending, r2, ab_clear. cbn [br_buf br_io ab_ptr ab_end ab_data]. destruct A8 as (t & Et'). rewrite Et' in *.
      exact Et. }
    assert (E2 : br_err r2 = br_err r).
    { rewrite <- A4. reflexivity. }
    rewrite (IH fuel s1 r2 tail ltac:(cbn [length] in Hfuel; lia) I2 Hd' Ht S2). rewrite E2.
    destruct (ts_run mem s1 ds) as [[s2 o2] y2]. destruct y2; reflexivity.
Qed.

(** ** Any header *)
Lemma psi_any tbl buf c hd h rest f : al buf c (hd ++ sh_bytes h ++ rest) -> zlen buf <= 188 -> fields_fit (sh_fields h) = true -> 0 <= zlen hd <= 1 ->
  exists c1, al buf c1 rest /\
    psi_decode tbl (zlen hd) f c =
    let '(f', c2, r) :=
        match tbl with
        | PPat => pat_decode (h_len h) f c1
        | PPmt => pmt_decode (h_len h) f c1
        | _ => sdt_decode f c1
        end in
      match r with
      | UB => (f', UB)
      | Fuel => (f', Fuel)
      | _ => match read_bits c2 32 with
             | Ok _ => (f', r)
             | e => (f', recast e)
             end
      end.
Proof.
  intros Ha Hb Hf Hd. unfold psi_decode. pose proof (al_le _ _ _ Ha) as Hle. unfold sh_bytes in *. pose proof (zlen_nonneg rest).
  rewrite (al_acquire_ok _ _ _ 8 Ha) by (try (rewrite !zlen_app, zlen_be; lia); lia). cbn [bind].
  assert (exists c0, (if zlen hd =? 1 then let? r := read_bits c 8 in Ok (snd r) else Ok c) = Ok c0 /\ al buf c0 (be 8 (pack (sh_fields h)) ++ rest)) as (c0 & E0 & Ha0).
  { destruct (Z.eqb_spec (zlen hd) 1) as [E|E].
    - destruct (al_bits _ _ _ 8 1 Ha) as (c0 & E0 & Ha0); [lia|lia|rewrite !zlen_app, zlen_be; lia|].
      rewrite E0. cbn [bind snd]. rewrite (drop_app_exact _ hd) in Ha0 by (symmetry; exact E). eauto.
    - assert (hd = []) as -> by (apply zlen_0_nil; lia). eauto. }
  rewrite E0. cbn [bind].
  destruct (al_packed _ _ _ _ _ Ha0) as (c1 & E1 & Ha1); [reflexivity|exact Hf|reflexivity|].
  cbn [sh_fields map fst snd] in E1. rewrite E1. exists c1. split; [exact Ha1|]. unfold fld; cbn [nth]. reflexivity.
Qed.
Lemma zlen_entries es : zlen (entries es) = 4 * zlen es.
Proof. induction es as [|e es IH]; [reflexivity|]. unfold entries in *. cbn [flat_map]. rewrite zlen_app, zlen_be, zlen_cons. lia. Qed.
Lemma pat_loop_any buf es : forall fuel c left rest, al buf c (entries es ++ rest) -> entries_fit es -> (length es <= fuel)%nat ->
  4 * zlen es - 4 < left <= 4 * zlen es \/ es = [] /\ left <= 0 -> exists c', pat_loop fuel c left = Ok (map snd es, c') /\ al buf c' rest.
Proof.
  induction es as [|e es IH]; intros fuel c left rest Ha Hok Hf Hl.
  - exists c. split; [|exact Ha]. assert (left <= 0) by (destruct Hl as [Hl|(_ & Hl)]; [change (zlen (@nil (Z*Z*Z))) with 0 in Hl; lia|exact Hl]).
    destruct fuel; cbn [pat_loop]; destruct (Z.leb_spec left 0); try lia; reflexivity.
  - destruct Hl as [Hl|(Hl & _)]; [|discriminate]. inversion Hok as [|? ? (H1 & H2 & H3) Hok']; subst. cbn [length] in Hf. destruct fuel as [|fuel]; [lia|].
    cbn [pat_loop]. pose proof (zlen_nonneg es). rewrite zlen_cons in Hl.
    destruct (Z.leb_spec left 0); [lia|].
    unfold entries in Ha. cbn [flat_map] in Ha. rewrite <- app_assoc in Ha.
    destruct (al_packed _ _ _ _ _ Ha) as (c1 & E1 & Ha1).
    { reflexivity. }
    { unfold fields_fit. cbn [forallb fst snd]. change (2 ^ 16) with 65536. change (2 ^ 13) with 8192. change (2 ^ 3) with 8. lia. }
    { reflexivity. }
    cbn [map fst snd] in E1. rewrite E1. cbn [bind fst snd]. unfold fld; cbn [nth].
    destruct (IH fuel c1 (left - 4) rest Ha1 Hok' ltac:(lia) ltac:(left; lia)) as (c2 & E2 & Ha2).
    rewrite E2. cbn [bind fst snd map]. eauto.
Qed.
Lemma crc_read buf c rest : al buf c rest -> if 4 <=? zlen rest then exists x, read_bits c 32 = Ok x else read_bits c 32 = UB.
Proof.
  intros Ha. pose proof (al_bits_adv _ _ _ 32 4 Ha ltac:(lia) ltac:(lia)) as A. unfold adv in A. destruct (4 <=? zlen rest).
  - destruct A as (c' & A & _). destruct (read_bits c 32); try discriminate A. eauto.
  - destruct (read_bits c 32); cbn [bind] in A; congruence.
Qed.
Lemma psi_pat_any buf c hd h es rest f : al buf c (hd ++ sh_bytes h ++ entries es ++ rest) -> zlen buf <= 188 -> fields_fit (sh_fields h) = true -> 0 <= zlen hd <= 1 ->
  entries_fit es -> 4 * zlen es - 4 < h_len h - 9 <= 4 * zlen es \/ es = [] /\ h_len h <= 9 -> h_len h - 9 <= 4 * zlen es + zlen rest ->
  psi_decode PPat (zlen hd) f c = (fold_left (fun f pid => add_program f pid PPmt) (map snd es) f, if 4 <=? zlen rest then Ok tt else UB).
Proof.
  intros Ha Hb Hf Hd Hok Hl Hin. destruct (psi_any PPat _ _ _ _ _ f Ha Hb Hf Hd) as (c1 & Ha1 & ->).
  pose proof (al_le _ _ _ Ha1) as Hle. rewrite !zlen_app, zlen_entries in Hle. pose proof (zlen_nonneg es). pose proof (zlen_nonneg rest).
  unfold pat_decode. replace (h_len h - 5 - 4) with (h_len h - 9) by lia. cbv zeta.
  assert (exists c2, (if 0 <? h_len h - 9 then let? _ := bc_acquire c1 (h_len h - 9) in pat_loop (Z.to_nat (h_len h - 9)) c1 (h_len h - 9) else Ok ([], c1)) =
    Ok (map snd es, c2) /\ al buf c2 rest) as (c2 & E2 & Ha2).
  { destruct (Z.ltb_spec 0 (h_len h - 9)).
    - rewrite (al_acquire_ok _ _ _ (h_len h - 9) Ha1) by (try rewrite !zlen_app, zlen_entries; lia). cbn [bind].
      apply pat_loop_any; try assumption; [unfold zlen in *; lia|]. destruct Hl as [Hl|(Hl & Hl2)]; [left; exact Hl|lia].
    - assert (es = []) as -> by (destruct Hl as [Hl|(Hl & _)]; [apply zlen_0_nil; lia|exact Hl]). exists c1. split; [reflexivity|exact Ha1]. }
  rewrite E2. pose proof (crc_read _ _ _ Ha2) as R. destruct (4 <=? zlen rest); [destruct R as (x & ->)|rewrite R]; reflexivity.
Qed.
Lemma psi_pat_long buf c hd h rest f : al buf c (hd ++ sh_bytes h ++ rest) -> zlen buf <= 188 -> fields_fit (sh_fields h) = true -> 0 <= zlen hd <= 1 ->
  0 <= zlen rest < h_len h - 9 -> h_len h < 4096 -> 4 <= zlen rest -> psi_decode PPat (zlen hd) f c = (f, Err ERROR_IO_NOT_ENOUGH).
Proof.
  intros Ha Hb Hf Hd Hl Hm H4. destruct (psi_any PPat _ _ _ _ _ f Ha Hb Hf Hd) as (c1 & Ha1 & ->).
  unfold pat_decode. replace (h_len h - 5 - 4) with (h_len h - 9) by lia. cbv zeta. destruct (Z.ltb_spec 0 (h_len h - 9)); [|lia].
  rewrite (al_acquire_no _ _ _ (h_len h - 9) Ha1) by lia. cbn [bind recast]. pose proof (crc_read _ _ _ Ha1) as R.
  destruct (Z.leb_spec 4 (zlen rest)); [|lia]. destruct R as (x & ->). reflexivity.
Qed.
Lemma pmt_loop_cut buf es : forall fuel c left rest, al buf c (flat_map pmt_entry es ++ rest) -> zlen buf <= 188 -> pmt_ok es -> (length es < fuel)%nat ->
  zlen (flat_map pmt_entry es) < left -> zlen rest < 5 -> fst (pmt_loop fuel c left) = UB.
Proof.
  induction es as [|e es IH]; intros fuel c left rest Ha Hb Hok Hf Hl Hr; cbn [length] in Hf; (destruct fuel as [|fuel]; [lia|]).
  - cbn [flat_map app] in *. change (zlen (@nil Z)) with 0 in Hl. cbn [pmt_loop]. destruct (Z.leb_spec left 0); [lia|].
    pose proof (al_fields_adv _ _ _ [8; 3; 13; 4; 12] 5 Ha ltac:(repeat constructor; lia) eq_refl) as A. unfold adv in A.
    destruct (Z.leb_spec 5 (zlen rest)); [lia|]. destruct (read_fields c _) as [(v & c1)| | |]; cbn [bind] in A; try discriminate A. reflexivity.
  - inversion Hok as [|? ? (H1 & H2 & H3) Hok']; subst.
    cbn [pmt_loop]. cbn [flat_map] in *. rewrite zlen_app, zlen_pmt_entry in Hl.
    pose proof (zlen_nonneg (snd e)). pose proof (zlen_nonneg (flat_map pmt_entry es)).
    destruct (Z.leb_spec left 0); [lia|].
    unfold pmt_entry at 1 in Ha. rewrite <- !app_assoc in Ha. unfold byte in H1.
    destruct (al_packed _ _ _ _ _ Ha) as (c1 & E1 & Ha1).
    { reflexivity. }
    { unfold fields_fit. cbn [forallb fst snd]. change (2 ^ 8) with 256. change (2 ^ 13) with 8192. change (2 ^ 12) with 4096.
      change (2 ^ 3) with 8. change (2 ^ 4) with 16. lia. }
    { reflexivity. }
    cbn [map fst snd] in E1. rewrite E1. unfold fld; cbn [nth].
    destruct (get_pos _ _ _ _ Ha1 Hb) as (c2 & E2 & Ha2). rewrite E2.
    pose proof (IH fuel c2 (left - (5 + zlen (snd e))) rest Ha2 Hb Hok' ltac:(lia) ltac:(lia) Hr) as R.
    destruct (pmt_loop fuel c2 _) as [r c3]. cbn [fst] in R. subst r. reflexivity.
Qed.
Lemma psi_pmt_cut buf c hd h pcr desc es rest f : al buf c (hd ++ sh_bytes h ++ pmt_tbl pcr desc es ++ rest) -> zlen buf <= 188 -> fields_fit (sh_fields h) = true -> 0 <= zlen hd <= 1 ->
  0 <= pcr < 8192 -> pmt_ok es -> 13 + zlen desc + zlen (flat_map pmt_entry es) < h_len h -> zlen rest < 5 -> snd (psi_decode PPmt (zlen hd) f c) = UB.
Proof.
  intros Ha Hb Hf Hd Hpcr Hok Hl Hr. destruct (psi_any PPmt _ _ _ _ _ f Ha Hb Hf Hd) as (c1 & Ha1 & ->).
  unfold pmt_decode. pose proof (al_le _ _ _ Ha1) as Hle. unfold pmt_tbl in Ha1, Hle. rewrite !zlen_app, zlen_be in Hle.
  pose proof (zlen_nonneg desc). pose proof (zlen_nonneg (flat_map pmt_entry es)). pose proof (zlen_nonneg rest).
  rewrite (al_acquire_ok _ _ _ 4 Ha1) by (try rewrite !zlen_app, zlen_be; lia). cbn [bind].
  rewrite <- !app_assoc in Ha1.
  destruct (al_packed _ _ _ _ _ Ha1) as (c2 & E2 & Ha2).
  { reflexivity. }
  { unfold fields_fit. cbn [forallb fst snd]. change (2 ^ 10) with 1024. change (2 ^ 13) with 8192. change (2 ^ 2) with 4.
      change (2 ^ 3) with 8. change (2 ^ 4) with 16. lia. }
  { reflexivity. }
  cbn [map fst snd] in E2. rewrite E2. unfold fld; cbn [nth].
  destruct (get_pos _ _ _ _ Ha2 Hb) as (c3 & E3 & Ha3). rewrite E3. cbv zeta.
  pose proof (pmt_loop_cut _ _ (Z.to_nat (h_len h - 5 - 4 - zlen desc - 4)) _ (h_len h - 5 - 4 - zlen desc - 4) _ Ha3 Hb Hok) as R.
  destruct (pmt_loop _ c3 _) as [r c4]. cbn [fst] in R. rewrite R; [reflexivity| |lia|exact Hr].
  pose proof (zlen_pmt_entries es). unfold zlen in *. lia.
Qed.
