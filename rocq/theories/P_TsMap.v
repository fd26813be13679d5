(** Property C235: every packet of a program table. *)
From Verif Require Import Base M_Bits M_Fields L_Align S_Fields L_Pack M_Packet M_IO S_IO M_Cache M_H264 M_AAC M_Ts S_Ts L_Ts L_Ts2 L_Ts3 L_Ts4 L_Ts5 L_TsEx P_Ts S_TsMap L_TsMap.

(** C235: a packet of a program map, whatever its payload.  The entries it lists are
    registered if their type is AAC, H.264 or H.265 and their identifier was free;
    or nothing is registered and the session ends with an error; or the demuxer
    reads behind the packet. *)
Theorem ts_map_packet : forall mem s k, pk_fits k -> s_progs s (t_pid k) = Some PPmt ->
  match table_of map_table (t_pusi k) (t_body k) with
  | Listed es => exists s' o, ts_decode mem s (ts_bytes k) = (s', o, Ok tt) /\ s_queue s' = s_queue s /\ map p_data o = [ts_bytes k] /\
      forall q, s_progs s' q =
        match s_progs s q with
        | Some x => Some x
        | None => match find (fun e => (((fst e =? 0x0f) || (fst e =? 0x1b) || (fst e =? 0x24)) && (snd e =? q))) es with
                  | Some e => Some (PPes (pes_new (fst e)))
                  | None => None
                  end
        end
  | Refused => exists s', ts_decode mem s (ts_bytes k) = (s', [], Err ERROR_IO_NOT_ENOUGH) /\ s_queue s' = s_queue s /\ forall q, s_progs s' q = s_progs s q
  | Overrun => snd (ts_decode mem s (ts_bytes k)) = UB
  end.
Proof.
  intros mem s k Hf Ep. destruct (ts_decode_fits mem s k Hf) as (c & Ha & Hb & E). rewrite E. unfold ts_after. rewrite Ep. cbn [is_section prog_type].
  change ((TS_PROGRAM_PMT =? TS_PROGRAM_PAT) || (TS_PROGRAM_PMT =? TS_PROGRAM_PMT)) with true. rewrite andb_false_r. unfold ts_program.
  assert (0 <= t_pusi k <= 1) by (destruct (pusi_01 k (proj1 Hf)); lia).
  destruct (psi_map_every _ _ (t_pusi k) _ (s_progs s) Ha Hb ltac:(assumption)) as (f2 & P & R). rewrite P.
  destruct (table_of map_table (t_pusi k) (t_body k)) as [es| |]; cbn [ends].
  - rewrite (R ltac:(discriminate)). eexists _, _. split; [reflexivity|]. split; [reflexivity|]. split; [reflexivity|]. intros q. cbn [set_progs s_progs reg_map]. apply pmt_lookup.
  - rewrite (R ltac:(discriminate)). eexists. split; [reflexivity|]. split; reflexivity.
  - reflexivity.
Qed.
Print Assumptions ts_map_packet.

(** C235: and a packet of the program association; its entries become program maps
    whatever they were before. *)
Theorem ts_assoc_packet : forall mem s k, pk_fits k -> s_progs s (t_pid k) = Some PPat ->
  match table_of assoc_table (t_pusi k) (t_body k) with
  | Listed es => exists s' o, ts_decode mem s (ts_bytes k) = (s', o, Ok tt) /\ s_queue s' = s_queue s /\ map p_data o = [ts_bytes k] /\
      forall q, s_progs s' q = if existsb (Z.eqb q) (map snd es) then Some PPmt else s_progs s q
  | Refused => exists s', ts_decode mem s (ts_bytes k) = (s', [], Err ERROR_IO_NOT_ENOUGH) /\ s_queue s' = s_queue s /\ forall q, s_progs s' q = s_progs s q
  | Overrun => snd (ts_decode mem s (ts_bytes k)) = UB
  end.
Proof.
  intros mem s k Hf Ep. destruct (ts_decode_fits mem s k Hf) as (c & Ha & Hb & E). rewrite E. unfold ts_after. rewrite Ep. cbn [is_section prog_type].
  change ((TS_PROGRAM_PAT =? TS_PROGRAM_PAT) || (TS_PROGRAM_PAT =? TS_PROGRAM_PMT)) with true. rewrite andb_false_r. unfold ts_program.
  assert (0 <= t_pusi k <= 1) by (destruct (pusi_01 k (proj1 Hf)); lia).
  destruct (psi_assoc_every _ _ (t_pusi k) _ (s_progs s) Ha Hb ltac:(assumption)) as (f2 & P & R). rewrite P.
  destruct (table_of assoc_table (t_pusi k) (t_body k)) as [es| |]; cbn [ends].
  - rewrite (R ltac:(discriminate)). eexists _, _. split; [reflexivity|]. split; [reflexivity|]. split; [reflexivity|]. intros q. cbn [set_progs s_progs reg_assoc].
    apply pat_lookup.
  - rewrite (R ltac:(discriminate)). eexists. split; [reflexivity|]. split; reflexivity.
  - reflexivity.
Qed.
Print Assumptions ts_assoc_packet.

(** All outcomes occur.  The packets of a normal stream; a map whose second entry
    announces more descriptor bytes than there are; one cut within an entry; an
    association that leaves no room for its checksum, and one longer than the packet. *)
Example ts_table_cases :
  let mapped := set_progs ts_new (add_program (s_progs ts_new) 4096 PPmt) in
  let m pid body := mktsp 0 1 0 pid 0 0 None true body in
  let sec len := [0] ++ sh_bytes (mksh 2 1 0 3 len 1 3 0 1 0 0) in
  table_of assoc_table (t_pusi ex_pat) (t_body ex_pat) = Listed [(1, 4096)] /\
  table_of map_table (t_pusi ex_pmt) (t_body ex_pmt) = Listed [(0x1b, 256); (0x0f, 257); (0x06, 258)] /\
  (let k := m 4096 (sec 40 ++ [0xe1; 0; 0xf0; 0; 0x1b; 0xe1; 0; 0xf0; 0; 0x0f; 0xe1; 1; 0xff; 0xff] ++ repeat 9 161) in
   pk_fits k /\ s_progs mapped (t_pid k) = Some PPmt /\ table_of map_table (t_pusi k) (t_body k) = Refused /\ snd (ts_decode [] mapped (ts_bytes k)) = Err ERROR_IO_NOT_ENOUGH) /\
  (let k := m 4096 (sec 400 ++ [0xe1; 0; 0xf0; 0; 0x1b; 0xe1; 0; 0xf0; 163] ++ repeat 9 166) in
   pk_fits k /\ table_of map_table (t_pusi k) (t_body k) = Overrun /\ snd (ts_decode [] mapped (ts_bytes k)) = UB) /\
  (let k := m 0 (sec 184 ++ repeat 0 175) in
   pk_fits k /\ table_of assoc_table (t_pusi k) (t_body k) = Overrun) /\
  (let k := m 0 (sec 185 ++ repeat 0 175) in
   pk_fits k /\ table_of assoc_table (t_pusi k) (t_body k) = Refused).
Proof.
  cbv zeta. repeat match goal with |- _ /\ _ => split end; try (apply pk_check; [vm_compute; reflexivity|exact I]); vm_compute; reflexivity.
Qed.
