(** Concrete transport packets used in the examples of P_Ts.v. *)
From Verif Require Import Base M_Bits S_Bits L_Bits M_Fields L_Align S_Fields L_Pack M_Packet M_IO S_IO L_IO M_Cache L_Cache
  M_H264 M_AAC L_Rtp M_Ts S_Ts L_Ts L_Ts2 L_Ts3 L_Ts4 L_Ts5 L_Ts6.

(** A packet of pid 256 padded with an adaptation field. *)
Definition ex_pk (pid pusi cc : Z) (body : list Z) : tsp :=
  mktsp 0 pusi 0 pid 0 cc (Some (0 :: repeat 255 (182 - length body))) true body.
Lemma pk_check k : fields_fit (t_fields k) && bytesb (ts_bytes k) && (zlen (ts_bytes k) =? 188) = true ->
  match t_af k with Some (f :: a) => (af_fixed f <=? zlen (f :: a)) && (bit f 0 =? 0) = true | _ => True end -> pk_fits k.
Proof.
  intros H Ha. apply andb_prop in H as [H H3]. apply andb_prop in H as [H1 H2]. split.
  - split; [exact H1|]. split; [apply bytesb_spec, H2|lia].
  - destruct (t_af k) as [a|]; [|exact I]. destruct a as [|f a]; [exact I|].
    apply andb_prop in Ha as [A1 A2]. split; [lia|]. intros X. lia.
Qed.
(** A unit: stream id 0xe0, PTS only, one IDR slice. *)
Definition ex_unit (len : Z) : pesu := mkpu 0xe0 len 0x80 0x80 [0x21; 0; 1; 0; 1].
Lemma ex_unit_ok len : 0 <= len < 65536 -> pu_ok (ex_unit len).
Proof.
  intros H. unfold pu_ok, ex_unit; cbn [pu_sid pu_len pu_f1 pu_f2 pu_hdr]. unfold byte.
  split; [lia|]. split; [cbn; intuition lia|]. split; [lia|]. split; [lia|]. split; [lia|].
  split; [apply bytesb_spec; reflexivity|]. split; [vm_compute; reflexivity|]. exists 5. split; [reflexivity|vm_compute; discriminate].
Qed.
Definition ex_nal : list Z := [0; 0; 0; 1; 0x65; 1; 2; 3].
Definition ex_tu (len cc : Z) : tsunit :=
  mktu (ex_unit len) (ex_pk 256 1 cc (pes_head (ex_unit len) ++ [0; 0; 0; 1; 0x65])) [0; 0; 0; 1; 0x65]
       [ex_pk 256 0 (next_cc cc) [1; 2; 3]].
Definition tu_okb (pid : Z) (t : tsunit) : bool :=
  eqb_list (t_body (tu_first t)) (pes_head (tu_pes t) ++ tu_d0 t) &&
  forallb (fun k => (t_pid k =? pid) && t_has k && fields_fit (t_fields k) && bytesb (ts_bytes k) && (zlen (ts_bytes k) =? 188)
     && match t_af k with Some (f :: a) => (af_fixed f <=? zlen (f :: a)) && (bit f 0 =? 0) | _ => true end) (tu_packets t) &&
  (t_pusi (tu_first t) =? 1) && forallb (fun k => t_pusi k =? 0) (tu_more t).
Lemma tu_okb_ok pid t : pu_ok (tu_pes t) -> tu_okb pid t = true -> tu_ok pid t.
Proof.
  intros Hp H. unfold tu_okb in H. apply andb_prop in H as [H H4]. apply andb_prop in H as [H H3]. apply andb_prop in H as [H1 H2].
  split; [exact Hp|]. split; [apply eqb_list_spec, H1|]. split; [|split; [lia|]].
  - apply Forall_forall. intros k Hk. rewrite forallb_forall in H2. specialize (H2 k Hk).
    apply andb_prop in H2 as [H2 Ha]. apply andb_prop in H2 as [H2 E3]. apply andb_prop in H2 as [H2 E2]. apply andb_prop in H2 as [H2 E1].
    apply andb_prop in H2 as [E4 E5].
    split; [|split; [lia|exact E5]]. apply pk_check; [rewrite E1, E2, E3; reflexivity|].
    destruct (t_af k) as [[|f a]|]; auto.
  - apply Forall_forall. intros k Hk. rewrite forallb_forall in H4. specialize (H4 k Hk). lia.
Qed.
Lemma ex_tu_ok0 : tu_ok 256 (ex_tu 0 0).
Proof. apply tu_okb_ok; [apply ex_unit_ok; lia|vm_compute; reflexivity]. Qed.
Lemma ex_tu_ok2 : tu_ok 256 (ex_tu 0 2).
Proof. apply tu_okb_ok; [apply ex_unit_ok; lia|vm_compute; reflexivity]. Qed.
(** Declared length: 3 + 5 bytes of header and 8 of data. *)
Lemma ex_tu_ok16 : tu_ok 256 (ex_tu 16 0).
Proof. apply tu_okb_ok; [apply ex_unit_ok; lia|vm_compute; reflexivity]. Qed.
(** A state in which pid 256 carries H.264 and pid 257 AAC. *)
Definition ex_state : tsst :=
  mktss (add_program (add_program (s_progs ts_new) 257 (PPes (pes_new TS_STREAM_AAC))) 256 (PPes (pes_new TS_STREAM_H264))) None [].
Definition ex_mem : list Z := repeat 0 (Z.to_nat TS_DEFAULT_PES).
Lemma ex_mem_ok : mem_ok ex_mem.
Proof. unfold mem_ok, ex_mem, zlen. rewrite repeat_length, Z2Nat.id; unfold TS_DEFAULT_PES; lia. Qed.

(** A unit of arbitrary size: one start packet and [n] packets of 184 bytes. *)
Definition ex_full (cc : Z) : tsp := mktsp 0 0 0 256 0 cc None true (repeat 7 184).
Lemma ex_full_ok cc : 0 <= cc < 16 -> pk_fits (ex_full cc).
Proof.
  intros H. assert (S : forallb (fun c => fields_fit (t_fields (ex_full c)) && bytesb (ts_bytes (ex_full c)) && (zlen (ts_bytes (ex_full c)) =? 188))
    [0; 1; 2; 3; 4; 5; 6; 7; 8; 9; 10; 11; 12; 13; 14; 15] = true) by (vm_compute; reflexivity).
  rewrite forallb_forall in S. apply pk_check; [|exact I]. apply S. cbn [In]. lia.
Qed.
Fixpoint ex_fulls (n : nat) (cc : Z) : list tsp :=
  match n with O => [] | S m => ex_full (next_cc cc) :: ex_fulls m (next_cc cc) end.
Lemma ex_fulls_ok n : forall cc, Forall (fun k => pk_fits k /\ t_pid k = 256 /\ t_has k = true) (ex_fulls n cc) /\
  Forall (fun k => t_pusi k = 0) (ex_fulls n cc) /\ consecutive cc (map t_cc (ex_fulls n cc)) /\
  zlen (flat_map t_body (ex_fulls n cc)) = 184 * Z.of_nat n.
Proof.
  induction n as [|n IH]; intros cc; cbn [ex_fulls].
  - split; [constructor|]. split; [constructor|]. split; [exact I|reflexivity].
  - destruct (IH (next_cc cc)) as (A & B & C & D).
    split; [constructor; [split; [apply ex_full_ok; unfold next_cc; apply Z.mod_pos_bound; lia|split; reflexivity]|exact A]|].
    split; [constructor; [reflexivity|exact B]|]. split; [cbn [map consecutive]; split; [reflexivity|exact C]|].
    cbn [flat_map]. rewrite zlen_app, D. change (zlen (t_body (ex_full (next_cc cc)))) with 184. lia.
Qed.
Definition ex_big (n : nat) : tsunit :=
  mktu (ex_unit 0) (ex_pk 256 1 0 (pes_head (ex_unit 0) ++ [0; 0; 0; 1; 0x65])) [0; 0; 0; 1; 0x65] (ex_fulls n 0).
Lemma ex_big_ok n : tu_ok 256 (ex_big n) /\ zlen (tu_data (ex_big n)) = 5 + 184 * Z.of_nat n /\ consecutive 15 (map t_cc (tu_packets (ex_big n))).
Proof.
  destruct (ex_fulls_ok n 0) as (A & B & C & D). split.
  - split; [apply ex_unit_ok; lia|]. split; [reflexivity|]. split; [|split; [reflexivity|exact B]].
    constructor; [|exact A]. split; [|split; reflexivity]. apply pk_check; vm_compute; reflexivity.
  - split; [unfold tu_data, ex_big; cbn [tu_d0 tu_more]; rewrite zlen_app, D; reflexivity|].
    unfold tu_packets, ex_big; cbn [tu_first tu_more map consecutive]. split; [reflexivity|exact C].
Qed.
