(** What a newcomer to a raw transport stream is given, on the bytes of the
    publisher: property theorems. *)
From Verif Require Import Base M_Bits S_Bits L_Bits M_Fields S_Fields M_Packet M_Cache S_Cache L_Cache P_Cache M_Ts S_Ts L_Ts L_Ts3 L_Ts4 L_Ts5 L_TsEx P_Ts S_TsNew L_TsNew.

(** * What a newcomer to a raw stream is given (C202) *)

(** Whatever the publisher's packets are, as long as no table declared the
    table identifier 0 to be something else: first the latest association
    table, then at most one program map, then packets among which every packet
    of every elementary stream stands, in order; none of these is an
    association table. *)
Theorem ts_newcomer_on_wire :
  forall mem ks s' o r, Forall ts_ok ks -> ts_run mem ts_new (map ts_bytes ks) = (s', o, r) -> s_progs s' 0 = Some PPat ->
  exists maps rest,
    map p_data (fst (tsc_dump (fold_left tsc_put o tsc0))) = latest 0 (map p_data o) ++ maps ++ rest /\
    (length maps <= 1)%nat /\
    (forall d, In d maps -> In d (map p_data o) /\ s_progs s' (pid_of d) = Some PPmt) /\
    (forall d, In d rest -> pid_of d <> 0) /\
    forall es, (forall q, es q = true -> exists p, s_progs s' q = Some (PPes p)) ->
      of_streams es rest = of_streams es (map p_data o).
Proof.
  intros mem ks s' o r Hk E Hz. destruct (run_seen _ _ _ _ _ _ Hk E) as (_ & S). rewrite Forall_forall in S.
  assert (P : forall p, In p o -> (pid_of (p_data p) =? 0) = is_pat p).
  { intros p Hp. destruct (S p Hp) as (pr & A & (B & _) & C). rewrite B. destruct (Z.eqb_spec (pid_of (p_data p)) 0) as [Q|Q].
    - rewrite Q, Hz in C. cbn in C. injection C as ->. reflexivity.
    - destruct pr; try reflexivity. exfalso. cbn in A. unfold ts_new, add_program in A. cbn [s_progs] in A.
      destruct (Z.eqb_spec (pid_of (p_data p)) SDT_PID); [discriminate|]. destruct (Z.eqb_spec (pid_of (p_data p)) PAT_PID); [|discriminate]. apply Q. assumption. }
  exists (map p_data (maybe (last_such (fun p => is_pmt p && negb (is_pat p)) o))), (map p_data (filter (fun p => negb (is_pat p || is_pmt p)) o)).
  rewrite ts_cache_keeps_everything, !map_app, (maybe_latest 0 o P). split; [reflexivity|]. split; [|split; [|split]].
  - destruct (last_such _ o); cbn; lia.
  - intros d Hd. destruct (last_such _ o) as [p|] eqn:L; cbn in Hd; [|destruct Hd]. destruct Hd as [<-|[]].
    destruct (last_such_in _ _ _ L) as (I & F). split; [apply in_map, I|]. rewrite andb_true_iff in F. destruct F as (F & _).
    destruct (S p I) as (pr & _ & (_ & B) & C). rewrite F in B. destruct pr; try discriminate B.
    destruct (s_progs s' (pid_of (p_data p))) as [[| | |x]|]; cbn in C; try discriminate C; [reflexivity|]. destruct C as [C|(y & C)]; discriminate C.
  - intros d Hd. apply in_map_iff in Hd as (p & <- & Hp). apply filter_In in Hp as (Hp & N). specialize (P p Hp).
    destruct (Z.eqb_spec (pid_of (p_data p)) 0); [|assumption]. rewrite <- P in N. discriminate N.
  - intros es He. unfold of_streams. rewrite (filter_map_pd _ (fun p => es (pid_of (p_data p)))) by reflexivity.
    rewrite (filter_map_pd _ (fun p => es (pid_of (p_data p)))) by reflexivity. f_equal.
    assert (G : forall p, In p o -> es (pid_of (p_data p)) = true -> negb (is_pat p || is_pmt p) = true).
    { intros p Hp Ep. destruct (He _ Ep) as (x & Ex). destruct (S p Hp) as (pr & _ & (B1 & B2) & C). rewrite Ex in C. cbn in C. rewrite B1, B2.
      destruct C as [C|(y & C)]; [discriminate C|]. injection C as ->. reflexivity. }
    clear - G. induction o as [|p o IH]; [reflexivity|]. cbn [filter]. pose proof (G p (or_introl eq_refl)) as Gp.
    assert (IH' := IH (fun x Hx => G x (or_intror Hx))). destruct (es (pid_of (p_data p))) eqn:Ep.
    + rewrite (Gp eq_refl). cbn [filter]. rewrite Ep, IH'. reflexivity.
    + destruct (negb _); cbn [filter]; rewrite ?Ep; exact IH'.
Qed.
Print Assumptions ts_newcomer_on_wire.
(** Two association tables, a program map and the first packet of a unit: the
    newcomer is given the second table, the map and the packet. *)
Definition ex_pat2 : tsp := mktsp 0 1 0 0 0 1 None true
  (section true 0 1 1 0 0 (pat_tbl [(1, 4096)]) [5; 6; 7; 8] (repeat 255 (184 - 17))).
Example ts_newcomer_on_wire_case :
  let ks := [ex_pat; ex_pmt; tu_first (ex_tu 16 0); ex_pat2] in
  Forall ts_ok ks /\
  exists s' o, ts_run (repeat 0 200) ts_new (map ts_bytes ks) = (s', o, Ok tt) /\ s_progs s' 0 = Some PPat /\
    map p_data (fst (tsc_dump (fold_left tsc_put o tsc0))) = map ts_bytes [ex_pat2; ex_pmt; tu_first (ex_tu 16 0)].
Proof.
  intros ks. split.
  - repeat (constructor; [apply pk_check; [vm_compute; reflexivity|first [exact I|vm_compute; reflexivity]]|]). constructor.
  - eexists _, _. split; [vm_compute; reflexivity|]. split; [reflexivity|vm_compute; reflexivity].
Qed.

(** Of a stream with two programs, each with its own map, a newcomer is given
    one map only: the other program cannot be found in what follows until its
    map is sent again. *)
Definition ex_pat_two : tsp := mktsp 0 1 0 0 0 0 None true
  (section true 0 1 0 0 0 (pat_tbl [(1, 4096); (2, 4097)]) [1; 2; 3; 4] (repeat 255 (184 - 21))).
Definition ex_pmt_two : tsp := mktsp 0 1 0 4097 0 0 None true
  (section true 2 2 0 0 0 (pmt_tbl 258 [] [(0x1b, 258, []); (0x0f, 259, [10; 0]); (0x06, 260, [])]) [1; 2; 3; 4] (repeat 255 (184 - 34))).
Theorem ts_newcomer_every_program_refuted :
  exists ks s' o k, Forall ts_ok ks /\ In k ks /\ s_progs s' (t_pid k) = Some PPmt /\
    ts_run [] ts_new (map ts_bytes ks) = (s', o, Ok tt) /\ In (ts_bytes k) (map p_data o) /\
    ~ In (ts_bytes k) (map p_data (fst (tsc_dump (fold_left tsc_put o tsc0)))).
Proof.
  exists [ex_pat_two; ex_pmt; ex_pmt_two]. eexists _, _. exists ex_pmt. split.
  { repeat (constructor; [apply pk_check; [vm_compute; reflexivity|exact I]|]). constructor. }
  split; [right; left; reflexivity|]. split; [shelve|]. split; [vm_compute; reflexivity|]. split; [right; left; reflexivity|].
  intros [H|[H|[]]]; discriminate H.
  Unshelve. reflexivity.
Qed.
Print Assumptions ts_newcomer_every_program_refuted.
