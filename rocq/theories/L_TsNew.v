From Verif Require Import Base M_Bits S_Bits L_Bits M_Fields S_Fields M_Packet M_Cache S_Cache L_Cache M_Ts S_Ts L_Ts L_Ts3 L_Ts4 L_Ts5 S_TsNew.

(** How what a packet identifier stands for may change. *)
Definition kle (a b : option prog) : Prop :=
  match b with
  | Some PPmt => True
  | Some PPat => a = Some PPat
  | Some PSdt => a = Some PSdt
  | Some (PPes _) => a = None \/ exists p, a = Some (PPes p)
  | None => a = None
  end.
Lemma kle_refl a : kle a a.
Proof. destruct a as [[| | |p]|]; cbn; eauto. Qed.
Lemma kle_trans a b c : kle a b -> kle b c -> kle a c.
Proof.
  unfold kle. intros H1 H2. destruct c as [[| | |p]|]; subst; try exact I; auto.
  destruct H2 as [->|(x & ->)]; auto.
Qed.
Lemma fold_pat_kle pids : forall f q, kle (f q) (fold_left (fun f pid => add_program f pid PPmt) pids f q).
Proof.
  induction pids as [|x l IH]; intros f q; [apply kle_refl|]. cbn [fold_left].
  eapply kle_trans; [|apply IH]. unfold add_program. destruct (q =? x); [exact I|apply kle_refl].
Qed.
Lemma fold_pmt_kle l : forall f q, kle (f q) (fold_left pmt_add l f q).
Proof.
  induction l as [|x l IH]; intros f q; [apply kle_refl|]. cbn [fold_left].
  eapply kle_trans; [|apply IH]. unfold pmt_add. destruct (_ || _); [|apply kle_refl].
  destruct (f (snd x)) eqn:E; [apply kle_refl|]. unfold add_program. destruct (Z.eqb_spec q (snd x)) as [->|]; [|apply kle_refl].
  rewrite E. cbn. auto.
Qed.
Lemma psi_kle tbl pusi f c q : kle (f q) (fst (psi_decode tbl pusi f c) q).
Proof.
  unfold psi_decode. match goal with |- context[match ?X with Ok _ => _ | _ => _ end] => destruct X as [[v c1]|e| |] end; try apply kle_refl.
  assert (K : forall f' c2 r, (match tbl with PPat => pat_decode (fld v 4) f c1 | PPmt => pmt_decode (fld v 4) f c1 | _ => sdt_decode f c1 end) = (f', c2, r) -> kle (f q) (f' q)).
  { intros f' c2 r. destruct tbl as [| | |p].
    - unfold pat_decode. match goal with |- context[match ?X with Ok _ => _ | _ => _ end] => destruct X as [[pids c3]|e| |] end; intros [= <- <- <-]; [apply fold_pat_kle|apply kle_refl..].
    - unfold sdt_decode. destruct (read_bits c1 8) as [[? ?]|e| |]; intros [= <- <- <-]; apply kle_refl.
    - unfold pmt_decode. match goal with |- context[match ?X with Ok _ => _ | _ => _ end] => destruct X as [[w c3]|e| |] end; try (intros [= <- <- <-]; apply kle_refl).
      match goal with |- context[match ?X with Ok _ => _ | _ => _ end] => destruct X as [c4|e| |] end; try (intros [= <- <- <-]; apply kle_refl).
      destruct (pmt_loop _ c4 _) as [[l|e| |] c5]; intros [= <- <- <-]; [apply fold_pmt_kle|apply kle_refl..].
    - unfold sdt_decode. destruct (read_bits c1 8) as [[? ?]|e| |]; intros [= <- <- <-]; apply kle_refl. }
  destruct (match tbl with PPat => _ | _ => _ end) as [[f' c2] r] eqn:E. specialize (K f' c2 r eq_refl).
  destruct r as [[]|e| |]; try exact K; destruct (read_bits c2 32) as [[? ?]|e'| |]; exact K.
Qed.
Lemma program_kle mem s k c pr q : s_progs s (t_pid k) = Some pr -> kle (s_progs s q) (s_progs (fst (ts_program mem s k c pr)) q).
Proof.
  intros E. unfold ts_program. destruct pr as [| | |p].
  1-3: match goal with |- context[psi_decode ?a ?b ?f ?c] => pose proof (psi_kle a b f c q) as H; destruct (psi_decode a b f c) as [f' r] end; exact H.
  pose proof (decode_progs mem s p (t_hdr k) c) as D. destruct (pes_decode mem s p (t_hdr k) c) as [[s1 p1] r]. cbn [fst] in *.
  unfold set_progs; cbn [s_progs]. rewrite D. unfold add_program. destruct (Z.eqb_spec q (t_pid k)) as [->|]; [|apply kle_refl].
  rewrite E. cbn. eauto.
Qed.

(** What a decoded packet is handed out as. *)
Definition kind_ok (pr : prog) (p : pkt) : Prop :=
  is_pat p = match pr with PPat => true | _ => false end /\ is_pmt p = match pr with PPmt => true | _ => false end.
Lemma on_packet_kind pr pusi d : 0 <= pusi <= 1 -> kind_ok pr (ts_on_packet (prog_type pr) pusi d).
Proof.
  intros H. unfold ts_on_packet. replace (Z.shiftr pusi 31) with 0.
  2:{ symmetry. rewrite Z.shiftr_div_pow2 by lia. apply Z.div_small. lia. }
  destruct pr; split; reflexivity.
Qed.
Lemma decode_step mem s k s' o r : ts_ok k -> ts_decode mem s (ts_bytes k) = (s', o, r) ->
  (forall q, kle (s_progs s q) (s_progs s' q)) /\
  (o = [] \/ exists pr p, o = [p] /\ s_progs s (t_pid k) = Some pr /\ kind_ok pr p /\ p_data p = ts_bytes k).
Proof.
  intros Hk E. destruct (ts_decode_any mem s k Hk) as [(c & D)|(e & D & _)].
  - rewrite D in E. unfold ts_after in E. destruct (s_progs s (t_pid k)) as [pr|] eqn:Ep.
    2:{ injection E as <- <- <-. split; [intros; apply kle_refl|auto]. }
    destruct (_ && _). { injection E as <- <- <-. split; [intros; apply kle_refl|auto]. }
    pose proof (fun q => program_kle mem s k c pr q Ep) as K. destruct (ts_program mem s k c pr) as [s1 r1]. cbn [fst] in K.
    assert (Pu : 0 <= t_pusi k <= 1).
    { destruct Hk as (F & _). unfold fields_fit, t_fields in F. cbn [forallb fst snd] in F. rewrite !andb_true_iff in F. lia. }
    destruct r1; injection E as <- <- <-; (split; [exact K|]); [right|left; reflexivity..].
    exists pr. eexists. split; [reflexivity|]. split; [reflexivity|]. split; [apply on_packet_kind, Pu|reflexivity].
  - rewrite D in E. injection E as <- <- <-. split; [intros; apply kle_refl|auto].
Qed.
Lemma pid_of_bytes k : ts_ok k -> pid_of (ts_bytes k) = t_pid k.
Proof.
  intros (F & _ & _). unfold ts_bytes. set (v := pack (t_fields k)).
  unfold fields_fit, t_fields in F. cbn [forallb fst snd] in F. rewrite !andb_true_iff in F. change (2 ^ 13) with 8192 in F. change (2 ^ 8) with 256 in F. change (2 ^ 1) with 2 in F. change (2 ^ 2) with 4 in F. change (2 ^ 4) with 16 in F.
  assert (E : be 4 v ++ af_bytes k ++ t_body k = (v / 256 / 256 / 256) mod 256 :: (v / 256 / 256) mod 256 :: (v / 256) mod 256 :: v mod 256 :: af_bytes k ++ t_body k).
  { reflexivity. }
  rewrite E. unfold pid_of. cbn [nth].
  assert (V : v = ((((((71 * 2 + t_tei k) * 2 + t_pusi k) * 2 + t_prio k) * 8192 + t_pid k) * 4 + t_scr k) * 4 + t_afc k) * 16 + t_cc k).
  { unfold v, pack, t_fields. cbn [fold_left fst snd]. change (2 ^ 13) with 8192. change (2 ^ 8) with 256. change (2 ^ 1) with 2. change (2 ^ 2) with 4. change (2 ^ 4) with 16. lia. }
  clearbody v. clear E. set (a := ((71 * 2 + t_tei k) * 2 + t_pusi k) * 2 + t_prio k) in *.
  assert (V2 : v / 256 = a * 8192 + t_pid k). { subst v. symmetry. apply (Z.div_unique _ 256 _ ((t_scr k * 4 + t_afc k) * 16 + t_cc k)); lia. }
  rewrite V2. clear V V2. clearbody a.
  pose proof (Z.div_mod (a * 8192 + t_pid k) 256 ltac:(lia)) as D1.
  pose proof (Z.div_mod (t_pid k) 256 ltac:(lia)) as D2. pose proof (Z.mod_pos_bound (t_pid k) 256 ltac:(lia)).
  assert (Q : (a * 8192 + t_pid k) / 256 = a * 32 + t_pid k / 256). { symmetry. apply (Z.div_unique _ 256 _ (t_pid k mod 256)); lia. }
  assert (R : (a * 8192 + t_pid k) mod 256 = t_pid k mod 256). { symmetry. apply (Z.mod_unique _ 256 (a * 32 + t_pid k / 256)); lia. }
  rewrite Q, R. assert (0 <= t_pid k / 256 < 32). { split; [apply Z.div_pos; lia|apply Z.div_lt_upper_bound; lia]. }
  assert (M : (a * 32 + t_pid k / 256) mod 256 mod 32 = t_pid k / 256).
  { set (x := t_pid k / 256) in *. replace ((a * 32 + x) mod 256) with (x + (a mod 8) * 32).
    - rewrite Z.mod_add by lia. apply Z.mod_small. lia.
    - apply (Z.mod_unique _ 256 (a / 8)); [left; pose proof (Z.mod_pos_bound a 8 ltac:(lia)); lia|]. pose proof (Z.div_mod a 8 ltac:(lia)). lia. }
  rewrite M. lia.
Qed.

(** Every packet handed out by a run, seen from its end. *)
Definition seen (f0 f : Z -> option prog) (p : pkt) : Prop :=
  exists pr, kle (f0 (pid_of (p_data p))) (Some pr) /\ kind_ok pr p /\ kle (Some pr) (f (pid_of (p_data p))).
Lemma seen_ext f0 f1 f2 f p : (forall q, kle (f0 q) (f1 q)) -> (forall q, kle (f2 q) (f q)) -> seen f1 f2 p -> seen f0 f p.
Proof. intros H0 H2 (pr & A & B & C). exists pr. split; [|split; [exact B|]]; eapply kle_trans; eauto. Qed.
Lemma run_seen mem ks : forall s s' o r, Forall ts_ok ks -> ts_run mem s (map ts_bytes ks) = (s', o, r) ->
  (forall q, kle (s_progs s q) (s_progs s' q)) /\ Forall (seen (s_progs s) (s_progs s')) o.
Proof.
  induction ks as [|k ks IH]; intros s s' o r Hk E; cbn [map ts_run] in E.
  { injection E as <- <- <-. split; [intros; apply kle_refl|constructor]. }
  inversion Hk as [|? ? K1 K2]; subst. destruct (ts_decode mem s (ts_bytes k)) as [[s1 o1] r1] eqn:D.
  destruct (decode_step _ _ _ _ _ _ K1 D) as (M & O).
  assert (S1 : Forall (seen (s_progs s) (s_progs s1)) o1).
  { destruct O as [->|(pr & p & -> & Ep & Kp & Ed)]; constructor; [|constructor]. exists pr. rewrite Ed, (pid_of_bytes k K1), <- Ep. split; [apply kle_refl|]. split; [exact Kp|apply M]. }
  destruct r1 as [u|e| |]; try (injection E as <- <- <-; split; [exact M|exact S1]).
  destruct (ts_run mem s1 (map ts_bytes ks)) as [[s2 o2] r2] eqn:R. injection E as <- <- <-.
  destruct (IH _ _ _ _ K2 R) as (M2 & S2). split; [intros q; eapply kle_trans; eauto|].
  apply Forall_app. split; eapply Forall_impl; [|exact S1| |exact S2]; intros p Hp; eapply seen_ext; try exact Hp; auto using kle_refl.
Qed.
Lemma last_such_rev f h : last_such f h = match rev (filter f h) with [] => None | x :: _ => Some x end.
Proof.
  induction h as [|x h IH]; [reflexivity|]. cbn [last_such filter]. rewrite IH. destruct (f x); cbn [rev].
  - destruct (rev (filter f h)); reflexivity.
  - destruct (rev (filter f h)); reflexivity.
Qed.
Lemma filter_map_pd (f : list Z -> bool) (g : pkt -> bool) h : (forall p, In p h -> f (p_data p) = g p) ->
  filter f (map p_data h) = map p_data (filter g h).
Proof.
  induction h as [|x h IH]; intros H; [reflexivity|]. cbn [map filter]. rewrite (H x (or_introl eq_refl)), IH by (intros; apply H; right; assumption).
  destruct (g x); reflexivity.
Qed.
Lemma maybe_latest q h : (forall p, In p h -> (pid_of (p_data p) =? q) = is_pat p) ->
  map p_data (maybe (last_such is_pat h)) = latest q (map p_data h).
Proof.
  intros H. unfold latest. rewrite (filter_map_pd _ is_pat h H), last_such_rev, <- map_rev. destruct (rev (filter is_pat h)); reflexivity.
Qed.
Lemma last_such_in f h p : last_such f h = Some p -> In p h /\ f p = true.
Proof.
  rewrite last_such_rev. destruct (rev (filter f h)) eqn:E; intros [= <-]. apply filter_In. apply in_rev. rewrite E. left. reflexivity.
Qed.
