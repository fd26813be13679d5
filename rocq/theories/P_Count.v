(** C220: how long one source can run. *)
From Verif Require Import Base M_Packet M_Cache M_Count L_Cache.

Lemma put_number g p : g_number (gop_put g p) = g_number g + 1.
Proof.
  unfold gop_put. destruct (is_audio_seq p), (is_video_seq p), (is_script p), (is_keyframe p); try reflexivity.
  destruct (g_pbs g); reflexivity.
Qed.
Lemma puts_from ps : forall g, 0 <= g_number g <= 2147483647 ->
  (g_number g + zlen ps <= 2147483647 -> counted_puts g ps = Ok (fold_left gop_put ps g)) /\
  (2147483647 < g_number g + zlen ps -> counted_puts g ps = UB).
Proof.
  induction ps as [|p ps IH]; intros g Hg; cbn [counted_puts fold_left].
  - change (zlen (@nil pkt)) with 0. split; [reflexivity|lia].
  - rewrite zlen_cons. pose proof (zlen_nonneg ps). unfold counted_put.
    destruct (Z.eqb_spec (g_number g) 2147483647) as [E|E].
    + split; [lia|reflexivity].
    + destruct (IH (gop_put g p)) as (A & B); [rewrite put_number; lia|]. rewrite put_number in A, B. cbn [bind].
      split; intros; [apply A|apply B]; lia.
Qed.

(** A source relays up to 2147483647 packets with the contents the cache theorems
    speak of, and never more: packet 2147483648 is undefined behaviour. *)
Theorem source_packets_bound : forall ps,
  (zlen ps <= 2147483647 -> counted_puts gop0 ps = Ok (fold_left gop_put ps gop0)) /\
  (2147483647 < zlen ps -> counted_puts gop0 ps = UB).
Proof. intros ps. apply (puts_from ps gop0). cbn. lia. Qed.
Print Assumptions source_packets_bound.

Example source_packets_case :
  let p := mkpkt 0 AV_STREAM_TYPE_VIDEO 1 40 40 0x17 7 [1; 2] in
  exists g, counted_puts gop0 [p; p; p] = Ok g /\ g_number g = 3 /\ gop_dump g = ([p], 1).
Proof. eexists. split; [reflexivity|]. split; reflexivity. Qed.

(** "A source may run for any time" is false. *)
Theorem source_runs_forever_refuted : exists ps, counted_puts gop0 ps = UB.
Proof.
  assert (Q : exists n, Z.of_nat n = 2147483648) by (exists (Z.to_nat 2147483648); apply Z2Nat.id; discriminate).
  destruct Q as (n & Q). exists (repeat (mkpkt 0 AV_STREAM_TYPE_AUDIO 1 0 0 0xaf 10 [0]) n).
  apply source_packets_bound. unfold zlen. rewrite repeat_length, Q. lia.
Qed.
Print Assumptions source_runs_forever_refuted.
