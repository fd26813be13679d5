(** The receiving end of the UDP load generator. *)
From Coq Require Import Sorting.Sorted.
From Verif Require Import Base M_Opt M_Udp M_UdpClient M_BlackHole S_UdpClient S_BlackHole L_BlackHole.

(** C229: whatever arrives and when, the rates the receiving tool reports are
    those of the sessions the arrivals fall into: each report is the number of
    bits of all datagrams since the report before, by the time since then, and
    comes with the first datagram at least a second later. *)
Theorem blackhole_reports : forall arr, 8 * counted arr < 2 ^ 63 ->
  exists l, bh_main (S (length arr)) arr = Some l /\ follows arr l.
Proof. intros arr H. apply bh_main_gen; [lia|exact H]. Qed.
Definition exb_arr : list (Z * list Z) :=
  [(0, repeat 0 1000); (400, repeat 0 1000); (1000, repeat 0 2000); (2500, repeat 0 3000); (2600, repeat 0 9);
   (20000, repeat 0 50); (21000, repeat 0 5000)].
Example blackhole_reports_case : 8 * counted exb_arr < 2 ^ 63 /\ bh_main (S (length exb_arr)) exb_arr = Some [[32; 16]; [33]].
Proof. split; vm_compute; reflexivity. Qed.
Print Assumptions blackhole_reports.

(** C229: the load generator and the receiving tool report the same rates, when
    every datagram arrives in the millisecond it was sent in and the first one
    in that of the start. *)
Theorem load_received : forall connect connected inter gso rest t0 nows,
  (connect = true -> connected = true) -> 0 < zlen nows < 2 ^ 31 -> (0 < inter -> inter * Z.max 1 gso < 2 ^ 63) ->
  zlen rest = 1384 -> hd t0 nows = t0 -> StronglySorted Z.le (t0 :: nows) ->
  Forall (fun t => t - t0 < 2 ^ 63) nows -> no_silence t0 (map (fun t => (t, [])) nows) ->
  let evs := fst (tool_main true connect connected inter gso rest t0 (map (fun t => (t, true)) nows)) in
  bh_main (S (length nows)) (combine nows (sends evs)) = Some [told evs].
Proof.
  intros connect connected inter gso rest t0 nows Hc Hn Hi Hr Hh Hs Hf Hq. unfold tool_main. cbn [negb].
  replace (connect && negb connected) with false by (destruct connect; [rewrite Hc by reflexivity|]; reflexivity).
  destruct nows as [|t nows]; [unfold zlen in Hn; cbn in Hn; lia|]. cbn in Hh. subst t.
  destruct (tool_told (t0 :: nows) inter (Z.max 1 gso) rest 0 t0 0 0 t0 t0) as (d & D1 & D2 & D3 & D5 & D4);
    [lia|lia|lia|exact Hi|lia|exact Hr|exact Hq| |exact Hs|].
  { constructor; [lia|]. inversion Hs as [|? ? _ Hle]; subst. clear - Hf Hle.
    induction Hf as [|x l Hx Hl IH]; [constructor|]. inversion Hle; subst. constructor; [lia|]. apply IH. assumption. }
  destruct (tool_loop _ _ _ _ _ _ _ _) as [evs r]. cbn [fst snd] in *. rewrite <- D1, <- D2, combine_parts.
  destruct d as [|[t x] d]; [discriminate|]. injection D1 as -> D1. cbn [length bh_main].
  change (1400 * 0) with 0 in *. destruct (bh_session t0 t0 0 ((t0, x) :: d)) as [[rs rst] r1]. cbn [fst snd] in *. subst.
  destruct (length (map fst ((t0, x) :: d))) eqn:El; [discriminate|]. reflexivity.
Qed.
Example load_received_case :
  let nows := [500; 900; 1600; 2000; 2700] in let rest := repeat 0 1384 in
  zlen rest = 1384 /\ StronglySorted Z.le (500 :: nows) /\ no_silence 500 (map (fun t => (t, [])) nows) /\
  told (fst (tool_main true false false 0 1 rest 500 (map (fun t => (t, true)) nows))) = [30; 20].
Proof. cbn zeta. split; [reflexivity|]. split; [repeat constructor; lia|]. split; [cbn; lia|]. vm_compute. reflexivity. Qed.
Print Assumptions load_received.

(** C229: datagrams of more than 4096 bytes count as 4096, so the reports are not
    the rate of what was sent. *)
Theorem blackhole_rate_refuted : exists arr ms rate, arr <> [] /\ StronglySorted Z.le (map fst arr) /\
  bh_main (S (length arr)) arr = Some [[rate]] /\ last_time 0 arr = ms /\ fst (hd (0, []) arr) = 0 /\
  rate < 8 * zlen (concat (map snd arr)) / ms.
Proof.
  exists [(0, repeat 7 4900); (1000, repeat 7 1000)], 1000, 40. split; [discriminate|]. split; [repeat constructor; cbn; lia|].
  split; [vm_compute; reflexivity|]. split; [reflexivity|]. split; [reflexivity|]. vm_compute. reflexivity.
Qed.
Print Assumptions blackhole_rate_refuted.
