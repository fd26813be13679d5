(** C245: uploads and pulls of FLV streams end, and publish nothing that did not come. *)
From Verif Require Import Base M_IO S_IO L_IO M_Text M_Packet M_Flv S_Flv L_Flv P_Flv M_Conf M_Url S_Url L_Url P_Url M_Host M_Http S_Http L_Http L_Http2 L_Http3 P_Http
  M_Https S_Https L_Https M_Upload S_Upload L_Upload P_Upload M_Stream M_HttpConn S_HttpConn L_HttpConn M_Edge S_Edge L_Edge P_Edge S_HttpOut L_HttpOut P_HttpOut S_EdgeOut L_EdgeOut P_EdgeOut S_HttpEnd L_HttpEnd S_EdgeEnd L_EdgeEnd.

(** C245: an upload, its body framed in any way, broken or not.  What is published is read
    from bytes the client sent, in their order; one packet for sixteen of them at most. *)
Theorem upload_invents_nothing : forall rounds fill chunked len t, 15 <= zlen fill < 2 ^ 62 -> nonempty_chunks (t_chunks t) -> bytes (t_stream t) ->
  exists ps x, fst (run_plain (over_body (flv_decode_prog rounds fill) (hb_new chunked len)) t) = Ok (Ok (ps, x)) /\
    made_of rounds (zlen fill) (t_stream t) ps /\ 16 * zlen ps <= zlen (t_stream t) /\ (zlen (t_stream t) < Z.of_nat rounds -> x <> Fuel).
Proof.
  intros rounds fill ch len t Hc Hn Hb. destruct (over_body_total (flv_decode_prog rounds fill) (hb_new ch len) t Hn ltac:(cbn; lia)) as ([ps x] & t1 & E & _).
  exists ps, x. rewrite E. split; [reflexivity|]. destruct (over_body_sub _ (flv_decode_okb rounds fill ltac:(lia)) (hb_new ch len) t (ps, x) Hn ltac:(cbn; lia)) as (cs & err & N & R & S); [rewrite E; reflexivity|].
  exact (flv_made_sub _ _ _ _ _ _ _ Hc N S Hb R).
Qed.
Print Assumptions upload_invents_nothing.

(** C245: and a pull of an edge, for every origin, whatever the library reads in its head. *)
Theorem edge_invents_nothing : forall lib fmts rounds fill q conn t o, 15 <= zlen fill < 2 ^ 62 -> nonempty_chunks (t_chunks t) -> t_err t <> 0 -> sk_err o <> 0 -> bytes (t_stream t) ->
  let '(x, s, _) := edge_http lib fmts (fun _ => flv_decode_prog rounds fill) q conn t o in
  (zlen (t_stream t) < Z.of_nat rounds -> x <> Fuel) /\ (forall c, x <> Err c) /\
  forall ps, s = Some ps -> made_of rounds (zlen fill) (t_stream t) ps /\ 16 * zlen ps <= zlen (t_stream t).
Proof.
  intros lib fmts rounds fill q conn t o Hc Hn He Ho Hb. pose proof (pulled_edge lib fmts (fun _ => flv_decode_prog rounds fill) q conn t o Hn He Ho) as P.
  destruct (edge_http lib fmts (fun _ => flv_decode_prog rounds fill) q conn t o) as [[x s] o1]. cbn [fst snd] in P.
  destruct P as [K|K1 K2|c t1 K1 K3|n ri t1 K1 K3 K4|n ri t1 K1 K3 K4|n ri t1 K1 K3 K4 K5|n ri t1 K1 K3 K4 K5 K6|n ri t1 K1 K3 K4 K5 K6 K7|n ri t1 f ps y K1 K3 K4 K5 K6 K7];
    try (split; [discriminate|]; split; discriminate).
  destruct K3 as (head & Hh & _). destruct (read_head_keep _ _ _ Hn Hh) as (N1 & _).
  destruct (read_head_any t MAX_HEADER Hn ltac:(unfold MAX_HEADER; lia)) as (z & t2 & E & Hz). rewrite Hh in E. injection E as <- <-.
  destruct Hz as [(d & [= <-] & _ & Hs & _)|[(? & _)|(? & _)]]; [|discriminate|discriminate].
  unfold body_gives in K7. destruct (over_up_sub _ (flv_decode_okb rounds fill ltac:(lia)) (hb_new (ri_chunked ri) (ri_cl ri)) t1 (ps, y) N1 ltac:(cbn; lia) K7) as (cs & err & N & R & S).
  assert (S2 : sub (concat cs) (t_stream t)) by (rewrite Hs; apply sub_front; exact S).
  destruct (flv_made_sub _ _ _ _ _ _ _ Hc N S2 Hb R) as (A1 & A2 & A3). split; [|split].
  - intros Hf. specialize (A3 Hf). destruct y; congruence.
  - intros c. destruct y; discriminate.
  - intros ps0 [= <-]. auto.
Qed.
Print Assumptions edge_invents_nothing.

(** C245: so all payloads published, one after the other, are bytes of the connection in
    their order. *)
Theorem made_payloads : forall rounds cap s ps, made_of rounds cap s ps -> bytes s -> sub (concat (map p_data ps)) s.
Proof.
  intros rounds cap s ps [->|(e & h & b & S & _ & _ & ->)] B; [constructor|].
  assert (S2 : sub b s) by (apply (sub_trans _ (h ++ b)); [apply sub_front, sub_refl|exact S]).
  destruct (spec_flv_all_segments cap e rounds b (sub_bytes _ _ S2 B)) as (segs & rest & Hs & HF). apply (sub_trans _ b); [|exact S2]. rewrite Hs in HF |- *. apply sub_back, sub_payloads, HF.
Qed.
Print Assumptions made_payloads.

(** A body whose second chunk is broken: the packets of the first are published, all
    payloads being bytes sent; the same answer to an edge, cut in the middle. *)
Definition n_chunks : list Z := enc (take 64 ex_flv) ++ str "5x" ++ [13; 10] ++ drop 64 ex_flv.
Example invents_nothing_cases :
  fst (run_plain (over_body (flv_decode_prog 9 (repeat 0 64)) (hb_new true (-1))) (mktr [take 30 n_chunks; drop 30 n_chunks] 1004)) = Ok (Ok (take 2 flv_ex_packets, Err ERROR_HTTP_CHUNKED_INVALID)) /\
  zlen (concat (map p_data (take 2 flv_ex_packets))) = 5 /\ 15 <= zlen (repeat 0 64) < 2 ^ 62 /\ bytes (ex_te ++ n_chunks) /\
  fst (edge_http ex_lib input_exts (fun _ => flv_decode_prog 9 (repeat 0 64)) ex_q true (mktr [ex_te; n_chunks] 1004) (mksk [] None 7)) = (Ok ERROR_HTTP_CHUNKED_INVALID, Some (take 2 flv_ex_packets)).
Proof.
  split; [vm_compute; reflexivity|]. split; [vm_compute; reflexivity|]. split; [vm_compute; split; [discriminate|reflexivity]|]. split; [|vm_compute; reflexivity].
  apply Forall_forall. intros x Hx. assert (H : forallb (fun x => (0 <=? x) && (x <? 256)) (ex_te ++ n_chunks) = true) by (vm_compute; reflexivity).
  rewrite forallb_forall in H. specialize (H x Hx). unfold byte. lia.
Qed.
