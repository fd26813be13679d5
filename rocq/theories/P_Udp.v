(** Properties of UDP sessions. *)
From Verif Require Import Base M_Text S_Http L_Http2 L_Http3 M_Udp S_Udp L_Udp.

(** C42: for every interleaving of arrivals and reads, what was delivered
    followed by what is queued is the arrivals with some left out, at most 4000
    datagrams are queued, and an arrival is refused only when 4000 are queued:
    otherwise it is appended unchanged. *)
Theorem udp_queue_fifo : forall ops rs q, q_run uq_new ops = (rs, q) ->
  sublist (delivered rs ++ uq_list q) (arrivals ops) /\ zlen (uq_list q) <= 4000 /\
  (forall d, uq_list (snd (q_run uq_new (ops ++ [QPush d]))) = if zlen (uq_list q) <? 4000 then uq_list q ++ [d] else uq_list q).
Proof.
  intros ops rs q H. destruct (q_run_fifo ops _ _ _ q_inv_new H) as (A & B). split; [exact A|]. split; [apply B|].
  intros d. rewrite q_run_app, H. cbn [q_run snd]. destruct B as (B1 & B2). unfold uq_push, uq_max.
  destruct (4000 <=? uq_size q) eqn:E; destruct (zlen (uq_list q) <? 4000) eqn:E2; try lia; reflexivity.
Qed.
Example udp_queue_fifo_case :
  q_run uq_new [QPush (str "ab"); QPush (str "cde"); QRead 10; QRead 1; QRead 10; QRead 10]
  = ([Ok (str "ab"); Err ERROR_SOCKET_BUFFER_SMALL; Ok (str "cde"); Err ERROR_SOCKET_TIMEOUT], mkuq [] 0).
Proof. reflexivity. Qed.
Print Assumptions udp_queue_fifo.

(** C42: if at most 4000 arrivals are ever unread and every read offers room for
    any datagram, nothing at all is lost: what was delivered followed by what is
    queued is exactly the arrivals. *)
Theorem udp_queue_no_loss : forall n ops rs q, room n ops -> backlog_ok 4000 0 ops -> q_run uq_new ops = (rs, q) ->
  delivered rs ++ uq_list q = arrivals ops.
Proof. intros n ops rs q Hr Hb H. apply (q_run_no_loss n ops uq_new rs q q_inv_new); [constructor|exact Hr|exact Hb|exact H]. Qed.
Example udp_queue_no_loss_case : let ops := [QPush (str "ab"); QRead 1500; QRead 1500; QPush []; QPush (str "c"); QRead 1500] in
  room 1500 ops /\ backlog_ok 4000 0 ops /\ q_run uq_new ops = ([Ok (str "ab"); Err ERROR_SOCKET_TIMEOUT; Ok []], mkuq [str "c"] 1).
Proof.
  intros ops. split; [|split; [|reflexivity]].
  - unfold ops, room. repeat (constructor; [vm_compute; discriminate|]). constructor.
  - cbn. lia.
Qed.
Print Assumptions udp_queue_no_loss.

(** C42: once a datagram larger than every later read is at the head, every read
    fails with the same error, whatever else arrives, and the datagram stays. *)
Theorem udp_queue_wedged : forall d l n0 ops rs q,
  Forall (fun op => match op with QRead n => n < zlen d | _ => True end) ops ->
  q_run (mkuq (d :: l) n0) ops = (rs, q) ->
  Forall (fun r => r = Err ERROR_SOCKET_BUFFER_SMALL) rs /\ delivered rs = [] /\ (exists l', uq_list q = d :: l').
Proof.
  intros d l n0 ops rs q Hs H. destruct (q_run_wedge d ops (mkuq (d :: l) n0) rs q l eq_refl Hs H) as (A & B).
  split; [exact A|]. split; [|exact B]. clear - A. induction A as [|r rs -> _ IH]; [reflexivity|exact IH].
Qed.
Example udp_queue_wedged_case : fst (q_run (mkuq [repeat 7 1400] 1) [QRead 1316; QPush (str "x"); QRead 1316; QRead 1399])
  = [Err ERROR_SOCKET_BUFFER_SMALL; Err ERROR_SOCKET_BUFFER_SMALL; Err ERROR_SOCKET_BUFFER_SMALL].
Proof. reflexivity. Qed.
Print Assumptions udp_queue_wedged.

(** C95: a read of exactly [size] bytes succeeds when the size falls on a
    datagram boundary, and returns the datagrams joined in order. *)
Theorem udp_read_fully_aligned : forall a b n size fuel, zlen (concat a) = size -> (length a < fuel)%nat ->
  (forall p d s, a = p ++ d :: s -> zlen (concat p) < size) ->
  exists m, uq_read_fully fuel (mkuq (a ++ b) n) size [] = (Ok (concat a), mkuq b m).
Proof.
  intros a b n size fuel Hs Hf Hp. destruct (read_fully_exact a fuel (mkuq (a ++ b) n) size [] b eq_refl Hf) as (m & Hm).
  - change (zlen (@nil Z)) with 0. lia.
  - intros p d s Ha. change (zlen (@nil Z)) with 0. apply Hp in Ha. lia.
  - exists m. exact Hm.
Qed.
Example udp_read_fully_aligned_case :
  uq_read_fully 4 (mkuq [str "ab"; []; str "cd"; str "e"] 4) 4 [] = (Ok (str "abcd"), mkuq [str "e"] 1).
Proof. reflexivity. Qed.
Print Assumptions udp_read_fully_aligned.

(** C95: when the size falls inside a datagram the read fails, and the datagrams
    before it are gone: the reader gets an error and the queue no longer has
    them. *)
Theorem udp_read_fully_loses : forall a d b n size fuel, zlen (concat a) < size < zlen (concat a) + zlen d -> (length a < fuel)%nat ->
  exists m, uq_read_fully fuel (mkuq (a ++ d :: b) n) size [] = (Err ERROR_SOCKET_BUFFER_SMALL, mkuq (d :: b) m).
Proof.
  intros a d b n size fuel Hs Hf. apply (read_fully_cut a fuel (mkuq (a ++ d :: b) n) size [] d b eq_refl Hf).
  change (zlen (@nil Z)) with 0. lia.
Qed.
Example udp_read_fully_loses_case :
  uq_read_fully 4 (mkuq [str "ab"; str "cde"; str "f"] 3) 4 [] = (Err ERROR_SOCKET_BUFFER_SMALL, mkuq [str "cde"; str "f"] 2).
Proof. reflexivity. Qed.
Print Assumptions udp_read_fully_loses.

(** C96: no sequence of arrivals, accepts, reads, writes and closes makes the
    server use a session that is gone, and at every moment at most one live
    session answers to a set of addresses. *)
Theorem udp_server_safe : forall nt ops os s, u_run nt uv_start ops = (os, s) ->
  ~ In UCrash os /\
  (forall i j u v, get_sess s i = Some u -> get_sess s j = Some v -> ukey (us_addr u) = ukey (us_addr v) -> i = j).
Proof.
  intros nt ops os s H. destruct (u_run_inv nt ops _ _ _ uinv_start H) as ((N & Hm) & Hc). split; [exact Hc|].
  intros i j u v Hu Hv Hk.
  assert (map_find (ukey (us_addr u)) (uv_map s) = Some i) as F1 by (apply map_find_of; [exact N|apply Hm; eauto]).
  assert (map_find (ukey (us_addr u)) (uv_map s) = Some j) as F2 by (apply map_find_of; [exact N|apply Hm; eauto]).
  congruence.
Qed.
Example udp_server_safe_case :
  fst (u_run ex_nt uv_start [UArrive ex_alice [127; 0; 0; 1] [] (str "a"); UAccept; URead 0 10; UDestroy 0; UArrive ex_alice [127; 0; 0; 1] [] (str "b"); UAccept; URead 1 10])
  = [UNone; UAccepted 0; UGot (Ok (str "a")); UNone; UNone; UAccepted 1; UGot (Ok (str "b"))].
Proof. reflexivity. Qed.
Print Assumptions udp_server_safe.

(** C97: while a session lives, its reads return what its own queue would
    return if only the datagrams of its addresses, cut to 4096 bytes, and its
    own reads took place: other sessions' traffic, closes and accepts change
    nothing. *)
Theorem udp_sessions_isolated : forall nt pre os0 s i u ops os s',
  u_run nt uv_start pre = (os0, s) -> get_sess s i = Some u -> ~ In (UDestroy i) ops -> u_run nt s ops = (os, s') ->
  reads_of i ops os = fst (q_run (us_q u) (view_of nt (ukey (us_addr u)) i ops)) /\
  (exists u', get_sess s' i = Some u' /\ us_addr u' = us_addr u).
Proof.
  intros nt pre os0 s i u ops os s' H0 Hg Hd H. destruct (u_run_inv nt pre _ _ _ uinv_start H0) as (Hi & _).
  destruct (u_run_view nt i ops s os s' u Hi Hg Hd H) as (u' & Hg' & Ha & Hq). rewrite Hq. split; [reflexivity|eauto].
Qed.
Example udp_sessions_isolated_case : let pre := [UArrive ex_alice [127; 0; 0; 1] [] (str "a"); UArrive ex_bob [2; 0; 1; 187] [1;2;3;4] (str "b"); UAccept; UAccept] in
  let ops := [UArrive ex_bob [127; 0; 0; 1] [] (str "c"); URead 1 5; UDestroy 1; URead 0 5; URead 0 5] in
  reads_of 0 ops (fst (u_run ex_nt (snd (u_run ex_nt uv_start pre)) ops)) = [Ok (str "a"); Ok (str "c")] /\
  view_of ex_nt (ukey (mkad [] 0 [] 0)) 0 ops = [QPush (str "c"); QRead 5; QRead 5].
Proof. split; reflexivity. Qed.
Print Assumptions udp_sessions_isolated.

(** C98 fails: sessions are not told apart by sender.  Nothing the server does
    depends on who sent a datagram. *)
Theorem udp_sender_ignored : forall nt f ops, u_run nt uv_start (map (resend f) ops) = u_run nt uv_start ops.
Proof. intros. apply u_run_resend. Qed.
Example udp_sender_ignored_case : exists s, u_run ex_nt uv_start [UArrive ex_alice [127; 0; 0; 1] [] (str "a"); UArrive ex_bob [127; 0; 0; 1] [] (str "b"); UAccept; URead 0 9; URead 0 9; UAccept]
  = ([UNone; UNone; UAccepted 0; UGot (Ok (str "a")); UGot (Ok (str "b")); UWaits], s).
Proof. eexists. vm_compute. reflexivity. Qed.
Print Assumptions udp_sender_ignored.

(** C98: with destination addresses other than 2.0.x.y and 10.0.x.y there is
    never more than one live session, however many senders and destinations. *)
Theorem udp_one_session : forall nt ops os s, Forall ordinary ops -> u_run nt uv_start ops = (os, s) -> (length (live s) <= 1)%nat.
Proof.
  intros nt ops os s Ho H. apply (one_key s (mkad [] 0 [] 0)).
  - apply (u_run_inv nt ops _ _ _ uinv_start H).
  - refine (u_run_addr nt _ ops _ _ _ (start_addr _) _ H). intros src dst pad data Hin.
    rewrite Forall_forall in Ho. apply (ordinary_key nt src dst pad data). apply Ho. exact Hin.
Qed.
Example udp_one_session_case : let ops := [UArrive ex_alice [127; 0; 0; 1] [] (str "a"); UArrive ex_bob [192; 168; 1; 1] [] (str "b"); UAccept] in
  Forall ordinary ops /\ live (snd (u_run ex_nt uv_start ops)) = [0%nat].
Proof. split; [repeat constructor; discriminate|reflexivity]. Qed.
Print Assumptions udp_one_session.

(** C99 fails: replies do not reach the peer.  Whatever is written on a session
    is sent to address 0.0.0.0, port 0, for every sequence of events. *)
Theorem udp_replies_misdirected : forall nt ops os s, u_run nt uv_start ops = (os, s) ->
  Forall (fun o => match o with USent ip port _ => ip = [0; 0; 0; 0] /\ port = 0 | _ => True end) os.
Proof. intros nt ops os s H. exact (u_run_sent nt ops uv_start os s (start_addr _) H). Qed.
Example udp_replies_misdirected_case :
  fst (u_run ex_nt uv_start [UArrive ex_alice [127; 0; 0; 1] [] (str "hi"); UAccept; UWrite 0 (str "reply")])
  = [UNone; UAccepted 0; USent [0; 0; 0; 0] 0 (str "reply")].
Proof. reflexivity. Qed.
Print Assumptions udp_replies_misdirected.

(** C100: a datagram of more than 4096 bytes is delivered cut to its first 4096
    bytes, with no error. *)
Theorem udp_long_datagram_cut : forall nt src dst pad data n, 4096 < zlen data -> 4096 <= n ->
  exists s, u_run nt uv_start [UArrive src dst pad data; UAccept; URead 0 n] = ([UNone; UAccepted 0; UGot (Ok (take 4096 data))], s).
Proof.
  intros nt src dst pad data n Hd Hn. unfold u_run, u_step, u_arrive, uv_start. cbn [uv_map map_find uv_sess length uv_new app fst].
  unfold get_sess. cbn [uv_sess nth_error]. unfold uq_push, uq_max, uq_new. cbn [uq_size uq_list us_q us_addr app Z.leb Z.compare].
  unfold uq_read. cbn [uq_list].
  assert (zlen (take 4096 data) = 4096) as Hz by (rewrite zlen_take; lia). replace (n <? zlen (take 4096 data)) with false by lia.
  eexists. reflexivity.
Qed.
Example udp_long_datagram_cut_case : 4096 < zlen (repeat 0 5000) /\ 4096 <= 65536.
Proof. split; [reflexivity|lia]. Qed.
Print Assumptions udp_long_datagram_cut.

(** C129: the key of a UDP session determines the peer's address and port it
    was built from. *)
Theorem udp_key_names_peer : forall a b, ~ In 45 (ad_pip a) -> ~ In 45 (ad_pip b) -> 0 <= ad_pport a -> 0 <= ad_pport b ->
  ukey a = ukey b -> ad_pip a = ad_pip b /\ ad_pport a = ad_pport b.
Proof.
  intros a b Ha Hb Pa Pb H. unfold ukey in H.
  assert (Hd : forall n, 0 <= n -> Forall (fun c => 48 <= c <= 57) (decs n)).
  { intros n Hn. exact (dec_number_chars _ _ (decs_ok n Hn)). }
  assert (Hval : forall l n, dec_number l n -> fold_left (fun acc c => 10 * acc + (c - 48)) l 0 = n).
  { intros l n D. induction D; [cbn; lia|]. rewrite fold_left_app, IHD. reflexivity. }
  assert (Hcut : forall (c : Z) x y u v, ~ In c x -> ~ In c y -> x ++ c :: u = y ++ c :: v -> x = y /\ u = v).
  { intros c x. induction x as [|x0 x IH]; intros [|y0 y] u v Hx Hy E; cbn [app] in E.
    - injection E as ->. auto.
    - injection E as -> _. destruct Hy. left. reflexivity.
    - injection E as <- _. destruct Hx. left. reflexivity.
    - injection E as <- E. destruct (IH y u v) as [-> ->]; [intros Hi; apply Hx; right; exact Hi|intros Hi; apply Hy; right; exact Hi|exact E|auto]. }
  assert (Hno : forall c n, 0 <= n -> c < 48 \/ 57 < c -> ~ In c (decs n)).
  { intros c n Hn Hc Hi. specialize (Hd n Hn). rewrite Forall_forall in Hd. specialize (Hd c Hi). cbn beta in Hd. lia. }
  change (str ":") with [58] in H. change (str "->") with [45; 62] in H.
  assert (E1 : ad_pip a ++ [58] ++ decs (ad_pport a) = ad_pip b ++ [58] ++ decs (ad_pport b)).
  { apply (Hcut 45 _ _ (62 :: ad_sip a ++ decs (ad_sport a)) (62 :: ad_sip b ++ decs (ad_sport b))).
    - intros Hi. apply in_app_or in Hi as [Hi|[Hi|Hi]]; [auto|lia|]. revert Hi. apply Hno; [exact Pa|lia].
    - intros Hi. apply in_app_or in Hi as [Hi|[Hi|Hi]]; [auto|lia|]. revert Hi. apply Hno; [exact Pb|lia].
    - rewrite <- !app_assoc. cbn [app] in H |- *. exact H. }
  apply (f_equal (@rev Z)) in E1. rewrite !rev_app_distr in E1. cbn [rev app] in E1. rewrite <- !app_assoc in E1. cbn [app] in E1.
  destruct (Hcut 58 _ _ _ _ (fun Hi => Hno 58 _ Pa ltac:(lia) (proj2 (in_rev _ _) Hi)) (fun Hi => Hno 58 _ Pb ltac:(lia) (proj2 (in_rev _ _) Hi)) E1) as [E2 E3].
  apply (f_equal (@rev Z)) in E2, E3. rewrite !rev_involutive in E2, E3. split; [exact E3|].
  pose proof (decs_ok _ Pa) as Da. pose proof (decs_ok _ Pb) as Db. rewrite E2 in Da. apply Hval in Da, Db. congruence.
Qed.
Print Assumptions udp_key_names_peer.
Example udp_key_names_peer_case :
  ukey (mkad (str "10.0.0.1") 4000 (str "10.0.0.9") 53) = str "10.0.0.1:4000->10.0.0.953" /\
  ukey (mkad (str "10.0.0.1") 4000 [] 0) <> ukey (mkad (str "10.0.0.1") 400 [] 0) /\
  ukey (mkad (str "10.0.0.1") 4000 [] 0) <> ukey (mkad (str "10.0.0.2") 4000 [] 0).
Proof. repeat split; discriminate. Qed.
(** The name each datagram is filed under. *)
Theorem udp_datagram_name : forall nt src a b c d behind,
  ukey (recv_addrs nt src [a; b; c; d] behind) = filed_under nt a b c d behind.
Proof.
  intros nt src a b c d behind. unfold ukey, recv_addrs, dst_view, filed_under. cbn [ad_pip ad_pport ad_sip ad_sport].
  change (take 4 behind) with (firstn 4 behind). change (take 16 behind) with (firstn 16 behind).
  replace (256 * c + d) with (c * 256 + d) by lia.
  destruct (Z.eqb_spec a 2) as [->|H2]; [|destruct (Z.eqb_spec a 10) as [->|H10]].
  - destruct (Z.eqb_spec b 0) as [->|Hb]; [reflexivity|]. cbn [andb]. change (2 =? 10) with false. cbn [andb].
    destruct b; [lia|reflexivity..].
  - change (10 =? 2) with false. cbn [andb]. destruct (Z.eqb_spec b 0) as [->|Hb]; [reflexivity|]. destruct b; [lia|reflexivity..].
  - replace (a =? 2) with false by lia. cbn [andb].
    destruct a as [|p|p]; [reflexivity| |reflexivity].
    do 4 (try (destruct p as [p|p|]; try reflexivity)); lia.
Qed.
Print Assumptions udp_datagram_name.
Example udp_datagram_name_case :
  ukey (recv_addrs (mknt (fun l => l) (fun l => l)) (str "9.9.9.9", 99) [2; 0; 1; 2] [7; 8; 9; 10; 11]) = str ":0->" ++ [7; 8; 9; 10] ++ str "258" /\
  ukey (recv_addrs (mknt (fun l => l) (fun l => l)) (str "9.9.9.9", 99) [192; 168; 1; 2] [7; 8; 9; 10; 11]) = str ":0->0".
Proof. split; reflexivity. Qed.
(** It does not determine the destination: address and port are written
    without a separator, so datagrams to two destinations share a session. *)
Definition dotted (l : list Z) : list Z :=
  match l with [a; b; c; d] => decs a ++ [46] ++ decs b ++ [46] ++ decs c ++ [46] ++ decs d | _ => [] end.
Theorem udp_key_names_destination_refuted : exists nt src d1 p1 d2 p2 os s,
  dst_view nt d1 p1 = (str "1.2.3.4", 56) /\ dst_view nt d2 p2 = (str "1.2.3.45", 6) /\
  u_run nt uv_start [UArrive src d1 p1 (str "a"); UArrive src d2 p2 (str "b"); UAccept; URead 0 9; URead 0 9; UAccept] = (os, s) /\
  os = [UNone; UNone; UAccepted 0; UGot (Ok (str "a")); UGot (Ok (str "b")); UWaits].
Proof.
  exists (mknt dotted dotted), ([], 0), [2; 0; 0; 56], [1; 2; 3; 4], [2; 0; 0; 6], [1; 2; 3; 45]. do 2 eexists.
  split; [reflexivity|]. split; [reflexivity|]. split; vm_compute; reflexivity.
Qed.
Print Assumptions udp_key_names_destination_refuted.
