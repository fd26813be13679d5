(** Properties of TCP and TLS sockets and of the accept loop. *)
From Verif Require Import Base M_IO M_Srt M_Tls S_Tls L_Tls.

(** C108 fails: a TCP server does not survive a failing accept.  The loop
    hands out the connections accepted before the first failure (no descriptor
    left, an aborted connection) and then uses a null pointer. *)
Theorem tcp_accept_failure_crashes : forall good bad l, bad = KaNull \/ bad = KaNoName ->
  accept_loop (map tcp_accept (map KaSock good ++ bad :: l)) = (good, UB).
Proof.
  intros good bad l H. induction good as [|i good IH]; cbn [map app].
  - destruct H as [-> | ->]; reflexivity.
  - cbn [tcp_accept accept_loop]. rewrite IH. reflexivity.
Qed.
Example tcp_accept_failure_case : accept_loop (map tcp_accept [KaSock 1; KaSock 2; KaNull; KaSock 3]) = ([1; 2]%nat, UB).
Proof. reflexivity. Qed.
Print Assumptions tcp_accept_failure_crashes.

(** C108: without failures the loop hands out every connection, in order, and
    goes on. *)
Theorem tcp_accept_all : forall good, accept_loop (map tcp_accept (map KaSock good)) = (good, Fuel).
Proof. induction good as [|i good IH]; [reflexivity|]. cbn [map tcp_accept accept_loop]. rewrite IH. reflexivity. Qed.
Example tcp_accept_all_case : accept_loop (map tcp_accept (map KaSock [7; 8; 9]%nat)) = ([7; 8; 9]%nat, Fuel).
Proof. reflexivity. Qed.
Print Assumptions tcp_accept_all.

(** C108 fails for SRT in another way: every failing accept is handed out as a
    connection and the loop goes on, so a listening socket that keeps failing
    yields connections without end. *)
Theorem srt_accept_failures_spin : forall n,
  accept_loop (map srt_accept (repeat [SaFail] n)) = (repeat SRT_ERROR n, Fuel).
Proof. induction n as [|n IH]; [reflexivity|]. cbn [repeat map]. unfold srt_accept at 1. cbn [st_srt_accept accept_loop]. rewrite IH. reflexivity. Qed.
Example srt_accept_failures_case : accept_loop (map srt_accept [[SaFail]; [SaAgain 0; SaSock 5]; [SaFail]]) = ([-1; 5; -1], Fuel).
Proof. reflexivity. Qed.
Print Assumptions srt_accept_failures_spin.

(** C109: however the network divides the client's two flights, a TLS accept
    succeeds, has sent the server's two flights and nothing else, and what comes
    in later packets is still there to be read. *)
Theorem tls_accept_any_division : forall E (g : engine E) R1 R2 Dn ch f1 ck f2 fuel e ds1 ds2 rest err i,
  two_flights g R1 R2 Dn ch f1 ck f2 -> ch <> [] -> f1 <> [] -> ck <> [] -> f2 <> [] -> R1 e [] [] ->
  pieces_of ds1 ch -> pieces_of ds2 ck -> (length ch < fuel)%nat -> (length ck < fuel)%nat ->
  exists e', Dn e' /\ ssl_accept fuel g KwAll KwAll (Ok tt) (mktls e [] [] (mktr (ds1 ++ ds2 ++ rest) err) [] i)
    = (Ok tt, mktls e' [] [] (mktr rest err) (f1 ++ f2) i).
Proof.
  intros E g R1 R2 Dn ch f1 ck f2 fuel e ds1 ds2 rest err i T N1 N2 N3 N4 HR (C1 & F1) (C2 & F2) L1 L2.
  destruct (@exists_last _ ds1) as (cs1 & a1 & ->); [intros ->; cbn in C1; congruence|].
  destruct (@exists_last _ ds2) as (cs2 & a2 & ->); [intros ->; cbn in C2; congruence|].
  rewrite concat_app in C1, C2. cbn [concat] in C1, C2. rewrite app_nil_r in C1, C2.
  apply Forall_app in F1, F2. destruct F1 as (F1 & G1), F2 as (F2 & G2).
  pose proof (accept_run g R1 R2 Dn ch f1 ck f2 T N2 N4 fuel e cs1 a1 cs2 a2 [] rest err i HR C1 (Forall_inv G1) F1 C2 (Forall_inv G2) F2 (or_introl eq_refl) L1 L2) as H.
  rewrite app_nil_r in H. rewrite <- !app_assoc. exact H.
Qed.
Example tls_accept_any_division_case :
  ssl_accept 9 toy KwAll KwAll (Ok tt) (mktls 0%nat [] [] (mktr [[1]; [2]; [4]; [5]; [71; 69; 84]] 1004) [] false)
  = (Ok tt, mktls 2%nat [] [] (mktr [[71; 69; 84]] 1004) [3; 6] false).
Proof. reflexivity. Qed.
Example tls_accept_contract_met : two_flights toy (fun e r p => e = O /\ r = p) (fun e r p => e = 1%nat /\ r = p) (fun e => e = 2%nat) [1; 2] [3] [4; 5] [6].
Proof. exact toy_ok. Qed.
Print Assumptions tls_accept_any_division.

(** C110 fails: data the client sends right behind its last flight is lost when
    both arrive in one read: the accept succeeds, but the data is neither in the
    socket's input nor in the connection. *)
Theorem tls_accept_loses_early_data : forall E (g : engine E) R1 R2 Dn ch f1 ck f2 fuel e ds1 ds2 a x rest err i,
  two_flights g R1 R2 Dn ch f1 ck f2 -> ch <> [] -> f1 <> [] -> f2 <> [] -> R1 e [] [] ->
  pieces_of ds1 ch -> pieces_of (ds2 ++ [a]) ck -> zlen (a ++ x) <= 1024 -> (length ch < fuel)%nat -> (length ck < fuel)%nat ->
  exists e', Dn e' /\ ssl_accept fuel g KwAll KwAll (Ok tt) (mktls e [] [] (mktr (ds1 ++ ds2 ++ (a ++ x) :: rest) err) [] i)
    = (Ok tt, mktls e' [] [] (mktr rest err) (f1 ++ f2) i).
Proof.
  intros E g R1 R2 Dn ch f1 ck f2 fuel e ds1 ds2 a x rest err i T N1 N2 N4 HR (C1 & F1) (C2 & F2) Hx L1 L2.
  destruct (@exists_last _ ds1) as (cs1 & a1 & ->); [intros ->; cbn in C1; congruence|].
  rewrite concat_app in C1, C2. cbn [concat] in C1, C2. rewrite app_nil_r in C1, C2.
  apply Forall_app in F1, F2. destruct F1 as (F1 & G1), F2 as (F2 & G2).
  rewrite <- app_assoc. exact (accept_run g R1 R2 Dn ch f1 ck f2 T N2 N4 fuel e cs1 a1 ds2 a x rest err i HR C1 (Forall_inv G1) F1 C2 (Forall_inv G2) F2 (or_intror Hx) L1 L2).
Qed.
Example tls_accept_loses_early_data_case :
  ssl_accept 9 toy KwAll KwAll (Ok tt) (mktls 0%nat [] [] (mktr [[1; 2]; [4; 5; 71; 69; 84]; [10]] 1004) [] false)
  = (Ok tt, mktls 2%nat [] [] (mktr [[10]] 1004) [3; 6] false).
Proof. reflexivity. Qed.
Print Assumptions tls_accept_loses_early_data.

(** C111 fails: a TLS socket whose handshake failed reports success when it is
    asked again, without any handshake. *)
Theorem tls_init_again_succeeds : forall E (g g' : engine E) fuel fuel' k1 k2 k1' k2' cert cert' s r s',
  ssl_init fuel g k1 k2 cert s = (r, s') -> ssl_init fuel' g' k1' k2' cert' s' = (Ok tt, s').
Proof.
  intros E g g' fuel fuel' k1 k2 k1' k2' cert cert' s r s' H. unfold ssl_init in H.
  assert (K : tl_init s' = true).
  { destruct (tl_init s) eqn:Hi; [injection H as <- <-; exact Hi|]. apply accept_init in H. exact H. }
  unfold ssl_init. rewrite K. reflexivity.
Qed.
Example tls_init_again_case : let s := mktls 0%nat [] [] (mktr [[1]] ERROR_SOCKET_CLOSED) [] false in
  let '(r, s1) := ssl_init 9 toy KwAll KwAll (Ok tt) s in
  r = Err ERROR_SOCKET_CLOSED /\ fst (ssl_init 9 toy KwAll KwAll (Ok tt) s1) = Ok tt /\ tl_sent s1 = [].
Proof. cbn. repeat split; reflexivity. Qed.
Print Assumptions tls_init_again_succeeds.

(** C112: as long as every handshake ends, exactly the connections whose
    handshake went well are handed out, in order. *)
Theorem tls_acceptor_good : forall l, Forall (fun c => snd c <> HeBlocks) l -> tls_acceptor l = good_conns l.
Proof.
  induction l as [|[i h] l IH]; intros H; [reflexivity|]. pose proof (Forall_inv H) as Hh. pose proof (IH (Forall_inv_tail H)) as K. cbn in Hh.
  destruct h; cbn [tls_acceptor good_conns]; [rewrite K; reflexivity|exact K|congruence].
Qed.
Example tls_acceptor_good_case : tls_acceptor [(1, HeOk); (2, HeFail); (3, HeOk)]%nat = [1; 3]%nat.
Proof. reflexivity. Qed.
Print Assumptions tls_acceptor_good.

(** C112 fails: one client that connects and sends nothing stops all others;
    nothing after it is ever handed out. *)
Theorem tls_acceptor_one_client_blocks_all : forall l i m, Forall (fun c => snd c <> HeBlocks) l ->
  tls_acceptor (l ++ (i, HeBlocks) :: m) = good_conns l.
Proof.
  induction l as [|[j h] l IH]; intros i m H; [reflexivity|]. pose proof (Forall_inv H) as Hh. pose proof (IH i m (Forall_inv_tail H)) as K. cbn in Hh.
  destruct h; cbn [app tls_acceptor good_conns]; [rewrite K; reflexivity|exact K|congruence].
Qed.
Example tls_acceptor_blocks_case : tls_acceptor [(1, HeOk); (2, HeBlocks); (3, HeOk); (4, HeOk)]%nat = [1]%nat.
Proof. reflexivity. Qed.
Print Assumptions tls_acceptor_one_client_blocks_all.

(** C113: a TLS write that succeeds has encrypted exactly the data, in order and
    in pieces, and has sent exactly what the encryption of the rounds gave. *)
Theorem tls_write_complete : forall rounds data ps wire w1,
  ssl_write rounds data [] = (ps, wire, Ok tt, w1) ->
  concat ps = data /\ w1 = [] /\ exists used unused, rounds = used ++ unused /\ wire = encs used /\ length used = length ps.
Proof.
  induction rounds as [|r l IH]; intros data ps wire w1 H; destruct data as [|b data]; cbn [ssl_write] in H; try discriminate.
  destruct r as [n enc k|]; [|discriminate]. cbn [app] in H. destruct (tcp_write enc k) as [u|c| |]; try discriminate.
  destruct (zlen (b :: data) <=? n) eqn:Hn.
  - injection H as <- <- <-. apply Z.leb_le in Hn. cbn [concat]. rewrite app_nil_r, take_all by exact Hn. repeat split.
    exists [TwTook n enc k], l. cbn [encs length]. rewrite app_nil_r. repeat split.
  - destruct (ssl_write l (drop n (b :: data)) []) as [[[ps' wire'] r'] w'] eqn:H2. injection H as <- <- -> <-.
    destruct (IH _ _ _ _ H2) as (C & W & used & unused & U1 & U2 & U3). cbn [concat]. rewrite C, take_drop. repeat split; [exact W|].
    exists (TwTook n enc k :: used), unused. rewrite U1, U2. cbn [encs app length]. rewrite U3. repeat split.
Qed.
Example tls_write_complete_case :
  ssl_write [TwTook 2 [91; 92] KwAll; TwTook 1 [93] KwAll] [5; 6; 7] [] = ([[5; 6]; [7]], [91; 92; 93], Ok tt, []).
Proof. reflexivity. Qed.
Print Assumptions tls_write_complete.

(** C114 fails: when the connection refuses the ciphertext (a timeout, of which
    some may have been sent), it stays behind and the next write sends it again
    in front of its own. *)
Theorem tls_write_resends : forall n enc data l k c n2 enc2 data2 l2, data <> [] -> enc <> [] -> data2 <> [] -> zlen data2 <= n2 ->
  tcp_write enc k = Err c ->
  let '(_, r, w1) := ssl_write (TwTook n enc k :: l) data [] in
  r = Err c /\ ssl_write (TwTook n2 enc2 KwAll :: l2) data2 w1 = ([take n2 data2], enc ++ enc2, Ok tt, []).
Proof.
  intros n enc data l k c n2 enc2 data2 l2 H1 H2 H3 H4 Hk. destruct data as [|b data]; [congruence|]. cbn [ssl_write app]. rewrite Hk.
  split; [reflexivity|]. destruct data2 as [|b2 data2]; [congruence|]. destruct enc as [|e enc]; [congruence|].
  cbn [ssl_write]. cbn [app tcp_write]. apply Z.leb_le in H4. rewrite H4. reflexivity.
Qed.
Example tls_write_resends_case :
  ssl_write [TwTook 1 [91; 92] KwTime] [5] [] = ([[5]], [], Err ERROR_SOCKET_TIMEOUT, [91; 92]) /\
  ssl_write [TwTook 1 [93] KwAll] [6] [91; 92] = ([[6]], [91; 92; 93], Ok tt, []).
Proof. split; reflexivity. Qed.
Print Assumptions tls_write_resends.

(** C115: reads of any sizes on a TLS socket return the plaintext of the
    ciphertext received so far, in order, none lost or repeated, however the
    network divides the ciphertext; every successful read returns at least one
    byte and at most what was asked for, and when the connection ends all the
    plaintext has been returned. *)
Theorem tls_reads_in_order : forall E (g : reader E) R dec fuel e io sizes rs e' rb' io',
  decrypts g R dec -> R e [] [] [] -> Forall (fun n => 0 < n) sizes ->
  Forall (fun c => c <> []) (t_chunks io) -> (length (concat (t_chunks io)) < fuel)%nat ->
  ssl_reads fuel g (e, [], io) sizes = (rs, (e', rb', io')) ->
  exists used, concat (t_chunks io) = used ++ concat (t_chunks io') /\ (exists t, dec used = concat (tls_oks rs) ++ t) /\
  (rs <> [] -> last rs Fuel = Err (t_err io) -> t_err io <> ERROR_SSL_READ -> dec used = concat (tls_oks rs)) /\
  Forall2 (fun n r => match r with Ok d => 0 < zlen d <= n | Err _ => True | _ => False end) sizes rs.
Proof.
  intros E g R dec fuel e io sizes rs e' rb' io' D HR Hs HF Hl H.
  exact (ssl_reads_ok g R dec D fuel sizes e [] io [] [] rs e' rb' io' HR (ex_intro _ (dec []) eq_refl) Hs HF Hl H).
Qed.
Example tls_reads_in_order_case :
  fst (ssl_reads 9 toy_rd (tt, [], mktr [[10; 11; 12]; [13]] 1004) [2; 2; 5; 1]) = [Ok [11; 10]; Ok [13]; Ok [12]; Err 1004].
Proof. reflexivity. Qed.
Example tls_reads_contract_met : decrypts toy_rd (fun _ r c q => exists p, c = p ++ r /\ q = map (Z.lxor 1) p) (map (Z.lxor 1)).
Proof. exact toy_rd_ok. Qed.
Print Assumptions tls_reads_in_order.
