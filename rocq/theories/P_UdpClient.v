(** UDP client sockets and the UDP load generator. *)
From Verif Require Import Base M_Opt M_UdpClient S_UdpClient L_UdpClient.

(** C225: one read takes one datagram; what does not fit the caller's buffer is
    gone without an error, and the next read has the next datagram. *)
Theorem udp_client_read : forall size d old, 0 < size -> d <> [] -> uc_read size (RDgram d old) = Ok (take size d).
Proof.
  intros size d old Hs Hd. unfold uc_read. destruct d as [|x d]; [congruence|]. rewrite zlen_take by lia.
  pose proof (zlen_nonneg d). rewrite zlen_cons. replace (Z.min size (1 + zlen d) <=? 0) with false by lia. reflexivity.
Qed.
Example udp_client_read_case : uc_read 4 (RDgram (str "abcdef") 0) = Ok (str "abcd").
Proof. reflexivity. Qed.
Print Assumptions udp_client_read.

(** C225: an empty datagram fails the read, with a code that depends on what an
    earlier call left in errno. *)
Theorem udp_client_empty_datagram : forall size old,
  uc_read size (RDgram [] old) = Err (if old =? 4 then ERROR_SOCKET_EINTR else ERROR_SOCKET_READ).
Proof. intros. unfold uc_read, take. rewrite firstn_nil. reflexivity. Qed.
Example udp_client_empty_datagram_case :
  uc_read_fully 4 [] [RDgram (str "ab") 0; RDgram [] 0; RDgram (str "cd") 0] = (Err ERROR_SOCKET_READ, [RDgram (str "cd") 0]).
Proof. reflexivity. Qed.
Print Assumptions udp_client_empty_datagram.

(** C225: a full read of [size] bytes returns the first [size] bytes of the
    datagrams joined, and takes the fewest datagrams that hold so many: what the
    last of them has beyond is lost. *)
Theorem udp_client_full_read : forall ds size tail, filled ds -> 0 <= size <= zlen (concat ds) ->
  exists k, uc_read_fully size [] (arriving ds ++ tail) = (Ok (take size (concat ds)), arriving (skipn k ds) ++ tail)
    /\ (k <= length ds)%nat /\ size <= zlen (concat (firstn k ds))
    /\ (forall j, (j < k)%nat -> zlen (concat (firstn j ds)) < size).
Proof.
  intros ds size tail Hf Hs. destruct (uc_full_gen ds size [] tail Hf) as (k & E & A & B & C); [change (zlen (@nil Z)) with 0; lia|].
  change (zlen (@nil Z)) with 0 in *. rewrite Z.sub_0_r in *. exists k. auto.
Qed.
Example udp_client_full_read_case : filled [str "abc"; str "defg"; str "hi"] /\
  uc_read_fully 5 [] (arriving [str "abc"; str "defg"; str "hi"]) = (Ok (str "abcde"), arriving [str "hi"]).
Proof. split; [repeat constructor; discriminate|reflexivity]. Qed.
Print Assumptions udp_client_full_read.

(** C225: so full reads do not see the stream of bytes that was sent. *)
Theorem udp_client_stream_refuted : exists ds a b x y l1 l2, filled ds /\ a + b <= zlen (concat ds) /\
  uc_read_fully a [] (arriving ds) = (Ok x, l1) /\ uc_read_fully b [] l1 = (Ok y, l2) /\ x ++ y <> take (a + b) (concat ds).
Proof.
  exists [str "abcd"; str "efgh"], 2, 2, (str "ab"), (str "ef"), (arriving [str "efgh"]), [].
  split; [repeat constructor; discriminate|]. split; [vm_compute; discriminate|]. split; [reflexivity|]. split; [reflexivity|]. vm_compute. discriminate.
Qed.
Print Assumptions udp_client_stream_refuted.

(** C225: a write that succeeds has sent exactly its bytes, one that fails a
    beginning of them; with a kernel that sends datagrams whole it is one
    datagram, and an empty write sends none.  Whatever address the socket was
    made for, they go to 0.0.0.0, with the port modulo 2^16. *)
Theorem udp_client_write : forall ip port data rs r sent, uc_send ip port data rs = (r, sent) ->
  (r = Ok tt -> concat (map snd sent) = data) /\ (exists b, data = concat (map snd sent) ++ b)
  /\ Forall (fun x => fst x = ([0; 0; 0; 0], port mod 65536)) sent.
Proof.
  intros ip port data rs r sent H. unfold uc_send in H. destruct (uc_write data rs) as [[r1 ds] l] eqn:E. injection H as <- <-.
  destruct (uc_write_concat _ _ _ _ _ E) as (A & B). rewrite map_map. cbn [snd]. rewrite map_id. split; [exact A|]. split; [exact B|].
  apply Forall_forall. intros x Hx. apply in_map_iff in Hx. destruct Hx as (d & <- & _). reflexivity.
Qed.
Theorem udp_client_write_whole : forall ip port data rs, data <> [] ->
  uc_send ip port data (SSent (zlen data) :: rs) = (Ok tt, [([0; 0; 0; 0], port mod 65536, data)])
  /\ uc_send ip port [] rs = (Ok tt, []).
Proof.
  intros ip port data rs H. split; [|destruct rs; reflexivity]. destruct data as [|x data]; [congruence|].
  unfold uc_send. cbn [uc_write]. unfold take, drop, zlen. rewrite Nat2Z.id, firstn_all, skipn_all. destruct rs; reflexivity.
Qed.
Example udp_client_write_case :
  uc_send (str "192.0.2.7") 5004 (str "media") [SSent 5] = (Ok tt, [([0; 0; 0; 0], 5004, str "media")]) /\
  uc_send (str "192.0.2.7") 5004 (str "media") [SSent 3; SSent 2] = (Ok tt, [([0; 0; 0; 0], 5004, str "med"); ([0; 0; 0; 0], 5004, str "ia")]) /\
  uc_send (str "192.0.2.7") 5004 (str "media") [SSent 3; SFail 62] = (Err ERROR_SOCKET_TIMEOUT, [([0; 0; 0; 0], 5004, str "med")]).
Proof. split; [reflexivity|]. split; reflexivity. Qed.
Print Assumptions udp_client_write.
Print Assumptions udp_client_write_whole.

(** C226: the datagrams of the load generator are numbered from 0 without gaps,
    each with the time of its sending, as long as there are fewer than 2^31. *)
Theorem load_numbered : forall connect connected inter gso rest t0 nows,
  (connect = true -> connected = true) -> zlen nows < 2 ^ 31 -> (0 < inter -> inter * Z.max 1 gso < 2 ^ 63) ->
  let '(evs, r) := tool_main true connect connected inter gso rest t0 (map (fun t => (t, true)) nows) in
  sends evs = numbered 0 nows rest /\ r = Fuel.
Proof.
  intros connect connected inter gso rest t0 nows Hc Hn Hi. unfold tool_main. cbn [negb].
  replace (connect && negb connected) with false by (destruct connect; [rewrite Hc by reflexivity|]; reflexivity).
  destruct (tool_sends nows inter (Z.max 1 gso) rest 0 t0 0 0) as (A & B); [lia|lia|exact Hi|].
  destruct (tool_loop _ _ _ _ _ _ _ _) as [evs r]. cbn [fst snd] in A, B. subst r. split; [exact A|reflexivity].
Qed.
Example load_numbered_case :
  fst (tool_main true true true 11200 2 [7; 7] 500 [(500, true); (500, true); (523, true)])
  = [VSend [0; 0; 0; 0; 0; 0; 0; 0; 244; 1; 0; 0; 0; 0; 0; 0; 7; 7];
     VSend [1; 0; 0; 0; 0; 0; 0; 0; 244; 1; 0; 0; 0; 0; 0; 0; 7; 7]; VPause 22400;
     VSend [2; 0; 0; 0; 0; 0; 0; 0; 11; 2; 0; 0; 0; 0; 0; 0; 7; 7]].
Proof. reflexivity. Qed.
Print Assumptions load_numbered.

(** C226: its pauses hold the pace: before the datagram with [n] others in
    front of it, it has paused [n / gso] times for [gso] intervals. *)
Theorem load_paced : forall connect connected inter gso rest t0 ticks a d b,
  0 < inter ->
  fst (tool_main true connect connected inter gso rest t0 ticks) = a ++ VSend d :: b ->
  paused a = inter * Z.max 1 gso * (zlen (sends a) / Z.max 1 gso).
Proof.
  intros connect connected inter gso rest t0 ticks a d b Hi E. unfold tool_main in E. cbn [negb] in E.
  destruct (connect && negb connected); [destruct a; discriminate|].
  destruct (tool_loop _ _ _ _ _ _ _ _) as [evs r] eqn:T. cbn [fst] in E.
  pose proof (tool_paced ticks inter (Z.max 1 gso) rest 0 t0 0 0 a d b Hi) as H. rewrite T in H. cbn [fst] in H.
  rewrite H; [|lia|exact E]. rewrite Z.add_0_l. reflexivity.
Qed.
(** So the number of datagrams in front of any one is at most what the pauses
    pay for, and one burst. *)
Theorem load_rate : forall connect connected inter gso rest t0 ticks a d b,
  0 < inter ->
  fst (tool_main true connect connected inter gso rest t0 ticks) = a ++ VSend d :: b ->
  inter * zlen (sends a) < paused a + inter * Z.max 1 gso.
Proof.
  intros connect connected inter gso rest t0 ticks a d b Hi E. rewrite (load_paced _ _ _ _ _ _ _ _ _ _ Hi E).
  set (g := Z.max 1 gso). assert (0 < g) by (unfold g; lia). set (n := zlen (sends a)). clearbody g n. clear E.
  pose proof (Z.mul_succ_div_gt n g ltac:(lia)) as M. nia.
Qed.
Example load_paced_case :
  let evs := fst (tool_main true true true 11200 2 [] 500 [(500, true); (500, true); (523, true); (523, true); (546, true)]) in
  map (fun e => match e with VSend _ => 0 | VPause u => u | VReport _ _ _ _ => -1 end) evs = [0; 0; 22400; 0; 0; 22400; 0].
Proof. reflexivity. Qed.
Print Assumptions load_paced.
Print Assumptions load_rate.

(** C226: a report counts the datagrams since the one before and all of them,
    at least a second apart, and its rate is the bits of the former by the time. *)
Theorem load_report : forall connect connected inter gso rest t0 ticks a w ms s kb b,
  fst (tool_main true connect connected inter gso rest t0 ticks) = a ++ VReport w ms s kb :: b ->
  s = zlen (sends a) /\ 1000 <= ms < 2 ^ 64 /\ kb = 8 * 1400 * w / ms
  /\ (forall a1 a2, a = a1 ++ a2 -> at_report a1 -> no_report a2 -> w = zlen (sends a2)).
Proof.
  intros connect connected inter gso rest t0 ticks a w ms s kb b E. unfold tool_main in E. cbn [negb] in E.
  destruct (connect && negb connected); [destruct a; discriminate|].
  destruct (tool_loop _ _ _ _ _ _ _ _) as [evs r] eqn:T. cbn [fst] in E.
  pose proof (tool_reports ticks inter (Z.max 1 gso) rest 0 t0 0 0 a w ms s kb b) as H. rewrite T in H. cbn [fst] in H.
  destruct (H E) as (A & B & C & D & F). split; [lia|]. split; [exact B|]. split; [exact C|].
  intros a1 a2 Ea [->|L] Hn; [rewrite (D [] a2 Ea Hn eq_refl); lia|exact (F a1 a2 Ea Hn L)].
Qed.
Example load_report_case :
  let evs := fst (tool_main true true true 0 1 [] 500 [(500, true); (900, true); (1600, true); (2000, true); (2700, true)]) in
  flat_map (fun e => match e with VReport w ms s kb => [(w, ms, s, kb)] | _ => [] end) evs = [(3, 1100, 3, 30); (2, 1100, 5, 20)].
Proof. reflexivity. Qed.
Print Assumptions load_report.

(** C226: the number is a 32-bit one and runs out: at the latest after 2^31
    datagrams the run is undefined. *)
Theorem load_overflows : forall inter gso rest t0 nows, 2 ^ 31 <= zlen nows ->
  snd (tool_main true false false inter gso rest t0 (map (fun t => (t, true)) nows)) = UB.
Proof.
  intros inter gso rest t0 nows Hn. unfold tool_main. cbn [negb andb].
  pose proof (tool_runs_out nows inter (Z.max 1 gso) rest 0 t0 0 0 ltac:(lia)) as H.
  destruct (tool_loop _ _ _ _ _ _ _ _) as [evs r]. cbn [snd] in *. rewrite H by lia. reflexivity.
Qed.
Example load_overflows_case : exists nows : list Z, 2 ^ 31 <= zlen nows /\
  snd (tool_loop 0 1 [] (2 ^ 31 - 1) 0 0 0 [(5, true)]) = UB.
Proof. exists (repeat 0 (Z.to_nat (2 ^ 31))). split; [unfold zlen; rewrite repeat_length, Z2Nat.id by lia; lia|reflexivity]. Qed.
Print Assumptions load_overflows.
