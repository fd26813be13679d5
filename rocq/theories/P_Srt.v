(** Properties of SRT sockets. *)
From Verif Require Import Base M_IO M_Srt S_Srt L_Srt.

(** C101: reads of any sizes from a connection with messages of at most 1316
    bytes return the bytes of the messages in order, none lost, repeated or
    altered, whatever the read sizes and whatever errors come between; every
    successful read returns at least one byte and at most what was asked for,
    and nothing outside the read buffer is touched. *)
Theorem srt_reads_in_order : forall raw evs sizes rs s, zlen raw = 1316 -> live_messages evs -> Forall (fun n => 0 < n) sizes ->
  srt_reads (srt_open raw evs) sizes = (rs, s) ->
  exists used, evs = used ++ sr_evs s /\ concat (oks rs) ++ unread s = concat (messages used) /\
  Forall2 (fun n r => match r with Ok d => 0 < zlen d <= n | UB => False | _ => True end) sizes rs.
Proof.
  intros raw evs sizes rs s Hr Hm Hs H.
  assert (srt_ok (srt_open raw evs)) as Hok by (split; [exact Hr|split; [reflexivity|left; split; reflexivity]]).
  destruct (srt_reads_spec sizes _ _ _ Hok Hs Hm H) as (used & Hu & Hc & Hf). exists used. split; [exact Hu|]. split; [|exact Hf].
  rewrite Hc, (unread_empty (srt_open raw evs)) by reflexivity. reflexivity.
Qed.
Example srt_reads_in_order_case : zlen (repeat 0 1316) = 1316 /\ live_messages [SvMsg (str "hello"); SvAgain 0; SvMsg (str "xy"); SvFail] /\
  fst (srt_reads (srt_open (repeat 0 1316) [SvMsg (str "hello"); SvAgain 0; SvMsg (str "xy"); SvFail]) [2; 4; 2000; 1])
  = [Ok (str "he"); Ok (str "llo"); Ok (str "xy"); Err (-1)].
Proof. split; [reflexivity|]. split; [repeat constructor; cbn; lia|vm_compute; reflexivity]. Qed.
Print Assumptions srt_reads_in_order.

(** C102: of a message longer than 1316 bytes a read of fewer than 1316 bytes
    keeps the first 1316; the rest is gone, with no error. *)
Theorem srt_long_message_cut : forall raw d l n, zlen raw = 1316 -> 1316 < zlen d -> 0 < n < 1316 ->
  exists s, srt_read (srt_open raw (SvMsg d :: l)) n = (Ok (take n d), s) /\ sr_evs s = l /\ unread s = drop n (take 1316 d).
Proof.
  intros raw d l n Hr Hd Hn.
  unfold srt_read, srt_open. cbn [sr_buf sr_evs]. unfold ab_size. cbn [ab_end ab_ptr]. change (0 <? u64 (0 - 0)) with false. cbv iota.
  unfold SRT_PLSIZE. replace (n <? 1316) with true by lia.
  assert (ab_cap_size (mkab raw 0 0 false) = 1316) as -> by (unfold ab_cap_size, ab_norewind, ab_cap; cbn [ab_rw ab_data ab_ptr]; rewrite Hr; reflexivity).
  cbn [st_srt_read]. unfold SRT_PLSIZE. change (1316 <? 1316) with false. cbv iota.
  assert (zlen (take 1316 d) = 1316) as Hz by (rewrite zlen_take; lia).
  unfold ab_store. cbn [sr_buf ab_data ab_ptr ab_end ab_rw]. unfold ab_cap. cbn [ab_data].
  replace ((0 <=? 0) && (0 + zlen (take 1316 d) <=? zlen raw)) with true by lia. rewrite (take_0 0) by lia. cbn [app ab_data ab_ptr ab_end ab_rw].
  rewrite (drop_all (0 + zlen (take 1316 d))) by lia. rewrite app_nil_r.
  set (s0 := mksrt (mkab (take 1316 d) 0 (0 + zlen (take 1316 d)) false) l).
  assert (unread s0 = take 1316 d) as Hu by (unfold s0, unread; cbn [sr_buf ab_data ab_ptr ab_end]; rewrite drop_0 by lia; apply take_all; lia).
  assert (srt_ok s0) as Hok0 by (split; [exact Hz|split; [reflexivity|right; unfold s0; cbn [sr_buf ab_ptr ab_end]; lia]]).
  destruct (srt_serve_spec s0 n Hok0 ltac:(lia)) as (x & s1 & E & _ & V & U & Z1). rewrite Hu in U, Z1. rewrite E. rewrite Hz in Z1.
  exists s1. assert (x = take n d) as ->.
  { assert (x = take (zlen x) (x ++ unread s1)) as Hx by (rewrite take_app_exact; reflexivity). rewrite U, take_take in Hx. rewrite Hx. f_equal. lia. }
  split; [reflexivity|]. split; [exact V|]. rewrite <- U. rewrite drop_app_exact; [reflexivity|]. lia.
Qed.
Example srt_long_message_cut_case : zlen (repeat 0 1316) = 1316 /\ 1316 < zlen (repeat 7 1456) /\ 0 < 188 < 1316.
Proof. split; [reflexivity|]. split; [reflexivity|lia]. Qed.
Print Assumptions srt_long_message_cut.

(** C103: a full read that arrives in one piece is right. *)
Theorem read_fully_one_piece : forall d size mem, zlen d = size -> 0 < size -> size <= zlen mem ->
  read_fully_same [Ok d] size 0 mem = (Ok size, d ++ drop size mem).
Proof.
  intros d size mem Hd Hs Hm. cbn [read_fully_same]. replace (size <=? 0) with false by lia. rewrite Z.add_0_l, Hd.
  replace (size <=? size) with true by lia. unfold overlay. rewrite Hd. reflexivity.
Qed.
Example read_fully_one_piece_case : read_fully_same [Ok (str "abc")] 3 0 (str "zzzz") = (Ok 3, str "abcz").
Proof. reflexivity. Qed.
Print Assumptions read_fully_one_piece.

(** C103 fails: a full read on an SRT or TLS socket that arrives in more than
    one piece reports success, but the end of the caller's buffer is not
    written: for every such arrival there is a buffer whose content afterwards
    is not the data. *)
Theorem read_fully_pieces_refuted : forall ds, Forall (fun d => 1 <= zlen d) ds -> (2 <= length ds)%nat ->
  let size := zlen (concat ds) in
  (exists k, 0 <= k < size /\ forall mem, size <= zlen mem ->
     exists mem', read_fully_same (map Ok ds) size 0 mem = (Ok size, mem') /\ drop k mem' = drop k mem) /\
  (exists mem mem', zlen mem = size /\ read_fully_same (map Ok ds) size 0 mem = (Ok size, mem') /\ mem' <> concat ds).
Proof.
  intros ds Hn H2 size. destruct (max_len ds Hn H2) as (k & Hk & Hf).
  split.
  - exists k. split; [exact Hk|]. intros mem Hm. destruct (read_fully_same_tail ds size 0 mem k Hf ltac:(unfold size; lia)) as (m & A & B & _). eauto.
  - assert (exists mem, zlen mem = size /\ drop k mem <> drop k (concat ds)) as (mem & Hz & Hd).
    { destruct (nthz_in_range (concat ds) k Hk) as (x & Hx).
      exists (take k (concat ds) ++ (x + 1) :: drop (k + 1) (concat ds)). split.
      - rewrite zlen_app, zlen_cons, zlen_take, zlen_drop by lia. fold size. lia.
      - rewrite drop_app_exact by (rewrite zlen_take by lia; fold size; lia). intros He.
        assert (nthz (drop k (concat ds)) 0 = Some x) as H0 by (rewrite nthz_drop by lia; rewrite Z.add_0_r; exact Hx).
        rewrite <- He, nthz_0 in H0. injection H0 as H0. lia. }
    destruct (read_fully_same_tail ds size 0 mem k Hf ltac:(unfold size; lia)) as (m & A & B & _).
    exists mem, m. split; [exact Hz|]. split; [exact A|]. intros ->. congruence.
Qed.
Example read_fully_pieces_refuted_case : read_fully_same [Ok (str "ab"); Ok (str "c")] 3 0 (str "zzz") = (Ok 3, str "cbz").
Proof. reflexivity. Qed.
Print Assumptions read_fully_pieces_refuted.

(** C104: a successful SRT write sends the data in messages of exactly 1316
    bytes but for the last, in order and complete; it succeeds when the library
    takes every message; whole transport-stream packets in give whole packets
    in every message. *)
Theorem srt_write_packs : forall evs data,
  (forall ms, srt_write evs data = (ms, Ok tt) ->
     packed ms data /\ concat ms = data /\ ((188 | zlen data) -> Forall (fun m => (188 | zlen m)) ms)) /\
  (Forall (fun e => e = SsOk) evs -> (length data <= length evs)%nat -> exists ms, srt_write evs data = (ms, Ok tt)).
Proof.
  intros evs data. split.
  - intros ms H. apply st_srt_write_ok in H; [|lia]. split; [exact H|]. split; [apply packed_concat; exact H|apply packed_aligned; exact H].
  - intros He Hl. apply sendmsg_all; [exact He|lia|exact Hl].
Qed.
Example srt_write_packs_case : exists ms, srt_write [SsOk; SsAgain 0; SsOk] (repeat 71 1504) = (ms, Ok tt) /\ map zlen ms = [1316; 188].
Proof. eexists. split; vm_compute; reflexivity. Qed.
Print Assumptions srt_write_packs.

(** C104: a write that fails has sent a first part of the data in whole
    messages, and reports the error. *)
Theorem srt_write_prefix : forall evs data ms r, srt_write evs data = (ms, r) ->
  (exists rest, concat ms ++ rest = data) /\ Forall (fun m => 1 <= zlen m <= 1316) ms /\ r <> UB.
Proof. intros evs data ms r H. apply st_srt_write_prefix in H; [exact H|lia]. Qed.
Example srt_write_prefix_case : exists ms, srt_write [SsOk; SsAgain ERROR_SRT_SOCKET_TIMEOUT] (repeat 71 2000) = (ms, Err ERROR_SRT_SOCKET_TIMEOUT) /\ map zlen ms = [1316].
Proof. eexists. split; vm_compute; reflexivity. Qed.
Print Assumptions srt_write_prefix.

(** C105 fails: accept does not report failures.  Whatever happens it yields a
    socket object, and after a failed wait the object's descriptor is the error
    code. *)
Theorem srt_accept_error_is_socket : forall n e l, e <> 0 ->
  srt_accept (repeat (SaAgain 0) n ++ SaAgain e :: l) = Ok (Some e) /\
  srt_accept (repeat (SaAgain 0) n ++ SaFail :: l) = Ok (Some (-1)) /\
  (forall evs r, srt_accept evs = Ok r -> r <> None).
Proof.
  intros n e l He. split; [|split].
  - unfold srt_accept. induction n as [|n IH]; cbn [repeat app st_srt_accept]; [replace (e =? 0) with false by lia; reflexivity|exact IH].
  - unfold srt_accept. induction n as [|n IH]; cbn [repeat app st_srt_accept]; [reflexivity|exact IH].
  - intros evs r. unfold srt_accept. destruct (st_srt_accept evs); intros [= <-]; discriminate.
Qed.
Example srt_accept_error_is_socket_case : srt_accept [SaAgain 0; SaAgain ERROR_SRT_SOCKET_BROKEN] = Ok (Some 1306).
Proof. reflexivity. Qed.
Print Assumptions srt_accept_error_is_socket.

(** C106: no wake-up is lost.  After any sequence of waits, events, wake-ups and
    timeouts, a coroutine blocked on a socket is watched for its event, an event
    that concerns it wakes it, an error event wakes it with the error, and an
    event that does not concern it leaves it blocked. *)
Theorem srt_no_lost_wakeup : forall ops w fd ev, let d := d_run dp_start ops in
  wget (dp_wait d) w = Some (WBlocked fd ev) ->
  (exists m, zget (dp_reg d) fd = Some m /\ Z.land m ev <> 0) /\
  (forall mask st, Z.land mask EV_ERR = 0 -> Z.land mask ev <> 0 -> wget (dp_wait (d_step d (DFire fd mask st))) w = Some (WWoken fd ev 0)) /\
  (forall mask st, Z.land mask EV_ERR <> 0 ->
     exists c, error_of st c /\ wget (dp_wait (d_step d (DFire fd mask st))) w = Some (WWoken fd ev c)) /\
  (forall f mask st, f <> fd \/ Z.land mask EV_ERR = 0 /\ Z.land mask ev = 0 -> wget (dp_wait (d_step d (DFire f mask st))) w = Some (WBlocked fd ev)).
Proof.
  intros ops w fd ev d Hg. pose proof (d_run_inv ops dp_start dinv_start) as Hi. fold d in Hi. pose proof Hi as (_ & R).
  destruct (R _ _ _ Hg) as (_ & Hm). split; [exact Hm|]. cbn [d_step]. split; [|split].
  - intros mask st H1 H2. rewrite (d_fire_wakes d fd mask st w ev Hi Hg); [rewrite H1; reflexivity|]. unfold concerned. rewrite H1. cbn. apply negb_true_iff, Z.eqb_neq. exact H2.
  - intros mask st H1. exists (srt_socket_error st). split; [destruct st; constructor|]. rewrite (d_fire_wakes d fd mask st w ev Hi Hg).
    + apply Z.eqb_neq in H1. rewrite H1. reflexivity.
    + unfold concerned. apply Z.eqb_neq in H1. rewrite H1. reflexivity.
  - intros f mask st Hc. apply d_fire_spares; [exact Hi|exact Hg|]. destruct Hc as [Hf|(H1 & H2)]; [left; congruence|right].
    unfold concerned. rewrite H1, H2. reflexivity.
Qed.
Example srt_no_lost_wakeup_case :
  wget (dp_wait (d_run dp_start [DWait 1 9 EV_IN; DWait 2 9 EV_OUT; DFire 9 EV_OUT StOther; DResume 2])) 1 = Some (WBlocked 9 EV_IN) /\
  wget (dp_wait (d_run dp_start [DWait 1 9 EV_IN; DWait 2 9 EV_OUT; DFire 9 EV_OUT StOther; DResume 2; DFire 9 EV_IN StOther])) 1 = Some (WWoken 9 EV_IN 0).
Proof. split; reflexivity. Qed.
Print Assumptions srt_no_lost_wakeup.

(** C106: what a wait returns tells why it ended: an error of the socket or readiness
    by the first event that concerned the wait since it began, or that its time was
    up before any such event. *)
Theorem srt_wait_result : forall ops w r, wget (dp_wait (d_run dp_start ops)) w = Some (WReturned r) ->
  exists a b fd ev c, ops = a ++ DWait w fd ev :: b ++ c /\ Forall (fun op => ~ touches fd ev op) b /\
    ((exists mask st c', c = DFire fd mask st :: c' /\ touches fd ev (DFire fd mask st) /\ told mask st r /\ In (DResume w) c') \/
     (exists c', c = DTimeout w :: c' /\ r = ERROR_SRT_SOCKET_TIMEOUT)).
Proof. intros ops w r H. pose proof (history_run ops w) as Hh. rewrite H in Hh. exact Hh. Qed.
Example srt_wait_result_case :
  wget (dp_wait (d_run dp_start [DWait 1 9 EV_IN; DFire 9 EV_OUT StOther; DTimeout 1])) 1 = Some (WReturned ERROR_SRT_SOCKET_TIMEOUT) /\
  wget (dp_wait (d_run dp_start [DWait 1 9 EV_IN; DFire 9 EV_IN StOther; DTimeout 1; DResume 1])) 1 = Some (WReturned 0) /\
  wget (dp_wait (d_run dp_start [DWait 1 9 EV_IN; DFire 9 EV_ERR StBroken; DResume 1])) 1 = Some (WReturned ERROR_SRT_SOCKET_BROKEN).
Proof. repeat split. Qed.
Print Assumptions srt_wait_result.

(** C107 fails: a blocked coroutine is not always watched for errors.  When a
    reader and a writer wait on one socket and one of them returns, the library
    is told to watch only the other's event, no longer errors. *)
Theorem srt_error_watch_refuted : exists ops w fd ev m,
  let d := d_run dp_start ops in
  wget (dp_wait d) w = Some (WBlocked fd ev) /\ zget (dp_reg d) fd = Some m /\ Z.land m EV_ERR = 0.
Proof. exists [DWait 1 9 EV_IN; DWait 2 9 EV_OUT; DFire 9 EV_OUT StOther; DResume 2], 1%nat, 9, EV_IN, 17. split; [reflexivity|split; reflexivity]. Qed.
Print Assumptions srt_error_watch_refuted.
(** C107: this happens whenever one of several coroutines on a socket returns, woken or
    after its time: the others stay blocked and the library is told to watch their
    events without errors. *)
Theorem srt_error_watch_lost : forall ops w x fd ev, let d := d_run dp_start ops in
  wget (dp_wait d) w = Some (WBlocked fd ev) -> x <> w ->
  (forall e c, wget (dp_wait d) x = Some (WWoken fd e c) ->
     wget (dp_wait (d_step d (DResume x))) w = Some (WBlocked fd ev) /\
     exists m, zget (dp_reg (d_step d (DResume x))) fd = Some m /\ Z.land m ev <> 0 /\ Z.land m EV_ERR = 0) /\
  (forall e, wget (dp_wait d) x = Some (WBlocked fd e) ->
     wget (dp_wait (d_step d (DTimeout x))) w = Some (WBlocked fd ev) /\
     exists m, zget (dp_reg (d_step d (DTimeout x))) fd = Some m /\ Z.land m ev <> 0 /\ Z.land m EV_ERR = 0).
Proof.
  intros ops w x fd ev d Hg Hx. assert (dinv d) as Hi by (apply d_run_inv, dinv_start).
  split; intros; cbn [d_step]; rewrite H; apply d_leave_err; assumption.
Qed.
Example srt_error_watch_lost_case :
  let d := d_run dp_start [DWait 1 9 EV_IN; DWait 2 9 EV_OUT; DFire 9 EV_OUT StOther] in
  wget (dp_wait d) 1 = Some (WBlocked 9 EV_IN) /\ wget (dp_wait d) 2 = Some (WWoken 9 EV_OUT 0) /\ zget (dp_reg d) 9 = Some 29.
Proof. repeat split. Qed.
Print Assumptions srt_error_watch_lost.
