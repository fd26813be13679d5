(** RTMP on the wire: what a client hears from the server, what the server hears
    from the library's own client: property theorems. *)
From Verif Require Import Base M_Text M_Rtmp M_Url M_RtmpSess S_RtmpSess L_RtmpSess M_RtmpReply S_Amf L_Amf.

(** C160: a client whose connect phase succeeds hears, besides acknowledgements and
    pongs, exactly: the window, the limit, the chunk size and the result of its
    connect with its transaction id; one result per command, with its id and the
    stream number; the status of its role and the start of the stream.  For every
    set of commands, any library that finds IEEE doubles, any failing sends. *)
Theorem rtmp_answers_on_the_wire : forall lib n0 sends evs pl pb tc params s,
  ieee_lib lib -> Forall (fun r => r <> SFail 0) sends ->
  pre_connect lib n0 sends evs = (CRet 0 pl pb tc params, s) ->
  exists before conn mid last rest cs t app c name ms d0 d1 d31 role,
    evs = before ++ conn :: mid ++ last :: rest /\
    speaks lib conn (CConnect t app tc) /\ commands lib mid cs /\ speaks lib last c /\ params = str "/" ++ name /\
    Forall2 (fun r m => reply_msg r = Ok m) (se_out s) ms /\
    dbl_is d0 0 /\ dbl_is d1 1 /\ dbl_is d31 31 /\
    filter about_commands_h (map hear ms) =
      connect_answer (u32 (announced 5 6000000 (before ++ [conn]))) (u32 (announced 6 5000000 (before ++ [conn]))) (nm_bits t) d31 ++
      flat_map (command_answer d0 d1) cs ++ role /\
    ((exists t', c = CPlay t' name /\ pl = true /\ pb = false /\
        role = [status_of d0 (str "NetStream.Play.Start") (str "Start live");
                HData [VStr (str "|RtmpSampleAccess"); VBool true; VBool true]; HStreamBegin 1]) \/
     (exists t' z d, c = CPublish t' name /\ pl = false /\ pb = true /\
        dbl_trunc (nm_bits t') z /\ - 2 ^ 31 <= z < 2 ^ 31 /\ dbl_is d z /\
        role = [status_of d (str "NetStream.Publish.Start") (str "Start publishing"); HStreamBegin 1])).
Proof.
  intros lib n0 sends evs pl pb tc params s Hl Hs H.
  pose proof (ph1_ok _ _ Hl _ _ _ H (Forall_nil _)) as Hok.
  destruct (replies_say _ Hok) as (ms & Hms & Hh & _).
  destruct (ph1_sound _ _ _ _ _ _ _ _ H) as (before & conn & mid & last & rest & bs & cs & t & ap & c & name & He & Hb & Hbo & Hc & Hm & Hmo & Hla & Hr & Hp & Ho).
  specialize (Ho Hs). cbn [filter sess0 se_out se_h hk_sbw hk_cbw app] in Ho.
  exists before, conn, mid, last, rest, cs, t, ap, c, name, ms, (int_dbl 0), (int_dbl 1), (int_dbl 31), (map says (role_answer c)).
  split; [exact He|]. split; [exact Hc|]. split; [exact Hm|]. split; [exact Hla|]. split; [exact Hp|]. split; [exact Hms|].
  split; [apply int_dbl_is; lia|]. split; [apply int_dbl_is; lia|]. split; [apply int_dbl_is; lia|].
  split. { rewrite Hh, filter_says, Ho. cbn [app map]. rewrite map_app, answers_said. reflexivity. }
  pose proof (speaks_ieee _ _ _ Hl Hla) as Hi.
  destruct Hr as [(t' & -> & -> & ->)|(t' & -> & -> & ->)].
  - left. exists t'. split; [reflexivity|]. split; [reflexivity|]. split; [reflexivity|]. reflexivity.
  - right. cbn [txn_of role_answer] in *. destruct (nm_int t') as [z|] eqn:Ez.
    + exists t', z, (int_dbl z). destruct Hi as (_ & Hi & _). destruct (Hi _ Ez) as [T R].
      split; [reflexivity|]. split; [reflexivity|]. split; [reflexivity|]. split; [exact T|]. split; [exact R|]. split; [apply int_dbl_is; lia|]. reflexivity.
    + exfalso. pose proof (ph1_last _ _ _ _ _ _ _ _ H Hs) as Hin.
      assert (In (RStreamBegin 1) (filter about_commands (se_out s))) as Hf by (apply filter_In; split; [exact Hin|reflexivity]).
      rewrite Ho, app_nil_r in Hf. do 4 (destruct Hf as [Hf|Hf]; [discriminate|]). exact (answers_no_begin _ Hf).
Qed.
Print Assumptions rtmp_answers_on_the_wire.
Example rtmp_answers_on_the_wire_ex :
  exists s ms, pre_connect amf0_lib 3073 [] [ex_say 0 ex_conn; ex_say 0 (ex_text (str "createStream") (int_dbl 2) []); ex_say 1 (ex_text (str "publish") (int_dbl 3) (p_str (str "a")))]
      = (CRet 0 false true (str "rtmp://h/live") (str "/a"), s) /\
    Forall2 (fun r m => reply_msg r = Ok m) (se_out s) ms /\
    map hear ms = connect_answer 6000000 5000000 (int_dbl 1) (int_dbl 31) ++
      [result_of (int_dbl 2) [VNull; VNum (int_dbl 1)];
       status_of (int_dbl 3) (str "NetStream.Publish.Start") (str "Start publishing"); HStreamBegin 1].
Proof.
  eexists. eexists. split; [vm_compute; reflexivity|]. split.
  - repeat (constructor; [vm_compute; reflexivity|]). constructor.
  - vm_compute. reflexivity.
Qed.

(** However the connect phase ends, everything the server has sent fits its buffers
    and is readable. *)
Theorem rtmp_replies_readable : forall lib n0 sends evs r s, ieee_lib lib -> pre_connect lib n0 sends evs = (r, s) ->
  exists ms, Forall2 (fun r m => reply_msg r = Ok m) (se_out s) ms /\ Forall (fun m => hear m <> HUnreadable) ms.
Proof.
  intros lib n0 sends evs r s Hl H. pose proof (ph1_ok _ _ Hl _ _ _ H (Forall_nil _)) as Hok.
  destruct (replies_say _ Hok) as (ms & Hms & Hh & _). exists ms. split; [exact Hms|].
  apply Forall_forall. intros m Hm E. apply (in_map hear) in Hm. rewrite Hh, E in Hm. apply in_map_iff in Hm as (x & Hx & _). destruct x; discriminate.
Qed.
Print Assumptions rtmp_replies_readable.
Example rtmp_replies_readable_ex :
  ieee_lib amf0_lib /\
  exists s, pre_connect amf0_lib 3073 [SOk; SFail 104] [ex_say 0 ex_conn] = (CRet 104 false false (str "rtmp://h/live") [], s) /\ se_out s = [RWinAck 6000000].
Proof. split; [exact amf0_lib_ieee|]. eexists. split; [vm_compute; reflexivity|reflexivity]. Qed.

(** C161: the transaction id of a publish is cut to an int: an id that is an int comes
    back as the same number, a fraction is lost; and an id that is not within the
    ints is undefined behaviour, for play as well. *)
Theorem rtmp_publish_id_int : forall lib n0 sends evs tc params s, ieee_lib lib -> Forall (fun r => r <> SFail 0) sends ->
  pre_connect lib n0 sends evs = (CRet 0 false true tc params, s) ->
  exists front last rest t name ms d z,
    evs = front ++ last :: rest /\ speaks lib last (CPublish t name) /\
    Forall2 (fun r m => reply_msg r = Ok m) (se_out s) ms /\
    In (status_of d (str "NetStream.Publish.Start") (str "Start publishing")) (map hear ms) /\
    dbl_is d z /\ dbl_trunc (nm_bits t) z /\ (forall i, dbl_is (nm_bits t) i -> i = z).
Proof.
  intros lib n0 sends evs tc params s Hl Hs H.
  destruct (rtmp_answers_on_the_wire _ _ _ _ _ _ _ _ _ Hl Hs H) as (before & conn & mid & last & rest & cs & t & app & c & name & ms & d0 & d1 & d31 & role & He & _ & _ & Hla & _ & Hms & _ & _ & _ & Hf & [(t' & _ & Hx & _)|(t' & z & d & -> & _ & _ & T & _ & D & ->)]); [discriminate|].
  exists (before ++ conn :: mid), last, rest, t', name, ms, d, z. split; [rewrite <- app_assoc; exact He|]. split; [exact Hla|]. split; [exact Hms|].
  split. { assert (In (status_of d (str "NetStream.Publish.Start") (str "Start publishing")) (filter about_commands_h (map hear ms))) as Hin
             by (rewrite Hf; apply in_or_app; right; apply in_or_app; right; left; reflexivity). apply filter_In in Hin. tauto. }
  split; [exact D|]. split; [exact T|]. intros i Hi. eapply trunc_unique; [apply dbl_is_trunc; exact Hi|exact T].
Qed.
Print Assumptions rtmp_publish_id_int.
(** 3.5 comes back as 3. *)
Example rtmp_publish_id_int_ex :
  exists s, pre_connect amf0_lib 3073 [] [ex_say 0 ex_conn; ex_say 1 (ex_text (str "publish") 0x400c000000000000 (p_str (str "a")))]
      = (CRet 0 false true (str "rtmp://h/live") (str "/a"), s) /\
    In (RPublishStart 3) (se_out s) /\ dbl_is 0x4008000000000000 3 /\ dbl_trunc 0x400c000000000000 3.
Proof.
  eexists. split; [vm_compute; reflexivity|]. split; [vm_compute; tauto|]. split; [exact (int_dbl_is 3 ltac:(lia))|].
  split; [discriminate|]. split; [|intros _; split; [lia|intros H; vm_compute in H; exfalso; apply H; reflexivity]].
  split; vm_compute; congruence.
Qed.
Theorem rtmp_role_id_range : forall lib n0 before conn t app tc mid last rest c t1 name,
  ieee_lib lib -> Forall (orderly lib) (before ++ conn :: mid ++ [last]) ->
  (forall ev c, In ev before -> speaks lib ev c -> ~ opens c) -> speaks lib conn (CConnect t app tc) ->
  (forall ev c, In ev mid -> speaks lib ev c -> ~ starts_role c) ->
  speaks lib last c -> c = CPlay t1 name \/ c = CPublish t1 name ->
  (~ exists z, dbl_trunc (nm_bits t1) z /\ - 2 ^ 31 <= z < 2 ^ 31) ->
  0 <= n0 -> n0 + wire (before ++ conn :: mid ++ [last]) + 5000000 < 2 ^ 31 ->
  exists s, pre_connect lib n0 [] (before ++ conn :: mid ++ last :: rest) = (CUB, s).
Proof.
  intros lib n0 before conn t app tc mid last rest c t1 name Hl Ho Hb Hc Hm Hla Hcc Hno Hn Hw.
  assert (Hi : ieee t1). { pose proof (speaks_ieee _ _ _ Hl Hla) as Hi. destruct Hcc as [-> | ->]; exact Hi. }
  assert (Hz : nm_int t1 = None). { destruct Hi as (_ & Hi & _). destruct (nm_int t1) as [z|]; [|reflexivity]. exfalso. apply Hno. exists z. apply Hi. reflexivity. }
  eapply ph1_bad; eauto. split; [reflexivity|]. split; [reflexivity|]. exact Hn.
Qed.
Print Assumptions rtmp_role_id_range.
(** 2^31, one too many. *)
Example rtmp_role_id_range_ex :
  exists s, pre_connect amf0_lib 3073 [] [ex_say 0 ex_conn; ex_say 1 (ex_text (str "play") 0x41e0000000000000 (p_str (str "a")))] = (CUB, s).
Proof. eexists. vm_compute. reflexivity. Qed.

(** Every reply travels on message stream 0, also the status of a stream that was
    created as stream 1; a client that looks for the status of its stream there
    does not find it. *)
Theorem rtmp_replies_on_stream_zero : forall lib n0 sends evs r s, ieee_lib lib -> pre_connect lib n0 sends evs = (r, s) ->
  exists ms, Forall2 (fun r m => reply_msg r = Ok m) (se_out s) ms /\ Forall (fun m => rm_ts m = 0 /\ rm_sid m = 0) ms.
Proof.
  intros lib n0 sends evs r s Hl H. pose proof (ph1_ok _ _ Hl _ _ _ H (Forall_nil _)) as Hok.
  destruct (replies_say _ Hok) as (ms & Hms & _ & Hz). eauto.
Qed.
Print Assumptions rtmp_replies_on_stream_zero.
(** The replies to a connection that publishes on stream 1. *)
Example rtmp_replies_on_stream_zero_case :
  exists s, pre_connect amf0_lib 3073 [] [ex_say 0 ex_conn; ex_say 0 (ex_text (str "createStream") (int_dbl 2) []);
      ex_say 1 (ex_text (str "publish") (int_dbl 3) (p_str (str "a")))] = (CRet 0 false true (str "rtmp://h/live") (str "/a"), s) /\
    length (se_out s) = 7%nat.
Proof. eexists. split; vm_compute; reflexivity. Qed.
Theorem rtmp_status_on_its_stream_refuted :
  exists evs pub s ms, pre_connect amf0_lib 3073 [] (evs ++ [pub]) = (CRet 0 false true (str "rtmp://h/live") (str "/a"), s) /\
    Forall2 (fun r m => reply_msg r = Ok m) (se_out s) ms /\
    (exists m n, pub = RvMsg m n /\ rm_sid m = 1 /\ exists t, speaks amf0_lib pub (CPublish t (str "a"))) /\
    In (result_of (int_dbl 2) [VNull; VNum (int_dbl 1)]) (map hear ms) /\
    Forall (fun m => rm_sid m <> 1) ms.
Proof.
  exists [ex_say 0 ex_conn; ex_say 0 (ex_text (str "createStream") (int_dbl 2) [])], (ex_say 1 (ex_text (str "publish") (int_dbl 3) (p_str (str "a")))).
  eexists. eexists. split; [vm_compute; reflexivity|]. split; [repeat (constructor; [vm_compute; reflexivity|]); constructor|].
  split. { eexists. eexists. split; [reflexivity|]. split; [reflexivity|]. eexists. apply ev_decode_some. vm_compute. reflexivity. }
  split; [vm_compute; tauto|]. repeat (constructor; [vm_compute; discriminate|]). constructor.
Qed.
Print Assumptions rtmp_status_on_its_stream_refuted.

(** C162: the library's own client.  Its connect is read by its server as a connect
    to the same application and address, with the next transaction id, exactly if
    the two names have at most 71 bytes together; longer ones are undefined
    behaviour (a null encoder result is used).  Its createStream is read as such. *)
Theorem rtmp_own_connect : forall lib n app tc k, reads_amf0 lib -> 0 <= n < 2 ^ 31 - 1 ->
  bytes app -> bytes tc -> ~ In 0 app -> ~ In 0 tc ->
  (zlen app + zlen tc <= 71 -> exists m t, connect_msg n app tc = Ok m /\
     speaks lib (RvMsg m k) (CConnect t app tc) /\ dbl_is (nm_bits t) (n + 1)) /\
  (71 < zlen app + zlen tc -> connect_msg n app tc = UB).
Proof.
  intros lib n app tc k Hl Hn Ba Bt Ha Ht. split.
  - intros Hz. destruct (connect_spoken lib n app tc k Hl Hn Ba Bt Ha Ht Hz) as (m & t & H1 & H2 & H3 & _). eauto.
  - intros Hz. unfold connect_msg. rewrite connect_body_spec, !cstr_id by assumption. replace (71 <? zlen app + zlen tc) with true by (symmetry; apply Z.ltb_lt; lia). reflexivity.
Qed.
Print Assumptions rtmp_own_connect.
Example rtmp_own_connect_ex :
  reads_amf0 amf0_lib /\
  (exists m t, connect_msg 0 (str "live") (str "rtmp://h/live") = Ok m /\ ev_decode amf0_lib (RvMsg m 200) = Ok (Some (CConnect t (str "live") (str "rtmp://h/live"))) /\ nm_int t = Some 1) /\
  connect_msg 0 (str "live") (str "rtmp://an.origin.server.far.away.example.com:19350/live?vhost=example.com") = UB.
Proof.
  split; [exact amf0_lib_reads|]. split; [|vm_compute; reflexivity].
  eexists. eexists. split; [vm_compute; reflexivity|]. split; vm_compute; reflexivity.
Qed.
Theorem rtmp_own_create_stream : forall lib n k, reads_amf0 lib -> 0 <= n < 2 ^ 31 - 1 ->
  exists m t, create_msg n = Ok m /\ speaks lib (RvMsg m k) (CCreate t) /\ dbl_is (nm_bits t) (n + 1).
Proof. exact create_spoken. Qed.
Print Assumptions rtmp_own_create_stream.
Example rtmp_own_create_stream_ex :
  exists m t, create_msg 1 = Ok m /\ ev_decode amf0_lib (RvMsg m 37) = Ok (Some (CCreate t)) /\ nm_int t = Some 2.
Proof. eexists. eexists. split; [vm_compute; reflexivity|]. split; vm_compute; reflexivity. Qed.
