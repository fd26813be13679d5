(** C236: adaptation fields that do not hold what they announce, and sessions exactly. *)
From Verif Require Import Base M_Bits M_Fields L_Align S_Fields M_Packet M_IO S_IO M_Cache M_H264 M_AAC M_Ts S_Ts L_Ts L_Ts2 L_Ts3 L_Ts4 S_TsMap L_TsMap
  S_Codec P_Ts S_TsAll L_TsAll P_TsAll L_TsOut.

(** C236: a packet whose adaptation field announces more than it holds.  The session ends
    in a read outside exactly if the announced private data fits the packet, somebody
    looks at the payload (a table; or an elementary stream with the right counter), and
    the payload is reached: at the start of a unit, unless the unit before it is refused
    by its codec parser; within a unit, only if the unit declared a length (zero bytes are
    then asked for at an address outside if it is complete).  In every other case the
    packet is refused, or passed over without any effect. *)
Theorem ts_misfit_exactly : forall mem s k a, mem_ok mem -> bytes mem -> all_hold mem s -> ts_ok k -> t_af k = Some a -> ~ af_fits a ->
  let '(s', o, r) := ts_decode mem s (ts_bytes k) in r <> Fuel /\ (r = UB <-> slips mem s k) /\ (r = Ok tt -> s' = s /\ o = []).
Proof. exact misfit_exact. Qed.
Print Assumptions ts_misfit_exactly.

(** C236: a whole session of arbitrary blocks ends in a read outside if and only if one of
    its blocks, reached with all earlier ones accepted, is such a packet. *)
Theorem ts_session_exactly : forall mem s ds, mem_ok mem -> bytes mem -> all_hold mem s -> Forall (fun d => bytes d /\ zlen d = 188) ds ->
  snd (ts_run mem s ds) <> Fuel /\
  (snd (ts_run mem s ds) = UB <->
   exists pre k post s1 o1, ds = pre ++ ts_bytes k :: post /\ ts_ok k /\ ts_run mem s pre = (s1, o1, Ok tt) /\ overreads mem s1 k).
Proof.
  intros mem s ds Hm Hb Hall Hd. destruct (session_exact mem s ds Hm Hb Hall Hd) as (A & B & _). auto.
Qed.
Print Assumptions ts_session_exactly.

(** C236: the same for the demuxer on a transport, from its creation: any bytes [input],
    cut in any way.  Whether it reads outside depends only on the bytes: on the first
    packet that is not accepted. *)
Theorem ts_input_outside_exactly : forall fuel mem fill t input, mem_ok mem -> bytes mem -> zlen fill = 188 -> nonempty_chunks (t_chunks t) ->
  bytes input -> concat (t_chunks t) = input -> zlen input < Z.of_nat fuel ->
  snd (ts_demux fuel mem ts_new (ts_reader fill t)) <> Fuel /\
  (snd (ts_demux fuel mem ts_new (ts_reader fill t)) = UB <-> ts_outside mem ts_new input).
Proof.
  intros fuel mem fill t input Hm Hb Hf Hc Hi Et Hfu.
  destruct (cut_188 (length input) input (le_n _)) as (ds & tail & Ei & Hd & Ht & Hn).
  rewrite (ts_demux_chunking fuel mem ts_new fill t ds tail Hf Hc Hd Ht) by (unfold zlen in Hfu; try (rewrite Et; exact Ei); lia).
  rewrite Ei in Hi. destruct (blocks_outside mem ts_new ds tail Hm Hb (proj1 ts_all_cases mem) Hi Hd Ht) as (N & Iff & _). rewrite Ei, <- Iff.
  destruct (ts_run mem ts_new ds) as [[s' o] x]. cbn [snd] in *. split; [destruct x; [discriminate|discriminate|discriminate|congruence]|].
  destruct x; split; congruence.
Qed.
Print Assumptions ts_input_outside_exactly.

(** One byte of adaptation field that announces a program clock, in a packet of the
    program association table: the first packet of a session is enough.  Announcing 200
    bytes of private data is refused instead; on an unknown pid the packet does nothing. *)
Definition slip_pat : tsp := mktsp 0 1 0 0 0 0 (Some [0x10]) true (repeat 9 182).
Definition denied_pat : tsp := mktsp 0 1 0 0 0 0 (Some [0x01; 200]) true (repeat 9 181).
Example ts_out_cases :
  ts_ok slip_pat /\ ~ af_fits [0x10] /\ (forall mem, slips mem ts_new slip_pat) /\
  snd (ts_demux 1000 [] ts_new (ts_reader (repeat 0 188) (mktr [take 100 (ts_bytes slip_pat); drop 100 (ts_bytes slip_pat)] 5))) = UB /\
  af_denied (0x01 :: 200 :: repeat 9 181) /\ ts_decode [] ts_new (ts_bytes denied_pat) = (ts_new, [], Err ERROR_IO_NOT_ENOUGH) /\
  (let k := mktsp 0 0 0 99 0 0 (Some [0x10]) true (repeat 9 182) in ts_decode [] ts_new (ts_bytes k) = (ts_new, [], Ok tt)).
Proof.
  split. { split; [vm_compute; reflexivity|]. split; [apply bytesb_spec; vm_compute; reflexivity|vm_compute; reflexivity]. }
  assert (N : ~ af_fits [0x10]) by (intros [H _]; vm_compute in H; apply H; reflexivity).
  split; [exact N|]. split.
  { intros mem. exists [0x10]. split; [reflexivity|]. split; [exact N|]. split; [|exact I]. intros [H _]. vm_compute in H. discriminate. }
  split; [vm_compute; reflexivity|]. split. { split; [reflexivity|]. exists 200. split; [reflexivity|vm_compute; reflexivity]. }
  split; reflexivity.
Qed.
