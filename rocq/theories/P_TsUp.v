(** C239: transport stream publishers over SRT, from their messages. *)
From Verif Require Import Base M_IO S_IO L_IO M_Bits M_Fields S_Fields M_Packet M_Ts S_Ts L_Ts3 P_Ts S_TsAll P_TsAll L_TsOut P_TsOut M_Srt S_Srt M_Tls M_Https S_Https M_Upload
  M_Get S_Get L_Get P_Get M_TsUp L_TsUp.

(** C239: whatever messages the publisher sends (the waits and the first error being any),
    the session is that of the 188-byte blocks of the concatenated messages, up to the
    first refused one; if none is refused it ends with the error of the connection, and
    the bytes after the last whole block are never looked at. *)
Theorem srt_publisher_exact : forall fuel mem fill raw evs ms c ds tail, zlen fill = 188 -> zlen raw = 1316 -> arrives evs ms c ->
  Forall (fun d => zlen d = 188) ds -> zlen tail < 188 -> concat ms = concat ds ++ tail -> (length ds < fuel)%nat ->
  fst (run_srt (ts_publish_prog fuel mem fill) (srt_open raw evs)) =
    Ok (let '(s', o, x) := ts_run mem ts_new ds in (s', o, match x with Ok _ => Err c | e => e end)).
Proof.
  intros fuel mem fill raw evs ms c ds tail Hf Hr Ha Hd Ht E Hn.
  rewrite (srt_transparent _ _ raw evs ms c (ts_publish_reads fuel mem fill Hf) Hr Ha). unfold ts_publish_prog. rewrite ts_prog_same.
  apply f_equal. exact (ts_demux_chunking fuel mem ts_new fill (mktr ms c) ds tail Hf (arrives_ne _ _ _ Ha) Hd Ht E Hn).
Qed.
Print Assumptions srt_publisher_exact.

(** C239: so how the publisher cuts its stream into messages makes no difference. *)
Theorem srt_publisher_cutting : forall fuel mem fill raw evs ms evs' ms' c, zlen fill = 188 -> zlen raw = 1316 -> arrives evs ms c -> arrives evs' ms' c ->
  concat ms = concat ms' -> zlen (concat ms) < Z.of_nat fuel ->
  fst (run_srt (ts_publish_prog fuel mem fill) (srt_open raw evs)) = fst (run_srt (ts_publish_prog fuel mem fill) (srt_open raw evs')).
Proof.
  intros fuel mem fill raw evs ms evs' ms' c Hf Hr Ha Ha' E Hn.
  destruct (cut_188 (length (concat ms)) (concat ms) (le_n _)) as (ds & tail & Ei & Hd & Ht & Hl).
  rewrite (srt_publisher_exact fuel mem fill raw evs ms c ds tail), (srt_publisher_exact fuel mem fill raw evs' ms' c ds tail); auto; try congruence; unfold zlen in Hn; lia.
Qed.
Print Assumptions srt_publisher_cutting.

(** C239: it reads outside if and only if one of the blocks, reached with all earlier ones
    accepted, is a packet as in C236; and it always ends. *)
Theorem srt_publisher_outside_exactly : forall fuel mem fill raw evs ms c, mem_ok mem -> bytes mem -> zlen fill = 188 -> zlen raw = 1316 -> arrives evs ms c ->
  bytes (concat ms) -> zlen (concat ms) < Z.of_nat fuel ->
  exists s o x, fst (run_srt (ts_publish_prog fuel mem fill) (srt_open raw evs)) = Ok (s, o, x) /\ x <> Fuel /\ (forall u, x <> Ok u) /\
    (x = UB <-> ts_outside mem ts_new (concat ms)).
Proof.
  intros fuel mem fill raw evs ms c Hm Hb Hf Hr Ha Hi Hn.
  destruct (cut_188 (length (concat ms)) (concat ms) (le_n _)) as (ds & tail & Ei & Hd & Ht & Hl).
  assert (Hn' : (length ds < fuel)%nat) by (unfold zlen in Hn; lia).
  pose proof (srt_publisher_exact fuel mem fill raw evs ms c ds tail Hf Hr Ha Hd Ht Ei Hn') as E.
  destruct (ts_input_outside_exactly fuel mem fill (mktr ms c) (concat ms) Hm Hb Hf (arrives_ne _ _ _ Ha) Hi eq_refl Hn) as (N & Iff).
  rewrite (ts_demux_chunking fuel mem ts_new fill (mktr ms c) ds tail Hf (arrives_ne _ _ _ Ha) Hd Ht Ei Hn') in N, Iff.
  destruct (ts_run mem ts_new ds) as [[s' o] x]. cbn [t_err snd] in N, Iff. eexists _, _, _. split; [exact E|]. split; [exact N|].
  split; [intros u; destruct x; discriminate|exact Iff].
Qed.
Print Assumptions srt_publisher_outside_exactly.

(** A PAT and a PMT in three messages, the last with a byte to spare, and a wait; and the
    program table of C236 in two. *)
Example srt_publisher_cases :
  let bs := ts_bytes ex_pat ++ ts_bytes ex_pmt in
  let evs := [SvMsg (take 100 bs); SvAgain 0; SvMsg (drop 100 bs); SvMsg [0x47]; SvClosed] in
  let pub evs := match fst (run_srt (ts_publish_prog 400 [] (repeat 0 188)) (srt_open (repeat 0 1316) evs)) with Ok (_, o, x) => Some (map p_data o, x) | _ => None end in
  arrives evs [take 100 bs; drop 100 bs; [0x47]] ERROR_SRT_SOCKET_CLOSED /\
  pub evs = Some ([ts_bytes ex_pat; ts_bytes ex_pmt], Err ERROR_SRT_SOCKET_CLOSED) /\
  pub [SvMsg (take 7 (ts_bytes slip_pat)); SvMsg (drop 7 (ts_bytes slip_pat)); SvClosed] = Some ([], UB) /\
  ts_outside [] ts_new (ts_bytes slip_pat).
Proof.
  cbv zeta. split; [|split; [vm_compute; reflexivity|]; split; [vm_compute; reflexivity|]].
  - repeat (constructor; try (vm_compute; split; discriminate)).
  - exists [], slip_pat, [], ts_new, []. split; [rewrite app_nil_r; reflexivity|]. split; [constructor|]. split; [apply ts_out_cases|]. split; [reflexivity|].
    right. exact (proj1 (proj2 (proj2 ts_out_cases)) []).
Qed.

From Verif Require Import M_Text M_Http M_Cache S_Cache M_Live S_Live M_Stream S_Stream P_Stream.

(** C239: with C128, from the publisher's messages to a player's: if what has been put into
    the stream is what the publisher's reader forwarded so far, every message a player
    gets is one of the 188-byte blocks of the publisher's concatenated messages, unchanged
    and in the order of C128, whatever messages the publisher used. *)
Theorem srt_messages_to_player : forall fuel mem fill raw inp ms c ds tail s' fwd x shape os s post pre v a name i evs,
  zlen fill = 188 -> zlen raw = 1316 -> arrives inp ms c -> Forall (fun d => zlen d = 188) ds -> zlen tail < 188 -> concat ms = concat ds ++ tail -> (length ds < fuel)%nat ->
  fst (run_srt (ts_publish_prog fuel mem fill) (srt_open raw inp)) = Ok (s', fwd, x) ->
  keeps_order shape -> env_ok shape live0 os ->
  play_events shape live0 [] os = (s, post ++ (OPlay v a name, Done) :: pre) -> ~ In (OLeave v, Done) post ->
  owner name pre = Some (i, 1%nat) -> initial (puts i 1 (post ++ (OPlay v a name, Done) :: pre)) fwd ->
  (forall n, srt_decides (evs n) SsOk) -> ~ In [] (polls v post) ->
  exists n msgs, srt_play (srt_wr evs) (registered pre name) (polls v post) (0%nat, []) = (None, (n, msgs)) /\
    msgs = map p_data (given v post) /\ Forall (fun m => In m ds) msgs /\
    initial (given v post) (ts_snapshot (puts i 1 pre) ++ puts i 1 post).
Proof.
  intros fuel mem fill raw inp ms c ds tail s' fwd x shape os s post pre v a name i evs Hf Hr Ha Hd Ht E Hn Hrun.
  rewrite (srt_publisher_exact fuel mem fill raw inp ms c ds tail Hf Hr Ha Hd Ht E Hn) in Hrun.
  destruct (ts_run mem ts_new ds) as [[s1 o1] x1] eqn:Er. injection Hrun as _ Ho _. subst o1. intros Ho1 Ho2 Ho3 Ho4 Ho5 Ho6 Ho7 Ho8.
  eapply srt_relay_end_to_end; eassumption.
Qed.
Print Assumptions srt_messages_to_player.
(** The session of [srt_relay_case] (P_Stream.v), its blocks sent in two messages: it meets
    the other hypotheses there. *)
Example srt_messages_case :
  let bs := concat exs_ds in
  arrives [SvMsg (take 200 bs); SvMsg (drop 200 bs); SvClosed] [take 200 bs; drop 200 bs] ERROR_SRT_SOCKET_CLOSED /\
  concat [take 200 bs; drop 200 bs] = concat exs_ds ++ [] /\ zlen exs_ds = 3 /\
  exists s x, fst (run_srt (ts_publish_prog 4 [] (repeat 0 188)) (srt_open (repeat 0 1316) [SvMsg (take 200 bs); SvMsg (drop 200 bs); SvClosed])) = Ok (s, exs_fwd, x).
Proof.
  cbv zeta. split. { repeat (constructor; try (vm_compute; split; discriminate)). }
  split; [vm_compute; reflexivity|]. split; [reflexivity|].
  rewrite (srt_publisher_exact 4 [] (repeat 0 188) (repeat 0 1316) _ [take 200 (concat exs_ds); drop 200 (concat exs_ds)] ERROR_SRT_SOCKET_CLOSED exs_ds []).
  - unfold exs_fwd. destruct (ts_run [] ts_new exs_ds) as [[s o] x]. eexists _, _. reflexivity.
  - reflexivity.
  - reflexivity.
  - repeat (constructor; try (vm_compute; split; discriminate)).
  - repeat constructor.
  - reflexivity.
  - vm_compute. reflexivity.
  - vm_compute. lia.
Qed.
