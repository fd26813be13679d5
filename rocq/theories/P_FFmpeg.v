(** Properties C195-C200: the build with FFmpeg. *)
From Verif Require Import Base M_Text M_Packet M_Url S_Url L_Url P_Url M_FFmpeg S_FFmpeg L_FFmpeg.

(** C195.  When every input stream is of a kind that is relayed, a packet goes
    out once, unchanged, on the output stream made for its input stream, at
    the same times up to half a tick of the output. *)
Theorem ffmpeg_packet_out : forall ss otb ret f p j s,
  Forall (fun s => relayed (fs_kind s) = true) ss -> nth_error ss j = Some s -> ticks (fs_tb s) -> ticks (otb (Z.of_nat j)) ->
  fr_index f = Z.of_nat j -> ff_read_packet ss (Some f) = Ok p -> 0 <= ret ->
  0 <= fr_dts f -> 0 <= fr_pts f -> fits (fr_dts f) (fs_tb s) (otb (Z.of_nat j)) -> fits (fr_pts f) (fs_tb s) (otb (Z.of_nat j)) ->
  exists dts pts,
    ff_write (ff_set_ctx (Some ss)) otb ret (Some p) = ([mkframe (made_for ss j) dts pts (fr_data f)], FGoes) /\
    same_time (fr_dts f) (fs_tb s) dts (otb (made_for ss j)) /\ same_time (fr_pts f) (fs_tb s) pts (otb (made_for ss j)).
Proof.
  intros ss otb ret f p j s Hall Hj Ht1 Ht2 Hi Hp Hr Hd Hpt F1 F2.
  destruct (ff_read_inv _ _ _ Hp) as (j' & s' & E1 & E2 & E3 & E4 & _).
  assert (j' = j) by lia. subst j'. rewrite E1 in Hj. injection Hj as ->.
  assert (Hlt : (j < length ss)%nat) by (apply nth_error_Some; congruence).
  destruct (set_ctx_ok ss) as (A & B & C). cbn zeta in A, B, C.
  rewrite (made_for_all ss Hall j) by lia.
  destruct (rescale_close _ _ _ Hd Ht1 Ht2 F1) as (d' & R1 & P1 & S1).
  destruct (rescale_close _ _ _ Hpt Ht1 Ht2 F2) as (p' & R2 & P2 & S2).
  exists d', p'. split; [|split; [exact S1|exact S2]].
  unfold ff_write. rewrite E3, E4, E2. rewrite A, B. rewrite Nat2Z.id. rewrite (C j s E1).
  rewrite (outputs_all ss Hall).
  assert (relayed (fs_kind s) = true) as ->. { rewrite Forall_forall in Hall. apply Hall. apply nth_error_In in E1. exact E1. }
  unfold zlen. replace (Z.of_nat j <? 0) with false by lia. replace (Z.of_nat (length ss) <=? Z.of_nat j) with false by lia. cbn [orb].
  rewrite R1, R2. replace (d' <? 0) with false by lia. replace (p' <? 0) with false by lia. cbn [orb].
  replace (ret <? 0) with false by lia. reflexivity.
Qed.
Print Assumptions ffmpeg_packet_out.

Definition fx_streams : list ffstream := [mkfs MEDIA_VIDEO (1, 90000); mkfs MEDIA_AUDIO (1, 44100)].
Definition fx_raw (i t : Z) : ffraw := mkfr i t (t + 3003) true [1; 2; 3].
Definition fx_pkt (ss : list ffstream) (f : ffraw) : option ffpkt := match ff_read_packet ss (Some f) with Ok p => Some p | _ => None end.
Example ffmpeg_packet_out_case :
  ff_write (ff_set_ctx (Some fx_streams)) (fun _ => (1, 1000)) 0 (fx_pkt fx_streams (fx_raw 0 90045)) =
    ([mkframe 0 1001 1034 [1; 2; 3]], FGoes) /\
  fits 90045 (1, 90000) (1, 1000) /\ ticks (1, 90000) /\ made_for fx_streams 1 = 1.
Proof. split; [reflexivity|]. unfold fits, ticks; cbn. lia. Qed.

(** The whole of a player: with a known format, an accepted header and packets
    that can be sent, every packet goes out, in order, until the library
    reports a failure; that ends the player. *)
Theorem ffmpeg_player_gets_all : forall guess r ss otb hdr raws rest,
  Forall (fun s => relayed (fs_kind s) = true) ss -> guess (ff_guess_text r) = true -> 0 <= hdr (outputs ss) ->
  Forall (fun x => 0 <= fst x /\ sendable ss otb (snd x)) raws ->
  (rest = [] \/ exists ret f more, rest = (ret, f) :: more /\ ret < 0 /\ sendable ss otb f) ->
  exists frs, ff_play guess r true (Some ss) otb hdr (map (fun x => (fst x, fx_pkt ss (snd x))) (raws ++ rest)) =
    (frs, match rest with [] => FGoes | _ => FRet ERROR_FFMPEG_WRITE end) /\
    Forall2 (carries ss otb) (map snd (raws ++ firstn 1 rest)) frs.
Proof.
  intros guess r ss otb hdr raws rest Hall Hg Hh HF Hrest. unfold ff_play. rewrite Hg. cbn [negb].
  destruct (set_ctx_ok ss) as (_ & Bo & _). cbn zeta in Bo. rewrite Bo. destruct (Z.ltb_spec (hdr (outputs ss)) 0); [lia|].
  assert (W : forall ret f, sendable ss otb f -> exists x, carries ss otb f x /\
    ff_write (ff_set_ctx (Some ss)) otb ret (fx_pkt ss f) = ([x], if ret <? 0 then FRet ERROR_FFMPEG_WRITE else FGoes)).
  { intros ret f (s & Hi & Hs & T1 & T2 & D1 & D2 & F1 & F2).
    assert (Hr : exists p, ff_read_packet ss (Some f) = Ok p).
    { unfold ff_read_packet. destruct (Z.ltb_spec (fr_index f) 0); [lia|]. rewrite Hs. eauto. }
    destruct Hr as [p Hr]. unfold fx_pkt. rewrite Hr.
    set (j := Z.to_nat (fr_index f)) in *. assert (Hj : fr_index f = Z.of_nat j) by lia. rewrite Hj in T2, F1, F2.
    destruct (ffmpeg_packet_out ss otb 0 f p j s Hall Hs T1 T2 Hj Hr ltac:(lia) D1 D2 F1 F2) as (dts & pts & E & S1 & S2).
    exists (mkframe (made_for ss j) dts pts (fr_data f)). split.
    { exists s. cbn. repeat split; assumption. }
    unfold ff_write in E |- *. destruct (_ || _); [discriminate|]. destruct (zlen _ <=? _); [discriminate|].
    destruct (_ || _); [discriminate|]. apply (f_equal fst) in E. cbn [fst] in E. rewrite E. reflexivity. }
  assert (G : forall l, Forall (fun x => 0 <= fst x /\ sendable ss otb (snd x)) l ->
    exists frs, Forall2 (carries ss otb) (map snd l) frs /\ forall more fs e, ff_write_all (ff_set_ctx (Some ss)) otb more = (fs, e) ->
      ff_write_all (ff_set_ctx (Some ss)) otb (map (fun x => (fst x, fx_pkt ss (snd x))) l ++ more) = (frs ++ fs, e)).
  { induction l as [|[ret f] l IH]; intros HL; [exists []; split; [constructor|intros; assumption]|].
    inversion HL as [|? ? [Hret Hf] HL']; subst. destruct (IH HL') as (frs & F & E). destruct (W ret f Hf) as (x & Cx & Ex).
    exists (x :: frs). split; [constructor; assumption|]. intros more fs e Hm. cbn [map app ff_write_all fst snd] in *. rewrite Ex.
    destruct (Z.ltb_spec ret 0); [lia|]. rewrite (E more fs e Hm). reflexivity. }
  destruct (G raws HF) as (frs & F & E). rewrite map_app.
  destruct Hrest as [->|(ret & f & more & -> & Hneg & Hf)].
  - exists frs. cbn [map firstn]. rewrite (E [] [] FGoes eq_refl), !app_nil_r. split; [reflexivity|exact F].
  - destruct (W ret f Hf) as (x & Cx & Ex). exists (frs ++ [x]). split.
    + cbn [map fst snd]. rewrite (E _ [x] (FRet ERROR_FFMPEG_WRITE)); [reflexivity|]. cbn [ff_write_all]. rewrite Ex.
      destruct (Z.ltb_spec ret 0); [reflexivity|lia].
    + rewrite map_app. apply Forall2_app; [exact F|]. cbn. constructor; [exact Cx|constructor].
Qed.
Print Assumptions ffmpeg_player_gets_all.
Example ffmpeg_player_case :
  sendable fx_streams (fun _ => (1, 1000)) (fx_raw 0 90045) /\ sendable fx_streams (fun _ => (1, 1000)) (fx_raw 1 44100) /\
  ff_play (fun _ => true) rq_new true (Some fx_streams) (fun _ => (1, 1000)) (fun _ => 0)
    [(0, fx_pkt fx_streams (fx_raw 0 90045)); (-5, fx_pkt fx_streams (fx_raw 1 44100)); (0, fx_pkt fx_streams (fx_raw 0 99999))]
  = ([mkframe 0 1001 1034 [1; 2; 3]; mkframe 1 1000 1068 [1; 2; 3]], FRet ERROR_FFMPEG_WRITE).
Proof.
  split; [|split; [|reflexivity]]; [exists (mkfs MEDIA_VIDEO (1, 90000))|exists (mkfs MEDIA_AUDIO (1, 44100))];
    (split; [cbn; lia|split; [reflexivity|unfold ticks, fits; cbn; lia]]).
Qed.

(** Who is refused, before anything is sent: players of streams that are not
    there, publishers to hosts that take none, publishers of a name that is
    taken. *)
Theorem ffmpeg_refusals : forall guess r ctx otb hdr ps opened found decoders present,
  ff_play guess r false ctx otb hdr ps = ([], FRet ERROR_STREAM_SOURCE_NOT_EXITS) /\
  ff_publish false (ff_demux_create true opened found decoders) present = Err ERROR_STREAM_PUBLISH_NOT_SUPPORT /\
  (opened && found && decoders = true ->
   ff_publish true (ff_demux_create true opened found decoders) present = if present then Err ERROR_HTTP_HAS_SOURCE else Ok 0).
Proof.
  intros guess r ctx otb hdr ps opened found decoders present. split; [reflexivity|]. split; [reflexivity|].
  intros H. unfold ff_publish, ff_demux_create. cbn [negb bind]. rewrite H. reflexivity.
Qed.
Print Assumptions ffmpeg_refusals.

(** Of a stream that is not relayed nothing goes out, and the others go on. *)
Theorem ffmpeg_ignored_stream : forall ss otb ret f p j s,
  nth_error ss j = Some s -> relayed (fs_kind s) = false -> fr_index f = Z.of_nat j -> ff_read_packet ss (Some f) = Ok p ->
  ff_write (ff_set_ctx (Some ss)) otb ret (Some p) = ([], FGoes).
Proof.
  intros ss otb ret f p j s Hj Hr Hi Hp.
  destruct (ff_read_inv _ _ _ Hp) as (j' & s' & E1 & E2 & E3 & _). assert (j' = j) by lia. subst j'. rewrite E1 in Hj. injection Hj as ->.
  destruct (set_ctx_ok ss) as (A & B & C). cbn zeta in A, B, C. unfold ff_write. rewrite E3, E2, Nat2Z.id, (C j s E1), Hr.
  change (-1 <? 0) with true. rewrite orb_true_r. reflexivity.
Qed.
Print Assumptions ffmpeg_ignored_stream.

(** But behind a stream that is not relayed, no packet reaches the output
    stream made for it: it is sent on the one of another stream, or undefined
    behaviour if there are not enough output streams. *)
Theorem ffmpeg_shifted_stream_refuted : forall ss otb ret f p i j s s0,
  nth_error ss i = Some s0 -> relayed (fs_kind s0) = false -> (i < j)%nat ->
  nth_error ss j = Some s -> relayed (fs_kind s) = true -> fr_index f = Z.of_nat j -> ff_read_packet ss (Some f) = Ok p ->
  (forall fr, In fr (fst (ff_write (ff_set_ctx (Some ss)) otb ret (Some p))) -> f_index fr <> made_for ss j) /\
  (outputs ss <= Z.of_nat j -> ff_write (ff_set_ctx (Some ss)) otb ret (Some p) = ([], FUndef)).
Proof.
  intros ss otb ret f p i j s s0 Hi0 Hr0 Hlt Hj Hr Hi Hp.
  destruct (ff_read_inv _ _ _ Hp) as (j' & s' & E1 & E2 & E3 & E4 & _). assert (j' = j) by lia. subst j'. rewrite E1 in Hj. injection Hj as ->.
  assert (Hl : (j < length ss)%nat) by (apply nth_error_Some; congruence).
  pose proof (made_for_lt ss j i s0 Hi0 Hlt ltac:(lia) Hr0) as M.
  destruct (set_ctx_ok ss) as (A & B & C). cbn zeta in A, B, C. unfold ff_write. rewrite E3, E2, Nat2Z.id, (C j s E1), Hr, A, B.
  unfold zlen at 1. replace (Z.of_nat j <? 0) with false by lia. replace (Z.of_nat (length ss) <=? Z.of_nat j) with false by lia. cbn [orb].
  unfold zlen. replace (Z.of_nat (length ss) <=? Z.of_nat j) with false by lia.
  split.
  - intros fr. destruct (outputs ss <=? Z.of_nat j); [intros []|].
    match goal with |- context[if ?b then ([], FExit) else _] => destruct b end; [intros []|].
    intros [<-|[]]. cbn. lia.
  - intros Ho. replace (outputs ss <=? Z.of_nat j) with true by lia. reflexivity.
Qed.
Print Assumptions ffmpeg_shifted_stream_refuted.

(** A container with an attachment in front: the video is sent as the audio's
    stream, the audio is undefined behaviour. *)
Example ffmpeg_shifted_case :
  let ss := mkfs MEDIA_ATTACHMENT (1, 90000) :: fx_streams in
  let m := ff_set_ctx (Some ss) in
  made_for ss 1 = 0 /\ fst (ff_write m (fun _ => (1, 1000)) 0 (fx_pkt ss (fx_raw 1 0))) = [mkframe 1 0 33 [1; 2; 3]] /\
  ff_write m (fun _ => (1, 1000)) 0 (fx_pkt ss (fx_raw 2 0)) = ([], FUndef).
Proof. repeat split. Qed.

(** C196.  A packet without a time, or with a time before zero, ends the whole
    server. *)
Theorem ffmpeg_negative_time_exits_refuted : forall ss otb ret f p j s,
  Forall (fun s => relayed (fs_kind s) = true) ss -> nth_error ss j = Some s -> ticks (fs_tb s) -> ticks (otb (Z.of_nat j)) ->
  fr_index f = Z.of_nat j -> ff_read_packet ss (Some f) = Ok p -> - 2 ^ 63 <= fr_dts f -> - 2 ^ 63 <= fr_pts f ->
  (fr_dts f = NOPTS \/ fr_pts f = NOPTS \/
   before_zero (fr_dts f) (fs_tb s) (otb (Z.of_nat j)) \/ before_zero (fr_pts f) (fs_tb s) (otb (Z.of_nat j))) ->
  ff_write (ff_set_ctx (Some ss)) otb ret (Some p) = ([], FExit).
Proof.
  intros ss otb ret f p j s Hall Hj Ht1 Ht2 Hi Hp Rd Rp H.
  destruct (ff_read_inv _ _ _ Hp) as (j' & s' & E1 & E2 & E3 & E4 & _). assert (j' = j) by lia. subst j'. rewrite E1 in Hj. injection Hj as ->.
  assert (Hlt : (j < length ss)%nat) by (apply nth_error_Some; congruence).
  destruct (set_ctx_ok ss) as (A & B & C). cbn zeta in A, B, C.
  unfold ff_write. rewrite E3, E4, E2. rewrite A, B. rewrite Nat2Z.id. rewrite (C j s E1). rewrite (outputs_all ss Hall).
  assert (relayed (fs_kind s) = true) as ->. { rewrite Forall_forall in Hall. apply Hall. apply nth_error_In in E1. exact E1. }
  unfold zlen. replace (Z.of_nat j <? 0) with false by lia. replace (Z.of_nat (length ss) <=? Z.of_nat j) with false by lia. cbn [orb].
  assert (X : ff_rescale_ts (fr_dts f) (fs_tb s) (otb (Z.of_nat j)) < 0 \/ ff_rescale_ts (fr_pts f) (fs_tb s) (otb (Z.of_nat j)) < 0).
  { destruct H as [H|[H|[H|H]]]; [left|right|left|right]; apply rescale_negative; auto. }
  replace ((ff_rescale_ts (fr_dts f) (fs_tb s) (otb (Z.of_nat j)) <? 0) || (ff_rescale_ts (fr_pts f) (fs_tb s) (otb (Z.of_nat j)) <? 0)) with true by lia.
  reflexivity.
Qed.
Print Assumptions ffmpeg_negative_time_exits_refuted.

(** It is enough that one player is there when the packet comes, whatever was
    sent before. *)
Theorem ffmpeg_exit_reaches_all : forall m otb pre p post fs,
  ff_write_all m otb pre = (fs, FGoes) -> ff_write m otb (fst p) (snd p) = ([], FExit) ->
  ff_write_all m otb (pre ++ p :: post) = (fs, FExit).
Proof.
  intros m otb pre p post. induction pre as [|[ret q] pre IH]; intros fs H1 H2.
  - cbn in H1. injection H1 as <-. destruct p as [ret q]. cbn [app ff_write_all fst snd] in *. rewrite H2. reflexivity.
  - cbn [app ff_write_all] in H1 |- *. destruct (ff_write m otb ret q) as [fs1 e1]. destruct e1; try discriminate.
    destruct (ff_write_all m otb pre) as [fs2 e2] eqn:E. injection H1 as <- ->. rewrite (IH fs2 eq_refl H2). reflexivity.
Qed.
Print Assumptions ffmpeg_exit_reaches_all.

Example ffmpeg_exit_case :
  ff_play (fun _ => true) rq_new true (Some fx_streams) (fun _ => (1, 1000)) (fun _ => 0)
    [(0, fx_pkt fx_streams (fx_raw 0 0)); (0, fx_pkt fx_streams (fx_raw 1 (-23))); (0, fx_pkt fx_streams (fx_raw 0 3003))]
  = ([mkframe 0 0 33 [1; 2; 3]], FExit) /\ before_zero (-23) (1, 44100) (1, 1000) /\ ~ before_zero (-22) (1, 44100) (1, 1000).
Proof. split; [reflexivity|]. unfold before_zero; cbn. lia. Qed.

(** C197.  A stream whose packets are not FFmpeg's - one published over SRT -
    has no context; no player gets anything of it: its request fails when the
    header is written, or the first packet is undefined behaviour. *)
Theorem ffmpeg_foreign_stream_unplayable : forall guess r otb hdr ps fs e,
  ps <> [] -> Forall (fun p => snd p = None) ps ->
  ff_play guess r true None otb hdr ps = (fs, e) ->
  fs = [] /\ ((hdr 0 < 0 /\ e = FRet ERROR_FFMPEG_WRITE) \/ e = FUndef).
Proof.
  intros guess r otb hdr ps fs e Hne HF. unfold ff_play. cbn [negb]. destruct (guess (ff_guess_text r)); cbn [negb].
  2:{ intros [= <- <-]. auto. }
  cbn [ff_set_ctx ffmux0 fm_out]. change (zlen []) with 0. destruct (Z.ltb_spec (hdr 0) 0).
  - intros [= <- <-]. auto.
  - destruct ps as [|[ret p] ps]; [contradiction|]. inversion HF as [|? ? Hp HF' E1]; subst. cbn in Hp. subst p. cbn. intros [= <- <-]. auto.
Qed.
Print Assumptions ffmpeg_foreign_stream_unplayable.
Example ffmpeg_foreign_case :
  ff_play (fun _ => true) rq_new true None (fun _ => (1, 1000)) (fun n => if n =? 0 then -22 else 0) [(0, None)] = ([], FRet ERROR_FFMPEG_WRITE).
Proof. reflexivity. Qed.

(** C198.  A request for a running stream by a URL for which FFmpeg knows no
    format is undefined behaviour, whatever the stream. *)
Theorem ffmpeg_unknown_format_refuted : forall guess r ctx otb hdr ps,
  guess (ff_guess_text r) = false -> ff_play guess r true ctx otb hdr ps = ([], FUndef).
Proof. intros guess r ctx otb hdr ps H. unfold ff_play. rewrite H. reflexivity. Qed.
Print Assumptions ffmpeg_unknown_format_refuted.

(** The format is guessed from schema, host and path of the request only: the
    query plays no part. *)
Theorem ffmpeg_format_by_path : forall lib host port path query,
  url_lib_ok lib -> url_wf (str "http") host port (Some path) query ->
  exists r, url_from lib (url_text (str "http") host port (Some path) query) = (Ok 0, r) /\
    ff_guess_text r = url_text (str "http") host None (Some path) None.
Proof.
  intros lib host port path query Hlib Hwf.
  destruct (url_parts_exact lib (str "http") host port (Some path) query Hlib Hwf) as (r & Hr & Hs & Hh & _ & _ & Hp & _); [discriminate|].
  exists r. split; [exact Hr|]. unfold ff_guess_text. rewrite Hs, Hh, Hp. cbn. rewrite app_nil_r. reflexivity.
Qed.
Print Assumptions ffmpeg_format_by_path.
Example ffmpeg_unknown_format_case :
  ff_guess_text (snd (url_from hp_url (str "http://h:8080/live/x.mkw?a=b"))) = str "http://h/live/x.mkw" /\
  ff_play (fun t => eqb_list t (str "http://h/live/x.flv")) (snd (url_from hp_url (str "http://h:8080/live/x.mkw?a=b"))) true
    (Some fx_streams) (fun _ => (1, 1000)) (fun _ => 0) [] = ([], FUndef).
Proof. split; vm_compute; reflexivity. Qed.

(** Content that FFmpeg cannot open is refused to a publisher, but undefined
    behaviour in an edge that is sent it by its origin. *)
Theorem ffmpeg_unreadable_content_refuted : forall opened found decoders present,
  opened && found && decoders = false ->
  ff_publish true (ff_demux_create true opened found decoders) present = Err ERROR_AVFORMAT_DEMUX_NOT_EXISTS /\
  ff_edge (Ok 0) (ff_demux_create true opened found decoders) = UB.
Proof. intros opened found decoders present H. unfold ff_publish, ff_edge, ff_demux_create. cbn [negb bind]. rewrite H. auto. Qed.
Print Assumptions ffmpeg_unreadable_content_refuted.
Example ffmpeg_unreadable_case :
  ff_edge (Ok 0) (ff_demux_create true true true true) = Ok 0 /\ ff_edge (Err 5) (ff_demux_create true false true true) = Err 5 /\
  ff_edge (Ok 0) (ff_demux_create true false true true) = UB.
Proof. repeat split. Qed.

(** C200.  A newcomer's packets are exactly the newest ones from a key frame of
    the video on; without video nothing is kept. *)
Theorem ffmpeg_newcomer : forall h,
  newest_from_key (fun p => fk_stream p = AV_STREAM_TYPE_VIDEO /\ fr_key (fk_raw p) = true) h (ff_cache h).
Proof.
  intros h. destruct (ff_cache_newest h) as (old & E & H). exists old. split; [exact E|].
  assert (K : forall p, ff_keyframe p = true <-> fk_stream p = AV_STREAM_TYPE_VIDEO /\ fr_key (fk_raw p) = true).
  { intros p. unfold ff_keyframe. rewrite andb_true_iff, Z.eqb_eq. reflexivity. }
  destruct H as [[E1 N]|(k & r & E1 & Hk & Hr)]; [left|right].
  - split; [exact E1|]. intros p Hp Hq. apply (N p Hp), K, Hq.
  - exists k, r. split; [exact E1|]. split; [apply K, Hk|]. intros p Hp Hq. apply (Hr p Hp), K, Hq.
Qed.
Print Assumptions ffmpeg_newcomer.

(** On the packets as the library read them: the key frames are those of the
    streams the library calls video. *)
Theorem ffmpeg_newcomer_read : forall ss fs h, Forall2 (fun f p => ff_read_packet ss (Some f) = Ok p) fs h ->
  newest_from_key (fun f => fr_key f = true /\ exists s, nth_error ss (Z.to_nat (fr_index f)) = Some s /\ fs_kind s = MEDIA_VIDEO)
    fs (map fk_raw (ff_cache h)).
Proof.
  intros ss fs h H2.
  assert (Hm : map fk_raw h = fs).
  { clear - H2. induction H2 as [|f p fs h H _ IH]; [reflexivity|]. cbn [map]. rewrite IH. f_equal. destruct (ff_read_inv _ _ _ H) as (j & s & _ & _ & R & _). exact R. }
  assert (K : forall p, In p h -> (fk_stream p = AV_STREAM_TYPE_VIDEO /\ fr_key (fk_raw p) = true) <->
    (fr_key (fk_raw p) = true /\ exists s, nth_error ss (Z.to_nat (fr_index (fk_raw p))) = Some s /\ fs_kind s = MEDIA_VIDEO)).
  { intros p Hp. assert (exists f, ff_read_packet ss (Some f) = Ok p) as (f & Hf).
    { clear - H2 Hp. induction H2 as [|f q fs h H _ IH]; [destruct Hp|]. destruct Hp as [->|Hp]; eauto. }
    destruct (ff_read_inv _ _ _ Hf) as (j & s & E1 & E2 & E3 & _ & E5). rewrite E3, E5, E2, Nat2Z.id. unfold from_ffmpeg.
    destruct (Z.eqb_spec (fs_kind s) MEDIA_VIDEO) as [Ev|Ev].
    - split; [intros (_ & X); eauto|intros (X & _); auto].
    - split; [intros (X & _)|intros (_ & s' & Es & X)].
      + destruct (fs_kind s =? MEDIA_AUDIO); discriminate X.
      + rewrite E1 in Es. injection Es as <-. contradiction. }
  destruct (ffmpeg_newcomer h) as (old & E & H). exists (map fk_raw old). split; [rewrite <- Hm, E at 1; apply map_app|].
  destruct H as [[E1 N]|(k & r & E1 & Hk & Hr)]; [left|right].
  - split; [rewrite E1; reflexivity|]. rewrite <- Hm. intros f Hf. apply in_map_iff in Hf as (p & <- & Hp). intros X. apply (N p Hp), K; assumption.
  - exists (fk_raw k), (map fk_raw r). rewrite E1. split; [reflexivity|].
    assert (I : forall p, In p (k :: r) -> In p h). { intros p Hp. rewrite E, E1. apply in_or_app. right. exact Hp. }
    split; [apply K; [apply I; left; reflexivity|exact Hk]|].
    intros f Hf. apply in_map_iff in Hf as (p & <- & Hp). intros X. apply (Hr p Hp), K; [apply I; right; exact Hp|exact X].
Qed.
Print Assumptions ffmpeg_newcomer_read.
Example ffmpeg_newcomer_read_case :
  let ss := [mkfs MEDIA_AUDIO (1, 44100); mkfs MEDIA_VIDEO (1, 90000)] in
  let fs := [mkfr 1 0 0 true [1]; mkfr 0 0 0 true [2]; mkfr 1 3000 3000 true [3]; mkfr 0 1000 1000 true [4]] in
  exists h, Forall2 (fun f p => ff_read_packet ss (Some f) = Ok p) fs h /\
    map (fun p => fr_data (fk_raw p)) (ff_cache h) = [[3]; [4]].
Proof. cbn zeta. eexists. split; [repeat (constructor; [reflexivity|]); constructor|reflexivity]. Qed.

Theorem ffmpeg_newcomer_audio_only : forall h,
  (forall p, In p h -> fk_stream p <> AV_STREAM_TYPE_VIDEO) -> ff_cache h = [].
Proof.
  intros h H. destruct (ff_cache_newest h) as (old & E & [[E1 _]|(k & r & E1 & Hk & _)]); [exact E1|].
  exfalso. unfold ff_keyframe in Hk. apply andb_prop in Hk. destruct Hk as [Hk _]. apply Z.eqb_eq in Hk.
  apply (H k); [|exact Hk]. rewrite E, E1. apply in_or_app. right. left. reflexivity.
Qed.
Print Assumptions ffmpeg_newcomer_audio_only.

Definition fx_video (key : bool) (d : list Z) : ffpkt := mkfk (mkfr 0 0 0 key d) (1, 1000) AV_STREAM_TYPE_VIDEO 0 0.
Definition fx_audio (d : list Z) : ffpkt := mkfk (mkfr 1 0 0 true d) (1, 1000) AV_STREAM_TYPE_AUDIO 0 0.
Example ffmpeg_newcomer_case :
  ff_cache [fx_audio [1]; fx_video true [2]; fx_video false [3]; fx_video true [4]; fx_audio [5]] = [fx_video true [4]; fx_audio [5]] /\
  ff_cache [fx_audio [1]; fx_audio [2]] = [].
Proof. split; reflexivity. Qed.

(** What the library reads and writes: a failure is never taken for data, a
    success is reported with its size. *)
Theorem ffmpeg_io_codes :
  (forall d, zlen d < 2 ^ 31 -> ff_read_data (Ok d) = Ok (zlen d)) /\
  (forall c, - 2 ^ 31 <= c < 2 ^ 31 -> c <> 0 -> exists n, ff_read_data (Err c) = Ok n /\ n < 0) /\
  (forall size, 0 <= size -> ff_write_data 0 size = size) /\
  (forall c size, - 2 ^ 31 <= c < 2 ^ 31 -> c <> 0 -> ff_write_data c size < 0).
Proof.
  unfold ff_read_data, ff_write_data. split; [|split; [|split]].
  - intros d Hd. pose proof (zlen_nonneg d). unfold s32. rewrite Z.mod_small by lia. f_equal. lia.
  - intros c Hc Hn. eexists. split; [reflexivity|]. unfold s32. destruct (Z.ltb_spec 0 c); rewrite Z.mod_small by lia; lia.
  - intros. reflexivity.
  - intros c size Hc Hn. replace (c =? 0) with false by lia. cbn [negb]. unfold s32. destruct (Z.ltb_spec 0 c); [rewrite Z.mod_small by lia|]; lia.
Qed.
Print Assumptions ffmpeg_io_codes.
Example ffmpeg_io_case : ff_read_data (Err ERROR_SOCKET_CLOSED) = Ok (- ERROR_SOCKET_CLOSED) /\ ff_write_data ERROR_SOCKET_TIMEOUT 100 = - ERROR_SOCKET_TIMEOUT.
Proof. split; reflexivity. Qed.

(** The times kept in the packet stay in ticks of the input stream; they are
    not brought to milliseconds like those of all other packets. *)
Theorem ffmpeg_packet_milliseconds_refuted : forall ss f p s,
  ff_read_packet ss (Some f) = Ok p -> nth_error ss (Z.to_nat (fr_index f)) = Some s -> ticks (fs_tb s) ->
  - 2 ^ 63 <= fr_dts f < 2 ^ 63 -> fk_dts p = fr_dts f.
Proof.
  intros ss f p s Hp Hs [H1 H2] Hr. unfold ff_read_packet in Hp. destruct (fr_index f <? 0); [discriminate|]. rewrite Hs in Hp. injection Hp as <-. cbn.
  unfold ff_rescale, NOPTS, INT64_MAX. set (c := fst (fs_tb s) * snd (fs_tb s)). assert (0 < c) by (subst c; nia).
  replace ((c <=? 0) || (c <? 0)) with false by lia. cbn [andb].
  destruct (Z.eqb_spec (fr_dts f) (- 2 ^ 63)); [reflexivity|]. destruct (Z.eqb_spec (fr_dts f) (2 ^ 63 - 1)); [reflexivity|]. cbn [orb].
  rewrite Z.min_l by lia. rewrite Z.div_add_l by lia. rewrite Z.div_small by (split; [apply Z.div_pos; lia|apply Z.div_lt; lia]).
  replace (2 ^ 63 - 1 <? Z.abs (fr_dts f) + 0) with false by lia. destruct (Z.ltb_spec (fr_dts f) 0); lia.
Qed.
Print Assumptions ffmpeg_packet_milliseconds_refuted.
Example ffmpeg_milliseconds_case :
  option_map fk_dts (fx_pkt fx_streams (fx_raw 0 90000)) = Some 90000.
Proof. reflexivity. Qed.

(** C199.  An RTMP client of this build reaches the stream of the same name as
    without FFmpeg - host and path - in FLV, with the same query. *)
Theorem ffmpeg_rtmp_same_stream : forall lib r query,
  url_lib_ok lib -> rq_params r = match query with Some q => q | None => [] end ->
  url_wf (str "http") (rq_host r) None (Some (rq_path r ++ str ".flv")) query -> zlen (rq_path r) + 4 < 2 ^ 64 ->
  exists r', ff_rtmp_req lib r = (Ok 0, r') /\ cache_key r' = rq_host r ++ rq_path r /\
    rq_ext r' = str "flv" /\ rq_params r' = rq_params r /\ rq_method r' = str "GET".
Proof.
  intros lib r query Hlib Hq Hwf Hlen.
  destruct (url_parts_exact lib _ _ _ _ _ Hlib Hwf ltac:(discriminate)) as (r' & Hr & _ & Hh & Hm & _ & Hp & Hpar & _ & He & _).
  cbn [opt_or] in Hp, Hpar. exists r'.
  assert (Hx : rq_ext r' = str "flv").
  { apply He. exists (rq_path r). split; [exact Hp|]. intros H. cbn in H. repeat (destruct H as [H|H]; [discriminate H|]). exact H. }
  split; [|split; [|split; [exact Hx|split; [congruence|exact Hm]]]].
  - unfold ff_rtmp_req. rewrite Hq. rewrite <- Hr. f_equal. unfold url_text. cbn [app].
    rewrite <- !app_assoc. change (str "http://") with (str "http" ++ str "://"). rewrite <- !app_assoc. do 3 f_equal. cbn [app].
    f_equal. destruct query as [[|q0 q]|]; try reflexivity.
    pose proof (uw_query _ _ _ _ _ Hwf) as K. cbn in K. destruct K as [K _]. congruence.
  - rewrite <- Hh. apply (cache_key_dot r' (rq_path r) (str "flv")); [exact Hp|exact Hx|discriminate|discriminate|].
    rewrite Hp, zlen_app. change (zlen (str ".flv")) with 4. exact Hlen.
Qed.
Print Assumptions ffmpeg_rtmp_same_stream.
Example ffmpeg_rtmp_case :
  let r := mkrq (str "/live/x") (str "rtmp") (str "rtmp") 1935 (str "host") (str "/live/x") [] (str "k=v") [] [] in
  url_wf (str "http") (rq_host r) None (Some (rq_path r ++ str ".flv")) (Some (str "k=v")) /\
  cache_key (snd (ff_rtmp_req hp_url r)) = str "host/live/x" /\ rq_ext (snd (ff_rtmp_req hp_url r)) = str "flv".
Proof. split; [wf_solve|]. split; vm_compute; reflexivity. Qed.
