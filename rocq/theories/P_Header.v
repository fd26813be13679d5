(** Property C194: the packets the cache takes for headers, compared with the
    bytes of the FLV tags that carried them. *)
From Verif Require Import Base M_IO M_Packet M_Cache S_Cache L_Cache M_Flv S_Flv L_Flv S_Header.

(** How the predicates the caches use read on the wire.  The one for video
    headers also holds for every information or command frame. *)
Theorem packet_kinds_on_wire : forall cap p, flv_transportable cap p ->
  (is_script p = true <-> tag_script p) /\
  (is_audio_seq p = true <-> tag_audio_header p) /\
  (is_keyframe p = true <-> tag_keyframe p) /\
  (is_video_seq p = true <-> tag_video_header p \/ tag_command p).
Proof.
  intros cap p (Hd & Hne & _ & _ & _ & H).
  unfold is_script, is_audio_seq, is_keyframe, is_video_seq, is_audio, is_video,
    tag_script, tag_audio_header, tag_keyframe, tag_video_header, tag_command, flv_type_byte,
    body_frame, body_second, flv_body, flv_prefix.
  assert (L : forall f, byte f -> Z.land (Z.shiftr f 4) 15 = f / 16).
  { intros f [Hf1 Hf2]. rewrite shiftr_div by lia. change 15 with (Z.ones 4). rewrite Z.land_ones by lia.
    change (2 ^ 4) with 16. rewrite Z.mod_small; [reflexivity|]. zify_divmod; lia. }
  destruct H as [(Hs & Hf & Hc & _ & Ht & _)|[(Hs & Hf & _ & _ & Hc & Ht & _)|[(Hs & Hf & _ & _ & Hc & Ht & _)|(Hs & Hf & _ & Ht & _)]]];
  rewrite Hs; unfold AV_STREAM_TYPE_AUDIO, AV_STREAM_TYPE_VIDEO, AV_STREAM_TYPE_SUBTITLE;
  cbn [Z.eqb Pos.eqb andb]; unfold flv_video_command.
  - unfold byte in Hf, Ht. rewrite Z.mod_small by lia. cbn [nth app]. rewrite Z.mod_small by lia.
    rewrite Z.eqb_eq. intuition lia.
  - rewrite (L _ Hf). unfold byte in Hf, Ht. rewrite (Z.mod_small (p_flags p / 16)) by (zify_divmod; lia).
    replace (p_flags p / 16 =? 5) with false by lia. rewrite !Z.mod_small by lia. cbn [nth app].
    rewrite !Z.eqb_eq. intuition lia.
  - rewrite (L _ Hf). unfold byte in Hf. rewrite (Z.mod_small (p_flags p / 16)) by (zify_divmod; lia).
    rewrite Hc, Ht. rewrite !Z.mod_small by lia. cbn [nth app Z.eqb Pos.eqb]. rewrite Hc. intuition (try discriminate; lia).
  - intuition (try discriminate; lia).
Qed.
Print Assumptions packet_kinds_on_wire.

Definition hd_key (d : list Z) := mkpkt 1 AV_STREAM_TYPE_VIDEO 1 40 40 0x17 CODEC_H264 d.
Definition hd_header (d : list Z) := mkpkt 1 AV_STREAM_TYPE_VIDEO 0 0 0 0x17 CODEC_H264 d.
Definition hd_command (d : list Z) := mkpkt 1 AV_STREAM_TYPE_VIDEO 0 60 0 0x57 CODEC_H264 d.
Example packet_kinds_case :
  flv_transportable 100 (hd_command [1]) /\ tag_command (hd_command [1]) /\
  flv_transportable 100 (hd_header [2]) /\ tag_video_header (hd_header [2]) /\ tag_keyframe (hd_header [2]) /\
  ~ tag_video_header (hd_key [3]) /\ tag_keyframe (hd_key [3]).
Proof.
  assert (B : forall x, byte x -> bytes [x]) by (intros x Hx; constructor; [exact Hx|constructor]).
  split; [|split; [|split; [|split; [|split; [|split]]]]].
  - split; [apply B; split; lia|]. split; [discriminate|]. split; [cbn; lia|]. split; [cbn; lia|]. split; [reflexivity|].
    right; right; left. cbn. unfold byte. intuition (try lia; reflexivity).
  - split; reflexivity.
  - split; [apply B; split; lia|]. split; [discriminate|]. split; [cbn; lia|]. split; [cbn; lia|]. split; [reflexivity|].
    right; left. cbn. unfold byte. intuition (try lia; try reflexivity; discriminate).
  - split; [reflexivity|]. split; [discriminate|reflexivity].
  - split; reflexivity.
  - intros (_ & _ & H). discriminate H.
  - split; reflexivity.
Qed.

(** C194.  The stream's decoder configuration reaches a newcomer as long as no
    information or command frame came after it. *)
Theorem newcomer_gets_video_header : forall cap pre hd post,
  Forall (flv_transportable cap) (pre ++ hd :: post) -> tag_video_header hd ->
  (forall p, In p post -> ~ tag_video_header p /\ ~ tag_command p) ->
  In hd (fst (gop_dump (fold_left gop_put (pre ++ hd :: post) gop0))).
Proof.
  intros cap pre hd post HF Hh Hp.
  rewrite (gop_inv_dump _ _ (gop_run_inv (pre ++ hd :: post))).
  assert (E : last_such is_video_seq (pre ++ hd :: post) = Some hd).
  { apply Forall_app in HF. destruct HF as [_ HF]. inversion HF as [|? ? T HF' E1]; subst.
    assert (N : last_such is_video_seq post = None).
    { clear - HF' Hp. induction post as [|x post IH]; [reflexivity|]. cbn.
      inversion HF' as [|? ? Tx HF2 E1]; subst. rewrite IH; [|intros p Hi; apply Hp; right; exact Hi|exact HF2].
      destruct (is_video_seq x) eqn:Ex; [|reflexivity]. exfalso.
      apply (packet_kinds_on_wire _ _ Tx) in Ex. destruct (Hp x (or_introl eq_refl)). tauto. }
    clear HF Hp HF'. induction pre as [|x pre IH]; cbn.
    - rewrite N. replace (is_video_seq hd) with true; [reflexivity|]. symmetry.
      apply (packet_kinds_on_wire _ _ T). left; exact Hh.
    - rewrite IH. reflexivity. }
  unfold gop_snapshot. rewrite E. apply in_or_app; right. apply in_or_app; right. left. reflexivity.
Qed.
Print Assumptions newcomer_gets_video_header.

(** After such a frame no newcomer gets any configuration until the publisher
    sends one again: the frame has taken its place. *)
Theorem newcomer_header_hidden_refuted : forall cap pre c post,
  Forall (flv_transportable cap) (pre ++ c :: post) -> tag_command c ->
  (forall p, In p post -> ~ tag_video_header p) ->
  forall p, In p (fst (gop_dump (fold_left gop_put (pre ++ c :: post) gop0))) -> ~ tag_video_header p.
Proof.
  intros cap pre c post HF Hc Hp p Hi Hv.
  rewrite (gop_inv_dump _ _ (gop_run_inv (pre ++ c :: post))) in Hi.
  assert (K : forall q, In q (pre ++ c :: post) -> tag_video_header q -> is_video_seq q = true).
  { intros q Hq Hh. rewrite Forall_forall in HF. apply (packet_kinds_on_wire _ _ (HF q Hq)). left; exact Hh. }
  assert (Lin : forall f h q, last_such f h = Some q -> In q h /\ f q = true).
  { intros f h q. induction h as [|x h IH]; cbn; [discriminate|]. destruct (last_such f h) as [y|].
    - intros [= ->]. destruct (IH eq_refl). auto.
    - destruct (f x) eqn:Ef; [|discriminate]. intros [= ->]. auto. }
  assert (V : forall q, last_such is_video_seq (pre ++ c :: post) = Some q -> ~ tag_video_header q).
  { intros q Hq.
    assert (Hs : is_video_seq c = true).
    { rewrite Forall_forall in HF. apply (packet_kinds_on_wire _ _ (HF c (in_elt _ _ _))). right; exact Hc. }
    assert (A : q = c \/ In q post).
    { clear - Hq Hs Lin. induction pre as [|x pre IH]; cbn in Hq.
      - destruct (last_such is_video_seq post) as [y|] eqn:E; [right; injection Hq as <-; apply (Lin _ _ _ E)|].
        rewrite Hs in Hq. left; congruence.
      - apply IH. destruct (last_such is_video_seq (pre ++ c :: post)) as [y|] eqn:E; [exact Hq|]. exfalso.
        clear - E Hs. induction pre as [|z pre IH]; cbn in E.
        + destruct (last_such is_video_seq post); [discriminate|]. rewrite Hs in E. discriminate.
        + destruct (last_such is_video_seq (pre ++ c :: post)); [discriminate|]. apply IH; reflexivity. }
    destruct A as [->|A]; [|apply Hp; exact A]. destruct Hc as [_ Hc]. intros (_ & Hn & _). contradiction. }
  unfold gop_snapshot in Hi. apply in_app_or in Hi. destruct Hi as [Hi|Hi].
  { destruct (last_such is_script _) as [y|] eqn:E; [|destruct Hi]. destruct Hi as [->|[]].
    apply Lin in E. destruct E as [Ei Es]. pose proof (K _ Ei Hv) as Kv. unfold is_script, is_video_seq, is_video in *.
    apply andb_prop in Kv. destruct Kv as [Kv _]. apply Z.eqb_eq in Kv, Es. rewrite Kv in Es. discriminate. }
  apply in_app_or in Hi. destruct Hi as [Hi|Hi].
  { destruct (last_such is_audio_seq _) as [y|] eqn:E; [|destruct Hi]. destruct Hi as [->|[]].
    apply Lin in E. destruct E as [Ei Es]. pose proof (K _ Ei Hv) as Kv. unfold is_audio_seq, is_audio, is_video_seq, is_video in *.
    apply andb_prop in Kv. destruct Kv as [Kv _]. apply andb_prop in Es. destruct Es as [Es _].
    apply Z.eqb_eq in Kv, Es. rewrite Kv in Es. discriminate. }
  apply in_app_or in Hi. destruct Hi as [Hi|Hi].
  { destruct (last_such is_video_seq _) as [y|] eqn:E; [|destruct Hi]. destruct Hi as [->|[]]. exact (V _ eq_refl Hv). }
  assert (Sub : forall m q, In q (from_last_key m) -> In q m).
  { clear. intros m q. induction m as [|x m IH]; [trivial|]. cbn [from_last_key].
    destruct (existsb is_keyframe m); [intros Hi; right; apply IH, Hi|]. destruct (is_keyframe x); [trivial|intros []]. }
  apply Sub in Hi. apply filter_In in Hi. destruct Hi as [Hi Hm]. pose proof (K _ Hi Hv) as Kv.
  unfold is_media in Hm. rewrite Kv in Hm. rewrite orb_true_r in Hm. discriminate.
Qed.
Print Assumptions newcomer_header_hidden_refuted.

(** Header, keyframe, command frame: the newcomer gets the command frame and
    the keyframe, but nothing to decode the latter with. *)
Example newcomer_header_case :
  fst (gop_dump (fold_left gop_put [hd_header [2]; hd_key [3]] gop0)) = [hd_header [2]; hd_key [3]] /\
  fst (gop_dump (fold_left gop_put [hd_header [2]; hd_key [3]; hd_command [1]] gop0)) = [hd_command [1]; hd_key [3]].
Proof. split; reflexivity. Qed.

(** The same from the publisher's bytes to the newcomer's. *)
Example newcomer_header_bytes_case :
  let sent := flv_default_header ++ flv_layout 0 [hd_header [2]; hd_key [3]; hd_command [1]] in
  let got := fst (fst (snd (flv_demux 4 (br_new (repeat 0 64) (mktr [sent] ERROR_SOCKET_CLOSED))))) in
  flv_layout 0 (fst (gop_dump (fold_left gop_put got gop0))) =
  flv_layout 0 [hd_command [1]; hd_key [3]].
Proof. vm_compute. reflexivity. Qed.
