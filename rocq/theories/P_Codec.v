(** Properties C19, C20, C21: H.264 and AAC parsers. *)
From Verif Require Import Base M_Bits L_Align M_Packet M_H264 M_AAC S_Fields S_Codec L_H264 L_AAC.

(** C19: splitting a byte stream returns exactly its units, whatever precedes
    the first start code. *)
Theorem annexb_split_exact :
  forall lead us,
    bytes (lead ++ annexb us) -> zlen (lead ++ annexb us) < 2 ^ 29 ->
    us <> [] -> no_start_code lead ->
    Forall (fun u => nal_ok (snd u) /\ no_start_code (snd u)) us ->
    h264_decode (lead ++ annexb us) = Ok (map nal_of (units_with_zeros us)).
Proof.
  intros lead us Hb Hl Hne Hlead HF. unfold h264_decode.
  apply (annexb_roundtrip us _ (lead ++ annexb us) _ lead); try assumption.
  - apply al_init; [assumption|lia].
  - rewrite Z2Nat.id by apply zlen_nonneg. lia.
Qed.
Print Assumptions annexb_split_exact.

(** With three-byte start codes the units come back unchanged; with four-byte
    start codes every unit but the last keeps a zero of the next start code. *)
Theorem annexb_three_byte_codes :
  forall ns, map n_buf (map nal_of (units_with_zeros (map (fun n => (O, n)) ns))) = ns.
Proof.
  intros ns. rewrite map_map. cbn [n_buf nal_of]. rewrite map_id.
  induction ns as [|n [|m ns] IH]; [reflexivity|cbn; rewrite app_nil_r; reflexivity|].
  cbn [map units_with_zeros repeat] in *. rewrite app_nil_r. f_equal. exact IH.
Qed.
Print Assumptions annexb_three_byte_codes.
Theorem annexb_four_byte_codes :
  forall ns l, map n_buf (map nal_of (units_with_zeros (map (fun n => (1%nat, n)) (ns ++ [l])))) =
    map (fun n => n ++ [0]) ns ++ [l].
Proof.
  intros ns l. rewrite map_map. cbn [n_buf nal_of]. rewrite map_id.
  induction ns as [|n [|m ns] IH]; [cbn; rewrite app_nil_r; reflexivity|cbn; rewrite app_nil_r; reflexivity|].
  cbn [map app units_with_zeros repeat] in *. f_equal. exact IH.
Qed.
Print Assumptions annexb_four_byte_codes.

(** C19, every input: the splitter never leaves the buffer; when it succeeds
    the units with their start codes are, in order, all the data after the
    first start code, and no unit hides a further one (except a start code
    that ends the data). *)
Theorem annexb_split_total :
  forall buf, bytes buf -> zlen buf < 2 ^ 29 ->
    match h264_decode buf with
    | Ok ns => (zlen buf < 4 /\ ns = []) \/
        (ns <> [] /\ exists lead, no_start_code lead /\ buf = lead ++ flat_map unit_bytes ns /\
         Forall (fun n => nal_ok (n_buf n) /\ no_inner_start_code (n_buf n) /\ n = nal_of (n_buf n)) ns)
    | Err e => e = ERROR_H264_DECODER
    | _ => False
    end.
Proof.
  intros buf Hb Hl. unfold h264_decode. apply (decode_sound _ buf); [apply al_init; [assumption|lia]|assumption|].
  rewrite Z2Nat.id by apply zlen_nonneg. lia.
Qed.
Print Assumptions annexb_split_total.

Definition codec_ex_units : list (nat * list Z) :=
  [(0%nat, [0x67; 1; 2; 3]); (1%nat, [0x68; 9]); (3%nat, [0x65; 0; 0; 2; 0])].
Example annexb_split_nonvacuous :
  let buf := [7; 0; 0] ++ annexb codec_ex_units in
  bytesb buf = true /\
  h264_decode buf = Ok [mknal 0 3 7 [0x67; 1; 2; 3; 0]; mknal 0 3 8 [0x68; 9; 0; 0; 0]; mknal 0 3 5 [0x65; 0; 0; 2; 0]] /\
  h264_decode [0; 0; 1; 0xE5; 1] = Err ERROR_H264_DECODER /\ h264_decode [0; 0; 2; 1; 4] = Err ERROR_H264_DECODER.
Proof. vm_compute. repeat split. Qed.
Example annexb_split_hyps_nonvacuous :
  no_start_code [7; 0; 0] /\ Forall (fun u => nal_ok (snd u) /\ no_start_code (snd u)) codec_ex_units.
Proof.
  assert (D : forall l, forallb (fun k => negb (eqb_list (take 3 (drop (Z.of_nat k) l)) [0; 0; 1])) (seq 0 (S (length l))) = true ->
                no_start_code l).
  { intros l H a b E. rewrite forallb_forall in H. specialize (H (length a)). rewrite in_seq in H.
    subst l. rewrite !app_length in H. specialize (H ltac:(lia)).
    rewrite drop_app_exact in H by reflexivity. rewrite take_app_exact in H by reflexivity.
    discriminate H. }
  split; [apply D; reflexivity|]. repeat constructor; try (apply D; reflexivity); cbn [snd];
    eexists; eexists; (split; [reflexivity|lia]).
Qed.

(** C20: the packets of an access unit. *)
Theorem avc_conversion_exact :
  forall ctx nls ns, av_tb ctx <> 0 -> nls = -1 \/ nls = 3 ->
    Forall (fun n => bytes (n_buf n)) ns ->
    encode_avc ctx nls ns =
      match last_of is_sps ns with
      | Some s => if zlen (n_buf s) <? 4 then Err ERROR_H264_ENCODER else Ok (avc_packets ctx ns)
      | None => Ok (avc_packets ctx ns)
      end.
Proof. exact encode_avc_ok. Qed.
Print Assumptions avc_conversion_exact.

(** C20: the key-frame flag of a media packet tells an IDR slice. *)
Theorem avc_keyframe_flag :
  forall ctx ns p, In p (flat_map (media_pkt ctx) ns) ->
    exists n, In n ns /\ p_data p = be 4 (zlen (n_buf n)) ++ n_buf n /\
      (is_keyframe p = true <-> n_type n = 5).
Proof.
  intros ctx ns p H. apply in_flat_map in H as (n & Hin & H). exists n. split; [exact Hin|].
  unfold media_pkt in H.
  destruct (Z.eqb_spec (n_type n) 5) as [E|E]; [|destruct (Z.eqb_spec (n_type n) 1) as [E1|E1]; [|destruct (Z.eqb_spec (n_type n) 6) as [E6|E6]]];
    cbn [In] in H; try contradiction; destruct H as [<-|[]]; (split; [reflexivity|]);
    unfold is_keyframe, video_pkt; cbn [p_flags p_stream]; (split; [intros Hk|intros Hk; try contradiction]); first [assumption|reflexivity|discriminate Hk|congruence].
Qed.
Print Assumptions avc_keyframe_flag.

(** C20: the configuration record is not the standard one: the compatibility
    byte is lost and the reserved bits are clear. *)
Theorem avc_config_standard_refuted :
  exists sps pps, bytes sps /\ bytes pps /\ 4 <= zlen sps < 2 ^ 16 /\ zlen pps < 2 ^ 16 /\
    avc_config sps (Some pps) <> iso_avc_config sps pps /\
    (forall tl, nth 2 (avc_config (sps ++ tl) (Some pps)) 0 = 0) /\ nth 2 (iso_avc_config sps pps) 0 = 0xC0.
Proof.
  exists [0x67; 0x42; 0xC0; 0x1E], [0x68; 0xCE]. repeat split; try (repeat constructor; cbn; lia); try (cbn; lia).
  vm_compute. discriminate.
Qed.
Print Assumptions avc_config_standard_refuted.

Example avc_conversion_nonvacuous :
  h264_encode_avc (mkav 9000 9090 90) (-1) ([7] ++ annexb (codec_ex_units ++ [(0%nat, [0x41; 5]); (1%nat, [6; 1])])) =
    Ok [video_pkt 0 0 0 0x17 (avc_config [0x67; 1; 2; 3; 0] (Some [0x68; 9; 0; 0; 0]));
        video_pkt 1 100 101 0x17 [0; 0; 0; 5; 0x65; 0; 0; 2; 0];
        video_pkt 1 100 101 0x27 [0; 0; 0; 3; 0x41; 5; 0];
        video_pkt 1 100 101 0x57 [0; 0; 0; 2; 6; 1]].
Proof. vm_compute. reflexivity. Qed.

(** C21: whole ADTS frames: the raw frames in order, preceded by a
    configuration packet for the first frame, for every change of parameters
    and for every frame with a CRC.  [hdr_rep] relates the parser's state to the
    parameters announced last (S_Codec.v). *)
Theorem adts_split_exact :
  forall ctx hdr cur fs,
    av_tb ctx <> 0 -> hdr_rep hdr cur -> Forall frame_ok fs ->
    bytes (flat_map adts_bytes fs) -> zlen (flat_map adts_bytes fs) < 2 ^ 60 ->
    exists hdr', aac_encode_avc ctx hdr (flat_map adts_bytes fs) =
      (aac_packets (Z.quot (av_dts ctx) (av_tb ctx)) cur fs, hdr', Ok tt).
Proof.
  intros ctx hdr cur fs Htb Hrep HF Hb Hl. unfold aac_encode_avc.
  rewrite <- (app_nil_r (flat_map adts_bytes fs)) in Hb, Hl.
  destruct (aac_frames ctx _ fs (Z.to_nat (zlen (flat_map adts_bytes fs))) hdr cur _ [] Htb Hrep HF (al_init _ Hb Hl))
    as (fu & hdr' & c' & cur' & R1 & R2 & R3 & R4).
  { rewrite app_nil_r, Z2Nat.id by apply zlen_nonneg. lia. }
  rewrite app_nil_r in R4 at 1. rewrite R4.
  destruct (aac_tail ctx _ c' hdr' cur' [] fu Htb R1 R2 R3) as (E & _). rewrite (E eq_refl).
  exists hdr'. rewrite app_nil_r. reflexivity.
Qed.
Print Assumptions adts_split_exact.

(** C21, every input: the data is some whole frames, whose packets are
    delivered, then a tail that is empty, rejected with an error, or drives the
    parser outside the buffer. *)
Theorem adts_split_total :
  forall ctx hdr cur buf,
    av_tb ctx <> 0 -> hdr_rep hdr cur -> bytes buf -> zlen buf < 2 ^ 60 ->
    exists fs rest extra hdr' r,
      buf = flat_map adts_bytes fs ++ rest /\ Forall frame_ok fs /\
      aac_encode_avc ctx hdr buf = (aac_packets (Z.quot (av_dts ctx) (av_tb ctx)) cur fs ++ extra, hdr', r) /\
      ((rest = [] /\ extra = [] /\ r = Ok tt) \/
       (rejected rest /\ config_only extra /\ r = Err ERROR_AAC_DECODER) \/
       (dangerous rest /\ config_only extra /\ r = UB)).
Proof.
  intros ctx hdr cur buf Htb Hrep Hb Hl.
  destruct (aac_split (Z.to_nat (zlen buf)) buf Hb) as (fs & rest & Eb & HF & Hr); [rewrite Z2Nat.id by apply zlen_nonneg; lia|].
  unfold aac_encode_avc.
  assert (Ha := al_init _ Hb Hl). remember (bc_init buf) as c0. rewrite Eb in Ha at 2.
  destruct (aac_frames ctx _ fs (Z.to_nat (zlen buf)) hdr cur _ rest Htb Hrep HF Ha)
    as (fu & hdr' & c' & cur' & R1 & R2 & R3 & R4).
  { rewrite <- Eb, Z2Nat.id by apply zlen_nonneg. lia. }
  destruct (aac_tail ctx _ c' hdr' cur' rest fu Htb R1 R2 R3) as (E1 & E2 & E3).
  destruct Hr as [Hr|[Hr|Hr]].
  - exists fs, rest, [], hdr', (Ok tt). rewrite R4, (E1 Hr). split; [exact Eb|split; [exact HF|split; [reflexivity|left; auto]]].
  - destruct (E2 Hr) as (ps & h & E & Hc). exists fs, rest, ps, h, (Err ERROR_AAC_DECODER). rewrite R4, E.
    split; [exact Eb|split; [exact HF|split; [reflexivity|right; left; auto]]].
  - destruct (E3 Hr) as (ps & h & E & Hc). exists fs, rest, ps, h, UB. rewrite R4, E.
    split; [exact Eb|split; [exact HF|split; [reflexivity|right; right; auto]]].
Qed.
Print Assumptions adts_split_total.

(** C21, negative part: a frame length shorter than the header or longer than
    the data always drives the parser outside the buffer. *)
Theorem adts_bad_length_overreads :
  forall ctx hdr cur fs rest,
    av_tb ctx <> 0 -> hdr_rep hdr cur -> Forall frame_ok fs -> dangerous rest ->
    bytes (flat_map adts_bytes fs ++ rest) -> zlen (flat_map adts_bytes fs ++ rest) < 2 ^ 60 ->
    snd (aac_encode_avc ctx hdr (flat_map adts_bytes fs ++ rest)) = UB.
Proof.
  intros ctx hdr cur fs rest Htb Hrep HF Hd Hb Hl. unfold aac_encode_avc.
  destruct (aac_frames ctx _ fs (Z.to_nat (zlen (flat_map adts_bytes fs ++ rest))) hdr cur _ rest Htb Hrep HF (al_init _ Hb Hl))
    as (fu & hdr' & c' & cur' & R1 & R2 & R3 & R4).
  { rewrite Z2Nat.id by apply zlen_nonneg. lia. }
  destruct (aac_tail ctx _ c' hdr' cur' rest fu Htb R1 R2 R3) as (_ & _ & E3).
  destruct (E3 Hd) as (ps & h & E & _). rewrite R4, E. reflexivity.
Qed.
Print Assumptions adts_bad_length_overreads.

Definition codec_ex_frame : adts_frame := mkframe 0 0 1 1 4 0 2 0 0 0 0 0x7FF 0 [] [0x21; 0x10; 5].
Example adts_split_nonvacuous :
  frame_ok codec_ex_frame /\ adts_bytes codec_ex_frame = [0xFF; 0xF1; 0x50; 0x80; 0x01; 0x5F; 0xFC; 0x21; 0x10; 5] /\
  aac_encode_avc (mkav 900 900 90) None (adts_bytes codec_ex_frame ++ adts_bytes codec_ex_frame) =
    ([audio_pkt 0 0 [0x12; 0x10]; audio_pkt 1 10 [0x21; 0x10; 5]; audio_pkt 1 10 [0x21; 0x10; 5]],
     Some (mkadts 1 1 4 2 0 0 10), Ok tt) /\
  aac_packets 10 None [codec_ex_frame; codec_ex_frame] =
    [audio_pkt 0 0 [0x12; 0x10]; audio_pkt 1 10 [0x21; 0x10; 5]; audio_pkt 1 10 [0x21; 0x10; 5]].
Proof.
  split; [|split; [reflexivity|split; reflexivity]].
  repeat split; try (repeat constructor; cbn; lia).
Qed.
Example adts_bad_length_nonvacuous :
  dangerous (adts_header codec_ex_frame 40 ++ [1; 2]) /\ dangerous (adts_header codec_ex_frame 3).
Proof.
  assert (H : forall L, fields_fit (adts_fields codec_ex_frame L) = true -> header_ok codec_ex_frame L)
    by (intros L H; split; [exact H|split; repeat constructor; cbn; lia]).
  split.
  - exists codec_ex_frame, 40, [1; 2]. split; [apply H; reflexivity|]. split; [reflexivity|]. cbn. lia.
  - exists codec_ex_frame, 3, []. split; [apply H; reflexivity|]. split; [reflexivity|]. cbn. lia.
Qed.
