(** Specifications for the H.264 and AAC parsers, independent of the model. *)
From Verif Require Import Base M_Packet M_H264 M_AAC S_Fields.

(** ** Annex B *)
(** [n] contains no 00 00 01. *)
Definition no_start_code (n : list Z) : Prop := forall a b, n <> a ++ [0; 0; 1] ++ b.
(** [n] contains no 00 00 01 that is followed by another byte. *)
Definition no_inner_start_code (n : list Z) : Prop :=
  forall a x b, n <> a ++ [0; 0; 1] ++ x :: b.
(** A NAL unit that the parser may accept: non-empty with the forbidden bit clear. *)
Definition nal_ok (n : list Z) : Prop := exists h t, n = h :: t /\ 0 <= h < 128.

(** The unit with these bytes: nal_ref_idc and nal_unit_type from the first byte. *)
Definition nal_of (b : list Z) : nal := mknal 0 (nth 0 b 0 / 32) (nth 0 b 0 mod 32) b.
(** A unit with a three-byte start code in front. *)
Definition unit_bytes (n : nal) : list Z := [0; 0; 1] ++ n_buf n.
(** A byte stream: each unit is preceded by some zero bytes and a three-byte
    start code. *)
Definition annexb (us : list (nat * list Z)) : list Z :=
  flat_map (fun u => repeat 0 (fst u) ++ [0; 0; 1] ++ snd u) us.
(** What a splitter that only knows three-byte start codes must return: the
    zeros in front of a start code stay with the previous unit. *)
Fixpoint units_with_zeros (us : list (nat * list Z)) : list (list Z) :=
  match us with
  | [] => []
  | (_, n) :: r => (n ++ match r with (k, _) :: _ => repeat 0 k | [] => [] end) :: units_with_zeros r
  end.

(** ** AVC packets *)
Definition last_of (f : nal -> bool) (ns : list nal) : option nal := find f (rev ns).
(** AVCDecoderConfigurationRecord as this server builds it. *)
Definition avc_config (sps : list Z) (pps : option (list Z)) : list Z :=
  [1; nth 1 sps 0; 0; nth 3 sps 0; 3; 1] ++ be 2 (zlen sps) ++ sps ++
  match pps with None => [0] | Some p => [1] ++ be 2 (zlen p) ++ p end.
(** ISO/IEC 14496-15: version, profile, profile_compatibility, level, six
    reserved bits set and lengthSizeMinusOne, three reserved bits set and the
    number of SPS, then the parameter sets. *)
Definition iso_avc_config (sps pps : list Z) : list Z :=
  [1; nth 1 sps 0; nth 2 sps 0; nth 3 sps 0; 0xFC + 3; 0xE0 + 1] ++ be 2 (zlen sps) ++ sps ++
  [1] ++ be 2 (zlen pps) ++ pps.
Definition video_pkt (ty dts pts flags : Z) (d : list Z) : pkt :=
  mkpkt AV_MESSAGE_DATA AV_STREAM_TYPE_VIDEO ty dts pts flags CODEC_H264 d.
(** Media packets: slices (type 1), IDR slices (5) and SEI (6), each with its
    32-bit length in front. *)
Definition media_pkt (ctx : navctx) (n : nal) : list pkt :=
  let p flags := [video_pkt 1 (Z.quot (av_dts ctx) (av_tb ctx)) (Z.quot (av_pts ctx) (av_tb ctx))
                            flags (be 4 (zlen (n_buf n)) ++ n_buf n)] in
  if n_type n =? 5 then p 0x17 else if n_type n =? 1 then p 0x27
  else if n_type n =? 6 then p 0x57 else [].
Definition avc_packets (ctx : navctx) (ns : list nal) : list pkt :=
  match last_of is_sps ns with
  | Some s => [video_pkt 0 0 0 0x17 (avc_config (n_buf s) (option_map n_buf (last_of is_pps ns)))]
  | None => []
  end ++ flat_map (media_pkt ctx) ns.

(** ** ADTS *)
Record adts_frame := mkframe {
  fr_id : Z; fr_layer : Z; fr_pa : Z; fr_profile : Z; fr_sfi : Z; fr_priv : Z; fr_ch : Z;
  fr_orig : Z; fr_home : Z; fr_cb : Z; fr_cs : Z; fr_full : Z; fr_nb : Z;
  fr_crc : list Z;      (* two bytes when protection_absent = 0, else none *)
  fr_raw : list Z
}.
(** ISO/IEC 13818-7 adts_fixed_header and adts_variable_header with the frame
    length field [L]. *)
Definition adts_fields (f : adts_frame) (L : Z) : list (Z * Z) :=
  [(0xfff, 12); (fr_id f, 1); (fr_layer f, 2); (fr_pa f, 1); (fr_profile f, 2); (fr_sfi f, 4);
   (fr_priv f, 1); (fr_ch f, 3); (fr_orig f, 1); (fr_home f, 1); (fr_cb f, 1); (fr_cs f, 1);
   (L, 13); (fr_full f, 11); (fr_nb f, 2)].
Definition adts_len (f : adts_frame) : Z := 7 + zlen (fr_crc f) + zlen (fr_raw f).
Definition adts_header (f : adts_frame) (L : Z) : list Z := be 7 (pack (adts_fields f L)).
Definition adts_bytes (f : adts_frame) : list Z :=
  adts_header f (adts_len f) ++ fr_crc f ++ fr_raw f.
Definition header_ok (f : adts_frame) (L : Z) : Prop :=
  fields_fit (adts_fields f L) = true /\ bytes (fr_crc f) /\ bytes (fr_raw f).
Definition frame_ok (f : adts_frame) : Prop :=
  header_ok f (adts_len f) /\ zlen (fr_crc f) = (if fr_pa f =? 0 then 2 else 0).

(** MPEG-4 AudioSpecificConfig: object type 5 bits, frequency index 4 bits,
    channel configuration 4 bits, three zero flags. *)
Definition asc (profile sfi ch : Z) : list Z :=
  be 2 (pack [(profile + 1, 5); (sfi, 4); (ch, 4); (0, 3)]).

(** The parameters that matter for announcing a new configuration. *)
Definition params := (Z * Z * Z * Z * Z)%type.
Definition fr_params (f : adts_frame) : params :=
  (fr_profile f, fr_sfi f, fr_ch f, fr_orig f, fr_home f).
Definition params_eqb (a b : params) : bool :=
  let '(a1, a2, a3, a4, a5) := a in let '(b1, b2, b3, b4, b5) := b in
  (a1 =? b1) && (a2 =? b2) && (a3 =? b3) && (a4 =? b4) && (a5 =? b5).
(** A configuration packet is sent for the first frame, when parameters change
    and for every frame that carries a CRC; then the raw frame. *)
Fixpoint aac_packets (ts : Z) (cur : option params) (fs : list adts_frame) : list pkt :=
  match fs with
  | [] => []
  | f :: r =>
      let known := match cur with Some p => params_eqb p (fr_params f) && negb (fr_pa f =? 0) | None => false end in
      (if known then [] else [audio_pkt 0 0 (asc (fr_profile f) (fr_sfi f) (fr_ch f))])
      ++ [audio_pkt 1 ts (fr_raw f)] ++ aac_packets ts (Some (fr_params f)) r
  end.
(** A tail whose header makes the parser leave the buffer: a sync word, a frame
    length that is not zero, and either a missing CRC, a length shorter than the
    header, or a length beyond the data. *)
Definition dangerous (rest : list Z) : Prop :=
  exists f L tl, header_ok f L /\ rest = adts_header f L ++ tl /\
    let h := if fr_pa f =? 0 then 9 else 7 in
    (zlen rest < h \/ (0 < L /\ (L < h \/ zlen rest < L))).
(** A tail that the parser rejects cleanly. *)
Definition rejected (rest : list Z) : Prop :=
  (0 < zlen rest < 7) \/ (7 <= zlen rest /\ bev (take 2 rest) / 16 <> 0xfff) \/
  (exists f tl, header_ok f 0 /\ rest = adts_header f 0 ++ tl /\
                (if fr_pa f =? 0 then 9 else 7) <= zlen rest).
(** What a tail may add: nothing, or one configuration packet. *)
Definition config_only (ps : list pkt) : Prop :=
  ps = [] \/ exists profile sfi ch, ps = [audio_pkt 0 0 (asc profile sfi ch)].

(** The known header against the parameters last announced. *)
Definition hdr_rep (hdr : option adts) (cur : option params) : Prop :=
  match hdr, cur with
  | None, None => True
  | Some h, Some p => p = (ad_profile h, ad_sfi h, ad_ch h, ad_orig h, ad_home h)
  | _, _ => False
  end.
