(** Lemmas about stream requests. *)
From Verif Require Import Base M_Text M_IO S_IO L_IO M_Packet M_Flv S_Flv L_Flv M_Http S_Http L_Http2 L_Http3
  M_Conf M_Url S_Url L_Url M_Host M_Cache S_Cache M_Live S_Live L_Live M_Srt M_Stream S_Stream.

(** The FLV muxer with a writer is the one of M_Flv. *)
Definition sk_wr (s : M_Flv.sink) (d : list Z) : res unit * M_Flv.sink :=
  let '(ok, s1) := M_Flv.sk_write s d in ((if ok then Ok tt else Err ERROR_SOCKET_WRITE), s1).
Lemma flv_write_packet_head m p s : flv_write_packet m p s = flv_put sk_wr m p s.
Proof.
  unfold flv_write_packet, flv_put. destruct (flv_tag_type (p_stream p)) as [tag|]; [|reflexivity].
  destruct (_ || _ || _); [reflexivity|]. unfold flv_head.
  destruct (wr32 _ _) as [w| | |]; try reflexivity. cbn [bind].
  destruct (wr8 w _) as [w1| | |]; try reflexivity. cbn [bind].
  destruct (wr_raw _ _) as [w2| | |]; try reflexivity. cbn [bind].
  destruct (wr24 w2 _) as [w3| | |]; try reflexivity. cbn [bind].
  destruct (wr8 w3 _) as [w4| | |]; try reflexivity. cbn [bind].
  destruct (wr24 w4 _) as [w5| | |]; try reflexivity. cbn [bind].
  match goal with |- match ?X with _ => _ end = match (bind ?Y _) with _ => _ end =>
    change Y with X; destruct X as [[w6 ds]| | |] end; try reflexivity.
  cbn [bind fst snd]. unfold sk_wr.
  destruct (M_Flv.sk_write s _) as [[|] s1]; [|reflexivity].
  destruct (M_Flv.sk_write s1 _) as [[|] s2]; reflexivity.
Qed.

(** A muxer without filters. *)
Definition fm_at (prev : Z) : flvmux := mkfm prev false false false.
Lemma flv_head_ok prev p : flv_fits p -> exists tag hd ds,
  flv_tag_type (p_stream p) = Some tag /\ flv_head (fm_at prev) p tag = Ok (hd, ds) /\
  hd ++ p_data p = be 4 prev ++ flv_tag p /\ u32 (11 + ds) = zlen (flv_tag p).
Proof.
  intros [Hk Hl].
  pose proof (flv_write_packet_ok (fm_at prev) p [] Hk) as H. unfold flv_kept in H.
  cbn [fm_at fm_fvideo fm_faudio fm_fmeta fm_prev] in H. rewrite !andb_false_r in H. specialize (H eq_refl Hl).
  rewrite flv_write_packet_head in H. unfold flv_put in H.
  destruct (flv_tag_type (p_stream p)) as [tag|]; [|discriminate].
  cbn [fm_at fm_fvideo fm_faudio fm_fmeta] in H. rewrite !andb_false_r in H. cbn [orb] in H. fold (fm_at prev) in H.
  destruct (flv_head (fm_at prev) p tag) as [[hd ds]| | |] eqn:E; try discriminate.
  unfold sk_wr, M_Flv.sk_write in H. cbn [M_Flv.sk_oracle M_Flv.sk_out app fm_at fm_fvideo fm_faudio fm_fmeta with_prev] in H.
  assert (H1 := f_equal (fun t => fm_prev (snd (fst t))) H). assert (H2 := f_equal (fun t => M_Flv.sk_out (snd t)) H).
  cbn [fst snd fm_prev M_Flv.sk_out] in H1, H2.
  exists tag, hd, ds. split; [reflexivity|]. split; [exact E|]. split; [exact H2|exact H1].
Qed.

(** ** Any player over any well-behaved writer *)
Section Any.
Context {W : Type} (wr : W -> list Z -> res unit * W) (I : W -> Prop) (out : W -> list Z) (F : Z -> Prop).
(** A write sends an initial part of its data, all of it when it succeeds. *)
Definition writer_ok : Prop := forall w d, I w -> exists r w1 p q,
  wr w d = (r, w1) /\ I w1 /\ out w1 = out w ++ p /\ p ++ q = d /\
  ((r = Ok tt /\ q = []) \/ exists e, r = Err e /\ F e).
Context (HW : writer_ok).

Definition mbytes (x : mux) (ps : list pkt) : list Z :=
  match x with XFlv m => flv_layout (fm_prev m) ps | XRaw => flat_map p_data ps | XRtmpNull => [] end.
Definition mgood (x : mux) : Prop :=
  match x with XFlv m => m = fm_at (fm_prev m) | XRaw => True | XRtmpNull => False end.
Definition mfits (x : mux) (p : pkt) : Prop := match x with XFlv _ => flv_fits p | _ => True end.
Definition mkind (x : mux) : bool := match x with XFlv _ => true | _ => false end.
Lemma mfits_kind x y p : mkind x = mkind y -> mfits x p -> mfits y p.
Proof. destruct x, y; cbn; congruence || auto. Qed.

Lemma mux_packet_any x p w : I w -> mgood x -> mfits x p ->
  exists r x1 w1 a, mux_packet wr x p w = (r, x1, w1) /\ I w1 /\ mgood x1 /\ mkind x1 = mkind x /\ out w1 = out w ++ a /\
    ((r = Ok tt /\ forall ps, mbytes x (p :: ps) = a ++ mbytes x1 ps) \/
     (exists e, r = Err e /\ F e /\ forall ps, initial a (mbytes x (p :: ps)))).
Proof.
  intros Hi Hg Hf. destruct x as [m| |]; [| contradiction |].
  - cbn [mgood] in Hg. cbn [mfits] in Hf. unfold mux_packet, flv_put.
    destruct (flv_head_ok (fm_prev m) p Hf) as (tag & hd & ds & Ht & Hh & Hb & Hs).
    rewrite Ht. rewrite Hg. cbn [fm_at fm_fvideo fm_faudio fm_fmeta]. rewrite !andb_false_r. cbn [orb].
    rewrite <- Hg. rewrite Hg. rewrite Hh.
    destruct (HW w hd Hi) as (r & w1 & a & q & -> & Hi1 & Ho & Hpq & [[-> ->]|[e [-> HF]]]).
    + rewrite app_nil_r in Hpq. subst a.
      destruct (HW w1 (p_data p) Hi1) as (r2 & w2 & a2 & q2 & -> & Hi2 & Ho2 & Hpq2 & [[-> ->]|[e [-> HF]]]).
      * rewrite app_nil_r in Hpq2. subst a2. do 4 eexists. split; [reflexivity|]. split; [exact Hi2|].
        split; [reflexivity|]. split; [reflexivity|]. split; [rewrite Ho2, Ho, <- app_assoc; reflexivity|].
        left. split; [reflexivity|]. intros ps. cbn [mbytes flv_layout fm_prev fm_at].
        rewrite Hs, app_assoc, <- Hb. reflexivity.
      * do 4 eexists. split; [reflexivity|]. split; [exact Hi2|].
        split; [reflexivity|]. split; [reflexivity|]. split; [rewrite Ho2, Ho, <- app_assoc; reflexivity|].
        right. exists e. split; [reflexivity|]. split; [exact HF|]. intros ps. cbn [mbytes flv_layout fm_prev fm_at].
        rewrite app_assoc, <- Hb, <- Hpq2. eexists. rewrite <- !app_assoc. reflexivity.
    + do 4 eexists. split; [reflexivity|]. split; [exact Hi1|].
      split; [reflexivity|]. split; [reflexivity|]. split; [exact Ho|].
      right. exists e. split; [reflexivity|]. split; [exact HF|]. intros ps. cbn [mbytes flv_layout fm_prev fm_at].
      rewrite app_assoc, <- Hb, <- Hpq. eexists. rewrite <- !app_assoc. reflexivity.
  - unfold mux_packet. destruct (HW w (p_data p) Hi) as (r & w1 & a & q & -> & Hi1 & Ho & Hpq & [[-> ->]|[e [-> HF]]]).
    + rewrite app_nil_r in Hpq. subst a. do 4 eexists. split; [reflexivity|]. split; [exact Hi1|].
      split; [exact Logic.I|]. split; [reflexivity|]. split; [exact Ho|]. left. split; [reflexivity|]. reflexivity.
    + do 4 eexists. split; [reflexivity|]. split; [exact Hi1|]. split; [exact Logic.I|]. split; [reflexivity|]. split; [exact Ho|].
      right. exists e. split; [reflexivity|]. split; [exact HF|]. intros ps. cbn [mbytes flat_map]. rewrite <- Hpq.
      eexists. rewrite <- app_assoc. reflexivity.
Qed.

Lemma enc_batch_any : forall ps x w, I w -> mgood x -> Forall (mfits x) ps ->
  exists r x1 w1 a, enc_batch wr x ps w = (r, x1, w1) /\ I w1 /\ mgood x1 /\ mkind x1 = mkind x /\ out w1 = out w ++ a /\
    ((r = Ok tt /\ forall qs, mbytes x (ps ++ qs) = a ++ mbytes x1 qs) \/
     (exists e, r = Err e /\ F e /\ forall qs, initial a (mbytes x (ps ++ qs)))).
Proof.
  induction ps as [|p ps IH]; intros x w Hi Hg Hf; cbn [enc_batch].
  - do 4 eexists. split; [reflexivity|]. split; [exact Hi|]. split; [exact Hg|]. split; [reflexivity|].
    split; [symmetry; apply app_nil_r|]. left. split; reflexivity.
  - destruct (mux_packet_any x p w Hi Hg (Forall_inv Hf)) as (r & x1 & w1 & a & -> & Hi1 & Hg1 & Hk & Ho & [[-> Hb]|(e & -> & HF & Hb)]).
    + destruct (IH x1 w1 Hi1 Hg1) as (r2 & x2 & w2 & a2 & -> & Hi2 & Hg2 & Hk2 & Ho2 & H).
      { eapply Forall_impl; [|exact (Forall_inv_tail Hf)]. intros q. apply mfits_kind. auto. }
      do 4 eexists. split; [reflexivity|]. split; [exact Hi2|]. split; [exact Hg2|]. split; [congruence|].
      split; [rewrite Ho2, Ho, <- app_assoc; reflexivity|].
      destruct H as [[-> H]|(e & -> & HF & H)].
      * left. split; [reflexivity|]. intros qs. cbn [app]. rewrite Hb, H, app_assoc. reflexivity.
      * right. exists e. split; [reflexivity|]. split; [exact HF|]. intros qs. cbn [app]. rewrite Hb.
        destruct (H qs) as [z Hz]. exists z. rewrite <- app_assoc, Hz. reflexivity.
    + do 4 eexists. split; [reflexivity|]. split; [exact Hi1|]. split; [exact Hg1|]. split; [exact Hk|]. split; [exact Ho|].
      right. exists e. split; [reflexivity|]. split; [exact HF|]. intros qs. apply Hb.
Qed.

Lemma enc_loop_any : forall ds x w, I w -> mgood x -> Forall (mfits x) (concat (until_empty ds)) ->
  exists r x1 w1 a, enc_loop wr x ds w = (r, x1, w1) /\ I w1 /\ out w1 = out w ++ a /\
    ((r = None /\ until_empty ds = ds /\ a = mbytes x (concat ds)) \/
     (r = Some (Ok ERROR_SOCKET_TIMEOUT) /\ until_empty ds <> ds /\ a = mbytes x (concat (until_empty ds))) \/
     (exists e, r = Some (Ok e) /\ F e /\ initial a (mbytes x (concat (until_empty ds))))).
Proof.
  assert (Hnil : forall x, mbytes x [] = []) by (intros [| |]; reflexivity).
  induction ds as [|d ds IH]; intros x w Hi Hg Hf.
  - cbn [enc_loop]. do 4 eexists. split; [reflexivity|]. split; [exact Hi|]. split; [symmetry; apply app_nil_r|].
    left. split; [reflexivity|]. split; [reflexivity|]. rewrite Hnil. reflexivity.
  - destruct d as [|p d].
    + cbn [enc_loop]. do 4 eexists. split; [reflexivity|]. split; [exact Hi|]. split; [symmetry; apply app_nil_r|].
      right. left. split; [reflexivity|]. split; [discriminate|]. cbn. rewrite Hnil. reflexivity.
    + cbn [enc_loop]. remember (p :: d) as pd eqn:Epd. assert (Hu : until_empty (pd :: ds) = pd :: until_empty ds) by (subst; reflexivity).
      rewrite Hu in *. cbn [concat] in Hf |- *. apply Forall_app in Hf as [Hf1 Hf2].
      destruct (enc_batch_any pd x w Hi Hg Hf1) as (r & x1 & w1 & a & -> & Hi1 & Hg1 & Hk & Ho & [[-> Hb]|(e & -> & HF & Hb)]).
      * destruct (IH x1 w1 Hi1 Hg1) as (r2 & x2 & w2 & a2 & E2 & Hi2 & Ho2 & H).
        { eapply Forall_impl; [|exact Hf2]. intros q. apply mfits_kind. auto. }
        rewrite E2. do 4 eexists. split; [reflexivity|]. split; [exact Hi2|]. split; [rewrite Ho2, Ho, <- app_assoc; reflexivity|].
        destruct H as [(-> & H1 & ->)|[(-> & H1 & ->)|(e & -> & HF & z & H)]].
        { left. split; [reflexivity|]. split; [rewrite H1; reflexivity|]. rewrite Hb. reflexivity. }
        { right. left. split; [reflexivity|]. split; [intros E; apply H1; injection E; auto|]. rewrite Hb. reflexivity. }
        { right. right. exists e. split; [reflexivity|]. split; [exact HF|]. exists z. rewrite Hb, <- app_assoc, H. reflexivity. }
      * do 4 eexists. split; [reflexivity|]. split; [exact Hi1|]. split; [exact Ho|].
        right. right. exists e. split; [reflexivity|]. split; [exact HF|]. apply Hb.
Qed.
End Any.

(** ** Over HTTP *)
Definition hr_inv (e : Z) (room : bool) (w : hrsp * sink) : Prop :=
  hr_sent (fst w) = true /\ hr_chunked (fst w) = false /\ sk_err (snd w) = e /\
  (room = false -> sk_room (snd w) = None).
Lemma hr_writer reason e room : writer_ok (hr_wr reason) (hr_inv e room) (fun w => sk_out (snd w))
  (fun c => room = true /\ c = e).
Proof.
  intros [h s] d (Hs & Hc & He & Hr). cbn [fst snd] in *. unfold hr_wr, hr_write, hr_body. cbn [fst snd]. rewrite Hs, Hc.
  destruct (0 <? zlen d) eqn:Ez.
  - unfold sk_write. destruct (sk_room s) as [[|n]|] eqn:Er.
    + do 4 eexists. split; [reflexivity|]. split; [repeat split; cbn [fst snd]; auto; intros H; specialize (Hr H); discriminate|].
      split; [symmetry; apply app_nil_r|]. split; [reflexivity|]. right. eexists. split; [reflexivity|].
      split; [|auto]. destruct room; [reflexivity|]. specialize (Hr eq_refl). discriminate.
    + replace (zlen d =? 0) with false by lia. do 4 eexists. split; [reflexivity|].
      split; [split; [exact Hs|split; [exact Hc|split; [exact He|cbn [snd sk_room]; intros H; specialize (Hr H); discriminate]]]|].
      split; [reflexivity|]. split; [apply app_nil_r|]. left. auto.
    + replace (zlen d =? 0) with false by lia. do 4 eexists. split; [reflexivity|].
      split; [split; [exact Hs|split; [exact Hc|split; [exact He|reflexivity]]]|].
      split; [reflexivity|]. split; [apply app_nil_r|]. left. auto.
  - pose proof (zlen_nonneg d). assert (d = []) as -> by (apply zlen_0_nil; lia).
    do 4 eexists. split; [reflexivity|]. split; [repeat split; auto|]. split; [symmetry; apply app_nil_r|].
    split; [reflexivity|]. left. auto.
Qed.

(** The first write of a player sends the head and the FLV header. *)
Lemma http_flv_header reason s : sk_room s = None ->
  hr_wr reason (rsp200, s) flv_default_header =
    (Ok tt, (mkhr 200 true (-1) false [], mksk (sk_out s ++ response_head reason rsp200 ++ flv_default_header) None (sk_err s))).
Proof. intros Hr. unfold hr_wr. cbn [fst snd]. rewrite hr_write_none by assumption. reflexivity. Qed.

Lemma sk_write_cases s d : 0 < zlen d ->
  (sk_write s d = (Err (sk_err s), s) /\ sk_room s <> None) \/
  exists s1, sk_write s d = (Ok tt, s1) /\ sk_out s1 = sk_out s ++ d /\ sk_err s1 = sk_err s /\
    (sk_room s = None -> sk_room s1 = None).
Proof.
  intros Hd. unfold sk_write. destruct (sk_room s) as [[|n]|].
  - left. split; [reflexivity|discriminate].
  - right. replace (zlen d =? 0) with false by lia. eexists. split; [reflexivity|]. repeat split. discriminate.
  - right. replace (zlen d =? 0) with false by lia. eexists. split; [reflexivity|]. repeat split.
Qed.
(** A player's whole output. *)
Lemma encode_flv_any reason ds s : Forall flv_fits (concat (until_empty ds)) ->
  exists r w a, encode (hr_wr reason) (XFlv flvmux0) ds (rsp200, s) = (r, w) /\ sk_out (snd w) = sk_out s ++ a /\
  let full := response_head reason rsp200 ++ flv_default_header ++ flv_layout 0 (concat (until_empty ds)) in
  ((r = None /\ until_empty ds = ds /\ a = full) \/
   (r = Some (Ok ERROR_SOCKET_TIMEOUT) /\ until_empty ds <> ds /\ a = full) \/
   (r = Some (Ok (sk_err s)) /\ sk_room s <> None /\ initial a full)).
Proof.
  intros HF. unfold encode. cbn [mux_header].
  set (Hd := response_head reason rsp200).
  assert (Hcase : (exists s1 b, hr_wr reason (rsp200, s) flv_default_header = (Err (sk_err s), (b, s1)) /\ sk_room s <> None /\
                     (sk_out s1 = sk_out s \/ sk_out s1 = sk_out s ++ Hd)) \/
                  exists s1, hr_wr reason (rsp200, s) flv_default_header = (Ok tt, (mkhr 200 true (-1) false [], s1)) /\
                     sk_out s1 = sk_out s ++ Hd ++ flv_default_header /\ sk_err s1 = sk_err s /\
                     (sk_room s = None -> sk_room s1 = None)).
  { unfold hr_wr, hr_write, hr_write_header, hr_body. cbn [fst snd rsp200 hr_sent hr_chunked hr_status hr_cl hr_headers]. fold rsp200. fold Hd.
    assert (0 < zlen Hd) as HHd by (pose proof (zlen_nonneg Hd); pose proof (response_head_ne reason rsp200) as Hne; fold Hd in Hne; destruct (Z.eq_dec (zlen Hd) 0) as [E0|]; [apply zlen_0_nil in E0; contradiction|lia]).
    change (0 <? zlen flv_default_header) with true. cbv iota.
    destruct (sk_write_cases s Hd HHd) as [[-> Hr]|(s1 & -> & Ho & He & Hr)].
    - left. do 2 eexists. split; [reflexivity|]. split; [exact Hr|left; reflexivity].
    - cbn [hr_chunked]. assert (Hp : 0 < zlen flv_default_header) by reflexivity.
      destruct (sk_write_cases s1 flv_default_header Hp) as [[E2 Hr2]|(s2 & E2 & Ho2 & He2 & Hr2)]; rewrite E2.
      + left. do 2 eexists. split; [rewrite He; reflexivity|]. split; [auto|right; exact Ho].
      + right. eexists. split; [reflexivity|]. split; [rewrite Ho2, Ho, <- app_assoc; reflexivity|].
        split; [congruence|auto]. }
  destruct Hcase as [(s1 & b & -> & Hr & Ho)|(s1 & -> & Ho & He & Hr)].
  - destruct Ho as [Ho|Ho].
    + exists (Some (Ok (sk_err s))), (b, s1), []. split; [reflexivity|]. split; [rewrite app_nil_r; exact Ho|].
      right. right. split; [reflexivity|]. split; [exact Hr|]. eexists. reflexivity.
    + exists (Some (Ok (sk_err s))), (b, s1), Hd. split; [reflexivity|]. split; [exact Ho|].
      right. right. split; [reflexivity|]. split; [exact Hr|]. eexists. reflexivity.
  - set (room := match sk_room s with None => false | _ => true end).
    destruct (enc_loop_any (hr_wr reason) (hr_inv (sk_err s) room) (fun w => sk_out (snd w)) _ (hr_writer reason (sk_err s) room)
                ds (XFlv flvmux0) (mkhr 200 true (-1) false [], s1)) as (r & x1 & w1 & a & E & Hi & Ho1 & H).
    { split; [reflexivity|]. split; [reflexivity|]. split; [exact He|]. intros Hf. apply Hr. unfold room in Hf. destruct (sk_room s); congruence. }
    { reflexivity. }
    { eapply Forall_impl; [|exact HF]. intros p Hp. exact Hp. }
    rewrite E. exists r, w1, (Hd ++ flv_default_header ++ a). split; [reflexivity|].
    cbn [snd] in Ho1. split; [rewrite Ho1, Ho, <- !app_assoc; reflexivity|]. cbv zeta.
    cbn [mbytes flvmux0 fm_prev] in H.
    destruct H as [(-> & H1 & ->)|[(-> & H1 & ->)|(e & -> & [HF1 ->] & z & H)]].
    + left. rewrite H1. auto.
    + right. left. auto.
    + right. right. split; [reflexivity|]. split; [unfold room in HF1; destruct (sk_room s); congruence|].
      exists z. rewrite <- H, <- !app_assoc. reflexivity.
Qed.

Ltac by4 := repeat (apply Forall_cons; [assumption|]); apply Forall_nil.
(** ** What the FLV demuxer hands out can be sent on. *)
Lemma spec_flv_next_transportable cap e s p rest : bytes s -> cap < 2 ^ 24 ->
  spec_flv_next cap e s = FPacket p rest -> flv_transportable cap p.
Proof.
  intros Hb Hcap H. unfold spec_flv_next in H.
  destruct s as [|b0 [|b1 [|b2 [|b3 [|ty [|s0 [|s1 [|s2 [|t0 [|t1 [|t2 [|t3 [|i0 [|i1 [|i2 s']]]]]]]]]]]]]]]; try discriminate.
  assert (Hbs : bytes [s0; s1; s2] /\ bytes [t3; t0; t1; t2] /\ bytes s').
  { unfold bytes in *. repeat match goal with H : Forall _ (_ :: _) |- _ => apply Forall_cons_iff in H as [? H] end.
    split; [by4|]. split; [by4|assumption]. }
  destruct Hbs as (Hs & Ht & Hs').
  pose proof (bev_range [s0; s1; s2] Hs) as Bs. pose proof (bev_range [t3; t0; t1; t2] Ht) as Bt.
  set (size := bev [s0; s1; s2]) in *. set (dts := bev [t3; t0; t1; t2]) in *.
  change (256 ^ zlen [t3; t0; t1; t2]) with (2 ^ 32) in Bt.
  cbv zeta in H.
  destruct (cap <? size) eqn:Ec; [discriminate|]. destruct (zlen s' <? size) eqn:El; [discriminate|].
  assert (Hbt : bytes (take size s')) by (apply Forall_take; exact Hs').
  assert (Hlt : zlen (take size s') = size) by (rewrite zlen_take; lia).
  remember (take size s') as b eqn:Eb. clear Eb.
  destruct (ty =? 8).
  { unfold flv_audio_body in H. destruct b as [|fl bb]; [discriminate|].
    destruct (fl / 16 =? CODEC_AAC) eqn:Ea; cbn [negb] in H; [|discriminate].
    destruct bb as [|ty2 [|d0 d]]; try discriminate. injection H as <- _.
    unfold bytes in Hbt. apply Forall_cons_iff in Hbt as [F1 Hbt]. apply Forall_cons_iff in Hbt as [F2 Hbt].
    rewrite !zlen_cons in Hlt. unfold flv_transportable, flv_body, flv_prefix. cbn [p_data p_dts p_stream p_flags p_ptype p_pts p_codec p_msg].
    split; [exact Hbt|]. split; [discriminate|]. rewrite zlen_app. change (AV_STREAM_TYPE_AUDIO =? AV_STREAM_TYPE_AUDIO) with true.
    cbv iota. rewrite !zlen_cons. change (zlen (@nil Z)) with 0. split; [lia|]. split; [lia|]. split; [reflexivity|].
    left. split; [reflexivity|]. split; [exact F1|]. split; [lia|]. split; [reflexivity|]. split; [exact F2|reflexivity]. }
  destruct (ty =? 9).
  { unfold flv_video_body in H. destruct b as [|fl bb]; [discriminate|].
    destruct (negb (fl mod 16 =? CODEC_H264) && negb (fl mod 16 =? CODEC_H265)) eqn:Ev; [discriminate|].
    unfold bytes in Hbt. apply Forall_cons_iff in Hbt as [F1 Hbt].
    assert (Hcod : fl mod 16 = CODEC_H264 \/ fl mod 16 = CODEC_H265).
    { destruct (fl mod 16 =? CODEC_H264) eqn:E1; [left; lia|]. destruct (fl mod 16 =? CODEC_H265) eqn:E2; [right; lia|discriminate]. }
    assert (Hcmd : flv_video_command fl = (fl / 16 =? 5)).
    { unfold flv_video_command. unfold byte in F1. rewrite (Z.mod_small (fl / 16)); [reflexivity|].
      split; [apply Z.div_pos; lia|apply Z.div_lt_upper_bound; lia]. }
    destruct (fl / 16 =? 5) eqn:E5.
    - destruct bb as [|d0 d]; [discriminate|]. injection H as <- _. rewrite !zlen_cons in Hlt.
      unfold flv_transportable, flv_body, flv_prefix. cbn [p_data p_dts p_stream p_flags p_ptype p_pts p_codec p_msg].
      split; [exact Hbt|]. split; [discriminate|]. change (AV_STREAM_TYPE_VIDEO =? AV_STREAM_TYPE_AUDIO) with false.
      change (AV_STREAM_TYPE_VIDEO =? AV_STREAM_TYPE_VIDEO) with true. cbv iota. rewrite Hcmd.
      rewrite zlen_app, !zlen_cons. change (zlen (@nil Z)) with 0. split; [lia|]. split; [lia|]. split; [reflexivity|].
      right. right. left. split; [reflexivity|]. split; [exact F1|]. split; [exact Hcod|]. split; [reflexivity|]. split; [lia|auto].
    - destruct bb as [|ty2 [|c0 [|c1 [|c2 [|d0 d]]]]]; try discriminate. injection H as <- _.
      do 4 (apply Forall_cons_iff in Hbt as [? Hbt]).
      rewrite !zlen_cons in Hlt.
      assert (Bc : 0 <= bev [c0; c1; c2] < 2 ^ 24).
      { apply (bev_range [c0; c1; c2]). by4. }
      unfold flv_transportable, flv_body, flv_prefix. cbn [p_data p_dts p_stream p_flags p_ptype p_pts p_codec p_msg].
      split; [exact Hbt|]. split; [discriminate|]. change (AV_STREAM_TYPE_VIDEO =? AV_STREAM_TYPE_AUDIO) with false.
      change (AV_STREAM_TYPE_VIDEO =? AV_STREAM_TYPE_VIDEO) with true. cbv iota. rewrite Hcmd.
      rewrite !zlen_app, zlen_be, !zlen_cons. change (zlen (@nil Z)) with 0. split; [lia|]. split; [lia|]. split; [reflexivity|].
      right. left. split; [reflexivity|]. split; [exact F1|]. split; [exact Hcod|]. split; [reflexivity|]. split; [lia|].
      split; [assumption|]. unfold flv_sign24. clearbody dts. destruct (bev [c0; c1; c2] <? 2 ^ 23) eqn:Es; lia. }
  destruct (ty =? 18); [|discriminate].
  unfold flv_script_body in H. destruct b as [|d0 d]; [discriminate|]. injection H as <- _.
  unfold flv_transportable, flv_body, flv_prefix. cbn [p_data p_dts p_stream p_flags p_ptype p_pts p_codec p_msg].
  split; [exact Hbt|]. split; [discriminate|]. split; [change (zlen (d0 :: d) <= cap); rewrite Hlt; lia|]. split; [lia|]. split; [reflexivity|].
  right. right. right. repeat split; reflexivity.
Qed.
Lemma spec_flv_all_transportable cap e fuel : cap < 2 ^ 24 -> forall s, bytes s ->
  Forall (flv_transportable cap) (fst (spec_flv_all fuel cap e s)).
Proof.
  intros Hc. induction fuel as [|f IH]; intros s Hs; cbn [spec_flv_all fst]; [constructor|].
  destruct (spec_flv_next cap e s) as [p rest| |] eqn:E; cbn [fst]; try constructor.
  pose proof (IH rest (spec_flv_next_bytes _ _ _ _ _ Hs E)) as H. destruct (spec_flv_all f cap e rest) as [ps x]. cbn [fst] in *.
  constructor; [eapply spec_flv_next_transportable; eassumption|exact H].
Qed.
Lemma transportable_fits cap p : cap < 2 ^ 24 -> flv_transportable cap p -> flv_fits p.
Proof.
  intros Hc (H1 & H2 & H3 & H4 & H5 & H6). split; [|lia].
  unfold flv_known. destruct H6 as [(-> & _)|[(-> & _)|[(-> & _)|(-> & _)]]]; reflexivity.
Qed.
Lemma transportable_mono a b p : a <= b -> flv_transportable a p -> flv_transportable b p.
Proof. intros Hab (H1 & H2 & H3 & H4). split; [exact H1|]. split; [exact H2|]. split; [lia|exact H4]. Qed.

(** ** Histories *)
Lemma polls_given v h : concat (polls v h) = given v h.
Proof.
  induction h as [|[o x] h IH]; [reflexivity|]. cbn [polls given].
  destruct o; destruct x; try exact IH. rewrite concat_app, IH. destruct (Nat.eqb v v0); cbn [concat]; rewrite ?app_nil_r; reflexivity.
Qed.
Lemma last_such_in f h p : last_such f h = Some p -> In p h.
Proof.
  induction h as [|x h IH]; [discriminate|]. cbn [last_such]. destruct (last_such f h) as [y|] eqn:E.
  - intros [= <-]. right. auto.
  - destruct (f x); [|discriminate]. intros [= <-]. left. reflexivity.
Qed.
Lemma from_last_key_in m p : In p (from_last_key m) -> In p m.
Proof.
  induction m as [|x m IH]; [contradiction|]. cbn [from_last_key]. destruct (existsb is_keyframe m); [right; auto|].
  destruct (is_keyframe x); [auto|contradiction].
Qed.
Lemma maybe_in (f : pkt -> bool) h p : In p (maybe (last_such f h)) -> In p h.
Proof. destruct (last_such f h) as [y|] eqn:E; [|contradiction]. intros [<-|[]]. eapply last_such_in; eauto. Qed.
Lemma gop_snapshot_in h p : In p (gop_snapshot h) -> In p h.
Proof.
  unfold gop_snapshot. rewrite !in_app_iff. intros [H|[H|[H|H]]]; try (eapply maybe_in; exact H).
  apply from_last_key_in in H. apply filter_In in H as [H _]. exact H.
Qed.
Lemma ts_snapshot_in h p : In p (ts_snapshot h) -> In p h.
Proof.
  unfold ts_snapshot. rewrite !in_app_iff. intros [H|[H|H]]; try (eapply maybe_in; exact H).
  apply filter_In in H as [H _]. exact H.
Qed.
Lemma snapshot_in k h p : In p (snapshot k h) -> In p h.
Proof. destruct k; [apply gop_snapshot_in|apply ts_snapshot_in]. Qed.
Lemma puts_app i k a b : puts i k (a ++ b) = puts i k b ++ puts i k a.
Proof.
  induction a as [|[o x] a IH]; cbn [app puts]; [rewrite app_nil_r; reflexivity|].
  destruct o; destruct x; try exact IH. rewrite IH, <- app_assoc. reflexivity.
Qed.
Lemma puts_skip i k v a n x b : puts i k ((OPlay v a n, x) :: b) = puts i k b.
Proof. cbn [puts]. reflexivity. Qed.

(** ** SRT *)
Lemma srt_write_one evs x d : srt_decides evs x -> 1 <= zlen d <= 1316 ->
  srt_write evs d = match x with
                    | SsOk => ([d], Ok tt) | SsAgain e => ([], Err e) | SsFail => ([], Err SRT_ERROR) end.
Proof.
  intros [Hx [k ->]] Hd.
  assert (Hs : srt_sendmsg (repeat (SsAgain 0) k ++ [x]) = match x with
     | SsOk => (Ok tt, []) | SsAgain e => (Err e, []) | SsFail => (Err SRT_ERROR, []) end).
  { induction k as [|k IH]; [|exact IH]. cbn [repeat app srt_sendmsg]. destruct x as [|e|]; try reflexivity.
    destruct (e =? 0) eqn:E; [|reflexivity]. exfalso. apply Hx. f_equal. lia. }
  unfold srt_write. remember (repeat (SsAgain 0) k ++ [x]) as evs eqn:E. clear E.
  destruct d as [|c d]; [change (zlen (@nil Z)) with 0 in Hd; lia|]. cbn [length].
  remember (S (length d)) as f eqn:Ef. cbn [st_srt_write].
  change SRT_PLSIZE with 1316. replace (1316 <? zlen (c :: d)) with false by lia. rewrite Hs.
  destruct x; try reflexivity. rewrite Ef. cbn [st_srt_write].
  rewrite drop_all, take_all by lia. destruct d; reflexivity.
Qed.
Definition srt_bad (x : ssnd) : option Z :=
  match x with SsOk => None | SsAgain e => Some e | SsFail => Some SRT_ERROR end.
Lemma srt_batch evs dec : (forall n, srt_decides (evs n) (dec n)) ->
  forall ps n ms, Forall (fun p => 1 <= zlen (p_data p) <= 1316) ps ->
  exists r n1 a, enc_batch (srt_wr evs) XRaw ps (n, ms) = (r, XRaw, (n1, ms ++ a)) /\
    ((r = Ok tt /\ a = map p_data ps) \/
     exists e m, r = Err e /\ srt_bad (dec m) = Some e /\ initial a (map p_data ps)).
Proof.
  intros Hd. induction ps as [|p ps IH]; intros n ms Hf; cbn [enc_batch].
  - exists (Ok tt), n, []. rewrite app_nil_r. split; [reflexivity|]. left. auto.
  - unfold mux_packet at 1. unfold srt_wr at 1. cbn [fst snd].
    rewrite (srt_write_one _ _ _ (Hd n) (Forall_inv Hf)). destruct (dec n) as [|e|] eqn:E.
    + destruct (IH (S n) (ms ++ [p_data p]) (Forall_inv_tail Hf)) as (r & n1 & a & Hr & H).
      rewrite Hr. exists r, n1, (p_data p :: a). split; [rewrite <- app_assoc; reflexivity|].
      destruct H as [[-> ->]|(e & m & -> & Hb & [z Hz])]; [left; auto|right]. exists e, m. split; [reflexivity|].
      split; [exact Hb|]. exists z. cbn [app map]. rewrite Hz. reflexivity.
    + exists (Err e), (S n), []. split; [rewrite app_nil_r; reflexivity|]. right. exists e, n. rewrite E.
      split; [reflexivity|]. split; [reflexivity|]. eexists. reflexivity.
    + exists (Err SRT_ERROR), (S n), []. split; [rewrite app_nil_r; reflexivity|]. right. exists SRT_ERROR, n. rewrite E.
      split; [reflexivity|]. split; [reflexivity|]. eexists. reflexivity.
Qed.
Lemma srt_loop evs dec : (forall n, srt_decides (evs n) (dec n)) ->
  forall ds n ms, Forall (fun p => 1 <= zlen (p_data p) <= 1316) (concat (until_empty ds)) ->
  exists r n1 a, enc_loop (srt_wr evs) XRaw ds (n, ms) = (r, XRaw, (n1, ms ++ a)) /\
    ((r = None /\ until_empty ds = ds /\ a = map p_data (concat ds)) \/
     (r = Some (Ok ERROR_SOCKET_TIMEOUT) /\ until_empty ds <> ds /\ a = map p_data (concat (until_empty ds))) \/
     exists e m, r = Some (Ok e) /\ srt_bad (dec m) = Some e /\ initial a (map p_data (concat (until_empty ds)))).
Proof.
  intros Hd. induction ds as [|d ds IH]; intros n ms Hf.
  - exists None, n, []. rewrite app_nil_r. split; [reflexivity|]. left. auto.
  - destruct d as [|p d].
    + exists (Some (Ok ERROR_SOCKET_TIMEOUT)), n, []. rewrite app_nil_r. split; [reflexivity|]. right. left.
      split; [reflexivity|]. split; [discriminate|reflexivity].
    + cbn [enc_loop]. remember (p :: d) as pd eqn:Epd.
      assert (Hu : until_empty (pd :: ds) = pd :: until_empty ds) by (subst; reflexivity).
      rewrite Hu in *. cbn [concat] in Hf |- *. apply Forall_app in Hf as [Hf1 Hf2].
      destruct (srt_batch evs dec Hd pd n ms Hf1) as (r & n1 & a & -> & [[-> ->]|(e & m & -> & Hb & [z Hz])]).
      * destruct (IH n1 (ms ++ map p_data pd) Hf2) as (r & n2 & a & -> & H). rewrite <- app_assoc.
        exists r, n2, (map p_data pd ++ a). split; [reflexivity|]. rewrite !map_app.
        destruct H as [(-> & H1 & ->)|[(-> & H1 & ->)|(e & m & -> & Hb & [z Hz])]].
        { left. rewrite H1. auto. }
        { right. left. split; [reflexivity|]. split; [intros E; apply H1; injection E; auto|reflexivity]. }
        { right. right. exists e, m. split; [reflexivity|]. split; [exact Hb|]. exists z. rewrite <- app_assoc, Hz. reflexivity. }
      * exists (Some (Ok e)), n1, a. split; [reflexivity|]. right. right. exists e, m. split; [reflexivity|].
        split; [exact Hb|]. exists (z ++ map p_data (concat (until_empty ds))). rewrite app_assoc, Hz, map_app. reflexivity.
Qed.
Lemma filter_all {A} (f : A -> bool) l : (forall x, f x = true) -> filter f l = l.
Proof. intros H. induction l as [|x l IH]; [reflexivity|]. cbn [filter]. rewrite H, IH. reflexivity. Qed.
