(** Transport streams in front of chains of servers. *)
From Verif Require Import Base M_Text M_IO S_IO L_IO M_Packet M_Flv S_Flv L_Flv M_Url M_Conf M_Http S_Http L_Http3 S_Https M_Https M_Cache S_Cache L_Cache M_H264 M_AAC S_Codec M_Ts S_Ts
  M_Live S_Live L_Live L_Live2 L_Live3 M_Upload M_Stream S_Stream L_Stream P_Stream M_HttpConn S_HttpConn M_Edge S_Edge L_Edge S_Cross L_Cross.

(** Packets whose FLV tags are those of packets the format carries whole. *)
Definition shows (cap : Z) (p : pkt) : Prop := flv_transportable cap (as_flv p) /\ flv_tag p = flv_tag (as_flv p) /\ flv_fits p.
Lemma shows_map cap ps : Forall (shows cap) ps -> Forall (flv_transportable cap) (map as_flv ps).
Proof. intros H. apply Forall_map. eapply Forall_impl; [|exact H]. intros p Hp. apply Hp. Qed.
Lemma shows_layout cap ps : Forall (shows cap) ps -> forall n, flv_layout n ps = flv_layout n (map as_flv ps).
Proof. induction ps as [|p l IH]; intros HF n; [reflexivity|]. inversion HF as [|? ? (_ & E & _) HF']; subst. cbn [map flv_layout]. rewrite <- E, (IH HF'). reflexivity. Qed.
Lemma made_shows cap p : 2 ^ 18 <= cap -> ts_made p -> p_data p <> [] -> shows cap p.
Proof. intros Hc Hm Hd. destruct (made_as_flv p Hm Hd) as (A & B & C). split; [|split; assumption]. eapply transportable_mono; [|exact A]. exact Hc. Qed.
Lemma pulled_shown cap ds ps : 15 <= cap < 2 ^ 24 -> Forall (shows cap) (concat ds) -> pulled cap ds ps -> initial ps (map as_flv (concat ds)).
Proof.
  intros Hc HF (reason & ins & outs & h & r & e & sk & ret & sk1 & bts & lib & fmts & f & decode & fuel & fill & q & t & o & x & ps' & o1 &
    Hm & Ht & Hfm & Hd & He1 & He2 & Hp & Hpl & Hs & Hsk & Hn & Hi & Hlib & Hfi & Hdec & Hfill & Hedge & Hps).
  pose proof (initial_forall _ _ _ (until_empty_initial ds) HF) as HF'. pose proof (shows_map _ _ HF') as HM.
  destruct (http_player_ends reason ins outs h r e sk Hm Ht Hfm) as (ret' & sk1' & sent & A1 & A2 & A3); [|exact He1|exact He2|].
  { rewrite Hd. eapply Forall_impl; [|exact HF']. intros p Hpp. apply Hpp. }
  rewrite Hd in A3. rewrite Hs in A1. injection A1 as <- <-. assert (Hb : bts = sent) by (apply (app_inv_head (sk_out sk)); congruence). subst sent.
  assert (Hfull : initial bts (response_head reason rsp200 ++ flv_default_header ++ flv_layout 0 (concat (until_empty ds)))).
  { destruct A3 as [(_ & _ & ->)|[(_ & _ & ->)|(_ & _ & A3)]]; [apply initial_refl|apply initial_refl|exact A3]. }
  rewrite (shows_layout _ _ HF') in Hfull.
  destruct (initial_trans _ _ _ Hi Hfull) as (miss & Hmiss). destruct (head200 reason Hp Hpl) as (K1 & K2).
  destruct (head200_read reason lib Hp Hlib) as (n & fs & Hnn & Hri).
  apply (initial_trans _ _ _ Hps). apply (initial_trans _ (map as_flv (concat (until_empty ds))) _).
  2: { destruct (until_empty_initial ds) as (y & Hy). exists (map as_flv y). rewrite <- map_app, Hy. reflexivity. }
  refine (initial_trans _ _ _ (edge_partial lib fmts decode q t o miss _ _ n _ f fuel fill _ flv_default_header (flv_layout 0 (map as_flv (concat (until_empty ds)))) x ps' o1 0
    Hn K1 K2 Hmiss Hri Hfi Hdec _ eq_refl eq_refl eq_refl (flv_layout_bytes _ _ HM 0) ltac:(lia) Hedge) _).
  - right. cbn. split; [reflexivity|]. split; [lia|reflexivity].
  - rewrite Hfill. apply layout_any_fuel; [lia|exact HM].
Qed.
Lemma initial_shown_inv : forall (a b : list pkt), initial a (map as_flv b) -> exists b', initial b' b /\ a = map as_flv b'.
Proof. intros a b (x & Hx). symmetry in Hx. apply map_eq_app in Hx as (b1 & b2 & -> & <- & _). exists b1. split; [exists b2; reflexivity|reflexivity]. Qed.
(** The first pull shows the packets as FLV does, the others change nothing. *)
Lemma cluster_shown cap n ps ds : 15 <= cap < 2 ^ 24 -> Forall (shows cap) ps -> cluster cap (S n) ps ds ->
  exists qs, view ps qs /\ view (map as_flv qs) (concat ds) /\ Forall (flv_transportable cap) (concat ds).
Proof.
  intros Hc HF. revert ds. induction n as [|n IH]; intros ds H; inversion H as [|n' ps0 ds0 ps' ds' H0 Hp Hs]; subst.
  - inversion H0 as [ps0 ds1 H1|]; subst. pose proof (served_view _ _ H1) as V. pose proof (view_forall _ _ _ V HF) as HV.
    pose proof (pulled_shown _ _ _ Hc HV Hp) as Hi. destruct (initial_shown_inv _ _ Hi) as (qs & Hq & ->).
    exists qs. split; [exact (view_initial _ _ _ V Hq)|]. split; [exact (served_view _ _ Hs)|].
    apply (view_forall _ _ _ (served_view _ _ Hs)). exact (shows_map _ _ (initial_forall _ _ _ Hq HV)).
  - destruct (IH _ H0) as (qs & V & W & HT). exists qs. split; [exact V|]. pose proof (pulled_initial _ _ _ Hc HT Hp) as Hi.
    split; [exact (view_trans _ _ _ (view_initial _ _ _ W Hi) (served_view _ _ Hs))|].
    apply (view_forall _ _ _ (served_view _ _ Hs)). exact (initial_forall _ _ _ Hi HT).
Qed.
