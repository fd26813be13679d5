(** Lemmas for the delivered configuration files: a boolean check of a list of
    listeners against a table. *)
From Verif Require Import Base M_Text M_Url M_Conf M_Host M_Stream M_Serve M_Shipped S_Shipped L_Host.

(** The settings that decide, computed once. *)
Definition addr_eqb (x : list Z * Z) (a : string) (p : Z) : bool := eqb_list (fst x) (str a) && (snd x =? p).
Definition doesb (h : cmod) (s : service) : bool :=
  match s with
  | ToProxy a p => match adapter h with AProxy => addr_eqb (proxy_info h 80) a p | _ => false end
  | ToStream f src => match adapter h with AStream => true | _ => false end && 
      match f with None => negb (is_source h) | Some f => is_source h && eqb_list (opt_str h (str "edge_avformat")) (str f) end &&
      match src with None => negb (is_edge h) | Some (a, p) => is_edge h && addr_eqb (proxy_info h 80) a p end
  end.
Lemma addr_eqb_ok x a p : addr_eqb x a p = true -> x = (str a, p).
Proof.
  unfold addr_eqb. intros H. apply andb_prop in H. destruct H as [H1 H2]. apply eqb_list_spec in H1. apply Z.eqb_eq in H2.
  destruct x; cbn [fst snd] in *; subst; reflexivity.
Qed.
Lemma doesb_ok h s : doesb h s = true -> does h s.
Proof.
  destruct s as [a p|f src]; cbn [doesb does].
  - destruct (adapter h); try discriminate. intros H. split; [reflexivity|apply addr_eqb_ok; exact H].
  - intros H. apply andb_prop in H. destruct H as [H H3]. apply andb_prop in H. destruct H as [H1 H2].
    split; [destruct (adapter h); congruence|]. split.
    + intros fmt. unfold support_publish, formats_allow. destruct f as [f|].
      * apply andb_prop in H2. destruct H2 as [H2 H4]. apply eqb_list_spec in H4. rewrite H2, H4. reflexivity.
      * destruct (is_source h); [discriminate|reflexivity].
    + destruct src as [[a p]|].
      * apply andb_prop in H3. destruct H3 as [H3 H4]. split; [exact H3|apply addr_eqb_ok; exact H4].
      * destruct (is_edge h); [discriminate|reflexivity].
Qed.
Fixpoint hostsb (m : hmap) (t : hosts_table) : bool :=
  match m, t with
  | [], [] => true
  | (k, h) :: m', (n, s) :: t' => eqb_list k (str n) && eqb_list (cm_name h) k && doesb h s && hostsb m' t'
  | _, _ => false
  end.
Lemma hostsb_ok : forall m t name, hostsb m t = true ->
  exists s, entry (by_bytes t) name s /\
    match s with None => hm_find name m = None | Some s => exists h, hm_find name m = Some h /\ cm_name h = name /\ does h s end.
Proof.
  induction m as [|[k h] m IH]; intros [|[n s] t] name H; cbn [hostsb] in H; try discriminate.
  - exists None. split; [apply en_none; intros a Ha; destruct Ha|reflexivity].
  - apply andb_prop in H. destruct H as [H H4]. apply andb_prop in H. destruct H as [H H3]. apply andb_prop in H. destruct H as [H1 H2].
    apply eqb_list_spec in H1. apply eqb_list_spec in H2. apply doesb_ok in H3. cbn [hm_find fst snd].
    destruct (eqb_list k name) eqn:Ek.
    + apply eqb_list_spec in Ek. exists (Some s). split.
      * apply en_some. left. cbn [fst snd]. congruence.
      * exists h. split; [reflexivity|]. split; [congruence|exact H3].
    + destruct (IH t name H4) as (e & He & Hm). exists e. split; [|exact Hm].
      destruct He as [a Ha|Ha]; [apply en_some; right; exact Ha|].
      apply en_none. intros a [Hin|Hin]; [|exact (Ha a Hin)].
      cbn [fst snd] in Hin. assert (k = name) by congruence. apply (proj2 (eqb_list_spec k name)) in H. congruence.
Qed.
Definition protob (a b : proto) : bool := match a, b with PHttp, PHttp | PRtmp, PRtmp | PSrt, PSrt => true | _, _ => false end.
Definition transb (a b : tkind) : bool := match a, b with TkTcp, TkTcp | TkSrt, TkSrt | TkTls, TkTls => true | _, _ => false end.
Fixpoint tableb (ls : list listener) (t : table) : bool :=
  match ls, t with
  | [], [] => true
  | l :: ls', (p, (pr, tk, hs)) :: t' =>
      (ls_port l =? p) && protob (ls_proto l) pr && transb (transport_of (sv_conf (ls_server l))) tk && hostsb (rt_exact (ls_router l)) hs &&
      match rt_wild (ls_router l) with [] => true | _ => false end && match rt_default (ls_router l) with None => true | _ => false end && tableb ls' t'
  | _, _ => false
  end.
Lemma tableb_ports : forall ls t, tableb ls t = true -> map ls_port ls = map fst t.
Proof.
  induction ls as [|l ls IH]; intros [|[p [[pr tk] hs]] t] H; cbn [tableb] in H; try discriminate; [reflexivity|].
  repeat match goal with H : _ && _ = true |- _ => apply andb_prop in H; destruct H end.
  cbn [map fst]. f_equal; [apply Z.eqb_eq; assumption|apply IH; assumption].
Qed.
Lemma tableb_ok ls t : tableb ls t = true -> behaves ls t.
Proof.
  intros H port.
  assert (G : forall ls t, tableb ls t = true -> exists e, entry t port e /\
    match e with None => get_server port ls = None | Some (pr, tk, hs) => exists l, get_server port ls = Some l /\ ls_proto l = pr /\ transport_of (sv_conf (ls_server l)) = tk /\
      rt_wild (ls_router l) = [] /\ rt_default (ls_router l) = None /\ hostsb (rt_exact (ls_router l)) hs = true end).
  { clear. induction ls as [|l ls IH]; intros [|[p [[pr tk] hs]] t] H; cbn [tableb] in H; try discriminate.
    - exists None. split; [apply en_none; intros a []|reflexivity].
    - repeat match goal with H : _ && _ = true |- _ => apply andb_prop in H; destruct H end.
      match goal with H : (ls_port l =? p) = true |- _ => apply Z.eqb_eq in H; rename H into Hp end.
      cbn [get_server]. destruct (ls_port l =? port) eqn:E.
      + apply Z.eqb_eq in E. exists (Some (pr, tk, hs)). split; [apply en_some; left; congruence|].
        exists l. split; [reflexivity|]. split; [destruct (ls_proto l), pr; cbn in *; congruence|]. split; [destruct (transport_of (sv_conf (ls_server l))), tk; cbn in *; congruence|].
        split; [destruct (rt_wild (ls_router l)); congruence|]. split; [destruct (rt_default (ls_router l)); congruence|assumption].
      + destruct (IH t) as (e & He & Hm); [assumption|]. exists e. split; [|exact Hm].
        destruct He as [a Ha|Ha]; [apply en_some; right; exact Ha|].
        apply en_none. intros a [Hin|Hin]; [|exact (Ha a Hin)]. apply Z.eqb_neq in E. congruence. }
  destruct (G ls t H) as (e & He & Hm). exists e. split; [exact He|].
  destruct e as [[[pr tk] hs]|]; [|exact Hm].
  destruct Hm as (l & Hg & Hpr & Htk & Hw & Hd & Hh). exists l. split; [exact Hg|]. split; [exact Hpr|]. split; [exact Htk|].
  intros name. destruct (hostsb_ok _ _ name Hh) as (s & Hs & Hf). exists s. split; [exact Hs|].
  unfold route. rewrite Hg. unfold find_host. rewrite Hw, Hd. destruct s as [s|].
  - destruct Hf as (h & Hf & Hn & Hd'). exists h. rewrite Hf. split; [reflexivity|]. split; assumption.
  - rewrite Hf. reflexivity.
Qed.

(** Starting the servers of a tree whose ports are all different. *)
Definition get_ok {A} (d : A) (r : res A) : A := match r with Ok a => a | _ => d end.
Definition is_ok {A} (r : res A) : bool := match r with Ok _ => true | _ => false end.
Definition all_ok (_ : Z) : res unit := Ok tt.
Definition root_of (text : list Z) : cmod := get_ok (CMod [] [] [] []) (load_conf text).
Definition ls_of (text : list Z) : list listener := get_ok [] (install all_ok (root_of text)).
(** Opening ports one after the other. *)
Fixpoint opening (can_listen : Z -> res unit) (ports : list Z) (ls : list listener) : res (list listener) :=
  match ports with [] => Ok ls | p :: ps => let? _ := can_listen p in opening can_listen ps ls end.
Lemma opening_ok can_listen ls : forall ps, (forall p, In p ps -> can_listen p = Ok tt) -> opening can_listen ps ls = Ok ls.
Proof.
  induction ps as [|p ps IH]; intros H; cbn [opening]; [reflexivity|]. rewrite H by (left; reflexivity). apply IH. intros q Hq. apply H. right. exact Hq.
Qed.
Lemma opening_err can_listen ls p e : can_listen p = Err e -> forall a b, (forall q, In q a -> can_listen q = Ok tt) -> opening can_listen (a ++ p :: b) ls = Err e.
Proof.
  intros He. induction a as [|x a IH]; intros b H; cbn [opening app].
  - rewrite He. reflexivity.
  - rewrite H by (left; reflexivity). apply IH. intros q Hq. apply H. right. exact Hq.
Qed.
Lemma starts_by_check text t :
  is_ok (load_conf text) = true -> tableb (ls_of text) t = true ->
  (forall can_listen, install can_listen (root_of text) = opening can_listen (map fst t) (ls_of text)) -> starts_as text t.
Proof.
  intros H1 H2 H3. exists (root_of text). split.
  - unfold root_of. destruct (load_conf text); [reflexivity|discriminate H1..].
  - intros can_listen. split.
    + intros Hp. exists (ls_of text). split; [rewrite H3; apply opening_ok; exact Hp|].
      split; [apply tableb_ports; exact H2|apply tableb_ok; exact H2].
    + intros a p b e Hm Ha He. rewrite H3, Hm. apply opening_err; assumption.
Qed.
