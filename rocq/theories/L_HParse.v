(** Lemmas about message heads and what is made of them. *)
From Verif Require Import Base M_IO S_IO L_IO M_Text M_Conf M_Url S_Url L_Url P_Url M_Host M_Http S_Http L_Http L_Http2 L_Http3 M_HttpConn S_HttpConn L_HttpConn M_HParse S_HParse.

(** ** Callbacks *)
Lemma on_essential cs : forall s, fold_left hp_on cs s = fold_left hp_on (essential cs) s.
Proof. induction cs as [|c cs IH]; intros s; [reflexivity|]. destruct c; cbn [fold_left essential filter]; apply IH. Qed.
Lemma on_values vs : forall s, fold_left hp_on (map CbValue vs) s =
  mkhps (hp_key s) (hp_headers s ++ map (pair (hp_key s)) vs) (hp_target s) (hp_body s).
Proof.
  induction vs as [|v vs IH]; intros s; cbn [map fold_left]; [rewrite app_nil_r; destruct s; reflexivity|].
  rewrite IH. cbn [hp_on hp_key hp_headers hp_target hp_body]. rewrite <- app_assoc. reflexivity.
Qed.
Lemma on_reported fs : forall s, exists k, fold_left hp_on (reported fs) s =
  mkhps k (hp_headers s ++ flat_map by_line fs) (hp_target s) (hp_body s).
Proof.
  induction fs as [|[[k v] more] fs IH]; intros s.
  - exists (hp_key s). cbn. rewrite app_nil_r. destruct s; reflexivity.
  - unfold reported. cbn [flat_map]. fold (reported fs). rewrite fold_left_app. cbn [fold_left hp_on]. rewrite on_values.
    destruct (IH (mkhps k (hp_headers s ++ map (pair k) (v :: more)) (hp_target s) (hp_body s))) as (k' & E).
    exists k'. cbn [hp_key hp_headers hp_target hp_body] in *. rewrite E. unfold by_line at 2. rewrite <- app_assoc. reflexivity.
Qed.
Lemma after_request r u fs : essential (rp_calls r) = CbUrl u :: reported fs ->
  hp_target (hp_after r) = u /\ hp_headers (hp_after r) = flat_map by_line fs.
Proof.
  intros H. unfold hp_after. rewrite on_essential, H. cbn [fold_left].
  destruct (on_reported fs (hp_on hp_new (CbUrl u))) as (k & ->). split; reflexivity.
Qed.
Lemma after_response r fs : essential (rp_calls r) = reported fs -> hp_headers (hp_after r) = flat_map by_line fs.
Proof. intros H. unfold hp_after. rewrite on_essential, H. destruct (on_reported fs hp_new) as (k & ->). reflexivity. Qed.
Lemma by_line_one fs : flat_map by_line (map one_line fs) = fs.
Proof. induction fs as [|[k v] fs IH]; [reflexivity|]. cbn [map flat_map]. rewrite IH. reflexivity. Qed.
Lemma rfields_one fs : Forall line_ok fs -> Forall rfield_ok (map one_line fs).
Proof. intros H. apply Forall_map. exact H. Qed.

(** ** Texts *)
Lemma lines_crlf ls : lines_text ls = crlf_lines ls.
Proof. induction ls as [|l ls IH]; [reflexivity|]. cbn [lines_text crlf_lines flat_map]. rewrite IH, <- app_assoc. reflexivity. Qed.
Lemma name_plain k : Forall name_c k -> plain k.
Proof. apply Forall_impl. unfold name_c. lia. Qed.
Lemma print_plain k : Forall (fun c => 32 <= c <= 126) k -> plain k.
Proof. apply Forall_impl. lia. Qed.
Lemma value_plain v : value_ok v -> plain v.
Proof. intros (_ & H & _). apply print_plain, H. Qed.
Lemma plain_app a b : plain a -> plain b -> plain (a ++ b).
Proof. intros A B. apply Forall_app. auto. Qed.
Lemma field_lines_ok f : rfield_ok f -> Forall (fun l => l <> [] /\ plain l) (field_lines f).
Proof.
  destruct f as [[k v] more]. intros (H1 & H2 & H3 & H4). cbn [field_lines]. constructor.
  - split; [destruct k; discriminate|]. apply plain_app; [apply name_plain, H2|]. apply plain_app; [apply plain_lit; reflexivity|apply value_plain, H3].
  - apply Forall_map. eapply Forall_impl; [|exact H4]. intros l Hl. split; [discriminate|].
    apply plain_app; [apply plain_lit; reflexivity|apply value_plain, Hl].
Qed.
Lemma fields_lines_ok fs : Forall rfield_ok fs -> Forall (fun l => l <> [] /\ plain l) (flat_map field_lines fs).
Proof. induction 1; [constructor|]. cbn [flat_map]. apply Forall_app. split; [apply field_lines_ok; assumption|assumption]. Qed.
Lemma head_text_head first fs : first <> [] -> plain first -> Forall rfield_ok fs -> is_head (head_text first fs).
Proof.
  intros H1 H2 H3. exists (first :: flat_map field_lines fs). split; [discriminate|]. split.
  - constructor; [auto|apply fields_lines_ok, H3].
  - unfold head_text. rewrite lines_crlf. reflexivity.
Qed.
Lemma method_chars m : In m methods -> m <> [] /\ Forall (fun c => 65 <= c <= 90) m.
Proof.
  intros H. assert (K : forallb (fun m => negb (zlen m =? 0) && forallb (fun c => (65 <=? c) && (c <=? 90)) m) methods = true) by reflexivity.
  rewrite forallb_forall in K. specialize (K m H). apply andb_true_iff in K as [K1 K2]. split.
  - intros ->. discriminate.
  - rewrite forallb_forall in K2. apply Forall_forall. intros c Hc. specialize (K2 c Hc). lia.
Qed.
Lemma target_plain u : target_ok u -> plain u.
Proof. intros (_ & H). eapply Forall_impl; [|exact H]. cbn. lia. Qed.
Lemma request_line_ok m u : In m methods -> target_ok u -> request_line m u <> [] /\ plain (request_line m u).
Proof.
  intros Hm Hu. destruct (method_chars m Hm) as (H1 & H2). unfold request_line. split; [destruct m; [congruence|discriminate]|].
  apply plain_app; [eapply Forall_impl; [|exact H2]; cbn; lia|]. apply plain_app; [apply plain_lit; reflexivity|].
  apply plain_app; [apply target_plain, Hu|apply plain_lit; reflexivity].
Qed.
Lemma status_line_ok ds st reason : dec_number ds st -> plain reason -> status_line ds reason <> [] /\ plain (status_line ds reason).
Proof.
  intros Hd Hr. split; [discriminate|]. unfold status_line. apply plain_app; [apply plain_lit; reflexivity|].
  apply plain_app; [eapply Forall_impl; [|exact (dec_number_chars _ _ Hd)]; cbn; lia|].
  apply plain_app; [apply plain_lit; reflexivity|exact Hr].
Qed.

(** ** The example library *)
Lemma name_b_ok c : name_b c = true <-> name_c c.
Proof. unfold name_b, name_c. lia. Qed.
Lemma span_ok k : forall r, Forall name_c k -> (match r with [] => True | c :: _ => ~ name_c c end) -> span (k ++ r) = (k, r).
Proof.
  induction k as [|c k IH]; intros r Hk Hr.
  - cbn [app]. destruct r as [|c r]; [reflexivity|]. cbn [span]. destruct (name_b c) eqn:E; [|reflexivity]. apply name_b_ok in E. contradiction.
  - inversion_clear Hk as [|? ? H1 H2]. cbn [app span]. rewrite (proj2 (name_b_ok c) H1), (IH r H2 Hr). reflexivity.
Qed.
Lemma scan_fold f v r : plain v -> scan (S f) ((str " " ++ v) ++ [13; 10] ++ r) = let '(c, x) := scan f r in (CbValue v :: c, x).
Proof.
  intros Hv. change (str " ") with [32]. cbn [app scan]. change (32 =? 13) with false. change (32 =? 32) with true. cbn iota.
  rewrite cut_crlf_plain by exact Hv. reflexivity.
Qed.
Lemma scan_field f k v r : k <> [] -> Forall name_c k -> plain v ->
  scan (S f) ((k ++ str ": " ++ v) ++ [13; 10] ++ r) = let '(c, x) := scan f r in (CbField k :: CbValue v :: c, x).
Proof.
  intros Hk Hn Hv. rewrite <- !app_assoc. destruct k as [|a k]; [congruence|]. inversion Hn as [|? ? Ha Hn']. subst.
  cbn [app scan]. unfold name_c in Ha.
  destruct (a =? 13) eqn:E1; [lia|]. destruct (a =? 32) eqn:E2; [lia|].
  change (a :: k ++ str ": " ++ v ++ 13 :: 10 :: r) with ((a :: k) ++ 58 :: 32 :: v ++ 13 :: 10 :: r).
  rewrite span_ok; [|exact Hn|unfold name_c; lia].
  change (take 2 (58 :: 32 :: v ++ 13 :: 10 :: r)) with (str ": "). change (eqb_list (str ": ") (str ": ")) with true. cbn iota.
  change (drop 2 (58 :: 32 :: v ++ 13 :: 10 :: r)) with (v ++ 13 :: 10 :: r). rewrite cut_crlf_plain by exact Hv. reflexivity.
Qed.
Lemma scan_folds more : forall f r, Forall value_ok more -> exists f', f' = f /\
  scan (length more + f) (lines_text (map (fun l => str " " ++ l) more) ++ r) = let '(c, x) := scan f' r in (map CbValue more ++ c, x).
Proof.
  intros f r H. exists f. split; [reflexivity|]. revert f r. induction H as [|v more Hv H IH]; intros f r.
  - cbn [length map lines_text app Nat.add]. destruct (scan f r). reflexivity.
  - cbn [length map lines_text Nat.add]. rewrite <- app_assoc. change ([13; 10] ++ ?a) with (13 :: 10 :: a). rewrite <- !app_comm_cons.
    change (13 :: 10 :: ?a) with ([13; 10] ++ a). rewrite scan_fold by (apply value_plain, Hv). rewrite IH. destruct (scan f r). reflexivity.
Qed.
Lemma lines_app a b : lines_text (a ++ b) = lines_text a ++ lines_text b.
Proof. rewrite !lines_crlf. apply crlf_lines_app. Qed.
Lemma scan_fields fs tail c x : Forall rfield_ok fs -> (forall f, scan (S f) tail = (c, x)) -> forall fuel,
  (length (flat_map field_lines fs) < fuel)%nat -> scan fuel (lines_text (flat_map field_lines fs) ++ tail) = (reported fs ++ c, x).
Proof.
  intros Hf Ht. induction Hf as [|[[k v] more] fs (H1 & H2 & H3 & H4) Hf IH]; intros fuel Hl.
  - destruct fuel as [|f]; [cbn in Hl; lia|]. apply Ht.
  - cbn [flat_map field_lines] in *. cbn [app length] in Hl. rewrite app_length, map_length in Hl.
    destruct fuel as [|fuel]; [lia|]. cbn [app lines_text]. rewrite lines_app.
    match goal with |- scan _ ?L = _ => replace L with ((k ++ str ": " ++ v) ++ [13; 10] ++ lines_text (map (fun l => str " " ++ l) more) ++ lines_text (flat_map field_lines fs) ++ tail) end.
    2:{ rewrite <- (app_assoc (k ++ str ": " ++ v)). cbn [app]. rewrite <- (app_assoc (lines_text _)). reflexivity. }
    rewrite scan_field; [|assumption|assumption|apply value_plain, H3].
    replace fuel with (length more + (fuel - length more))%nat by lia.
    destruct (scan_folds more (fuel - length more) (lines_text (flat_map field_lines fs) ++ tail) H4) as (f' & -> & E). rewrite E.
    rewrite IH by lia. unfold reported at 2. cbn [flat_map]. fold (reported fs). rewrite <- app_assoc. reflexivity.
Qed.
Lemma pairs_values k vs cs : pairs_of k (map CbValue vs ++ cs) = map (pair k) vs ++ pairs_of k cs.
Proof. induction vs as [|v vs IH]; [reflexivity|]. cbn [map app pairs_of]. rewrite IH. reflexivity. Qed.
Lemma pairs_reported fs : forall k, pairs_of k (reported fs) = flat_map by_line fs.
Proof.
  induction fs as [|[[k' v] more] fs IH]; intros k; [reflexivity|]. unfold reported. cbn [flat_map]. fold (reported fs).
  cbn [app pairs_of]. rewrite pairs_values, IH. reflexivity.
Qed.
Lemma digits_snoc l : forall acc c, digits (l ++ [c]) acc = 10 * digits l acc + (c - 48).
Proof. induction l as [|a l IH]; intros acc c; [reflexivity|]. cbn [app digits]. apply IH. Qed.
Lemma digits_ok ds n : dec_number ds n -> digits ds 0 = n.
Proof. induction 1; [cbn; lia|]. rewrite digits_snoc, IHdec_number. lia. Qed.
Lemma lines_len ls : (length ls <= length (lines_text ls))%nat.
Proof. induction ls as [|l ls IH]; [cbn; lia|]. cbn [length lines_text]. rewrite !app_length. cbn [length]. lia. Qed.

Lemma essential_reported fs : essential (reported fs) = reported fs.
Proof.
  induction fs as [|[[k v] more] fs IH]; [reflexivity|]. unfold reported. cbn [flat_map]. fold (reported fs). unfold essential in *.
  rewrite filter_app, IH. f_equal. cbn [filter map]. f_equal. f_equal. induction more as [|w more IH2]; [reflexivity|]. cbn [map filter]. rewrite IH2. reflexivity.
Qed.
Lemma chars_notin (P : Z -> Prop) l c : Forall P l -> ~ P c -> ~ In c l.
Proof. intros H Hn Hin. rewrite Forall_forall in H. apply Hn, H, Hin. Qed.
Lemma line_cuts m u : In m methods -> target_ok u -> exists x, cut_at 32 (request_line m u) = Some (m, x) /\ exists y, cut_at 32 x = Some (u, y).
Proof.
  intros Hm Hu. destruct (method_chars m Hm) as (_ & H2). destruct Hu as (_ & H3).
  exists (u ++ 32 :: str "HTTP/1.1"). split.
  - unfold request_line. change (str " " ++ u ++ str " HTTP/1.1") with (32 :: u ++ 32 :: str "HTTP/1.1").
    apply cut_at_ok. eapply chars_notin; [exact H2|]. cbn. lia.
  - exists (str "HTTP/1.1"). apply cut_at_ok. eapply chars_notin; [exact H3|]. cbn. lia.
Qed.
Lemma scan_end f : scan (S f) [13; 10] = ([], []).
Proof. reflexivity. Qed.
Lemma scan_fault f k c tail : Forall name_c k -> bad_c c -> scan (S f) (k ++ c :: tail) = ([], c :: tail).
Proof.
  intros Hk Hc. assert (Hn : ~ name_c c) by (unfold name_c, bad_c in *; lia).
  assert (E : exists a r, k ++ c :: tail = a :: r /\ a <> 13 /\ a <> 32).
  { destruct k as [|a k]; [exists c, tail; unfold bad_c in Hc; repeat split; lia|].
    inversion_clear Hk as [|? ? H _]. exists a, (k ++ c :: tail). unfold name_c in H. repeat split; lia. }
  destruct E as (a & r & E & A1 & A2). cbn [scan]. rewrite E. destruct (a =? 13) eqn:E1; [lia|]. destruct (a =? 32) eqn:E2; [lia|].
  rewrite <- E, span_ok; [|exact Hk|exact Hn].
  destruct (eqb_list (take 2 (c :: tail)) (str ": ")) eqn:E3; [|reflexivity].
  apply eqb_list_spec in E3. assert (c = 58); [|unfold bad_c in Hc; lia].
  unfold take in E3. change (Z.to_nat 2) with 2%nat in E3. cbn [firstn] in E3. injection E3 as E4 _. exact E4.
Qed.
Lemma some_requests : reads_requests some_lib.
Proof.
  intros m u fs len te Hm Hu Hf _ t _. unfold t, head_text, some_lib. cbn [lines_text]. rewrite <- !app_assoc. cbn [app].
  destruct (request_line_ok m u Hm Hu) as (_ & Hp). rewrite cut_crlf_plain by exact Hp.
  rewrite (scan_fields fs [13; 10] [] [] Hf scan_end); [|rewrite app_length; pose proof (lines_len (flat_map field_lines fs)); lia].
  destruct (line_cuts m u Hm Hu) as (x & -> & y & ->). cbn [rp_used rp_method rp_calls essential filter].
  change (zlen (@nil Z)) with 0. rewrite Z.sub_0_r, app_nil_r. split; [reflexivity|]. split; [reflexivity|]. f_equal. apply essential_reported.
Qed.
Lemma some_responses : reads_responses some_lib.
Proof.
  intros ds st reason fs len te Hd Hl Hr Hf (F1 & F2 & F3 & F4) t _. unfold t, head_text, some_lib. cbn [lines_text]. rewrite <- !app_assoc. cbn [app].
  destruct (status_line_ok ds st reason Hd (print_plain _ Hr)) as (_ & Hp). rewrite cut_crlf_plain by exact Hp.
  rewrite (scan_fields fs [13; 10] [] [] Hf scan_end); [|rewrite app_length; pose proof (lines_len (flat_map field_lines fs)); lia].
  cbn [rp_used rp_status rp_cl rp_te rp_calls essential filter]. change (zlen (@nil Z)) with 0. rewrite Z.sub_0_r, app_nil_r, pairs_reported.
  split; [reflexivity|]. split.
  { replace (take 3 (drop 9 (status_line ds reason))) with ds; [apply digits_ok, Hd|].
    unfold status_line. change (drop 9 (str "HTTP/1.1 " ++ ds ++ str " " ++ reason)) with (ds ++ str " " ++ reason).
    rewrite <- Hl. symmetry. apply take_app_exact. reflexivity. }
  split.
  { destruct len as [n|]; [|rewrite F1; reflexivity]. destruct F1 as (cl & E & D & _). rewrite E. apply digits_ok, D. }
  split.
  { destruct (field_values (str "transfer-encoding") (flat_map by_line fs)) as [|w l] eqn:E.
    - destruct te; [|reflexivity]. destruct (proj1 F3 eq_refl eq_refl).
    - symmetry. apply F3. discriminate. }
  apply essential_reported.
Qed.
Lemma some_stops : stops_at_fault some_lib.
Proof.
  intros m u fs len te k c tail Hm Hu Hf _ Hk Hc t _. unfold t, some_lib. cbn [lines_text]. rewrite <- !app_assoc. cbn [app].
  destruct (request_line_ok m u Hm Hu) as (_ & Hp). rewrite cut_crlf_plain by exact Hp.
  rewrite (scan_fields fs (k ++ c :: tail) [] (c :: tail) Hf (fun f => scan_fault f k c tail Hk Hc)); [|rewrite app_length; pose proof (lines_len (flat_map field_lines fs)); lia].
  destruct (line_cuts m u Hm Hu) as (x & -> & y & ->). cbn [rp_used rp_method rp_calls essential filter]. rewrite app_nil_r.
  split; [|split; [reflexivity|f_equal; apply essential_reported]].
  rewrite zlen_app, !zlen_cons, !zlen_app, !zlen_cons.
  pose proof (zlen_nonneg (request_line m u)). pose proof (zlen_nonneg (lines_text (flat_map field_lines fs))). pose proof (zlen_nonneg k). pose proof (zlen_nonneg tail). lia.
Qed.

(** ** The server's own texts *)
Lemma lines_one fs : flat_map field_lines (map one_line fs) = map fline fs.
Proof. induction fs as [|[k v] fs IH]; [reflexivity|]. cbn [map flat_map]. rewrite IH. reflexivity. Qed.
Lemma head_one first fs : head_text first (map one_line fs) = crlf_lines (first :: map fline fs) ++ [13; 10].
Proof. unfold head_text. rewrite lines_one, lines_crlf. reflexivity. Qed.
Definition fwd_fields (host : list Z) (hs : list (list Z * list Z)) : list (list Z * list Z) :=
  (str "Host", host) :: filter not_host hs ++ [(str "Accept", str "*/"); (str "Content-Length", str "0")].
Lemma http_request_text m u host hs :
  http_request m u host [] hs = head_text (request_line m u) (map one_line (fwd_fields host hs)).
Proof.
  rewrite head_one. unfold http_request. rewrite header_lines_ok. fold not_host. unfold fwd_fields.
  change (decs (zlen (@nil Z))) with (str "0").
  cbn [map]. rewrite map_app. unfold request_line.
  change ((m ++ str " " ++ u ++ str " HTTP/1.1") :: fline (str "Host", host) :: map fline (filter not_host hs) ++
            map fline [(str "Accept", str "*/"); (str "Content-Length", str "0")])
    with ([m ++ str " " ++ u ++ str " HTTP/1.1"; fline (str "Host", host)] ++ map fline (filter not_host hs) ++
            map fline [(str "Accept", str "*/"); (str "Content-Length", str "0")]).
  rewrite !crlf_lines_app. unfold crlf_lines at 2 4. cbn [flat_map map fline fst snd].
  unfold crlf, CR, LF.
  change (str "Host: ") with (str "Host" ++ [58; 32]).
  change (str "Accept: */") with (str "Accept" ++ [58; 32] ++ str "*/").
  change (str "Content-Length: ") with (str "Content-Length" ++ [58; 32]).
  unfold fline. cbn [fst snd]. do 4 (rewrite <- ?app_assoc; cbn [app]). reflexivity.
Qed.
Lemma response_head_text reason h :
  response_head reason h = head_text (status_line (decs (hr_status h)) (reason (hr_status h))) (map one_line (rsp_fields h)).
Proof.
  rewrite head_one. unfold response_head. rewrite header_lines_ok. unfold rsp_fields, status_line. rewrite !map_app.
  set (sl := str "HTTP/1.1 " ++ decs (hr_status h) ++ str " " ++ reason (hr_status h)).
  change (sl :: ?x) with ([sl] ++ x). rewrite !crlf_lines_app.
  unfold crlf_lines at 2. cbn [flat_map]. rewrite app_nil_r. unfold sl. rewrite <- !app_assoc.
  do 4 f_equal. change [CR; LF] with [13; 10]. change crlf with [13; 10]. f_equal.
  replace (if hr_chunked h then str "Transfer-Encoding: chunked" ++ [13; 10]
           else if 0 <=? hr_cl h then str "Content-Length: " ++ decs (hr_cl h) ++ [13; 10] else [])
    with (crlf_lines (map fline (if hr_chunked h then [(str "Transfer-Encoding", str "chunked")]
           else if 0 <=? hr_cl h then [(str "Content-Length", decs (hr_cl h))] else []))).
  2:{ destruct (hr_chunked h); [reflexivity|]. destruct (0 <=? hr_cl h); [|reflexivity].
      unfold crlf_lines. cbn [map flat_map]. rewrite app_nil_r. unfold fline. cbn [fst snd].
      change (str "Content-Length: ") with (str "Content-Length" ++ [58; 32]). rewrite <- !app_assoc. reflexivity. }
  f_equal. f_equal. f_equal. destruct (existsb _ _); reflexivity.
Qed.

Lemma lit_line k v : negb (zlen k =? 0) && forallb name_b k && negb (zlen v =? 0) && forallb (fun c => (32 <=? c) && (c <=? 126)) v &&
  negb (hd 0 v =? 32) && negb (last v 0 =? 32) = true -> line_ok (k, v).
Proof.
  intros H. unfold line_ok, one_line. cbn [fst snd rfield_ok].
  repeat (apply andb_true_iff in H as [H ?]). split; [intros ->; discriminate|]. split.
  - apply Forall_forall. intros c Hc. rewrite forallb_forall in *. apply name_b_ok. auto.
  - split; [|constructor]. split; [intros ->; discriminate|]. split; [|split; lia].
    apply Forall_forall. intros c Hc. rewrite forallb_forall in *. match goal with K : forall x, In x v -> _ |- _ => specialize (K c Hc) end. lia.
Qed.
Lemma line_field_wf f : line_ok f -> field_wf f.
Proof.
  destruct f as [k v]. intros (_ & H2 & H3 & _). split; [apply name_plain, H2|]. split; [apply value_plain, H3|].
  eapply chars_notin; [exact H2|]. unfold name_c. lia.
Qed.
Lemma last_in {A} (l : list A) d : l <> [] -> In (last l d) l.
Proof. induction l as [|a [|b l] IH]; intros H; [congruence|left; reflexivity|]. right. apply IH. discriminate. Qed.
Lemma no_space_value v : v <> [] -> Forall (fun c => 33 <= c <= 126) v -> value_ok v.
Proof.
  intros H1 H2. split; [exact H1|]. split; [eapply Forall_impl; [|exact H2]; cbn; lia|]. rewrite Forall_forall in H2. split.
  - destruct v as [|c v]; [congruence|]. cbn. specialize (H2 c (or_introl eq_refl)). lia.
  - specialize (H2 _ (last_in v 0 H1)). lia.
Qed.
Lemma host_value h : h <> [] -> Forall host_c h -> value_ok h.
Proof. intros H1 H2. apply no_space_value; [exact H1|]. eapply Forall_impl; [|exact H2]. unfold host_c, alpha, digit_c. lia. Qed.
Lemma decs_line k n : k <> [] -> Forall name_c k -> 0 <= n -> line_ok (k, decs n).
Proof.
  intros Hk Hc Hn. split; [exact Hk|]. split; [exact Hc|]. split; [|constructor].
  pose proof (decs_ok n Hn) as D. apply no_space_value; [destruct D as [|[|]]; discriminate|].
  eapply Forall_impl; [|exact (dec_number_chars _ _ D)]. cbn. lia.
Qed.
Lemma fwd_ok host hs : value_ok host -> Forall line_ok hs -> Forall line_ok (fwd_fields host hs).
Proof.
  intros Hh Hs. unfold fwd_fields. constructor.
  - split; [discriminate|]. split; [|split; [exact Hh|constructor]]. apply Forall_forall. intros c Hc. apply name_b_ok.
    assert (K : forallb name_b (str "Host") = true) by reflexivity. rewrite forallb_forall in K. exact (K c Hc).
  - apply Forall_app. split; [rewrite Forall_forall in *; intros x Hx; apply filter_In in Hx as [Hx _]; auto|].
    constructor; [apply lit_line; reflexivity|]. constructor; [apply lit_line; reflexivity|constructor].
Qed.
(** The target of a request for a URL. *)
Definition target_of (path query : option (list Z)) : list Z := opt_or path [] ++ match query with Some q => 63 :: q | None => [] end.
Lemma target_wf schema host port p query : url_wf schema host port (Some p) query -> target_ok (target_of (Some p) query).
Proof.
  intros H. destruct (uw_path _ _ _ _ _ H) as (p' & -> & Hp). unfold target_of. cbn [opt_or]. split; [reflexivity|].
  apply Forall_app. split; [constructor; [lia|]; eapply Forall_impl; [|exact Hp]; unfold path_c; lia|].
  destruct query as [q|]; [|constructor]. destruct (uw_query _ _ _ _ _ H) as (_ & Hq). constructor; [lia|]. eapply Forall_impl; [|exact Hq]. unfold path_c. lia.
Qed.
Lemma request_with_host_full lib host port path query meth headers :
  url_lib_ok lib -> url_wf (str "http") host port path query -> meth <> [] ->
  first_value (str "Host") headers (host ++ match port with Some p => 58 :: p | None => [] end) ->
  exists r, request_of lib (target_of path query) meth headers = (Ok 0, r) /\
    rq_schema r = str "http" /\ rq_host r = host /\ rq_port r = match port with Some p => dec_value p 0 | None => 80 end /\
    rq_path r = opt_or path [] /\ rq_params r = opt_or query [] /\ rq_url r = target_of path query /\
    rq_method r = meth /\ rq_headers r = headers.
Proof.
  intros Hlib Hwf Hm Hh. destruct (request_with_host lib host port path query meth headers Hlib Hwf Hm Hh) as (r & E & A).
  exists r. split; [exact E|]. split; [|exact A].
  pose proof (proj1 (uw_host _ _ _ _ _ Hwf)) as W2.
  unfold request_of in E. rewrite (kv_find_first _ _ _ Hh) in E. cbn [opt_or] in E. destruct host as [|c host]; [congruence|].
  replace (match (c :: host) ++ match port with Some p => 58 :: p | None => [] end with
           | [] => str "http:/" ++ opt_or path [] ++ match query with Some q => 63 :: q | None => [] end
           | _ => str "http://" ++ ((c :: host) ++ match port with Some p => 58 :: p | None => [] end) ++ opt_or path [] ++ match query with Some q => 63 :: q | None => [] end end)
    with (url_text (str "http") (c :: host) port path query) in E.
  2:{ unfold url_text. cbn [app]. rewrite <- app_assoc. reflexivity. }
  destruct (parse_url_ok lib (mkrq [] meth [] 80 [] [] [] [] [] headers) (str "http") (c :: host) port path query Hlib Hwf eq_refl eq_refl eq_refl ltac:(discriminate)) as (pp & _ & Hp).
  rewrite Hp in E. injection E as <-. reflexivity.
Qed.

(** ** A request alone *)
Lemma alone_eq g e h h' n n' x : is_head h -> is_head h' -> zlen h <= MAX_HEADER -> zlen h' <= MAX_HEADER -> 0 < n -> 0 < n' ->
  hg_req g h = (n, x) -> hg_req g h' = (n', x) -> alone g e h = alone g e h'.
Proof.
  intros Hh Hh' Hm Hm' Hn Hn' E E'.
  assert (K : forall h, is_head h -> zlen h <= MAX_HEADER -> read_head (mktr [h] 0) MAX_HEADER = (Ok h, mktr [] 0)).
  { clear. intros h Hh Hm. assert (Hne0 : nonempty_chunks (t_chunks (mktr [h] 0))).
    { cbn [t_chunks]. constructor; [|constructor]. pose proof (head_len h (is_head_shape h Hh)). destruct h; [change (zlen (@nil Z)) with 0 in *; lia|discriminate]. }
    assert (Hst0 : t_stream (mktr [h] 0) = h ++ []) by (unfold t_stream; cbn; reflexivity).
    destruct (read_head_ok h [] (mktr [h] 0) MAX_HEADER (is_head_shape h Hh) Hne0 Hst0 Hm) as (t0 & R0 & A & B & C).
    rewrite R0. f_equal. destruct t0 as [ch er]. cbn in *. subst er. destruct B as [|c ch Hc _]; [reflexivity|].
    unfold t_stream in A. cbn in A. destruct c; [congruence|discriminate]. }
  unfold alone, http_turn, cst0. cbn [wchain]. unfold http_parse. cbn [cs_in cs_ctx cs_out cs_up cs_pub].
  rewrite (K h Hh Hm), (K h' Hh' Hm'), E, E'. destruct x as [[tg m] fs]. destruct (request_of (hg_url g) tg m fs) as [pr r].
  destruct (n <=? 0) eqn:E1; [lia|]. destruct (n' <=? 0) eqn:E2; [lia|]. reflexivity.
Qed.

(** ** Relayed responses *)
Lemma alone_fixed g e h r head parsed st hd body rest : request_in g h r -> proxied_to g e r (head ++ body ++ rest) ->
  is_head head -> zlen head <= MAX_HEADER -> hg_rsp g head = (parsed, rsp_of_lib st (zlen body) false hd) -> 0 < parsed ->
  0 < zlen body < 2 ^ 31 ->
  fst (alone g e h) = Some (Ok 0) /\ alone_out g e h = response_head (hg_reason g) (mkhr st false (zlen body) false hd) ++ body.
Proof.
  intros Hr Hx Hh Hm Hlib Hpa Hb. destruct Hx as (X1 & X2 & X3 & X4 & X5 & X6).
  destruct (proxy_start (hg_reason g) (hg_rsp g) (mkpq (rq_method r) (rq_url r) (rq_host r) (rq_headers r)) (he_upin e) (he_upout e) (mksk [] None 0) head parsed _ (body ++ rest) Hh Hm X5 X6 Hlib Hpa X4 eq_refl) as (up1 & U1 & U2 & Epx).
  unfold rsp_of_lib in Epx. cbn [ri_status ri_cl ri_chunked ri_headers] in Epx.
  assert (E32 : s32 (zlen body) = zlen body) by (unfold s32; rewrite Z.mod_small by lia; lia). rewrite E32 in Epx.
  set (h1 := mkhr st true (zlen body) false hd) in *. set (h0 := mkhr st false (zlen body) false hd) in *.
  destruct (relay_fixed (S (S (length (body ++ rest)))) (hg_reason g) (zlen body) (hb_new false (zlen body)) up1 h1
     (mksk ([] ++ response_head (hg_reason g) h0) None 0) body rest) as (up2 & s2 & ER & A & B); try reflexivity.
  { unfold fx_inv. cbn. repeat split; try lia; assumption. } { rewrite app_length. unfold zlen. lia. }
  cbn [sk_out sk_err] in Epx. rewrite ER in Epx. rewrite Z.eqb_refl in Epx.
  destruct (alone_proxy g e h r (head ++ body ++ rest) Hr) as (addr & port & Eal); [repeat split; assumption|].
  rewrite Epx in Eal. cbn beta iota in Eal. change (1 =? 1) with true in Eal. cbn iota in Eal. cbn [sk_out app] in B.
  unfold alone_out. rewrite Eal. split; [reflexivity|exact B].
Qed.
Lemma alone_chunks g e h r head parsed st len hd wire body rest : request_in g h r -> proxied_to g e r (head ++ wire) ->
  is_head head -> zlen head <= MAX_HEADER -> hg_rsp g head = (parsed, rsp_of_lib st len true hd) -> 0 < parsed ->
  chunked wire body rest ->
  fst (alone g e h) = Some (Ok 0) /\ exists out, alone_out g e h = response_head (hg_reason g) (mkhr st false (s32 len) true hd) ++ out /\ chunked out body [].
Proof.
  intros Hr Hx Hh Hm Hlib Hpa Hch. destruct Hx as (X1 & X2 & X3 & X4 & X5 & X6).
  destruct (proxy_start (hg_reason g) (hg_rsp g) (mkpq (rq_method r) (rq_url r) (rq_host r) (rq_headers r)) (he_upin e) (he_upout e) (mksk [] None 0) head parsed _ wire Hh Hm X5 X6 Hlib Hpa X4 eq_refl) as (up1 & U1 & U2 & Epx).
  unfold rsp_of_lib in Epx. cbn [ri_status ri_cl ri_chunked ri_headers] in Epx.
  set (h1 := mkhr st true (s32 len) true hd) in *. set (h0 := mkhr st false (s32 len) true hd) in *.
  destruct (relay_chunked (S (S (length wire))) (hg_reason g) (hb_new true (s32 len)) up1 h1
     (mksk ([] ++ response_head (hg_reason g) h0) None 0) body rest) as (up2 & s2 & out & ER & A & B & C); try reflexivity.
  { split; [reflexivity|]. split; [reflexivity|]. split; [exact U2|]. left. rewrite U1. auto. }
  { enough (zlen body <= zlen wire) by (unfold zlen in *; lia). clear -Hch. induction Hch; rewrite ?zlen_app in *.
    - change (zlen (@nil Z)) with 0. pose proof (zlen_nonneg sz). pose proof (zlen_nonneg rest). change (zlen [13; 10]) with 2. lia.
    - pose proof (zlen_nonneg sz). change (zlen [13; 10]) with 2. lia. }
  cbn [sk_out sk_err] in Epx. rewrite ER in Epx. rewrite Z.eqb_refl in Epx.
  destruct (alone_proxy g e h r (head ++ wire) Hr) as (addr & port & Eal); [repeat split; assumption|].
  rewrite Epx in Eal. cbn beta iota in Eal. change (1 =? 1) with true in Eal. cbn iota in Eal. cbn [sk_out app] in B.
  unfold alone_out. rewrite Eal. split; [reflexivity|]. exists out. split; [exact B|]. specialize (C []). rewrite app_nil_r in C. exact C.
Qed.

(** ** Hops *)
Lemma decs_three st : 100 <= st < 1000 -> zlen (decs st) = 3.
Proof.
  intros H. assert (K : forallb (fun n => zlen (decs (Z.of_nat n)) =? 3) (seq 100 900) = true) by (vm_compute; reflexivity).
  rewrite forallb_forall in K. specialize (K (Z.to_nat st)). rewrite Z2Nat.id in K by lia.
  apply Z.eqb_eq, K, in_seq. lia.
Qed.
Lemma three_max ds st : dec_number ds st -> zlen ds = 3 -> 0 <= st < 1000.
Proof.
  intros H. assert (K : 0 <= st < 10 ^ zlen ds).
  { induction H; [change (zlen [c]) with 1; lia|]. rewrite zlen_app. change (zlen [c]) with 1. pose proof (zlen_nonneg l).
    rewrite Z.pow_add_r by lia. lia. }
  intros E. rewrite E in K. lia.
Qed.
Lemma filter_sub {A} (p q : A -> bool) l : (forall a, p a = true -> q a = true) -> filter p (filter q l) = filter p l.
Proof.
  intros H. induction l as [|a l IH]; [reflexivity|]. cbn [filter]. destruct (q a) eqn:E; cbn [filter]; [rewrite IH; reflexivity|].
  destruct (p a) eqn:E2; [rewrite (H a E2) in E; discriminate|exact IH].
Qed.
Lemma filter_all {A} (q : A -> bool) l : (forall a, q a = true) -> filter q l = l.
Proof. intros H. induction l as [|a l IH]; [reflexivity|]. cbn [filter]. rewrite H, IH. reflexivity. Qed.
Lemma e2e_not_cl f : end_to_end f = true -> eqb_list (fst f) (str "Content-Length") = false.
Proof.
  intros H. destruct (eqb_list (fst f) (str "Content-Length")) eqn:E; [|reflexivity]. apply eqb_list_spec in E.
  unfold end_to_end in H. rewrite E in H. discriminate.
Qed.
Lemma server_e2e b : filter end_to_end (if b : bool then [] else [(str "Server", str "sps")]) = [].
Proof. destruct b; reflexivity. Qed.
Lemma server_line b : Forall line_ok (if b : bool then [] else [(str "Server", str "sps")]).
Proof. destruct b; [constructor|]. constructor; [apply lit_line; reflexivity|constructor]. Qed.
Lemma exact_values hd : Forall (fun f => same_name (fst f) (str "content-length") = true -> fst f = str "Content-Length") hd ->
  field_values (str "content-length") (filter (fun kv => negb (eqb_list (fst kv) (str "Content-Length") && true)) hd) = [].
Proof.
  unfold field_values. induction 1 as [|f hd Hf _ IH]; [reflexivity|]. cbn [filter].
  destruct (eqb_list (fst f) (str "Content-Length")) eqn:E; cbn [negb andb]; [exact IH|]. cbn [filter].
  destruct (same_name (fst f) (str "content-length")) eqn:E2; [|exact IH]. rewrite (Hf eq_refl) in E. rewrite (proj2 (eqb_list_spec _ _) eq_refl) in E. discriminate.
Qed.
Lemma te_none hd len : framed_as hd len false -> field_values (str "transfer-encoding") hd = [].
Proof. intros (_ & _ & H & _). destruct (field_values (str "transfer-encoding") hd); [reflexivity|]. destruct H as [_ H]. discriminate H. discriminate. Qed.
Lemma chunked_longer wire body rest : chunked wire body rest -> zlen body < zlen wire.
Proof.
  induction 1; rewrite ?zlen_app in *.
  - change (zlen (@nil Z)) with 0. pose proof (zlen_nonneg sz). pose proof (zlen_nonneg rest). change (zlen [13; 10]) with 2. lia.
  - pose proof (zlen_nonneg sz). change (zlen [13; 10]) with 2. lia.
Qed.
Lemma hop lib g e t r st fs body head wire : server_with g lib -> reads_responses lib -> request_in g t r ->
  100 <= st -> good_msg st fs body head wire -> (wire = body -> 0 < zlen body < 2 ^ 31) -> zlen head <= MAX_HEADER -> proxied_to g e r (head ++ wire) ->
  Forall (fun c => 32 <= c <= 126) (hg_reason g st) ->
  fst (alone g e t) = Some (Ok 0) /\ exists head' wire', alone_out g e t = head' ++ wire' /\ is_head head' /\ good_msg st fs body head' wire' /\ (wire' = body -> 0 < zlen body < 2 ^ 31).
Proof.
  intros (_ & S2 & _) Hrd Hr Hst Hg Hb Hm Hx Hre. destruct Hg as [ds reason hd Hd Hl Hrs Hok Hfs Hfr Hex|ds reason hd wire Hd Hl Hrs Hok Hfs Hfr Hch].
  - pose proof (three_max ds st Hd Hl) as H1000. specialize (Hb eq_refl).
    assert (Hfr' : framed_as (flat_map by_line (map one_line hd)) (Some (zlen body)) false) by (rewrite by_line_one; exact Hfr).
    destruct (Hrd ds st reason (map one_line hd) _ _ Hd Hl Hrs (rfields_one hd Hok) Hfr' Hm) as (L1 & L2 & L3 & L4 & L5).
    set (head := head_text (status_line ds reason) (map one_line hd)) in *.
    assert (Hp : hg_rsp g head = (zlen head, rsp_of_lib st (zlen body) false hd)).
    { rewrite S2. unfold parse_rsp_head. rewrite L1, L2, L3, L4, (after_response _ _ L5), by_line_one. reflexivity. }
    destruct (status_line_ok ds st reason Hd (print_plain _ Hrs)) as (A1 & A2).
    assert (Hh : is_head head) by (apply head_text_head; [exact A1|exact A2|apply rfields_one, Hok]).
    rewrite <- (app_nil_r body) in Hx at 1.
    destruct (alone_fixed g e t r head (zlen head) st hd body [] Hr Hx Hh Hm Hp) as (B1 & B2); [|exact Hb|].
    { pose proof (head_len head (is_head_shape head Hh)). lia. }
    split; [exact B1|]. exists (response_head (hg_reason g) (mkhr st false (zlen body) false hd)), body. split; [exact B2|].
    assert (Hrl : Forall line_ok (rsp_fields (mkhr st false (zlen body) false hd))).
    { unfold rsp_fields. cbn [hr_chunked hr_cl hr_headers]. destruct (0 <=? zlen body) eqn:E; [|lia].
      apply Forall_app. split; [|apply Forall_app; split; [|apply server_line]].
      - constructor; [|constructor]. apply decs_line; [discriminate| |lia]. apply Forall_forall. intros c Hc. apply name_b_ok.
        assert (K : forallb name_b (str "Content-Length") = true) by reflexivity. rewrite forallb_forall in K. exact (K c Hc).
      - rewrite Forall_forall in *. intros x Hx'. apply filter_In in Hx' as [Hx' _]. auto. }
    rewrite response_head_text. cbn [hr_status].
    split. { apply head_text_head; [discriminate| |apply rfields_one, Hrl]. apply (status_line_ok (decs st) st); [apply decs_ok; lia|apply print_plain, Hre]. }
    split; [|intros _; exact Hb]. apply gm_length; [apply decs_ok; lia|apply decs_three; lia|exact Hre|exact Hrl| | |].
    + unfold rsp_fields. cbn [hr_chunked hr_cl hr_headers]. destruct (0 <=? zlen body) eqn:E; [|lia]. rewrite !filter_app, server_e2e, app_nil_r.
      rewrite filter_sub; [exact Hfs|]. intros a Ha. rewrite (e2e_not_cl a Ha). reflexivity.
    + pose proof (te_none _ _ Hfr) as Ht. unfold framed_as. rewrite rsp_te. cbn [hr_chunked hr_headers app]. rewrite Ht.
      split; [|split; [constructor|split; [split; [discriminate|congruence]|intros [? _]; discriminate]]].
      exists (decs (zlen body)). split; [|split; [apply decs_ok; lia|lia]].
      unfold rsp_fields. cbn [hr_chunked hr_cl hr_headers negb andb]. destruct (0 <=? zlen body) eqn:E; [|lia].
      rewrite !field_values_app, (exact_values hd Hex), server_values by reflexivity. reflexivity.
    + unfold rsp_fields. cbn [hr_chunked hr_cl hr_headers]. destruct (0 <=? zlen body) eqn:E; [|lia].
      apply Forall_app. split; [constructor; [reflexivity|constructor]|]. apply Forall_app. split.
      * rewrite Forall_forall in *. intros x Hx'. apply filter_In in Hx' as [Hx' _]. auto.
      * destruct (existsb _ _); [constructor|]. constructor; [discriminate|constructor].
  - pose proof (three_max ds st Hd Hl) as H1000.
    assert (Hfr' : framed_as (flat_map by_line (map one_line hd)) None true) by (rewrite by_line_one; exact Hfr).
    destruct (Hrd ds st reason (map one_line hd) _ _ Hd Hl Hrs (rfields_one hd Hok) Hfr' Hm) as (L1 & L2 & L3 & L4 & L5).
    set (head := head_text (status_line ds reason) (map one_line hd)) in *.
    assert (Hp : hg_rsp g head = (zlen head, rsp_of_lib st (2 ^ 64 - 1) true hd)).
    { rewrite S2. unfold parse_rsp_head. rewrite L1, L2, L3, L4, (after_response _ _ L5), by_line_one. reflexivity. }
    destruct (status_line_ok ds st reason Hd (print_plain _ Hrs)) as (A1 & A2).
    assert (Hh : is_head head) by (apply head_text_head; [exact A1|exact A2|apply rfields_one, Hok]).
    destruct (alone_chunks g e t r head (zlen head) st (2 ^ 64 - 1) hd wire body [] Hr Hx Hh Hm Hp) as (B1 & out & B2 & B3); [|exact Hch|].
    { pose proof (head_len head (is_head_shape head Hh)). lia. }
    split; [exact B1|]. eexists _, out. split; [exact B2|].
    assert (Hrf : rsp_fields (mkhr st false (s32 (2 ^ 64 - 1)) true hd) =
      (str "Transfer-Encoding", str "chunked") :: hd ++ (if existsb (fun kv => eqb_list (fst kv) (str "Server")) hd then [] else [(str "Server", str "sps")])).
    { unfold rsp_fields. cbn [hr_chunked hr_cl hr_headers negb andb app]. rewrite filter_all; [reflexivity|]. intros a. rewrite andb_false_r. reflexivity. }
    assert (Hrl : Forall line_ok (rsp_fields (mkhr st false (s32 (2 ^ 64 - 1)) true hd))).
    { rewrite Hrf. constructor; [apply lit_line; reflexivity|]. apply Forall_app. split; [exact Hok|apply server_line]. }
    rewrite response_head_text. cbn [hr_status].
    split. { apply head_text_head; [discriminate| |apply rfields_one, Hrl]. apply (status_line_ok (decs st) st); [apply decs_ok; lia|apply print_plain, Hre]. }
    split; [|intros ->; apply chunked_longer in B3; lia]. apply gm_chunks; [apply decs_ok; lia|apply decs_three; lia|exact Hre|exact Hrl| | |exact B3].
    + rewrite Hrf. change (?a :: ?l) with ([a] ++ l). rewrite !filter_app, server_e2e, app_nil_r. exact Hfs.
    + destruct Hfr as (F1 & F2 & F3 & F4). unfold framed_as. rewrite rsp_te. cbn [hr_chunked hr_headers app]. split; [|split; [|split]].
      * rewrite Hrf. change (?a :: ?l) with ([a] ++ l). rewrite !field_values_app, F1, server_values by reflexivity. reflexivity.
      * constructor; [reflexivity|exact F2].
      * split; [discriminate|reflexivity].
      * intros [_ H]. apply H. reflexivity.
Qed.
Lemma head_prefix h1 w1 h2 w2 : is_head h1 -> is_head h2 -> h1 ++ w1 = h2 ++ w2 -> h1 = h2 /\ w1 = w2.
Proof.
  intros H1 H2 E.
  assert (Hne0 : nonempty_chunks (t_chunks (mktr [h1 ++ w1] 0))).
  { cbn [t_chunks]. constructor; [|constructor]. pose proof (head_len h1 (is_head_shape h1 H1)). destruct h1; [change (zlen (@nil Z)) with 0 in *; lia|discriminate]. }
  assert (L1 : zlen h1 <= zlen (h1 ++ w1)) by (rewrite zlen_app; pose proof (zlen_nonneg w1); lia).
  assert (L2 : zlen h2 <= zlen (h1 ++ w1)) by (rewrite E, zlen_app; pose proof (zlen_nonneg w2); lia).
  destruct (read_head_ok h1 w1 (mktr [h1 ++ w1] 0) _ (is_head_shape h1 H1) Hne0 (app_nil_r _) L1) as (t1 & A & _).
  destruct (read_head_ok h2 w2 (mktr [h1 ++ w1] 0) _ (is_head_shape h2 H2) Hne0 (eq_trans (app_nil_r _) E) L2) as (t2 & B & _).
  rewrite A in B. injection B as B _. subst h2. split; [reflexivity|]. apply app_inv_head in E. exact E.
Qed.
Lemma good_reads st fs body head wire m : 100 <= st -> good_msg st fs body head wire -> ~ bodyless m st -> answers [m] (head ++ wire) [(st, body)].
Proof.
  assert (K : forall ds st reason hd rest, dec_number ds st -> Forall (fun c => 32 <= c <= 126) reason -> Forall line_ok hd ->
    read_message (head_text (status_line ds reason) (map one_line hd) ++ rest) = Some (str "HTTP/1.1 " ++ ds ++ str " " ++ reason, hd, rest)).
  { clear. intros ds st reason hd rest Hd Hr Hok. unfold read_message. rewrite head_one, <- app_assoc.
    destruct (status_line_ok ds st reason Hd (print_plain _ Hr)) as (A1 & A2).
    assert (Hwf : Forall field_wf hd) by (eapply Forall_impl; [|exact Hok]; intros f; apply line_field_wf).
    assert (Hfuel : (length (status_line ds reason :: map fline hd) < S (length (crlf_lines (status_line ds reason :: map fline hd) ++ [13; 10]%Z ++ rest)))%nat).
    { clear. generalize (status_line ds reason :: map fline hd). intros ls. rewrite app_length.
      pose proof (lines_len ls) as Hl. rewrite lines_crlf in Hl. lia. }
    rewrite head_lines_ok; [|constructor; [auto|]|exact Hfuel].
    - rewrite fields_of_ok by assumption. reflexivity.
    - rewrite Forall_forall in *. intros l Hl. apply in_map_iff in Hl as (f & <- & Hin). apply fline_ok, Hwf, Hin. }
  intros Hst Hg Hb. destruct Hg as [ds reason hd Hd Hl Hrs Hok Hfs Hfr Hex|ds reason hd wire Hd Hl Hrs Hok Hfs Hfr Hch].
  - eapply an_cons; [apply (K ds st reason hd body Hd Hrs Hok)|exact Hd| |constructor].
    destruct Hfr as (F1 & F2 & F3 & F4). destruct F1 as (cl & E & D & _).
    rewrite <- (app_nil_r body) at 1. apply (fr_length _ _ _ body [] cl); [exact Hb| | | |exact D].
    + destruct (field_values (str "transfer-encoding") hd); [reflexivity|]. destruct F3 as [_ F3]. discriminate F3. discriminate.
    + rewrite E. discriminate.
    + rewrite E. constructor; [reflexivity|constructor].
  - eapply an_cons; [apply (K ds st reason hd wire Hd Hrs Hok)|exact Hd| |constructor].
    destruct Hfr as (F1 & F2 & F3 & F4).
    assert (Hlast : exists vs, field_values (str "transfer-encoding") hd = vs ++ [str "chunked"]).
    { destruct (field_values (str "transfer-encoding") hd) as [|v l] using rev_ind; [destruct (proj1 F3 eq_refl eq_refl)|].
      apply Forall_app in F2 as [_ Hv]. inversion_clear Hv as [|? ? E]. subst v. exists l. reflexivity. }
    destruct Hlast as (vs & Hvs). apply (fr_chunked _ _ _ _ body [] vs); assumption.
Qed.
