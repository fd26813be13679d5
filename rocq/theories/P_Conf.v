(** Properties of the configuration file. *)
From Verif Require Import Base M_Text M_Conf S_Url L_Url S_Conf L_Conf.

(** A small configuration in the style of conf/sps.conf. *)
Definition sample_text : list Z := Eval compute in
  concat (map (fun l => l ++ [10]) [
    str "# the proxy"; str "upstream u1 {"; str "  server 127.0.0.1:8080 ;"; str "}"; str "";
    str "http {"; str "  server tcp80 { # plain"; str "    listen_port  8000; # port";
    str "    host a.com {"; str "      pass_proxy b.com:80;"; str "      enabled on ;"; str "    }"; str "  }"]) ++ str "}".
Definition sample_tree : cmod :=
  CMod (str "root") [] []
    [CMod (str "upstream") (str "u1") [(str "server", str "127.0.0.1:8080")] [];
     CMod (str "http") [] []
       [CMod (str "server") (str "tcp80") [(str "listen_port", str "8000")]
          [CMod (str "host") (str "a.com") [(str "pass_proxy", str "b.com:80"); (str "enabled", str "on")] []]]].

(** C32: a written configuration is read back exactly. *)
Theorem conf_roundtrip : forall es ls last,
  writes es (ls ++ match last with [] => [] | _ => [last] end) -> Forall (entry_ok (str "root")) es ->
  Forall (fun l => ~ In 10 l) ls -> ~ In 10 last ->
  load_conf (concat (map (fun l => l ++ [10]) ls) ++ last) = Ok (CMod (str "root") [] [] (flat_map block_of es)).
Proof.
  intros es ls last W Hok Hls Hlast. unfold load_conf.
  pose proof (lines_of_text ls last Hls Hlast) as El. change LF with 10 in El. rewrite El, init_conf_cb.
  assert (Hroot : options_of (str "root") <> None) by discriminate.
  pose proof (conf_writes es _ W (str "root") [] [] [] [] Hroot Hok) as E. rewrite app_nil_r in E. rewrite E. cbn [app].
  rewrite cb_nil. change (is_ty (str "root") (str "root")) with true. cbn [bind fst]. do 2 f_equal.
  unfold settings. clear. induction es as [|e es IH]; [reflexivity|]. cbn [flat_map]. rewrite IH, app_nil_r. destruct e as [n vs|]; reflexivity.
Qed.
Print Assumptions conf_roundtrip.
Example conf_roundtrip_nonvacuous : load_conf sample_text = Ok sample_tree.
Proof. vm_compute. reflexivity. Qed.
(** The hypotheses are met by a file with a comment, a nested block, a
    semicolon of its own and a last line without newline. *)
Definition sample_entries : list entry :=
  [EBlock (str "http") [] [EBlock (str "server") [str "tcp80"] [EItem (str "listen_port") [str "8000"]]]].
Definition sample_lines : list (list Z) :=
  [str "# the proxy"; str "http {"; str " server tcp80 { # plain"; str "  listen_port 8000;"; str "}"].
Example conf_written_nonvacuous : writes sample_entries (sample_lines ++ [str "}"]) /\
  Forall (entry_ok (str "root")) sample_entries.
Proof.
  assert (Hend : end_line (str "}")) by (exists []; split; [left; reflexivity|istok]).
  split.
  - unfold sample_lines, sample_entries. cbn [app]. apply wr_skip.
    { right. exists (str "#"), [str "the"; str "proxy"]. split; [istok|]. split; [exists []; reflexivity|]. split; [isunended|].
      constructor; [isunended|]. constructor; [isunended|constructor]. }
    apply (wr_block (str "http") [] _ (str "http {") [str " server tcp80 { # plain"; str "  listen_port 8000;"; str "}"] (str "}") [] []);
      [|  |exact Hend|constructor].
    { split; [isplain|]. split; [nohash|]. split; [constructor|]. exists []. split; [left; reflexivity|istok]. }
    apply (wr_block (str "server") [str "tcp80"] _ (str " server tcp80 { # plain") [str "  listen_port 8000;"] (str "}") [] []);
      [|  |exact Hend|constructor].
    { split; [isplain|]. split; [nohash|]. split; [constructor; [isplain|constructor]|]. exists [str "#"; str "plain"]. split; [right; exists (str "#"), [str "plain"]; split; [reflexivity|exists []; reflexivity]|istok]. }
    apply wr_item; [|constructor]. split; [isplain|]. split; [nohash|]. split; [constructor; [isplain|constructor]|].
    exists []. split; [left; reflexivity|]. right. exists [], (str "8000"). split; [reflexivity|istok].
  - constructor; [|constructor]. apply eo_block.
    + left; reflexivity.
    + split; [intros [E|[E|[E|[]]]]; discriminate E|]. split; [intros [E|[E|[]]]; discriminate E|intros E; discriminate E].
    + constructor; [|constructor]. apply eo_block.
      * do 3 right. left. reflexivity.
      * split; [intros _; reflexivity|]. split; [intros [E|[E|[]]]; discriminate E|intros E; discriminate E].
      * constructor; [|constructor]. apply eo_item; intros E; discriminate E.
Qed.

(** An option has the value of its last setting in the block. *)
Theorem conf_option_last : forall t ns a k vs b m,
  option_kind t k <> None -> (forall vs', ~ In (EItem k vs') b) ->
  block_of (EBlock t ns (a ++ EItem k vs :: b)) = [m] -> opt_text m k = spaced vs.
Proof.
  intros t ns a k vs b m Hk Hb H. cbn [block_of] in H. injection H as <-. unfold opt_text. cbn [cm_type cm_sets].
  unfold option_kind in Hk. destruct (options_of t) as [os|] eqn:Eo; [|contradiction].
  destruct (find_opt os k) as [[kd d]|] eqn:Ef; [|contradiction].
  rewrite settings_app, settings_cons, !last_set_app.
  rewrite (last_set_none k (settings t b)) by (apply settings_keys; exact Hb).
  unfold settings at 1. cbn [flat_map]. rewrite app_nil_r. unfold option_kind. rewrite Eo, Ef. cbn [last_set fst snd]. rewrite eqb_list_refl. reflexivity.
Qed.
Print Assumptions conf_option_last.
Example conf_option_last_nonvacuous :
  exists m, block_of (EBlock (str "server") [] [EItem (str "listen_port") [str "80"]; EItem (str "backlog") [str "5"];
     EItem (str "listen_port") [str "8080"]; EItem (str "transport") [str "srt"]]) = [m] /\ opt_int m (str "listen_port") = 8080.
Proof. eexists. split; reflexivity. Qed.
(** An option that is not set has its default. *)
Definition default_of (t k d : list Z) : Prop :=
  (t = str "server" /\ (k = str "listen_port" /\ d = str "80" \/ k = str "transport" /\ d = str "tcp" \/
     k = str "recv_timeout" /\ d = str "-1" \/ k = str "send_timeout" /\ d = str "-1" \/
     k = str "reuse_port" /\ d = str "off" \/ k = str "backlog" /\ d = str "1024")) \/
  (t = str "host" /\ (k = str "enabled" /\ d = str "on" \/ k = str "role" /\ d = str "edge" \/
     k = str "type" /\ d = str "proxy" \/ k = str "edge_avformat" /\ d = str "-" \/ k = str "pass_proxy" /\ d = [])).
Theorem conf_option_default : forall t ns body k d m,
  default_of t k d -> (forall vs, ~ In (EItem k vs) body) -> block_of (EBlock t ns body) = [m] -> opt_text m k = d.
Proof.
  intros t ns body k d m Hd Hb H. cbn [block_of] in H. injection H as <-. unfold opt_text. cbn [cm_type cm_sets].
  destruct Hd as [(-> & Hd)|(-> & Hd)]; cbn -[last_set settings].
  all: repeat (destruct Hd as [Hd|Hd]); destruct Hd as (-> & ->); cbn -[last_set settings];
    rewrite last_set_none by (apply settings_keys; exact Hb); reflexivity.
Qed.
Print Assumptions conf_option_default.
Example conf_option_default_nonvacuous : default_of (str "server") (str "listen_port") (str "80") /\
  exists m, block_of (EBlock (str "server") [] [EItem (str "backlog") [str "5"]]) = [m] /\ opt_int m (str "listen_port") = 80.
Proof. split; [left; split; [reflexivity|left; split; reflexivity]|]. eexists. split; reflexivity. Qed.
(** A number written in decimal is that number. *)
Theorem conf_option_number : forall m k ds, opt_text m k = ds -> ds <> [] -> Forall (fun c => 48 <= c <= 57) ds ->
  dec_value ds 0 < 2 ^ 31 -> opt_int m k = dec_value ds 0.
Proof.
  intros m k ds Hm Hne Hd Hlt. unfold opt_int. rewrite Hm. destruct ds as [|c ds]; [contradiction|]. exact (conf_number _ Hne Hd Hlt).
Qed.
Print Assumptions conf_option_number.
Example conf_option_number_nonvacuous : dec_value (str "1935") 0 = 1935 /\
  opt_int (CMod (str "server") [] [(str "listen_port", str "1935")] []) (str "listen_port") = 1935.
Proof. split; reflexivity. Qed.

(** C33: an accepted configuration is balanced. *)
Theorem conf_accepted_balanced : forall ls m,
  init_conf ls = Ok m -> Forall (fun l => ~ leads_with (str "root") l) ls -> balanced ls.
Proof.
  intros ls m H Hr. unfold init_conf in H.
  destruct (conf_body _ _ _ ls [] []) as [[m' r]| | |] eqn:E; cbn [bind] in H; try discriminate.
  destruct (conf_balanced _ _ _ _ _ _ _ _ E Hr) as (u & ds & -> & F & B). change (is_ty (str "root") (str "root")) with true in B. cbn iota in B.
  destruct B as (-> & B). rewrite app_nil_r. exists ds. split; [exact F|exact B].
Qed.
Print Assumptions conf_accepted_balanced.
Example conf_accepted_balanced_nonvacuous :
  init_conf (lines_of [] sample_text) = Ok sample_tree /\
  Forall (fun l => ~ leads_with (str "root") l) (lines_of [] sample_text).
Proof.
  split; [vm_compute; reflexivity|]. apply Forall_forall. intros l Hl (ws & Ht). apply tokens_words in Ht.
  assert (Hc : existsb (fun l => match words l with w :: _ => eqb_list w (str "root") | [] => false end) (lines_of [] sample_text) = true).
  { apply existsb_exists. exists l. split; [exact Hl|]. rewrite Ht. apply eqb_list_refl. }
  vm_compute in Hc. discriminate.
Qed.
Example conf_unclosed_refused : init_conf [str "http {"; str "server a {"; str "}"] = Err ERROR_CONFIG_PARSE_INVALID.
Proof. reflexivity. Qed.
Example conf_overclosed_refused : init_conf [str "http {"; str "}"; str "}"] = Err ERROR_CONFIG_PARSE_INVALID.
Proof. reflexivity. Qed.
(** Without the restriction it is false: an inner block of type root is closed
    by the end of the file and by nothing else. *)
Theorem conf_root_block_unbalanced : forall l ls m, start_line (str "root") [] l ->
  init_conf ls = Ok m -> init_conf (l :: ls) = Ok (CMod (str "root") [] [] [m]).
Proof.
  intros l ls m0 Hl H0. rewrite init_conf_cb in *.
  destruct (cb (str "root") [] ls [] []) as [[m rest]| | |] eqn:H; try discriminate. injection H0 as <-.
  destruct (conf_lines_parse _ _ _ _ _ _ _ _ H) as (_ & _ & _ & Hr). specialize (Hr eq_refl). subst rest.
  rewrite cb_cons, (parse_start _ _ _ Hl). cbn [bind spaced].
  change (is_ty (str "root") (str "location")) with false. change (options_of (str "root")) with (Some root_options). cbn iota.
  rewrite H. cbn [bind fst snd]. change (post_sub (str "root") m) with (Ok tt : res unit). cbn [bind]. rewrite cb_nil. reflexivity.
Qed.
Print Assumptions conf_root_block_unbalanced.
Example conf_root_block_nonvacuous : start_line (str "root") [] (str "root {") /\
  init_conf (str "root {" :: lines_of [] sample_text) = Ok (CMod (str "root") [] [] [sample_tree]).
Proof.
  split; [|vm_compute; reflexivity]. split; [isplain|]. split; [nohash|]. split; [constructor|]. exists []. split; [left; reflexivity|istok].
Qed.
Theorem conf_balanced_refuted : exists ls m, init_conf ls = Ok m /\ Forall2 line_delta ls [1].
Proof.
  exists [str "root x {"]. eexists. split; [reflexivity|]. constructor; [|constructor].
  apply (ld_end _ [str "root"; str "x"] (str "{") [] 123).
  - istok.
  - intros w1 ws1 E. injection E as <- _. nohash.
  - constructor; [isunended|]. constructor; [isunended|constructor].
  - exists []. reflexivity.
  - left. reflexivity.
  - right. left. split; reflexivity.
Qed.
Print Assumptions conf_balanced_refuted.

(** C67: whatever is loaded is nested as the block types prescribe, and every
    setting is an option of its block. *)
Theorem conf_loaded_shape : forall ls m, init_conf ls = Ok m -> shaped m.
Proof.
  intros ls m H. unfold init_conf in H.
  destruct (conf_body _ _ _ ls [] []) as [[m' r]| | |] eqn:E; cbn [bind fst] in H; try discriminate. injection H as <-.
  apply (conf_shaped _ _ _ _ _ _ _ _ E). constructor; constructor.
Qed.
Print Assumptions conf_loaded_shape.
Example conf_loaded_shape_nonvacuous : load_conf sample_text = Ok sample_tree /\ length (cm_subs sample_tree) = 2%nat.
Proof. split; vm_compute; reflexivity. Qed.
Example conf_misplaced_refused : init_conf [str "http {"; str "host a {"; str "}"; str "}"] = Err CONF_EXIT /\
  init_conf [str "http {"; str "server s {"; str "host {"; str "}"; str "}"; str "}"] = Err CONF_EXIT.
Proof. split; vm_compute; reflexivity. Qed.

(** C68: comments, empty lines and directives no block knows say nothing. *)
Theorem conf_idle_line : forall a l b,
  skip_line l \/ (exists n vs, item_line n vs l /\ forall t, option_kind t n = None) ->
  init_conf (a ++ l :: b) = init_conf (a ++ b).
Proof.
  intros a l b H. symmetry. apply init_thinner, thinner_mid. destruct H as [H|(n & vs & H & Hno)].
  - left. apply parse_skip, H.
  - right. exists n, (spaced vs). split; [apply parse_item, H|]. intros t os Eo. specialize (Hno t).
    unfold option_kind in Hno. rewrite Eo in Hno. destruct (find_opt os n) as [[k d]|]; [discriminate|reflexivity].
Qed.
Print Assumptions conf_idle_line.
Example conf_idle_nonvacuous :
  (exists n vs, item_line n vs (str "listenport 8080;") /\ forall t, option_kind t n = None) /\
  init_conf [str "http {"; str "server a {"; str "listenport 8080;"; str "}"; str "}"] =
  init_conf [str "http {"; str "server a {"; str "}"; str "}"].
Proof.
  split; [|vm_compute; reflexivity]. exists (str "listenport"), [str "8080"]. split.
  - split; [isplain|]. split; [nohash|]. split; [constructor; [isplain|constructor]|].
    exists []. split; [left; reflexivity|]. right. exists [], (str "8080"). split; [reflexivity|istok].
  - intros t. unfold option_kind, options_of.
    repeat match goal with |- context [if ?b then _ else _] => destruct b; [vm_compute; reflexivity|] end. reflexivity.
Qed.

(** C69: a comment in which a word ending in ; { or } is followed by another
    word makes the whole file invalid. *)
Theorem conf_comment_refused : forall a l b w1 ws w c v tail,
  tokens l (w1 :: ws ++ w :: v :: tail) -> hash w1 -> Forall unended (w1 :: ws) ->
  ends_in w c -> In c [59; 123; 125] -> ~ hash v ->
  forall m, init_conf (a ++ l :: b) <> Ok m.
Proof.
  intros a l b w1 ws w c v tail Ht Hh Hu Hc Hin Hv m H.
  apply init_lines_parse in H. apply Forall_app in H. destruct H as (_ & H). apply Forall_inv in H. destruct H as (x & H).
  destruct (ends_flag w c Hc Hin) as (k & Hk).
  unfold parse_line in H. rewrite (tokens_words _ _ Ht) in H. change (w1 :: ws ++ w :: v :: tail) with ((w1 :: ws) ++ w :: v :: tail) in H.
  rewrite (scan_two_ends (w1 :: ws) w v tail k Hu Hk Hv) in H. discriminate.
Qed.
Print Assumptions conf_comment_refused.
Example conf_comment_refused_nonvacuous :
  tokens (str "# listen_port 80; the default") (str "#" :: [str "listen_port"] ++ str "80;" :: str "the" :: [str "default"]) /\
  init_conf [str "# listen_port 80; the default"] = Err ERROR_CONFIG_PARSE_INVALID.
Proof. split; [istok|reflexivity]. Qed.

(** C70: a block name written without a blank before the brace is dropped:
    the block is read as if the name's last word were not there. *)
Theorem conf_glued_brace : forall a b t ns v l l' tail tail',
  plain t -> ~ hash t -> Forall plain ns -> v <> [] -> tail_ok tail -> tail_ok tail' ->
  tokens l (t :: ns ++ (v ++ [123]) :: tail) -> tokens l' (t :: ns ++ [123] :: tail') ->
  init_conf (a ++ l :: b) = init_conf (a ++ l' :: b).
Proof.
  intros a b t ns v l l' tail tail' Hp Hh Hns Hv Ht Ht' Hl Hl'. apply init_same, same_parse_mid.
  rewrite (parse_start t ns l') by (split; [exact Hp|]; split; [exact Hh|]; split; [exact Hns|]; exists tail'; split; assumption).
  rewrite (parse_args t (ns ++ [v ++ [123]]) KStart l (ns ++ (v ++ [123]) :: tail)).
  - cbn zeta. rewrite removelast_last, (fold_arg_spaced ns (plain_ne ns Hns)). reflexivity.
  - apply tokens_words. exact Hl.
  - change (t :: ns ++ [v ++ [123]]) with ((t :: ns) ++ [v ++ [123]]).
    change (t :: ns ++ (v ++ [123]) :: tail) with ((t :: ns) ++ (v ++ [123]) :: tail).
    apply scan_ended; [|rewrite end_flag_app; reflexivity|exact Ht]. apply plain_unended. constructor; assumption.
  - exact Hh.
  - apply Hp.
  - apply snoc_ne.
Qed.
Print Assumptions conf_glued_brace.
Example conf_glued_brace_nonvacuous :
  init_conf [str "upstream u1{"; str "}"] = Ok (CMod (str "root") [] [] [CMod (str "upstream") [] [] []]) /\
  init_conf [str "upstream u1 {"; str "}"] = Ok (CMod (str "root") [] [] [CMod (str "upstream") (str "u1") [] []]).
Proof. split; vm_compute; reflexivity. Qed.

(** C71: a directive that ends in } instead of ; closes the block and is
    itself lost. *)
Theorem conf_directive_closing : forall a b n vs w l l' tail,
  plain n -> ~ hash n -> Forall plain vs -> ends_in w 125 -> tail_ok tail ->
  tokens l (n :: vs ++ w :: tail) -> end_line l' ->
  init_conf (a ++ l :: b) = init_conf (a ++ l' :: b).
Proof.
  intros a b n vs w l l' tail Hp Hh Hvs (w' & ->) Ht Hl Hl'. apply init_same, same_parse_mid.
  rewrite (parse_end l' Hl').
  rewrite (parse_args n (vs ++ [w' ++ [125]]) KEnd l (vs ++ (w' ++ [125]) :: tail)); [reflexivity| | | | |].
  - apply tokens_words. exact Hl.
  - change (n :: vs ++ [w' ++ [125]]) with ((n :: vs) ++ [w' ++ [125]]).
    change (n :: vs ++ (w' ++ [125]) :: tail) with ((n :: vs) ++ (w' ++ [125]) :: tail).
    apply scan_ended; [|rewrite end_flag_app; reflexivity|exact Ht]. apply plain_unended. constructor; assumption.
  - exact Hh.
  - apply Hp.
  - apply snoc_ne.
Qed.
Print Assumptions conf_directive_closing.
Example conf_directive_closing_nonvacuous :
  init_conf [str "upstream u1 {"; str "server 127.0.0.1:80 }"] = Ok (CMod (str "root") [] [] [CMod (str "upstream") (str "u1") [] []]).
Proof. reflexivity. Qed.

(** C72: a location block makes the reader run past its option table. *)
Theorem conf_location_overrun : forall l ns rest, start_line (str "location") ns l -> init_conf (l :: rest) = UB.
Proof.
  intros l ns rest Hl. rewrite init_conf_cb, cb_cons, (parse_start _ _ _ Hl). reflexivity.
Qed.
Print Assumptions conf_location_overrun.
Example conf_location_nonvacuous : start_line (str "location") [str "/"] (str "location / {").
Proof.
  split; [isplain|]. split; [nohash|]. split; [constructor; [isplain|constructor]|]. exists []. split; [left; reflexivity|istok].
Qed.
(** Reading always ends. *)
Theorem conf_terminates : forall ls, init_conf ls <> Fuel.
Proof.
  intros ls H. rewrite init_conf_cb in H. pose proof (cb_not_fuel (S (length ls)) ls (Nat.lt_succ_diag_r _) (str "root") [] [] []) as Hf.
  destruct (cb (str "root") [] ls [] []); cbn [bind] in H; try discriminate. contradiction.
Qed.
Print Assumptions conf_terminates.

(** C67, in terms of the manual.  In a block of type [t] a directive with the name
    [n] counts exactly if the manual has such a setting: then its last value is
    the one in force, and if there is none the manual's default is.  Every other
    directive, unless it has the name of an inner block, changes nothing. *)
Theorem conf_manual : forall t ns n a vs b m m0,
  block_of (EBlock t ns (a ++ EItem n vs :: b)) = [m] -> block_of (EBlock t ns (a ++ b)) = [m0] ->
  (forall k d, setting t n k d ->
     ((forall vs', ~ In (EItem n vs') b) -> opt_text m n = spaced vs) /\
     ((forall vs', ~ In (EItem n vs') (a ++ b)) -> opt_text m0 n = d)) /\
  ((forall k d, ~ setting t n k d) -> (forall t' n', In (t', n') block_names -> t <> str t' \/ n <> str n') -> m = m0).
Proof.
  intros t ns n a vs b m m0 Hm Hm0. split.
  - intros k d Hs. assert (O : exists o os, options_of t = Some os /\ find_opt os n = Some (o, d)).
    { destruct Hs as (t' & n' & d' & Hin & -> & -> & ->). cbn [In manual] in Hin.
      repeat (destruct Hin as [Hin|Hin]; [injection Hin as <- <- <- <-; do 2 eexists; split; reflexivity|]). destruct Hin. }
    destruct O as (o & os & Ho & Hf). split; intros Hb.
    + apply (conf_option_last t ns a n vs b m); [unfold option_kind; rewrite Ho, Hf; discriminate|exact Hb|exact Hm].
    + cbn [block_of] in Hm0. injection Hm0 as <-. unfold opt_text. cbn [cm_type cm_sets].
      rewrite Ho, Hf. rewrite last_set_none by (apply settings_keys; exact Hb). reflexivity.
  - intros Hn Hi. cbn [block_of] in Hm, Hm0. injection Hm as <-. injection Hm0 as <-.
    assert (O : option_kind t n = None).
    { unfold option_kind. destruct (options_of t) as [os|] eqn:Eo; [|reflexivity]. destruct (find_opt os n) as [[k d]|] eqn:Ef; [|reflexivity]. exfalso.
      assert (Hin : In (n, k, d) os).
      { clear -Ef. induction os as [|[[n1 k1] d1] os IH]; cbn [find_opt] in Ef; [discriminate|].
        destruct (eqb_list n n1) eqn:E; [apply eqb_list_spec in E; left; congruence|right; auto]. }
      assert (ST : forall t' n' k' d', In (t', n', k', d') manual -> t = str t' -> n = str n' -> False).
      { intros t' n' k' d' H1 H2 H3. apply (Hn k' (str d')). exists t', n', d'. auto. }
      assert (SB : forall t' n', In (t', n') block_names -> t = str t' -> n = str n' -> False).
      { intros t' n' H1 H2 H3. destruct (Hi t' n' H1); contradiction. }
      unfold options_of in Eo.
      repeat match type of Eo with (if ?x then _ else _) = _ => destruct x eqn:?E; [injection Eo as <-|] end; [..|discriminate Eo].
      2: match goal with H : _ || _ = true |- _ => apply orb_prop in H; destruct H as [H|H] end.
      all: match goal with H : eqb_list _ _ = true |- _ => apply eqb_list_spec in H; rename H into Ht end.
      all: cbn [In root_options http_options srt_options server_options host_options globalhost_options stream_options upstream_options] in Hin.
      all: repeat (destruct Hin as [Hin|Hin]; [apply (f_equal (fun x => fst (fst x))) in Hin; cbn [fst] in Hin; symmetry in Hin;
        first [eapply ST; [|exact Ht|exact Hin]; cbn [In manual]; solve [repeat (first [left; reflexivity|right])] | eapply SB; [|exact Ht|exact Hin]; cbn [In block_names]; solve [repeat (first [left; reflexivity|right])]]|]); destruct Hin. }
    f_equal.
    + rewrite !settings_app, settings_cons. unfold settings at 2. cbn [flat_map]. rewrite O. reflexivity.
    + rewrite !flat_map_app. reflexivity.
Qed.
Print Assumptions conf_manual.
Example conf_manual_nonvacuous :
  setting (str "http") (str "access_log") Text (str "access.log") /\
  (exists m, block_of (EBlock (str "http") [] [EItem (str "access_log") [str "a.log"]]) = [m] /\ opt_text m (str "access_log") = str "a.log") /\
  (forall k d, ~ setting (str "host") (str "avformat") k d).
Proof.
  split; [exists "http"%string, "access_log"%string, "access.log"%string; cbn [In manual]; tauto|].
  split; [eexists; split; reflexivity|].
  intros k d (t' & n' & d' & Hin & H1 & H2 & _). cbn [In manual] in Hin.
  repeat (destruct Hin as [Hin|Hin]; [injection Hin as <- <- <- <-; solve [discriminate H1|discriminate H2]|]). destruct Hin.
Qed.
