(** Lemmas about option storage. *)
From Verif Require Import Base M_Text M_Conf S_Conf L_Conf M_Clock M_Opt S_Opt.

(** ** Memory. *)
Lemma pokes_out cs : forall m o a, a < o \/ o + Z.of_nat (length cs) <= a -> pokes m o cs a = m a.
Proof.
  induction cs as [|c cs IH]; intros m o a H; [reflexivity|]. cbn [pokes length] in *. rewrite IH by lia.
  destruct (Z.eqb_spec a o); [lia|reflexivity].
Qed.
Lemma peeks_ext n : forall m m' o, (forall a, o <= a < o + Z.of_nat n -> m a = m' a) -> peeks m o n = peeks m' o n.
Proof. induction n as [|n IH]; intros m m' o H; [reflexivity|]. cbn [peeks]. f_equal; [apply H; lia|]. apply IH. intros a Ha. apply H. lia. Qed.
Lemma peeks_app m n1 : forall n2 o, peeks m o (n1 + n2) = peeks m o n1 ++ peeks m (o + Z.of_nat n1) n2.
Proof.
  induction n1 as [|n1 IH]; intros n2 o; [cbn; f_equal; lia|]. cbn [plus peeks app]. rewrite IH. do 2 f_equal. f_equal. lia.
Qed.
Lemma pokes_peeks cs : forall m o, peeks (pokes m o cs) o (length cs) = cs.
Proof.
  induction cs as [|c cs IH]; intros m o; [reflexivity|]. cbn [pokes peeks length]. f_equal; [|apply IH].
  rewrite pokes_out by lia. rewrite Z.eqb_refl. reflexivity.
Qed.
Lemma pokes_over m o cs n : (length cs <= n)%nat -> peeks (pokes m o cs) o n = cs ++ skipn (length cs) (peeks m o n).
Proof.
  intros H. replace n with (length cs + (n - length cs))%nat by lia. rewrite !peeks_app. rewrite pokes_peeks. f_equal.
  rewrite skipn_app. rewrite skipn_all2.
  - cbn [app]. replace (length cs - length (peeks m o (length cs)))%nat with 0%nat; [cbn|].
    + apply peeks_ext. intros a Ha. apply pokes_out. lia.
    + clear. enough (forall n o, length (peeks m o n) = n) as E by (rewrite E; lia). induction n; intros; cbn; [reflexivity|rewrite IHn; reflexivity].
  - enough (forall n o, length (peeks m o n) = n) as E by (rewrite E; lia). clear. induction n; intros; cbn; [reflexivity|rewrite IHn; reflexivity].
Qed.
Lemma cell_bytes_map l : cell_bytes (map CByte l) = Some l.
Proof. induction l as [|b l IH]; [reflexivity|]. cbn. rewrite IH. reflexivity. Qed.
Lemma lev_le n : forall v, 0 <= v < 256 ^ Z.of_nat n -> lev (le n v) = v.
Proof.
  induction n as [|n IH]; intros v H; [cbn in *; lia|]. cbn [le lev].
  rewrite Nat2Z.inj_succ, Z.pow_succ_r in H by lia. rewrite IH.
  - pose proof (Z.div_mod v 256). lia.
  - split; [apply Z.div_pos; lia|]. apply Z.div_lt_upper_bound; lia.
Qed.
Lemma le_length n : forall v, length (le n v) = n.
Proof. induction n as [|n IH]; intros v; [reflexivity|]. cbn. rewrite IH. reflexivity. Qed.

(** ** What a member's place looks like. *)
Definition txt (k : okind) (f : fty) (v : option (list Z)) : list cell :=
  match v, k, f with
  | None, _, FString => CStr [] :: repeat CRest 31
  | None, _, _ => repeat (CByte 0) (Z.to_nat (fsize f))
  | Some v, OInt, _ => map CByte (le 4 (u32 (match v with [] => 0 | _ => atoi v end)))
  | Some v, OInt64, _ => map CByte (le 8 (u64 (match v with [] => 0 | _ => atoll v end)))
  | Some v, OStr, _ => CStr (cstr v) :: repeat CRest 31
  | Some v, OBool, FInt => CByte (if eqb_list (take 2 v) (str "on") then 1 else 0) :: repeat (CByte 0) 3
  | Some v, OBool, _ => [CByte (if eqb_list (take 2 v) (str "on") then 1 else 0)]
  | Some _, OSub, _ => []
  end.
Definition fits (k : okind) (f : fty) : bool :=
  match k, f with OInt, FInt | OInt64, FTime | OStr, FString | OBool, FBool | OBool, FInt => true | _, _ => false end.
Lemma txt_write m k f o v w : fits k f = true -> (k = OBool -> w <> []) -> peeks m o (Z.to_nat (fsize f)) = txt k f v ->
  exists m1, opt_write m k o w = Ok m1 /\ peeks m1 o (Z.to_nat (fsize f)) = txt k f (Some w) /\
    (forall a, a < o \/ o + fsize f <= a -> m1 a = m a).
Proof.
  intros Hf Hb Hp. destruct k, f; try discriminate Hf; cbn [opt_write].
  - eexists. split; [reflexivity|]. split.
    + etransitivity; [apply pokes_over; rewrite map_length, le_length; cbn; lia|]. rewrite map_length, le_length, Hp.
      rewrite skipn_all2; [apply app_nil_r|]. destruct v; [cbn [txt]; rewrite map_length, le_length; lia|vm_compute; lia].
    + intros a Ha. apply pokes_out. rewrite map_length, le_length. cbn in *. lia.
  - eexists. split; [reflexivity|]. split.
    + etransitivity; [apply pokes_over; rewrite map_length, le_length; cbn; lia|]. rewrite map_length, le_length, Hp.
      rewrite skipn_all2; [apply app_nil_r|]. destruct v; [cbn [txt]; rewrite map_length, le_length; lia|vm_compute; lia].
    + intros a Ha. apply pokes_out. rewrite map_length, le_length. cbn in *. lia.
  - change (Z.to_nat (fsize FString)) with 32%nat in *. unfold string_at. rewrite Hp.
    assert (exists s, txt OStr FString v = CStr s :: repeat CRest 31) as (s & E) by (destruct v; eexists; reflexivity).
    rewrite E. change (forallb _ (repeat CRest 31)) with true. cbv iota. eexists. split; [reflexivity|]. split.
    + etransitivity; [apply pokes_over; cbn; lia|]. rewrite Hp, E. reflexivity.
    + intros a Ha. apply pokes_out. cbn in *. lia.
  - destruct w as [|c w]; [destruct (Hb eq_refl eq_refl)|]. eexists. split; [reflexivity|]. split.
    + change (Z.to_nat (fsize FInt)) with 4%nat in *. etransitivity; [apply pokes_over; cbn; lia|]. rewrite Hp. destruct v; reflexivity.
    + intros a Ha. apply pokes_out. cbn in *. lia.
  - destruct w as [|c w]; [destruct (Hb eq_refl eq_refl)|]. eexists. split; [reflexivity|]. split.
    + change (Z.to_nat (fsize FBool)) with 1%nat in *. etransitivity; [apply pokes_over; cbn; lia|]. rewrite Hp. destruct v; reflexivity.
    + intros a Ha. apply pokes_out. cbn in *. lia.
Qed.

(** ** Layout. *)
Definition apart (p q : list Z * fty * Z) : bool :=
  let '(n, f, o) := p in let '(n', f', o') := q in eqb_list n n' || (o + fsize f <=? o') || (o' + fsize f' <=? o).
Definition sound (ty : list Z) (os : list opt) : bool :=
  let ps := place 0 (struct_of ty) in
  forallb (fun p => forallb (apart p) ps) ps &&
  forallb (fun x : opt => let '(n, k, d) := x in
             match k with OSub => true | _ => match offset_in ps n with Some (f, _) => fits k f && negb (zlen d =? 0) || fits k f && negb (match k with OBool => true | _ => false end) | None => false end end) os.
Lemma tables_sound ty os : options_of ty = Some os -> sound ty os = true.
Proof.
  unfold options_of. intros H.
  repeat match type of H with
  | (if ?b then _ else _) = _ => let E := fresh "E" in destruct b eqn:E
  end; try discriminate H; injection H as <-;
  try (apply orb_prop in E0; destruct E0 as [E0|E0]);
  repeat match goal with E : eqb_list _ _ = true |- _ => apply eqb_list_spec in E; subst ty end; reflexivity.
Qed.
Lemma tables_once ty os : options_of ty = Some os -> Forall (fun x : opt => let '(n, k, d) := x in find_opt os n = Some (k, d)) os.
Proof.
  unfold options_of. intros H.
  repeat match type of H with
  | (if ?b then _ else _) = _ => let E := fresh "E" in destruct b eqn:E
  end; try discriminate H; injection H as <-; repeat constructor.
Qed.
Lemma tables_fresh ty os : options_of ty = Some os ->
  Forall (fun p => let '(_, f, o) := p in peeks (fresh ty) o (Z.to_nat (fsize f)) = txt OInt f None) (place 0 (struct_of ty)).
Proof.
  unfold options_of. intros H.
  repeat match type of H with
  | (if ?b then _ else _) = _ => let E := fresh "E" in destruct b eqn:E
  end; try discriminate H; injection H as <-;
  try (apply orb_prop in E0; destruct E0 as [E0|E0]);
  repeat match goal with E : eqb_list _ _ = true |- _ => apply eqb_list_spec in E; subst ty end;
  vm_compute; repeat (first [apply Forall_nil | apply Forall_cons; [reflexivity|]]).
Qed.
Lemma offset_in_in ps k f o : offset_in ps k = Some (f, o) -> In (k, f, o) ps.
Proof.
  induction ps as [|((n & f') & o') ps IH]; [discriminate|]. cbn [offset_in]. destruct (eqb_list k n) eqn:E.
  - intros [= -> ->]. apply eqb_list_spec in E. subst n. left. reflexivity.
  - intros H. right. exact (IH H).
Qed.
Lemma find_opt_in os n k d : find_opt os n = Some (k, d) -> In (n, k, d) os.
Proof.
  induction os as [|((n' & k') & d') os IH]; [discriminate|]. cbn [find_opt]. destruct (eqb_list n n') eqn:E.
  - intros [= -> ->]. apply eqb_list_spec in E. subst n'. left. reflexivity.
  - intros H. right. exact (IH H).
Qed.
Lemma option_placed ty os n k d : options_of ty = Some os -> find_opt os n = Some (k, d) -> k <> OSub ->
  exists f o, offset_of ty n = Some (f, o) /\ fits k f = true /\ (k = OBool -> d <> []).
Proof.
  intros Ho Hf Hk. pose proof (tables_sound ty os Ho) as Hs. unfold sound in Hs. apply andb_prop in Hs. destruct Hs as (_ & Hs).
  rewrite forallb_forall in Hs. specialize (Hs _ (find_opt_in _ _ _ _ Hf)). cbn beta iota in Hs. fold (offset_of ty n) in Hs.
  destruct k; try contradiction; destruct (offset_of ty n) as [(f & o)|]; try discriminate Hs; exists f, o;
    (split; [reflexivity|]); apply orb_prop in Hs; destruct Hs as [Hs|Hs]; apply andb_prop in Hs; destruct Hs as (Hs1 & Hs2);
    (split; [exact Hs1|]); intros E; try discriminate E; try discriminate Hs2; intros ->; discriminate Hs2.
Qed.
Lemma offsets_apart ty os n f o n' f' o' : options_of ty = Some os -> offset_of ty n = Some (f, o) -> offset_of ty n' = Some (f', o') -> n <> n' ->
  o + fsize f <= o' \/ o' + fsize f' <= o.
Proof.
  intros Ho H1 H2 Hn. pose proof (tables_sound ty os Ho) as Hs. unfold sound in Hs. apply andb_prop in Hs. destruct Hs as (Hs & _).
  rewrite forallb_forall in Hs. specialize (Hs _ (offset_in_in _ _ _ _ H1)). rewrite forallb_forall in Hs. specialize (Hs _ (offset_in_in _ _ _ _ H2)).
  unfold apart in Hs. rewrite (eqb_list_neq n n' Hn) in Hs. cbn [orb] in Hs. apply orb_prop in Hs. destruct Hs as [Hs|Hs]; apply Z.leb_le in Hs; lia.
Qed.

(** ** The whole context. *)
Definition inv (ty : list Z) (os : list opt) (st : list Z -> option (list Z)) (m : mem) : Prop :=
  forall n k d f o, find_opt os n = Some (k, d) -> k <> OSub -> offset_of ty n = Some (f, o) -> peeks m o (Z.to_nat (fsize f)) = txt k f (st n).
Definition upd (st : list Z -> option (list Z)) (n w : list Z) : list Z -> option (list Z) := fun x => if eqb_list x n then Some w else st x.
Lemma inv_write ty os st m n k d w : options_of ty = Some os -> inv ty os st m -> find_opt os n = Some (k, d) -> k <> OSub -> (k = OBool -> w <> []) ->
  exists f o m1, offset_of ty n = Some (f, o) /\ opt_write m k o w = Ok m1 /\ inv ty os (upd st n w) m1.
Proof.
  intros Ho Hi Hf Hk Hb. destruct (option_placed ty os n k d Ho Hf Hk) as (f & o & P1 & P2 & _).
  destruct (txt_write m k f o (st n) w P2 Hb (Hi n k d f o Hf Hk P1)) as (m1 & W1 & W2 & W3).
  exists f, o, m1. split; [exact P1|]. split; [exact W1|]. intros n' k' d' f' o' H1 H2 H3. unfold upd.
  destruct (eqb_list n' n) eqn:E.
  - apply eqb_list_spec in E. subst n'. rewrite Hf in H1. injection H1 as <- <-. rewrite P1 in H3. injection H3 as <- <-. exact W2.
  - assert (Hn : n' <> n) by (intros ->; rewrite eqb_list_refl in E; discriminate).
    rewrite <- (Hi n' k' d' f' o' H1 H2 H3). apply peeks_ext. intros a Ha. apply W3.
    assert (0 < fsize f') by (destruct f'; cbn; lia). rewrite Z2Nat.id in Ha by lia.
    destruct (offsets_apart ty os n' f' o' n f o Ho H3 P1 Hn); lia.
Qed.
Lemma inv_fresh ty os : options_of ty = Some os -> inv ty os (fun _ => None) (fresh ty).
Proof.
  intros Ho n k d f o H1 H2 H3. pose proof (tables_fresh ty os Ho) as F. rewrite Forall_forall in F.
  specialize (F _ (offset_in_in _ _ _ _ H3)). cbn beta iota in F. rewrite F. destruct f; reflexivity.
Qed.
Lemma inv_default ty os : options_of ty = Some os -> forall os' st m, Forall (fun x : opt => let '(n, k, d) := x in find_opt os n = Some (k, d)) os' ->
  inv ty os st m -> exists m1 st1, set_default ty os' m = Ok m1 /\ inv ty os st1 m1 /\
    (forall n k d, find_opt os n = Some (k, d) -> k <> OSub -> In (n, k, d) os' \/ st n = Some d -> st1 n = Some d).
Proof.
  intros Ho. induction os' as [|((n & k) & d) os' IH]; intros st m HF Hi.
  - exists m, st. split; [reflexivity|]. split; [exact Hi|]. intros n k d _ _ [[]|H]; exact H.
  - pose proof (Forall_inv HF) as Hn. cbn beta iota in Hn.
    destruct (match k with OSub => true | _ => false end) eqn:Ek.
    + destruct k; try discriminate Ek. cbn [set_default]. destruct (IH st m (Forall_inv_tail HF) Hi) as (m1 & st1 & A & B & C).
      exists m1, st1. split; [exact A|]. split; [exact B|]. intros n' k' d' H1 H2 [[H3|H3]|H3].
      * injection H3 as <- <- <-. contradiction.
      * apply (C n' k' d' H1 H2). left. exact H3.
      * apply (C n' k' d' H1 H2). right. exact H3.
    + assert (Hk : k <> OSub) by (intros ->; discriminate Ek).
      destruct (option_placed ty os n k d Ho Hn Hk) as (_ & _ & _ & _ & Hd).
      destruct (inv_write ty os st m n k d d Ho Hi Hn Hk Hd) as (f & o & m1 & W1 & W2 & W3).
      destruct (IH (upd st n d) m1 (Forall_inv_tail HF) W3) as (m2 & st2 & A & B & C). exists m2, st2. split; [|split; [exact B|]].
      * destruct k; try contradiction; cbn [set_default]; rewrite W1, W2; exact A.
      * intros n' k' d' H1 H2 H3. apply (C n' k' d' H1 H2). unfold upd. destruct (eqb_list n' n) eqn:E.
        { apply eqb_list_spec in E. subst n'. rewrite Hn in H1. injection H1 as <- <-. right. reflexivity. }
        { destruct H3 as [[H3|H3]|H3]; [|left; exact H3|right; exact H3]. injection H3 as <- _ _. rewrite eqb_list_refl in E. discriminate. }
Qed.
Definition sets_ok (os : list opt) (sets : list (list Z * list Z)) : Prop :=
  Forall (fun x => exists k d, find_opt os (fst x) = Some (k, d) /\ k <> OSub /\ (k = OBool -> snd x <> [])) sets.
Lemma inv_items ty os : options_of ty = Some os -> forall sets st m, sets_ok os sets -> inv ty os st m ->
  exists m1 st1, set_items ty os sets m = Ok m1 /\ inv ty os st1 m1 /\ (forall n d, st n = Some d -> st1 n = Some (last_set n sets d)).
Proof.
  intros Ho. induction sets as [|(n & v) sets IH]; intros st m HF Hi.
  - exists m, st. split; [reflexivity|]. split; [exact Hi|]. intros n d H. exact H.
  - destruct (Forall_inv HF) as (k & d & H1 & H2 & H3). cbn [fst snd] in *.
    destruct (inv_write ty os st m n k d v Ho Hi H1 H2 H3) as (f & o & m1 & W1 & W2 & W3).
    destruct (IH (upd st n v) m1 (Forall_inv_tail HF) W3) as (m2 & st2 & A & B & C). exists m2, st2. split; [|split; [exact B|]].
    + cbn [set_items]. rewrite H1, W1, W2. exact A.
    + intros n' d' Hd. cbn [last_set fst snd]. apply C. unfold upd. destruct (eqb_list n n') eqn:E.
      * apply eqb_list_spec in E. subst n'. rewrite eqb_list_refl. reflexivity.
      * destruct (eqb_list n' n) eqn:E2; [|exact Hd]. apply eqb_list_spec in E2. subst n'. rewrite eqb_list_refl in E. discriminate.
Qed.
Lemma s32_u32_atoi v : s32 (lev (le 4 (u32 (match v with [] => 0 | _ => atoi v end)))) = match v with [] => 0 | _ => atoi v end.
Proof.
  rewrite lev_le by (unfold u32; apply Z.mod_pos_bound; lia).
  assert (E : forall x, s32 (u32 (s32 x)) = s32 x).
  { intros x. unfold s32, u32. rewrite Zplus_mod_idemp_l. replace ((x + 2 ^ 31) mod 2 ^ 32 - 2 ^ 31 + 2 ^ 31) with ((x + 2 ^ 31) mod 2 ^ 32) by lia.
    rewrite Z.mod_mod by lia. reflexivity. }
  destruct v as [|c v]; [reflexivity|]. unfold atoi. destruct (sign_of _) as (ng & l1). apply E.
Qed.
Lemma context_ok c os : options_of (cm_type c) = Some os -> sets_ok os (cm_sets c) ->
  exists m, context c = Ok m /\
    (forall k kd d, find_opt os k = Some (kd, d) -> kd <> OSub -> exists v, member_of c m k = Some v /\ shown c k kd v).
Proof.
  intros Ho Hs. unfold context. rewrite Ho.
  destruct (inv_default _ _ Ho os _ _ (tables_once _ _ Ho) (inv_fresh _ _ Ho)) as (m1 & st1 & A1 & A2 & A3). rewrite A1.
  destruct (inv_items _ _ Ho (cm_sets c) st1 m1 Hs A2) as (m2 & st2 & B1 & B2 & B3). exists m2. split; [exact B1|].
  intros k kd d Hf Hk. destruct (option_placed _ _ _ _ _ Ho Hf Hk) as (f & o & P1 & P2 & _).
  pose proof (B2 k kd d f o Hf Hk P1) as Hp. rewrite (B3 k d) in Hp by (apply (A3 k kd d Hf Hk); left; apply find_opt_in; exact Hf).
  assert (Et : opt_text c k = last_set k (cm_sets c) d) by (unfold opt_text; rewrite Ho, Hf; reflexivity).
  rewrite <- Et in Hp. unfold member_of. rewrite P1. clear - Hp P2 Hk.
  destruct kd, f; try discriminate P2; cbn [get].
  - change (Z.to_nat (fsize FInt)) with 4%nat in Hp. rewrite Hp. unfold txt. rewrite cell_bytes_map. rewrite s32_u32_atoi. eexists. split; [reflexivity|].
    replace (match opt_text c k with [] => 0 | _ => atoi (opt_text c k) end) with (opt_int c k); [constructor|]. unfold opt_int. destruct (opt_text c k); reflexivity.
  - change (Z.to_nat (fsize FTime)) with 8%nat in Hp. rewrite Hp. unfold txt. rewrite cell_bytes_map. rewrite lev_le by (unfold u64; apply Z.mod_pos_bound; lia).
    eexists. split; [reflexivity|].
    replace (u64 (match opt_text c k with [] => 0 | _ => atoll (opt_text c k) end)) with (conf_limit c k); [constructor|]. unfold conf_limit. destruct (opt_text c k); reflexivity.
  - change (Z.to_nat (fsize FString)) with 32%nat in Hp. unfold string_at. rewrite Hp. unfold txt. change (forallb _ (repeat CRest 31)) with true. cbv iota.
    eexists. split; [reflexivity|]. constructor.
  - change (Z.to_nat (fsize FInt)) with 4%nat in Hp. rewrite Hp. unfold txt. fold (opt_bool c k). exists (VInt (if opt_bool c k then 1 else 0)). split; [destruct (opt_bool c k); reflexivity|]. apply sh_flag.
  - change (Z.to_nat (fsize FBool)) with 1%nat in Hp. cbn [peeks txt] in Hp. injection Hp as Hp. rewrite Hp. exists (VBool (opt_bool c k)).
    split; [|constructor]. unfold opt_bool. change (str "on") with [111; 110]. destruct (eqb_list (take 2 (opt_text c k)) [111; 110]); reflexivity.
Qed.

(** ** Every block of a file that is accepted. *)
Definition good (c : cmod) : Prop := exists os, options_of (cm_type c) = Some os /\ sets_ok os (cm_sets c).
Lemma conf_body_good fuel : forall ty name lines sets subs c rest os, conf_body fuel ty name lines sets subs = Ok (c, rest) ->
  options_of ty = Some os -> sets_ok os sets -> (forall s x, In s subs -> within_tree x s -> good x) -> forall x, within_tree x c -> good x.
Proof.
  induction fuel as [|f IH]; intros ty name lines sets subs c rest os H Ho Hs Hsub; [discriminate H|]. cbn [conf_body] in H.
  assert (Hend : forall x, within_tree x (CMod ty name sets subs) -> good x).
  { intros x Hx. inversion Hx as [|r s Hin Hw]; subst; [exists os; split; [exact Ho|exact Hs]|]. exact (Hsub s x Hin Hw). }
  destruct lines as [|l ls].
  - destruct (is_ty ty (str "root")); [|discriminate H]. injection H as <- _. exact Hend.
  - destruct (parse_line l) as [p| | |]; try discriminate H. cbn [bind] in H. destruct p as [|cn a|cn a|].
    + exact (IH _ _ _ _ _ _ _ _ H Ho Hs Hsub).
    + rewrite Ho in H. destruct (find_opt os cn) as [(k & d)|] eqn:Ef; [|exact (IH _ _ _ _ _ _ _ _ H Ho Hs Hsub)].
      destruct (match k with OSub => true | _ => false end) eqn:Ek; [destruct k; discriminate|].
      assert (H' : (let? _ := opt_check k a in conf_body f ty name ls (sets ++ [(cn, a)]) subs) = Ok (c, rest)) by (destruct k; try discriminate Ek; exact H).
      destruct (opt_check k a) eqn:Ec; try discriminate H'. cbn [bind] in H'.
      refine (IH _ _ _ _ _ _ _ _ H' Ho _ Hsub). apply Forall_app. split; [exact Hs|]. constructor; [|constructor]. exists k, d. cbn [fst snd].
      split; [exact Ef|]. split; [intros ->; discriminate Ek|]. intros -> ->. discriminate Ec.
    + destruct (is_ty cn (str "location")); [discriminate H|]. destruct (options_of cn) as [os'|] eqn:Ec; [|discriminate H].
      destruct (conf_body f cn a ls [] []) as [(c1 & r1)| | |] eqn:E1; try discriminate H. cbn [bind fst snd] in H.
      destruct (post_sub ty c1); try discriminate H. cbn [bind] in H.
      refine (IH _ _ _ _ _ _ _ _ H Ho Hs _). intros s x Hin Hw. apply in_app_or in Hin. destruct Hin as [Hin|[<-|[]]]; [exact (Hsub s x Hin Hw)|].
      refine (IH _ _ _ _ _ _ _ _ E1 Ec _ _ x Hw); [constructor|intros s0 x0 []].
    + destruct (is_ty ty (str "root")); [discriminate H|]. injection H as <- _. exact Hend.
Qed.
