(** C251: what the server keeps of any reports of the HTTP library. *)
From Verif Require Import Base M_Text M_Conf M_Url M_IO M_Http M_HParse.

(** [v] is the last report of the kind [is]; none was made when it is []. *)
Definition last_report (is : hcall -> option (list Z)) (cs : list hcall) (v : list Z) : Prop :=
  (exists pre c post, cs = pre ++ c :: post /\ is c = Some v /\ Forall (fun d => is d = None) post) \/
  (Forall (fun d => is d = None) cs /\ v = []).
Definition as_url (c : hcall) : option (list Z) := match c with CbUrl x => Some x | _ => None end.
Definition as_name (c : hcall) : option (list Z) := match c with CbField x => Some x | _ => None end.
Definition as_value (c : hcall) : option (list Z) := match c with CbValue x => Some x | _ => None end.
Definition as_body (c : hcall) : option (list Z) := match c with CbBody x => Some x | _ => None end.
(** The fields: one for every value reported, in order, under the last name reported before it. *)
Inductive fields_of : list hcall -> list (list Z * list Z) -> Prop :=
| fo_none : fields_of [] []
| fo_value cs fs k v : fields_of cs fs -> last_report as_name cs k -> fields_of (cs ++ [CbValue v]) (fs ++ [(k, v)])
| fo_other cs fs c : fields_of cs fs -> as_value c = None -> fields_of (cs ++ [c]) fs.

Lemma last_snoc is cs v c : last_report is cs v -> is c = None -> last_report is (cs ++ [c]) v.
Proof.
  intros [(pre & d & post & -> & E & F)|[F ->]] N.
  - left. exists pre, d, (post ++ [c]). rewrite <- app_assoc. split; [reflexivity|]. split; [exact E|].
    apply Forall_app. split; [exact F|constructor; [exact N|constructor]].
  - right. split; [|reflexivity]. apply Forall_app. split; [exact F|constructor; [exact N|constructor]].
Qed.
Lemma last_new is cs v c : is c = Some v -> last_report is (cs ++ [c]) v.
Proof. intros E. left. exists cs, c, []. split; [reflexivity|]. split; [exact E|constructor]. Qed.

(** C251: whatever the library reports, in whatever order and pieces: the target is the last one reported,
    the body the last piece, and the fields are one for every value. *)
Theorem parser_keeps : forall r, let s := hp_after r in
  last_report as_url (rp_calls r) (hp_target s) /\ last_report as_body (rp_calls r) (hp_body s) /\
  fields_of (rp_calls r) (hp_headers s).
Proof.
  intros r s. subst s. unfold hp_after. generalize (rp_calls r). clear r. intros cs.
  enough (H : let s := fold_left hp_on cs hp_new in last_report as_url cs (hp_target s) /\ last_report as_body cs (hp_body s) /\
    fields_of cs (hp_headers s) /\ last_report as_name cs (hp_key s)) by (cbv zeta in *; tauto).
  induction cs as [|c cs IH] using rev_ind; cbv zeta in *.
  { cbn. repeat split; try (right; split; [constructor|reflexivity]). constructor. }
  destruct IH as (H1 & H2 & H3 & H4). rewrite fold_left_app. cbn [fold_left].
  destruct c as [x|x|x|x|]; cbn [hp_on hp_target hp_body hp_headers hp_key].
  - split; [apply last_new; reflexivity|]. split; [apply last_snoc; [exact H2|reflexivity]|]. split; [apply fo_other; [exact H3|reflexivity]|apply last_snoc; [exact H4|reflexivity]].
  - split; [apply last_snoc; [exact H1|reflexivity]|]. split; [apply last_snoc; [exact H2|reflexivity]|]. split; [apply fo_other; [exact H3|reflexivity]|apply last_new; reflexivity].
  - split; [apply last_snoc; [exact H1|reflexivity]|]. split; [apply last_snoc; [exact H2|reflexivity]|]. split; [apply fo_value; [exact H3|exact H4]|apply last_snoc; [exact H4|reflexivity]].
  - split; [apply last_snoc; [exact H1|reflexivity]|]. split; [apply last_new; reflexivity|]. split; [apply fo_other; [exact H3|reflexivity]|apply last_snoc; [exact H4|reflexivity]].
  - split; [apply last_snoc; [exact H1|reflexivity]|]. split; [apply last_snoc; [exact H2|reflexivity]|]. split; [apply fo_other; [exact H3|reflexivity]|apply last_snoc; [exact H4|reflexivity]].
Qed.
Print Assumptions parser_keeps.

(** C251: these say all there is to say: no two targets or lists of fields fit the same reports. *)
Theorem parser_keeps_unique : forall cs, 
  (forall is v w, last_report is cs v -> last_report is cs w -> v = w) /\
  (forall fs gs, fields_of cs fs -> fields_of cs gs -> fs = gs).
Proof.
  assert (U : forall is cs v w, last_report is cs v -> last_report is cs w -> v = w).
  { intros is cs. induction cs as [|c cs IH] using rev_ind; intros v w Hv Hw.
    - destruct Hv as [(pre & ? & ? & E & _)|[_ ->]]; [destruct pre; discriminate E|].
      destruct Hw as [(pre & ? & ? & E & _)|[_ ->]]; [destruct pre; discriminate E|reflexivity].
    - assert (S : forall x, last_report is (cs ++ [c]) x -> match is c with Some y => x = y | None => last_report is cs x end).
      { clear. intros x [(pre & d & post & E & Ed & F)|[F ->]].
        - destruct post as [|e post _] using rev_ind.
          + apply app_inj_tail in E as [_ ->]. rewrite Ed. reflexivity.
          + apply Forall_app in F as [F1 F2]. inversion F2; subst. rewrite app_comm_cons, app_assoc in E. apply app_inj_tail in E as [E ->].
            match goal with H : is e = None |- _ => rewrite H end. left. exists pre, d, post. repeat split; assumption.
        - apply Forall_app in F as [F1 F2]. inversion F2; subst.
          match goal with H : is c = None |- _ => rewrite H end. right. split; [exact F1|reflexivity]. }
      apply S in Hv. apply S in Hw. destruct (is c); [congruence|exact (IH v w Hv Hw)]. }
  intros cs. split; [intros is; apply U|]. induction cs as [|c cs IH] using rev_ind; intros fs gs Hf Hg.
  - inversion Hf as [|c1 ? ? ? ? ? E|c1 ? ? ? ? E]; [|destruct c1; discriminate E|destruct c1; discriminate E].
    inversion Hg as [|c2 ? ? ? ? ? E|c2 ? ? ? ? E]; [reflexivity|destruct c2; discriminate E|destruct c2; discriminate E].
  - inversion Hf as [E|c1 f1 k1 v1 F1 L1 E|c1 f1 d1 F1 N1 E]; [destruct cs; discriminate E| |];
      apply app_inj_tail in E as [-> <-];
      (inversion Hg as [E|c2 g2 k2 v2 G2 L2 E|c2 g2 d2 G2 N2 E]; [destruct cs; discriminate E| |]);
      apply app_inj_tail in E as [E1 E2]; subst.
    + injection E2 as <-. rewrite (IH _ _ F1 G2), (U _ _ _ _ L1 L2). reflexivity.
    + discriminate N2.
    + discriminate N1.
    + exact (IH _ _ F1 G2).
Qed.
Print Assumptions parser_keeps_unique.

(** Non-vacuity of C251: a target in two pieces (only the second stays), a value without a name, a name with two values. *)
Example parser_keeps_case :
  let s := hp_after (mkrep 9 [CbUrl [47]; CbValue [1]; CbOther; CbUrl [97]; CbField [2]; CbValue [3]; CbBody [8]; CbValue [4]; CbBody [9]] [] 0 0 false) in
  hp_target s = [97] /\ hp_headers s = [([], [1]); ([2], [3]); ([2], [4])] /\ hp_body s = [9].
Proof. repeat split. Qed.
