(** C173-C175: coroutines, the objects they run on, the ids in the log. *)
From Verif Require Import Base M_Co S_Co L_Co.

(** C173: in every order of connections being accepted, coroutines beginning,
    logging and ending, nothing is used after it is gone, and each accepted
    connection is served once, then closed once; its objects last exactly as long. *)
Theorem accepted_served_once : forall os, env_ok os -> begins os <= 2147483647 -> exists s, crun c0 os = Ok s /\
  forall h, is_conn h os = true ->
    marks h (k_seen s) = match life_of h os with LNone | LWait _ => [] | LServe _ => [BServe h] | LOver => [BClose h; BServe h] | LFail => [BClose h] end /\
    (alive s h = true <-> exists t, life_of h os = LWait t \/ life_of h os = LServe t).
Proof.
  intros os E B. destruct (kgood_run os [] c0 kgood0 E B) as (s & R & (K & _)). cbn [app] in K. exists s. split; [exact R|]. intros h C.
  split; [exact (k_marks _ _ K h (or_introl C))|]. rewrite alive_ref. pose proof (k_ref _ _ K h) as Q. rewrite C in Q. destruct Q as (Q1 & Q2 & Q3 & Q4 & _). cbn [andb] in Q2. split.
  - intros (w & Hw). destruct w as [| |u|]; [congruence| | |rewrite Q4 in Hw by reflexivity; discriminate].
    + rewrite Q2 in Hw. destruct (life_of h os); try discriminate; eauto.
    + rewrite Q3 in Hw. destruct (life_of h os); try discriminate; eauto.
  - intros (t & [H|H]); exists HSet; rewrite Q2, H; reflexivity.
Qed.
Print Assumptions accepted_served_once.

(** Two connections at once, a listener's coroutine, one accept that fails. *)
Definition day : list cop := [KOther 0 0 true; KBegin 0; KAccept 1 1 true; KAccept 2 2 true; KBegin 2; KBegin 1; KLog 1; KLog 2; KFinish 1; KAccept 1 3 true; KLog 0; KBegin 1; KLog 1; KAccept 9 4 false; KFinish 2].
Example day_env : env_ok day.
Proof.
  repeat match goal with
  | |- env_ok day => unfold env_ok, day
  | |- env_from _ (_ :: _) => cbn [env_from app]; split
  | |- env_from _ [] => exact I
  | |- env1 _ (KBegin _) => exact I
  | |- env1 _ (KLog _) => exact I
  | |- env1 _ (KFinish _) => exact I
  | |- env1 _ _ /\ _ => split
  | |- True => exact I
  | |- env1 _ _ => split; [vm_compute; reflexivity|]; intros g; do 5 (destruct g as [|g]; [vm_compute; split; discriminate|]); vm_compute; split; discriminate
  end.
Qed.
Example day_seen : exists s, crun c0 day = Ok s /\
  k_seen s = [BClose 2; BClose 4; BLog 3 3; BServe 3; BLog 0 0; BClose 1; BLog 2 1; BLog 1 2; BServe 1; BServe 2; BServe 0] /\
  is_conn 1 day = true /\ life_of 1 day = LOver /\ life_of 3 day = LServe 1 /\ life_of 4 day = LFail /\ alive s 3 = true /\ alive s 1 = false /\ begins day = 4.
Proof. eexists. split; [vm_compute; reflexivity|]. repeat split. Qed.

(** C174: the id in the log tells connections apart: two lines carry one id exactly
    when they come from one connection, although threads are used again; and a
    line that a served connection logs carries such an id, never -1. *)
Theorem log_ids_tell_apart : forall os s, env_ok os -> begins os <= 2147483647 -> crun c0 os = Ok s ->
  (forall h i h' i', In (BLog h i) (k_seen s) -> In (BLog h' i') (k_seen s) -> (i = i' <-> h = h') /\ 0 <= i) /\
  (forall h t, life_of h os = LServe t -> exists s' i, cstep s (KLog t) = Ok s' /\ k_seen s' = BLog h i :: k_seen s /\ 0 <= i).
Proof.
  intros os s E B R. destruct (kgood_run os [] c0 kgood0 E B) as (s1 & R1 & (K & (f & I) & _)). cbn [app] in *. assert (s1 = s) by congruence. subst s1. clear R1. split.
  - intros h i h' i' H H'. pose proof (i_log _ _ _ I _ _ H) as F. pose proof (i_log _ _ _ I _ _ H') as F'. split; [split|].
    + intros ->. exact (i_inj _ _ _ I _ _ _ F F').
    + intros ->. congruence.
    + apply (i_range _ _ _ I) in F. lia.
  - intros h t L. pose proof (k_serve _ _ K _ _ L) as T. cbn [cstep]. unfold co_log. rewrite T. eexists. eexists. split; [reflexivity|]. split; [reflexivity|].
    pose proof (i_range _ _ _ I _ _ (i_run _ _ _ I _ _ _ T)). lia.
Qed.
Print Assumptions log_ids_tell_apart.
(** Thread 1 serves connection 1, then connection 3: ids 2 and 3. *)
Example day_ids : exists s, crun c0 day = Ok s /\ In (BLog 1 2) (k_seen s) /\ In (BLog 3 3) (k_seen s) /\ life_of 3 day = LServe 1.
Proof. eexists. split; [vm_compute; reflexivity|]. cbn [k_seen]. repeat split; cbn [In]; tauto. Qed.

(** C175: what main_co's test of its weak pointer is there for does not work: a
    handler let go before its coroutine begins takes the STCo with it. *)
Theorem forgotten_handler_not_run_refuted : exists os, lax_from [] os /\ begins os = 1 /\ crun c0 os = UB.
Proof.
  exists [KOther 0 0 true; KForget 0; KBegin 0]. split; [|split; reflexivity]. cbn [lax_from]. split; [|split; [exact I|split; exact I]].
  split; [reflexivity|]. intros g. split; discriminate.
Qed.
Print Assumptions forgotten_handler_not_run_refuted.
(** C175: so in every history: whatever else happens before its coroutine begins, the
    program is undefined by then. *)
Theorem forgotten_handler_undefined : forall pre t h post,
  env_ok (pre ++ [KOther t h true]) -> begins pre <= 2147483647 -> Forall (elsewhere t h) post -> In (KBegin t) post ->
  crun c0 (pre ++ KOther t h true :: KForget h :: post) = UB.
Proof.
  intros pre t h post He Hb HF Hin. pose proof (env_split pre [] _ [] He) as (He1 & He2 & _). cbn [app] in He2.
  destruct (kgood_run pre [] c0 kgood0 He1 Hb) as (s & Es & G). cbn [app] in G. rewrite crun_app, Es. cbn [bind crun].
  destruct G as (G & _). destruct (kother pre s t h true G He2) as (s1 & E1 & K & _). rewrite E1. cbn [bind cstep].
  apply lost_run with (t := t) (h := h); [|exact HF|exact Hin].
  assert (L : life_of h (pre ++ [KOther t h true]) = LWait t) by (rewrite life_snoc; cbn [life_step]; rewrite Nat.eqb_refl; reflexivity).
  assert (C : is_conn h (pre ++ [KOther t h true]) = false) by (rewrite conn_snoc, (life_fresh_conn h pre (proj1 He2)); reflexivity).
  destruct (k_wait _ _ K h t L) as (_ & Ht). destruct (let_rest s1 HOther h) as (_ & X2 & _ & _). eexists. rewrite X2. split; [exact Ht|]. left.
  pose proof (k_ref _ _ K h) as R. rewrite L, C in R. destruct R as (R1 & R2 & R3 & _). cbn [andb] in R2.
  apply dead_ref. intros w. rewrite let_ref. destruct w as [| |u|]; cbn [who_eqb andb negb]; rewrite ?R1, ?R2, ?R3, ?Nat.eqb_refl; try reflexivity. apply andb_false_r.
Qed.
Example forgotten_handler_undefined_case : env_ok ([KAccept 0 0 true; KBegin 0] ++ [KOther 1 5 true]) /\
  Forall (elsewhere 1 5) [KFinish 0; KAccept 0 6 true; KBegin 0; KBegin 1] /\ In (KBegin 1) [KFinish 0; KAccept 0 6 true; KBegin 0; KBegin 1].
Proof.
  split; [|split; [repeat constructor; discriminate|cbn; auto]]. cbn [app]. unfold env_ok. cbn [env_from app env1]. split; [|split; [exact I|split; [|exact I]]].
  - split; [reflexivity|]. intros g. split; discriminate.
  - split; [reflexivity|]. intros [|g]; split; discriminate.
Qed.
Print Assumptions forgotten_handler_undefined.
(** With the handler kept until then, the same coroutine is well. *)
Example kept_handler : exists s, crun c0 [KOther 0 0 true; KBegin 0; KForget 0; KFinish 0] = Ok s /\ k_seen s = [BClose 0; BServe 0].
Proof. eexists. split; reflexivity. Qed.
(** A handler started a second time loses the STCo its first coroutine was given. *)
Theorem started_twice_refuted : exists os, again_from [] os /\ begins os = 1 /\ crun c0 os = UB.
Proof.
  exists [KOther 0 0 true; KOther 1 0 true; KBegin 0]. split; [|split; reflexivity]. cbn [again_from app]. split; [intros g; split; discriminate|]. split; [|split; exact I].
  intros [|g]; split; discriminate.
Qed.
Print Assumptions started_twice_refuted.
(** C175: so in every history: a handler started again, on another thread, before its first
    coroutine has begun. *)
Theorem started_twice_undefined : forall pre t u h mid s post,
  crun c0 (pre ++ [KOther t h true]) = Ok s -> Forall (fun o => elsewhere t h o /\ o <> KBegin t) mid -> u <> t ->
  Forall (elsewhere t h) post -> In (KBegin t) post ->
  crun c0 (pre ++ KOther t h true :: mid ++ KOther u h true :: post) = UB.
Proof.
  intros pre t u h mid s post E HM Hu HF Hin. replace (pre ++ KOther t h true :: mid ++ KOther u h true :: post) with ((pre ++ [KOther t h true]) ++ mid ++ KOther u h true :: post) by (rewrite <- app_assoc; reflexivity).
  assert (T : thr_get (k_thr s) t = Some (TNew false h)).
  { rewrite crun_app in E. destruct (crun c0 pre) as [s0| | |]; try discriminate. cbn [bind crun cstep co_start fst] in E. injection E as <-.
    cbn [k_thr thr_get]. rewrite Nat.eqb_refl. reflexivity. }
  rewrite crun_app, E. cbn [bind]. clear E. revert s T HM. induction mid as [|o mid IH]; intros s T HM; cbn [app crun].
  - cbn [cstep co_start fst bind]. apply lost_run with (t := t) (h := h); [|exact HF|exact Hin]. exists false. cbn [k_thr k_co thr_get].
    destruct (hold_rest s HOther h) as (_ & X2 & _). rewrite X2, (eqb_no t u), Nat.eqb_refl by congruence. split; [exact T|]. right. congruence.
  - inversion HM as [|? ? (Ho & Hb) HM']; subst. destruct (new_stays t h s o T Ho Hb) as [->|(s' & -> & T')]; [reflexivity|]. cbn [bind]. apply IH; assumption.
Qed.
Example started_twice_undefined_case : exists s, crun c0 ([KAccept 0 0 true] ++ [KOther 1 5 true]) = Ok s /\
  Forall (fun o => elsewhere 1 5 o /\ o <> KBegin 1) [KBegin 0; KLog 0] /\ Forall (elsewhere 1 5) [KFinish 0; KBegin 1].
Proof. eexists. split; [reflexivity|]. split; [repeat constructor; discriminate|repeat constructor]. Qed.
Print Assumptions started_twice_undefined.
(** The bound of C173 is needed: coroutine 2147483648 of one process. *)
Theorem ids_run_out_refuted : exists os, env_ok os /\ begins os = 2147483648 /\ crun c0 os = UB.
Proof.
  assert (Q : exists n, Z.of_nat n = 2147483647) by (exists (Z.to_nat 2147483647); apply Z2Nat.id; discriminate).
  destruct Q as (n & Q). destruct (rounds_out n Q) as (A & B). exists (rounds (S n)). split; [exact A|]. split; [|exact B]. rewrite rounds_begins, Nat2Z.inj_succ, Q. reflexivity.
Qed.
Print Assumptions ids_run_out_refuted.
Example few_rounds : rounds 2 = [KAccept 0 0 true; KBegin 0; KFinish 0; KAccept 0 1 true; KBegin 0; KFinish 0] /\ exists s, crun c0 (rounds 3) = Ok s /\ k_next s = 3.
Proof. split; [reflexivity|]. eexists. split; [vm_compute; reflexivity|reflexivity]. Qed.
