(** C241: what becomes of every configuration text. *)
From Verif Require Import Base M_Text M_Conf S_Url L_Url S_Conf L_Conf S_ConfAll L_ConfAll.

(** C241: every text is accepted, refused or read outside exactly as the line-by-line
    description says, which has one verdict for every text. *)
Theorem conf_fate_exactly : forall ls v, outcome (init_conf ls) = Some v <-> fate [(str "root", [])] ls v.
Proof.
  intros ls v. rewrite init_judge.
  assert (F : fate [(str "root", [])] ls (judge [(str "root", [])] ls)).
  { apply judge_fate; [discriminate|reflexivity|]. constructor; [discriminate|constructor]. }
  split.
  - intros E. injection E as <-. exact F.
  - intros K. f_equal. exact (fate_fun _ _ _ F _ K).
Qed.
Theorem conf_fate_one : forall ls, exists v, fate [(str "root", [])] ls v /\ forall v', fate [(str "root", [])] ls v' -> v' = v.
Proof.
  intros ls. exists (judge [(str "root", [])] ls). split; [apply conf_fate_exactly, init_judge|].
  intros v' K. apply conf_fate_exactly in K. rewrite init_judge in K. congruence.
Qed.
Print Assumptions conf_fate_exactly.
Print Assumptions conf_fate_one.

(** C241: the only lines that make the reader read outside: the start of a location
    block, and one of three on/off settings without a value.  What stands after that
    line does not matter. *)
Theorem conf_outside_line : forall ls, init_conf ls = UB -> exists a l b, ls = a ++ l :: b /\
  ((exists m, line_says l (Opens (str "location") m)) \/ exists k, line_says l (Sets k []) /\ In k [str "enabled"; str "reuse_port"; str "edge"]) /\
  forall b', init_conf (a ++ l :: b') = UB.
Proof.
  intros ls H. assert (F : fate [(str "root", [])] ls Outside) by (apply conf_fate_exactly; rewrite H; reflexivity).
  assert (S : forall st ls v, fate st ls v -> v = Outside -> exists a l b, ls = a ++ l :: b /\
    ((exists m, line_says l (Opens (str "location") m)) \/ exists k, line_says l (Sets k []) /\ In k [str "enabled"; str "reuse_port"; str "edge"]) /\
    forall b', fate st (a ++ l :: b') Outside).
  { clear. induction 1 as [t n st l ls B|t n st l ls v S F IH|t n st l ls k x v S O F IH|t n st l ls k x S O|t n st l ls k S O|t n st l ls k x o v S O N V F IH
    |t n st l ls m S|t n st l ls u m S N U|t n st l ls u m v S U F IH|t n o m st l ls v S R N F IH|t n o m st l ls S R N|n st l ls S|n|t n st R|n o m st v N F IH|n o m st N];
    intros Ev; try discriminate Ev; try (destruct (IH Ev) as (a & l0 & b & -> & C & K); exists (l :: a), l0, b; split; [reflexivity|]; split; [exact C|]; intros b'; cbn [app]).
    - apply ft_nothing; [exact S|apply K].
    - eapply ft_unknown; [exact S|exact O|apply K].
    - exists [], l, ls. split; [reflexivity|]. split; [|intros b'; eapply ft_no_value; eassumption]. right. exists k. split; [exact S|].
      apply bool_options with t. exact O.
    - eapply ft_set; [exact S|exact O|exact N|exact V|apply K].
    - exists [], l, ls. split; [reflexivity|]. split; [left; eauto|]. intros b'. eapply ft_location, S.
    - eapply ft_open; [exact S|exact U|apply K].
    - eapply ft_close; [exact S|exact R|exact N|apply K].
    - destruct (IH Ev) as ([|? a] & ? & ? & E & _); discriminate E. }
  destruct (S _ _ _ F eq_refl) as (a & l & b & E & C & K). exists a, l, b. split; [exact E|]. split; [exact C|].
  intros b'. specialize (K b'). apply conf_fate_exactly in K. destruct (init_conf (a ++ l :: b')); try discriminate K. reflexivity.
Qed.
Print Assumptions conf_outside_line.

(** A file that is accepted; one that is refused because a host stands in an http block;
    the same with a location block inside it, which is read first; an on/off setting
    without value in a host, and in an http block, where it is unknown. *)
Example conf_fate_cases :
  init_conf (map str ["http {"; "server a {"; "host x { # x"; "enabled off;"; "}"; "}"; "}"]%string) <> UB /\
  fate [(str "root", [])] (map str ["http {"; "server a {"; "host x { # x"; "enabled off;"; "}"; "}"; "}"]%string) Accepted /\
  fate [(str "root", [])] (map str ["http {"; "host x {"; "}"; "}"]%string) Refused /\
  fate [(str "root", [])] (map str ["http {"; "host x {"; "location / {"; "}"; "}"]%string) Outside /\
  fate [(str "root", [])] (map str ["http {"; "host x {"; "enabled ;"]%string) Outside /\
  fate [(str "root", [])] (map str ["http {"; "enabled ;"; "}"]%string) Accepted.
Proof.
  split; [vm_compute; discriminate|]. split; [apply conf_fate_exactly; vm_compute; reflexivity|]. split; [apply conf_fate_exactly; vm_compute; reflexivity|].
  split; [apply conf_fate_exactly; vm_compute; reflexivity|]. split; apply conf_fate_exactly; vm_compute; reflexivity.
Qed.
