(** The values of options in memory. *)
From Verif Require Import Base M_Text M_Conf S_Conf P_Conf M_Clock M_Opt S_Opt L_Opt.

(** ** C219 *)

(** In a file that is accepted, every block has a context, and every option of it
    that is not a block holds the value of its last item, or its default:
    whatever the other items wrote before or after, at whatever offset. *)
Theorem option_memory_exact : forall text root c os k kd d,
  load_conf text = Ok root -> within_tree c root -> options_of (cm_type c) = Some os -> find_opt os k = Some (kd, d) -> kd <> OSub ->
  exists m v, context c = Ok m /\ member_of c m k = Some v /\ shown c k kd v.
Proof.
  intros text root c os k kd d HL Hw Ho Hf Hk. unfold load_conf, init_conf in HL.
  destruct (conf_body _ _ _ _ _ _) as [(r & rest)| | |] eqn:E; try discriminate HL. cbn [bind fst] in HL. injection HL as ->.
  destruct (conf_body_good _ _ _ _ _ _ _ _ [] E eq_refl (Forall_nil _) (fun s x H => match H with end) c Hw) as (os' & Ho' & Hs).
  rewrite Ho in Ho'. injection Ho' as <-. destruct (context_ok c os Ho Hs) as (m & Hc & Hm).
  destruct (Hm k kd d Hf Hk) as (v & Hv & Sv). exists m, v. auto.
Qed.
Print Assumptions option_memory_exact.

(** "enabled" is an int, of which its option writes one byte: it is 0 or 1 all
    the same, because the context starts as zeros. *)
Theorem host_enabled_exact : forall text root c,
  load_conf text = Ok root -> within_tree c root -> cm_type c = str "host" ->
  exists m, context c = Ok m /\ member_of c m (str "enabled") = Some (VInt (if opt_bool c (str "enabled") then 1 else 0)).
Proof.
  intros text root c HL Hw Hty.
  destruct (option_memory_exact text root c host_options (str "enabled") OBool (str "on") HL Hw ltac:(rewrite Hty; reflexivity) eq_refl ltac:(discriminate)) as (m & v & A & B & C).
  exists m. split; [exact A|]. rewrite B. inversion C; subst; [|reflexivity]. exfalso. unfold member_of in B. rewrite Hty in B. cbv delta [offset_of] in B.
  assert (E : offset_in (place 0 (struct_of (str "host"))) (str "enabled") = Some (FInt, 0)) by (vm_compute; reflexivity).
  cbv beta in B. rewrite E in B. cbn [get] in B. destruct (cell_bytes (peeks m 0 4)); discriminate B.
Qed.
Print Assumptions host_enabled_exact.

(** Were the context not zeroed (plain [new]), a disabled host could read as
    enabled: the other three bytes decide. *)
Theorem enabled_needs_zeroes : exists m0 m1, opt_write m0 OBool 0 (str "off") = Ok m1 /\ get m1 FInt 0 = Some (VInt 256).
Proof. exists (fun a => CByte (if a =? 1 then 1 else 0)). eexists. split; reflexivity. Qed.
Print Assumptions enabled_needs_zeroes.

Definition ex_file : list Z :=
  str "http {" ++ [10] ++ str "server {" ++ [10] ++ str "listen_port 8080 ;" ++ [10] ++ str "backlog 7 ;" ++ [10] ++ str "recv_timeout 10000000 ;" ++ [10] ++
  str "host a.b {" ++ [10] ++ str "enabled off ;" ++ [10] ++ str "type api ;" ++ [10] ++ str "}" ++ [10] ++ str "listen_port 81 ;" ++ [10] ++ str "}" ++ [10] ++ str "}" ++ [10].
Example ex_option_memory :
  match load_conf ex_file with
  | Ok (CMod _ _ _ [CMod _ _ _ [CMod t n sets [h]]]) =>
      let s := CMod t n sets [h] in
      match context s, context h with
      | Ok m, Ok mh =>
          member_of s m (str "listen_port") = Some (VInt 81) /\ member_of s m (str "backlog") = Some (VInt 7) /\
          member_of s m (str "recv_timeout") = Some (VTime 10000000) /\ member_of s m (str "send_timeout") = Some (VTime (2 ^ 64 - 1)) /\
          member_of s m (str "reuse_port") = Some (VBool false) /\ member_of s m (str "transport") = Some (VStr (str "tcp")) /\
          member_of h mh (str "enabled") = Some (VInt 0) /\ member_of h mh (str "type") = Some (VStr (str "api"))
      | _, _ => False
      end
  | _ => False
  end.
Proof. vm_compute. repeat (split; [reflexivity|]). reflexivity. Qed.
