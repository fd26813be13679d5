(** What the members of a context must hold. *)
From Verif Require Import Base M_Text M_Conf M_Clock M_Opt.

(** The value of an option, by its kind, as M_Conf.v and M_Clock.v have it. *)
Inductive shown (c : cmod) (k : list Z) : okind -> cval -> Prop :=
| sh_int : shown c k OInt (VInt (opt_int c k))
| sh_time : shown c k OInt64 (VTime (conf_limit c k))
| sh_bool : shown c k OBool (VBool (opt_bool c k))
| sh_flag : shown c k OBool (VInt (if opt_bool c k then 1 else 0))
| sh_str : shown c k OStr (VStr (opt_str c k)).
(** A module of a tree. *)
Inductive within_tree (c : cmod) : cmod -> Prop :=
| wt_here : within_tree c c
| wt_sub : forall r s, In s (cm_subs r) -> within_tree c s -> within_tree c r.
