(** Which host serves a request, and which servers listen. *)
From Verif Require Import Base M_Conf M_Host.

(** ** Names of hosts *)
Definition exact_name (n : list Z) : Prop := forall n', n <> 42 :: n'.
Definition wild_name (n d : list Z) : Prop := n = 42 :: 46 :: d /\ d <> [].
Definition default_name (n : list Z) : Prop := n = [42].
Definition valid_name (n : list Z) : Prop := exact_name n \/ (exists d, wild_name n d) \/ default_name n.
(** Configuration text without NUL characters. *)
Definition no_nul (n : list Z) : Prop := ~ In 0 n.

(** ** The host a request goes to: the host of exactly that name, else the
    wildcard for everything after the first dot, else the default. *)
Inductive serves (hs : list cmod) (q : list Z) : option cmod -> Prop :=
| sv_exact h : In h hs -> cm_name h = q -> exact_name q -> serves hs q (Some h)
| sv_wild h a d : (exact_name q -> ~ In q (map cm_name hs)) -> q = a ++ 46 :: d -> ~ In 46 a ->
    In h hs -> wild_name (cm_name h) d -> serves hs q (Some h)
| sv_default h : (exact_name q -> ~ In q (map cm_name hs)) ->
    (forall a d h', q = a ++ 46 :: d -> ~ In 46 a -> In h' hs -> ~ wild_name (cm_name h') d) ->
    In h hs -> default_name (cm_name h) -> serves hs q (Some h)
| sv_none : (exact_name q -> ~ In q (map cm_name hs)) ->
    (forall a d h', q = a ++ 46 :: d -> ~ In 46 a -> In h' hs -> ~ wild_name (cm_name h') d) ->
    (forall h, In h hs -> ~ default_name (cm_name h)) -> serves hs q None.

(** ** Servers in the order they are started *)
Definition global_of (root : cmod) : list cmod :=
  flat_map (fun g => filter (fun s => eqb_list (cm_type s) (str "host")) (cm_subs g))
    (filter (fun s => eqb_list (cm_type s) (str "globalhost")) (cm_subs root)).
Definition blocks (root : cmod) (ty : list Z) : list cmod := filter (fun s => eqb_list (cm_type s) ty) (cm_subs root).
Definition own_hosts (s : cmod) : list cmod := filter (fun h => eqb_list (cm_type h) (str "host")) (cm_subs s).
Definition started (root : cmod) : list (proto * cmod) :=
  flat_map (fun b => map (fun s => (PHttp, s)) (filter (fun s => eqb_list (cm_type s) (str "server")) (cm_subs b))) (blocks root (str "http")) ++
  flat_map (fun b => map (fun s => (PRtmp, s)) (filter (fun s => eqb_list (cm_type s) (str "server")) (cm_subs b))) (blocks root (str "rtmp")) ++
  flat_map (fun b => map (fun s => (PSrt, s)) (filter (fun s => eqb_list (cm_type s) (str "server")) (cm_subs b))) (blocks root (str "srt")).
Definition port_of (s : cmod) : Z := opt_int s (str "listen_port").
(** The first server block with a port. *)
Definition first_on (p : Z) (l : list (proto * cmod)) (ps : option (proto * cmod)) : Prop :=
  match ps with
  | None => forall x, In x l -> port_of (snd x) <> p
  | Some x => exists a b, l = a ++ x :: b /\ port_of (snd x) = p /\ forall y, In y a -> port_of (snd y) <> p
  end.
(** The names of all hosts of a configuration are free of NUL. *)
Definition nul_free (root : cmod) : Prop := forall pr s h, In (pr, s) (started root) -> In h (own_hosts s ++ global_of root) -> no_nul (cm_name h).
(** The text "addr:port" or "addr". *)
Inductive address : list Z -> list Z -> option Z -> Prop :=
| ad_plain a : ~ In 58 a -> address a a None
| ad_port a ds n : ~ In 58 a -> ds <> [] -> Forall (fun c => 48 <= c <= 57) ds ->
    n = fold_left (fun acc c => 10 * acc + (c - 48)) ds 0 -> n < 2 ^ 31 -> address (a ++ 58 :: ds) a (Some n).
