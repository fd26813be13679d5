(** Specifications for URLs, independent of the model's helpers. *)
From Verif Require Import Base M_Text M_Url.

(** Texts separated by a character. *)
Fixpoint join (c : Z) (ls : list (list Z)) : list Z :=
  match ls with
  | [] => []
  | [l] => l
  | l :: ls' => l ++ c :: join c ls'
  end.
Definition without (c : Z) (l : list Z) : Prop := ~ In c l.

(** ** Well-formed URLs: schema "://" host [":" port] path ["?" query] *)
Definition alpha (c : Z) : Prop := 65 <= c <= 90 \/ 97 <= c <= 122.
Definition digit_c (c : Z) : Prop := 48 <= c <= 57.
Definition host_c (c : Z) : Prop := alpha c \/ digit_c c \/ c = 46 \/ c = 45.
Definition path_c (c : Z) : Prop := 33 <= c <= 126 /\ c <> 35 /\ c <> 63.
Fixpoint dec_value (l : list Z) (acc : Z) : Z :=
  match l with [] => acc | c :: l' => dec_value l' (10 * acc + (c - 48)) end.
Record url_wf (schema host : list Z) (port path query : option (list Z)) : Prop := {
  uw_schema : schema <> [] /\ Forall alpha schema;
  uw_host : host <> [] /\ Forall host_c host;
  uw_port : match port with None => True
            | Some p => p <> [] /\ Forall digit_c p /\ dec_value p 0 <= 65535 end;
  uw_path : match path with None => query = None | Some p => exists p', p = 47 :: p' /\ Forall path_c p' end;
  uw_query : match query with None => True | Some q => q <> [] /\ Forall path_c q end
}.
Definition url_text (schema host : list Z) (port path query : option (list Z)) : list Z :=
  schema ++ str "://" ++ host ++
  match port with None => [] | Some p => 58 :: p end ++
  match path with None => [] | Some p => p end ++
  match query with None => [] | Some q => 63 :: q end.
(** What is assumed of the library: well-formed URLs are taken apart, URLs
    with no host or with an empty port are refused. *)
Record url_lib_ok (lib : url_lib) : Prop := {
  lib_parts : forall schema host port path query, url_wf schema host port path query ->
    lib (url_text schema host port path query) =
      Some (mkup (Some schema) (Some host) (option_map (fun p => dec_value p 0) port) path query);
  lib_no_host : forall schema, schema <> [] -> Forall alpha schema -> lib (schema ++ str "://") = None;
  lib_no_port : forall schema host rest, schema <> [] -> Forall alpha schema -> host <> [] -> Forall host_c host ->
    Forall path_c rest -> lib (schema ++ str "://" ++ host ++ str ":/" ++ rest) = None
}.

(** ** Query parameters: the pieces between '&'.  A piece without '=' is kept,
    together with its '&', as the beginning of the next piece's key. *)
Fixpoint cut_eq (l : list Z) : option (list Z * list Z) :=
  match l with
  | [] => None
  | c :: l' => if c =? 61 then Some ([], l')
               else match cut_eq l' with Some (a, b) => Some (c :: a, b) | None => None end
  end.
Fixpoint params_of (pending : list Z) (pieces : list (list Z)) : list (list Z * list Z) :=
  match pieces with
  | [] => []
  | p :: ps =>
      match cut_eq p with
      | Some (k, v) => (pending ++ k, v) :: params_of [] ps
      | None => params_of (pending ++ p ++ [38]) ps
      end
  end.
(** First value of a key. *)
Definition first_value (k : list Z) (l : list (list Z * list Z)) (v : list Z) : Prop :=
  exists a b, l = a ++ (k, v) :: b /\ ~ In k (map fst a).

(** ** Extension: what follows the last dot. *)
Definition has_ext (path e : list Z) : Prop := exists a, path = a ++ 46 :: e /\ without 46 e.

(** ** SRT stream ids: four characters, then pairs each ended by a comma *)
Definition sid_pair_ok (kv : list Z * list Z) : Prop :=
  without 61 (fst kv) /\ without 61 (snd kv) /\ without 44 (fst kv) /\ without 44 (snd kv).
Definition sid_text (pairs : list (list Z * list Z)) : list Z :=
  flat_map (fun kv => fst kv ++ 61 :: snd kv ++ [44]) pairs.
Definition last_value (k : list Z) (l : list (list Z * list Z)) (v : list Z) : Prop :=
  exists a b, l = a ++ (k, v) :: b /\ ~ In k (map fst b).
