(** What becomes of any configuration text, line by line. *)
From Verif Require Import Base M_Conf S_Conf.

(** ** What a line says *)
(** The words up to the first that ends in one of ; { }, and that character; after it
    only a comment may stand. *)
Inductive clause : list (list Z) -> list (list Z) -> option Z -> Prop :=
| cl_open ws : Forall unended ws -> clause ws ws None
| cl_ended a w c tail : Forall unended a -> ends_in w c -> In c [59; 123; 125] -> tail_ok tail ->
    clause (a ++ w :: tail) (a ++ [w]) (Some c).
Inductive says := Nothing | Sets (n v : list Z) | Opens (t name : list Z) | Closes.
(** The value of a setting: the words after the name without the semicolon. *)
Definition value_words (mid : list (list Z)) (v : list Z) : list (list Z) := mid ++ match v with [] => [] | _ => [v] end.
Inductive line_says (l : list Z) : says -> Prop :=
| ls_empty : tokens l [] -> line_says l Nothing
| ls_comment ws w more k : tokens l ws -> clause ws (w :: more) k -> hash w -> line_says l Nothing
| ls_closes ws w more : tokens l ws -> clause ws (w :: more) (Some 125) -> ~ hash w -> line_says l Closes
| ls_opens ws w mid b : tokens l ws -> clause ws (w :: mid ++ [b]) (Some 123) -> ~ hash w -> line_says l (Opens w (spaced mid))
| ls_sets ws w mid v : tokens l ws -> clause ws (w :: mid ++ [v ++ [59]]) (Some 59) -> ~ hash w ->
    line_says l (Sets w (spaced (value_words mid v))).

(** ** What becomes of the lines *)
Inductive verdict := Accepted | Refused | Outside.
(** The lines that follow, inside the open blocks (type and name, the innermost first). *)
Inductive fate : list (list Z * list Z) -> list (list Z) -> verdict -> Prop :=
| ft_bad t n st l ls : (forall s, ~ line_says l s) -> fate ((t, n) :: st) (l :: ls) Refused
| ft_nothing t n st l ls v : line_says l Nothing -> fate ((t, n) :: st) ls v -> fate ((t, n) :: st) (l :: ls) v
(* settings: unknown names are passed over; the name of a block is refused; an on/off
   setting without value is read outside its text *)
| ft_unknown t n st l ls k x v : line_says l (Sets k x) -> option_kind t k = None -> fate ((t, n) :: st) ls v -> fate ((t, n) :: st) (l :: ls) v
| ft_block_name t n st l ls k x : line_says l (Sets k x) -> option_kind t k = Some OSub -> fate ((t, n) :: st) (l :: ls) Refused
| ft_no_value t n st l ls k : line_says l (Sets k []) -> option_kind t k = Some OBool -> fate ((t, n) :: st) (l :: ls) Outside
| ft_set t n st l ls k x o v : line_says l (Sets k x) -> option_kind t k = Some o -> o <> OSub -> (o = OBool -> x <> []) ->
    fate ((t, n) :: st) ls v -> fate ((t, n) :: st) (l :: ls) v
(* blocks *)
| ft_location t n st l ls m : line_says l (Opens (str "location") m) -> fate ((t, n) :: st) (l :: ls) Outside
| ft_unknown_block t n st l ls u m : line_says l (Opens u m) -> u <> str "location" -> ~ In u (str "root" :: block_types) -> fate ((t, n) :: st) (l :: ls) Refused
| ft_open t n st l ls u m v : line_says l (Opens u m) -> In u (str "root" :: block_types) -> fate ((u, m) :: (t, n) :: st) ls v -> fate ((t, n) :: st) (l :: ls) v
(* a closing brace: where a block may stand is asked only now *)
| ft_close t n o m st l ls v : line_says l Closes -> t <> str "root" -> nests o t n -> fate ((o, m) :: st) ls v -> fate ((t, n) :: (o, m) :: st) (l :: ls) v
| ft_misplaced t n o m st l ls : line_says l Closes -> t <> str "root" -> ~ nests o t n -> fate ((t, n) :: (o, m) :: st) (l :: ls) Refused
| ft_close_root n st l ls : line_says l Closes -> fate ((str "root", n) :: st) (l :: ls) Refused
(* the end of the file *)
| ft_end n : fate [(str "root", n)] [] Accepted
| ft_end_open t n st : t <> str "root" -> fate ((t, n) :: st) [] Refused
| ft_end_root n o m st v : nests o (str "root") n -> fate ((o, m) :: st) [] v -> fate ((str "root", n) :: (o, m) :: st) [] v
| ft_end_misplaced n o m st : ~ nests o (str "root") n -> fate ((str "root", n) :: (o, m) :: st) [] Refused.
(** The outcome of loading. *)
Definition outcome {A} (x : res A) : option verdict :=
  match x with Ok _ => Some Accepted | Err _ => Some Refused | UB => Some Outside | Fuel => None end.
