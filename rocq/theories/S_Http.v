(** Specifications of the HTTP layer, independent of the model's helpers. *)
From Verif Require Import Base M_IO S_IO.

(** ** Message heads (RFC 7230, section 3) *)

(** A line of text: not empty, no CR, no LF. *)
Definition plain (l : list Z) : Prop := Forall (fun c => c <> 13 /\ c <> 10) l.
Definition crlf_lines (ls : list (list Z)) : list Z := flat_map (fun l => l ++ [13; 10]) ls.
(** A message head: at least one line, every line ended by CR LF, then a blank
    line. *)
Definition is_head (h : list Z) : Prop :=
  exists ls, ls <> [] /\ Forall (fun l => l <> [] /\ plain l) ls /\ h = crlf_lines ls ++ [13; 10].

(** ** Chunked bodies (RFC 7230, section 4.1, without trailer fields) *)
Definition hex_value (c v : Z) : Prop :=
  (48 <= c <= 57 /\ v = c - 48) \/ (65 <= c <= 70 /\ v = c - 55) \/ (97 <= c <= 102 /\ v = c - 87).
(** Digits, most significant first, and the number they denote. *)
Inductive hex_number : list Z -> Z -> Prop :=
| hex_one c v : hex_value c v -> hex_number [c] v
| hex_more l n c v : hex_number l n -> hex_value c v -> hex_number (l ++ [c]) (16 * n + v).
(** chunk-size and optional extension, at most 31 characters (the limit of
    both readers). *)
Definition size_text (s : list Z) (n : Z) : Prop :=
  exists ds ext, s = ds ++ ext /\ hex_number ds n /\ plain ext /\
    (ext = [] \/ exists e, ext = 59 :: e) /\ zlen s <= 31 /\ n < 2 ^ 64.
(** A text that starts with neither a blank, a sign nor a hexadecimal digit. *)
Definition no_number (s : list Z) : Prop :=
  match s with
  | [] => True
  | c :: _ => (forall v, ~ hex_value c v) /\ ~ In c [43; 45; 32; 9; 10; 11; 12; 13]
  end.
(** [chunked s body rest]: [s] starts with a complete chunked body that carries
    [body] and is followed by [rest]. *)
Inductive chunked : list Z -> list Z -> list Z -> Prop :=
| ch_last sz rest : size_text sz 0 -> chunked (sz ++ [13; 10] ++ [13; 10] ++ rest) [] rest
| ch_chunk sz d s body rest :
    size_text sz (zlen d) -> d <> [] -> chunked s body rest ->
    chunked (sz ++ [13; 10] ++ d ++ [13; 10] ++ s) (d ++ body) rest.

(** ** Reading a head text back: request line and fields *)

(** Split at the first CR LF. *)
Fixpoint cut_crlf (l : list Z) : option (list Z * list Z) :=
  match l with
  | [] => None
  | c :: l' =>
      match l' with
      | c' :: l'' =>
          if (c =? 13) && (c' =? 10) then Some ([], l'')
          else match cut_crlf l' with Some (a, b) => Some (c :: a, b) | None => None end
      | [] => None
      end
  end.
(** Lines up to the first blank one, and what follows it. *)
Fixpoint head_lines (fuel : nat) (l : list Z) : option (list (list Z) * list Z) :=
  match fuel with
  | O => None
  | S f =>
      match cut_crlf l with
      | None => None
      | Some ([], r) => Some ([], r)
      | Some (a, r) => match head_lines f r with Some (ls, r') => Some (a :: ls, r') | None => None end
      end
  end.
(** Split at the first occurrence of a character. *)
Fixpoint cut_at (c : Z) (l : list Z) : option (list Z * list Z) :=
  match l with
  | [] => None
  | x :: l' => if x =? c then Some ([], l')
               else match cut_at c l' with Some (a, b) => Some (x :: a, b) | None => None end
  end.
(** field-name ":" SP field-value *)
Definition field_of (l : list Z) : option (list Z * list Z) :=
  match cut_at 58 l with
  | Some (k, sp :: v) => if sp =? 32 then Some (k, v) else None
  | _ => None
  end.
(** A field that can be written on one line and read back. *)
Definition field_wf (f : list Z * list Z) : Prop := plain (fst f) /\ plain (snd f) /\ ~ In 58 (fst f).
Fixpoint fields_of (ls : list (list Z)) : option (list (list Z * list Z)) :=
  match ls with
  | [] => Some []
  | l :: ls' => match field_of l, fields_of ls' with
                | Some f, Some fs => Some (f :: fs)
                | _, _ => None
                end
  end.
(** method SP target SP version, the fields, and the bytes after the head. *)
Definition read_request (l : list Z) : option (list Z * list Z * list Z * list (list Z * list Z) * list Z) :=
  match head_lines (S (length l)) l with
  | Some (rl :: ls, rest) =>
      match cut_at 32 rl with
      | Some (m, r) =>
          match cut_at 32 r, fields_of ls with
          | Some (u, v), Some fs => Some (m, u, v, fs, rest)
          | _, _ => None
          end
      | None => None
      end
  | _ => None
  end.
(** First line, fields, and the bytes after the head of any message. *)
Definition read_message (l : list Z) : option (list Z * list (list Z * list Z) * list Z) :=
  match head_lines (S (length l)) l with
  | Some (sl :: ls, rest) => match fields_of ls with Some fs => Some (sl, fs, rest) | None => None end
  | _ => None
  end.
(** The values of the fields with a given name. *)
Definition values_of (k : list Z) (fs : list (list Z * list Z)) : list (list Z) :=
  map snd (filter (fun f => eqb_list (fst f) k) fs).
(** Decimal numerals. *)
Inductive dec_number : list Z -> Z -> Prop :=
| dec_one c : 48 <= c <= 57 -> dec_number [c] (c - 48)
| dec_more l n c : dec_number l n -> 48 <= c <= 57 -> dec_number (l ++ [c]) (10 * n + (c - 48)).

(** ** Running handlers in order *)
(** All of [hs] run from [s] to [s'], each answering 'continue' (0). *)
Inductive all_continue {S : Type} : list (S -> res Z * S) -> S -> S -> Prop :=
| ac_nil s : all_continue [] s s
| ac_cons h hs s s1 s2 : h s = (Ok 0, s1) -> all_continue hs s1 s2 -> all_continue (h :: hs) s s2.
