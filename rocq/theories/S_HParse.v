(** Specification of message heads (RFC 7230) and of what a parser library
    reports about them. *)
From Verif Require Import Base M_IO M_Text M_Conf M_Url S_Url M_Host M_Http S_Http M_HttpConn S_HttpConn M_HParse.

(** ** Heads *)
Definition name_c (c : Z) : Prop := 48 <= c <= 57 \/ 65 <= c <= 90 \/ 97 <= c <= 122 \/ c = 45 \/ c = 95.
Definition value_ok (v : list Z) : Prop := v <> [] /\ Forall (fun c => 32 <= c <= 126) v /\ hd 0 v <> 32 /\ last v 0 <> 32.
(** A field: name, value, and the further lines of a folded value. *)
Definition rfield := (list Z * list Z * list (list Z))%type.
Definition rfield_ok (f : rfield) : Prop :=
  let '(k, v, more) := f in k <> [] /\ Forall name_c k /\ value_ok v /\ Forall value_ok more.
Definition field_lines (f : rfield) : list (list Z) := let '(k, v, more) := f in (k ++ str ": " ++ v) :: map (fun l => str " " ++ l) more.
(** Lines, each ended by CR LF. *)
Fixpoint lines_text (ls : list (list Z)) : list Z := match ls with [] => [] | l :: ls' => l ++ [13; 10] ++ lines_text ls' end.
Definition head_text (first : list Z) (fs : list rfield) : list Z := lines_text (first :: flat_map field_lines fs) ++ [13; 10].
(** A field on one line. *)
Definition one_line (f : list Z * list Z) : rfield := (fst f, snd f, []).
Definition line_ok (f : list Z * list Z) : Prop := rfield_ok (one_line f).
(** Name and value, one pair for each line of a value. *)
Definition by_line (f : rfield) : list (list Z * list Z) := let '(k, v, more) := f in map (pair k) (v :: more).

(** What is said about the body: nothing, one length, or chunks. *)
Definition framed_as (fs : list (list Z * list Z)) (len : option Z) (te : bool) : Prop :=
  (match len with
   | None => field_values (str "content-length") fs = []
   | Some n => exists ds, field_values (str "content-length") fs = [ds] /\ dec_number ds n /\ n < 2 ^ 63
   end) /\
  Forall (eq (str "chunked")) (field_values (str "transfer-encoding") fs) /\
  (te = true <-> field_values (str "transfer-encoding") fs <> []) /\ ~ (te = true /\ len <> None).

(** ** Requests *)
Definition methods : list (list Z) := [str "GET"; str "POST"; str "PUT"; str "HEAD"; str "DELETE"; str "OPTIONS"].
Definition target_ok (u : list Z) : Prop := hd 0 u = 47 /\ Forall (fun c => 33 <= c <= 126 /\ c <> 35) u.
Definition request_line (m u : list Z) : list Z := m ++ str " " ++ u ++ str " HTTP/1.1".
(** ** Responses *)
Definition status_line (ds reason : list Z) : list Z := str "HTTP/1.1 " ++ ds ++ str " " ++ reason.

(** ** The library *)
Definition reported (fs : list rfield) : list hcall :=
  flat_map (fun f => let '(k, v, more) := f in CbField k :: map CbValue (v :: more)) fs.
Definition essential (cs : list hcall) : list hcall := filter (fun c => match c with CbOther => false | _ => true end) cs.
(** Every well-formed request head is accepted whole, each part reported once. *)
Definition reads_requests (lib : hlib) : Prop := forall m u fs len te,
  In m methods -> target_ok u -> Forall rfield_ok fs -> framed_as (flat_map by_line fs) len te ->
  let t := head_text (request_line m u) fs in zlen t <= MAX_HEADER ->
  rp_used (lib false t) = zlen t /\ rp_method (lib false t) = m /\ essential (rp_calls (lib false t)) = CbUrl u :: reported fs.
(** So is every well-formed response head. *)
Definition reads_responses (lib : hlib) : Prop := forall ds st reason fs len te,
  dec_number ds st -> zlen ds = 3 -> Forall (fun c => 32 <= c <= 126) reason -> Forall rfield_ok fs -> framed_as (flat_map by_line fs) len te ->
  let t := head_text (status_line ds reason) fs in zlen t <= MAX_HEADER ->
  rp_used (lib true t) = zlen t /\ rp_status (lib true t) = st /\
  rp_cl (lib true t) = match len with Some n => n | None => 2 ^ 64 - 1 end /\ rp_te (lib true t) = te /\
  essential (rp_calls (lib true t)) = reported fs.
(** A field whose name has a character no name may have is where the library
    stops; what came before has been reported. *)
Definition bad_c (c : Z) : Prop := c = 34 \/ c = 40 \/ c = 41 \/ c = 64.
Definition stops_at_fault (lib : hlib) : Prop := forall m u fs len te k c tail,
  In m methods -> target_ok u -> Forall rfield_ok fs -> framed_as (flat_map by_line fs) len te ->
  Forall name_c k -> bad_c c ->
  let t := lines_text (request_line m u :: flat_map field_lines fs) ++ k ++ c :: tail in zlen t <= MAX_HEADER ->
  0 < rp_used (lib false t) < zlen t /\ rp_method (lib false t) = m /\ essential (rp_calls (lib false t)) = CbUrl u :: reported fs.

(** ** Servers and messages *)
(** A server built with such libraries. *)
Definition server_with (g : hcfg) (lib : hlib) : Prop :=
  (forall h, hg_req g h = parse_req_head lib h) /\ (forall h, hg_rsp g h = parse_rsp_head lib h) /\ url_lib_ok (hg_url g).
(** Fields that are neither about the body nor about the server itself. *)
Definition end_to_end (f : list Z * list Z) : bool :=
  negb (same_name (fst f) (str "content-length") || same_name (fst f) (str "transfer-encoding") || same_name (fst f) (str "server")).
(** A response with the status [st], the end-to-end fields [fs] and the body
    [body], by length (with the field's name in the usual spelling) or in chunks:
    its head and what follows it. *)
Inductive good_msg (st : Z) (fs : list (list Z * list Z)) (body : list Z) : list Z -> list Z -> Prop :=
| gm_length ds reason hd : dec_number ds st -> zlen ds = 3 -> Forall (fun c => 32 <= c <= 126) reason -> Forall line_ok hd ->
    filter end_to_end hd = fs -> framed_as hd (Some (zlen body)) false ->
    Forall (fun f => same_name (fst f) (str "content-length") = true -> fst f = str "Content-Length") hd ->
    good_msg st fs body (head_text (status_line ds reason) (map one_line hd)) body
| gm_chunks ds reason hd wire : dec_number ds st -> zlen ds = 3 -> Forall (fun c => 32 <= c <= 126) reason -> Forall line_ok hd ->
    filter end_to_end hd = fs -> framed_as hd None true -> chunked wire body [] ->
    good_msg st fs body (head_text (status_line ds reason) (map one_line hd)) wire.
(** Servers one behind the other, the one that asks the origin first; each gets
    from its upstream what the one before sent.  [relays st body h w l h' w']: the
    head and the rest the origin sent, the servers, head and rest the client
    got. *)
Inductive relays (st : Z) (body : list Z) : list Z -> list Z -> list (hcfg * henv * list Z) -> list Z -> list Z -> Prop :=
| re_nil h w : relays st body h w [] h w
| re_cons h w g e t lib r l h1 w1 h2 w2 : server_with g lib -> reads_responses lib -> request_in g t r ->
    proxied_to g e r (h ++ w) -> zlen h <= MAX_HEADER -> ~ bodyless (rq_method r) st -> Forall (fun c => 32 <= c <= 126) (hg_reason g st) ->
    alone_out g e t = h1 ++ w1 -> is_head h1 -> relays st body h1 w1 l h2 w2 -> relays st body h w ((g, e, t) :: l) h2 w2.

(** ** A library that does so (only to show that there is one; folded values and
    fields, no other syntax) *)
Definition name_b (c : Z) : bool := ((48 <=? c) && (c <=? 57)) || ((65 <=? c) && (c <=? 90)) || ((97 <=? c) && (c <=? 122)) || (c =? 45) || (c =? 95).
Fixpoint span (l : list Z) : list Z * list Z :=
  match l with
  | c :: l' => if name_b c then let '(a, b) := span l' in (c :: a, b) else ([], l)
  | [] => ([], [])
  end.
(** The calls, and the bytes not accepted. *)
Fixpoint scan (fuel : nat) (l : list Z) : list hcall * list Z :=
  match fuel with
  | O => ([], l)
  | S f =>
      match l with
      | a :: r =>
          if a =? 13 then ([], drop 2 l)
          else if a =? 32 then
            match cut_crlf r with Some (v, r') => let '(c, x) := scan f r' in (CbValue v :: c, x) | None => ([], l) end
          else
            let '(k, r1) := span l in
            if eqb_list (take 2 r1) (str ": ") then
              match cut_crlf (drop 2 r1) with Some (v, r') => let '(c, x) := scan f r' in (CbField k :: CbValue v :: c, x) | None => ([], r1) end
            else ([], r1)
      | [] => ([], [])
      end
  end.
Fixpoint pairs_of (k : list Z) (cs : list hcall) : list (list Z * list Z) :=
  match cs with
  | CbField x :: cs' => pairs_of x cs'
  | CbValue v :: cs' => (k, v) :: pairs_of k cs'
  | _ :: cs' => pairs_of k cs'
  | [] => []
  end.
Fixpoint digits (l : list Z) (acc : Z) : Z := match l with [] => acc | c :: l' => digits l' (10 * acc + (c - 48)) end.
Definition some_lib : hlib := fun response t =>
  match cut_crlf t with
  | Some (first, r) =>
      let '(cs, rest) := scan (S (length r)) r in
      let ps := pairs_of [] cs in
      let cl := match field_values (str "content-length") ps with [] => 2 ^ 64 - 1 | ds :: _ => digits ds 0 end in
      let te := match field_values (str "transfer-encoding") ps with [] => false | _ => true end in
      if response then mkrep (zlen t - zlen rest) (CbOther :: cs) [] (digits (take 3 (drop 9 first)) 0) cl te
      else match cut_at 32 first with
           | Some (m, x) => match cut_at 32 x with
                            | Some (u, _) => mkrep (zlen t - zlen rest) (CbOther :: CbUrl u :: cs) m 0 cl te
                            | None => mkrep 0 [] [] 0 0 false
                            end
           | None => mkrep 0 [] [] 0 0 false
           end
  | None => mkrep 0 [] [] 0 0 false
  end.
