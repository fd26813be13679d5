(** Text helpers of the C and C++ standard libraries that the modelled code
    calls.  They are not part of /repo; they are modelled from the C++17 and
    C11 standards.  Each comment names the callers. *)
From Verif Require Import Base.

(** Digit character of a value below 16 (lower case, as [std::hex] prints). *)
Definition digit (d : Z) : Z := if d <? 10 then 48 + d else 87 + d.

(** Positional notation without leading zeros; [fuel] exceeds the number of
    digits ([print_base] supplies log2 n + 1). *)
Fixpoint digits (fuel : nat) (b n : Z) (acc : list Z) : list Z :=
  match fuel with
  | O => acc
  | S f => if n <? b then digit n :: acc else digits f b (n / b) (digit (n mod b) :: acc)
  end.
Definition print_base (b n : Z) : list Z := digits (S (Z.to_nat (Z.log2 n))) b n [].
(** [ss << std::hex << size], src/module/http/sps_http_socket.cpp:227. *)
Definition hexs (n : Z) : list Z := print_base 16 n.
(** [ss << n] of an int or size_t: sps_http_socket.cpp:186,
    src/io/url/sps_io_url_http.cpp:52. *)
Definition decs (n : Z) : list Z := if n <? 0 then 45 :: print_base 10 (- n) else print_base 10 n.

Definition is_space (c : Z) : bool := (c =? 32) || ((9 <=? c) && (c <=? 13)).
Definition hexval (c : Z) : option Z :=
  if (48 <=? c) && (c <=? 57) then Some (c - 48)
  else if (97 <=? c) && (c <=? 102) then Some (c - 87)
  else if (65 <=? c) && (c <=? 70) then Some (c - 55) else None.
Definition decval (c : Z) : option Z := if (48 <=? c) && (c <=? 57) then Some (c - 48) else None.
Fixpoint skip_space (l : list Z) : list Z :=
  match l with [] => [] | c :: l' => if is_space c then skip_space l' else l end.
(** Value of the longest run of digits at the front. *)
Fixpoint numrun (dv : Z -> option Z) (b : Z) (l : list Z) (acc : Z) : Z :=
  match l with
  | [] => acc
  | c :: l' => match dv c with Some d => numrun dv b l' (acc * b + d) | None => acc end
  end.
(** The optional sign of strtoul and atoi. *)
Definition sign_of (l : list Z) : bool * list Z :=
  match l with
  | c :: l' => if c =? 45 then (true, l') else if c =? 43 then (false, l') else (false, l)
  | [] => (false, [])
  end.
(** The optional 0x prefix, skipped only when a hexadecimal digit follows. *)
Definition skip_0x (l : list Z) : list Z :=
  match l with
  | z :: x :: d :: l' =>
      if (z =? 48) && ((x =? 120) || (x =? 88)) then
        match hexval d with Some _ => d :: l' | None => l end
      else l
  | _ => l
  end.
(** [std::strtoul(s, nullptr, 16)], sps_http_socket.cpp:121 and
    sps_io_url_http.cpp:171: blanks, sign, 0x, digits; saturates at ULONG_MAX;
    a minus sign negates modulo 2^64.  The terminating NUL stops the digits. *)
Definition strtoul16 (l : list Z) : Z :=
  let '(neg, l1) := sign_of (skip_space l) in
  let v := numrun hexval 16 (skip_0x l1) 0 in
  if 2 ^ 64 - 1 <? v then 2 ^ 64 - 1 else if neg then u64 (- v) else v.
(** [atoi(s)], src/io/url/sps_io_url.cpp:202 and others.  Overflow is
    undefined in C; glibc computes strtol (saturating at 64 bit) and
    truncates to int, which is what is modelled. *)
Definition atoi (l : list Z) : Z :=
  let '(neg, l1) := sign_of (skip_space l) in
  let v := numrun decval 10 l1 0 in
  s32 (if neg then Z.max (- 2 ^ 63) (- v) else Z.min (2 ^ 63 - 1) v).

(** [std::string::find(c, from)]: index of the first [c] at or after the front
    of the list. *)
Fixpoint find_char (c : Z) (l : list Z) : option Z :=
  match l with
  | [] => None
  | x :: l' => if x =? c then Some 0 else
      match find_char c l' with Some i => Some (i + 1) | None => None end
  end.
(** [std::string::rfind]. *)
Definition rfind_char (c : Z) (l : list Z) : option Z :=
  match find_char c (rev l) with Some i => Some (zlen l - 1 - i) | None => None end.
(** The characters of a C string: up to the first NUL. *)
Fixpoint cstr (l : list Z) : list Z :=
  match l with [] => [] | c :: l' => if c =? 0 then [] else c :: cstr l' end.

(** Associative lists of strings (std::list<RequestHeader>, std::map). *)
Definition kv := (list Z * list Z)%type.
Fixpoint kv_find (k : list Z) (l : list kv) : option (list Z) :=
  match l with
  | [] => None
  | (k', v) :: l' => if eqb_list k' k then Some v else kv_find k l'
  end.
