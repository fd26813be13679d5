(** Specification of bit-level access, independent of the cursor model: a
    buffer is its list of bits, most significant bit of each byte first. *)
From Verif Require Import Base M_Bits.

Definition byte_bits (b : Z) : list bool := map (Z.testbit b) [7;6;5;4;3;2;1;0].
Definition bits_of (l : list Z) : list bool := flat_map byte_bits l.
Definition bval (bs : list bool) : Z := fold_left (fun a b => 2 * a + Z.b2z b) bs 0.

(** What a sequence of read operations must return on a bit string; [None] if
    it asks for more than there is (or for whole bytes while unaligned). *)
Definition spec_bit_step (bs : list bool) (o : bop) : option (bout * list bool) :=
  match o with
  | RBits n =>
      if (0 <=? n) && (n <=? zlen bs)
      then Some (OVal (bval (take n bs) mod 2 ^ 32), drop n bs) else None
  | RSkip n =>
      if (0 <=? n) && (8 * n <=? zlen bs) then Some (OSkip, drop (8 * n) bs) else None
  | RBytes n =>
      if (0 <=? n) && (8 * n <=? zlen bs) && (zlen bs mod 8 =? 0)
      then Some (OBytes (map (fun i => bval (take 8 (drop (8 * Z.of_nat i) bs)))
                             (seq 0 (Z.to_nat n))), drop (8 * n) bs)
      else None
  end.
Fixpoint spec_bit_run (bs : list bool) (ops : list bop) : option (list bout * list bool) :=
  match ops with
  | [] => Some ([], bs)
  | o :: ops' =>
      match spec_bit_step bs o with
      | None => None
      | Some (x, bs') =>
          match spec_bit_run bs' ops' with
          | None => None
          | Some (xs, bs'') => Some (x :: xs, bs'')
          end
      end
  end.

(** The [n] low bits of [v], most significant first. *)
Definition nbits (n v : Z) : list bool :=
  map (fun i => Z.testbit v (n - 1 - Z.of_nat i)) (seq 0 (Z.to_nat n)).

(** Total width of a list of (value, width) fields. *)
Fixpoint widths (fs : list (Z * Z)) : Z :=
  match fs with [] => 0 | (_, n) :: fs' => n + widths fs' end.

(** The byte-local pieces of an [n]-bit field that starts at bit offset [o]:
    a list of (piece width, index of the piece's lowest bit in the field). *)
Fixpoint pieces (fuel : nat) (o n : Z) : list (Z * Z) :=
  match fuel with
  | O => []
  | S f =>
      if n <=? 0 then [] else
      let w := Z.min n (8 - o mod 8) in
      (w, n - w) :: pieces f (o + w) (n - w)
  end.
(** The writer's defect: a piece of width six loses its bit 4. *)
Definition piece_ok (v : Z) (p : Z * Z) : bool :=
  negb ((fst p =? 6) && Z.testbit v (snd p + 4)).
Definition field_ok (o : Z) (f : Z * Z) : bool :=
  forallb (piece_ok (fst f)) (pieces (Z.to_nat (snd f)) o (snd f)).
Fixpoint fields_ok (o : Z) (fs : list (Z * Z)) : bool :=
  match fs with
  | [] => true
  | f :: fs' => field_ok o f && fields_ok (o + snd f) fs'
  end.

(** Field by field: the value read back at offset [o] is the value written if
    and only if the field is not hit by the defect. *)
Fixpoint readback_exact (o : Z) (fs : list (Z * Z)) (outs : list bout) : Prop :=
  match fs, outs with
  | [], [] => True
  | f :: fs', OVal x :: outs' =>
      (x = fst f mod 2 ^ snd f <-> field_ok o f = true) /\ readback_exact (o + snd f) fs' outs'
  | _, _ => False
  end.
