(** How protocol headers pack bit fields: (value, width) pairs, most
    significant field first. *)
From Verif Require Import Base.

Definition pack (fs : list (Z * Z)) : Z := fold_left (fun a f => a * 2 ^ snd f + fst f) fs 0.
Definition fields_fit (fs : list (Z * Z)) : bool :=
  forallb (fun f => (0 <=? fst f) && (fst f <? 2 ^ snd f)) fs.
