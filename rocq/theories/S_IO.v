(** Specification of stream reading: a parser sees a byte stream, not chunks. *)
From Verif Require Import Base M_IO.

(** Acquire [n], consume [k] on the plain stream, with a buffer of [cap]
    bytes and end-of-stream error [e]. *)
Fixpoint spec_stream_run (cap e : Z) (stream : list Z) (ops : list (Z * Z))
  : list (res (list Z)) * list Z :=
  match ops with
  | [] => ([], stream)
  | (n, k) :: ops' =>
      if cap <? n then ([Err ERROR_IO_BUFFER_FULL], stream)
      else if zlen stream <? n then ([Err e], stream)
      else let '(o, s) := spec_stream_run cap e (drop k stream) ops' in
           (Ok (take k stream) :: o, s)
  end.

Definition nonempty_chunks (cs : list (list Z)) : Prop := Forall (fun c => c <> []) cs.
Definition t_stream (t : transport) : list Z := concat (t_chunks t).

(** Splitting a text at newlines, as a text editor would: every newline ends a
    line; a last line without newline counts if it is not empty. *)
Fixpoint split_lines (cur : list Z) (l : list Z) : list (list Z) :=
  match l with
  | [] => match cur with [] => [] | _ => [rev cur] end
  | c :: l' => if c =? LF then rev cur :: split_lines [] l' else split_lines (c :: cur) l'
  end.
Definition lines_of (l : list Z) : list (list Z) := split_lines [] l.

(** The defect: if the text ends with a newline, the last line keeps it. *)
Definition ends_with_lf (l : list Z) : bool := match rev l with c :: _ => c =? LF | [] => false end.
Fixpoint add_lf_to_last (ls : list (list Z)) : list (list Z) :=
  match ls with
  | [] => []
  | [l] => [l ++ [LF]]
  | l :: ls' => l :: add_lf_to_last ls'
  end.
Definition lines_as_read (l : list Z) : list (list Z) :=
  if ends_with_lf l then add_lf_to_last (lines_of l) else lines_of l.
