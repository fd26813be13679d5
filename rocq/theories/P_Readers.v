(** Property C201: texts in memory and files, whatever is asked of them. *)
From Verif Require Import Base M_IO S_IO M_File S_Readers L_Readers.

(** Any mix of requests on a text in memory is answered from one position that
    only moves forward; the text is not changed.  (A line that is the last one
    keeps its newline.) *)
Theorem memory_mixed_requests : forall text l, Forall positive l ->
  exists rs m left, mem_asks (mem_new text) l = (rs, m) /\ mem_answers text l rs left /\ mem_buf m = text.
Proof.
  intros text l HF. destruct (mem_all l (mem_new text) text) as (rs & m & t & E & A & B); [exists []; auto|exact HF|]. exists rs, m, t. auto.
Qed.
Example memory_mixed_case :
  fst (mem_asks (mem_new [65; 66; 10; 67; 68; 69; 10]) [ASome 1; ALine; AExactly 2; AExactly 9; ALine; ASome 4]) =
    [Ok [65]; Ok [66]; Ok [67; 68]; Err ERROR_IO_EOF; Ok [69; 10]; Err ERROR_IO_EOF].
Proof. reflexivity. Qed.
Print Assumptions memory_mixed_requests.

(** The same for a file; a request for an exact number of bytes that the file
    does not have uses up what is left, and nothing follows. *)
Theorem file_mixed_requests : forall text l, Forall positive l ->
  exists rs f left, file_asks (f_new text) l = (rs, f) /\ file_answers (Some text) l rs left /\ f_out f = [].
Proof.
  intros text l HF. destruct (file_all l (f_new text) (Some text)) as (rs & f & t & E & A & B); [split; [reflexivity|cbn; auto]|exact HF|]. exists rs, f, t. auto.
Qed.
Example file_mixed_case :
  fst (file_asks (f_new [65; 66; 10; 67; 68; 69; 10]) [ASome 1; ALine; AExactly 2; ALine; ASome 4; ALine]) =
    [Ok [65]; Ok [66]; Ok [67; 68]; Ok [69]; Ok []; Err ERROR_IO_EOF] /\
  fst (file_asks (f_new [65; 66; 10; 67]) [AExactly 2; AExactly 9; ALine; ASome 1]) =
    [Ok [65; 66]; Err ERROR_IO_EOF; Err ERROR_IO_EOF; Err ERROR_IO_EOF].
Proof. split; reflexivity. Qed.
Print Assumptions file_mixed_requests.

(** These answers are the only ones the two descriptions allow. *)
Theorem mixed_answers_determined :
  (forall t a r1 t1 r2 t2, positive a -> mem_gives t a r1 t1 -> mem_gives t a r2 t2 -> r1 = r2 /\ t1 = t2) /\
  (forall t a r1 t1 r2 t2, file_gives t a r1 t1 -> file_gives t a r2 t2 -> r1 = r2 /\ t1 = t2).
Proof.
  split.
  - intros t a r1 t1 r2 t2 Hp H1 H2. apply (mem_gives_det t a r1 t1 r2 t2 Hp H1 H2).
  - intros t a r1 t1 r2 t2 H1 H2. apply (file_gives_det t a r1 t1 r2 t2 H1 H2).
Qed.
Print Assumptions mixed_answers_determined.

(** Where the two readers differ: the last line, and what is left behind by a
    request that asks for too much. *)
Example memory_and_file_differ :
  fst (mem_asks (mem_new [65; 66; 10]) [AExactly 4; ALine]) = [Err ERROR_IO_EOF; Ok [65; 66; 10]] /\
  fst (file_asks (f_new [65; 66; 10]) [AExactly 4; ALine]) = [Err ERROR_IO_EOF; Err ERROR_IO_EOF].
Proof. split; reflexivity. Qed.
