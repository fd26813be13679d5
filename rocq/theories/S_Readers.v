(** What the readers over a text in memory and over a file give, in terms of
    the text that is left. *)
From Verif Require Import Base M_IO M_File.

(** Ask for at least one and at most [n] bytes, for exactly [n], for a line. *)
Inductive ask := ASome (n : Z) | AExactly (n : Z) | ALine.
Definition positive (a : ask) : Prop := match a with ASome n | AExactly n => 0 < n | ALine => True end.
(** The callers' requests one after the other. *)
Fixpoint mem_asks (m : memio) (l : list ask) : list (res (list Z)) * memio :=
  match l with
  | [] => ([], m)
  | a :: l' =>
      let '(r, m1) := match a with ASome n => mem_read m n | AExactly n => mem_read_fully m n | ALine => mem_read_line m end in
      let '(rs, m2) := mem_asks m1 l' in (r :: rs, m2)
  end.
Fixpoint file_asks (f : fstm) (l : list ask) : list (res (list Z)) * fstm :=
  match l with
  | [] => ([], f)
  | a :: l' =>
      let '(r, f1) := match a with ASome n => f_read f n | AExactly n => f_read_fully f n | ALine => f_read_line f end in
      let '(rs, f2) := file_asks f1 l' in (r :: rs, f2)
  end.

(** One request on a text in memory: text left before, answer, text left. *)
Inductive mem_gives : list Z -> ask -> res (list Z) -> list Z -> Prop :=
| mg_end a : mem_gives [] a (Err ERROR_IO_EOF) []
| mg_some n a b : a <> [] -> zlen a <= n -> (b <> [] -> zlen a = n) -> mem_gives (a ++ b) (ASome n) (Ok a) b
| mg_exactly n a b : zlen a = n -> a <> [] -> mem_gives (a ++ b) (AExactly n) (Ok a) b
| mg_few n a : zlen a < n -> mem_gives a (AExactly n) (Err ERROR_IO_EOF) a
| mg_line a b : ~ In 10 a -> b <> [] -> mem_gives (a ++ 10 :: b) ALine (Ok a) b
| mg_last a : ~ In 10 a -> a <> [] -> mem_gives a ALine (Ok a) []
| mg_last_lf a : ~ In 10 a -> mem_gives (a ++ [10]) ALine (Ok (a ++ [10])) [].
Inductive mem_answers : list Z -> list ask -> list (res (list Z)) -> list Z -> Prop :=
| ma_nil t : mem_answers t [] [] t
| ma_cons t a r t1 l rs t2 : mem_gives t a r t1 -> mem_answers t1 l rs t2 -> mem_answers t (a :: l) (r :: rs) t2.

(** On a file: [None] once its end has been met. *)
Inductive file_gives : option (list Z) -> ask -> res (list Z) -> option (list Z) -> Prop :=
| fg_over a : file_gives None a (Err ERROR_IO_EOF) None
| fg_some n a b : zlen a = n -> file_gives (Some (a ++ b)) (ASome n) (Ok a) (Some b)
| fg_rest n a : zlen a < n -> file_gives (Some a) (ASome n) (Ok a) None
| fg_exactly n a b : zlen a = n -> file_gives (Some (a ++ b)) (AExactly n) (Ok a) (Some b)
| fg_few n a : zlen a < n -> file_gives (Some a) (AExactly n) (Err ERROR_IO_EOF) None
| fg_line a b : ~ In 10 a -> file_gives (Some (a ++ 10 :: b)) ALine (Ok a) (Some b)
| fg_last a : ~ In 10 a -> a <> [] -> file_gives (Some a) ALine (Ok a) None
| fg_none : file_gives (Some []) ALine (Err ERROR_IO_EOF) None.
Inductive file_answers : option (list Z) -> list ask -> list (res (list Z)) -> option (list Z) -> Prop :=
| fa_nil t : file_answers t [] [] t
| fa_cons t a r t1 l rs t2 : file_gives t a r t1 -> file_answers t1 l rs t2 -> file_answers t (a :: l) (r :: rs) t2.
