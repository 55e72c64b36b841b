(* Vocabulary of the installer properties, independent of the model's scanning functions. *)
From Coq Require Import String Ascii List.
From Verif Require Import M_Install.
Import ListNotations.

(* `sub` occurs in `t` *)
Definition occurs (sub t : text) : Prop := exists a b, t = a ++ sub ++ b.

(* a complete line: no line feed except the one that ends it *)
Definition full_line (l : text) : Prop := exists b, l = b ++ [nl] /\ ~ In nl b.
(* a last line without terminator *)
Definition open_line (l : text) : Prop := l <> [] /\ ~ In nl l.

(* the lines of a text *)
Definition lines_of (t : text) (ls : list text) : Prop :=
  t = concat ls /\
  (Forall full_line ls \/ exists front last, ls = front ++ [last] /\ Forall full_line front /\ open_line last).

(* two texts that differ only in how line ends are written *)
Inductive same_text : text -> text -> Prop :=
| same_nil : same_text [] []
| same_char c a b : c <> cr -> same_text a b -> same_text (c :: a) (c :: b)
| same_crlf a b : same_text a b -> same_text (cr :: nl :: a) (nl :: b)
| same_cr a b : hd_error a <> Some nl -> same_text a b -> same_text (cr :: a) (nl :: b).
