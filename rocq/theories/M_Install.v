(* Model of the hook that registers the package with its host: /repo/post_install.py (and
   /repo/post_install_legacy.py, which differs only in the host path).
   A file is its list of characters after decoding; the codec itself is not modelled. *)
From Coq Require Import String Ascii List Bool Arith.
From Verif Require Import M_Base.
Import ListNotations.

(* the contents read and written at post_install.py:20-38 *)
Definition text := list ascii.
(* post_install.py:37 *)
Definition nl : ascii := "010"%char.
(* post_install.py:20 *)
Definition cr : ascii := "013"%char.

(* open(path, 'r'): text mode with universal newlines; "\r\n" and a lone "\r" read as "\n"
   /repo/post_install.py:20 *)
Fixpoint universal (t : text) : text :=
  match t with
  | [] => []
  | c :: r =>
      if Ascii.eqb c cr
      then nl :: match r with
                 | d :: r' => if Ascii.eqb d nl then universal r' else universal r
                 | [] => []
                 end
      else c :: universal r
  end.

(* file.readlines(): the lines with their terminators; the last may have none
   /repo/post_install.py:21 *)
Fixpoint readlines (t : text) : list text :=
  match t with
  | [] => []
  | c :: r =>
      if Ascii.eqb c nl then [c] :: readlines r
      else match readlines r with
           | [] => [[c]]
           | l :: ls => (c :: l) :: ls
           end
  end.

(* str.startswith, used by `in` *)
(* post_install.py:23 *)
Fixpoint starts (s t : text) : bool :=
  match s, t with
  | [], _ => true
  | a :: s', b :: t' => Ascii.eqb a b && starts s' t'
  | _, _ => false
  end.

(* `s in t` on strings /repo/post_install.py:23, post_install.py:29 *)
Fixpoint isin (s t : text) : bool :=
  starts s t || match t with [] => false | _ :: r => isin s r end.

(* /repo/post_install.py:17 *)
Definition line_to_add : text := list_ascii_of_string "from . import tr38811".
(* /repo/post_install.py:18 *)
Definition preceding_line : text := list_ascii_of_string "from . import tr38901".

(* for i, line in enumerate(lines): if preceding_line in line: insert_index = i+1; break
   /repo/post_install.py:28-31 *)
Fixpoint find_index (i : nat) (lines : list text) : option nat :=
  match lines with
  | [] => None
  | l :: ls => if isin preceding_line l then Some (S i) else find_index (S i) ls
  end.

(* list.insert /repo/post_install.py:37 *)
Definition insert_at {A} (i : nat) (x : A) (l : list A) : list A := firstn i l ++ x :: skipn i l.

(* what the run reports on the console /repo/post_install.py:33-46 *)
Inductive report := AlreadyThere | Added | NoAnchor | Failed.

(* modify_vanilla_sionna: the host file is None when the package or the file cannot be found (the
   exception is caught and printed) /repo/post_install.py:8-47.
   Simplified: reading and writing an existing file succeed. On writing, "\n" is written as is
   (the behaviour on systems whose line separator is "\n"). *)
Definition modify (host : option text) : option text * report :=
  match host with
  | None => (None, Failed)
  | Some content =>
      let lines := readlines (universal content) in
      let line_present := existsb (isin line_to_add) lines in
      let insert_index := if line_present then None else find_index 0 lines in
      match insert_index with
      | Some i => (Some (concat (insert_at i (line_to_add ++ [nl]) lines)), Added)
      | None => (Some content, if line_present then AlreadyThere else NoAnchor)
      end
  end.

(* n runs of the hook *)
(* repeated runs of post_install.py:8-47 *)
Fixpoint runs (n : nat) (host : option text) : option text :=
  match n with O => host | S k => runs k (fst (modify host)) end.
