(* JSON values as they occur in the parameter files of /repo/OpenNTN/models/*.json, and
   dictionary look-up as done by the Python code on the result of json.load. *)
From Coq Require Import ZArith List String.
Import ListNotations.

(* A literal "12.50" is [JNum 1250 2]: the exact decimal 1250 / 10^2.
   A literal without fraction is [JInt].  (json.load: float vs int; distinguished by
   system_level_scenario.py:896-903.) *)
Inductive jval :=
| JNum (m : Z) (e : nat)
| JInt (z : Z)
| JBool (b : bool)
| JStr (s : string)
| JList (l : list jval).

(* system_level_scenario.py:893 *)
Definition json_obj := list (string * jval).

(* dict[key]; [None] is KeyError.  A Python dict built from a JSON object keeps the LAST value
   of a duplicated key, hence the search from the right. *)
(* system_level_scenario.py:895 *)
Fixpoint jlookup (k : string) (o : json_obj) : option jval :=
  match o with
  | [] => None
  | (k', v) :: o' =>
      match jlookup k o' with
      | Some w => Some w
      | None => if String.eqb k k' then Some v else None
      end
  end.
