(* Properties of the installer hook: C56. *)
From Coq Require Import String Ascii List Arith.
From Verif Require Import M_Base M_Install S_Install L_Install.
Import ListNotations.
Open Scope list_scope.

(* C56: whatever the line ends, if no line has the import and the first line with the anchor is complete, the run inserts the import line directly after it and keeps every other line in order. *)
Theorem C56_inserts_after_anchor :
  forall t u (pre : list text) (a : text) (post : list text),
  same_text t u -> lines_of u (pre ++ a :: post) ->
  Forall (fun l => ~ occurs line_to_add l) (pre ++ a :: post) ->
  Forall (fun l => ~ occurs preceding_line l) pre -> occurs preceding_line a -> full_line a ->
  exists t', modify (Some t) = (Some t', Added) /\
             lines_of t' (pre ++ a :: (line_to_add ++ [nl]) :: post).
Proof. exact C56_inserts_l. Qed.
Print Assumptions C56_inserts_after_anchor.

(* A host file with CRLF ends, two lines around the anchor and no terminator on the last line. *)
Example installer_example :
  let s := list_ascii_of_string in
  let t := s "import a"%string ++ [cr; nl] ++ preceding_line ++ s " as t"%string ++ [cr; nl] ++ s "import b"%string in
  let a := preceding_line ++ s " as t"%string ++ [nl] in
  (exists u, same_text t u /\ lines_of u ([s "import a"%string ++ [nl]] ++ a :: [s "import b"%string]) /\
     Forall (fun l => ~ occurs line_to_add l) ([s "import a"%string ++ [nl]] ++ a :: [s "import b"%string]) /\
     Forall (fun l => ~ occurs preceding_line l) [s "import a"%string ++ [nl]] /\ occurs preceding_line a /\ full_line a) /\
  runs 5 (Some t) = Some (s "import a"%string ++ [nl] ++ a ++ line_to_add ++ [nl] ++ s "import b"%string).
Proof.
  cbv zeta. split; [|vm_compute; reflexivity].
  eexists. split; [apply universal_same|].
  assert (L : forall l s, isin s l = false -> ~ occurs s l) by (intros; apply isin_not; assumption).
  split.
  - match goal with |- lines_of ?x ?y => change y with (readlines x) end. apply readlines_lines.
  - split; [|split; [|split]].
    + repeat constructor; apply L; vm_compute; reflexivity.
    + repeat constructor; apply L; vm_compute; reflexivity.
    + apply isin_iff; vm_compute; reflexivity.
    + eexists (preceding_line ++ list_ascii_of_string " as t"%string). split; [reflexivity|].
      cbn. intuition discriminate.
Qed.

(* the characters and texts the statements speak of *)
Example installer_texts :
  nl = ascii_of_nat 10 /\ cr = ascii_of_nat 13 /\
  string_of_list_ascii preceding_line = "from . import tr38901"%string /\ string_of_list_ascii line_to_add = "from . import tr38811"%string.
Proof. repeat split. Qed.

(* C56: a file that has the import already, or has no anchor, is left byte for byte unchanged; a missing file stays missing. *)
Theorem C56_untouched :
  forall t u ls, same_text t u -> lines_of u ls ->
  ((exists l, In l ls /\ occurs line_to_add l) -> modify (Some t) = (Some t, AlreadyThere)) /\
  (Forall (fun l => ~ occurs line_to_add l) ls -> Forall (fun l => ~ occurs preceding_line l) ls ->
     modify (Some t) = (Some t, NoAnchor)) /\
  modify None = (None, Failed).
Proof. exact C56_untouched_l. Qed.
Print Assumptions C56_untouched.

(* C56: any number of runs has the effect of one run. *)
Theorem C56_idempotent :
  forall host n, runs (S n) host = fst (modify host).
Proof. exact C56_idempotent_l. Qed.
Print Assumptions C56_idempotent.

(* C56: the import is never added twice: after any number of runs at most one line of a file that had none carries it. *)
Theorem C56_at_most_once :
  forall t u ls n t' u' ls' i j li lj,
  same_text t u -> lines_of u ls -> Forall (fun l => ~ occurs line_to_add l) ls ->
  runs n (Some t) = Some t' -> same_text t' u' -> lines_of u' ls' ->
  nth_error ls' i = Some li -> occurs line_to_add li ->
  nth_error ls' j = Some lj -> occurs line_to_add lj -> i = j.
Proof. exact C56_at_most_once_l. Qed.
Print Assumptions C56_at_most_once.

(* C56 is false when the anchor is the last line and has no line feed: the import is glued to it, the anchor line is destroyed and no import line results. *)
Theorem C56_unterminated_anchor_refuted :
  exists t,
  (* one complete anchor line, but the file does not end with a line feed *)
  lines_of t [preceding_line] /\
  (exists t', fst (modify (Some t)) = Some t' /\
     forall ls, lines_of t' ls -> ~ In preceding_line ls /\ ~ In (preceding_line ++ [nl]) ls /\
                                  ~ In line_to_add ls /\ ~ In (line_to_add ++ [nl]) ls).
Proof. exact C56_refuted_l. Qed.
Print Assumptions C56_unterminated_anchor_refuted.
