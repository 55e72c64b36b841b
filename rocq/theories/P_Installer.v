(* Property C96: the installation scripts. *)
From Coq Require Import String Ascii List Bool Arith.
From Verif Require Import M_Base M_Install S_Install M_Installer S_Installer L_Installer.
Import ListNotations.

(* C96: the first run: the module is found under the host's channel models, the host's file gets the import directly after the anchor, the files of the package are those pip unpacked, and nothing else changes. *)
Theorem C96_first_run :
  forall legacy e fs opn sio files t pre a post,
  no_blank opn -> no_blank sio -> ready legacy e fs opn sio files t -> anchored t pre a post ->
  exists fs' t', install legacy e fs = (fs', true) /\
    resolve fs' (entry legacy sio) = Some (package_dir opn) /\ fs' (package_dir opn) = Some Dir /\
    fs' (host_file legacy sio) = Some (File t') /\ lines_of t' (pre ++ a :: (line_to_add ++ [nl]) :: post) /\
    (forall q, ~ below (package_dir opn) q -> q <> host_file legacy sio -> q <> entry legacy sio -> fs' q = fs q) /\
    (forall r, r <> [] -> ~ In r (map fst files) -> fs' (package_dir opn ++ r) = fs (package_dir opn ++ r)) /\
    (forall r n, r <> [] -> NoDup (map fst files) -> In (r, n) files -> fs' (package_dir opn ++ r) = Some n).
Proof. exact C96_first_run_l. Qed.
Print Assumptions C96_first_run.

(* a machine that meets the hypotheses: the host in /py, an empty home directory *)
Example C96_example :
  ready false (visit (nm "py") (Some (nm "/py")) true) (machine (nm "py")) (nm "/py") (nm "/py") package_files host_text /\
  no_inner (machine (nm "py")) (nm "/py") package_files /\ no_blank (nm "/py") /\
  anchored host_text [nm "import os" ++ [nl]] (preceding_line ++ [nl]) [nm "import re"].
Proof. exact (conj (proj1 machine_ready) (conj (proj1 (proj2 machine_ready)) (conj (proj2 (proj2 machine_ready)) host_anchored))). Qed.

(* C96, refuted: a second run puts a link named OpenNTN to the package into the package itself, on every machine where the first run succeeds; later runs change nothing more. Through the link the package contains itself to any depth the system resolves. *)
Theorem C96_second_run_refuted :
  forall legacy e fs opn sio files t,
  no_blank opn -> no_blank sio -> ready legacy e fs opn sio files t -> no_inner fs opn files ->
  let inner := package_dir opn ++ [nm "OpenNTN"] in
  installs legacy 1 e fs inner = None /\
  (forall n, installs legacy (2 + n) e fs = installs legacy 2 e fs) /\
  installs legacy 2 e fs inner = Some (Link (package_dir opn)) /\
  (forall q, q <> inner -> installs legacy 2 e fs q = installs legacy 1 e fs q) /\
  (forall k, (k <= 40)%nat ->
     resolve (installs legacy 2 e fs) (package_dir opn ++ repeat (nm "OpenNTN") k) = Some (package_dir opn)).
Proof. exact C96_repeated_l. Qed.
Print Assumptions C96_second_run_refuted.

(* C96, refuted: when the directory of the host contains a blank, the import is added, the module is not there and the script reports success: the host can no longer be imported. *)
Theorem C96_blank_refuted :
  forall legacy e fs x y t pre a post c,
  let sio := x ++ blank :: y in
  no_blank x -> e_sio e = Some sio -> e_fetch e = Some c -> e_genuine e c = true -> pip_step e fs = fs ->
  physical fs (channels legacy sio) -> fs (host_file legacy sio) = Some (File t) -> fs (entry legacy sio) = None ->
  fs (hook_path legacy e) = None -> anchored t pre a post ->
  (* the directory of the truncated name does not exist *)
  (exists p n r, comps x ++ channel_dir legacy = p ++ n :: r /\ physical fs p /\ fs (p ++ [n]) = None /\
                 hook_path legacy e <> p ++ [n]) ->
  exists fs', install legacy e fs = (fs', true) /\ asks_for_module legacy fs' sio /\ ~ module_there legacy fs' sio.
Proof. exact C96_blank_l. Qed.
Print Assumptions C96_blank_refuted.

(* a machine with the host in "/a b" *)
Example C96_blank_example :
  exists fs', install false (visit (nm "a b") (Some (nm "/a b")) false) (machine (nm "a b")) = (fs', true) /\
  asks_for_module false fs' (nm "/a b") /\ ~ module_there false fs' (nm "/a b").
Proof. exact blank_machine. Qed.

(* C96, refuted: the same when pip failed to install the package: the script goes on, adds the import and a link to /OpenNTN. *)
Theorem C96_failed_pip_refuted :
  forall legacy e fs sio t pre a post c,
  no_blank sio -> e_opn e = None -> e_sio e = Some sio -> e_fetch e = Some c -> e_genuine e c = true ->
  physical fs (channels legacy sio) -> fs (host_file legacy sio) = Some (File t) -> fs (entry legacy sio) = None ->
  fs (hook_path legacy e) = None -> anchored t pre a post -> fs [nm "OpenNTN"] = None ->
  exists fs', install legacy e fs = (fs', true) /\ asks_for_module legacy fs' sio /\ ~ module_there legacy fs' sio /\
              fs' (entry legacy sio) = Some (Link [nm "OpenNTN"]).
Proof. exact C96_failed_pip_l. Qed.
Print Assumptions C96_failed_pip_refuted.

(* the machine of C96_example when pip finds no package *)
Example C96_failed_pip_example :
  exists fs', install false (visit (nm "py") None false) (machine (nm "py")) = (fs', true) /\
  asks_for_module false fs' (nm "/py") /\ ~ module_there false fs' (nm "/py") /\
  fs' (entry false (nm "/py")) = Some (Link [nm "OpenNTN"]).
Proof. exact unreachable_machine. Qed.

(* C96, refuted: a file of the user with the name of the hook in the working directory (as in a clone of the repository) is deleted. *)
Theorem C96_own_file_refuted :
  forall legacy e fs c,
  let own := e_cwd e ++ [nm (script_file legacy)] in
  fs own = Some (File c) -> (forall opn, e_opn e = Some opn -> ~ below (package_dir opn) own) ->
  fst (install legacy e fs) own = None /\ snd (install legacy e fs) = true.
Proof. exact C96_own_file_l. Qed.
Print Assumptions C96_own_file_refuted.

(* C96, refuted: a file in the place of the link is kept and the import is added all the same; the script reports success. *)
Theorem C96_occupied_refuted :
  forall legacy e fs opn sio files t pre a post c,
  no_blank opn -> no_blank sio -> ready legacy e fs opn sio files t -> anchored t pre a post ->
  exists fs', install legacy e (put (entry legacy sio) (Some (File c)) fs) = (fs', true) /\
    asks_for_module legacy fs' sio /\ ~ module_there legacy fs' sio /\ fs' (entry legacy sio) = Some (File c) /\
    (forall q, ~ below (package_dir opn) q -> q <> host_file legacy sio -> q <> entry legacy sio -> fs' q = fs q) /\
    (forall r, r <> [] -> ~ In r (map fst files) -> fs' (package_dir opn ++ r) = fs (package_dir opn ++ r)).
Proof. exact C96_occupied_l. Qed.
Print Assumptions C96_occupied_refuted.

(* C96: the paths of the statements above, name by name. *)
Theorem C96_paths :
  forall legacy e p, proper_names p ->
  package_dir (spelt p) = p ++ [nm "OpenNTN"] /\
  host_file legacy (spelt p) = p ++ map nm (host_dir legacy ++ ["__init__.py"%string]) /\
  entry legacy (spelt p) = p ++ map nm (host_dir legacy ++ ["tr38811"%string]) /\
  hook_path legacy e = e_cwd e ++ [nm (script_file legacy)].
Proof. exact C96_paths_l. Qed.
Print Assumptions C96_paths.

(* the directory /home/py *)
Example C96_paths_example : proper_names [nm "home"; nm "py"] /\ spelt [nm "home"; nm "py"] = nm "/home/py".
Proof. split; [|reflexivity]. repeat constructor; try discriminate; cbn; intuition discriminate. Qed.

(* C96: without an anchor line the host's file is left as it is; the link is made and success is reported. *)
Theorem C96_no_anchor :
  forall legacy e fs opn sio files t u ls,
  no_blank opn -> no_blank sio -> ready legacy e fs opn sio files t ->
  same_text t u -> lines_of u ls ->
  Forall (fun l => ~ occurs line_to_add l) ls -> Forall (fun l => ~ occurs preceding_line l) ls ->
  exists fs', install legacy e fs = (fs', true) /\ fs' (host_file legacy sio) = Some (File t) /\ module_there legacy fs' sio.
Proof. exact C96_no_anchor_l. Qed.
Print Assumptions C96_no_anchor.

(* C96: without a download the script reports failure, but the link is made. *)
Theorem C96_offline :
  forall legacy e e0 fs opn sio files t,
  no_blank opn -> no_blank sio -> ready legacy e0 fs opn sio files t ->
  e_cwd e = e_cwd e0 -> e_opn e = e_opn e0 -> e_sio e = e_sio e0 -> e_pip e = e_pip e0 -> e_fetch e = None ->
  exists fs', install legacy e fs = (fs', false) /\ fs' (host_file legacy sio) = Some (File t) /\ module_there legacy fs' sio.
Proof. exact C96_offline_l. Qed.
Print Assumptions C96_offline.
