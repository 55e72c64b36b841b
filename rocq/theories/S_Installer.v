(* Vocabulary of the properties of the installation scripts. *)
From Coq Require Import String Ascii List.
From Verif Require Import M_Install S_Install M_Installer.
Import ListNotations.

(* every directory on the way to p is a real directory *)
Definition physical (fs : fsys) (p : path) : Prop :=
  forall a b, p = a ++ b -> a <> [] -> fs a = Some Dir.
(* p is b or lies below b *)
Definition below (b p : path) : Prop := exists r, p = b ++ r.
(* a directory name that survives `cut -d' ' -f2` *)
Definition no_blank (t : text) : Prop := ~ In blank t.

(* the files the script is about *)
Definition package_dir (opn : text) : path := comps opn ++ [nm "OpenNTN"].
Definition channels (legacy : bool) (sio : text) : path := comps sio ++ channel_dir legacy.
Definition host_file (legacy : bool) (sio : text) : path := channels legacy sio ++ [nm "__init__.py"].
Definition entry (legacy : bool) (sio : text) : path := channels legacy sio ++ [nm "tr38811"].

(* a machine on which the script can work: the host and the place of the package are there, pip and
   the download succeed, nothing has been installed yet, and the files do not overlap *)
Record ready (legacy : bool) (e : env) (fs : fsys) (opn sio : text) (files : list (path * node)) (t : text) : Prop := {
  r_opn : e_opn e = Some opn;
  r_sio : e_sio e = Some sio;
  r_pip : e_pip e = Some files;
  r_fetch : exists c, e_fetch e = Some c /\ e_genuine e c = true;
  r_site : physical fs (comps opn);
  r_chan : physical fs (channels legacy sio);
  r_host : fs (host_file legacy sio) = Some (File t);
  r_entry : fs (entry legacy sio) = None;
  r_hook : fs (hook_path legacy e) = None;
  r_out_chan : forall n, ~ below (package_dir opn) (channels legacy sio ++ [n]);
  r_out_cwd : ~ below (package_dir opn) (hook_path legacy e) }.

(* the host's file asks for the module *)
Definition asks_for_module (legacy : bool) (fs : fsys) (sio : text) : Prop :=
  exists q t a b, resolve fs (host_file legacy sio) = Some q /\ fs q = Some (File t) /\ t = a ++ line_to_add ++ b.
(* the module can be found *)
Definition module_there (legacy : bool) (fs : fsys) (sio : text) : Prop :=
  exists d, resolve fs (entry legacy sio) = Some d /\ fs d = Some Dir.

(* a host file into which the import can be put: its lines are pre, a, post (up to how line ends are
   written), the first line naming tr38901 is a, complete, and no line asks for the module yet *)
Definition anchored (t : text) (pre : list text) (a : text) (post : list text) : Prop :=
  exists u, same_text t u /\ lines_of u (pre ++ a :: post) /\
    Forall (fun l => ~ occurs line_to_add l) (pre ++ a :: post) /\
    Forall (fun l => ~ occurs preceding_line l) pre /\ occurs preceding_line a /\ full_line a.
(* nothing inside the package carries its own name *)
Definition no_inner (fs : fsys) (opn : text) (files : list (path * node)) : Prop :=
  fs (package_dir opn ++ [nm "OpenNTN"]) = None /\ forall f, In f files -> fst f <> [nm "OpenNTN"].

(* a directory written as text, a slash before every name *)
Definition spelt (p : path) : text := concat (map (fun n => "/"%char :: n) p).
Definition proper_names (p : path) : Prop := Forall (fun n => n <> [] /\ ~ In "/"%char n) p.
(* the names of the scripts, of the host and of the package *)
Definition script_file (legacy : bool) : string := if legacy then "post_install_legacy.py" else "post_install.py".
Definition host_dir (legacy : bool) : list string := if legacy then ["sionna"; "channel"]%string else ["sionna"; "phy"; "channel"]%string.
