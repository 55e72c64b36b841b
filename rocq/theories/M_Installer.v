(* Model of the installation scripts /repo/install.sh and /repo/install_legacy.sh, around the hook of
   M_Install.  A file system is a map from physical paths to nodes; the outcomes of pip and curl are
   arguments.  The scripts have no `set -e`: a failing command does not stop them. *)
From Coq Require Import String Ascii List Bool Arith.
From Verif Require Import M_Base M_Install.
Import ListNotations.

(* names below the root directory; install.sh:17-19 *)
Definition path := list text.
(* what a path can hold; install.sh:11, install.sh:19 *)
Inductive node := File (t : text) | Dir | Link (target : path).
(* the file system the script runs on; install.sh:6-22 *)
Definition fsys := path -> option node.

(* equality of paths, used by every update below; install.sh:6-22 *)
Definition path_eqb (p q : path) : bool :=
  if list_eq_dec (list_eq_dec ascii_dec) p q then true else false.
(* creating or overwriting one node; install.sh:11, install.sh:19, post_install.py:38 *)
Definition put (p : path) (n : option node) (fs : fsys) : fsys :=
  fun q => if path_eqb p q then n else fs q.

(* path resolution of the operating system: symbolic links are followed, also the last one; more
   than `fuel` links end in ELOOP; used by open() at post_install.py:20 and by ln at install.sh:19.
   Simplified: all link targets are absolute, as those install.sh:19 creates. *)
Fixpoint walk (fuel : nat) (fs : fsys) : path -> path -> option path :=
  fix go (cur rest : path) {struct rest} : option path :=
    match rest with
    | [] => Some cur
    | c :: r =>
        match fs (cur ++ [c]) with
        | None => None
        | Some Dir => go (cur ++ [c]) r
        | Some (File _) => match r with [] => Some (cur ++ [c]) | _ => None end
        | Some (Link t) => match fuel with O => None | S f => walk f fs [] (t ++ r) end
        end
    end.

(* the limit of Linux on links followed in one resolution (MAXSYMLINKS); install.sh:19 *)
Definition max_links : nat := 40.
(* resolving an absolute path; install.sh:19, post_install.py:20 *)
Definition resolve (fs : fsys) (p : path) : option path := walk max_links fs [] p.

(* the blank of install.sh:17 *)
Definition blank : ascii := " "%char.
(* up to the first blank, and what follows it; cut -d' ' at install.sh:17-18 *)
Fixpoint split_blank (t : text) : text * option text :=
  match t with
  | [] => ([], None)
  | c :: r => if Ascii.eqb c blank then ([], Some r)
              else let (a, b) := split_blank r in (c :: a, b)
  end.
(* cut -d' ' -f2: a line without the delimiter is printed whole; install.sh:17-18 *)
Definition cut2 (line : text) : text :=
  match split_blank line with
  | (a, None) => a
  | (_, Some r) => fst (split_blank r)
  end.

(* split at slashes, empty names dropped; `cur` is the name being read, reversed; install.sh:17-19 *)
Fixpoint comps_from (cur : text) (t : text) : path :=
  match t with
  | [] => match cur with [] => [] | _ => [rev cur] end
  | c :: r => if Ascii.eqb c "/"%char
              then match cur with [] => comps_from [] r | _ => rev cur :: comps_from [] r end
              else comps_from (c :: cur) r
  end.
(* a path given as text; install.sh:17-19, post_install.py:14-15 *)
Definition comps (t : text) : path := comps_from [] t.

(* a name in the script; install.sh:9-19 *)
Definition nm (s : string) : text := list_ascii_of_string s.

(* $(pip show X | grep Location | cut -d' ' -f2): the line "Location: " followed by the directory, no
   output when the package is not installed; install.sh:17-18.
   Simplified: no other line of the output contains "Location", and directories contain no tab or
   line feed, so that the unquoted expansion at install.sh:19 is one word. *)
Definition shown (loc : option text) : text :=
  match loc with None => [] | Some l => cut2 (nm "Location: " ++ l) end.

(* where the host keeps its channel models; install.sh:19, install_legacy.sh:19, post_install.py:14,
   post_install_legacy.py:14 *)
Definition channel_dir (legacy : bool) : path :=
  if legacy then [nm "sionna"; nm "channel"] else [nm "sionna"; nm "phy"; nm "channel"].

(* what the script meets: working directory, the locations pip knows after line 6, the files pip
   unpacked (None: pip failed), the downloaded text (None: no download), and which texts are the
   genuine hook; install.sh:6-18 *)
Record env := {
  e_cwd : path;
  e_opn : option text;
  e_sio : option text;
  e_pip : option (list (path * node));
  e_fetch : option text;
  e_genuine : text -> bool }.

(* $(basename "$POST_INSTALL_URL"); install.sh:9-10, install_legacy.sh:9-10 *)
Definition hook_name (legacy : bool) : text :=
  if legacy then nm "post_install_legacy.py" else nm "post_install.py".
(* the downloaded file; install.sh:11 *)
Definition hook_path (legacy : bool) (e : env) : path := e_cwd e ++ [hook_name legacy].

(* pip unpacking the package directory over what is there; install.sh:6.
   Simplified: entries are written at their physical paths. *)
Definition unpack (base : path) (files : list (path * node)) (fs : fsys) : fsys :=
  fun q => if path_eqb base q then Some Dir
           else match find (fun f => path_eqb (base ++ fst f) q) files with
                | Some f => Some (snd f)
                | None => fs q
                end.
(* install.sh:6 *)
Definition pip_step (e : env) (fs : fsys) : fsys :=
  match e_pip e, e_opn e with
  | Some files, Some loc => unpack (comps loc ++ [nm "OpenNTN"]) files fs
  | _, _ => fs
  end.
(* curl -L -o: an existing file is overwritten; install.sh:11 *)
Definition curl_step (legacy : bool) (e : env) (fs : fsys) : fsys :=
  match e_fetch e with
  | Some c => put (hook_path legacy e) (Some (File c)) fs
  | None => fs
  end.
(* the hook on the file system: every exception is caught and printed; post_install.py:10-47 *)
Definition hook (legacy : bool) (e : env) (fs : fsys) : fsys :=
  match e_sio e with
  | None => fs
  | Some loc =>
      match resolve fs (comps loc ++ channel_dir legacy ++ [nm "__init__.py"]) with
      | Some q =>
          match fs q with
          | Some (File t) =>
              match fst (modify (Some t)) with
              | Some t' => put q (Some (File t')) fs
              | None => fs
              end
          | _ => fs
          end
      | None => fs
      end
  end.
(* python "$POST_INSTALL_NAME"; install.sh:14.  Simplified: a text that is not the genuine hook (an
   error page stored by curl) stops with an error and has no effect. *)
Definition python_step (legacy : bool) (e : env) (fs : fsys) : fsys :=
  match fs (hook_path legacy e) with
  | Some (File c) => if e_genuine e c then hook legacy e fs else fs
  | _ => fs
  end.
(* whether a physical path is a directory; install.sh:19 *)
Definition is_dir (fs : fsys) (p : path) : bool :=
  match p with [] => true | _ => match fs p with Some Dir => true | _ => false end end.
(* creating a link where nothing is, in an existing directory; install.sh:19 *)
Definition make_link (fs : fsys) (dir : path) (name : text) (target : path) : fsys :=
  match fs (dir ++ [name]) with
  | None => put (dir ++ [name]) (Some (Link target)) fs
  | Some _ => fs
  end.
(* ln -s target dest: inside dest if that is a directory (links followed), else at dest; install.sh:19 *)
Definition ln_s (fs : fsys) (target dest : path) : fsys :=
  let at_dest :=
    match resolve fs (removelast dest) with
    | Some d => if is_dir fs d then make_link fs d (last dest []) target else fs
    | None => fs
    end in
  match resolve fs dest with
  | Some p => if is_dir fs p then make_link fs p (last target []) target else at_dest
  | None => at_dest
  end.
(* OpenNTN_DIR=$(...)/OpenNTN, SIONNA_DIR=$(...)/sionna, ln -s; install.sh:17-19 *)
Definition link_step (legacy : bool) (e : env) (fs : fsys) : fsys :=
  ln_s fs (comps (shown (e_opn e)) ++ [nm "OpenNTN"])
          (comps (shown (e_sio e)) ++ channel_dir legacy ++ [nm "tr38811"]).
(* rm "$POST_INSTALL_NAME", whose success is the status of the script; install.sh:22 *)
Definition rm_step (legacy : bool) (e : env) (fs : fsys) : fsys * bool :=
  match fs (hook_path legacy e) with
  | Some (File _) | Some (Link _) => (put (hook_path legacy e) None fs, true)
  | _ => (fs, false)
  end.

(* the whole script: install.sh:6-22, install_legacy.sh:6-22 *)
Definition install (legacy : bool) (e : env) (fs : fsys) : fsys * bool :=
  rm_step legacy e (link_step legacy e (python_step legacy e (curl_step legacy e (pip_step e fs)))).

(* n runs of the script in one environment; install.sh:6-22 *)
Fixpoint installs (legacy : bool) (n : nat) (e : env) (fs : fsys) : fsys :=
  match n with O => fs | S k => installs legacy k e (fst (install legacy e fs)) end.
