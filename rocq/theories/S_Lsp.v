(* Specification vocabulary for the large-scale parameters (C17-C20, C60). *)
From Coq Require Import Reals String List Bool ZArith.
From Verif Require Import M_Base M_Params S_Config M_Geometry M_Pathloss M_Scenario M_Lsp.
Import ListNotations.
Open Scope string_scope.
Open Scope R_scope.

(* order of the seven large-scale parameters *)
Inductive lsp_index : string -> nat -> Prop :=
| LI_DS : lsp_index "DS" 0 | LI_ASD : lsp_index "ASD" 1 | LI_ASA : lsp_index "ASA" 2
| LI_SF : lsp_index "SF" 3 | LI_K : lsp_index "K" 4 | LI_ZSA : lsp_index "ZSA" 5
| LI_ZSD : lsp_index "ZSD" 6.

(* the 21 pairs for which the tables give a coefficient "corrXvsY" *)
Definition coefficient_pairs : list (string * string) :=
  [ ("ASD", "DS"); ("ASA", "DS"); ("ASA", "SF"); ("ASD", "SF"); ("DS", "SF"); ("ASD", "ASA");
    ("ASD", "K"); ("ASA", "K"); ("DS", "K"); ("SF", "K"); ("ZSD", "SF"); ("ZSA", "SF");
    ("ZSD", "K"); ("ZSA", "K"); ("ZSD", "DS"); ("ZSA", "DS"); ("ZSD", "ASD"); ("ZSA", "ASD");
    ("ZSD", "ASA"); ("ZSA", "ASA"); ("ZSD", "ZSA") ].

(* every number of a link's parameter set is the documented one *)
Definition documented_column (sc : scenario) (los : bool) (lp : lparams) : Prop :=
  let doc name x := documented_value (sc_env sc) (sc_fc sc) (sc_dir sc) (sc_elev sc) los name x in
  doc "muDS" (Fin (lp_muDS lp)) /\ doc "muASD" (lp_muASD lp) /\ doc "muASA" (Fin (lp_muASA lp)) /\
  doc "muK" (Fin (lp_muK lp)) /\ doc "muZSA" (Fin (lp_muZSA lp)) /\ doc "muZSD" (lp_muZSD lp) /\
  doc "sigmaDS" (Fin (lp_sigmaDS lp)) /\ doc "sigmaASD" (Fin (lp_sigmaASD lp)) /\
  doc "sigmaASA" (Fin (lp_sigmaASA lp)) /\ doc "sigmaSF" (Fin (lp_sigmaSF lp)) /\
  doc "sigmaK" (Fin (lp_sigmaK lp)) /\ doc "sigmaZSA" (Fin (lp_sigmaZSA lp)) /\
  doc "sigmaZSD" (Fin (lp_sigmaZSD lp)) /\ doc "rTau" (Fin (lp_rTau lp)) /\
  doc "zeta" (Fin (lp_zeta lp)) /\ doc "cASD" (Fin (lp_cASD lp)) /\ doc "cASA" (Fin (lp_cASA lp)) /\
  doc "cZSA" (Fin (lp_cZSA lp)) /\ doc "CPhiNLoS" (Fin (lp_CPhi lp)) /\
  doc "CThetaNLoS" (Fin (lp_CTheta lp)) /\ doc "muXPR" (Fin (lp_muXPR lp)) /\
  doc "sigmaXPR" (Fin (lp_sigmaXPR lp)) /\ doc "cDS" (Fin (lp_cDS lp)) /\
  doc "numClusters" (Fin (IZR (lp_numClusters lp))) /\
  Forall2 (fun p r => doc ("corr" ++ fst p ++ "vs" ++ snd p) (Fin r)) coefficient_pairs (lp_corr lp) /\
  Forall2 (fun n r => doc ("corrDist" ++ n) (Fin r)) ["DS"; "ASD"; "ASA"; "SF"; "K"; "ZSA"; "ZSD"]
    (lp_corrDist lp).

(* the draws that are 1 at one place and 0 elsewhere *)
Definition basis (u j : nat) : nat -> nat -> R :=
  fun u' j' => if Nat.eqb u' u && Nat.eqb j' j then 1 else 0.

(* covariance of two linear functions of nut x 7 uncorrelated unit-variance draws *)
Definition covariance (nut : nat) (f g : (nat -> nat -> R) -> R) : R :=
  sumR nut (fun u => sumR 7 (fun j => f (basis u j) * g (basis u j))).

(* the three link states *)
Inductive link_state := Indoor | LineOfSight | NonLineOfSight.
Definition state_of (indoor los : bool) : link_state :=
  if indoor then Indoor else if los then LineOfSight else NonLineOfSight.

(* distance in the X-Y plane *)
Definition plane_distance (p q : vec3) : R := sqrt ((vx p - vx q) ^ 2 + (vy p - vy q) ^ 2).

(* f is a linear function of the nut x 7 draws *)
Definition linear_in_draws (nut : nat) (f : (nat -> nat -> R) -> R) : Prop :=
  forall z, f z = sumR nut (fun u => sumR 7 (fun j => z u j * f (basis u j))).
