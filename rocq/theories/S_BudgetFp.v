(* What the power budget should be. *)
From Coq Require Import Reals.
Open Scope R_scope.

(* Friis: share of the power that reaches an isotropic antenna d metres away from an isotropic one *)
Definition friis (fc d : R) : R := (299792458 / (4 * PI * d * fc)) ^ 2.

(* a loss of l dB passes the share x of the power *)
Definition loss_of (x l : R) : Prop := 0 < x /\ l = - 10 * (ln x / ln 10).

(* losses of a link apart from free space, in dB *)
Definition moderate (shadow clutter gas scint : R) : Prop :=
  Rabs shadow <= 100 /\ 0 <= clutter <= 100 /\ 0 <= gas <= 100 /\ 0 <= scint <= 100.

(* the budget in dB: the clutter loss only counts without line of sight *)
Definition link_loss (los : bool) (free shadow clutter gas scint l : R) : Prop :=
  l = free + shadow + (if los then 0 else clutter) + gas + scint.

(* the real amplitude a whose square is the share of the power left after l dB, times sf *)
Definition amplitude_of (l sf a : R) : Prop := 0 < a /\ a * a = Rpower 10 (- l / 10) * sf.
