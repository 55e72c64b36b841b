(* Specification vocabulary for the rays (C21-C27). *)
From Coq Require Import Reals List ZArith.
Import ListNotations.
Open Scope R_scope.

(* equal angles in degrees, up to whole turns *)
Definition same_angle (a b : R) : Prop := exists k : Z, a = b + 360 * IZR k.

(* same polar angle up to whole turns and reflection *)
Definition same_cone (a b : R) : Prop := same_angle a b \/ same_angle a (- b).

Definition degrees (a : R) : R := a * (180 / PI).

(* f rearranges 0..n-1 *)
Definition rearrangement (n : nat) (f : nat -> nat) : Prop :=
  (forall r, (r < n)%nat -> (f r < n)%nat) /\
  (forall r r', (r < n)%nat -> (r' < n)%nat -> f r = f r' -> r = r') /\
  (forall q, (q < n)%nat -> exists r, (r < n)%nat /\ f r = q).

(* raw delay of cluster c before sorting, n active clusters (inactive ones are put at 1 s) *)
Definition raw_delay (n : nat) (rtau ds : R) (x : nat -> R) (c : nat) : R :=
  if Nat.ltb c n then - rtau * ds * ln (x c) else 1.

(* TR 38.901 eq. 7.5-3 *)
Definition los_scale (k : R) : R :=
  let K := 10 * (ln k / ln 10) in 0.7705 - 0.0433 * K + 0.0002 * K ^ 2 + 0.000017 * K ^ 3.

(* powers used to place the clusters: the specular share is added to the first LoS cluster *)
Definition angle_power (los : bool) (K : R) (p : list R) (c : nat) : R :=
  if los then nth c p 0 / (K + 1) + (if Nat.eqb c 0 then K / (K + 1) else 0) else nth c p 0.

(* zr: powers relative to the largest one, limited to [1e-6, 1] *)
Definition relative_powers (n : nat) (p zr : nat -> R) : Prop :=
  exists pmax, (forall c, (c < n)%nat -> p c <= pmax) /\ (exists c, (c < n)%nat /\ p c = pmax) /\
    forall c, (c < n)%nat -> zr c = Rmin (Rmax (p c / pmax) (1 / 10 ^ 6)) 1.

(* TR 38.901 eq. 7.5-10 and 7.5-15, K in dB *)
Definition cphi_factor (los : bool) (k : R) : R :=
  let K := 10 * (ln k / ln 10) in if los then 1.1035 - 0.028 * K - 0.002 * K ^ 2 + 0.0001 * K ^ 3 else 1.
Definition ctheta_factor (los : bool) (k : R) : R :=
  let K := 10 * (ln k / ln 10) in if los then 1.3086 + 0.0339 * K - 0.0077 * K ^ 2 + 0.0002 * K ^ 3 else 1.

(* deviation of a cluster from the reference direction, azimuth (7.5-9/11) and zenith (7.5-14/16) *)
Definition azimuth_deviation (spread cphi z : R) (plus : bool) (normal : R) : R :=
  (if plus then 1 else -1) * (2 * (spread / 1.4) * sqrt (- ln z) / cphi) + spread / 7 * normal.
Definition zenith_deviation (spread ctheta z : R) (plus : bool) (normal : R) : R :=
  (if plus then 1 else -1) * (- spread * ln z / ctheta) + spread / 7 * normal.

(* magnitudes of table 7.5-3 of TR 38.901 *)
Definition table_7_5_3 : list R :=
  [ 0.0447; 0.1413; 0.2492; 0.3715; 0.5129; 0.6797; 0.8844; 1.1481; 1.5195; 2.1551 ].
