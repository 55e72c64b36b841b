(* Cloud attenuation, written from the physics rather than from the code: small droplets absorb as
   Rayleigh scatterers, liquid water is a double-Debye dielectric (ITU-R P.840).  The complex
   permittivity is described by the equations it satisfies, without dividing complex numbers. *)
From Coq Require Import Reals.
From Verif Require Import M_Cplx.
Open Scope R_scope.

(* relaxations of water at temperature t (kelvin): static permittivity and the two relaxation
   frequencies in GHz *)
Record relaxation (t : R) : Type := { static : R; principal : R; secondary : R }.
Definition water (t : R) : relaxation t :=
  let d := 300 / t - 1 in
  Build_relaxation t (77.6 + 103.3 * d) (20.09 - 142 * d + 294 * (d * d)) (590 - 1500 * d).

(* y is the contribution of a relaxation of strength s at frequency f0:  y (1 + i f / f0) = s *)
Definition relaxes (s f0 f : R) (y : cplx) : Prop := cmul y (Cx 1 (f / f0)) = Cx s 0.

(* eps is the permittivity of water at f GHz *)
Definition permittivity (t f : R) (eps : cplx) : Prop :=
  exists y1 y2, relaxes (static t (water t) - 5.48) (principal t (water t)) f y1 /\
                relaxes (5.48 - 3.51) (secondary t (water t)) f y2 /\
                eps = cadd (cadd y1 y2) (Cx 3.51 0).

(* k is the polarisability (eps - 1) / (eps + 2) of a droplet *)
Definition polarisability (eps k : cplx) : Prop := cmul k (cadd eps (Cx 2 0)) = cadd eps (Cx (-1) 0).

(* a dB is the attenuation of a cloud with columnar liquid water content lwc (kg per square metre)
   seen under the elevation angle el degrees: the column is stretched by 1 / sin el *)
Definition cloud_loss (lwc t f el a : R) : Prop :=
  exists eps k, permittivity t f eps /\ polarisability eps k /\
    a * sin (el * (PI / 180)) = lwc * (0.273 * f * - im k).

(* ---- specific attenuation by rain (ITU-R P.838-3), tables in millionths ---- *)
From Coq Require Import ZArith List.
Import ListNotations.
Definition millionths (z : Z) : R := IZR z / 10 ^ 6.
(* a straight line plus Gaussian bells in the decimal logarithm of the frequency *)
Definition regression (bells : list (Z * Z * Z)) (line : Z * Z) (f : R) : R :=
  let x := ln f / ln 10 in
  fold_right (fun t s => let '(height, centre, width) := t in
    let u := (x - millionths centre) / millionths width in millionths height * exp (- (u * u)) + s)
    (millionths (fst line) * x + millionths (snd line)) bells.
Definition log_k_horizontal : R -> R := regression
  [(-5339800, -100080, 1130980); (-353510, 1269700, 454000); (-237890, 860360, 153540); (-941580, 645520, 168170)]%Z (-189610, 711470)%Z.
Definition log_k_vertical : R -> R := regression
  [(-3805950, 569340, 810610); (-3449650, -229110, 510590); (-399020, 730420, 118990); (501670, 1073190, 271950)]%Z (-163980, 632970)%Z.
Definition alpha_horizontal : R -> R := regression
  [(-143180, 1824420, -551870); (295910, 775640, 198220); (321770, 637730, 131640); (-5376100, -962300, 1478280);
   (16172100, -3299800, 3439900)]%Z (678490, -1955370)%Z.
Definition alpha_vertical : R -> R := regression
  [(-77710, 2338400, -762840); (567270, 955450, 540390); (-202380, 1145200, 268090); (-48299100, 791669, 116226);
   (48583300, 791459, 116479)]%Z (-53739, 834330)%Z.
(* circular polarisation: k is the mean of the two polarisations, alpha the mean weighted by k;
   y dB/km is the specific attenuation at the rain rate r mm/h *)
Definition circular_rain (f r y : R) : Prop :=
  let kh := Rpower 10 (log_k_horizontal f) in let kv := Rpower 10 (log_k_vertical f) in
  exists alpha, alpha * (kh + kv) = kh * alpha_horizontal f + kv * alpha_vertical f /\
                2 * y = (kh + kv) * Rpower r alpha.
