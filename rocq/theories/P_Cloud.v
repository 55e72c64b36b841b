(* Property of the ingredients of the rain and cloud attenuation: C99. *)
From Coq Require Import Reals String List Bool Arith Lia Lra.
From Verif Require Import M_Base M_Params M_Geometry M_Pathloss M_Scenario S_Topology S_Cloud L_Topology M_Rain L_Cloud.
Import ListNotations.
Open Scope string_scope.
Open Scope list_scope.
Open Scope R_scope.

(* the cloud part is the Rayleigh absorption of droplets of double-Debye water, and no other number is *)
Theorem C99_cloud :
  forall sc w a,
  constructed sc -> 216 <= w_temperature w <= 990 ->
  cloud_loss (w_lwc w) (w_temperature w) (sc_fc sc / 10 ^ 9) (sc_elev sc) a <->
  a = cloud_att w (sc_fc sc / 10 ^ 9) (sc_elev sc).
Proof. exact C99_cloud_l. Qed.
Print Assumptions C99_cloud.

(* a cloud attenuates, the more the lower the satellite *)
Theorem C99_lower :
  forall w f e1 e2,
  0 < f -> 216 <= w_temperature w <= 990 -> 0 < w_lwc w -> 0 < e1 -> e1 < e2 -> e2 <= 90 ->
  0 < cloud_att w f e2 < cloud_att w f e1.
Proof. exact C99_lower_l. Qed.
Print Assumptions C99_lower.

(* the specific attenuation by rain is that of ITU-R P.838-3 for circular polarisation at 40 mm/h, at every elevation angle *)
Theorem C99_rain :
  forall f e,
  circular_rain f 40 (rain_yr (log10 f) e).
Proof. exact C99_rain_l. Qed.
Print Assumptions C99_rain.

(* of the weather only the latitude enters the rain part, not the rain rate *)
Theorem C99_rate :
  forall w w' f el hs t,
  w_latitude w = w_latitude w' -> rain_att w f el hs t = rain_att w' f el hs t.
Proof. exact C99_rate_l. Qed.
Print Assumptions C99_rate.

(* the default weather, 2 GHz and 45 degrees: a cloud attenuates *)
Example C99_example : forall dir, dir = "uplink" \/ dir = "downlink" -> exists sc,
  constructed sc /\ sc_fc sc = 2e9 /\ sc_dir sc = dir /\ 216 <= w_temperature (set_weather no_weather) <= 990 /\
  0 < cloud_att (set_weather no_weather) (sc_fc sc / 10 ^ 9) (sc_elev sc).
Proof. exact C99_example_l. Qed.
