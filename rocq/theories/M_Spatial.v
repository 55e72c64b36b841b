(* The public method spatial_correlation_matrix of the scenario object, which the sampling of the
   large-scale parameters does not use: /repo/OpenNTN/system_level_scenario.py:666-690. *)
From Coq Require Import Reals String List Bool Arith.
From Verif Require Import M_Base M_Params M_Geometry M_Pathloss M_Scenario M_Lsp.
Import ListNotations.
Open Scope R_scope.

(* tf.math.exp(-self.matrix_ut_distance_2d/correlation_distance), for every batch example; the
   attribute does not exist before the first topology; system_level_scenario.py:666-690 *)
Definition spatial_correlation (st : state) (D : R) : res (nat -> matrix) :=
  match s_geo st with
  | Some g => Ok (fun b u u' => exp (- g_utd g b u u' / D))
  | None => Err (AttributeError "object has no attribute '_matrix_ut_distance_2d'"%string)
  end.
