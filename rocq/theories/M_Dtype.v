(* Data types of the tensors met by SystemLevelScenario.set_topology under each value of the
   [precision] option.  Only types are computed here: the values are the business of
   M_Geometry, M_Scenario and M_Pathloss.  Shapes are ignored. *)
From Coq Require Import Reals String List Bool ZArith.
From Verif Require Import M_Base M_Json M_Params.
Import ListNotations.
Open Scope string_scope.
Open Scope list_scope.

(* tf.DType of a tensor; the boolean tensors (indoor, los) take part in tf.where conditions only
   and are not tracked. *)
(* the types of system_level_scenario.py:84-89 and system_level_scenario.py:897-903 *)
Inductive dt := F32 | F64 | I32.
(* equality of the types of system_level_scenario.py:897-903 *)
Definition dt_eqb (a b : dt) : bool :=
  match a, b with F32, F32 | F64, F64 | I32, I32 => true | _, _ => false end.

(* An operand: a Python number or a tensor of a given type. *)
(* e.g. both kinds meet at system_level_scenario.py:813 *)
Inductive opnd := Py | T (d : dt).

(* The type TensorFlow gives a Python float handed to a unary operator (tf.math.sin(0.3)):
   float32, whatever the precision option says. *)
(* e.g. system_level_scenario.py:813 *)
Definition unary (a : opnd) : opnd := match a with Py => T F32 | T d => T d end.

(* Binary operators (+ - * / ** < tf.where tf.maximum tf.atan2): a Python number takes the type
   of the tensor, two tensors must agree.  (A Python float next to an int32 tensor fails too; the
   code never does that, the integer constants stored by _load_params are checked where used.) *)
(* e.g. system_level_scenario.py:796 *)
Definition bin (a b : opnd) : res opnd :=
  match a, b with
  | Py, x | x, Py => Ok x
  | T x, T y => if dt_eqb x y then Ok (T x)
                else Err (InvalidArgumentError "cannot compute as input was expected to be a different type")
  end.

(* tf.random.normal/uniform(..., dtype=d) with a tensor bound: the bound is converted to d, which
   fails for a tensor of another type. *)
(* e.g. system_level_scenario.py:875-877, utils.py:1777 *)
Definition rand (d : dt) (bounds : list opnd) : res opnd :=
  if forallb (fun b => match b with Py => true | T x => dt_eqb x d end) bounds then Ok (T d)
  else Err (ValueError "Tensor conversion requested a different dtype").

(* precision: "single" | "double"; self.rdtype of sionna.phy.Object.  None (the default) takes the
   global setting, which is one of the two. *)
(* the constructor argument, system_level_scenario.py:63-72 *)
Inductive precision := Single | Double.
(* system_level_scenario.py:84-85 *)
Definition rdtype (p : precision) : dt := match p with Single => F32 | Double => F64 end.

(* system_level_scenario.py:894-903, system_level_scenario.py:910-919: the type of a stored table entry *)
Definition entry (p : precision) (v : pval) : opnd :=
  match v with PDec _ _ | PNegInf => T (rdtype p) | PInt _ => T I32 end.

(* get_param casts both entries to rdtype, system_level_scenario.py:763-773 *)
Definition param (p : precision) : opnd := T (rdtype p).

(* What set_topology has stored when it returns, by type. *)
(* the attributes set at system_level_scenario.py:646-660 *)
Record typed := {
  t_distance_2d : opnd; t_distance_3d : opnd; t_angles : opnd; t_indoor : opnd;
  t_lsp_mean : opnd; t_lsp_std : opnd; t_zod_offset : opnd;
  t_basic : opnd; t_gas : opnd; t_scintillation : opnd; t_entry : opnd }.

(* _compute_distance_2d_3d_and_angles, system_level_scenario.py:779-845.  The elevation is a
   Python number (math.radians returns one), so tf.math.sin of it is float32. *)
Definition distances (ut bs : dt) : res (opnd * opnd * opnd) :=
  delta <- bin (T ut) (T bs) ;;                       (* :796 *)
  let d2 := unary delta in                            (* :799 *)
  let s := unary Py in                                (* tf.math.sin(elevation_angle) *)
  let h := T bs in                                    (* height_val :811 *)
  s2 <- bin Py s ;;                                   (* R_E**2 * sin**2 *)
  u <- bin s2 h ;;                                    (* + height_val**2 *)
  hr <- bin h Py ;;                                   (* 2*height_val*R_E *)
  v <- bin u hr ;;
  rs <- bin Py s ;;                                   (* R_E*sin *)
  d3 <- bin (unary v) rs ;;                           (* :813 *)
  zod <- bin d2 delta ;;                              (* tf.atan2 :826 *)
  ang <- bin zod Py ;;
  Ok (d2, d3, ang).

(* _sample_indoor_distance, system_level_scenario.py:864-885; min_2d_in/max_2d_in are constants of
   type rdtype (dense_urban_scenario.py:103-111) *)
Definition indoor (p : precision) (d2 d3 : opnd) : res opnd :=
  i0 <- rand (rdtype p) [T (rdtype p); T (rdtype p)] ;;
  i <- bin i0 (T (rdtype p)) ;;                       (* *indoor_mask :875-877 *)
  o <- bin d2 i ;;                                    (* :879 *)
  q <- bin i d2 ;;
  i3 <- bin q d3 ;;                                   (* :881-882 *)
  bin d3 i3.                                          (* :884 *)

(* _sample_los, system_level_scenario.py:847-862; los_probability, dense_urban_scenario.py:121-134
   (tf.zeros defaults to float32); sample_bernoulli, utils.py:502-535 *)
Definition sampled_los (p : precision) (los_p : pval) : res opnd :=
  pr <- bin (T F32) (entry p los_p) ;;
  z <- rand (rdtype p) [Py; Py] ;;
  bin z pr.

(* _compute_lsp_log_mean_std, dense_urban_scenario.py:178-260 *)
Definition lsp_tensors (p : precision) (ut bs : dt) (d2 : opnd) : res (opnd * opnd * opnd) :=
  k <- bin (param p) Py ;;                            (* muK/10.0 *)
  z <- bin (T (rdtype p)) (param p) ;;                (* tf.maximum(-100, muZSD) *)
  z' <- bin z (param p) ;;
  m1 <- bin (param p) k ;; m2 <- bin m1 z' ;;         (* tf.stack *)
  hh <- bin (T bs) (T ut) ;;                          (* 2.*PI*h_bs*h_ut *)
  bp <- bin hh (T (rdtype p)) ;;                      (* *carrier_frequency *)
  c <- bin d2 bp ;;                                   (* tf.math.less(distance_2d, breakpoint) *)
  sf <- bin (param p) (param p) ;;                    (* tf.where *)
  s1 <- bin (param p) sf ;;
  zo <- bin (T (rdtype p)) (unary d2) ;;              (* tf.where(los, 0, zod_offset) *)
  Ok (m2, s1, zo).

(* compute_pathloss_basic, utils.py:1765-1787 *)
Definition basic (p : precision) (d3 : opnd) (cl sl sn : pval) : res opnd :=
  let fc := T (rdtype p) in
  fspl <- bin (unary fc) (unary d3) ;;
  nl <- rand F32 [Py; entry p sl] ;;                  (* tf.random.normal: float32 unless told *)
  nn <- rand F32 [Py; entry p sn] ;;
  a <- bin fspl nl ;;
  b <- bin fspl nn ;;
  c <- bin b (entry p cl) ;;
  bin a c.

(* compute_pathloss_gas, utils.py:1593-1692: tf.math.exp of Python numbers is float32, the
   frequency is of type rdtype; the weather arguments are Python numbers (their defaults are). *)
Definition gas (p : precision) : res opnd :=
  let f := T (rdtype p) in
  let e := unary Py in
  yw <- bin e f ;;                                    (* :1615-1624 *)
  hw <- bin e f ;;                                    (* :1627-1628 *)
  aw <- bin yw hw ;;
  yo <- bin f e ;;                                    (* :1657 *)
  t1 <- bin e f ;;                                    (* :1677 *)
  ao <- bin yo t1 ;;
  tot <- bin ao aw ;;
  at' <- bin tot e ;;                                 (* / tf.math.sin(...) :1687 *)
  bin (T F32) at'.                                    (* tf.zeros(...) + :1690 *)

(* compute_pathloss_scintilation, utils.py:1695-1757; [high]: the branch f >= 6 *)
Definition scintillation (p : precision) (high : bool) : res opnd :=
  let f := T (rdtype p) in
  if high then
    let l := unary Py in                              (* :1720 *)
    x <- bin f l ;;                                   (* :1728 *)
    g <- bin x (unary x) ;;                           (* :1729 *)
    gx <- bin f g ;;                                  (* :1732 *)
    bin (T F32) gx                                    (* :1741 *)
  else
    a <- bin f Py ;; bin (T F32) a.                   (* :1752-1754 *)

(* set_topology with locations of types [ut] and [bs], system_level_scenario.py:651-670 *)
Definition typed_topology (p : precision) (ut bs : dt) (forced_los high : bool)
    (los_p cl sl sn : pval) : res typed :=
  d <- distances ut bs ;;
  let '(d2, d3, ang) := d in
  i <- indoor p d2 d3 ;;
  l <- (if forced_los then Ok Py else sampled_los p los_p) ;;
  m <- lsp_tensors p ut bs d2 ;;
  let '(mean, std, zo) := m in
  b <- basic p d3 cl sl sn ;;
  g <- gas p ;;
  s <- scintillation p high ;;
  Ok {| t_distance_2d := d2; t_distance_3d := d3; t_angles := ang; t_indoor := i;
        t_lsp_mean := mean; t_lsp_std := std; t_zod_offset := zo;
        t_basic := b; t_gas := g; t_scintillation := s; t_entry := T F32 |}.

(* The same for a constructed scenario: the table entries are those of its files. *)
(* system_level_scenario.py:646-660 *)
Definition scenario_topology (sc : scenario) (p : precision) (ut bs : dt) (forced_los : bool)
  : res typed :=
  lp <- los_probability sc ;;
  cl <- clutter_loss sc ;;
  sl <- sigma_sf_los sc ;;
  sn <- sigma_sf_nlos sc ;;
  typed_topology p ut bs forced_los (Rleb 6 (sc_fc sc / 1000000000)%R) lp cl sl sn.

(* drop_uts_in_sector, utils.py:537-613.  bs_height: a Python number or a tensor of type rdtype;
   isd likewise.  The base location is drawn with the default type float32. *)
Definition drop_uts (p : precision) (bs_height isd : opnd) : res opnd :=
  let cast := T (rdtype p) in
  a <- bin cast cast ;;                               (* :585 *)
  dc <- bin (unary a) (unary bs_height) ;;            (* :586 *)
  xb <- rand F32 [Py; unary dc] ;;                    (* :587 *)
  y0 <- bin (unary a) (unary bs_height) ;;
  yb <- bin y0 (unary xb) ;;                          (* :588 *)
  xd <- rand (rdtype p) [isd; isd] ;;                 (* :598-605 *)
  x <- bin xb xd ;;
  y <- bin yb xd ;;
  bin x y.                                            (* tf.stack :607 *)
