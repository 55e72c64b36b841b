(* The system-level channel model as a state machine of set_topology and channel calls.
   Models /repo/OpenNTN/system_level_channel.py (SystemLevelChannel), with the callbacks of
   lsp.py:162-185 and rays.py:166-179.  show_topology is in M_Draw. *)
From Coq Require Import Reals String List Bool Arith.
From Verif Require Import M_Base M_Params M_Geometry M_Pathloss M_Scenario M_Lsp M_Rays M_Antenna M_Cplx M_Coeff.
Import ListNotations.
Open Scope string_scope.
Open Scope list_scope.
Open Scope R_scope.

(* ---- tf.linalg.cholesky on one n x n matrix: the textbook factorisation, which reads the lower
   triangle only; None: a pivot is not positive and TensorFlow raises (CPU kernels) ---- *)
(* lsp.py:298, lsp.py:398 *)
Fixpoint cholesky (n : nat) (A : matrix) : option matrix :=
  match n with
  | O => Some (fun _ _ => 0)
  | S m =>
      if Rltb 0 (A 0%nat 0%nat) then
        let d := sqrt (A 0%nat 0%nat) in
        let l i := A (S i) 0%nat / d in
        match cholesky m (fun i j => A (S i) (S j) - l i * l j) with
        | None => None
        | Some L => Some (fun i j => match i, j with
                                     | O, O => d
                                     | O, S _ => 0
                                     | S i', O => l i'
                                     | S i', S j' => L i' j'
                                     end)
        end
      else None
  end.

(* the batched call: n1 x n2 x n3 matrices of size n; one failing matrix fails the call *)
(* lsp.py:298, lsp.py:398 *)
Definition all_below (n : nat) (p : nat -> bool) : bool := forallb p (seq 0 n).
(* lsp.py:298, lsp.py:398 *)
Definition cholesky_all (n1 n2 n3 n : nat) (A : nat -> nat -> nat -> matrix)
  : res (nat -> nat -> nat -> matrix) :=
  if all_below n1 (fun b => all_below n2 (fun s => all_below n3 (fun k => given (cholesky n (A b s k)))))
  then Ok (fun b s k => match cholesky n (A b s k) with Some L => L | None => fun _ _ => 0 end)
  else Err (InvalidArgumentError "Cholesky decomposition was not successful").

(* ---- the object; None = attribute not yet set ---- *)
(* system_level_channel.py:59-79 *)
Record chan := {
  c_st : state;                                        (* the scenario *)
  c_cross : option (nat -> nat -> nat -> matrix);      (* _cross_lsp_correlation_matrix_sqrt *)
  c_spatial : option (nat -> nat -> nat -> matrix);    (* _spatial_lsp_correlation_matrix_sqrt *)
  c_mask : option (grid (nat -> R));                   (* the ray sampler's cluster mask *)
  c_lsp : option (grid lsp) }.                         (* _lsp *)

(* system_level_channel.py:59-79 *)
Definition chan_init (sc : scenario) : chan :=
  {| c_st := init_state sc; c_cross := None; c_spatial := None; c_mask := None; c_lsp := None |}.

(* attribute update, system_level_channel.py:133-154 *)
Definition with_state (c : chan) (st : state) : chan :=
  {| c_st := st; c_cross := c_cross c; c_spatial := c_spatial c; c_mask := c_mask c; c_lsp := c_lsp c |}.
(* lsp.py:298 *)
Definition with_cross (c : chan) x : chan :=
  {| c_st := c_st c; c_cross := Some x; c_spatial := c_spatial c; c_mask := c_mask c; c_lsp := c_lsp c |}.
(* lsp.py:398 *)
Definition with_spatial (c : chan) x : chan :=
  {| c_st := c_st c; c_cross := c_cross c; c_spatial := Some x; c_mask := c_mask c; c_lsp := c_lsp c |}.
(* rays.py:255 *)
Definition with_mask (c : chan) x : chan :=
  {| c_st := c_st c; c_cross := c_cross c; c_spatial := c_spatial c; c_mask := Some x; c_lsp := c_lsp c |}.
(* system_level_channel.py:150-151 *)
Definition with_lsps (c : chan) x : chan :=
  {| c_st := c_st c; c_cross := c_cross c; c_spatial := c_spatial c; c_mask := c_mask c; c_lsp := Some x |}.

(* the seven arguments set_topology of the channel accepts (system_level_channel.py:81-82); weather and Doppler are never
   passed on to the scenario *)
Definition channel_args (a : topo_args) : topo_args :=
  {| a_ut_loc := a_ut_loc a; a_bs_loc := a_bs_loc a; a_ut_ori := a_ut_ori a; a_bs_ori := a_bs_ori a;
     a_ut_vel := a_ut_vel a; a_in := a_in a; a_los := a_los a; a_weather := no_weather; a_doppler := None |}.

(* sizes the samplers read from the scenario: batch size, number of BSs, number of UTs *)
(* system_level_scenario.py:159-172 *)
Definition sizes (st : state) : nat * nat * nat :=
  match s_ut_loc st, s_bs_loc st with
  | Some ut, Some bs => (t_batch ut, t_num bs, t_num ut)
  | _, _ => (0, 0, 0)%nat
  end.

(* LSPGenerator.__call__ with the stored factors, lsp.py:120-160; z: its standard normal draws.
   Shape mismatches between factors of an earlier topology and the current one, possible only after
   a failed set_topology, are not modelled. *)
Definition lsp_sampler (c : chan) (z : nat -> nat -> nat -> nat -> R) : res (grid lsp) :=
  match s_ut_loc (c_st c), c_cross c, c_spatial c with
  | None, _, _ => Err (ValueError "Attempt to convert a value (None) with an unsupported type")
  | Some _, None, _ => Err (AttributeError "_cross_lsp_correlation_matrix_sqrt")
  | Some _, Some _, None => Err (AttributeError "_spatial_lsp_correlation_matrix_sqrt")
  | Some ut, Some Lx, Some Ls => sample_lsp (c_st c) (t_num ut) Lx Ls z
  end.

(* system_level_channel.py:131-153; dr: draws of the scenario, z: draws of the LSP sampler *)
Definition chan_set_topology (sc : scenario) (always : bool) (c : chan) (a : topo_args) (dr : topo_draws)
    (z : nat -> nat -> nat -> nat -> R) : chan * res unit :=
  let '(st, r) := set_topology sc (c_st c) (channel_args a) dr in
  let c := with_state c st in
  match r with
  | Err e => (c, Err e)
  | Ok false => (c, Ok tt)
  | Ok true =>
      let '(nb, ns, nu) := sizes st in
      match (m <- cross_matrix st ;; cholesky_all nb ns nu 7 m) with
      | Err e => (c, Err e)
      | Ok Lx =>
          let c := with_cross c Lx in
          match (m <- spatial_matrix st ;; cholesky_all nb ns 7 nu m) with
          | Err e => (c, Err e)
          | Ok Ls =>
              let c := with_spatial c Ls in
              match compute_clusters_mask st with
              | Err e => (c, Err e)
              | Ok m =>
                  let c := with_mask c m in
                  if always then (c, Ok tt)
                  else match lsp_sampler c z with
                       | Err e => (c, Err e)
                       | Ok l => (with_lsps c l, Ok tt)
                       end
              end
          end
      end
  end.

(* ---- the channel call ---- *)
(* the random tensors of system_level_channel.py:156-269 *)
Record call_draws := {
  cd_lsp : nat -> nat -> nat -> nat -> R;          (* LSP sampler, used if always_generate_lsp *)
  cd_rays : ray_draws;
  cd_dir : nat -> R;                               (* direction of the orbit per batch example *)
  cd_phase : nat -> nat -> nat -> nat -> nat -> nat -> R }.   (* batch, TX, RX, cluster, ray, 4 *)

(* output tensors; None: NaN.  o_h: batch, RX, RX antenna, TX, TX antenna, path, time *)
(* system_level_channel.py:261-269 *)
Record output := {
  o_h : nat -> nat -> nat -> nat -> nat -> nat -> nat -> option cplx;
  o_delays : nat -> nat -> nat -> nat -> option R }.           (* batch, RX, TX, path *)

(* tf.transpose(_, [0,2,1,...]) *)
(* system_level_channel.py:229-250 *)
Definition transpose {A} (g : grid A) : grid A := fun b i j => g b j i.

(* swapping the arrival and departure angles of a link's rays, system_level_channel.py:228-234 *)
Definition uplink_rays (y : rays) : rays :=
  {| r_delays := r_delays y; r_powers := r_powers y; r_aoa := r_aod y; r_aod := r_aoa y;
     r_zoa := r_zod y; r_zod := r_zoa y; r_xpr := r_xpr y |}.

(* system_level_channel.py:229-246 *)
Definition option_map_grid {A B} (f : A -> B) (g : grid (option A)) : grid (option B) :=
  fun b i j => option_map f (g b i j).

(* system_level_channel.py:156-269; the arguments are already resolved (see resolve_args), the number of time samples only
   bounds the last index *)
Definition chan_call (srt srtd : list R -> list nat) (sc : scenario) (ut_array bs_array : panel_array)
    (always : bool) (c : chan) (fs : R) (d : call_draws) : res output :=
  let st := c_st c in
  (* system_level_channel.py:172-179 *)
  lsps <- (if always then lsp_sampler c (cd_lsp d)
           else match c_lsp c with Some l => Ok l | None => Err (AttributeError "_lsp") end) ;;
  mask <- (match c_mask c with Some m => Ok m | None => Err (AttributeError "_cluster_mask") end) ;;
  ry <- gen_rays srt st mask lsps (cd_rays d) ;;
  match s_ut_vel st, s_ut_ori st, s_bs_ori st, s_bs_loc st, s_geo st, s_los st, s_lsp st with
  | Some vel, Some uo, Some bo, Some bs, Some g, Some los, Some ls =>
    let up := String.eqb (sc_dir sc) "uplink" in
    let gen := {| cg_fc := sc_fc sc; cg_tx := if up then ut_array else bs_array;
                  cg_rx := if up then bs_array else ut_array; cg_sub := true |} in
    (* `if tf.greater_equal(topology.bs_height, 600000.0)` (channel_coefficients.py:875) needs a
       single BS height *)
    if negb (Nat.eqb (t_num bs) 1) then Err (ValueError "truth value of an array is ambiguous") else
    let height := vz (t_at bs 0%nat 0%nat) in
    let T : grid ltopo := fun b tx rx =>
      let tr {A} (x : grid A) : A := if up then transpose x b tx rx else x b tx rx in
      {| lt_vel := if up then t_at vel b tx else t_at vel b rx;
         lt_moving_rx := negb up;
         lt_aoa := tr (if up then fun b s u => deg_2_rad (g_aod g b s u) else fun b s u => deg_2_rad (g_aoa g b s u));
         lt_aod := tr (if up then fun b s u => deg_2_rad (g_aoa g b s u) else fun b s u => deg_2_rad (g_aod g b s u));
         lt_zoa := tr (if up then fun b s u => deg_2_rad (g_zod g b s u) else fun b s u => deg_2_rad (g_zoa g b s u));
         lt_zod := tr (if up then fun b s u => deg_2_rad (g_zoa g b s u) else fun b s u => deg_2_rad (g_zod g b s u));
         lt_los := tr los; lt_d3d := tr (g_d3d g);
         lt_tx_ori := if up then t_at uo b tx else t_at bo b tx;
         lt_rx_ori := if up then t_at bo b rx else t_at uo b rx;
         lt_bs_height := height; lt_doppler := s_doppler st;
         lt_sat_speed := topology_sat_speed height (sc_elev sc) (cd_dir d b) |} in
    let c_ds : grid R := fun b s u => lp_cDS (ls_col ls (los b s u)) * 1e-9 in
    let c_ds := if up then transpose c_ds else c_ds in
    let ry := if up then option_map_grid uplink_rays (transpose ry) else ry in
    let k : grid R := fun b s u => l_k (lsps b s u) in
    let k := if up then transpose k else k in
    let sf : grid R := fun b s u => l_sf (lsps b s u) in
    let sf := if up then transpose sf else sf in
    let hd : grid (option (list coeff * list R)) := fun b tx rx =>
      option_map (fun y => cir srt srtd gen (T b tx rx) (k b tx rx) y fs (c_ds b tx rx) (cd_phase d b tx rx))
                 (ry b tx rx) in
    (* system_level_channel.py:403-431 *)
    pl <- (if sc_pathloss sc then
             p <- sample_pathloss st ;; Ok (if up then transpose p else p)
           else Ok (fun _ _ _ => 0)) ;;
    let sf := if sc_shadow sc then sf else fun _ _ _ => 1 in
    let gain : grid R := fun b tx rx => pow10 (- pl b tx rx / 20) * sqrt (sf b tx rx) in
    (* system_level_channel.py:262-265 *)
    Ok {| o_h := fun b rx u tx s p t =>
            match hd b tx rx with
            | None => None
            | Some (h, _) => option_map (fun hp : coeff => cmul (hp u s t) (creal (gain b tx rx))) (nth_error h p)
            end;
          o_delays := fun b rx tx p =>
            match hd b tx rx with None => None | Some (_, dl) => nth_error dl p end |}
  | _, _, _, _, _, _, _ => Err (AttributeError "None")
  end.

(* system_level_channel.py:164-167: (num_time_samples, sampling_frequency) or (batch_size, num_time_samples, sampling_frequency) *)
Definition resolve_args (x y : R) (foo : option R) : R * R :=
  match foo with Some f => (y, f) | None => (x, y) end.

(* ---- histories ---- *)
(* system_level_channel.py:81, system_level_channel.py:156 *)
Inductive chan_op :=
| SetTopology (a : topo_args) (dr : topo_draws) (z : nat -> nat -> nat -> nat -> R)
| Call (fs : R) (d : call_draws).

(* system_level_channel.py:81, system_level_channel.py:156 *)
Definition chan_step (sc : scenario) (always : bool) (c : chan) (o : chan_op) : chan :=
  match o with
  | SetTopology a dr z => fst (chan_set_topology sc always c a dr z)
  | Call _ _ => c                    (* a call stores nothing on the object *)
  end.
(* a history of calls of system_level_channel.py:81 and system_level_channel.py:156 *)
Definition chan_run (sc : scenario) (always : bool) (c : chan) (ops : list chan_op) : chan :=
  fold_left (chan_step sc always) ops c.
