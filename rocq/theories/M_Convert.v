(* Model of the grid, conversion and correlation-matrix functions of /repo/OpenNTN/utils.py. *)
From Coq Require Import Reals String List Bool Arith Lia Lra ZArith.
From Verif Require Import M_Base M_Geometry M_Cplx.
Import ListNotations.
Open Scope string_scope.
Open Scope list_scope.
Open Scope R_scope.

(* ---- primitives ---- *)
(* tf.math.ceil, tf.cast(float -> int32) (truncation towards zero) *)
(* utils.py:180 *)
Definition ceil (x : R) : Z := (- Int_part (- x))%Z.
(* utils.py:111-117 *)
Definition trunc (x : R) : Z := if Rltb x 0 then ceil x else Int_part x.
(* tf.range(start, limit) with unit step *)
(* utils.py:66-68 *)
Definition tf_range (start limit : R) : list R :=
  map (fun i => start + INR i) (seq 0 (Z.to_nat (ceil (limit - start)))).
(* tf.linspace on integers: start, start + k delta, stop, cut to num entries *)
(* utils.py:119-127 *)
Definition tf_linspace (start stop : Z) (num : nat) : list R :=
  let n_steps := Nat.max (num - 1) 1 in
  let delta := (IZR stop - IZR start) / INR n_steps in
  firstn num (IZR start :: map (fun k => IZR start + delta * INR k) (seq 1 (n_steps - 1)) ++ [IZR stop]).
(* tf.experimental.numpy.sinc *)
(* utils.py:326 *)
Definition sinc (x : R) : R := if Reqb x 0 then 1 else sin (PI * x) / (PI * x).
(* tf.reduce_mean of a real tensor along axes of the given sizes *)
(* utils.py:250 *)
Definition mean4 (n1 n2 n3 n4 : nat) (f : nat -> nat -> nat -> nat -> R) : R :=
  sumR n1 (fun a => sumR n2 (fun b => sumR n3 (fun c => sumR n4 (f a b c)))) / (INR n1 * INR n2 * INR n3 * INR n4).
(* utils.py:339 *)
Definition mean3 (n1 n2 n3 : nat) (f : nat -> nat -> nat -> R) : R :=
  sumR n1 (fun a => sumR n2 (fun b => sumR n3 (f a b))) / (INR n1 * INR n2 * INR n3).
(* tf.math.divide_no_nan(h, tf.complex(c, 0)) *)
(* utils.py:253, utils.py:343 *)
Definition divide_no_nan (h : cplx) (c : R) : cplx :=
  if Reqb c 0 then c0 else Cx (re h / c) (im h / c).

(* utils.py:21-70 subcarrier_frequencies.  `precision` only selects the dtype and is dropped. *)
Definition subcarrier_frequencies (num_subcarriers : nat) (spacing : R) : list R :=
  let n := INR num_subcarriers in
  let '(start, limit) :=
    if Nat.eqb (num_subcarriers mod 2) 0 then (- n / 2, n / 2) else (- (n - 1) / 2, (n - 1) / 2 + 1) in
  map (fun f => f * spacing) (tf_range start limit).

(* utils.py:72-127 time_frequency_vector *)
Definition time_frequency_vector (num_samples : nat) (duration : R) : list R * list R :=
  let n := INR num_samples in
  let '(n_min, n_max) :=
    if Nat.eqb (num_samples mod 2) 0 then (trunc (- n / 2), trunc (n / 2 - 1))
    else (trunc (- (n - 1) / 2), trunc ((n + 1) / 2 - 1)) in
  let df := 1 / duration / n in
  (map (fun x => x * duration) (tf_linspace n_min n_max num_samples),
   map (fun x => x * df) (tf_linspace n_min n_max num_samples)).

(* utils.py:129-182 time_lag_discrete_time_channel *)
Definition time_lag (bandwidth max_delay : R) : Z * Z :=
  ((-6)%Z, (ceil (max_delay * bandwidth) + 6)%Z).

(* ---- channel impulse responses ---- *)
(* sizes of `a` [batch, rx, rx ant, tx, tx ant, path, time] *)
(* utils.py:184-255, the shape of a *)
Record dims := Dims { d_batch : nat; d_rx : nat; d_rxa : nat; d_tx : nat; d_txa : nat; d_path : nat; d_time : nat }.
(* utils.py:184-255, the tensor a *)
Definition coeffs := nat -> nat -> nat -> nat -> nat -> nat -> nat -> cplx.
(* `tau`: [batch, rx, tx, path] or [batch, rx, rx ant, tx, tx ant, path] *)
(* utils.py:184-255, the tensor tau *)
Inductive delays :=
| Tau4 (t : nat -> nat -> nat -> nat -> R)
| Tau6 (t : nat -> nat -> nat -> nat -> nat -> nat -> R).
(* utils.py:221-232 (= 306-317): rank-4 delays are repeated over the antennas *)
Definition tau_at (d : delays) (b r ra t ta p : nat) : R :=
  match d with Tau4 x => x b r t p | Tau6 x => x b r ra t ta p end.
(* a response [batch, rx, rx ant, tx, tx ant, time, frequency or tap] *)
(* utils.py:243, utils.py:331 *)
Definition response := nat -> nat -> nat -> nat -> nat -> nat -> nat -> cplx.

(* utils.py:184-255 cir_to_ofdm_channel; |h|^2 stands for tf.square(tf.abs(h)). *)
Definition cir_to_ofdm (D : dims) (freqs : list R) (a : coeffs) (tau : delays) (normalize : bool) : response :=
  let h_f : response := fun b r ra t ta s k =>
    csumN (d_path D) (fun p =>
      cmul (a b r ra t ta p s) (cexpi (- 2 * PI * nth k freqs 0 * tau_at tau b r ra t ta p))) in
  if normalize then fun b r ra t ta s k =>
    let c := mean4 (d_rxa D) (d_txa D) (d_time D) (length freqs) (fun ra' ta' s' k' => cnorm2 (h_f b r ra' t ta' s' k')) in
    divide_no_nan (h_f b r ra t ta s k) (sqrt c)
  else h_f.

(* utils.py:257-345 cir_to_time_channel; tap k is time lag l_min + k *)
Definition num_taps (l_min l_max : Z) : nat := Z.to_nat (l_max + 1 - l_min).
(* utils.py:257-345 *)
Definition cir_to_time (D : dims) (W : R) (a : coeffs) (tau : delays) (l_min l_max : Z) (normalize : bool) : response :=
  let hm : response := fun b r ra t ta s k =>
    let l := IZR l_min + INR k in
    csumN (d_path D) (fun p => cmul (a b r ra t ta p s) (creal (sinc (l - tau_at tau b r ra t ta p * W)))) in
  if normalize then fun b r ra t ta s k =>
    let c := mean3 (d_rxa D) (d_txa D) (d_time D)
               (fun ra' ta' s' => sumR (num_taps l_min l_max) (fun k' => cnorm2 (hm b r ra' t ta' s' k'))) in
    divide_no_nan (hm b r ra t ta s k) (sqrt c)
  else hm.

(* ---- time to OFDM ---- *)
(* the resource grid fields read; num_time_samples as computed by sionna's ResourceGrid
   ((fft_size + cyclic_prefix_length) * num_ofdm_symbols) *)
(* utils.py:430-437, the attributes of rg that are read *)
Record grid_cfg := RG { rg_fft : nat; rg_cp : nat; rg_symbols : nat }.
(* utils.py:434, rg.num_time_samples *)
Definition rg_time_samples (g : grid_cfg) : nat := ((rg_fft g + rg_cp g) * rg_symbols g)%nat.

(* Python slice l[start:stop:step], step > 0 *)
(* utils.py:434 *)
Definition py_slice {A} (start stop step : nat) (l : list A) : list A :=
  map snd (filter (fun p => (start <=? fst p)%nat && (fst p <? stop)%nat && Nat.eqb ((fst p - start) mod step) 0)
             (combine (seq 0 (length l)) l)).
(* tf.roll along an axis: out[i] = in[(i - shift) mod n] *)
(* utils.py:443 *)
Definition tf_roll (shift : Z) (l : list cplx) : list cplx :=
  map (fun i => nth (Z.to_nat ((Z.of_nat i - shift) mod Z.of_nat (length l))) l c0) (seq 0 (length l)).
(* tf.signal.fft *)
(* utils.py:446 *)
Definition fft (l : list cplx) : list cplx :=
  let n := length l in
  map (fun k => csumN n (fun i => cmul (nth i l c0) (cexpi (- 2 * PI * INR k * INR i / INR n)))) (seq 0 n).
(* tf.signal.fftshift: roll by n // 2 *)
(* utils.py:449 *)
Definition fftshift (l : list cplx) : list cplx := tf_roll (Z.of_nat (length l / 2)) l.

(* utils.py:347-451 time_to_ofdm_channel, for one index of the leading axes: h_t lists the
   tap vectors of the successive time steps, each with num_tap entries.  A negative padding
   size is an InvalidArgumentError of tf.zeros; an FFT size of zero makes the slice step or
   the transform fail and is reported the same way. *)
Definition time_to_ofdm (h_t : list (list cplx)) (num_tap : nat) (g : grid_cfg) (l_min : Z) : res (list (list cplx)) :=
  let ofdm_length := (rg_fft g + rg_cp g)%nat in
  if Nat.eqb (rg_fft g) 0 then Err (InvalidArgumentError "fft size") else
  let rows := py_slice (rg_cp g) (rg_time_samples g) ofdm_length h_t in
  if (rg_fft g <? num_tap)%nat then Err (InvalidArgumentError "negative padding") else
  let pad_dims := (rg_fft g - num_tap)%nat in
  Ok (map (fun row => fftshift (fft (tf_roll l_min (row ++ repeat c0 pad_dims)))) rows).

(* ---- correlation matrices ---- *)
(* utils.py:1434-1591 *)
Definition cmatrix := nat -> nat -> cplx.
(* tf.linalg.LinearOperatorToeplitz(col, row).to_dense() *)
(* utils.py:1496-1499, utils.py:1586-1589 *)
Definition toeplitz (col row : nat -> cplx) : cmatrix :=
  fun i j => if (j <=? i)%nat then col (i - j)%nat else row (j - i)%nat.
(* tf.math.pow on complex numbers with a whole exponent; 0**0 is NaN (None) *)
(* utils.py:1486 *)
Fixpoint cpow (a : cplx) (k : nat) : cplx := match k with O => c1 | S m => cmul a (cpow a m) end.
(* utils.py:1486-1490, the case a = 0 *)
Definition is_c0 (a : cplx) : bool := Reqb (re a) 0 && Reqb (im a) 0.
(* utils.py:1486 *)
Definition tf_pow (a : cplx) (k : nat) : option cplx :=
  if is_c0 a then if Nat.eqb k 0 then None else Some c0 else Some (cpow a k).

(* utils.py:1434-1501 exp_corr_mat, for a tensor `a` given by the list of its elements *)
Definition exp_corr_mat (a : list cplx) : res (list cmatrix) :=
  if forallb (fun x => Rltb (sqrt (cnorm2 x)) 1) a then
    Ok (map (fun x =>
          let col k := match tf_pow x k with None => c1 | Some z => z end in
          toeplitz col (fun k => cconj (col k))) a)
  else Err (InvalidArgumentError "The absolute value of the elements of `a` must be smaller than one").

(* utils.py:1503-1591 one_ring_corr_mat; the warning for sigma_phi_deg > 15 is dropped *)
Definition one_ring_corr_mat (phi_deg : list R) (d_h sigma_phi_deg : R) : list cmatrix :=
  map (fun ph =>
    let phi := deg_2_rad ph in
    let sigma_phi := deg_2_rad sigma_phi_deg in
    let col k :=
      let d := 2 * PI * d_h * INR k in
      cmul (cexpi (d * sin phi)) (creal (exp (- 0.5 * ((sigma_phi * d * cos phi) ^ 2)))) in
    toeplitz col (fun k => cconj (col k))) phi_deg.
