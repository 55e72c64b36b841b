(* Large-scale parameter generation.  Models /repo/OpenNTN/lsp.py:94-118 (sample_pathloss),
   lsp.py:120-167 (__call__), lsp.py:196-299 (cross-LSP correlation matrix) and lsp.py:301-399 (spatial
   correlation matrix).  The O2I functions (lsp.py:408-521) are in M_Getters. *)
From Coq Require Import Reals String List Bool Arith ZArith.
From Verif Require Import M_Base M_Params M_Geometry M_Pathloss M_Scenario.
Import ListNotations.
Open Scope string_scope.
Open Scope R_scope.

(* lsp.py:94-118; the path losses exist once a topology has been set *)
Definition sample_pathloss (st : state) : res (grid R) :=
  match s_pl st with
  | None => Err (AttributeError "basic_pathloss")
  | Some p => Ok (fun b s u => pl_total (pl_b p b s u) (pl_g p b s u) (pl_s p b s u) (pl_e p b s u))
  end.

(* ---- cross-LSP correlation, lsp.py:196-299 ---- *)
Definition matrix := nat -> nat -> R.

(* lsp.py:218-220 *)
Definition eye : matrix := fun i j => if Nat.eqb i j then 1 else 0.

(* tf.scatter_nd([[m,n],[n,m]], [1,1], [7,7]): duplicate indices would add up *)
(* lsp.py:242-243 *)
Definition scatter_mask (m n : nat) : matrix := fun i j =>
  (if Nat.eqb i m && Nat.eqb j n then 1 else 0) + (if Nat.eqb i n && Nat.eqb j m then 1 else 0).

(* _add_param, lsp.py:239-250 *)
Definition add_param (mat : matrix) (v : R) (m n : nat) : matrix :=
  fun i j => mat i j + v * scatter_mask m n i j.

(* lsp.py:252-294 *)
Fixpoint add_params (mat : matrix) (names : list (string * (nat * nat))) (vals : list R) : matrix :=
  match names, vals with
  | (_, (m, n)) :: names', v :: vals' => add_params (add_param mat v m n) names' vals'
  | _, _ => mat
  end.

(* the matrix of a link whose table column is lp; indices 0..6 *)
(* lsp.py:196-299 *)
Definition cross_corr (lp : lparams) : matrix := add_params eye corr_names (lp_corr lp).

(* ---- spatial correlation of LSP number i, lsp.py:301-399 ---- *)
Definition pair_filter (ind los : nat -> bool) (u u' : nat) : R :=
  let nlos x := negb (los x) && negb (ind x) in
  if ind u && ind u' then 1
  else if nlos u && nlos u' then 1
  else if los u && los u' then 1
  else if Nat.eqb u u' then 1 else 0.

(* ind, los: states of the UTs of one batch example (and BS); d: 2D distances between UTs;
   cd u i: correlation distance of LSP i in the column used by UT u (row index) *)
(* lsp.py:364-394 *)
Definition spatial_corr (ind los : nat -> bool) (d : nat -> nat -> R) (cd : nat -> nat -> R) (i : nat)
  : matrix := fun u u' => exp (d u u' * (- 1 / cd u i)) * pair_filter ind los u u'.

(* the correlation distance of LSP i in a column, zero-based in the order of corrdist_names *)
(* lsp.py:358-367 *)
Definition corr_dist (lp : lparams) (i : nat) : R := nth i (lp_corrDist lp) 0.

(* the matrices handed to tf.linalg.cholesky: cross_matrix b s u (7x7) and
   spatial_matrix b s i (UT x UT, LSP i) *)
(* lsp.py:196-299 *)
Definition cross_matrix (st : state) : res (nat -> nat -> nat -> matrix) :=
  match s_lsp st, s_los st with
  | Some ls, Some los => Ok (fun b s u => cross_corr (ls_col ls (los b s u)))
  | _, _ => Err (AttributeError "los")
  end.

(* lsp.py:301-394 *)
Definition spatial_matrix (st : state) : res (nat -> nat -> nat -> matrix) :=
  match s_lsp st, s_los st, s_geo st, s_in st with
  | Some ls, Some los, Some g, Some ind =>
      Ok (fun b s i => spatial_corr (t_at ind b) (los b s) (g_utd g b)
                         (fun u i => corr_dist (ls_col ls (los b s u)) i) i)
  | _, _, _, _ => Err (AttributeError "los")
  end.

(* ---- Cholesky factor: tf.linalg.cholesky is external; any lower triangular L with
   L L^T = A, positive diagonal.  It raises when A is not positive definite. ---- *)
(* lsp.py:298, lsp.py:398 *)
Record is_cholesky (n : nat) (A L : matrix) : Prop := {
  ch_lower : forall i j, (i < j)%nat -> L i j = 0;
  ch_diag : forall i, (i < n)%nat -> 0 < L i i;
  ch_prod : forall i j, (i < n)%nat -> (j < n)%nat -> sumR n (fun k => L i k * L j k) = A i j }.

(* ---- __call__, lsp.py:120-167 ---- *)
(* z u j: the standard normal draws of one (batch, BS); Lx u: Cholesky factor of the
   cross-correlation matrix of link u; Lsp i: that of the spatial matrix of LSP i *)
(* lsp.py:132-135 *)
Definition cross_filtered (Lx : nat -> matrix) (z : nat -> nat -> R) (u i : nat) : R :=
  sumR 7 (fun j => Lx u i j * z u j).

(* row vector times Lsp^T: out u = sum_u' s u' * Lsp u u' *)
(* lsp.py:136-142 *)
Definition spatially_filtered (nut : nat) (Lsp : nat -> matrix) (s : nat -> nat -> R) (u i : nat) : R :=
  sumR nut (fun u' => s u' i * Lsp i u u').

(* 10^(std*s + mean) with 10^(-inf) = 0 *)
(* lsp.py:144-150 *)
Definition lsp_value (mean : ext) (std s : R) : R :=
  match mean with NegInf => 0 | Fin m => pow10 (std * s + m) end.

(* lsp.py:50-58 *)
Record lsp := { l_ds : R; l_asd : R; l_asa : R; l_sf : R; l_k : R; l_zsa : R; l_zsd : R }.

(* one link; v i is the correlated normal variate of LSP i *)
(* lsp.py:144-164 *)
Definition make_lsp (mean : nat -> ext) (std : nat -> R) (v : nat -> R) : lsp :=
  let x i := lsp_value (mean i) (std i) (v i) in
  {| l_ds := x 0%nat; l_asd := Rmin (x 1%nat) 104; l_asa := Rmin (x 2%nat) 104; l_sf := x 3%nat;
     l_k := x 4%nat; l_zsa := Rmin (x 5%nat) 52; l_zsd := Rmin (x 6%nat) 52 |}.

(* the whole sampler on a scenario with nut UTs; Lx and Lsp the stored Cholesky factors *)
(* lsp.py:120-167 *)
Definition sample_lsp (st : state) (nut : nat)
    (Lx : nat -> nat -> nat -> matrix) (Lsp : nat -> nat -> nat -> matrix)
    (z : nat -> nat -> nat -> nat -> R) : res (grid lsp) :=
  match s_lsp st with
  | None => Err (AttributeError "lsp_log_mean")
  | Some ls => Ok (fun b s u =>
      make_lsp (ls_mean ls b s u) (ls_std ls b s u)
        (spatially_filtered nut (Lsp b s) (cross_filtered (Lx b s) (z b s)) u))
  end.
