(* All taps of a tapped delay line with one-sided correlation matrices: C72. *)
From Coq Require Import Reals String List Bool Arith Lia Lra ZArith.
From Verif Require Import M_Base L_Base L_Trig M_Json D_Links M_Params M_Geometry M_Cplx L_Coeff M_Convert M_Links S_Convert S_Links L_Csum L_Grids L_Convert L_Tdl L_TdlCov L_TdlEx.
Import ListNotations.
Open Scope string_scope.
Open Scope list_scope.
Open Scope R_scope.

Lemma mix_sum n (a b : nat -> cplx) D Z :
  csumN n (fun q => csumN n (fun q' => cmul (cmul (a q) (cconj (b q'))) (cadd (if Nat.eqb q q' then D else c0) Z))) =
  cadd (cmul D (csumN n (fun q => cmul (a q) (cconj (b q))))) (cmul Z (cmul (csumN n a) (cconj (csumN n b)))).
Proof.
  transitivity (csumN n (fun q => cadd (cmul D (cmul (a q) (cconj (b q)))) (cmul (a q) (cmul Z (cconj (csumN n b)))))).
  - apply csumN_ext. intros q Hq.
    transitivity (csumN n (fun q' => cadd (cmul (cmul (a q) (cconj (b q'))) (if Nat.eqb q q' then D else c0)) (cmul (cmul Z (a q)) (cconj (b q'))))).
    { apply csumN_ext. intros q' _. ring. }
    rewrite csumN_add. f_equal.
    + rewrite (csumN_single _ _ q Hq); [rewrite Nat.eqb_refl; ring|].
      intros q' _ NE. apply not_eq_sym, Nat.eqb_neq in NE. rewrite NE. ring.
    + rewrite csumN_mul_l, <- csumN_conj. ring.
  - rewrite csumN_add, csumN_mul_l, csumN_mul_r. f_equal. ring.
Qed.

Lemma C72_split_law_l chol a t p E fs w th :
  tdl_init chol a = Ok t -> documented_profile (ta_model a) = Some p ->
  ta_spatial a = None -> (0 < ta_sinusoids a)%nat ->
  phase_mean (ta_rx a) (ta_tx a) (length (tap_powers p)) (ta_sinusoids a) E ->
  exists (H : phases -> R -> nat -> nat -> nat -> nat -> cplx) (Lr Lt : nat -> nat -> cplx),
    (match ta_rx_corr a with None => forall i j, Lr i j = if Nat.eqb i j then c1 else c0 | Some m => chol (ta_rx a) m = Some Lr end) /\
    (match ta_tx_corr a with None => forall i j, Lt i j = if Nat.eqb i j then c1 else c0 | Some m => chol (ta_tx a) m = Some Lt end) /\
    (forall x z, tdl_call t fs (TdlDraws w th x z) = Ok (H x z, tdl_delays t)) /\
    forall r s r' s' k k' i j, (r < ta_rx a)%nat -> (s < ta_tx a)%nat -> (r' < ta_rx a)%nat -> (s' < ta_tx a)%nat ->
      (k < length (tap_powers p))%nat -> (k' < length (tap_powers p))%nat ->
      correlation E (fun x z => H x z r s k i) (fun x z => H x z r' s' k' j) =
      cadd (if Nat.eqb k k'
            then cmul (cmul (creal (nth k (if pf_los p then tl (linear_powers p) else linear_powers p) 0 / total_power p))
                            (scatter_autocorrelation (ta_sinusoids a) w (th k) (INR i / fs - INR j / fs)))
                      (cmul (csumN (ta_rx a) (fun q => cmul (Lr r q) (cconj (Lr r' q)))) (csumN (ta_tx a) (fun q => cmul (Lt q s) (cconj (Lt q s')))))
            else c0)
           (if pf_los p && (Nat.eqb k 0 && Nat.eqb k' 0)
            then cmul (cmul (creal (hd 0 (linear_powers p) / total_power p)) (cexpi (w * (INR i / fs - INR j / fs) * cos (ta_aoa a))))
                      (cmul (cmul (csumN (ta_rx a) (Lr r)) (cconj (csumN (ta_rx a) (Lr r'))))
                            (cmul (csumN (ta_tx a) (fun q => Lt q s)) (cconj (csumN (ta_tx a) (fun q => Lt q s')))))
            else c0).
Proof.
  intros I D C1 N PM. pose proof (init_shape _ _ _ _ I D) as S.
  destruct (sh_corr2 _ _ _ _ S C1) as (lr & lt & EC & Er & Et).
  set (id := fun i j : nat => if Nat.eqb i j then c1 else c0).
  set (Lr := match lr with None => id | Some l => l end). set (Lt := match lt with None => id | Some l => l end).
  exists (fun x z => tdl_correlate t (tdl_taps t fs (TdlDraws w th x z))), Lr, Lt.
  split. { unfold Lr. destruct (ta_rx_corr a); [destruct Er as (l & El & ->); exact El|subst lr; reflexivity]. }
  split. { unfold Lt. destruct (ta_tx_corr a); [destruct Et as (l & El & ->); exact El|subst lt; reflexivity]. }
  split. { intros x z. apply (call_ok chol a p t fs _ S). }
  clear Er Et.
  assert (PM' : phase_mean (ta_rx a) (ta_tx a) (length (tap_powers p)) (td_sinusoids t) E) by (rewrite (sh_sin _ _ _ _ S); exact PM).
  assert (N' : (0 < td_sinusoids t)%nat) by (rewrite (sh_sin _ _ _ _ S); exact N).
  assert (P' : forall k, 0 <= nth k (td_powers t) 0) by (intros; apply (powers_nonneg chol a p t k S)).
  pose proof (los_nonneg chol a p t S) as PL.
  assert (COV := fun r s q i r' s' q' j => cov_taps t _ _ _ E PM' N' P' fs w th r s q i r' s' q' j PL).
  rewrite (sh_los _ _ _ _ S), (sh_sin _ _ _ _ S), (sh_aoa _ _ _ _ S) in COV.
  intros r s r' s' k k' i j H1 H2 H3 H4 H5 H6.
  set (A := if Nat.eqb k k' then cmul (creal (nth k (td_powers t) 0)) (scatter_autocorrelation (ta_sinusoids a) w (th k) (INR i / fs - INR j / fs)) else c0).
  set (Z := if pf_los p && (Nat.eqb k 0 && Nat.eqb k' 0)
            then cmul (creal (td_los_power t)) (cexpi (w * (INR i / fs - INR j / fs) * cos (ta_aoa a))) else c0).
  (* the code leaves the taps alone where no matrix is given, which is a multiplication by the identity *)
  assert (ID : forall n r0 (f : nat -> cplx), (r0 < n)%nat -> csumN n (fun q => cmul (id r0 q) (f q)) = f r0).
  { intros n r0 f L. rewrite (csumN_single _ _ r0 L); [unfold id; rewrite Nat.eqb_refl; ring|].
    intros q _ NE. unfold id. apply not_eq_sym, Nat.eqb_neq in NE. rewrite NE. ring. }
  assert (ID' : forall n s0 (f : nat -> cplx), (s0 < n)%nat -> csumN n (fun q => cmul (f q) (id q s0)) = f s0).
  { intros n s0 f L. rewrite (csumN_single _ _ s0 L); [unfold id; rewrite Nat.eqb_refl; ring|].
    intros q _ NE. unfold id. apply Nat.eqb_neq in NE. rewrite NE. ring. }
  set (h1 := fun x z r s p i => csumN (ta_rx a) (fun q => cmul (Lr r q) (tdl_taps t fs (TdlDraws w th x z) q s p i))).
  assert (HH : forall x z r s p i, (r < ta_rx a)%nat -> (s < ta_tx a)%nat ->
    tdl_correlate t (tdl_taps t fs (TdlDraws w th x z)) r s p i = csumN (ta_tx a) (fun q => cmul (h1 x z r q p i) (Lt q s))).
  { intros x z r0 s0 p0 i0 G1 G2. unfold tdl_correlate. rewrite EC, (sh_rx _ _ _ _ S), (sh_tx _ _ _ _ S). unfold h1, Lr, Lt.
    destruct lr as [l|], lt as [l'|]; try reflexivity.
    - rewrite ID' by exact G2. reflexivity.
    - apply csumN_ext. intros q _. rewrite ID by exact G1. reflexivity.
    - rewrite ID' by exact G2. rewrite ID by exact G1. reflexivity. }
  set (X := csumN (ta_rx a) (fun q => cmul (Lr r q) (cconj (Lr r' q)))).
  set (X0 := cmul (csumN (ta_rx a) (Lr r)) (cconj (csumN (ta_rx a) (Lr r')))).
  assert (T1 : forall v v', (v < ta_tx a)%nat -> (v' < ta_tx a)%nat ->
    E (fun x z => cmul (h1 x z r v k i) (cconj (h1 x z r' v' k' j))) = cadd (if Nat.eqb v v' then cmul A X else c0) (cmul Z X0)).
  { intros v v' G1 G2. unfold h1.
    rewrite (E_mix _ _ _ _ E PM _ _ _ _ (fun q x z => tdl_taps t fs (TdlDraws w th x z) q v k i) (fun q x z => tdl_taps t fs (TdlDraws w th x z) q v' k' j)).
    transitivity (csumN (ta_rx a) (fun q => csumN (ta_rx a) (fun q' => cmul (cmul (Lr r q) (cconj (Lr r' q'))) (cadd (if Nat.eqb q q' then (if Nat.eqb v v' then A else c0) else c0) Z)))).
    { apply csumN_ext. intros q Hq. apply csumN_ext. intros q' Hq'. f_equal. rewrite COV by assumption. unfold A. fold Z. f_equal.
      destruct (Nat.eqb q q'), (Nat.eqb v v'), (Nat.eqb k k'); reflexivity. }
    rewrite mix_sum. fold X X0. destruct (Nat.eqb v v'); ring. }
  unfold correlation.
  rewrite (pm_ext _ _ _ _ _ PM _ (fun x z => cmul (csumN (ta_tx a) (fun q => cmul (Lt q s) (h1 x z r q k i)))
       (cconj (csumN (ta_tx a) (fun q => cmul (Lt q s') (h1 x z r' q k' j)))))).
  2: { intros x z. rewrite !HH by assumption. f_equal; [|f_equal]; apply csumN_ext; intros; ring. }
  rewrite (E_mix _ _ _ _ E PM _ _ _ _ (fun q x z => h1 x z r q k i) (fun q x z => h1 x z r' q k' j)).
  transitivity (csumN (ta_tx a) (fun q => csumN (ta_tx a) (fun q' => cmul (cmul (Lt q s) (cconj (Lt q' s'))) (cadd (if Nat.eqb q q' then cmul A X else c0) (cmul Z X0))))).
  { apply csumN_ext. intros q Hq. apply csumN_ext. intros q' Hq'. f_equal. apply T1; assumption. }
  rewrite (mix_sum _ (fun q => Lt q s) (fun q => Lt q s')).
  assert (PW : nth k (td_powers t) 0 = nth k (if pf_los p then tl (linear_powers p) else linear_powers p) 0 / total_power p).
  { rewrite (sh_powers _ _ _ _ S). unfold diffuse_powers.
    replace 0 with (0 / total_power p) at 1 by (unfold Rdiv; ring).
    apply (map_nth (fun x => x / total_power p)). }
  unfold A, Z. rewrite PW. rewrite (sh_los_power _ _ _ _ S). unfold specular_power.
  destruct (Nat.eqb k k'), (pf_los p), (Nat.eqb k 0), (Nat.eqb k' 0); cbn [andb]; ring.
Qed.
