(* Lemmas for C108: the antennas of the satellite. *)
From Coq Require Import Reals String List Bool Arith Lia Lra ZArith QArith Qreals Permutation Sorting.Sorted.
From Verif Require Import M_Base L_Base M_Params S_Config L_Params L_Config M_Geometry M_Pathloss M_Scenario
  M_Lsp S_Linear L_Linear S_Lsp S_Topology L_Pathloss L_Trig L_Geometry L_Scenario L_Fresh L_Topology L_Corr L_Lsp
  S_Pathloss L_Loss M_Rays S_Rays L_Rays L_RaysEx M_Antenna L_Antenna M_Cplx M_Coeff S_Coeff L_Rotation L_Coeff M_Channel S_Channel L_Chol L_Channel L_Link
  S_Ray L_Ray L_MeanLinkEx L_SatSide.
Import ListNotations.
Open Scope string_scope.
Open Scope list_scope.
Open Scope R_scope.

(* ---- the antennas of the satellite ---- *)
Definition aligned (x1 x2 : cplx) (i1 i2 : nat) (h : coeff) : Prop :=
  forall u t, cmul (h u i2 t) x1 = cmul (h u i1 t) x2.

Lemma aligned_zero x1 x2 i1 i2 : aligned x1 x2 i1 i2 (fun _ _ _ => c0).
Proof. intros u t. ring. Qed.

Lemma aligned_sum x1 x2 i1 i2 (h : nat -> nat -> coeff) ind c : (forall r, aligned x1 x2 i1 i2 (h c r)) -> aligned x1 x2 i1 i2 (sum_rays h ind c).
Proof.
  intros A u t. unfold sum_rays. induction ind as [|r ind IH]; [cbn [map csum fold_right]; ring|].
  cbn [map csum fold_right] in *. unfold csum in IH.
  assert (X : forall a b x : cplx, cmul (cadd a b) x = cadd (cmul a x) (cmul b x)) by (intros; ring).
  rewrite !X, IH, A. reflexivity.
Qed.

Lemma aligned_scale x1 x2 i1 i2 f h : aligned x1 x2 i1 i2 h -> aligned x1 x2 i1 i2 (scale_coeff f h).
Proof.
  intros A u t. unfold scale_coeff.
  assert (X : forall a b x : cplx, cmul (cmul a b) x = cmul (cmul a x) b) by (intros; ring). rewrite (X _ _ x1), (X _ _ x2), A. reflexivity.
Qed.

Lemma aligned_add x1 x2 i1 i2 h h' : aligned x1 x2 i1 i2 h -> aligned x1 x2 i1 i2 h' -> aligned x1 x2 i1 i2 (add_coeff h h').
Proof.
  intros A B u t. unfold add_coeff.
  assert (X : forall a b x : cplx, cmul (cadd a b) x = cadd (cmul a x) (cmul b x)) by (intros; ring). rewrite !X, A, B. reflexivity.
Qed.

Lemma aligned_reduce srt srtd x1 x2 i1 i2 sub h powers delays cds : (forall c r, aligned x1 x2 i1 i2 (h c r)) ->
  Forall (aligned x1 x2 i1 i2) (fst (reduce_nlos srt srtd sub h powers delays cds)).
Proof.
  intros A. unfold reduce_nlos.
  assert (M : forall ind l, Forall (aligned x1 x2 i1 i2) (map (sum_rays h ind) l)).
  { intros ind l. apply Forall_forall. intros y Hy. apply in_map_iff in Hy. destruct Hy as (c & <- & _). apply aligned_sum. intros r. apply A. }
  assert (N : forall l ind, Forall (aligned x1 x2 i1 i2) l -> Forall (aligned x1 x2 i1 i2) (map (fun k => nth k l (fun _ _ _ => c0)) ind)).
  { intros l ind F. apply Forall_forall. intros y Hy. apply in_map_iff in Hy. destruct Hy as (k & <- & _).
    destruct (le_lt_dec (length l) k) as [Q|Q]; [rewrite nth_overflow by exact Q; apply aligned_zero|].
    rewrite Forall_forall in F. apply F, nth_In, Q. }
  destruct sub; cbn [fst]; apply N; [|apply M]. rewrite !Forall_app. repeat split; apply M.
Qed.

Lemma aligned_combine x1 x2 i1 i2 k h l : aligned x1 x2 i1 i2 h -> Forall (aligned x1 x2 i1 i2) l -> Forall (aligned x1 x2 i1 i2) (combine_los k h l).
Proof.
  intros A F. unfold combine_los. destruct F as [|h0 l A0 F]; cbn [map]; constructor.
  - apply aligned_add; apply aligned_scale; assumption.
  - apply Forall_forall. intros y Hy. apply in_map_iff in Hy. destruct Hy as (w & <- & Hw). apply aligned_scale.
    rewrite Forall_forall in F. apply F, Hw.
Qed.

Lemma element_field j1 p a k e o theta phi theta' phi' : make_array j1 p = Ok a -> antenna_element a k e ->
  gcs_to_lcs o theta phi = (theta', phi') -> antenna_field a o theta phi k = l2g_response (field e theta' phi') o theta phi.
Proof.
  intros H A G. unfold antenna_field. rewrite G.
  destruct (array_partition _ _ _ H) as ((_ & _ & D & _) & _).
  destruct A as [A|e A A'].
  - destruct (pa_pol2 a); [|reflexivity].
    destruct (existsb (Nat.eqb k) (pa_ind2 a)) eqn:X; [|reflexivity].
    apply existsb_exists in X. destruct X as (k' & X & Y). apply Nat.eqb_eq in Y. subst k'. destruct (D k); auto.
  - rewrite A'. assert (X : existsb (Nat.eqb k) (pa_ind2 a) = true)
      by (apply existsb_exists; exists k; split; [exact A|apply Nat.eqb_refl]).
    rewrite X. reflexivity.
Qed.

Lemma same_field j1 p a e i1 i2 o theta phi : make_array j1 p = Ok a -> antenna_element a i1 e -> antenna_element a i2 e ->
  antenna_field a o theta phi i2 = antenna_field a o theta phi i1.
Proof.
  intros H A1 A2. destruct (gcs_to_lcs o theta phi) as [t' p'] eqn:G.
  rewrite (element_field _ _ _ _ _ _ _ _ _ _ H A1 G), (element_field _ _ _ _ _ _ _ _ _ _ H A2 G). reflexivity.
Qed.

Lemma steering_rho fc o d theta phi theta' phi' : rho_hat theta phi = rho_hat theta' phi' -> steering fc o d theta phi = steering fc o d theta' phi'.
Proof. intros E. unfold steering. rewrite E. reflexivity. Qed.

Lemma ray_aligned j1 p G L e i1 i2 aoa aod zoa zod m tm w theta phi (u : nat) :
  make_array j1 p = Ok (cg_tx G) -> antenna_element (cg_tx G) i1 e -> antenna_element (cg_tx G) i2 e ->
  rho_hat zod aod = rho_hat theta phi ->
  cmul (cmul (cmul (cmul (field_entry G L aoa aod zoa zod m u i2) (array_offset G L aoa aod zoa zod u i2)) tm) w)
    (steering (cg_fc G) (lt_tx_ori L) (pa_pos (cg_tx G) i1) theta phi) =
  cmul (cmul (cmul (cmul (field_entry G L aoa aod zoa zod m u i1) (array_offset G L aoa aod zoa zod u i1)) tm) w)
    (steering (cg_fc G) (lt_tx_ori L) (pa_pos (cg_tx G) i2) theta phi).
Proof.
  intros H A1 A2 E. rewrite !steering_offset.
  rewrite !(steering_rho _ _ _ _ _ _ _ E). unfold field_entry. rewrite (same_field _ _ _ _ _ _ _ _ _ H A1 A2). ring.
Qed.

Lemma steering_norm fc o d theta phi : cnorm2 (steering fc o d theta phi) = 1.
Proof. unfold steering. apply cexpi_norm. Qed.

Lemma C108_array_l : forall srt srtd j1 pb ua ba sc al ops a dr z fs d out,
  constructed sc -> settled sc al ops a dr z -> make_array j1 pb = Ok ba -> sc_dir sc = "downlink" -> sc_env sc <> Urban ->
  let c := chan_run sc al (chan_init sc) ops in
  chan_call srt srtd sc ua ba al c fs d = Ok out ->
  exists ut bs bo los, s_ut_loc (c_st c) = Some ut /\ s_bs_loc (c_st c) = Some bs /\ s_bs_ori (c_st c) = Some bo /\ s_los (c_st c) = Some los /\
    (160000 <= vz (t_at bs 0%nat 0%nat) -> forall b s u, exists theta phi, 0 <= theta <= PI /\ - PI < phi <= PI /\
       (los b s u = true -> let x := vsub (t_at ut b u) (t_at bs b s) in vscale (vnorm x) (rho_hat theta phi) = x) /\
       forall e i1 i2, antenna_element ba i1 e -> antenna_element ba i2 e -> forall iu p t h1,
         link_coefficient (sc_dir sc) out b s i1 u iu p t = Some h1 ->
         exists h2, link_coefficient (sc_dir sc) out b s i2 u iu p t = Some h2 /\
           cmul h2 (steering (sc_fc sc) (t_at bo b s) (pa_pos ba i1) theta phi) =
           cmul h1 (steering (sc_fc sc) (t_at bo b s) (pa_pos ba i2) theta phi) /\
           cnorm2 h2 = cnorm2 h1).
Proof.
  intros srt srtd j1 pb ua ba sc al ops a dr z fs d out Hc Hs Hb Hd He c HO.
  destruct (settled_state _ _ _ _ _ _ Hs) as (ch0 & st' & ut & bs0 & Cm & Sm & Lx & Ls & mask & ST & SU & _ & _ & _ & _ & _ & EM & SAME & CX & CS & MK & CL).
  cbv zeta in SAME, MK, CX, CS, CL. fold c in SAME, MK, CX, CS, CL.
  destruct SAME as (S1 & S2 & S3 & S4 & S5 & S6 & S7 & S8).
  destruct (C31_axes_l _ _ _ _ _ _ _ _ _ _ HO) as (lsps & mask' & rr & vel & uo & bo & bs & g & los & ls & pl & D1 & D2 & D3 & D4 & D5 & D6 & D7 & D8 & D9 & D10 & D11 & D12 & AX).
  assert (mask' = mask) by congruence. subst mask'.
  assert (G : gen_rays srt st' mask lsps (cd_rays d) = Ok rr).
  { rewrite <- D3. unfold gen_rays. rewrite S6, S5, S4, S3, S2. reflexivity. }
  destruct (make_ready _ _ _ _ _ Hc ST) as (ls9 & los9 & g9 & ind9 & bs9 & mask9 & RD).
  assert (ls9 = ls) by (assert (E := rd_ls _ _ _ _ _ _ _ _ RD); congruence). subst ls9.
  assert (los9 = los) by (assert (E := rd_los _ _ _ _ _ _ _ _ RD); congruence). subst los9.
  assert (g9 = g) by (assert (E := rd_geo _ _ _ _ _ _ _ _ RD); congruence). subst g9.
  assert (bs9 = bs) by (assert (E := rd_bs _ _ _ _ _ _ _ _ RD); congruence). subst bs9.
  assert (mask9 = mask) by (assert (E := rd_mask _ _ _ _ _ _ _ _ RD); congruence). subst mask9.
  destruct (reported_angles _ _ _ _ _ Hc ST) as (ut' & bs' & g' & U & B & G' & ANG).
  assert (ut' = ut) by congruence. subst ut'. assert (bs' = bs) by congruence. subst bs'. assert (g' = g) by congruence. subst g'.
  exists ut, bs, bo, los. split; [congruence|]. split; [exact D7|]. split; [exact D6|]. split; [exact D9|].
  intros Hh b s u.
  exists (deg_2_rad (fold_180 (g_zod g b s u + (if los b s u then 0 else ls_zod_offset ls b s u)))), (deg_2_rad (wrap_180 (g_aod g b s u))).
  split; [apply rad_range0, fold_180_range|]. split; [apply rad_range, wrap_180_range|].
  destruct (ANG b s u) as (_ & _ & Z & _ & DIR & _).
  split. { intros L x. rewrite L, Rplus_0_r, rho_hat_wrap by exact Z. rewrite <- unit_dir_rho. exact DIR. }
  intros e i1 i2 A1 A2 iu p t h1 H1. specialize (AX b s u). cbv zeta in AX.
  destruct (rr b s u) as [y|] eqn:Y; [|destruct (AX i1 iu p t) as [X _]; congruence].
  assert (FL := depart_flat _ _ _ _ _ _ _ _ _ _ _ _ b s u y (constructed_accepted sc Hc) RD G Hd He Hh Y).
  rewrite Hd in AX, H1 |- *. cbn [String.eqb Ascii.eqb Bool.eqb] in AX.
  destruct (AX i1 iu p t) as [_ X1]. destruct (AX i2 iu p t) as [_ X2]. rewrite X1 in H1. rewrite X2. clear X1 X2 AX.
  set (GG := down_arrays sc ua ba) in *.
  set (LL := down_link sc (c_st c) vel uo bo bs g los (cd_dir d) b s u) in *.
  set (theta := deg_2_rad (fold_180 (g_zod g b s u + (if los b s u then 0 else ls_zod_offset ls b s u)))) in *.
  set (phi := deg_2_rad (wrap_180 (g_aod g b s u))) in *.
  set (x1 := steering (sc_fc sc) (t_at bo b s) (pa_pos ba i1) theta phi).
  set (x2 := steering (sc_fc sc) (t_at bo b s) (pa_pos ba i2) theta phi).
  assert (AL : forall K cds ph, Forall (aligned x1 x2 i1 i2) (fst (cir srt srtd GG LL K y fs cds ph))).
  { intros K cds ph. unfold cir, step_11.
    assert (F := aligned_reduce srt srtd x1 x2 i1 i2 (cg_sub GG) (nlos_ray GG LL y (fun i => INR i / fs) ph) (r_powers y) (r_delays y) cds).
    destruct (reduce_nlos srt srtd (cg_sub GG) (nlos_ray GG LL y (fun i => INR i / fs) ph) (r_powers y) (r_delays y) cds) as [hn dl].
    cbn [fst] in *. 
    assert (F' : Forall (aligned x1 x2 i1 i2) hn).
    { apply F. intros k q v w. unfold nlos_ray. cbv zeta. destruct (FL k q) as [-> ->].
      apply (ray_aligned j1 pb GG LL e i1 i2); [exact Hb | exact A1 | exact A2 | reflexivity]. }
    destruct (lt_los LL) eqn:EL; [|exact F']. apply aligned_combine; [|exact F'].
    intros v w. unfold los_ray. cbv zeta.
    apply (ray_aligned j1 pb GG LL e i1 i2); [exact Hb | exact A1 | exact A2 |].
    cbn in EL. unfold theta, phi. rewrite EL, Rplus_0_r, rho_hat_wrap by exact Z. reflexivity. }
  match type of H1 with context [fst ?X] => specialize (AL (l_k (lsps b s u)) (lp_cDS (ls_col ls (los b s u)) * 1e-9) (cd_phase d b s u)); set (CI := X) in * end.
  destruct (nth_error (fst CI) p) as [h|] eqn:NE; cbn [option_map] in H1 |- *; [|discriminate].
  assert (AH : aligned x1 x2 i1 i2 h) by (rewrite Forall_forall in AL; apply AL; eapply nth_error_In; exact NE).
  injection H1 as <-. eexists. split; [reflexivity|].
  assert (X : forall q f x : cplx, cmul (cmul q f) x = cmul (cmul q x) f) by (intros; ring).
  split; [rewrite (X _ _ x1), (X _ _ x2), (AH iu t); reflexivity|].
  assert (N := f_equal cnorm2 (AH iu t)). rewrite !cnorm2_mul in N. unfold x1, x2 in N. rewrite !steering_norm in N.
  rewrite !Rmult_1_r in N. rewrite !cnorm2_mul, N. reflexivity.
Qed.
