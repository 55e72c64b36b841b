(* The pictures of an antenna element. *)
From Coq Require Import Reals String List Bool Arith Lia Lra ZArith.
From Verif Require Import M_Base L_Base M_Params M_Antenna S_Antenna L_Antenna M_Gain S_Bessel L_Bessel L_Distances M_ElementDraw S_ElementDraw.
Import ListNotations.
Open Scope string_scope.
Open Scope list_scope.
Open Scope R_scope.

Lemma radiated_pattern j1 pat s e theta phi : make_element j1 pat s = Ok e -> radiated e theta phi = el_pattern e theta phi /\ 0 <= el_pattern e theta phi.
Proof. intros H. destruct (C42_field_l j1 pat s e theta phi H) as (A & B & _). split; assumption. Qed.

Lemma ln10_pos : 0 < ln 10.
Proof. rewrite <- ln_1. apply ln_increasing; lra. Qed.

Lemma decibel_in_db x : 0 <= x -> in_db x (decibel x).
Proof.
  intros H. unfold decibel, Rltb. pose proof ln10_pos. destruct (Rlt_dec 0 x) as [P|N]; cbn.
  - unfold log10, Rpower. replace (10 * (ln x / ln 10) / 10 * ln 10) with (ln x) by (field; lra). apply exp_ln, P.
  - lra.
Qed.

(* a grid of n intervals comes close to every value between its ends *)
Lemma grid_near a b n x : (0 < n)%nat -> a <= x <= b -> exists i, (i <= n)%nat /\ Rabs (x - linspace a b n i) <= (b - a) / INR n / 2.
Proof.
  intros Hn Hx. assert (N : 0 < INR n) by (apply lt_0_INR; exact Hn). unfold linspace. set (h := (b - a) / INR n).
  assert (Hh : h * INR n = b - a) by (unfold h; field; lra). assert (H0 : 0 <= h) by (unfold h; apply Rmult_le_pos; [lra|left; apply Rinv_0_lt_compat; exact N]).
  destruct (Req_dec h 0) as [Z|Z].
  - exists 0%nat. split; [lia|]. rewrite Z in *. rewrite Rmult_0_l in Hh. cbn [INR]. replace (x - (a + 0 * 0)) with 0 by lra. rewrite Rabs_R0. lra.
  - assert (P : 0 < h) by lra. destruct (floor_bounds ((x - a) / h + 1 / 2)) as [L U]. set (k := Int_part _) in *.
    assert (E : (x - a) / h * h = x - a) by (field; lra).
    assert (Q : 0 <= (x - a) / h <= INR n).
    { split; [apply Rmult_le_reg_r with h; [exact P|]; lra|]. apply Rmult_le_reg_r with h; [exact P|]. lra. }
    assert (K0 : (0 <= k)%Z) by (assert (-1 < k)%Z; [apply lt_IZR; lra|lia]).
    assert (KN : (k <= Z.of_nat n)%Z) by (assert (k < Z.of_nat n + 1)%Z; [apply lt_IZR; rewrite plus_IZR, <- INR_IZR_INZ; lra|lia]).
    exists (Z.to_nat k). split; [lia|]. rewrite (INR_IZR_INZ (Z.to_nat k)), Z2Nat.id by exact K0.
    replace (x - (a + IZR k * h)) with (((x - a) / h - IZR k) * h) by (rewrite Rmult_minus_distr_r, E; ring).
    rewrite Rabs_mult, (Rabs_right h) by lra. assert (Rabs ((x - a) / h - IZR k) <= 1 / 2) by (apply Rabs_le; lra). nra.
Qed.

Lemma Some_eq {A} (x y : A) : Some x = Some y -> x = y.
Proof. congruence. Qed.

Lemma nth_map_seq {A} (f : nat -> A) n i : (i < n)%nat -> nth_error (map f (seq 0 n)) i = Some (f i).
Proof.
  intros H. rewrite nth_error_map. rewrite (nth_error_nth' (seq 0 n) 0%nat) by (rewrite seq_length; exact H).
  rewrite seq_nth by exact H. reflexivity.
Qed.

Lemma C106_cuts_l : forall j1 pat s e, make_element j1 pat s = Ok e ->
  let q := show_element pat e in
  (length (ep_vertical q) = 361%nat /\ length (ep_horizontal q) = 361%nat) /\
  (forall theta v, In (theta, v) (ep_vertical q) -> 0 <= theta <= PI /\ in_db (radiated e theta 0) v) /\
  (forall phi v, In (phi, v) (ep_horizontal q) -> - PI <= phi <= PI /\ in_db (radiated e (PI / 2) phi) v) /\
  (forall theta, 0 <= theta <= PI -> exists theta' v, In (theta', v) (ep_vertical q) /\ Rabs (theta - theta') <= PI / 720) /\
  (forall phi, - PI <= phi <= PI -> exists phi' v, In (phi', v) (ep_horizontal q) /\ Rabs (phi - phi') <= PI / 360) /\
  (exists v w, In (PI / 2, v) (ep_vertical q) /\ In (0, w) (ep_horizontal q)).
Proof.
  intros j1 pat s e H. cbv zeta. cbn [show_element ep_vertical ep_horizontal]. unfold vertical_cut, horizontal_cut. rewrite !map_length, !seq_length.
  pose proof PI_RGT_0 as P.
  assert (I : INR 360 = 360) by (rewrite INR_IZR_INZ; reflexivity).
  assert (B : forall i, (i < 361)%nat -> 0 <= INR i <= 360).
  { intros i Hi. split; [apply pos_INR|]. rewrite <- I. apply le_INR. lia. }
  split; [split; reflexivity|]. split; [|split; [|split; [|split]]].
  - intros theta v K. apply in_map_iff in K. destruct K as (i & E & K). apply in_seq in K. injection E as <- <-.
    destruct (radiated_pattern j1 pat s e (linspace 0 PI 360 i) 0 H) as [-> N]. split; [|apply decibel_in_db; exact N].
    unfold linspace. rewrite I. specialize (B i ltac:(lia)). nra.
  - intros phi v K. apply in_map_iff in K. destruct K as (i & E & K). apply in_seq in K. injection E as <- <-.
    destruct (radiated_pattern j1 pat s e (PI / 2) (linspace (- PI) PI 360 i) H) as [-> N]. split; [|apply decibel_in_db; exact N].
    unfold linspace. rewrite I. specialize (B i ltac:(lia)). nra.
  - intros theta K. destruct (grid_near 0 PI 360 theta ltac:(lia) K) as (i & Hi & D). rewrite I in D.
    eexists. eexists. split; [apply in_map_iff; exists i; split; [reflexivity|apply in_seq; lia]|]. lra.
  - intros phi K. destruct (grid_near (- PI) PI 360 phi ltac:(lia) K) as (i & Hi & D). rewrite I in D.
    eexists. eexists. split; [apply in_map_iff; exists i; split; [reflexivity|apply in_seq; lia]|]. lra.
  - assert (J : INR 180 = 180) by (rewrite INR_IZR_INZ; reflexivity).
    exists (decibel (el_pattern e (PI / 2) 0)), (decibel (el_pattern e (PI / 2) 0)). split; apply in_map_iff; exists 180%nat; (split; [|apply in_seq; lia]); cbv zeta; unfold linspace; rewrite I, J.
    + replace (0 + 180 * ((PI - 0) / 360)) with (PI / 2) by field. reflexivity.
    + replace (- PI + 180 * ((PI - - PI) / 360)) with 0 by field. reflexivity.
Qed.

Lemma at_distance_spherical r theta phi : 0 <= r -> at_distance r theta phi (V3 (r * sin theta * cos phi) (r * sin theta * sin phi) (r * cos theta)).
Proof.
  intros H. unfold at_distance. cbn [vx vy vz]. repeat split; try ring; [exact H|].
  pose proof (sin2_cos2 theta) as A. pose proof (sin2_cos2 phi) as B. unfold Rsqr in *.
  replace (r * sin theta * cos phi * (r * sin theta * cos phi) + r * sin theta * sin phi * (r * sin theta * sin phi) + r * cos theta * (r * cos theta))
    with (r * r * (sin theta * sin theta * (sin phi * sin phi + cos phi * cos phi) + cos theta * cos theta)) by ring.
  rewrite B, Rmult_1_r, A. ring.
Qed.

(* entry (i, j) of the surface *)
Lemma surface_entry pat e i j q row : nth_error (surface pat e) i = Some row -> nth_error row j = Some q ->
  (i < 100)%nat /\ (j < 100)%nat /\ q = surface_point pat e (linspace 0 PI 99 i) (linspace (- PI) PI 99 j).
Proof.
  intros A B. assert (Li : (i < 100)%nat).
  { assert (A0 : nth_error (surface pat e) i <> None) by congruence. apply nth_error_Some in A0. unfold surface in A0. rewrite map_length, seq_length in A0. exact A0. }
  unfold surface in A. rewrite nth_map_seq in A by exact Li. apply Some_eq in A. cbv beta in A. rewrite <- A in B. clear A.
  assert (Lj : (j < 100)%nat).
  { match type of B with nth_error ?l _ = _ => assert (B0 : nth_error l j <> None) by congruence end. apply nth_error_Some in B0. rewrite map_length, seq_length in B0. exact B0. }
  rewrite nth_map_seq in B by exact Lj. apply Some_eq in B. auto.
Qed.

Lemma surface_in pat e q row : In row (ep_surface (show_element pat e)) -> In q row ->
  exists i j, (i < 100)%nat /\ (j < 100)%nat /\ q = surface_point pat e (linspace 0 PI 99 i) (linspace (- PI) PI 99 j).
Proof.
  intros A B. apply In_nth_error in A. destruct A as [i A]. apply In_nth_error in B. destruct B as [j B]. exists i, j. exact (surface_entry _ _ _ _ _ _ A B).
Qed.

Lemma grid_range i : (i < 100)%nat -> 0 <= linspace 0 PI 99 i <= PI /\ - PI <= linspace (- PI) PI 99 i <= PI.
Proof.
  intros H. unfold linspace. assert (I : INR 99 = 99) by (rewrite INR_IZR_INZ; reflexivity). rewrite I. pose proof PI_RGT_0 as P.
  assert (0 <= INR i <= 99) by (split; [apply pos_INR|rewrite <- I; apply le_INR; lia]). split; nra.
Qed.

(* every direction has a point of the surface near it *)
Lemma surface_near pat e theta phi : 0 <= theta <= PI -> - PI <= phi <= PI -> exists theta' phi' row,
  In row (surface pat e) /\ In (surface_point pat e theta' phi') row /\ Rabs (theta - theta') <= PI / 198 /\ Rabs (phi - phi') <= PI / 99.
Proof.
  intros A B. assert (I : INR 99 = 99) by (rewrite INR_IZR_INZ; reflexivity).
  destruct (grid_near 0 PI 99 theta ltac:(lia) A) as (i & Hi & D). destruct (grid_near (- PI) PI 99 phi ltac:(lia) B) as (j & Hj & F). rewrite I in D, F.
  exists (linspace 0 PI 99 i), (linspace (- PI) PI 99 j). eexists. split; [unfold surface; apply in_map_iff; exists i; split; [reflexivity|apply in_seq; lia]|].
  split; [apply in_map_iff; exists j; split; [reflexivity|apply in_seq; lia]|]. lra.
Qed.

Lemma C106_surface_l : forall j1 pat s e, make_element j1 pat s = Ok e ->
  (forall row q, In row (ep_surface (show_element pat e)) -> In q row -> exists theta phi, 0 <= theta <= PI /\ - PI <= phi <= PI /\
     (pat <> "aperture" -> at_distance (radiated e theta phi) theta phi q) /\
     (pat = "aperture" -> exists r, at_distance r theta phi q /\ (radiated e theta phi = 0 -> r = 0) /\
        (0 < radiated e theta phi -> exp (r - 50) = Rmax (exp (- (50))) (radiated e theta phi)))) /\
  (forall theta phi, 0 <= theta <= PI -> - PI <= phi <= PI -> exists theta' phi' row q, In row (ep_surface (show_element pat e)) /\ In q row /\
     Rabs (theta - theta') <= PI / 198 /\ Rabs (phi - phi') <= PI / 99 /\
     (pat <> "aperture" -> at_distance (radiated e theta' phi') theta' phi' q)).
Proof.
  intros j1 pat s e H.
  assert (Lin : forall theta phi, pat <> "aperture" -> at_distance (radiated e theta phi) theta phi (surface_point pat e theta phi)).
  { intros theta phi K. apply String.eqb_neq in K. destruct (radiated_pattern j1 pat s e theta phi H) as [-> N].
    unfold surface_point, surface_radius. rewrite K. apply at_distance_spherical, N. }
  split.
  - intros row q A B. destruct (surface_in _ _ _ _ A B) as (i & j & Hi & Hj & ->). destruct (grid_range i Hi) as [Ti _]. destruct (grid_range j Hj) as [_ Pj].
    set (theta := linspace 0 PI 99 i) in *. set (phi := linspace (- PI) PI 99 j) in *. exists theta, phi. split; [exact Ti|]. split; [exact Pj|].
    split; [apply Lin|]. intros ->. destruct (radiated_pattern j1 "aperture" s e theta phi H) as [-> N].
    exists (aperture_radius (el_pattern e theta phi)). unfold surface_point, surface_radius. rewrite String.eqb_refl.
    set (x := el_pattern e theta phi) in *. unfold aperture_radius, Rltb.
    destruct (Rlt_dec 0 x) as [P|Z].
    + split; [apply at_distance_spherical, Rmax_l|]. split; [lra|]. intros _. unfold Rmax at 1.
      pose proof (exp_ln x P) as E. destruct (Rle_dec 0 (50 + ln x)) as [L|L].
      * replace (50 + ln x - 50) with (ln x) by ring. rewrite Rmax_right; [exact E|].
        rewrite <- E. destruct (Rle_lt_or_eq_dec _ _ L) as [L'|L']; [left; apply exp_increasing; lra|right; f_equal; lra].
      * replace (0 - 50) with (- (50)) by ring. rewrite Rmax_left; [reflexivity|]. rewrite <- E. left. apply exp_increasing. lra.
    + split; [apply at_distance_spherical; lra|]. split; [reflexivity|lra].
  - intros theta phi A B. destruct (surface_near pat e theta phi A B) as (theta' & phi' & row & R & Q & D & F).
    exists theta', phi', row, (surface_point pat e theta' phi'). split; [exact R|]. split; [exact Q|]. split; [exact D|]. split; [exact F|]. apply Lin.
Qed.

(* ---- the aperture ---- *)
Lemma J1_le_1 x : bessel_J1 x <= 1.
Proof.
  unfold bessel_J1. pose proof PI_RGT_0 as P.
  assert (pr : Riemann_integrable (fct_cte 1) 0 PI) by apply RiemannInt_P14.
  assert (L : RiemannInt (bessel_integrable x) <= RiemannInt pr).
  { apply RiemannInt_P19; [lra|]. intros t _. unfold bessel_integrand, fct_cte. apply COS_bound. }
  rewrite RiemannInt_P15 in L. apply Rmult_le_reg_r with PI; [exact P|]. unfold Rdiv. rewrite Rmult_assoc, Rinv_l by lra. lra.
Qed.

Lemma sin_ge_cubic_pi x : 0 <= x <= 3 -> x - x * x * x / 6 <= sin x.
Proof.
  intros [L U]. destruct (SIN x L) as [A _]; [pose proof PI2_3_2; lra|].
  unfold sin_lb, sin_approx, sin_term in A. simpl in A.
  assert (Q : x - x * x * x / 6 <= x - x * x * x / 6 + x * x * x * x * x / 120 - x * x * x * x * x * x * x / 5040).
  { assert (0 <= x * x <= 9) by nra. assert (0 <= x * x * x * x * x) by (repeat apply Rmult_le_pos; lra).
    assert (x * x * x * x * x * x * x <= x * x * x * x * x * 9).
    { replace (x * x * x * x * x * x * x) with (x * x * x * x * x * (x * x)) by ring. apply Rmult_le_compat_l; lra. }
    lra. }
  eapply Rle_trans; [exact Q|]. eapply Rle_trans; [|exact A]. right. field.
Qed.

Lemma J1_middle x : 2 < x <= 2.4 -> 0.04 <= bessel_J1 x <= 1.
Proof.
  intros H. split; [|apply J1_le_1]. apply Rle_trans with (0.08 / 2); [lra|]. apply J1_lower; [lra|]. intros t T.
  assert (S : 0 < sin t) by (apply sin_gt_0; lra). pose proof (SIN_bound t) as B. set (z := sin t) in *.
  pose proof (sin_ge_cubic_pi (x * z) ltac:(nra)) as C.
  replace (0.08 * (z * z)) with (z * (0.08 * z)) by ring. apply Rmult_le_compat_l; [lra|]. eapply Rle_trans; [|exact C].
  replace (x * z - x * z * (x * z) * (x * z) / 6) with (z * (x - x * x * x * (z * z) / 6)) by (field).
  rewrite (Rmult_comm 0.08 z). apply Rmult_le_compat_l; [lra|].
  assert (Z : 0 <= z * z <= 1) by nra. assert (X : 0 <= x * x * x) by (repeat apply Rmult_le_pos; lra).
  assert (x * x * x * (z * z) <= x * x * x) by nra.
  assert (Y : x * x <= 5.76) by nra. nra.
Qed.

(* the point of the grid next to the main direction *)
Lemma next_to_boresight : let x := 20 * PI * sin (acos (sin (linspace 0 PI 99 49) * cos (linspace (- PI) PI 99 49))) in
  0 <= sin (linspace 0 PI 99 49) * cos (linspace (- PI) PI 99 49) /\ 2 < x <= 2.4.
Proof.
  cbv zeta. assert (I : INR 99 = 99) by (rewrite INR_IZR_INZ; reflexivity). assert (J : INR 49 = 49) by (rewrite INR_IZR_INZ; reflexivity).
  unfold linspace. rewrite I, J. pose proof PI_upper as PU. assert (PL : 3 <= PI) by (pose proof PI2_3_2; lra). set (a := PI / 198).
  assert (A : 0.0151 <= a <= 0.0162) by (unfold a; lra).
  replace (0 + 49 * ((PI - 0) / 99)) with (PI / 2 - a) by (unfold a; field).
  replace (- PI + 49 * ((PI - - PI) / 99)) with (- (2 * a)) by (unfold a; field).
  rewrite sin_shift, cos_neg, cos_2a_sin. pose proof (sin_ge_cubic_pi a ltac:(lra)) as SL. pose proof (sin_lt_x a ltac:(lra)) as SU.
  pose proof (sin2_cos2 a) as SC. unfold Rsqr in SC. assert (C : 0 < cos a) by (apply cos_gt_0; lra).
  set (s := sin a) in *. assert (S : 0.015 <= s <= 0.0162) by nra. set (k := cos a) in *.
  assert (D : 0 <= 1 - 2 * s * s <= 1) by nra. assert (K : k <= 1) by nra.
  assert (N : 0 <= k * (1 - 2 * s * s)) by (apply Rmult_le_pos; lra). split; [exact N|].
  set (c := k * (1 - 2 * s * s)) in *. assert (C1 : c <= 1) by (unfold c; nra).
  rewrite sin_acos by lra.
  assert (E : 1 - Rsqr c = 5 * (s * s) - 8 * (s * s) * (s * s) + 4 * (s * s) * (s * s) * (s * s)).
  { unfold Rsqr, c. replace (k * (1 - 2 * s * s) * (k * (1 - 2 * s * s))) with ((k * k) * (1 - 2 * s * s) * (1 - 2 * s * s)) by ring.
    replace (k * k) with (1 - s * s) by lra. ring. }
  rewrite E. clear E. set (w := s * s). assert (W : 0.000225 <= w <= 0.00026245) by (unfold w; nra).
  assert (AS : a * (0.9999) <= s) by nra.
  assert (WS : (PI / 198 * 0.9999) * (PI / 198 * 0.9999) <= w <= PI / 198 * (PI / 198)) by (unfold w; fold a; nra).
  set (v := 5 * w - 8 * w * w + 4 * w * w * w).
  assert (V : 4.99 * w <= v <= 5 * w) by (unfold v; nra).
  assert (R : sqrt v * sqrt v = v) by (apply sqrt_sqrt; lra). pose proof (sqrt_pos v) as R0.
  assert (X2 : 4 < 400 * (PI * PI) * v <= 5.76).
  { assert (9 <= PI * PI <= 10.24) by nra. assert (PI * PI * (0.0000255) <= w <= PI * PI * 0.00002551) by nra. nra. }
  set (x := 20 * PI * sqrt v). assert (XX : x * x = 400 * (PI * PI) * v) by (unfold x; rewrite <- R at 3; ring).
  assert (X0 : 0 <= x) by (unfold x; apply Rmult_le_pos; lra). nra.
Qed.

Lemma C106_aperture_refuted_l : forall s, exists e row q theta phi r y, make_element bessel_J1 "aperture" s = Ok e /\
  ep_label (show_element "aperture" e) = "-gain in dB" /\ In row (ep_surface (show_element "aperture" e)) /\ In q row /\
  at_distance r theta phi q /\ in_db (radiated e theta phi) (Fin y) /\ 0 < 50 + y < r.
Proof.
  intros s. destruct (aperture_J1 s) as (e & M & _ & _ & _ & Q). destruct next_to_boresight as [N X].
  set (theta := linspace 0 PI 99 49) in *. set (phi := linspace (- PI) PI 99 49) in *.
  destruct (Q theta phi N) as (_ & Q2 & _). cbv zeta in X. set (x := 20 * PI * sin (acos (sin theta * cos phi))) in *.
  specialize (Q2 ltac:(lra)). destruct (J1_middle x X) as [JL JU]. destruct (radiated_pattern _ _ _ _ theta phi M) as [ER _].
  set (p := el_pattern e theta phi) in *.
  assert (QQ : 0.08 / 2.4 <= 2 * bessel_J1 x / x < 1).
  { split.
    - apply Rmult_le_reg_r with x; [lra|]. replace (2 * bessel_J1 x / x * x) with (2 * bessel_J1 x) by (field; lra).
      apply Rle_trans with (0.08 / 2.4 * 2.4); [apply Rmult_le_compat_l; lra|lra].
    - apply Rmult_lt_reg_r with x; [lra|]. replace (2 * bessel_J1 x / x * x) with (2 * bessel_J1 x) by (field; lra). lra. }
  assert (P : / 1000 <= p < 1) by (rewrite Q2; unfold sq; set (z := 2 * bessel_J1 x / x) in *; nra).
  assert (L1 : ln p < 0) by (rewrite <- ln_1; apply ln_increasing; lra).
  assert (T : 2 < ln 10).
  { rewrite <- (ln_exp 2). apply ln_increasing; [apply exp_pos|]. replace 2 with (1 + 1) by ring. rewrite exp_plus. pose proof exp_le_3. pose proof (exp_pos 1). nra. }
  assert (T' : ln 10 < 4).
  { rewrite <- (ln_exp 4). apply ln_increasing; [lra|]. replace 4 with (1 + 1 + (1 + 1)) by ring. rewrite !exp_plus. pose proof (exp_ineq1 1 ltac:(lra)) as E1.
    assert (4 < exp 1 * exp 1) by nra. nra. }
  assert (L2 : - 3 * ln 10 <= ln p).
  { replace (- 3 * ln 10) with (ln (/ 1000)).
    - destruct (Rle_lt_or_eq_dec _ _ (proj1 P)) as [K|K]; [left; apply ln_increasing; lra|right; rewrite K; reflexivity].
    - replace 1000 with (10 * (10 * 10)) by ring. rewrite ln_Rinv, !ln_mult by lra. ring. }
  exists e. exists (map (fun j => surface_point "aperture" e theta (linspace (- PI) PI 99 j)) (seq 0 100)).
  exists (surface_point "aperture" e theta phi), theta, phi, (50 + ln p), (10 * log10 p).
  split; [exact M|]. split; [reflexivity|]. split; [|split; [|split; [|split]]].
  - cbn [show_element ep_surface]. unfold surface. apply in_map_iff. exists 49%nat. split; [reflexivity|apply in_seq; lia].
  - apply in_map_iff. exists 49%nat. split; [reflexivity|apply in_seq; lia].
  - assert (RR : surface_radius "aperture" p = 50 + ln p).
    { unfold surface_radius. rewrite String.eqb_refl. unfold aperture_radius. rewrite (proj2 (Rltb_true 0 p)) by lra. apply Rmax_right. lra. }
    unfold surface_point. fold p. rewrite RR. apply at_distance_spherical. lra.
  - rewrite ER. pose proof (decibel_in_db p ltac:(lra)) as D. unfold decibel in D. rewrite (proj2 (Rltb_true 0 p)) in D by lra. exact D.
  - unfold log10. assert (I : 0 < / ln 10) by (apply Rinv_0_lt_compat; lra). assert (II : ln 10 * / ln 10 = 1) by (apply Rinv_r; lra). unfold Rdiv.
    assert (I4 : / 4 < / ln 10) by (apply Rinv_lt_contravar; nra).
    assert (G1 : - 3 <= ln p * / ln 10) by (apply Rmult_le_reg_r with (ln 10); [lra|]; rewrite Rmult_assoc, Rinv_l by lra; lra).
    assert (G2 : ln p * / ln 10 < ln p * / 4) by nra. lra.
Qed.

Lemma C106_array_l : forall j1 p a, make_array j1 p = Ok a -> exists s,
  make_element j1 (ar_pattern p) s = Ok (pa_pol1 a) /\
  show_element_radiation_pattern p a = show_element (ar_pattern p) (pa_pol1 a).
Proof.
  intros j1 p a H. cut (exists s, make_element j1 (ar_pattern p) s = Ok (pa_pol1 a)).
  { intros [s K]. exists s. split; [exact K|reflexivity]. }
  unfold make_array in H. revert H.
  destruct (negb (String.eqb (ar_pol p) "single" || String.eqb (ar_pol p) "dual")); [discriminate|].
  cbv zeta. destruct (negb (Rltb _ _)); [discriminate|]. destruct (negb (Rltb _ _)); [discriminate|].
  destruct (negb (String.eqb (ar_pol p) "single")).
  - destruct (negb (_ || _)); [discriminate|]. destruct (make_element j1 (ar_pattern p) (if String.eqb (ar_pol p) "VH" then 0 else - PI / 4)) as [e1|] eqn:E1; [|discriminate]. cbn [bind].
    destruct (make_element j1 (ar_pattern p) (_ + _)) as [e2|]; [|discriminate]. cbn [bind].
    destruct (Nat.eqb _ 0); [discriminate|]. intros [= <-]. cbn [pa_pol1 fst]. eexists. exact E1.
  - destruct (negb (_ || _)); [discriminate|]. destruct (make_element j1 (ar_pattern p) (if String.eqb (ar_type p) "V" then 0 else PI / 2)) as [e1|] eqn:E1; [|discriminate]. cbn [bind].
    destruct (Nat.eqb _ 0); [discriminate|]. intros [= <-]. cbn [pa_pol1 fst]. eexists. exact E1.
Qed.

Lemma decibel_pow10 y : decibel (pow10 (y / 10)) = Fin y.
Proof.
  unfold decibel, pow10, log10. rewrite (proj2 (Rltb_true 0 (Rpower 10 (y / 10)))) by (unfold Rpower; apply exp_pos). f_equal.
  unfold Rpower. rewrite ln_exp. pose proof ln10_pos. field. lra.
Qed.

Lemma C106_example_l : exists e, make_element bessel_J1 "38.901" (PI / 4) = Ok e /\
  let q := show_element "38.901" e in In (PI / 2, Fin 8) (ep_vertical q) /\ In (- PI, Fin (- (22))) (ep_horizontal q).
Proof.
  eexists. split; [reflexivity|]. cbv zeta. cbn [show_element ep_vertical ep_horizontal]. pose proof PI_RGT_0 as P.
  assert (I : INR 360 = 360) by (rewrite INR_IZR_INZ; reflexivity). assert (J : INR 180 = 180) by (rewrite INR_IZR_INZ; reflexivity).
  split.
  - apply in_map_iff. exists 180%nat. split; [|apply in_seq; lia]. cbv zeta. unfold linspace. rewrite I, J. replace (0 + 180 * ((PI - 0) / 360)) with (PI / 2) by field.
    cbn [el_pattern]. unfold pattern_38901. replace (pattern_38901_db (PI / 2) 0) with 8; [rewrite decibel_pow10; reflexivity|].
    unfold pattern_38901_db. cbv zeta. replace ((PI / 2 - PI / 2) / (65 / 180 * PI)) with 0 by (field; lra). replace (0 / (65 / 180 * PI)) with 0 by (field; lra).
    unfold sq. rewrite !Rmult_0_r, !(Rmin_left 0 30) by lra. rewrite (Rmin_left (- (- 0 + - 0)) 30) by lra. lra.
  - apply in_map_iff. exists 0%nat. split; [|apply in_seq; lia]. cbv zeta. unfold linspace. rewrite I. cbn [INR]. replace (- PI + 0 * ((PI - - PI) / 360)) with (- PI) by field.
    cbn [el_pattern]. unfold pattern_38901. replace (pattern_38901_db (PI / 2) (- PI)) with (- (22)); [rewrite decibel_pow10; reflexivity|].
    unfold pattern_38901_db. cbv zeta. replace ((PI / 2 - PI / 2) / (65 / 180 * PI)) with 0 by (field; lra). replace (- PI / (65 / 180 * PI)) with (- (180 / 65)) by (field; lra).
    unfold sq. rewrite (Rmin_right (12 * (- (180 / 65) * - (180 / 65))) 30) by lra. rewrite !Rmult_0_r, (Rmin_left 0 30) by lra. rewrite Rmin_left by lra. lra.
Qed.
