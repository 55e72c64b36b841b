(* Positive definiteness of the exponential kernel exp(-|x-y|) in the plane, for distinct points.
   |v| is the limit of sums of |v.t| over directions t; each one-dimensional kernel
   exp(-|s-t|) is a min-kernel; the directions of a small arc on which no projection changes sign
   make one strictly positive one-dimensional factor. *)
From Coq Require Import Reals List Bool Arith Lia Lra Permutation Sorted.
From Verif Require Import M_Base L_Base S_Linear L_Linear L_Trig.
Import ListNotations.
Open Scope R_scope.

Definition quadl (l : list nat) (A : nat -> nat -> R) (c : nat -> R) : R :=
  Rsum (map (fun i => Rsum (map (fun j => c i * A i j * c j) l)) l).

Lemma quadl_seq n A c : quadl (seq 0 n) A c = quad n A c.
Proof.
  unfold quadl, quad. rewrite Rsum_seq. apply sumR_ext. intros i _. apply Rsum_seq.
Qed.

Lemma quadl_perm l l' A c : Permutation l l' -> quadl l A c = quadl l' A c.
Proof.
  intros H. unfold quadl. rewrite (Rsum_perm _ _ (Permutation_map _ H)). apply Rsum_ext.
  intros i _. apply Rsum_perm, Permutation_map, H.
Qed.

Lemma quadl_ext l A B c c' : (forall i, In i l -> c i = c' i) ->
  (forall i j, In i l -> In j l -> A i j = B i j) -> quadl l A c = quadl l B c'.
Proof.
  intros Hc H. unfold quadl. apply Rsum_ext. intros i Hi. apply Rsum_ext. intros j Hj.
  rewrite H, !Hc by assumption. reflexivity.
Qed.

Lemma Rsum_scale_f {A} (l : list A) k f : Rsum (map (fun x => k * f x) l) = k * Rsum (map f l).
Proof. induction l; cbn; lra. Qed.

Lemma quadl_cons i l A c : quadl (i :: l) A c
  = c i * A i i * c i + Rsum (map (fun j => c i * A i j * c j) l)
    + Rsum (map (fun j => c j * A j i * c i) l) + quadl l A c.
Proof.
  unfold quadl. cbn [map Rsum]. rewrite Rsum_plus. ring.
Qed.

Lemma quadl_plus l A B c : quadl l (fun i j => A i j + B i j) c = quadl l A c + quadl l B c.
Proof.
  unfold quadl. rewrite <- Rsum_plus. apply Rsum_ext. intros i _. rewrite <- Rsum_plus.
  apply Rsum_ext. intros j _. ring.
Qed.

Lemma quadl_scale l k A c : quadl l (fun i j => k * A i j) c = k * quadl l A c.
Proof.
  unfold quadl. rewrite <- Rsum_scale_f. apply Rsum_ext. intros i _. rewrite <- Rsum_scale_f.
  apply Rsum_ext. intros j _. ring.
Qed.

Lemma quadl_diag l d A c : quadl l (fun i j => d i * d j * A i j) c = quadl l A (fun i => d i * c i).
Proof.
  unfold quadl. apply Rsum_ext. intros i _. apply Rsum_ext. intros j _. ring.
Qed.

Lemma quadl_zero l A c : (forall i, In i l -> c i = 0) -> quadl l A c = 0.
Proof.
  intros H. unfold quadl. transitivity (Rsum (map (fun _ : nat => 0) l)).
  - apply Rsum_ext. intros i Hi. transitivity (Rsum (map (fun _ : nat => 0) l)).
    + apply Rsum_ext. intros j Hj. rewrite (H i Hi). ring.
    + rewrite Rsum_const. ring.
  - rewrite Rsum_const. ring.
Qed.

(* PSD on the indices satisfying n *)
Definition psd_on (n : nat -> Prop) (B : nat -> nat -> R) : Prop :=
  forall l c, (forall i, In i l -> n i) -> 0 <= quadl l B c.

Lemma psd_ones n : psd_on n (fun _ _ => 1).
Proof.
  intros l c _. assert (E : quadl l (fun _ _ => 1) c = Rsum (map c l) * Rsum (map c l)).
  { unfold quadl. transitivity (Rsum (map (fun i => Rsum (map c l) * c i) l)).
    - apply Rsum_ext. intros i _. rewrite (Rmult_comm (Rsum _)), <- Rsum_scale_f. apply Rsum_ext. intros; ring.
    - apply Rsum_scale_f. }
  rewrite E. apply Rle_0_sqr.
Qed.

Lemma sort_by (u : nat -> R) l : exists l', Permutation l l' /\ StronglySorted (fun a b => u a <= u b) l'.
Proof.
  induction l as [| a l (l' & P & S)]; [exists []; split; constructor|].
  assert (H : exists m, Permutation (a :: l') m /\ StronglySorted (fun a b => u a <= u b) m).
  { clear P l. induction S as [| b l' S IH F]; [exists [a]; split; [apply Permutation_refl | repeat constructor]|].
    destruct (Rle_or_lt (u a) (u b)) as [L | L].
    - exists (a :: b :: l'). split; [apply Permutation_refl|]. constructor; [constructor; assumption|].
      constructor; [exact L|]. eapply Forall_impl; [| exact F]. cbn. intros x Hx. lra.
    - destruct IH as (m & Pm & Sm). exists (b :: m). split.
      + eapply Permutation_trans; [apply perm_swap|]. constructor. exact Pm.
      + constructor; [exact Sm|]. eapply Permutation_Forall; [exact Pm|]. constructor; [lra | exact F]. }
  destruct H as (m & Pm & Sm). exists m. split; [| exact Sm].
  eapply Permutation_trans; [constructor; exact P | exact Pm].
Qed.

(* ---- min kernels ---- *)
Lemma min_step u B i l c : (forall j, In j l -> u i <= u j) ->
  quadl (i :: l) (fun a b => Rmin (u a) (u b) * B a b) c
  = u i * quadl (i :: l) B c + quadl l (fun a b => Rmin (u a - u i) (u b - u i) * B a b) c.
Proof.
  intros H. rewrite !quadl_cons.
  rewrite (quadl_ext l (fun a b => Rmin (u a) (u b) * B a b)
    (fun a b => u i * B a b + Rmin (u a - u i) (u b - u i) * B a b) c c).
  2: reflexivity.
  2: { intros a b _ _. unfold Rmin. destruct (Rle_dec (u a) (u b)), (Rle_dec (u a - u i) (u b - u i)); lra || ring. }
  rewrite (Rsum_ext l (fun j => c i * (Rmin (u i) (u j) * B i j) * c j) (fun j => u i * (c i * B i j * c j))).
  2: { intros j Hj. rewrite Rmin_left by (apply H, Hj). ring. }
  rewrite (Rsum_ext l (fun j => c j * (Rmin (u j) (u i) * B j i) * c i) (fun j => u i * (c j * B j i * c i))).
  2: { intros j Hj. rewrite Rmin_right by (apply H, Hj). ring. }
  rewrite !Rsum_scale_f, quadl_plus, quadl_scale, Rmin_left by lra. ring.
Qed.

Lemma min_psd n B : psd_on n B -> forall l, (forall i, In i l -> n i) -> forall u c,
  StronglySorted (fun a b => u a <= u b) l -> (forall i, In i l -> 0 <= u i) ->
  0 <= quadl l (fun a b => Rmin (u a) (u b) * B a b) c.
Proof.
  intros HB l. induction l as [| i l IH]; intros Hl u c S P; [cbn; lra|].
  inversion S as [| i' l' S' F]; subst. rewrite Forall_forall in F. rewrite min_step by exact F.
  apply Rplus_le_le_0_compat.
  - apply Rmult_le_pos; [apply P; left; reflexivity | apply HB, Hl].
  - apply (IH (fun j Hj => Hl j (or_intror Hj)) (fun a => u a - u i) c).
    + clear -S'. induction S' as [| a l S IHs F]; constructor; [exact IHs|].
      eapply Forall_impl; [| exact F]. cbn. intros; lra.
    + intros j Hj. specialize (F j Hj). cbn in F. lra.
Qed.

Lemma min_pd n B : psd_on n B -> (forall i, n i -> 0 < B i i) ->
  forall l, (forall i, In i l -> n i) -> forall u c,
  StronglySorted (fun a b => u a < u b) l -> (forall i, In i l -> 0 < u i) ->
  (exists i, In i l /\ c i <> 0) ->
  0 < quadl l (fun a b => Rmin (u a) (u b) * B a b) c.
Proof.
  intros HB HD l. induction l as [| i l IH]; intros Hl u c S P Hc; [destruct Hc as (? & [] & _)|].
  inversion S as [| i' l' S' F]; subst. rewrite Forall_forall in F.
  rewrite min_step by (intros j Hj; specialize (F j Hj); cbn in F; lra).
  assert (Hl' : forall j, In j l -> n j) by (intros j Hj; apply Hl; right; exact Hj).
  assert (Pi : 0 < u i) by (apply P; left; reflexivity).
  destruct (Exists_dec (fun j => c j <> 0) l (fun j => match Req_EM_T (c j) 0 with
    | left e => right (fun h => h e) | right h => left h end)) as [E | N].
  - rewrite Exists_exists in E. apply Rplus_le_lt_0_compat.
    + apply Rmult_le_pos; [lra | apply HB, Hl].
    + apply (IH Hl' (fun a => u a - u i) c).
      * clear -S'. induction S' as [| a l S IHs F]; constructor; [exact IHs|].
        eapply Forall_impl; [| exact F]. cbn. intros; lra.
      * intros j Hj. specialize (F j Hj). cbn in F. lra.
      * exact E.
  - assert (Z : forall j, In j l -> c j = 0).
    { intros j Hj. destruct (Req_EM_T (c j) 0) as [e | h]; [exact e|]. exfalso. apply N.
      rewrite Exists_exists. exists j. split; assumption. }
    rewrite (quadl_zero l _ c Z), quadl_cons, (quadl_zero l _ c Z).
    rewrite (Rsum_ext l _ (fun _ => 0)) by (intros j Hj; rewrite (Z j Hj); ring).
    rewrite (Rsum_ext l (fun j => c j * B j i * c i) (fun _ => 0)) by (intros j Hj; rewrite (Z j Hj); ring).
    rewrite Rsum_const.
    assert (Ni : c i <> 0).
    { destruct Hc as (j & [<- | Hj] & Nj); [exact Nj|]. elim Nj. apply Z, Hj. }
    assert (Bi : 0 < B i i) by (apply HD, Hl; left; reflexivity).
    assert (C2 : 0 < c i * c i) by (apply Rsqr_pos_lt in Ni; exact Ni).
    assert (0 < u i * (B i i * (c i * c i))) by (apply Rmult_lt_0_compat; [exact Pi | apply Rmult_lt_0_compat; assumption]).
    lra.
Qed.

(* ---- one-dimensional exponential kernels ---- *)
Lemma laplace_min (s : nat -> R) a b :
  exp (- Rabs (s a - s b)) = exp (- s a) * exp (- s b) * Rmin (exp (2 * s a)) (exp (2 * s b)).
Proof.
  rewrite <- exp_plus. destruct (Rle_or_lt (s a) (s b)) as [L | L].
  - rewrite Rmin_left by (destruct L as [L | ->]; [left; apply exp_increasing; lra | right; reflexivity]).
    rewrite <- exp_plus. f_equal. rewrite Rabs_left1 by lra. ring.
  - rewrite Rmin_right by (left; apply exp_increasing; lra).
    rewrite <- exp_plus. f_equal. rewrite Rabs_right by lra. ring.
Qed.

Lemma laplace_form s B l c :
  quadl l (fun a b => exp (- Rabs (s a - s b)) * B a b) c
  = quadl l (fun a b => Rmin (exp (2 * s a)) (exp (2 * s b)) * B a b) (fun a => exp (- s a) * c a).
Proof.
  rewrite <- (quadl_diag l (fun a => exp (- s a))). apply quadl_ext; [reflexivity|].
  intros i j _ _. rewrite laplace_min. ring.
Qed.

Lemma laplace_psd n s B : psd_on n B -> psd_on n (fun a b => exp (- Rabs (s a - s b)) * B a b).
Proof.
  intros HB l c Hl. rewrite laplace_form.
  destruct (sort_by (fun a => exp (2 * s a)) l) as (l' & P & S). rewrite (quadl_perm l l' _ _ P).
  apply (min_psd n B HB l').
  - intros i Hi. apply Hl. eapply Permutation_in; [apply Permutation_sym; exact P | exact Hi].
  - exact S.
  - intros i _. left. apply exp_pos.
Qed.

Lemma strict_sorted (u : nat -> R) l : StronglySorted (fun a b => u a <= u b) l -> NoDup l ->
  (forall a b, In a l -> In b l -> a <> b -> u a <> u b) -> StronglySorted (fun a b => u a < u b) l.
Proof.
  induction 1 as [| a l S IH F]; intros N I; constructor.
  - inversion N; subst. apply IH; [assumption|]. intros x y Hx Hy. apply I; right; assumption.
  - inversion N; subst. rewrite Forall_forall in *. intros b Hb. specialize (F b Hb). cbn in F.
    assert (a <> b) by (intros <-; contradiction).
    assert (u a <> u b) by (apply I; [left; reflexivity | right; exact Hb | assumption]). lra.
Qed.

Lemma laplace_pd n s B : psd_on n B -> (forall i, n i -> 0 < B i i) ->
  forall l c, (forall i, In i l -> n i) -> NoDup l ->
  (forall a b, In a l -> In b l -> a <> b -> s a <> s b) ->
  (exists i, In i l /\ c i <> 0) ->
  0 < quadl l (fun a b => exp (- Rabs (s a - s b)) * B a b) c.
Proof.
  intros HB HD l c Hl N I (i & Hi & Ci). rewrite laplace_form.
  destruct (sort_by (fun a => exp (2 * s a)) l) as (l' & P & S). rewrite (quadl_perm l l' _ _ P).
  assert (Hin : forall x, In x l' -> In x l)
    by (intros x Hx; eapply Permutation_in; [apply Permutation_sym; exact P | exact Hx]).
  apply (min_pd n B HB HD l').
  - intros x Hx. apply Hl, Hin, Hx.
  - apply (strict_sorted (fun a => exp (2 * s a))); [exact S | eapply Permutation_NoDup; eassumption |].
    intros a b Ha Hb Hab E. apply exp_inv in E. apply (I a b (Hin a Ha) (Hin b Hb) Hab). lra.
  - intros; apply exp_pos.
  - exists i. split; [eapply Permutation_in; eassumption|]. apply Rmult_integral_contrapositive_currified; [| exact Ci].
    apply Rgt_not_eq, exp_pos.
Qed.

(* products of one-dimensional kernels *)
Fixpoint prodk (m : nat) (s : nat -> nat -> R) : nat -> nat -> R :=
  match m with
  | O => fun _ _ => 1
  | S m' => fun a b => exp (- Rabs (s m' a - s m' b)) * prodk m' s a b
  end.

Lemma prodk_psd n m s : psd_on n (prodk m s).
Proof. induction m as [| m IH]; [apply psd_ones | apply laplace_psd, IH]. Qed.

Lemma prodk_val m s a b : prodk m s a b = exp (- sumR m (fun k => Rabs (s k a - s k b))).
Proof.
  induction m as [| m IH]; cbn [prodk sumR]; [rewrite Ropp_0, exp_0; reflexivity|].
  rewrite IH, <- exp_plus. f_equal. ring.
Qed.

(* ---- limits ---- *)
Lemma cv_const c : Un_cv (fun _ => c) c.
Proof. intros e He. exists 0%nat. intros. unfold R_dist. rewrite Rminus_diag_eq, Rabs_R0 by reflexivity. exact He. Qed.

Lemma cv_Rsum {A} (l : list A) (f : nat -> A -> R) (g : A -> R) :
  (forall x, In x l -> Un_cv (fun m => f m x) (g x)) ->
  Un_cv (fun m => Rsum (map (f m) l)) (Rsum (map g l)).
Proof.
  induction l as [| a l IH]; intros H; [exact (cv_const 0)|]. cbn [map Rsum].
  apply (CV_plus (fun m => f m a) (fun m => Rsum (map (f m) l))).
  - apply H. left; reflexivity.
  - apply IH. intros x Hx. apply H. right; exact Hx.
Qed.

Lemma cv_quadl l (A : nat -> nat -> nat -> R) B c :
  (forall i j, In i l -> In j l -> Un_cv (fun m => A m i j) (B i j)) ->
  Un_cv (fun m => quadl l (A m) c) (quadl l B c).
Proof.
  intros H. unfold quadl. apply (cv_Rsum l (fun m i => Rsum (map (fun j => c i * A m i j * c j) l))).
  intros i Hi. apply (cv_Rsum l (fun m j => c i * A m i j * c j)). intros j Hj.
  apply (CV_mult (fun m => c i * A m i j) (fun _ => c j)); [| apply cv_const].
  apply (CV_mult (fun _ => c i) (fun m => A m i j)); [apply cv_const | apply H; assumption].
Qed.

Lemma psd_limit n (A : nat -> nat -> nat -> R) B :
  (forall m, psd_on n (A m)) ->
  (forall i j, n i -> n j -> Un_cv (fun m => A m i j) (B i j)) -> psd_on n B.
Proof.
  intros HA HL l c Hl. apply (@Rle_cv_lim (fun _ => 0) (fun m => quadl l (A m) c) 0 (quadl l B c)).
  - intros m. apply HA, Hl.
  - apply cv_const.
  - apply cv_quadl. intros i j Hi Hj. apply HL; apply Hl; assumption.
Qed.

(* ---- directions ---- *)
Lemma telescope n f : sumR n (fun k => f (S k) - f k) = f n - f 0%nat.
Proof. induction n as [| n IH]; cbn [sumR]; [ring | rewrite IH; ring]. Qed.

Lemma abs_sum_pos n f : (forall k, (k < n)%nat -> 0 <= f k) -> sumR n (fun k => Rabs (f k)) = Rabs (sumR n f).
Proof.
  intros H. rewrite (Rabs_pos_eq (sumR n f)) by (apply sumR_nonneg; exact H).
  apply sumR_ext. intros k Hk. apply Rabs_pos_eq, H, Hk.
Qed.

Lemma abs_sum_neg n f : (forall k, (k < n)%nat -> f k <= 0) -> sumR n (fun k => Rabs (f k)) = Rabs (sumR n f).
Proof.
  intros H. assert (E := abs_sum_pos n (fun k => - f k)).
  rewrite sumR_opp, Rabs_Ropp in E. rewrite <- E.
  - apply sumR_ext. intros k _. symmetry. apply Rabs_Ropp.
  - intros k Hk. specialize (H k Hk). lra.
Qed.

Lemma nat_floor r : 0 <= r -> exists m : nat, INR m <= r < INR m + 1.
Proof.
  intros H. destruct (archimed r) as [A1 A2].
  assert (Z1 : (0 <= up r - 1)%Z).
  { assert (0 < up r)%Z by (apply lt_IZR; lra). lia. }
  exists (Z.to_nat (up r - 1)). rewrite INR_IZR_INZ, Z2Nat.id by exact Z1. rewrite minus_IZR. lra.
Qed.

Definition proj (x y t : R) : R := x * cos t + y * sin t.
Definition hstep (N : nat) : R := PI / (2 * INR N).
Definition dterm (N : nat) (x y : R) (k : nat) : R :=
  sin (hstep N) * proj x y ((2 * INR k + 1) * hstep N).

Lemma hstep_pos N : (1 <= N)%nat -> 0 < hstep N <= PI / 2.
Proof.
  intros H. assert (HN : 1 <= INR N) by (apply (le_INR 1); exact H). assert (P := PI_RGT_0).
  unfold hstep. split; [apply Rdiv_lt_0_compat; lra|].
  unfold Rdiv. apply Rmult_le_compat_l; [lra|]. apply Rinv_le_contravar; lra.
Qed.

Lemma hstep_N N : (1 <= N)%nat -> 2 * INR N * hstep N = PI.
Proof. intros H. assert (1 <= INR N) by (apply (le_INR 1); exact H). unfold hstep. field. lra. Qed.

Lemma dterm_tel N x y k : dterm N x y k
  = / 2 * (x * sin (2 * INR (S k) * hstep N) - y * cos (2 * INR (S k) * hstep N))
    - / 2 * (x * sin (2 * INR k * hstep N) - y * cos (2 * INR k * hstep N)).
Proof.
  unfold dterm, proj. set (h := hstep N). rewrite S_INR.
  replace (2 * (INR k + 1) * h) with ((2 * INR k + 1) * h + h) by ring.
  replace (2 * INR k * h) with ((2 * INR k + 1) * h - h) by ring.
  set (t := (2 * INR k + 1) * h). rewrite sin_plus, cos_plus, sin_minus, cos_minus. field.
Qed.

Lemma dterm_sum N x y p m : sumR m (fun k => dterm N x y (p + k))
  = / 2 * (x * (sin (2 * INR (p + m) * hstep N) - sin (2 * INR p * hstep N))
           + y * (cos (2 * INR p * hstep N) - cos (2 * INR (p + m) * hstep N))).
Proof.
  set (F := fun j => / 2 * (x * sin (2 * INR (p + j) * hstep N) - y * cos (2 * INR (p + j) * hstep N))).
  rewrite (sumR_ext m _ (fun k => F (S k) - F k)).
  - rewrite (telescope m F). unfold F. rewrite Nat.add_0_r. ring.
  - intros k _. unfold F. rewrite dterm_tel, Nat.add_succ_r. reflexivity.
Qed.

Definition fsum (N : nat) (phi : R) : R :=
  sumR N (fun k => Rabs (sin (hstep N) * cos ((2 * INR k + 1) * hstep N - phi))).

Lemma fsum_period N phi : (1 <= N)%nat -> fsum N (phi + 2 * hstep N) = fsum N phi.
Proof.
  intros HN. assert (E := hstep_N N HN). unfold fsum. set (h := hstep N) in *.
  set (G := fun k : nat => Rabs (sin h * cos ((2 * INR k + 1) * h - (phi + 2 * h)))).
  change (sumR N G = sumR N (fun k => Rabs (sin h * cos ((2 * INR k + 1) * h - phi)))).
  assert (G0 : G 0%nat = G N).
  { unfold G. cbn [INR]. replace ((2 * 0 + 1) * h - (phi + 2 * h)) with (- h - phi) by ring.
    replace ((2 * INR N + 1) * h - (phi + 2 * h)) with ((- h - phi) + PI) by (rewrite <- E; ring).
    rewrite neg_cos. rewrite !Rabs_mult, Rabs_Ropp. reflexivity. }
  assert (S1 := sumR_shift N G). assert (S2 : sumR (S N) G = sumR N G + G N) by reflexivity.
  rewrite (sumR_ext N (fun k => Rabs (sin h * cos ((2 * INR k + 1) * h - phi))) (fun k => G (S k))).
  - lra.
  - intros k _. unfold G. rewrite S_INR. do 3 f_equal. ring.
Qed.

Lemma fsum_periods N phi m : (1 <= N)%nat -> fsum N (phi + INR m * (2 * hstep N)) = fsum N phi.
Proof.
  intros HN. induction m as [| m IH]; [cbn [INR]; f_equal; ring|].
  rewrite S_INR. replace (phi + (INR m + 1) * (2 * hstep N)) with ((phi + INR m * (2 * hstep N)) + 2 * hstep N) by ring.
  rewrite fsum_period by exact HN. exact IH.
Qed.

Lemma fsum_base N phi : (1 <= N)%nat -> PI / 2 - hstep N <= phi <= PI / 2 + hstep N ->
  fsum N phi = cos (phi - PI / 2).
Proof.
  intros HN Hp. assert (E := hstep_N N HN). assert (B := hstep_pos N HN). assert (P := PI_RGT_0).
  unfold fsum.
  rewrite (sumR_ext N _ (fun k => dterm N (cos phi) (sin phi) (0 + k))).
  - rewrite dterm_sum, Nat.add_0_l. cbn [INR]. rewrite E, Rmult_0_r, Rmult_0_l, sin_PI, cos_PI, sin_0, cos_0.
    replace (phi - PI / 2) with (- (PI / 2 - phi)) by ring. rewrite cos_neg, cos_shift. field.
  - intros k Hk. rewrite Nat.add_0_l. rewrite Rabs_pos_eq.
    + unfold dterm, proj. rewrite cos_minus. ring.
    + apply Rmult_le_pos; [apply sin_ge_0; lra|].
      assert (K0 := pos_INR k). assert (K1 : INR k + 1 <= INR N) by (rewrite <- S_INR; apply le_INR; lia).
      set (h := hstep N) in *.
      assert (0 <= INR k * h) by (apply Rmult_le_pos; lra).
      assert ((INR k + 1) * h <= INR N * h) by (apply Rmult_le_compat_r; lra).
      apply cos_ge_0; lra.
Qed.

Lemma dir_sum N x y : (1 <= N)%nat -> exists g, Rabs g <= hstep N /\ sumR N (fun k => Rabs (dterm N x y k)) = sqrt (x * x + y * y) * cos g.
Proof.
  intros HN. assert (B := hstep_pos N HN). assert (P := PI_RGT_0).
  set (r := sqrt (x * x + y * y)). set (phi := atan2 y x - 2 * PI).
  assert (Hx : x = r * cos phi).
  { unfold phi. rewrite cos_minus, cos_2PI, sin_2PI, Rmult_1_r, Rmult_0_r, Rplus_0_r.
    symmetry. apply atan2_cos. }
  assert (Hy : y = r * sin phi).
  { unfold phi. rewrite sin_minus, cos_2PI, sin_2PI, Rmult_1_r, Rmult_0_r, Rminus_0_r.
    symmetry. apply atan2_sin. }
  assert (Hr : 0 <= r) by apply sqrt_pos.
  assert (E1 : sumR N (fun k => Rabs (dterm N x y k)) = r * fsum N phi).
  { unfold fsum. rewrite <- sumR_scale. apply sumR_ext. intros k _. unfold dterm, proj.
    rewrite Hx, Hy, cos_minus. rewrite <- (Rabs_pos_eq r Hr) at 3. rewrite <- Rabs_mult. f_equal. ring. }
  destruct (atan2_range y x) as [R1 R2].
  assert (Hq : 0 <= (PI / 2 + hstep N - phi) / (2 * hstep N)).
  { apply Rle_mult_inv_pos; unfold phi; lra. }
  destruct (nat_floor _ Hq) as (m & M1 & M2).
  exists (phi + INR m * (2 * hstep N) - PI / 2). split.
  - apply Rmult_le_compat_r with (r := 2 * hstep N) in M1; [| lra].
    apply Rmult_lt_compat_r with (r := 2 * hstep N) in M2; [| lra].
    replace ((PI / 2 + hstep N - phi) / (2 * hstep N) * (2 * hstep N)) with (PI / 2 + hstep N - phi) in M1, M2 by (field; lra).
    apply Rabs_le. lra.
  - rewrite E1, <- (fsum_periods N phi m HN), fsum_base; [reflexivity | exact HN |].
    apply Rmult_le_compat_r with (r := 2 * hstep N) in M1; [| lra].
    apply Rmult_lt_compat_r with (r := 2 * hstep N) in M2; [| lra].
    replace ((PI / 2 + hstep N - phi) / (2 * hstep N) * (2 * hstep N)) with (PI / 2 + hstep N - phi) in M1, M2 by (field; lra).
    lra.
Qed.

Lemma cos_close h g : Rabs g <= h -> h <= PI / 2 -> Rabs (cos g - 1) <= h.
Proof.
  intros Hg Hh. assert (P := PI_RGT_0). assert (C := COS_bound g).
  rewrite Rabs_left1 by lra. set (a := Rabs g) in *.
  assert (Ca : cos g = cos a) by (unfold a, Rabs; destruct (Rcase_abs g); [rewrite cos_neg|]; reflexivity).
  assert (A0 : 0 <= a) by apply Rabs_pos.
  rewrite Ca. replace a with (2 * (a / 2)) at 1 by field. rewrite cos_2a_sin.
  destruct A0 as [A0 | A0].
  - assert (S1 : 0 < sin (a / 2)) by (apply sin_gt_0; lra). assert (S2 := SIN_bound (a / 2)).
    assert (S3 : sin (a / 2) < a / 2) by (apply sin_lt_x; lra).
    assert (sin (a / 2) * sin (a / 2) <= sin (a / 2) * 1) by (apply Rmult_le_compat_l; lra). lra.
  - rewrite <- A0. replace (0 / 2) with 0 by field. rewrite sin_0. lra.
Qed.

Lemma dir_limit N0 x y : (1 <= N0)%nat ->
  Un_cv (fun m => sumR (N0 * S m) (fun k => Rabs (dterm (N0 * S m) x y k))) (sqrt (x * x + y * y)).
Proof.
  intros HN e He. set (r := sqrt (x * x + y * y)). assert (Hr : 0 <= r) by apply sqrt_pos. assert (P := PI_RGT_0).
  assert (Hq : 0 <= (r + 1) * PI / e) by (apply Rle_mult_inv_pos; [apply Rmult_le_pos; lra | exact He]).
  destruct (nat_floor _ Hq) as (M & _ & M2). exists M. intros m Hm.
  assert (HN1 : (1 <= N0 * S m)%nat) by nia.
  destruct (dir_sum (N0 * S m) x y HN1) as (g & G1 & G2). assert (B := hstep_pos _ HN1).
  unfold R_dist. rewrite G2. fold r. replace (r * cos g - r) with (r * (cos g - 1)) by ring.
  rewrite Rabs_mult, (Rabs_pos_eq r Hr). assert (C := cos_close _ g G1 (proj2 B)).
  assert (Hh : hstep (N0 * S m) * (r + 1) < e).
  { assert (E := hstep_N _ HN1). set (h := hstep (N0 * S m)) in *.
    assert (L : INR M + 1 <= INR (N0 * S m)) by (rewrite <- S_INR; apply le_INR; nia).
    assert (K : (r + 1) * PI < e * (INR M + 1)).
    { apply Rmult_lt_compat_l with (r := e) in M2; [| exact He].
      replace (e * ((r + 1) * PI / e)) with ((r + 1) * PI) in M2 by (field; lra). exact M2. }
    assert (0 < INR M + 1) by (assert (Q := pos_INR M); lra).
    assert (K2 : h * (2 * INR (N0 * S m)) * (r + 1) < e * INR (N0 * S m)).
    { replace (h * (2 * INR (N0 * S m))) with PI by (rewrite <- E; ring).
      assert (e * (INR M + 1) <= e * INR (N0 * S m)) by (apply Rmult_le_compat_l; lra). lra. }
    apply Rmult_lt_reg_r with (INR (N0 * S m)); [lra|].
    assert (0 <= h * (r + 1) * INR (N0 * S m)) by (apply Rmult_le_pos; [apply Rmult_le_pos; lra | lra]).
    lra. }
  assert (r * Rabs (cos g - 1) <= (r + 1) * hstep (N0 * S m)).
  { apply Rmult_le_compat; [exact Hr | apply Rabs_pos | lra | exact C]. }
  lra.
Qed.

(* ---- an arc on which no projection changes sign ---- *)
Definition one_sign (p q x y : R) : Prop :=
  (forall t, p <= t <= q -> 0 < proj x y t) \/ (forall t, p <= t <= q -> proj x y t < 0).

Lemma proj_lip x y t t0 : Rabs (proj x y t - proj x y t0) <= (Rabs x + Rabs y) * Rabs (t - t0).
Proof.
  assert (D : forall f f', (forall z, derivable_pt_lim f z (f' z)) -> (forall z, Rabs (f' z) <= 1) ->
    Rabs (f t - f t0) <= Rabs (t - t0)).
  { intros f f' Hd Hb. destruct (MVT_abs f f' t0 t (fun c _ => Hd c)) as (c & E & _).
    rewrite E. rewrite <- (Rmult_1_l (Rabs (t - t0))) at 2. apply Rmult_le_compat_r; [apply Rabs_pos | apply Hb]. }
  assert (C := D cos (fun z => - sin z) derivable_pt_lim_cos).
  assert (S := D sin cos derivable_pt_lim_sin).
  unfold proj. replace (x * cos t + y * sin t - (x * cos t0 + y * sin t0))
    with (x * (cos t - cos t0) + y * (sin t - sin t0)) by ring.
  eapply Rle_trans; [apply Rabs_triang|]. rewrite !Rabs_mult, Rmult_plus_distr_r.
  apply Rplus_le_compat; apply Rmult_le_compat_l; try apply Rabs_pos.
  - apply C. intros z. rewrite Rabs_Ropp. apply Rabs_le, SIN_bound.
  - apply S. intros z. apply Rabs_le, COS_bound.
Qed.

Lemma one_vector p q x y : 0 <= p -> p < q -> q <= PI -> x <> 0 \/ y <> 0 -> q - p < PI ->
  exists p' q', p <= p' /\ p' < q' /\ q' <= q /\ one_sign p' q' x y.
Proof.
  intros Hp Hpq Hq Hv Hd. assert (P := PI_RGT_0).
  assert (Hz : proj x y p <> 0 \/ proj x y q <> 0).
  { destruct (Req_EM_T (proj x y p) 0) as [E1 | N1]; [| left; exact N1].
    destruct (Req_EM_T (proj x y q) 0) as [E2 | N2]; [| right; exact N2]. exfalso.
    unfold proj in *. assert (S : 0 < sin (q - p)) by (apply sin_gt_0; lra).
    rewrite sin_minus in S.
    assert (X : x * (sin q * cos p - cos q * sin p) = 0).
    { transitivity (sin q * (x * cos p + y * sin p) - sin p * (x * cos q + y * sin q)); [ring | rewrite E1, E2; ring]. }
    assert (Y : y * (sin q * cos p - cos q * sin p) = 0).
    { transitivity (cos p * (x * cos q + y * sin q) - cos q * (x * cos p + y * sin p)); [ring | rewrite E1, E2; ring]. }
    apply Rmult_integral in X. apply Rmult_integral in Y. destruct Hv as [Hv | Hv]; destruct X, Y; lra. }
  set (L := Rabs x + Rabs y + 1).
  assert (HL : 0 < L) by (assert (A := Rabs_pos x); assert (B := Rabs_pos y); unfold L; lra).
  assert (Near : forall t0, p <= t0 <= q -> proj x y t0 <> 0 ->
     forall t, Rabs (t - t0) <= Rabs (proj x y t0) / (2 * L) ->
       (0 < proj x y t0 -> 0 < proj x y t) /\ (proj x y t0 < 0 -> proj x y t < 0)).
  { intros t0 Ht Hn t Hd'. assert (Lp := proj_lip x y t t0).
    assert (A : 0 < Rabs (proj x y t0)) by (apply Rabs_pos_lt, Hn).
    assert (Q : (Rabs x + Rabs y) * Rabs (t - t0) <= L * (Rabs (proj x y t0) / (2 * L))).
    { apply Rmult_le_compat; [| apply Rabs_pos | | exact Hd'].
      - assert (A1 := Rabs_pos x); assert (A2 := Rabs_pos y); lra.
      - unfold L; lra. }
    replace (L * (Rabs (proj x y t0) / (2 * L))) with (Rabs (proj x y t0) / 2) in Q by (field; lra).
    assert (T : Rabs (proj x y t - proj x y t0) < Rabs (proj x y t0)) by lra.
    apply Rabs_def2 in T. split; intros Hs.
    - rewrite (Rabs_pos_eq (proj x y t0)) in T by lra. lra.
    - rewrite (Rabs_left (proj x y t0)) in T by lra. lra. }
  destruct Hz as [Hz | Hz].
  - set (d := Rmin (q - p) (Rabs (proj x y p) / (2 * L))).
    assert (Hd0 : 0 < d).
    { apply Rmin_glb_lt; [lra|]. apply Rdiv_lt_0_compat; [apply Rabs_pos_lt, Hz | lra]. }
    assert (D1 := Rmin_l (q - p) (Rabs (proj x y p) / (2 * L))).
    assert (D2 := Rmin_r (q - p) (Rabs (proj x y p) / (2 * L))). fold d in D1, D2.
    exists p, (p + d). split; [lra|]. split; [lra|]. split; [lra|].
    destruct (Rtotal_order (proj x y p) 0) as [S | [S | S]]; [right | contradiction | left];
      intros t Ht; apply (Near p ltac:(lra) Hz t); try exact S; rewrite Rabs_pos_eq; lra.
  - set (d := Rmin (q - p) (Rabs (proj x y q) / (2 * L))).
    assert (Hd0 : 0 < d).
    { apply Rmin_glb_lt; [lra|]. apply Rdiv_lt_0_compat; [apply Rabs_pos_lt, Hz | lra]. }
    assert (D1 := Rmin_l (q - p) (Rabs (proj x y q) / (2 * L))).
    assert (D2 := Rmin_r (q - p) (Rabs (proj x y q) / (2 * L))). fold d in D1, D2.
    exists (q - d), q. split; [lra|]. split; [lra|]. split; [lra|].
    destruct (Rtotal_order (proj x y q) 0) as [S | [S | S]]; [right | contradiction | left];
      intros t Ht; apply (Near q ltac:(lra) Hz t); try exact S; rewrite Rabs_left1; lra.
Qed.

Lemma good_arc (vs : list (R * R)) : (forall v, In v vs -> fst v <> 0 \/ snd v <> 0) ->
  exists p q, 0 <= p /\ p < q /\ q <= PI /\ q - p < PI /\
    forall v, In v vs -> one_sign p q (fst v) (snd v).
Proof.
  induction vs as [| v vs IH]; intros H.
  - exists 0, 1. assert (P := PI2_1). assert (Q := PI_RGT_0). repeat split; try lra. intros v [].
  - destruct IH as (p & q & A1 & A2 & A3 & A4 & A5); [intros w Hw; apply H; right; exact Hw|].
    destruct (one_vector p q (fst v) (snd v) A1 A2 A3 (H v (or_introl eq_refl)) A4) as (p' & q' & B1 & B2 & B3 & B4).
    exists p', q'. split; [lra|]. split; [exact B2|]. split; [lra|]. split; [lra|].
    intros w [<- | Hw]; [exact B4|]. destruct (A5 w Hw) as [S | S]; [left | right]; intros t Ht; apply S; lra.
Qed.

Lemma grid_arc p q : 0 <= p -> p < q -> q <= PI ->
  exists N0 j : nat, (j + 1 <= N0)%nat /\ p <= INR j * (PI / INR N0) /\ (INR j + 1) * (PI / INR N0) <= q.
Proof.
  intros Hp Hpq Hq. assert (P := PI_RGT_0).
  assert (Hr : 0 <= 2 * PI / (q - p)) by (apply Rle_mult_inv_pos; lra).
  destruct (nat_floor _ Hr) as (M & _ & M2). set (N0 := S M).
  assert (EN : INR N0 = INR M + 1) by (unfold N0; apply S_INR).
  assert (M0 := pos_INR M). set (w := PI / INR N0).
  assert (W : 0 < w) by (apply Rdiv_lt_0_compat; lra).
  assert (W2 : 2 * w < q - p).
  { apply Rmult_lt_reg_r with (INR N0); [lra|]. unfold w.
    replace (2 * (PI / INR N0) * INR N0) with (2 * PI) by (field; lra).
    apply Rmult_lt_compat_l with (r := q - p) in M2; [| lra].
    replace ((q - p) * (2 * PI / (q - p))) with (2 * PI) in M2 by (field; lra). rewrite EN. lra. }
  assert (Hs : 0 <= p / w) by (apply Rle_mult_inv_pos; lra).
  destruct (nat_floor _ Hs) as (j & J1 & J2).
  assert (J3 : INR j * w <= p).
  { apply Rmult_le_compat_r with (r := w) in J1; [| lra]. replace (p / w * w) with p in J1 by (field; lra). exact J1. }
  assert (J4 : p < (INR j + 1) * w).
  { apply Rmult_lt_compat_r with (r := w) in J2; [| lra]. replace (p / w * w) with p in J2 by (field; lra). exact J2. }
  exists N0, (S j). rewrite S_INR. fold w. split; [| split; lra].
  apply INR_le. rewrite plus_INR, S_INR. cbn [INR].
  apply Rmult_le_reg_r with w; [exact W|]. replace (INR N0 * w) with PI by (unfold w; field; lra). lra.
Qed.

(* ---- the kernel ---- *)
Section Plane.
  Context (px py : nat -> R) (l0 : list nat).
  Context (Hnd : NoDup l0).
  Context (Hdist : forall a b, In a l0 -> In b l0 -> a <> b -> px a <> px b \/ py a <> py b).

  Definition pdist (a b : nat) : R :=
    sqrt ((px a - px b) * (px a - px b) + (py a - py b) * (py a - py b)).

  Definition skip (p m k : nat) : nat := if Nat.ltb k p then k else (k + m)%nat.

  Lemma sum_skip N p m f : (p + m <= N)%nat ->
    sumR N f = sumR m (fun k => f (p + k)%nat) + sumR (N - m) (fun k => f (skip p m k)).
  Proof.
    intros H. assert (E : exists r, N = (p + (m + r))%nat) by (exists (N - m - p)%nat; lia).
    destruct E as (r & ->). replace (p + (m + r) - m)%nat with (p + r)%nat by lia.
    rewrite !sumR_split.
    replace (sumR p (fun k => f (skip p m k))) with (sumR p f).
    2: { apply sumR_ext. intros k Hk. unfold skip. apply Nat.ltb_lt in Hk. rewrite Hk. reflexivity. }
    replace (sumR r (fun k => f (skip p m (p + k)%nat)))
      with (sumR r (fun k => f (p + (m + k))%nat)); [ring|].
    apply sumR_ext. intros k _. unfold skip. replace (Nat.ltb (p + k) p) with false.
    - f_equal. lia.
    - symmetry. apply Nat.ltb_ge. lia.
  Qed.

  Theorem plane_kernel_pd c : (exists i, In i l0 /\ c i <> 0) ->
    0 < quadl l0 (fun a b => exp (- pdist a b)) c.
  Proof.
    intros Hc.
    set (vs := flat_map (fun a => map (fun b => (px a - px b, py a - py b)) (remove Nat.eq_dec a l0)) l0).
    destruct (good_arc vs) as (p & q & A1 & A2 & A3 & _ & A5).
    { intros v Hv. unfold vs in Hv. rewrite in_flat_map in Hv. destruct Hv as (a & Ha & Hv).
      rewrite in_map_iff in Hv. destruct Hv as (b & <- & Hb). apply in_remove in Hb. destruct Hb as [Hb Hab].
      cbn [fst snd]. destruct (Hdist b a Hb Ha Hab); [left | right]; lra. }
    assert (A6 : forall a b, In a l0 -> In b l0 -> a <> b -> one_sign p q (px a - px b) (py a - py b)).
    { intros a b Ha Hb Hab. apply (A5 (px a - px b, py a - py b)). unfold vs. rewrite in_flat_map.
      exists a. split; [exact Ha|]. rewrite in_map_iff. exists b. split; [reflexivity|].
      apply in_in_remove; [congruence | exact Hb]. }
    destruct (grid_arc p q A1 A2 A3) as (N0 & j & J1 & J2 & J3).
    assert (HN0 : (1 <= N0)%nat) by lia. assert (RN0 : 1 <= INR N0) by (apply (le_INR 1); exact HN0).
    assert (P := PI_RGT_0).
    set (w := PI / INR N0) in *.
    set (s := fun a => / 2 * (px a * (sin ((INR j + 1) * w) - sin (INR j * w))
                              + py a * (cos (INR j * w) - cos ((INR j + 1) * w)))).
    (* the arc *)
    assert (Arc : forall m x y, sumR (S m) (fun k => dterm (N0 * S m) x y (j * S m + k))
      = / 2 * (x * (sin ((INR j + 1) * w) - sin (INR j * w)) + y * (cos (INR j * w) - cos ((INR j + 1) * w)))).
    { intros m x y. rewrite dterm_sum.
      assert (E1 : 2 * INR (j * S m) * hstep (N0 * S m) = INR j * w).
      { unfold hstep, w. rewrite !mult_INR. field; repeat split; (lra || (apply not_0_INR; lia)). }
      assert (E2 : 2 * INR (j * S m + S m) * hstep (N0 * S m) = (INR j + 1) * w).
      { unfold hstep, w. rewrite plus_INR, !mult_INR. field; repeat split; (lra || (apply not_0_INR; lia)). }
      rewrite E1, E2. reflexivity. }
    assert (Ang : forall m k, (k < S m)%nat ->
      p <= (2 * INR (j * S m + k) + 1) * hstep (N0 * S m) <= q /\ 0 < sin (hstep (N0 * S m))).
    { intros m k Hk. assert (HN1 : (1 <= N0 * S m)%nat) by nia. assert (B := hstep_pos _ HN1).
      split; [| apply sin_gt_0; lra]. set (h := hstep (N0 * S m)) in *.
      assert (Ew : w = 2 * INR (S m) * h).
      { unfold h, hstep, w. rewrite mult_INR. field; repeat split; (lra || (apply not_0_INR; lia)). }
      rewrite Ew in J2, J3. rewrite plus_INR, mult_INR.
      assert (K0 := pos_INR k). assert (K1 : INR k + 1 <= INR (S m)) by (rewrite <- S_INR; apply le_INR; lia).
      assert (0 <= INR k * h) by (apply Rmult_le_pos; lra).
      assert ((INR k + 1) * h <= INR (S m) * h) by (apply Rmult_le_compat_r; lra).
      replace ((2 * (INR j * INR (S m) + INR k) + 1) * h) with (INR j * (2 * INR (S m) * h) + 2 * (INR k * h) + h) by ring.
      replace ((INR j + 1) * (2 * INR (S m) * h)) with (INR j * (2 * INR (S m) * h) + 2 * (INR (S m) * h)) in J3 by ring.
      lra. }
    assert (Sgn : forall m a b, In a l0 -> In b l0 ->
      sumR (S m) (fun k => Rabs (dterm (N0 * S m) (px a - px b) (py a - py b) (j * S m + k))) = Rabs (s a - s b)).
    { intros m a b Ha Hb. replace (s a - s b) with (sumR (S m) (fun k => dterm (N0 * S m) (px a - px b) (py a - py b) (j * S m + k)))
        by (rewrite Arc; unfold s; field).
      destruct (Nat.eq_dec a b) as [-> | Hab].
      - apply abs_sum_pos. intros k _. right. unfold dterm, proj. ring.
      - destruct (A6 a b Ha Hb Hab) as [S1 | S1].
        + apply abs_sum_pos. intros k Hk. destruct (Ang m k Hk) as [G1 G2]. unfold dterm.
          apply Rmult_le_pos; [lra | left; apply S1, G1].
        + apply abs_sum_neg. intros k Hk. destruct (Ang m k Hk) as [G1 G2]. unfold dterm.
          specialize (S1 _ G1). set (pr := proj _ _ _) in *.
          assert (0 <= sin (hstep (N0 * S m)) * - pr) by (apply Rmult_le_pos; lra). lra. }
    assert (Inj : forall a b, In a l0 -> In b l0 -> a <> b -> s a <> s b).
    { intros a b Ha Hb Hab E. assert (Z := Sgn 0%nat a b Ha Hb).
      replace (s a - s b) with 0 in Z by lra. rewrite Rabs_R0 in Z. cbn [sumR] in Z.
      destruct (Ang 0%nat 0%nat ltac:(lia)) as [G1 G2].
      assert (Q : 0 < Rabs (dterm (N0 * 1) (px a - px b) (py a - py b) (j * 1 + 0))).
      { apply Rabs_pos_lt. unfold dterm. apply Rmult_integral_contrapositive_currified; [lra|].
        destruct (A6 a b Ha Hb Hab) as [S1 | S1]; specialize (S1 _ G1); lra. }
      lra. }
    set (T := fun m k a => dterm (N0 * S m) (px a) (py a) (skip (j * S m) (S m) k)).
    assert (Rest : psd_on (fun i => In i l0) (fun a b => exp (- (pdist a b - Rabs (s a - s b))))).
    { apply (psd_limit _ (fun m => prodk (N0 * S m - S m) (T m))); [intros m; apply prodk_psd|].
      intros a b Ha Hb.
      assert (E : forall m, prodk (N0 * S m - S m) (T m) a b
        = exp (- (sumR (N0 * S m) (fun k => Rabs (dterm (N0 * S m) (px a - px b) (py a - py b) k)) - Rabs (s a - s b)))).
      { intros m. rewrite prodk_val. f_equal. f_equal.
        rewrite (sum_skip (N0 * S m) (j * S m) (S m)) by nia. rewrite (Sgn m a b Ha Hb).
        replace (sumR (N0 * S m - S m) (fun k => Rabs (T m k a - T m k b)))
          with (sumR (N0 * S m - S m) (fun k => Rabs (dterm (N0 * S m) (px a - px b) (py a - py b) (skip (j * S m) (S m) k)))); [ring|].
        apply sumR_ext. intros k _. f_equal. unfold T, dterm, proj. ring. }
      intros e He.
      assert (CV : Un_cv (fun m => exp (- (sumR (N0 * S m) (fun k => Rabs (dterm (N0 * S m) (px a - px b) (py a - py b) k)) - Rabs (s a - s b))))
         (exp (- (pdist a b - Rabs (s a - s b))))).
      { apply (continuity_seq (fun z => exp (- (z - Rabs (s a - s b)))) _ (pdist a b)).
        - apply derivable_continuous_pt. reg.
        - exact (dir_limit N0 (px a - px b) (py a - py b) HN0). }
      destruct (CV e He) as (M & HM). exists M. intros m Hm. rewrite E. apply HM, Hm. }
    rewrite (quadl_ext l0 _ (fun a b => exp (- Rabs (s a - s b)) * exp (- (pdist a b - Rabs (s a - s b)))) c c).
    - apply (laplace_pd (fun i => In i l0) s _ Rest).
      + intros i _. apply exp_pos.
      + auto.
      + exact Hnd.
      + exact Inj.
      + exact Hc.
    - reflexivity.
    - intros a b _ _. rewrite <- exp_plus. f_equal. ring.
  Qed.
End Plane.
