(* Second moments of the coefficients of a link over the random initial phases (C83). *)
From Coq Require Import Reals String List Bool Arith Lia Lra Permutation Sorting.Sorted.
From Verif Require Import M_Base L_Base M_Params M_Geometry M_Pathloss M_Scenario M_Rays M_Antenna S_Antenna L_Antenna L_Trig M_Cplx M_Coeff
  S_Coeff S_Ray L_Rotation L_Coeff L_Ray S_Mean L_Csum S_Links L_TdlEx.
Import ListNotations.
Open Scope list_scope.
Open Scope R_scope.

(* ---- the order of the paths does not depend on the phases ---- *)
Lemma reduce_uniform srt srtd (sub : bool) powers delays c_ds : valid_argsort srt -> valid_argsort_desc srtd ->
  length powers = length delays -> (2 <= length delays)%nat ->
  exists L, Permutation (flat_map rays_of L) (list_prod (seq 0 (length delays)) (seq 0 20)) /\
    length L = (length delays + if sub then 4 else 0)%nat /\
    forall h, reduce_nlos srt srtd sub h powers delays c_ds = (map (path_sum h) L, map (path_delay delays c_ds) L).
Proof.
  intros V VD EL N. destruct sub.
  - set (order := srtd powers). set (L0 := unsorted_paths order). set (D := map (path_delay delays c_ds) L0).
    destruct (VD powers) as [PO _]. fold order in PO.
    assert (LO : length order = length delays) by (apply Permutation_length in PO; rewrite seq_length in PO; lia).
    destruct (V D) as [P _]. unfold D in P. rewrite map_length in P. fold D in P.
    destruct (unsorted_rays order ltac:(lia)) as [PR PL]. fold L0 in PR, PL.
    assert (PG : Permutation (gather (whole_cluster 0) L0 (srt D)) L0) by (apply gather_perm; exact P).
    exists (gather (whole_cluster 0) L0 (srt D)). split; [|split].
    + rewrite (flat_map_perm rays_of _ _ PG), PR. rewrite <- EL. apply list_prod_perm. exact PO.
    + rewrite (Permutation_length PG), PL, LO. reflexivity.
    + intros h. unfold reduce_nlos. cbv beta iota zeta. fold order.
      assert (EH : map (sum_rays h sub_cl_1_ind) (firstn 2 order) ++ map (sum_rays h sub_cl_2_ind) (firstn 2 order)
         ++ map (sum_rays h sub_cl_3_ind) (firstn 2 order) ++ map (sum_rays h (seq 0 rays_per_cluster)) (skipn 2 order)
         = map (path_sum h) L0).
      { unfold L0, unsorted_paths. rewrite !map_app, !map_map. reflexivity. }
      assert (ED : flat_map (fun o => map (fun d => d + o * c_ds) (firstn 2 (gather 0 delays order))) sub_cl_delay_offsets
         ++ skipn 2 (gather 0 delays order) = D).
      { unfold D, L0, unsorted_paths, sub_cl_delay_offsets. cbn [flat_map]. rewrite !map_app, !map_map, app_nil_r, <- !app_assoc.
        unfold gather. rewrite firstn_map, skipn_map, !map_map. unfold path_delay, whole_cluster. cbn [pt_cluster pt_offset].
        f_equal. f_equal. f_equal. apply map_ext. intros; ring. }
      rewrite EH, ED.
      destruct (select_perm (path_sum h) L0 (whole_cluster 0) (fun _ _ _ => c0) _ P) as [E1 _].
      destruct (select_perm (path_delay delays c_ds) L0 (whole_cluster 0) 0 _ P) as [E2 _].
      fold D in E2. change (map (fun k => nth k D 0) (srt D)) with (gather 0 D (srt D)) in E2.
      rewrite E1, E2. reflexivity.
  - destruct (V delays) as [P _]. exists (map whole_cluster (srt delays)). split; [|split].
    + assert (W : forall l, flat_map rays_of (map whole_cluster l) = list_prod l (seq 0 20)).
      { induction l as [|c l IH]; [reflexivity|]. cbn [map flat_map list_prod]. rewrite IH. reflexivity. }
      rewrite W. apply list_prod_perm. exact P.
    + rewrite map_length, (Permutation_length P), seq_length. lia.
    + intros h. unfold reduce_nlos. cbv beta iota zeta. rewrite !map_map. f_equal.
      * destruct (select_perm (sum_rays h (seq 0 rays_per_cluster)) (seq 0 (length delays)) 0%nat (fun _ _ _ => c0) (srt delays)
          ltac:(rewrite seq_length; exact P)) as [E1 _].
        rewrite E1. assert (G : gather 0%nat (seq 0 (length delays)) (srt delays) = srt delays).
        { unfold gather. rewrite <- (map_id (srt delays)) at 2. apply map_ext_in. intros k Hk.
          apply (Permutation_in _ P), in_seq in Hk. rewrite seq_nth by lia. reflexivity. }
        rewrite G. reflexivity.
      * unfold gather, path_delay, whole_cluster. cbn [pt_cluster pt_offset]. apply map_ext. intros; ring.
Qed.

(* ---- means of sums of phasors ---- *)
Section Mean.
  Variables (n : nat) (E : (ray_phases -> cplx) -> cplx).
  Hypothesis U : uniform_phases n E.
  Definition draw := (nat * nat * nat)%type.
  Definition phasor (a : draw) (x : ray_phases) : cplx := let '(c, r, k) := a in cexpi (x c r k).
  Definition legal (a : draw) : Prop := let '(c, r, k) := a in (c < n)%nat /\ (r < 20)%nat /\ (k < 4)%nat.

  Lemma up_zero : E (fun _ => c0) = c0.
  Proof.
    rewrite (up_ext _ _ U _ (fun _ => cmul c0 c0)) by (intros; ring). rewrite (up_scale _ _ U c0 (fun _ => c0)). ring.
  Qed.
  Lemma up_const c : E (fun _ => c) = c.
  Proof.
    rewrite (up_ext _ _ U _ (fun _ => cmul c c1)) by (intros; ring). rewrite (up_scale _ _ U c (fun _ => c1)), (up_one _ _ U). ring.
  Qed.
  Lemma up_sum {A} (f : A -> ray_phases -> cplx) l : E (fun x => csum (map (fun a => f a x) l)) = csum (map (fun a => E (f a)) l).
  Proof.
    induction l as [|a l IH]; [exact up_zero|]. cbn [map csum fold_right]. unfold csum in *. rewrite <- IH.
    rewrite (up_add _ _ U (f a) (fun x => fold_right cadd c0 (map (fun a => f a x) l))). reflexivity.
  Qed.
  Lemma csum_conj_map {A} (f : A -> cplx) l : cconj (csum (map f l)) = csum (map (fun a => cconj (f a)) l).
  Proof.
    induction l as [|a l IH]; [apply cplx_eq; cbn; ring|]. cbn [map csum fold_right]. unfold csum in *. rewrite <- IH.
    apply cplx_eq; cbn; ring.
  Qed.
  Lemma csum_mul_l {A} k (f : A -> cplx) l : cmul k (csum (map f l)) = csum (map (fun a => cmul k (f a)) l).
  Proof.
    induction l as [|a l IH]; [cbn; ring|]. cbn [map csum fold_right]. unfold csum in *. rewrite <- IH. ring.
  Qed.
  Lemma csum_mul_r {A} k (f : A -> cplx) l : cmul (csum (map f l)) k = csum (map (fun a => cmul (f a) k) l).
  Proof.
    induction l as [|a l IH]; [cbn; ring|]. cbn [map csum fold_right]. unfold csum in *. rewrite <- IH. ring.
  Qed.

  Lemma phasor_pair a b : legal a -> legal b ->
    (a = b -> E (fun x => cmul (phasor a x) (cconj (phasor b x))) = c1) /\
    (a <> b -> E (fun x => cmul (phasor a x) (cconj (phasor b x))) = c0).
  Proof.
    destruct a as [[c r] k], b as [[c' r'] k']. intros (A1 & A2 & A3) (B1 & B2 & B3). cbn [phasor].
    assert (X : E (fun x => cmul (cexpi (x c r k)) (cconj (cexpi (x c' r' k')))) =
      if Nat.eqb c c' && Nat.eqb r r' && Nat.eqb k k' then c1 else c0).
    { rewrite <- (up_pair _ _ U) by assumption. apply (up_ext _ _ U). intros x. rewrite cconj_cexpi, <- cexpi_add. reflexivity. }
    rewrite X. split.
    - intros [= -> -> ->]. rewrite !Nat.eqb_refl. reflexivity.
    - intros NE. destruct (Nat.eqb_spec c c') as [->|]; [|reflexivity]. destruct (Nat.eqb_spec r r') as [->|]; [|reflexivity].
      destruct (Nat.eqb_spec k k') as [->|]; [congruence|reflexivity].
  Qed.

  Definition weighted (w : draw -> cplx) (l : list draw) (x : ray_phases) : cplx := csum (map (fun a => cmul (w a) (phasor a x)) l).

  Lemma weighted_mean w l : (forall a, In a l -> legal a) -> E (weighted w l) = c0 /\ E (fun x => cconj (weighted w l x)) = c0.
  Proof.
    intros H. split.
    - unfold weighted. rewrite up_sum. transitivity (csum (map (fun _ => c0) l)).
      + f_equal. apply map_ext_in. intros a Ha. rewrite (up_scale _ _ U (w a) (phasor a)).
        destruct a as [[c r] k]. destruct (H _ Ha) as (A & B & C).
        rewrite (up_ext _ _ U _ (fun x => cexpi (x c r k))) by reflexivity. rewrite (up_plus _ _ U) by assumption. ring.
      + clear H. induction l as [|a l IH]; [reflexivity|]. cbn [map csum fold_right]. unfold csum in IH. rewrite IH. ring.
    - rewrite (up_ext _ _ U _ (fun x => csum (map (fun a => cmul (cconj (w a)) (cconj (phasor a x))) l))).
      2: { intros x. unfold weighted. rewrite csum_conj_map. f_equal. apply map_ext. intros. apply cconj_mul. }
      rewrite up_sum. transitivity (csum (map (fun _ => c0) l)).
      + f_equal. apply map_ext_in. intros a Ha. rewrite (up_scale _ _ U (cconj (w a)) (fun x => cconj (phasor a x))).
        destruct a as [[c r] k]. destruct (H _ Ha) as (A & B & C).
        rewrite (up_ext _ _ U _ (fun x => cexpi (- x c r k))) by (intros; apply cconj_cexpi). rewrite (up_minus _ _ U) by assumption. ring.
      + clear H. induction l as [|a l IH]; [reflexivity|]. cbn [map csum fold_right]. unfold csum in IH. rewrite IH. ring.
  Qed.

  Lemma weighted_pair w w' l l' : (forall a, In a l -> legal a) -> (forall a, In a l' -> legal a) ->
    E (fun x => cmul (weighted w l x) (cconj (weighted w' l' x))) =
    csum (map (fun a => csum (map (fun b => cmul (cmul (w a) (cconj (w' b))) (E (fun x => cmul (phasor a x) (cconj (phasor b x))))) l')) l).
  Proof.
    intros H H'. unfold weighted.
    rewrite (up_ext _ _ U _ (fun x => csum (map (fun a => csum (map (fun b =>
      cmul (cmul (w a) (cconj (w' b))) (cmul (phasor a x) (cconj (phasor b x)))) l')) l))).
    2: { intros x. rewrite csum_mul_r. f_equal. apply map_ext. intros a. rewrite csum_conj_map, csum_mul_l. f_equal. apply map_ext.
         intros b. rewrite cconj_mul. ring. }
    rewrite (up_sum (fun a x => csum (map (fun b => cmul (cmul (w a) (cconj (w' b))) (cmul (phasor a x) (cconj (phasor b x)))) l'))).
    f_equal. apply map_ext. intros a.
    rewrite (up_sum (fun b x => cmul (cmul (w a) (cconj (w' b))) (cmul (phasor a x) (cconj (phasor b x))))).
    f_equal. apply map_ext. intros b. apply (up_scale _ _ U _ (fun x => cmul (phasor a x) (cconj (phasor b x)))).
  Qed.

  Lemma csum_all_zero {A} (f : A -> cplx) l : (forall a, In a l -> f a = c0) -> csum (map f l) = c0.
  Proof.
    induction l as [|a l IH]; intros H; [reflexivity|]. cbn [map csum fold_right]. unfold csum in IH.
    rewrite IH by (intros; apply H; right; assumption). rewrite H by (left; reflexivity). ring.
  Qed.

  Lemma weighted_same w w' l : (forall a, In a l -> legal a) -> NoDup l ->
    E (fun x => cmul (weighted w l x) (cconj (weighted w' l x))) = csum (map (fun a => cmul (w a) (cconj (w' a))) l).
  Proof.
    intros H ND. rewrite weighted_pair by assumption. f_equal. apply map_ext_in. intros a Ha.
    apply in_split in Ha. destruct Ha as (l1 & l2 & ->). rewrite map_app, csum_app. cbn [map csum fold_right].
    apply NoDup_remove in ND. destruct ND as [ND NI].
    assert (La : legal a) by (apply H, in_or_app; right; left; reflexivity).
    assert (Z : forall l0, (forall b, In b l0 -> In b (l1 ++ l2)) ->
      csum (map (fun b => cmul (cmul (w a) (cconj (w' b))) (E (fun x => cmul (phasor a x) (cconj (phasor b x))))) l0) = c0).
    { intros l0 S. apply csum_all_zero. intros b Hb.
      assert (Lb : legal b) by (apply H; apply S, in_app_or in Hb; apply in_or_app; cbn; tauto).
      rewrite (proj2 (phasor_pair a b La Lb)); [ring|]. intros ->. apply NI, S, Hb. }
    rewrite (Z l1) by (intros; apply in_or_app; left; assumption).
    pose proof (Z l2 ltac:(intros; apply in_or_app; right; assumption)) as Z2. unfold csum in Z2. rewrite Z2.
    rewrite (proj1 (phasor_pair a a La La) eq_refl). ring.
  Qed.
  Lemma weighted_disjoint w w' l l' : (forall a, In a l -> legal a) -> (forall a, In a l' -> legal a) -> (forall a, In a l -> ~ In a l') ->
    E (fun x => cmul (weighted w l x) (cconj (weighted w' l' x))) = c0.
  Proof.
    intros H H' D. rewrite weighted_pair by assumption. apply csum_all_zero. intros a Ha. apply csum_all_zero. intros b Hb.
    rewrite (proj2 (phasor_pair a b (H a Ha) (H' b Hb))); [ring|]. intros ->. exact (D b Ha Hb).
  Qed.
End Mean.

(* ---- paths as weighted sums ---- *)
Definition draws_of (p : path) : list draw := flat_map (fun r => map (fun k => (pt_cluster p, r, k)) (seq 0 4)) (pt_rays p).

Lemma in_draws p c r k : In (c, r, k) (draws_of p) <-> In (c, r) (rays_of p) /\ (k < 4)%nat.
Proof.
  unfold draws_of, rays_of. rewrite in_flat_map, in_map_iff. split.
  - intros (r0 & Hr & I). apply in_map_iff in I. destruct I as (k0 & [= <- <- <-] & I). apply in_seq in I.
    split; [exists r0; split; [reflexivity|exact Hr]|lia].
  - intros ((r0 & [= <- <-] & Hr) & Hk). exists r0. split; [exact Hr|]. apply in_map_iff. exists k. split; [reflexivity|]. apply in_seq. lia.
Qed.

Lemma nodup_draws p : NoDup (rays_of p) -> NoDup (draws_of p).
Proof.
  unfold draws_of, rays_of. induction (pt_rays p) as [|r l IH]; intros H; [constructor|].
  cbn [map] in H. inversion H as [|? ? NI ND]; subst. cbn [flat_map].
  assert (A : forall (l1 l2 : list draw), NoDup l1 -> NoDup l2 -> (forall a, In a l1 -> ~ In a l2) -> NoDup (l1 ++ l2)).
  { induction l1 as [|a l1 IH1]; intros l2 N1 N2 D; [exact N2|]. inversion N1; subst. cbn. constructor.
    - intros I. apply in_app_or in I. destruct I as [I|I]; [contradiction|]. apply (D a (or_introl eq_refl) I).
    - apply IH1; [assumption|assumption|]. intros b Hb. apply D. right. exact Hb. }
  apply A; [|apply IH; exact ND|].
  - cbn. repeat (constructor; [cbn; intuition congruence|]). constructor.
  - intros a Ha Hb. apply in_map_iff in Ha. destruct Ha as (k & <- & _). apply in_flat_map in Hb. destruct Hb as (r' & Hr & Hb).
    apply in_map_iff in Hb. destruct Hb as (k' & [= -> ->] & _). apply NI. apply in_map. exact Hr.
Qed.

Lemma nodup_app_l {A} (l l' : list A) : NoDup (l ++ l') -> NoDup l.
Proof.
  induction l as [|a l IH]; intros H; [constructor|]. cbn in H. inversion H; subst. constructor; [|auto].
  intros I. apply H2. apply in_or_app. left. exact I.
Qed.
Lemma nodup_app_r {A} (l l' : list A) : NoDup (l ++ l') -> NoDup l'.
Proof. induction l as [|a l IH]; intros H; [exact H|]. inversion H; auto. Qed.

Lemma nodup_rays_path L i : NoDup (flat_map rays_of L) -> NoDup (rays_of (nth i L (whole_cluster 0))) \/ (length L <= i)%nat.
Proof.
  revert i. induction L as [|p L IH]; intros i H; [right; cbn; lia|]. cbn [flat_map] in H. destruct i as [|i].
  - left. cbn [nth]. apply nodup_app_l in H. exact H.
  - cbn [nth length]. apply nodup_app_r in H. destruct (IH i H); [left; assumption|right; lia].
Qed.
Lemma nodup_app_disjoint {A} (l l' : list A) a : NoDup (l ++ l') -> In a l -> ~ In a l'.
Proof.
  induction l as [|b l IH]; [intros _ []|]. cbn. intros H [->|I] J; inversion H; subst.
  - apply H2. apply in_or_app. right. exact J.
  - exact (IH H3 I J).
Qed.
Lemma disjoint_rays L i j a : NoDup (flat_map rays_of L) -> (i < length L)%nat -> (j < length L)%nat -> i <> j ->
  In a (rays_of (nth i L (whole_cluster 0))) -> ~ In a (rays_of (nth j L (whole_cluster 0))).
Proof.
  revert i j. induction L as [|p L IH]; intros i j H Hi Hj NE I J; [cbn in Hi; lia|]. cbn [flat_map length] in *.
  destruct i as [|i], j as [|j]; cbn [nth] in *; try lia.
  - apply (nodup_app_disjoint _ _ a H I). apply in_flat_map. exists (nth j L (whole_cluster 0)). split; [apply nth_In; lia|exact J].
  - apply (nodup_app_disjoint _ _ a H J). apply in_flat_map. exists (nth i L (whole_cluster 0)). split; [apply nth_In; lia|exact I].
  - apply nodup_app_r in H. exact (IH i j H ltac:(lia) ltac:(lia) ltac:(lia) I J).
Qed.

(* ---- one ray as a weighted sum of its four phasors ---- *)
Definition phase_at (g : cgen) (T : ltopo) (y : rays) (F : link_fields) (c r : nat) (x : sample) : R :=
  2 * PI * (vdot (rho_hat (r_zoa y c r) (r_aoa y c r)) (orient (lt_rx_ori T) (pa_pos (cg_rx g) (at_rx x))) / (299792458 / cg_fc g)
          + vdot (rho_hat (r_zod y c r) (r_aod y c r)) (orient (lt_tx_ori T) (pa_pos (cg_tx g) (at_tx x))) / (299792458 / cg_fc g)
          + lf_shift F c r * at_time x).
Definition polar_weight (y : rays) (F : link_fields) (x : sample) (a : draw) : R :=
  let '(c, r, k) := a in
  let q := sqrt (1 / r_xpr y c r) in
  let Fr := lf_rx F c r (at_rx x) in let Ft := lf_tx F c r (at_tx x) in
  match k with
  | 0%nat => fst Fr * fst Ft | 1%nat => q * (fst Fr * snd Ft) | 2%nat => q * (snd Fr * fst Ft) | _ => snd Fr * snd Ft
  end.
Definition ray_weight (g : cgen) (T : ltopo) (y : rays) (F : link_fields) (x : sample) (a : draw) : cplx :=
  cmul (creal (sqrt (nth (fst (fst a)) (r_powers y) 0 / 20) * polar_weight y F x a)) (cexpi (phase_at g T y F (fst (fst a)) (snd (fst a)) x)).

Lemma ray_weighted j1 prx ptx g T y n F fs ph c r u s t :
  make_array j1 prx = Ok (cg_rx g) -> make_array j1 ptx = Ok (cg_tx g) ->
  (u < pa_num_ant (cg_rx g))%nat -> (s < pa_num_ant (cg_tx g))%nat -> 0 < cg_fc g ->
  fields_of g T y n F -> (c < n)%nat -> (r < 20)%nat ->
  nlos_ray g T y (fun i => INR i / fs) ph c r u s t =
  weighted (ray_weight g T y F (At u s (INR t / fs))) (map (fun k => (c, r, k)) (seq 0 4)) ph.
Proof.
  intros Hr Ht Hu Hs P [Fr Ft Fs] Hc Hy. destruct (Ft c r s Hc Hy Hs) as (sent & R1 & R2).
  rewrite (C82_scattered_l j1 prx ptx g T y _ ph c r u s t _ _ _ _ Hr Ht Hu Hs P (Fr c r u Hc Hy Hu) R1 R2 (Fs c r Hc Hy)).
  unfold weighted, ray_weight, polar_weight, phase_at, phasor, steering. cbn [seq map csum fold_right fst snd at_rx at_tx at_time].
  set (A := vdot _ (orient _ (pa_pos (cg_rx g) u)) / _). set (B := vdot _ (orient _ (pa_pos (cg_tx g) s)) / _).
  replace (2 * PI * (A + B + lf_shift F c r * (INR t / fs))) with (2 * PI * A + 2 * PI * B + 2 * PI * lf_shift F c r * (INR t / fs)) by ring.
  rewrite !cexpi_add, !creal_mul. unfold polarised. set (q := sqrt (1 / r_xpr y c r)).
  generalize (cexpi (2 * PI * A)) (cexpi (2 * PI * B)) (cexpi (2 * PI * lf_shift F c r * (INR t / fs))). intros. ring.
Qed.

Lemma path_weighted j1 prx ptx g T y n F fs ph p u s t :
  make_array j1 prx = Ok (cg_rx g) -> make_array j1 ptx = Ok (cg_tx g) ->
  (u < pa_num_ant (cg_rx g))%nat -> (s < pa_num_ant (cg_tx g))%nat -> 0 < cg_fc g ->
  fields_of g T y n F -> (forall c r, In (c, r) (rays_of p) -> (c < n)%nat /\ (r < 20)%nat) ->
  path_sum (nlos_ray g T y (fun i => INR i / fs) ph) p u s t =
  weighted (ray_weight g T y F (At u s (INR t / fs))) (draws_of p) ph.
Proof.
  intros Hr Ht Hu Hs P FO B. unfold path_sum, weighted, draws_of. rewrite flat_map_concat_map, concat_map, map_map, <- flat_map_concat_map.
  rewrite csum_flat. f_equal. apply map_ext_in. intros r I.
  destruct (B (pt_cluster p) r (in_map (pair (pt_cluster p)) _ _ I)) as [B1 B2].
  exact (ray_weighted j1 prx ptx g T y n F fs ph _ r u s t Hr Ht Hu Hs P FO B1 B2).
Qed.

Lemma weights_product g T y F x x' c r : 0 <= nth c (r_powers y) 0 -> 0 < r_xpr y c r ->
  csum (map (fun a => cmul (ray_weight g T y F x a) (cconj (ray_weight g T y F x' a))) (map (fun k => (c, r, k)) (seq 0 4))) =
  ray_correlation g T y F x x' c r.
Proof.
  intros P X. cbn [seq map csum fold_right]. unfold ray_weight, ray_correlation. cbn [fst snd].
  assert (PH : cexpi (phase_between g T y F c r x x') = cmul (cexpi (phase_at g T y F c r x)) (cconj (cexpi (phase_at g T y F c r x')))).
  { rewrite cconj_cexpi, <- cexpi_add. f_equal. unfold phase_between, phase_at. cbv zeta. unfold Rdiv. ring. }
  rewrite PH. set (a := cexpi (phase_at g T y F c r x)). set (b := cexpi (phase_at g T y F c r x')).
  set (m := sqrt (nth c (r_powers y) 0 / 20)).
  assert (M : nth c (r_powers y) 0 / 20 = m * m) by (unfold m; rewrite sqrt_sqrt; lra). rewrite M.
  unfold polarised_power, polar_weight. set (q := sqrt (1 / r_xpr y c r)).
  assert (Q : forall z, z / r_xpr y c r = q * q * z).
  { intros z. unfold q. rewrite sqrt_sqrt by (apply Rlt_le, Rdiv_lt_0_compat; lra). unfold Rdiv. ring. }
  rewrite Q. clearbody m q a b. destruct a as [a1 a2], b as [b1 b2]. apply cplx_eq; cbn; ring.
Qed.

Lemma rays_bound n L p c r : Permutation (flat_map rays_of L) (list_prod (seq 0 n) (seq 0 20)) -> In p L -> In (c, r) (rays_of p) ->
  (c < n)%nat /\ (r < 20)%nat.
Proof.
  intros P Hp I. assert (J : In (c, r) (list_prod (seq 0 n) (seq 0 20))) by (apply (Permutation_in _ P), in_flat_map; exists p; auto).
  apply in_prod_iff in J. rewrite !in_seq in J. lia.
Qed.
Lemma nodup_prod n m : NoDup (list_prod (seq 0 n) (seq 0 m)).
Proof.
  assert (G : forall l : list nat, NoDup l -> NoDup (list_prod l (seq 0 m))).
  { induction l as [|a l IH]; intros H; [constructor|]. inversion H; subst. cbn [list_prod].
    assert (A : forall (l1 l2 : list (nat * nat)), NoDup l1 -> NoDup l2 -> (forall a, In a l1 -> ~ In a l2) -> NoDup (l1 ++ l2)).
    { induction l1 as [|b l1 IH1]; intros l2 N1 N2 D; [exact N2|]. inversion N1; subst. cbn. constructor.
      - intros I. apply in_app_or in I. destruct I as [I|I]; [contradiction|]. apply (D b (or_introl eq_refl) I).
      - apply IH1; [assumption|assumption|]. intros e Hb. apply D. right. exact Hb. }
    apply A; [|auto|].
    - apply FinFun.Injective_map_NoDup; [intros u v [= ->]; reflexivity|apply seq_NoDup].
    - intros [u v] I J. apply in_map_iff in I. destruct I as (w & [= <- <-] & _). apply in_prod_iff in J. tauto. }
  apply G, seq_NoDup.
Qed.

(* correlation of two scattered paths *)
Lemma scattered_correlation j1 prx ptx g T y F fs E L i j u s t u' s' t' :
  let n := length (r_delays y) in
  make_array j1 prx = Ok (cg_rx g) -> make_array j1 ptx = Ok (cg_tx g) -> 0 < cg_fc g ->
  fields_of g T y n F -> uniform_phases n E ->
  (forall c, (c < n)%nat -> 0 <= nth c (r_powers y) 0) -> (forall c r, (c < n)%nat -> (r < 20)%nat -> 0 < r_xpr y c r) ->
  Permutation (flat_map rays_of L) (list_prod (seq 0 n) (seq 0 20)) -> (i < length L)%nat -> (j < length L)%nat ->
  (u < pa_num_ant (cg_rx g))%nat -> (s < pa_num_ant (cg_tx g))%nat -> (u' < pa_num_ant (cg_rx g))%nat -> (s' < pa_num_ant (cg_tx g))%nat ->
  let h k ph := path_sum (nlos_ray g T y (fun i => INR i / fs) ph) (nth k L (whole_cluster 0)) in
  E (fun ph => h i ph u s t) = c0 /\ E (fun ph => cconj (h i ph u s t)) = c0 /\
  mean_product E (fun ph => h i ph u s t) (fun ph => h j ph u' s' t') =
    if Nat.eqb i j then csum (map (fun cr => ray_correlation g T y F (At u s (INR t / fs)) (At u' s' (INR t' / fs)) (fst cr) (snd cr))
                                  (rays_of (nth i L (whole_cluster 0)))) else c0.
Proof.
  cbv zeta. intros Hr Ht FC FO U Pw Xp PL Hi Hj Hu Hs Hu' Hs'. set (n := length (r_delays y)) in *.
  assert (RB : forall k c r, (k < length L)%nat -> In (c, r) (rays_of (nth k L (whole_cluster 0))) -> (c < n)%nat /\ (r < 20)%nat)
    by (intros k c r Hk; apply (rays_bound n L); [exact PL|apply nth_In; exact Hk]).
  assert (LG : forall k a, (k < length L)%nat -> In a (draws_of (nth k L (whole_cluster 0))) -> legal n a).
  { intros k [[c r] m] Hk I. apply in_draws in I. destruct I as [I B]. destruct (RB k c r Hk I). cbn. lia. }
  assert (ND : NoDup (flat_map rays_of L)) by (apply (Permutation_NoDup (Permutation_sym PL)), nodup_prod).
  set (x := At u s (INR t / fs)). set (x' := At u' s' (INR t' / fs)).
  assert (Ei : forall ph, path_sum (nlos_ray g T y (fun i => INR i / fs) ph) (nth i L (whole_cluster 0)) u s t =
    weighted (ray_weight g T y F x) (draws_of (nth i L (whole_cluster 0))) ph)
    by (intros ph; apply (path_weighted j1 prx ptx g T y n F fs ph); auto; intros c r; apply RB; exact Hi).
  assert (Ej : forall ph, path_sum (nlos_ray g T y (fun i => INR i / fs) ph) (nth j L (whole_cluster 0)) u' s' t' =
    weighted (ray_weight g T y F x') (draws_of (nth j L (whole_cluster 0))) ph)
    by (intros ph; apply (path_weighted j1 prx ptx g T y n F fs ph); auto; intros c r; apply RB; exact Hj).
  destruct (weighted_mean n E U (ray_weight g T y F x) (draws_of (nth i L (whole_cluster 0))) (fun a => LG i a Hi)) as [M1 M2].
  split; [rewrite <- M1; apply (up_ext _ _ U); exact Ei|].
  split; [rewrite <- M2; apply (up_ext _ _ U); intros ph; rewrite Ei; reflexivity|].
  unfold mean_product.
  rewrite (up_ext _ _ U _ (fun ph => cmul (weighted (ray_weight g T y F x) (draws_of (nth i L (whole_cluster 0))) ph)
                                       (cconj (weighted (ray_weight g T y F x') (draws_of (nth j L (whole_cluster 0))) ph))))
    by (intros ph; rewrite Ei, Ej; reflexivity).
  destruct (Nat.eqb_spec i j) as [<-|NE].
  - rewrite (weighted_same n E U).
    2: { intros a. apply (LG i a Hi). }
    2: { apply nodup_draws. destruct (nodup_rays_path L i ND); [assumption|lia]. }
    set (p := nth i L (whole_cluster 0)) in *.
    unfold draws_of, rays_of. rewrite flat_map_concat_map, concat_map, map_map, <- flat_map_concat_map, csum_flat, map_map. cbn [fst snd].
    f_equal. apply map_ext_in. intros r I. destruct (RB i (pt_cluster p) r Hi (in_map _ _ _ I)) as [B1 B2].
    apply weights_product; auto.
  - apply (weighted_disjoint n E U).
    + intros a. apply (LG i a Hi).
    + intros a. apply (LG j a Hj).
    + intros [[c r] k] I J. apply in_draws in I. apply in_draws in J. destruct I as [I _], J as [J _].
      exact (disjoint_rays L i j (c, r) ND Hi Hj NE I J).
Qed.

(* ---- the coefficients of a link ---- *)
Lemma nth_combine k (h : coeff) l i u s t : (i < length l)%nat ->
  nth i (combine_los k h l) (fun _ _ _ => c0) u s t =
  cadd (cmul (creal (sqrt (1 / (k + 1)))) (nth i l (fun _ _ _ => c0) u s t))
       (if Nat.eqb i 0 then cmul (creal (sqrt (k / (k + 1)))) (h u s t) else c0).
Proof.
  intros Hi. unfold combine_los. destruct l as [|x l]; [cbn in Hi; lia|]. cbn [map]. destruct i as [|i]; cbn [nth Nat.eqb].
  - unfold add_coeff, scale_coeff. ring.
  - cbn [length] in Hi. rewrite (nth_indep _ _ (scale_coeff (sqrt (1 / (k + 1))) (fun _ _ _ => c0))) by (rewrite map_length; lia).
    rewrite map_nth. unfold scale_coeff. ring.
Qed.

Lemma C83_moments_l : forall srt srtd j1 prx ptx g T K y fs c_ds F E,
  let n := length (r_delays y) in
  valid_argsort srt -> valid_argsort_desc srtd ->
  make_array j1 prx = Ok (cg_rx g) -> make_array j1 ptx = Ok (cg_tx g) -> 0 < cg_fc g -> 0 < K ->
  length (r_powers y) = n -> (2 <= n)%nat ->
  (forall c, (c < n)%nat -> 0 <= nth c (r_powers y) 0) -> (forall c r, (c < n)%nat -> (r < 20)%nat -> 0 < r_xpr y c r) ->
  fields_of g T y n F -> uniform_phases n E ->
  let h ph i := nth i (fst (cir srt srtd g T K y fs c_ds ph)) (fun _ _ _ => c0) in
  let direct := los_ray g T (fun t => INR t / fs) in
  let mean i u s t := if lt_los T && Nat.eqb i 0 then cmul (creal (sqrt (K / (K + 1)))) (direct u s t) else c0 in
  exists L : list path,
    Permutation (flat_map rays_of L) (list_prod (seq 0 n) (seq 0 20)) /\
    length L = (n + if cg_sub g then 4 else 0)%nat /\
    (forall ph, snd (cir srt srtd g T K y fs c_ds ph) = map (fun p => nth (pt_cluster p) (r_delays y) 0 + pt_offset p * c_ds) L /\
                length (fst (cir srt srtd g T K y fs c_ds ph)) = length L) /\
    forall i j u s t u' s' t', (i < length L)%nat -> (j < length L)%nat ->
      (u < pa_num_ant (cg_rx g))%nat -> (s < pa_num_ant (cg_tx g))%nat -> (u' < pa_num_ant (cg_rx g))%nat -> (s' < pa_num_ant (cg_tx g))%nat ->
      E (fun ph => h ph i u s t) = mean i u s t /\
      mean_product E (fun ph => h ph i u s t) (fun ph => h ph j u' s' t') =
        cadd (cmul (mean i u s t) (cconj (mean j u' s' t')))
          (if Nat.eqb i j
           then cmul (creal (if lt_los T then 1 / (K + 1) else 1))
                  (csum (map (fun cr => ray_correlation g T y F (At u s (INR t / fs)) (At u' s' (INR t' / fs)) (fst cr) (snd cr))
                             (rays_of (nth i L (whole_cluster 0)))))
           else c0).
Proof.
  intros srt srtd j1 prx ptx g T K y fs c_ds F E n V VD Hr Ht FC HK EL N Pw Xp FO U. cbv zeta.
  destruct (reduce_uniform srt srtd (cg_sub g) (r_powers y) (r_delays y) c_ds V VD EL N) as (L & PL & LL & RED). fold n in PL, LL.
  exists L. split; [exact PL|]. split; [exact LL|].
  set (ray ph := nlos_ray g T y (fun t => INR t / fs) ph).
  assert (CIR : forall ph, cir srt srtd g T K y fs c_ds ph =
    (if lt_los T then combine_los K (los_ray g T (fun t => INR t / fs)) (map (path_sum (ray ph)) L) else map (path_sum (ray ph)) L,
     map (path_delay (r_delays y) c_ds) L)) by (intros ph; unfold cir, step_11; rewrite RED; reflexivity).
  assert (LC : forall ph, length (fst (cir srt srtd g T K y fs c_ds ph)) = length L).
  { intros ph. rewrite CIR. cbn [fst]. destruct (lt_los T); [|apply map_length].
    unfold combine_los. destruct L; [reflexivity|]. cbn [map length]. rewrite !map_length. reflexivity. }
  split; [intros ph; split; [rewrite CIR; reflexivity|apply LC]|].
  intros i j u s t u' s' t' Hi Hj Hu Hs Hu' Hs'.
  set (w := if lt_los T then sqrt (1 / (K + 1)) else 1).
  set (mean := fun i u s t => if lt_los T && Nat.eqb i 0 then cmul (creal (sqrt (K / (K + 1)))) (los_ray g T (fun t => INR t / fs) u s t) else c0).
  change (E (fun ph => nth i (fst (cir srt srtd g T K y fs c_ds ph)) (fun _ _ _ => c0) u s t) = mean i u s t /\
    mean_product E (fun ph => nth i (fst (cir srt srtd g T K y fs c_ds ph)) (fun _ _ _ => c0) u s t)
      (fun ph => nth j (fst (cir srt srtd g T K y fs c_ds ph)) (fun _ _ _ => c0) u' s' t') =
    cadd (cmul (mean i u s t) (cconj (mean j u' s' t')))
      (if Nat.eqb i j then cmul (creal (if lt_los T then 1 / (K + 1) else 1))
         (csum (map (fun cr => ray_correlation g T y F (At u s (INR t / fs)) (At u' s' (INR t' / fs)) (fst cr) (snd cr))
            (rays_of (nth i L (whole_cluster 0))))) else c0)).
  assert (X : forall k u s t ph, (k < length L)%nat -> nth k (fst (cir srt srtd g T K y fs c_ds ph)) (fun _ _ _ => c0) u s t =
    cadd (cmul (creal w) (path_sum (ray ph) (nth k L (whole_cluster 0)) u s t)) (mean k u s t)).
  { intros k u0 s0 t0 ph Hk. rewrite CIR. cbn [fst]. unfold w, mean.
    assert (NM : nth k (map (path_sum (ray ph)) L) (fun _ _ _ => c0) = path_sum (ray ph) (nth k L (whole_cluster 0))).
    { rewrite (nth_indep _ _ (path_sum (ray ph) (whole_cluster 0))) by (rewrite map_length; exact Hk). apply map_nth. }
    destruct (lt_los T); cbn [andb].
    - rewrite nth_combine by (rewrite map_length; exact Hk). rewrite NM. reflexivity.
    - rewrite NM. change (creal 1) with c1. ring. }
  destruct (scattered_correlation j1 prx ptx g T y F fs E L i j u s t u' s' t' Hr Ht FC FO U Pw Xp PL Hi Hj Hu Hs Hu' Hs') as (M1 & M2 & M3).
  destruct (scattered_correlation j1 prx ptx g T y F fs E L j i u' s' t' u s t Hr Ht FC FO U Pw Xp PL Hj Hi Hu' Hs' Hu Hs) as (_ & M4 & _).
  cbv zeta in M3. fold ray in M1, M2, M3, M4. unfold mean_product in *.
  set (hi := fun ph : ray_phases => path_sum (ray ph) (nth i L (whole_cluster 0)) u s t). set (hj := fun ph : ray_phases => path_sum (ray ph) (nth j L (whole_cluster 0)) u' s' t').
  change (E hi = c0) in M1. change (E (fun ph => cconj (hj ph)) = c0) in M4.
  match type of M3 with _ = ?r => change (E (fun ph => cmul (hi ph) (cconj (hj ph))) = r) in M3 end.
  assert (EX : forall ph : ray_phases, nth i (fst (cir srt srtd g T K y fs c_ds ph)) (fun _ _ _ => c0) u s t = cadd (cmul (creal w) (hi ph)) (mean i u s t))
    by (intros ph; apply X; exact Hi).
  assert (EY : forall ph : ray_phases, nth j (fst (cir srt srtd g T K y fs c_ds ph)) (fun _ _ _ => c0) u' s' t' = cadd (cmul (creal w) (hj ph)) (mean j u' s' t'))
    by (intros ph; apply X; exact Hj).
  split.
  - etransitivity; [apply (up_ext _ _ U _ _ EX)|]. rewrite (up_add _ _ U (fun ph => cmul (creal w) (hi ph)) (fun _ => mean i u s t)).
    rewrite (up_scale _ _ U), M1, (up_const n E U). ring.
  - set (a := mean i u s t). set (b := mean j u' s' t').
    rewrite (up_ext _ _ U _ (fun ph => cadd (cadd (cmul (creal (w * w)) (cmul (hi ph) (cconj (hj ph)))) (cmul (cmul (creal w) (cconj b)) (hi ph)))
      (cadd (cmul (cmul (creal w) a) (cconj (hj ph))) (cmul a (cconj b))))).
    2: { intros ph. rewrite EX, EY. fold a b. generalize (hi ph) (hj ph). intros p q. rewrite creal_mul. destruct a, b, p, q.
         apply cplx_eq; cbn; ring. }
    rewrite (up_add _ _ U (fun ph => cadd (cmul (creal (w * w)) (cmul (hi ph) (cconj (hj ph)))) (cmul (cmul (creal w) (cconj b)) (hi ph)))
      (fun ph => cadd (cmul (cmul (creal w) a) (cconj (hj ph))) (cmul a (cconj b)))).
    rewrite (up_add _ _ U (fun ph => cmul (creal (w * w)) (cmul (hi ph) (cconj (hj ph)))) (fun ph => cmul (cmul (creal w) (cconj b)) (hi ph))).
    rewrite (up_add _ _ U (fun ph => cmul (cmul (creal w) a) (cconj (hj ph))) (fun _ => cmul a (cconj b))).
    rewrite (up_scale _ _ U (creal (w * w)) (fun ph => cmul (hi ph) (cconj (hj ph)))), (up_scale _ _ U (cmul (creal w) (cconj b)) hi),
      (up_scale _ _ U (cmul (creal w) a) (fun ph => cconj (hj ph))), (up_const n E U), M1, M3, M4.
    assert (W : w * w = if lt_los T then 1 / (K + 1) else 1).
    { unfold w. destruct (lt_los T); [|ring]. apply sqrt_sqrt. apply Rlt_le, Rdiv_lt_0_compat; lra. }
    rewrite W. destruct (Nat.eqb i j); ring.
Qed.

(* ---- total mean power ---- *)
Lemma ray_self g T y F u s t c r : ray_correlation g T y F (At u s t) (At u s t) c r =
  creal (nth c (r_powers y) 0 / 20 * polarised_power (r_xpr y c r) (lf_rx F c r u) (lf_rx F c r u) (lf_tx F c r s) (lf_tx F c r s)).
Proof.
  unfold ray_correlation. cbn [at_rx at_tx]. replace (phase_between g T y F c r (At u s t) (At u s t)) with 0.
  - rewrite cexpi_0. ring.
  - unfold phase_between. cbn [at_rx at_tx at_time]. cbv zeta. unfold Rdiv. ring.
Qed.

Lemma csum_creal {A} (f : A -> R) l : csum (map (fun a => creal (f a)) l) = creal (Rsum (map f l)).
Proof.
  induction l as [|a l IH]; [reflexivity|]. cbn [map csum fold_right]. unfold csum in IH. rewrite IH.
  apply cplx_eq; cbn; ring.
Qed.

Lemma csum_indicator (m : nat) (f : nat -> cplx) : (0 < m)%nat ->
  csum (map (fun i => if Nat.eqb i 0 then f i else c0) (seq 0 m)) = f 0%nat.
Proof.
  destruct m as [|m]; [lia|]. intros _. cbn [seq map csum fold_right Nat.eqb].
  assert (Z : csum (map (fun i => if Nat.eqb i 0 then f i else c0) (seq 1 m)) = c0).
  { apply csum_all_zero. intros i I. apply in_seq in I. destruct (Nat.eqb_spec i 0); [lia|reflexivity]. }
  unfold csum in Z. rewrite Z. ring.
Qed.
Lemma map_nth_seq {A B} (f : A -> B) (L : list A) d : map (fun i => f (nth i L d)) (seq 0 (length L)) = map f L.
Proof.
  induction L as [|a L IH]; [reflexivity|]. cbn [length seq map nth]. f_equal. rewrite <- seq_shift, map_map. exact IH.
Qed.

Lemma C83_power_l : forall srt srtd j1 prx ptx g T K y fs c_ds F E u s t,
  let n := length (r_delays y) in
  valid_argsort srt -> valid_argsort_desc srtd ->
  make_array j1 prx = Ok (cg_rx g) -> make_array j1 ptx = Ok (cg_tx g) -> 0 < cg_fc g -> 0 < K ->
  length (r_powers y) = n -> (2 <= n)%nat ->
  (forall c, (c < n)%nat -> 0 <= nth c (r_powers y) 0) -> (forall c r, (c < n)%nat -> (r < 20)%nat -> 0 < r_xpr y c r) ->
  fields_of g T y n F -> uniform_phases n E ->
  (u < pa_num_ant (cg_rx g))%nat -> (s < pa_num_ant (cg_tx g))%nat ->
  let scattered := Rsum (map (fun cr => nth (fst cr) (r_powers y) 0 / 20 *
      polarised_power (r_xpr y (fst cr) (snd cr)) (lf_rx F (fst cr) (snd cr) u) (lf_rx F (fst cr) (snd cr) u)
                      (lf_tx F (fst cr) (snd cr) s) (lf_tx F (fst cr) (snd cr) s)) (list_prod (seq 0 n) (seq 0 20))) in
  let direct := cnorm2 (los_ray g T (fun t => INR t / fs) u s t) in
  E (fun ph => creal (Rsum (map (fun h : coeff => cnorm2 (h u s t)) (fst (cir srt srtd g T K y fs c_ds ph))))) =
  creal (if lt_los T then K / (K + 1) * direct + 1 / (K + 1) * scattered else scattered).
Proof.
  intros srt srtd j1 prx ptx g T K y fs c_ds F E u s t n V VD Hr Ht FC HK EL N Pw Xp FO U Hu Hs. cbv zeta.
  destruct (C83_moments_l srt srtd j1 prx ptx g T K y fs c_ds F E V VD Hr Ht FC HK EL N Pw Xp FO U) as (L & PL & LL & LC & M).
  cbv zeta in M. fold n in PL, LL.
  set (h := fun i (ph : ray_phases) => nth i (fst (cir srt srtd g T K y fs c_ds ph)) (fun _ _ _ => c0) u s t).
  rewrite (up_ext _ _ U _ (fun ph => csum (map (fun i => cmul (h i ph) (cconj (h i ph))) (seq 0 (length L))))).
  2: { intros ph. rewrite <- csum_creal. rewrite <- (map_nth_seq (fun h : coeff => creal (cnorm2 (h u s t))) _ (fun _ _ _ => c0)).
       rewrite (proj2 (LC ph)). f_equal. apply map_ext. intros i. unfold h. rewrite cmul_conj. reflexivity. }
  rewrite (up_sum n E U (fun i ph => cmul (h i ph) (cconj (h i ph)))).
  set (G := fun cr : nat * nat => nth (fst cr) (r_powers y) 0 / 20 *
      polarised_power (r_xpr y (fst cr) (snd cr)) (lf_rx F (fst cr) (snd cr) u) (lf_rx F (fst cr) (snd cr) u)
                      (lf_tx F (fst cr) (snd cr) s) (lf_tx F (fst cr) (snd cr) s)).
  set (q := if lt_los T then 1 / (K + 1) else 1).
  set (dl := los_ray g T (fun t => INR t / fs) u s t).
  transitivity (csum (map (fun i => cadd (if Nat.eqb i 0 then creal (if lt_los T then K / (K + 1) * cnorm2 dl else 0) else c0)
     (cmul (creal q) (csum (map (fun cr => creal (G cr)) (rays_of (nth i L (whole_cluster 0))))))) (seq 0 (length L)))).
  { f_equal. apply map_ext_in. intros i I. apply in_seq in I.
    destruct (M i i u s t u s t ltac:(lia) ltac:(lia) Hu Hs Hu Hs) as [_ Z]. unfold mean_product in Z.
    change (E (fun ph => cmul (h i ph) (cconj (h i ph)))) with
      (E (fun ph => cmul (nth i (fst (cir srt srtd g T K y fs c_ds ph)) (fun _ _ _ => c0) u s t)
                         (cconj (nth i (fst (cir srt srtd g T K y fs c_ds ph)) (fun _ _ _ => c0) u s t)))).
    rewrite Z, Nat.eqb_refl. fold dl q. f_equal.
    - rewrite cmul_conj. destruct (lt_los T); cbn [andb].
      + destruct (Nat.eqb i 0); [|unfold cnorm2; apply cplx_eq; cbn; ring]. rewrite cnorm2_mul, cnorm2_real, sqrt_sqrt; [reflexivity|].
        apply Rlt_le, Rdiv_lt_0_compat; lra.
      + destruct (Nat.eqb i 0); unfold cnorm2; apply cplx_eq; cbn; ring.
    - f_equal. f_equal. apply map_ext. intros [c r]. cbn [fst snd]. apply ray_self. }
  assert (SA : forall (f1 f2 : nat -> cplx) l, csum (map (fun i => cadd (f1 i) (f2 i)) l) = cadd (csum (map f1 l)) (csum (map f2 l))).
  { intros f1 f2 l. induction l as [|a l IH]; [cbn; ring|]. cbn [map csum fold_right]. unfold csum in IH. rewrite IH. ring. }
  rewrite SA, csum_indicator by lia.
  rewrite <- (csum_mul_l (creal q) (fun i => csum (map (fun cr => creal (G cr)) (rays_of (nth i L (whole_cluster 0)))))).
  rewrite (map_nth_seq (fun p => csum (map (fun cr => creal (G cr)) (rays_of p))) L (whole_cluster 0)).
  assert (FL : csum (map (fun p => csum (map (fun cr => creal (G cr)) (rays_of p))) L) = csum (map (fun cr => creal (G cr)) (flat_map rays_of L))).
  { rewrite <- (csum_flat (fun p => map (fun cr => creal (G cr)) (rays_of p)) L). f_equal.
    rewrite !flat_map_concat_map, concat_map, map_map. reflexivity. }
  rewrite FL, (csum_perm _ _ (Permutation_map _ PL)), csum_creal. unfold q. destruct (lt_los T); apply cplx_eq; cbn; ring.
Qed.

(* ---- such means exist ---- *)
Definition phase_grid (n : nat) (f : ray_phases -> cplx) : cplx := grid_mean n 20 4 1 (fun x _ => f (fun c r k => x c r k 0%nat)).
Lemma uniform_exists n : uniform_phases n (phase_grid n).
Proof.
  pose proof (phase_mean_exists_l n 20 4 1) as PM. unfold phase_grid. constructor.
  - intros f g H. apply (pm_ext _ _ _ _ _ PM). intros; apply H.
  - intros f g. apply (pm_add _ _ _ _ _ PM (fun x _ => f (fun c r k => x c r k 0%nat)) (fun x _ => g (fun c r k => x c r k 0%nat))).
  - intros c f. apply (pm_scale _ _ _ _ _ PM c (fun x _ => f (fun c r k => x c r k 0%nat))).
  - apply (pm_one _ _ _ _ _ PM).
  - intros c r k Hc Hr Hk. rewrite <- (pm_los' _ _ _ _ _ PM c r k 0%nat Hc Hr Hk ltac:(lia)). unfold grid_mean. cbv zeta.
    f_equal. apply csumN_ext. intros. f_equal. ring.
  - intros c r k Hc Hr Hk. rewrite <- (pm_los _ _ _ _ _ PM c r k 0%nat Hc Hr Hk ltac:(lia)). unfold grid_mean. cbv zeta.
    f_equal. apply csumN_ext. intros. f_equal. ring.
  - intros c r k c' r' k' Hc Hr Hk Hc' Hr' Hk'. rewrite (pm_pair _ _ _ _ _ PM) by lia. unfold same4. rewrite andb_true_r. reflexivity.
Qed.

(* and the fields of any link whose rays avoid the two array axes *)
Lemma fields_exist j1 prx ptx g T y n : make_array j1 prx = Ok (cg_rx g) -> make_array j1 ptx = Ok (cg_tx g) ->
  (forall c r, (c < n)%nat -> (r < 20)%nat -> off_axis (lt_rx_ori T) (r_zoa y c r) (r_aoa y c r) /\ off_axis (lt_tx_ori T) (r_zod y c r) (r_aod y c r)) ->
  exists F, fields_of g T y n F.
Proof.
  intros Hr Ht O.
  set (a := 108 / (cg_fc g / 1e9 * (cg_fc g / 1e9)) * PI / 180).
  exists (LF (fun c r u => antenna_field (cg_rx g) (lt_rx_ori T) (r_zoa y c r) (r_aoa y c r) u)
             (fun c r s => let f := antenna_field (cg_tx g) (lt_tx_ori T) (r_zod y c r) (r_aod y c r) s in
                           if Rleb 600000 (lt_bs_height T) then turned a f else f)
             (fun c r => (vdot (if lt_moving_rx T then rho_hat (r_zoa y c r) (r_aoa y c r) else rho_hat (r_zod y c r) (r_aod y c r)) (lt_vel T)
                          + (if Rleb 600000 (lt_bs_height T) && lt_doppler T then lt_sat_speed T else 0)) / (299792458 / cg_fc g))).
  constructor; cbn [lf_rx lf_tx lf_shift].
  - intros c r u Hc Hy Hu. apply (antenna_radiates _ _ _ _ _ _ _ Hr Hu). apply O; assumption.
  - intros c r s Hc Hy Hs. eexists. split; [apply (antenna_radiates _ _ _ _ _ _ _ Ht Hs); apply O; assumption|].
    cbv zeta. split; intros H.
    + rewrite (proj2 (Rleb_true _ _) H). reflexivity.
    + rewrite (proj2 (Rleb_false _ _) H). reflexivity.
  - intros c r Hc Hy. eexists. eexists. split; [reflexivity|].
    split; [intros ->; reflexivity|]. split; [intros ->; reflexivity|]. split.
    + intros H ->. rewrite (proj2 (Rleb_true _ _) H). reflexivity.
    + intros [H| ->]; [rewrite (proj2 (Rleb_false _ _) H); reflexivity|]. rewrite andb_false_r. reflexivity.
Qed.
