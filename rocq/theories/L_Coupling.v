(* Lemmas for C107: the random coupling of rays is fair. *)
From Coq Require Import Reals String List Bool Arith Lia Lra Permutation Sorted.
From Verif Require Import M_Base L_Base M_Params S_Config L_Params L_Config M_Geometry M_Pathloss M_Scenario
  M_Lsp S_Topology L_Topology M_Rays S_Rays L_Rays S_Coupling.
Import ListNotations.
Open Scope string_scope.
Open Scope list_scope.
Open Scope R_scope.

Lemma sorted_perm_eq : forall l l', StronglySorted Rle l -> StronglySorted Rle l' -> Permutation l l' -> l = l'.
Proof.
  induction l as [| a l IH]; intros l' S S' P.
  - apply Permutation_nil in P. congruence.
  - destruct l' as [| b l']; [apply Permutation_sym, Permutation_nil in P; discriminate|].
    inversion S as [| ? ? S1 F1]; subst. inversion S' as [| ? ? S2 F2]; subst.
    rewrite Forall_forall in F1, F2.
    assert (E : a = b).
    { assert (Ia : In a (b :: l')) by (apply (Permutation_in a P); left; reflexivity).
      assert (Ib : In b (a :: l)) by (apply (Permutation_in b (Permutation_sym P)); left; reflexivity).
      destruct Ia as [Ia | Ia]; [congruence|]. destruct Ib as [Ib | Ib]; [congruence|].
      apply Rle_antisym; [apply F1, Ib | apply F2, Ia]. }
    subst b. f_equal. apply IH; [exact S1 | exact S2 | exact (Permutation_cons_inv P)].
Qed.

(* the sorted values of a draw *)
Definition lined srt (w : nat -> R) : list R := map (fun q => w (mixing srt w q)) (seq 0 20).

Lemma map_key w n : map (key (map w (seq 0 n))) (seq 0 n) = map w (seq 0 n).
Proof.
  apply map_ext_in. intros i Hi. apply in_seq in Hi. unfold key.
  rewrite nth_indep with (d' := w 0%nat) by (rewrite map_length, seq_length; lia).
  rewrite map_nth, seq_nth by lia. f_equal.
Qed.

Lemma list_tab (l : list nat) n : length l = n -> l = map (fun q => nth q l 0%nat) (seq 0 n).
Proof.
  revert l. induction n as [| n IH]; intros [| a l] L; try discriminate; [reflexivity|].
  cbn [seq map nth]. f_equal. rewrite <- seq_shift, map_map. apply IH. cbn in L. lia.
Qed.

Lemma lined_sorted srt w : valid_argsort srt -> StronglySorted Rle (lined srt w).
Proof.
  intros V. destruct (V (map w (seq 0 rays_per_cluster))) as [P S].
  assert (L : length (srt (map w (seq 0 rays_per_cluster))) = 20%nat).
  { rewrite (Permutation_length P), seq_length, map_length, seq_length. reflexivity. }
  rewrite (list_tab _ _ L), map_map in S.
  replace (lined srt w) with (map (fun x => key (map w (seq 0 rays_per_cluster)) (nth x (srt (map w (seq 0 rays_per_cluster))) 0%nat)) (seq 0 20)); [exact S|].
  unfold lined. apply map_ext_in. intros q Hq. apply in_seq in Hq.
  destruct (mixing_rearr srt w V) as [B _]. assert (Bq := B q ltac:(lia)). fold (mixing srt w q).
  unfold key. rewrite nth_indep with (d' := w 0%nat) by (rewrite map_length, seq_length; exact Bq).
  rewrite map_nth. f_equal. apply seq_nth. exact Bq.
Qed.

Lemma map_rearr_perm (w : nat -> R) n f : rearrangement n f ->
  Permutation (map (fun q => w (f q)) (seq 0 n)) (map w (seq 0 n)).
Proof.
  intros H. rewrite <- (map_map f w). apply Permutation_map, rearr_perm, H.
Qed.

Lemma tab_inj (w w' : nat -> R) n : map w (seq 0 n) = map w' (seq 0 n) -> forall q, (q < n)%nat -> w q = w' q.
Proof.
  intros E q Hq. assert (G : forall v : nat -> R, nth q (map v (seq 0 n)) (v 0%nat) = v q).
  { intros v. rewrite map_nth, seq_nth by exact Hq. reflexivity. }
  rewrite <- (G w), <- (G w'), E. apply nth_indep. rewrite map_length, seq_length. exact Hq.
Qed.

Lemma lined_deals srt v w : valid_argsort srt -> deals 20 v w -> 
  forall q, (q < 20)%nat -> w (mixing srt w q) = v (mixing srt v q).
Proof.
  intros V (g & G & E).
  apply (tab_inj (fun q => w (mixing srt w q)) (fun q => v (mixing srt v q))).
  change (lined srt w = lined srt v). apply sorted_perm_eq; try (apply lined_sorted; exact V).
  unfold lined. rewrite (map_rearr_perm w _ _ (mixing_rearr srt w V)), (map_rearr_perm v _ _ (mixing_rearr srt v V)).
  rewrite (map_ext_in w (fun q => v (g q)) (seq 0 20)).
  - apply map_rearr_perm, G.
  - intros q Hq. apply in_seq in Hq. apply E. lia.
Qed.

Lemma rearr_compose n f g : rearrangement n f -> rearrangement n g -> rearrangement n (fun q => f (g q)).
Proof.
  intros (A1 & A2 & A3) (B1 & B2 & B3). split; [| split].
  - intros r Hr. apply A1, B1, Hr.
  - intros r r' Hr Hr' E. apply B2; try assumption. apply A2; [apply B1 | apply B1 |]; assumption.
  - intros q Hq. destruct (A3 q Hq) as (r & Hr & <-). destruct (B3 r Hr) as (t & Ht & <-). exists t. split; [exact Ht | reflexivity].
Qed.

Lemma rearr_inverse n f : rearrangement n f -> rearrangement n (find_index f n) /\
  (forall q, (q < n)%nat -> f (find_index f n q) = q) /\ (forall q, (q < n)%nat -> find_index f n (f q) = q).
Proof.
  intros (A1 & A2 & A3).
  assert (S : forall q, (q < n)%nat -> (find_index f n q < n)%nat /\ f (find_index f n q) = q) by (intros q Hq; apply find_index_spec, A3, Hq).
  assert (S' : forall q, (q < n)%nat -> find_index f n (f q) = q).
  { intros q Hq. destruct (S (f q) (A1 q Hq)) as [B E]. apply A2; assumption. }
  split; [split; [| split] | split; [intros q Hq; apply S, Hq | exact S']].
  - intros r Hr. apply S, Hr.
  - intros r r' Hr Hr' E. destruct (S r Hr) as [_ E1], (S r' Hr') as [_ E2]. congruence.
  - intros q Hq. exists (f q). split; [apply A1, Hq | apply S', Hq].
Qed.

(* dealing a stock of distinct values out: one deal per arrangement *)
Lemma fair srt : valid_argsort srt -> forall v, distinct_values 20 v -> forall f, rearrangement 20 f ->
  exists w, deals 20 v w /\ (forall q, (q < 20)%nat -> mixing srt w q = f q) /\
    forall w', deals 20 v w' -> (forall q, (q < 20)%nat -> mixing srt w' q = f q) -> forall q, (q < 20)%nat -> w' q = w q.
Proof.
  intros V v D f F.
  destruct (rearr_inverse _ _ F) as (I & I1 & I2).
  assert (M := mixing_rearr srt v V).
  set (w := fun y => v (mixing srt v (find_index f 20 y))).
  assert (DW : deals 20 v w).
  { exists (fun y => mixing srt v (find_index f 20 y)). split; [apply (rearr_compose _ _ _ M I)|]. intros q Hq. reflexivity. }
  exists w. split; [exact DW|]. split.
  - intros q Hq. assert (E := lined_deals srt v w V DW q Hq). unfold w in E at 1.
    destruct (mixing_rearr srt w V) as [B _]. assert (Bq := B q Hq).
    destruct I as (J1 & J2 & J3). destruct M as (M1 & M2 & M3).
    apply D in E; [| apply M1, J1, Bq | apply M1, Hq]. apply M2 in E; [| apply J1, Bq | exact Hq].
    assert (K := I1 _ Bq). rewrite E in K. symmetry. exact K.
  - intros w' DW' E q Hq. unfold w.
    assert (Bq : (find_index f 20 q < 20)%nat) by (apply I; exact Hq).
    rewrite <- (lined_deals srt v w' V DW' _ Bq), (E _ Bq), (I1 q Hq). reflexivity.
Qed.

(* C107 *)
Lemma C107_fair_l srt : valid_argsort srt -> exists A : (nat -> R) -> nat -> nat,
  (forall w, rearrangement 20 (A w)) /\
  (forall v, distinct_values 20 v -> forall f, rearrangement 20 f ->
     exists w, deals 20 v w /\ (forall q, (q < 20)%nat -> A w q = f q) /\
       forall w', deals 20 v w' -> (forall q, (q < 20)%nat -> A w' q = f q) -> forall q, (q < 20)%nat -> w' q = w q) /\
  forall sc st a dr st' mask lsps d rr,
  constructed sc -> set_topology sc st a dr = (st', Ok true) ->
  compute_clusters_mask st' = Ok mask -> gen_rays srt st' mask lsps d = Ok rr ->
  forall b s u r, rr b s u = Some r ->
  exists aoa aod zoa zod : nat -> nat -> R,
  forall m1 m2 m3 m4, exists rr' r',
    gen_rays srt st' mask lsps (recoupled d m1 m2 m3 m4) = Ok rr' /\ rr' b s u = Some r' /\
    r_delays r' = r_delays r /\ r_powers r' = r_powers r /\ (forall c q, r_xpr r' c q = r_xpr r c q) /\
    forall c q, (q < 20)%nat ->
      r_aoa r' c q = aoa c (A (m1 b s c) q) /\ r_aod r' c q = aod c (A (m2 b s c) q) /\
      r_zoa r' c q = zoa c (A (m3 b s c) q) /\ r_zod r' c q = zod c (A (m4 b s c) q).
Proof.
  intros V. exists (mixing srt). split; [intros w; apply mixing_rearr, V|]. split; [exact (fair srt V)|].
  intros sc st a dr st' mask lsps d rr Hc H HM HG b s u r Hr.
  destruct (make_ready _ _ _ _ _ Hc H) as (ls & los & g & ind & bs & mask' & RD).
  assert (mask' = mask) by (assert (E := rd_mask _ _ _ _ _ _ _ _ RD); congruence). subst mask'.
  destruct (link_angles _ _ _ _ _ _ _ _ _ _ _ _ b s u r RD HG Hr) as (L & Hi & Q1 & Q2 & Q3 & Q4 & Q5).
  pose (base m (x : nat -> nat -> R) c y := x c (find_index (mixing srt (m b s c)) 20 y)).
  exists (base (ad_mix (rd_aoa d)) (r_aoa r)), (base (ad_mix (rd_aod d)) (r_aod r)),
    (base (ad_mix (rd_zoa d)) (r_zoa r)), (base (ad_mix (rd_zod d)) (r_zod r)). intros m1 m2 m3 m4.
  assert (HG' := gen_ready _ _ _ _ _ _ _ _ srt lsps (recoupled d m1 m2 m3 m4) RD).
  destruct (link_rays_outdoor _ _ _ _ _ _ _ _ _ _ _ _ b s u RD HG Hi) as (r0 & Hr0 & D & P & _).
  assert (r0 = r) by congruence. subst r0.
  destruct (link_rays_outdoor _ _ _ _ _ _ _ _ _ _ _ _ b s u RD HG' Hi) as (r' & Hr' & D' & P' & _).
  cbn [recoupled rd_x rd_shadow] in D', P'. assert (EP : r_powers r' = r_powers r) by congruence.
  destruct (link_angles _ _ _ _ _ _ _ _ _ _ _ _ b s u r' RD HG' Hr') as (L' & _ & Q1' & Q2' & Q3' & Q4' & Q5').
  do 2 eexists. split; [exact HG'|]. split; [exact Hr'|]. split; [congruence|]. split; [exact EP|].
  split; [intros c q; rewrite Q5, Q5'; reflexivity|].
  intros c q Hq. rewrite Q1', Q2', Q3', Q4', EP. cbn [recoupled rd_aoa rd_aod rd_zoa rd_zod ad_sign ad_comp ad_mix].
  assert (INV : forall (m m' : nat -> nat -> nat -> nat -> R), mixing srt (m b s c) (find_index (mixing srt (m b s c)) 20 (mixing srt (m' b s c) q)) = mixing srt (m' b s c) q).
  { intros m m'. apply (rearr_inverse _ _ (mixing_rearr srt (m b s c) V)). apply (mixing_rearr srt (m' b s c) V), Hq. }
  unfold base. rewrite Q1, Q2, Q3, Q4, !INV. repeat split; reflexivity.
Qed.

(* every combination of arrangements is reached, from stocks given in advance *)
Lemma C107_reach_l sc st a dr st' mask srt lsps d rr : constructed sc -> set_topology sc st a dr = (st', Ok true) ->
  compute_clusters_mask st' = Ok mask -> valid_argsort srt -> gen_rays srt st' mask lsps d = Ok rr ->
  forall v, distinct_values 20 v -> forall f1 f2 f3 f4 : nat -> nat -> nat -> nat -> nat,
  (forall b s c, rearrangement 20 (f1 b s c) /\ rearrangement 20 (f2 b s c) /\ rearrangement 20 (f3 b s c) /\ rearrangement 20 (f4 b s c)) ->
  exists d' rr',
    rd_x d' = rd_x d /\ rd_shadow d' = rd_shadow d /\ rd_xpr d' = rd_xpr d /\
    ad_sign (rd_aoa d') = ad_sign (rd_aoa d) /\ ad_comp (rd_aoa d') = ad_comp (rd_aoa d) /\
    ad_sign (rd_aod d') = ad_sign (rd_aod d) /\ ad_comp (rd_aod d') = ad_comp (rd_aod d) /\
    ad_sign (rd_zoa d') = ad_sign (rd_zoa d) /\ ad_comp (rd_zoa d') = ad_comp (rd_zoa d) /\
    ad_sign (rd_zod d') = ad_sign (rd_zod d) /\ ad_comp (rd_zod d') = ad_comp (rd_zod d) /\
    (forall b s c, deals 20 v (ad_mix (rd_aoa d') b s c) /\ deals 20 v (ad_mix (rd_aod d') b s c) /\
       deals 20 v (ad_mix (rd_zoa d') b s c) /\ deals 20 v (ad_mix (rd_zod d') b s c)) /\
    gen_rays srt st' mask lsps d' = Ok rr' /\
    forall b s u r, rr b s u = Some r -> exists r', rr' b s u = Some r' /\
      r_delays r' = r_delays r /\ r_powers r' = r_powers r /\ (forall c q, r_xpr r' c q = r_xpr r c q) /\
      forall c q, (q < 20)%nat ->
        r_aoa r' c q = r_aoa r c (f1 b s c q) /\ r_aod r' c q = r_aod r c (f2 b s c q) /\
        r_zoa r' c q = r_zoa r c (f3 b s c q) /\ r_zod r' c q = r_zod r c (f4 b s c q).
Proof.
  intros Hc H HM V HG v D f1 f2 f3 f4 F.
  (* the deal whose mixing is the old mixing after f *)
  pose (deal (w : nat -> R) (f : nat -> nat) := fun y => v (mixing srt v (find_index (fun q => mixing srt w (f q)) 20 y))).
  assert (DL : forall w f, rearrangement 20 f -> deals 20 v (deal w f) /\ forall q, (q < 20)%nat -> mixing srt (deal w f) q = mixing srt w (f q)).
  { intros w f Hf. assert (C := rearr_compose _ _ _ (mixing_rearr srt w V) Hf).
    destruct (rearr_inverse _ _ C) as (I & I1 & I2). assert (M := mixing_rearr srt v V).
    assert (DW : deals 20 v (deal w f)).
    { exists (fun y => mixing srt v (find_index (fun q => mixing srt w (f q)) 20 y)). split; [apply (rearr_compose _ _ _ M I)|]. intros q Hq. reflexivity. }
    split; [exact DW|]. intros q Hq. assert (E := lined_deals srt v _ V DW q Hq). unfold deal in E at 1.
    destruct (mixing_rearr srt (deal w f) V) as [B _]. assert (Bq := B q Hq).
    destruct I as (J1 & J2 & J3). destruct M as (M1 & M2 & M3).
    apply D in E; [| apply M1, J1, Bq | apply M1, Hq]. apply M2 in E; [| apply J1, Bq | exact Hq].
    assert (K := I1 _ Bq). rewrite E in K. symmetry. exact K. }
  pose (d' := recoupled d (fun b s c => deal (ad_mix (rd_aoa d) b s c) (f1 b s c)) (fun b s c => deal (ad_mix (rd_aod d) b s c) (f2 b s c))
     (fun b s c => deal (ad_mix (rd_zoa d) b s c) (f3 b s c)) (fun b s c => deal (ad_mix (rd_zod d) b s c) (f4 b s c))).
  destruct (make_ready _ _ _ _ _ Hc H) as (ls & los & g & ind & bs & mask' & RD).
  assert (mask' = mask) by (assert (E := rd_mask _ _ _ _ _ _ _ _ RD); congruence). subst mask'.
  assert (HG' := gen_ready _ _ _ _ _ _ _ _ srt lsps d' RD).
  exists d'. eexists.
  do 11 (split; [reflexivity|]).
  split; [intros b s c; destruct (F b s c) as (F1 & F2 & F3 & F4); repeat split; apply DL; assumption|].
  split; [exact HG'|].
  intros b s u r Hr.
  destruct (link_angles _ _ _ _ _ _ _ _ _ _ _ _ b s u r RD HG Hr) as (L & Hi & Q1 & Q2 & Q3 & Q4 & Q5).
  destruct (link_rays_outdoor _ _ _ _ _ _ _ _ _ _ _ _ b s u RD HG Hi) as (r0 & Hr0 & D0 & P & _).
  assert (r0 = r) by congruence. subst r0.
  destruct (link_rays_outdoor _ _ _ _ _ _ _ _ _ _ _ _ b s u RD HG' Hi) as (r' & Hr' & D' & P' & _).
  cbn [d' recoupled rd_x rd_shadow] in D', P'. assert (EP : r_powers r' = r_powers r) by congruence.
  destruct (link_angles _ _ _ _ _ _ _ _ _ _ _ _ b s u r' RD HG' Hr') as (L' & _ & Q1' & Q2' & Q3' & Q4' & Q5').
  exists r'. split; [exact Hr'|]. split; [congruence|]. split; [exact EP|].
  split; [intros c q; rewrite Q5, Q5'; reflexivity|].
  intros c q Hq. destruct (F b s c) as (F1 & F2 & F3 & F4).
  rewrite Q1', Q2', Q3', Q4', EP. unfold d'. cbn [recoupled rd_aoa rd_aod rd_zoa rd_zod ad_sign ad_comp ad_mix].
  destruct (DL (ad_mix (rd_aoa d) b s c) _ F1) as [_ G1], (DL (ad_mix (rd_aod d) b s c) _ F2) as [_ G2],
    (DL (ad_mix (rd_zoa d) b s c) _ F3) as [_ G3], (DL (ad_mix (rd_zod d) b s c) _ F4) as [_ G4].
  rewrite (G1 q Hq), (G2 q Hq), (G3 q Hq), (G4 q Hq), Q1, Q2, Q3, Q4. repeat split; reflexivity.
Qed.

(* concrete stock and deal *)
Lemma C107_example_l : distinct_values 20 INR /\ rearrangement 20 (fun q => 19 - q)%nat /\
  deals 20 INR (fun q => INR (19 - q)) /\ valid_argsort argsort.
Proof.
  assert (RV : rearrangement 20 (fun q => 19 - q)%nat).
  { split; [| split]; [intros; lia | intros; lia |]. intros q Hq. exists (19 - q)%nat. lia. }
  split; [intros i j _ _ E; apply INR_eq, E|]. split; [exact RV|].
  split; [exists (fun q => 19 - q)%nat; split; [exact RV | reflexivity]|]. exact argsort_valid.
Qed.
