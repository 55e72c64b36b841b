From Coq Require Import Reals String List Bool Arith ZArith Lia Lra Permutation.
From Verif Require Import M_Base L_Base M_Params M_Antenna S_Antenna L_Trig.
Import ListNotations.
Open Scope string_scope.
Open Scope list_scope.
Open Scope R_scope.

Lemma for_range_S {A} n (body : nat -> A -> A) a : for_range (S n) body a = body n (for_range n body a).
Proof. unfold for_range. rewrite seq_S, fold_left_app. reflexivity. Qed.

Lemma for_range_ind {A} (P : nat -> A -> Prop) n (body : nat -> A -> A) a :
  P 0%nat a -> (forall i x, (i < n)%nat -> P i x -> P (S i) (body i x)) -> P n (for_range n body a).
Proof.
  intros H0 HS. induction n as [|n IH]; [exact H0|].
  rewrite for_range_S. apply HS; [lia|]. apply IH. intros; apply HS; auto; lia.
Qed.

Lemma idx_inj rows i j i' j' : (i < rows)%nat -> (i' < rows)%nat ->
  (i + j * rows = i' + j' * rows)%nat -> i = i' /\ j = j'.
Proof.
  intros H H' E.
  assert (A : ((i + j * rows) mod rows = (i' + j' * rows) mod rows)%nat) by (rewrite E; reflexivity).
  rewrite !Nat.mod_add, !Nat.mod_small in A by lia. split; [exact A|]. subst i'. nia.
Qed.

Lemma panel_grid rows cols (v h : R) i j : (i < rows)%nat -> (j < cols)%nat ->
  for_range rows (fun i a => for_range cols (fun j a =>
     write a (i + j * rows) (V3 0 (INR j * h) (- INR i * v))) a) zeros (i + j * rows)%nat
  = V3 0 (INR j * h) (- INR i * v).
Proof.
  set (spec := fun i j => V3 0 (INR j * h) (- INR i * v)).
  assert (G : forall i j, (i < rows)%nat -> (j < cols)%nat ->
    for_range rows (fun i a => for_range cols (fun j a => write a (i + j * rows) (spec i j)) a) zeros (i + j * rows)%nat = spec i j).
  { apply (for_range_ind (fun I a => forall i j, (i < I)%nat -> (j < cols)%nat -> a (i + j * rows)%nat = spec i j)).
    - intros; lia.
    - intros I a HI H.
      assert (K : (forall i j, (i < I)%nat -> (j < cols)%nat ->
           for_range cols (fun j a => write a (I + j * rows) (spec I j)) a (i + j * rows)%nat = spec i j)
        /\ (forall j, (j < cols)%nat ->
           for_range cols (fun j a => write a (I + j * rows) (spec I j)) a (I + j * rows)%nat = spec I j)).
      { apply (for_range_ind (fun J a => (forall i j, (i < I)%nat -> (j < cols)%nat -> a (i + j * rows)%nat = spec i j)
              /\ (forall j, (j < J)%nat -> a (I + j * rows)%nat = spec I j))).
        - split; [exact H|intros; lia].
        - intros J b HJ [H1 H2]. split.
          + intros i0 j0 Hi Hj. unfold write. destruct (Nat.eqb_spec (i0 + j0 * rows) (I + J * rows)) as [E|E].
            * apply idx_inj in E; lia.
            * auto.
          + intros j0 Hj. unfold write. destruct (Nat.eqb_spec (I + j0 * rows) (I + J * rows)) as [E|E].
            * apply idx_inj in E; try lia. destruct E as [_ ->]. reflexivity.
            * apply H2. assert (j0 <> J) by (intros ->; lia). lia. }
      destruct K as [K1 K2]. intros i0 j0 Hi Hj.
      destruct (Nat.eq_dec i0 I) as [->|N]; [auto|]. apply K1; lia. }
  intros; apply G; assumption.
Qed.

Lemma panel_position rows cols (dual : bool) v h q i j :
  (i < rows)%nat -> (j < cols)%nat -> (q < (if dual then 2 else 1))%nat ->
  panel_pos rows cols dual v h (q * (rows * cols) + (j * rows + i))%nat =
  V3 0 ((INR j - (INR cols - 1) / 2) * h) (((INR rows - 1) / 2 - INR i) * v).
Proof.
  intros Hi Hj Hq.
  assert (B : (j * rows + i < rows * cols)%nat) by nia.
  assert (base : forall k, k = (j * rows + i)%nat ->
    vadd (for_range rows (fun i a => for_range cols (fun j a =>
       write a (i + j * rows) (V3 0 (INR j * h) (- INR i * v))) a) zeros k)
     (V3 0 (- (INR cols - 1) * h / 2) ((INR rows - 1) * v / 2)) =
     V3 0 ((INR j - (INR cols - 1) / 2) * h) (((INR rows - 1) / 2 - INR i) * v)).
  { intros k ->. replace (j * rows + i)%nat with (i + j * rows)%nat by lia.
    rewrite panel_grid by assumption. unfold vadd; cbn [vx vy vz]. f_equal; lra. }
  unfold panel_pos. destruct dual.
  - unfold write_slice. destruct q as [|[|q]]; [| |lia].
    + replace (Nat.leb (rows * cols) (0 * (rows * cols) + (j * rows + i))) with false
        by (symmetry; apply Nat.leb_gt; lia). cbn [andb]. apply base. lia.
    + replace (Nat.leb (rows * cols) (1 * (rows * cols) + (j * rows + i))) with true
        by (symmetry; apply Nat.leb_le; lia).
      replace (Nat.ltb (1 * (rows * cols) + (j * rows + i)) (rows * cols * 2)) with true
        by (symmetry; apply Nat.ltb_lt; lia). cbn [andb]. apply base. lia.
  - destruct q as [|q]; [|lia]. apply base. lia.
Qed.

Lemma lt_block x y e n : (x < y)%nat -> (e < n)%nat -> (x * n + e < y * n)%nat.
Proof. intros A B. assert ((x + 1) * n <= y * n)%nat by (apply Nat.mul_le_mono_r; lia). lia. Qed.

Lemma array_grid rows cols npa (pos : buffer) (pv ph : R) :
  let r := for_range cols (fun j ac =>
      for_range rows (fun i ac =>
        let '(a, count) := ac in
        (write_slice a (count * npa) ((count + 1) * npa)
           (fun n => vadd (pos n) (V3 0 (INR j * ph) (- INR i * pv))), (count + 1)%nat)) ac) (zeros, 0%nat) in
  forall pi pj e, (pi < rows)%nat -> (pj < cols)%nat -> (e < npa)%nat ->
  fst r ((pj * rows + pi) * npa + e)%nat = vadd (pos e) (V3 0 (INR pj * ph) (- INR pi * pv)).
Proof.
  cbv zeta.
  set (spec := fun pj pi e => vadd (pos e) (V3 0 (INR pj * ph) (- INR pi * pv))).
  set (body := fun j i (ac : buffer * nat) => let '(a, count) := ac in
        (write_slice a (count * npa) ((count + 1) * npa) (spec j i), (count + 1)%nat)).
  change (forall pi pj e, (pi < rows)%nat -> (pj < cols)%nat -> (e < npa)%nat ->
    fst (for_range cols (fun j ac => for_range rows (body j) ac) (zeros, 0%nat)) ((pj * rows + pi) * npa + e)%nat
     = spec pj pi e).
  assert (G : snd (for_range cols (fun j ac => for_range rows (body j) ac) (zeros, 0%nat)) = (cols * rows)%nat /\
     forall pi pj e, (pi < rows)%nat -> (pj < cols)%nat -> (e < npa)%nat ->
    fst (for_range cols (fun j ac => for_range rows (body j) ac) (zeros, 0%nat)) ((pj * rows + pi) * npa + e)%nat
     = spec pj pi e).
  { apply (for_range_ind (fun J ac => snd ac = (J * rows)%nat /\ forall pi pj e, (pi < rows)%nat -> (pj < J)%nat -> (e < npa)%nat ->
       fst ac ((pj * rows + pi) * npa + e)%nat = spec pj pi e)).
    - split; [reflexivity|intros; lia].
    - intros J ac HJ [Hc H].
      assert (K : snd (for_range rows (body J) ac) = (J * rows + rows)%nat /\
        (forall pi pj e, (pi < rows)%nat -> (pj < J)%nat -> (e < npa)%nat ->
          fst (for_range rows (body J) ac) ((pj * rows + pi) * npa + e)%nat = spec pj pi e) /\
        (forall pi e, (pi < rows)%nat -> (e < npa)%nat ->
          fst (for_range rows (body J) ac) ((J * rows + pi) * npa + e)%nat = spec J pi e)).
      { apply (for_range_ind (fun I ac => snd ac = (J * rows + I)%nat /\
          (forall pi pj e, (pi < rows)%nat -> (pj < J)%nat -> (e < npa)%nat ->
             fst ac ((pj * rows + pi) * npa + e)%nat = spec pj pi e) /\
          (forall pi e, (pi < I)%nat -> (e < npa)%nat ->
             fst ac ((J * rows + pi) * npa + e)%nat = spec J pi e))).
        - split; [lia|]. split; [exact H|intros; lia].
        - intros I [a count] HI (C & H1 & H2). cbn [fst snd] in *. subst count. unfold body; cbn [fst snd].
          split; [lia|]. unfold write_slice. split.
          + intros pi pj e A1 A2 A3.
            replace (Nat.leb ((J * rows + I) * npa) ((pj * rows + pi) * npa + e)) with false; [cbn [andb]; auto|].
            symmetry; apply Nat.leb_gt. apply lt_block; [|assumption]. pose proof (lt_block pj J pi rows A2 A1). lia.
          + intros pi e A1 A2. destruct (Nat.eq_dec pi I) as [->|N].
            * replace (Nat.leb ((J * rows + I) * npa) ((J * rows + I) * npa + e)) with true
                by (symmetry; apply Nat.leb_le; lia).
              replace (Nat.ltb ((J * rows + I) * npa + e) ((J * rows + I + 1) * npa)) with true
                by (symmetry; apply Nat.ltb_lt; nia).
              cbn [andb]. f_equal. lia.
            * replace (Nat.leb ((J * rows + I) * npa) ((J * rows + pi) * npa + e)) with false; [cbn [andb]; apply H2; lia|].
              symmetry; apply Nat.leb_gt. apply lt_block; lia. }
      destruct K as (K0 & K1 & K2). split; [etransitivity; [exact K0|lia]|].
      intros pi pj e A1 A2 A3. destruct (Nat.eq_dec pj J) as [->|N]; [auto|apply K1; lia]. }
  exact (proj2 G).
Qed.

Lemma array_position rows cols rpp cpp (dual : bool) pv ph ev eh lambda pi pj q i j :
  (pi < rows)%nat -> (pj < cols)%nat -> (q < (if dual then 2 else 1))%nat -> (i < rpp)%nat -> (j < cpp)%nat ->
  array_pos rows cols rpp cpp dual pv ph ev eh lambda
    ((pj * rows + pi) * (rpp * cpp * (if dual then 2 else 1)) + (q * (rpp * cpp) + (j * rpp + i)))%nat =
  documented_position rows cols rpp cpp pv ph ev eh lambda pi pj i j.
Proof.
  intros A1 A2 A3 A4 A5. unfold array_pos.
  set (npa := (rpp * cpp * (if dual then 2 else 1))%nat).
  set (pos := panel_pos rpp cpp dual ev eh).
  pose proof (array_grid rows cols npa pos pv ph) as G. cbv zeta in G.
  match goal with |- context [for_range cols ?b ?z] => set (r := for_range cols b z) end.
  change (forall pi pj e, (pi < rows)%nat -> (pj < cols)%nat -> (e < npa)%nat ->
    fst r ((pj * rows + pi) * npa + e)%nat = vadd (pos e) (V3 0 (INR pj * ph) (- INR pi * pv))) in G.
  destruct r as [a c] eqn:Er. cbn [fst] in G.
  assert (j * rpp + i < rpp * cpp)%nat by nia.
  rewrite G by (try assumption; unfold npa; destruct dual; nia).
  unfold pos. rewrite panel_position by assumption.
  unfold documented_position, vscale, vadd; cbn [vx vy vz]. f_equal; lra.
Qed.

(* every index is of that form *)
Lemma index_decompose rows cols rpp cpp pn n :
  (n < cols * rows * (cpp * rpp * pn))%nat ->
  exists pi pj q i j, (pi < rows)%nat /\ (pj < cols)%nat /\ (q < pn)%nat /\ (i < rpp)%nat /\ (j < cpp)%nat /\
    n = ((pj * rows + pi) * (rpp * cpp * pn) + (q * (rpp * cpp) + (j * rpp + i)))%nat.
Proof.
  intros H.
  assert (Z : (rows <> 0 /\ cols <> 0 /\ rpp <> 0 /\ cpp <> 0 /\ pn <> 0)%nat).
  { repeat split; intros ->; rewrite ?Nat.mul_0_r, ?Nat.mul_0_l in H; try lia;
      cbn in H; rewrite ?Nat.mul_0_r in H; lia. }
  destruct Z as (Z1 & Z2 & Z3 & Z4 & Z5).
  set (w := (rpp * cpp)%nat). assert (W : (w <> 0)%nat) by (unfold w; nia).
  set (npa := (w * pn)%nat). assert (N : (npa <> 0)%nat) by (unfold npa; nia).
  pose (c := (n / npa)%nat). pose (e := (n mod npa)%nat).
  assert (E1 : n = (c * npa + e)%nat) by (unfold c, e; rewrite (Nat.mul_comm (n / npa)); apply Nat.div_mod; exact N).
  assert (E2 : (e < npa)%nat) by (apply Nat.mod_upper_bound; exact N).
  assert (C : (c < cols * rows)%nat).
  { unfold c. apply Nat.div_lt_upper_bound; [exact N|]. unfold npa, w. nia. }
  exists (c mod rows)%nat, (c / rows)%nat, (e / w)%nat, ((e mod w) mod rpp)%nat, ((e mod w) / rpp)%nat.
  assert (F1 : c = (c / rows * rows + c mod rows)%nat) by (rewrite (Nat.mul_comm (c / rows)); apply Nat.div_mod; exact Z1).
  assert (F2 : e = (e / w * w + e mod w)%nat) by (rewrite (Nat.mul_comm (e / w)); apply Nat.div_mod; exact W).
  assert (F3 : (e mod w = (e mod w) / rpp * rpp + (e mod w) mod rpp)%nat)
    by (rewrite (Nat.mul_comm ((e mod w) / rpp)); apply Nat.div_mod; exact Z3).
  assert (F4 : (e mod w < w)%nat) by (apply Nat.mod_upper_bound; exact W).
  repeat split.
  - apply Nat.mod_upper_bound; exact Z1.
  - apply Nat.div_lt_upper_bound; [exact Z1|]. lia.
  - apply Nat.div_lt_upper_bound; [exact W|]. unfold npa in E2. exact E2.
  - apply Nat.mod_upper_bound; exact Z3.
  - apply Nat.div_lt_upper_bound; [exact Z3|]. exact F4.
  - rewrite <- F3, <- F2, <- F1. exact E1.
Qed.

(* ---- what a successful construction contains ---- *)
Lemma make_element_ok j1 pat s e : make_element j1 pat s = Ok e -> el_slant e = s.
Proof.
  unfold make_element.
  destruct (String.eqb pat "omni"); [intros [= <-]; reflexivity|].
  destruct (String.eqb pat "38.901"); [intros [= <-]; reflexivity|].
  destruct (String.eqb pat "aperture"); [intros [= <-]; reflexivity|].
  destruct (String.eqb pat "dlp"); [intros [= <-]; reflexivity|discriminate].
Qed.

Record built (p : array_args) (a : panel_array) (dual : bool) (pv ph ev eh lambda : R) : Prop := {
  bt_pol : ar_pol p = (if dual then "dual" else "single");
  bt_dual : pa_dual a = dual;
  bt_num : pa_num_ant a = (ar_cols p * ar_rows p * (ar_cols_pp p * ar_rows_pp p * (if dual then 2 else 1)))%nat;
  bt_pos : pa_pos a = array_pos (ar_rows p) (ar_cols p) (ar_rows_pp p) (ar_cols_pp p) dual pv ph ev eh lambda;
  bt_ind1 : pa_ind1 a = strided_rows (ar_cols p * ar_rows p * (if dual then 2 else 1)) (ar_cols_pp p * ar_rows_pp p) 0 (if dual then 2 else 1);
  bt_ind2 : pa_ind2 a = if dual then strided_rows (ar_cols p * ar_rows p * 2) (ar_cols_pp p * ar_rows_pp p) 1 2 else [];
  bt_h : (INR (ar_cols_pp p) - 1) * eh < ph;
  bt_v : (INR (ar_rows_pp p) - 1) * ev < pv;
  bt_type : ar_type p = pa_type a /\ (if dual then ar_type p = "VH" \/ ar_type p = "cross" else ar_type p = "V" \/ ar_type p = "H");
  bt_slant1 : el_slant (pa_pol1 a) = (if dual then - PI / 4 else if String.eqb (ar_type p) "V" then 0 else PI / 2);
  bt_slant2 : if dual then exists e, pa_pol2 a = Some e /\ el_slant e = - PI / 4 + PI / 2 else pa_pol2 a = None }.

Lemma make_array_built j1 p a : make_array j1 p = Ok a ->
  built p a (negb (String.eqb (ar_pol p) "single"))
    (default (ar_panel_v p) ((INR (ar_rows_pp p) - 1) * default (ar_elem_v p) 0.5 + 0.5))
    (default (ar_panel_h p) ((INR (ar_cols_pp p) - 1) * default (ar_elem_h p) 0.5 + 0.5))
    (default (ar_elem_v p) 0.5) (default (ar_elem_h p) 0.5) (speed_of_light / ar_fc p).
Proof.
  unfold make_array.
  destruct (String.eqb_spec (ar_pol p) "single") as [Es|Es]; cbn [negb orb].
  - set (ev := default (ar_elem_v p) 0.5). set (eh := default (ar_elem_h p) 0.5).
    set (pv := default (ar_panel_v p) _). set (ph := default (ar_panel_h p) _).
    destruct (Rltb _ ph) eqn:Eh; cbn [negb]; [|discriminate].
    destruct (Rltb _ pv) eqn:Ev; cbn [negb]; [|discriminate].
    destruct (String.eqb_spec (ar_type p) "V") as [T|T]; cbn [negb orb].
    + destruct (make_element j1 (ar_pattern p) 0) as [e|e] eqn:M; cbn [bind]; [|discriminate].
      destruct (Nat.eqb _ 0); [discriminate|]. intros [= <-].
      apply make_element_ok in M. apply Rltb_true in Eh, Ev.
      constructor; cbn; auto. rewrite T. exact M.
    + destruct (String.eqb_spec (ar_type p) "H") as [T'|T']; cbn [negb]; [|discriminate].
      destruct (make_element j1 (ar_pattern p) _) as [e|e] eqn:M; cbn [bind]; [|discriminate].
      destruct (Nat.eqb _ 0); [discriminate|]. intros [= <-].
      apply make_element_ok in M. apply Rltb_true in Eh, Ev.
      constructor; cbn; auto. rewrite M, T'. reflexivity.
  - destruct (String.eqb_spec (ar_pol p) "dual") as [Ed|Ed]; cbn [negb]; [|discriminate].
    set (ev := default (ar_elem_v p) 0.5). set (eh := default (ar_elem_h p) 0.5).
    set (pv := default (ar_panel_v p) _). set (ph := default (ar_panel_h p) _).
    destruct (Rltb _ ph) eqn:Eh; cbn [negb]; [|discriminate].
    destruct (Rltb _ pv) eqn:Ev; cbn [negb]; [|discriminate].
    destruct (String.eqb (ar_type p) "VH" || String.eqb (ar_type p) "cross") eqn:T; cbn [negb]; [|discriminate].
    replace (String.eqb (ar_pol p) "VH") with false by (rewrite Ed; reflexivity).
    destruct (make_element j1 (ar_pattern p) (- PI / 4)) as [e|e] eqn:M; cbn [bind]; [|discriminate].
    destruct (make_element j1 (ar_pattern p) (- PI / 4 + PI / 2)) as [e'|e'] eqn:M'; cbn [bind]; [|discriminate].
    destruct (Nat.eqb _ 0); [discriminate|]. intros [= <-].
    apply make_element_ok in M. apply make_element_ok in M'. apply Rltb_true in Eh, Ev.
    apply orb_true_iff in T. rewrite !String.eqb_eq in T.
    constructor; cbn; eauto.
Qed.

(* ---- index sets ---- *)
Lemma strided_filter N w s st :
  strided_rows N w s st =
  filter (fun x => Nat.leb s (x / w) && Nat.eqb ((x / w - s) mod st) 0) (seq 0 (N * w)).
Proof.
  unfold strided_rows. induction N as [|N IH]; [reflexivity|].
  rewrite seq_S, filter_app, flat_map_app, IH. cbn [Nat.add].
  replace (S N * w)%nat with (N * w + w)%nat by lia. rewrite seq_app, filter_app. f_equal.
  assert (C : forall k, (k < w)%nat -> ((N * w + k) / w = N)%nat).
  { intros k Hk. rewrite Nat.div_add_l by lia. rewrite Nat.div_small by lia. lia. }
  set (t := fun r => Nat.leb s r && Nat.eqb ((r - s) mod st) 0).
  change (flat_map (fun r => map (fun k => (r * w + k)%nat) (seq 0 w)) (filter t [N]) =
    filter (fun x => t (x / w)%nat) (seq (0 + N * w) w)).
  cbn [filter].
  assert (S1 : seq (0 + N * w) w = map (fun k => (N * w + k)%nat) (seq 0 w)).
  { cbn [Nat.add]. clear. generalize (N * w)%nat as b. intros b.
    assert (G : forall n a c, seq (c + a) n = map (fun k => (c + k)%nat) (seq a n)).
    { induction n as [|n IHn]; intros a c; [reflexivity|]. cbn. f_equal. replace (S (c + a)) with (c + S a)%nat by lia. apply IHn. }
    replace b with (b + 0)%nat at 1 by lia. apply G. }
  rewrite S1.
  assert (F : forall l, (forall k, In k l -> (k < w)%nat) ->
     filter (fun x => t (x / w)%nat) (map (fun k => (N * w + k)%nat) l) =
     if t N then map (fun k => (N * w + k)%nat) l else []).
  { induction l as [|k l IHl]; intros B; [destruct (t N); reflexivity|].
    cbn [map filter]. rewrite C by (apply B; left; reflexivity). rewrite IHl by (intros; apply B; right; assumption).
    destruct (t N); reflexivity. }
  rewrite F by (intros k Hk; apply in_seq in Hk; lia).
  destruct (t N); cbn [flat_map]; [apply app_nil_r|reflexivity].
Qed.

Lemma strided_in N w s st x : In x (strided_rows N w s st) <->
  ((x < N * w)%nat /\ (s <= x / w)%nat /\ ((x / w - s) mod st = 0)%nat).
Proof.
  rewrite strided_filter, filter_In, in_seq, andb_true_iff, Nat.leb_le, Nat.eqb_eq. intuition lia.
Qed.

Lemma strided_nodup N w s st : NoDup (strided_rows N w s st).
Proof. rewrite strided_filter. apply NoDup_filter, seq_NoDup. Qed.

Lemma even_odd_rows n :
  filter (fun r => Nat.leb 0 r && Nat.eqb ((r - 0) mod 2) 0) (seq 0 (n * 2)) = map (fun r => (r * 2 + 0)%nat) (seq 0 n) /\
  filter (fun r => Nat.leb 1 r && Nat.eqb ((r - 1) mod 2) 0) (seq 0 (n * 2)) = map (fun r => (r * 2 + 1)%nat) (seq 0 n).
Proof.
  set (t := fun s r => Nat.leb s r && Nat.eqb ((r - s) mod 2) 0).
  assert (T00 : forall n, t 0%nat (n * 2)%nat = true).
  { intros m. unfold t. rewrite Nat.sub_0_r, Nat.mod_mul by lia. reflexivity. }
  assert (T01 : forall n, t 0%nat (S (n * 2)) = false).
  { intros m. unfold t. replace (S (m * 2) - 0)%nat with (1 + m * 2)%nat by lia. rewrite Nat.mod_add by lia. reflexivity. }
  assert (T10 : forall n, t 1%nat (n * 2)%nat = false).
  { intros m. unfold t. destruct m as [|m]; [reflexivity|]. replace (S m * 2 - 1)%nat with (1 + m * 2)%nat by lia.
    rewrite Nat.mod_add by lia. apply andb_false_r. }
  assert (T11 : forall n, t 1%nat (S (n * 2)) = true).
  { intros m. unfold t. replace (S (m * 2) - 1)%nat with (m * 2)%nat by lia. rewrite Nat.mod_mul by lia. reflexivity. }
  change (filter (t 0%nat) (seq 0 (n * 2)) = map (fun r => (r * 2 + 0)%nat) (seq 0 n) /\
    filter (t 1%nat) (seq 0 (n * 2)) = map (fun r => (r * 2 + 1)%nat) (seq 0 n)).
  clearbody t. induction n as [|n [IH1 IH2]]; [split; reflexivity|].
  replace (S n * 2)%nat with (S (S (n * 2))) by lia. rewrite !seq_S, !filter_app, !map_app, IH1, IH2.
  cbn [Nat.add filter]. rewrite T00, T01, T10, T11. cbn [map]. rewrite !app_nil_r.
  split; f_equal; f_equal; lia.
Qed.

Lemma array_partition j1 p a : make_array j1 p = Ok a ->
  partitions (pa_num_ant a) (pa_ind1 a) (pa_ind2 a) /\
  length (pa_ind1 a) = (ar_rows p * ar_cols p * ar_rows_pp p * ar_cols_pp p)%nat /\
  length (pa_ind2 a) = (if pa_dual a then length (pa_ind1 a) else 0%nat).
Proof.
  intros H. apply make_array_built in H.
  set (dual := negb (String.eqb (ar_pol p) "single")) in H.
  rewrite (bt_num _ _ _ _ _ _ _ _ H), (bt_ind1 _ _ _ _ _ _ _ _ H), (bt_ind2 _ _ _ _ _ _ _ _ H), (bt_dual _ _ _ _ _ _ _ _ H).
  set (P := (ar_cols p * ar_rows p)%nat). set (w := (ar_cols_pp p * ar_rows_pp p)%nat).
  assert (LEN : forall st s n, length (flat_map (fun r => map (fun k => (r * w + k)%nat) (seq 0 w)) (map (fun r => (r * st + s)%nat) (seq 0 n))) = (n * w)%nat).
  { intros st s n.
    assert (G : forall b, length (flat_map (fun r => map (fun k => (r * w + k)%nat) (seq 0 w)) (map (fun r => (r * st + s)%nat) (seq b n))) = (n * w)%nat).
    { induction n as [|n IH]; intros b; [reflexivity|].
      cbn [seq map flat_map]. rewrite app_length, map_length, seq_length, IH. lia. }
    apply G. }
  destruct dual.
  - split.
    + repeat split; try apply strided_nodup.
      * intros k [A B]. rewrite strided_in in A, B. destruct A as (_ & _ & A). destruct B as (_ & B1 & B2).
        rewrite Nat.sub_0_r in A. apply Nat.mod_divides in A; [|lia]. apply Nat.mod_divides in B2; [|lia].
        destruct A, B2. lia.
      * intros K. rewrite !strided_in, Nat.sub_0_r.
        assert (K' : (k < P * 2 * w)%nat) by (revert K; unfold P, w; nia).
        pose proof (Nat.mod_upper_bound (k / w) 2 ltac:(lia)).
        pose proof (Nat.div_mod (k / w) 2 ltac:(lia)) as D.
        destruct ((k / w) mod 2) as [|[|]] eqn:E; [left|right|lia].
        { repeat split; [exact K'|lia]. }
        { repeat split; [exact K'|lia|]. replace (k / w - 1)%nat with ((k / w / 2) * 2)%nat by lia. apply Nat.mod_mul. lia. }
      * intros [A|A]; apply strided_in in A; destruct A as [A _]; revert A; unfold P, w; nia.
    + pose proof even_odd_rows as E.
      unfold strided_rows. rewrite (proj1 (E P)), (proj2 (E P)), !LEN. split; [unfold P, w; lia|reflexivity].
  - split.
    + repeat split; try apply strided_nodup; try constructor.
      * intros k [_ []].
      * apply strided_in. rewrite Nat.mod_1_r. split; [|lia]. revert H0. unfold P, w. nia.
      * intros [A|[]]. apply strided_in in A; destruct A as [A _]; revert A; unfold P, w; nia.
    + split; [|reflexivity]. unfold strided_rows.
      assert (E : forall n, filter (fun r => Nat.leb 0 r && Nat.eqb ((r - 0) mod 1) 0) (seq 0 n) = seq 0 n).
      { intros n.
        assert (G : forall b, filter (fun r => Nat.leb 0 r && Nat.eqb ((r - 0) mod 1) 0) (seq b n) = seq b n).
        { induction n as [|n IH]; intros b; [reflexivity|].
          cbn [seq filter]. rewrite Nat.mod_1_r. cbn [Nat.leb Nat.eqb andb]. rewrite IH. reflexivity. }
        apply G. }
      rewrite E. rewrite Nat.mul_1_r.
      assert (L : forall n b, length (flat_map (fun r => map (fun k => (r * w + k)%nat) (seq 0 w)) (seq b n)) = (n * w)%nat).
      { induction n as [|n IH]; intros b; [reflexivity|]. cbn [seq flat_map]. rewrite app_length, map_length, seq_length, IH. lia. }
      rewrite L. unfold P, w; lia.
Qed.

(* ---- geometry ---- *)
Definition in_pol (a : panel_array) (q k : nat) : Prop :=
  (q = 0%nat /\ In k (pa_ind1 a)) \/ (q = 1%nat /\ In k (pa_ind2 a)).

Lemma pol_of_index j1 p a pi pj q i j : make_array j1 p = Ok a ->
  (pi < ar_rows p)%nat -> (pj < ar_cols p)%nat -> (q < (if pa_dual a then 2 else 1))%nat ->
  (i < ar_rows_pp p)%nat -> (j < ar_cols_pp p)%nat ->
  let n := ((pj * ar_rows p + pi) * (ar_rows_pp p * ar_cols_pp p * (if pa_dual a then 2 else 1))
     + (q * (ar_rows_pp p * ar_cols_pp p) + (j * ar_rows_pp p + i)))%nat in
  (n < pa_num_ant a)%nat /\ forall q', in_pol a q' n <-> q' = q.
Proof.
  intros H A1 A2 A3 A4 A5. apply make_array_built in H.
  set (dual := negb (String.eqb (ar_pol p) "single")) in H. unfold in_pol.
  rewrite (bt_num _ _ _ _ _ _ _ _ H), (bt_ind1 _ _ _ _ _ _ _ _ H), (bt_ind2 _ _ _ _ _ _ _ _ H).
  rewrite (bt_dual _ _ _ _ _ _ _ _ H) in *.
  assert (B : (j * ar_rows_pp p + i < ar_rows_pp p * ar_cols_pp p)%nat) by nia.
  pose proof (lt_block pj (ar_cols p) pi (ar_rows p) A2 A1) as B2.
  set (c := (pj * ar_rows p + pi)%nat) in *.
  set (w := (ar_rows_pp p * ar_cols_pp p)%nat) in *.
  set (e := (j * ar_rows_pp p + i)%nat) in *.
  replace (ar_cols_pp p * ar_rows_pp p)%nat with w by (unfold w; lia).
  set (P := (ar_cols p * ar_rows p)%nat) in *. cbv zeta.
  destruct dual.
  - replace (c * (w * 2) + (q * w + e))%nat with ((c * 2 + q) * w + e)%nat by lia.
    assert (D : (((c * 2 + q) * w + e) / w = c * 2 + q)%nat)
      by (rewrite Nat.div_add_l by lia; rewrite Nat.div_small by lia; lia).
    assert (N : ((c * 2 + q) * w + e < P * 2 * w)%nat) by (apply lt_block; lia).
    split; [lia|]. intros q'. rewrite !strided_in, D. split.
    + intros [[-> (_ & _ & A)]|[-> (_ & B1 & A)]]; apply Nat.mod_divides in A; try lia; destruct A; lia.
    + intros ->. destruct q as [|[|q]]; [left|right|lia].
      * repeat split; [exact N|lia|]. replace (c * 2 + 0 - 0)%nat with (c * 2)%nat by lia. apply Nat.mod_mul; lia.
      * repeat split; [exact N|lia|]. replace (c * 2 + 1 - 1)%nat with (c * 2)%nat by lia. apply Nat.mod_mul; lia.
  - assert (q = 0)%nat by lia. subst q.
    replace (c * (w * 1) + (0 * w + e))%nat with (c * w + e)%nat by lia.
    assert (N : (c * w + e < P * 1 * w)%nat) by (apply lt_block; lia).
    split; [lia|]. intros q'. rewrite strided_in. split.
    + intros [[-> _]|[_ []]]. reflexivity.
    + intros ->. left. rewrite Nat.mod_1_r. repeat split; [exact N|lia].
Qed.

Lemma C39_positions_l j1 p a : make_array j1 p = Ok a ->
  let ev := match ar_elem_v p with Some x => x | None => 0.5 end in
  let eh := match ar_elem_h p with Some x => x | None => 0.5 end in
  let pv := match ar_panel_v p with Some x => x | None => (INR (ar_rows_pp p) - 1) * ev + 0.5 end in
  let ph := match ar_panel_h p with Some x => x | None => (INR (ar_cols_pp p) - 1) * eh + 0.5 end in
  let pn := if pa_dual a then 2%nat else 1%nat in
  pa_dual a = String.eqb (ar_pol p) "dual" /\
  pa_num_ant a = (ar_rows_pp p * ar_cols_pp p * ar_rows p * ar_cols p * pn)%nat /\
  (forall pi pj q i j, (pi < ar_rows p)%nat -> (pj < ar_cols p)%nat -> (q < pn)%nat ->
     (i < ar_rows_pp p)%nat -> (j < ar_cols_pp p)%nat ->
     let n := ((pj * ar_rows p + pi) * (ar_rows_pp p * ar_cols_pp p * pn)
        + (q * (ar_rows_pp p * ar_cols_pp p) + (j * ar_rows_pp p + i)))%nat in
     (n < pa_num_ant a)%nat /\
     pa_pos a n = documented_position (ar_rows p) (ar_cols p) (ar_rows_pp p) (ar_cols_pp p) pv ph ev eh
                    (speed_of_light / ar_fc p) pi pj i j /\
     (In n (pa_ind1 a) <-> q = 0%nat) /\ (In n (pa_ind2 a) <-> q = 1%nat)) /\
  (forall n, (n < pa_num_ant a)%nat -> exists pi pj q i j,
     (pi < ar_rows p)%nat /\ (pj < ar_cols p)%nat /\ (q < pn)%nat /\
     (i < ar_rows_pp p)%nat /\ (j < ar_cols_pp p)%nat /\
     n = ((pj * ar_rows p + pi) * (ar_rows_pp p * ar_cols_pp p * pn)
        + (q * (ar_rows_pp p * ar_cols_pp p) + (j * ar_rows_pp p + i)))%nat).
Proof.
  intros H0 ev eh pv ph pn. pose proof H0 as H. apply make_array_built in H.
  set (dual := negb (String.eqb (ar_pol p) "single")) in H.
  pose proof (bt_dual _ _ _ _ _ _ _ _ H) as Hd. pose proof (bt_num _ _ _ _ _ _ _ _ H) as Hn.
  pose proof (bt_pol _ _ _ _ _ _ _ _ H) as Hp.
  split; [rewrite Hd, Hp; destruct dual; reflexivity|].
  split; [unfold pn; rewrite Hn, Hd; destruct dual; lia|].
  split.
  - intros pi pj q i j A1 A2 A3 A4 A5 n.
    pose proof (pol_of_index j1 p a pi pj q i j H0 A1 A2 A3 A4 A5) as K. cbv zeta in K.
    change (n < pa_num_ant a /\ (forall q', in_pol a q' n <-> q' = q))%nat in K.
    destruct K as [K1 K2]. split; [exact K1|]. split.
    + rewrite (bt_pos _ _ _ _ _ _ _ _ H). unfold n, pn in *. rewrite Hd in *.
      rewrite array_position by assumption. reflexivity.
    + unfold in_pol in K2. pose proof (K2 0%nat) as KA. pose proof (K2 1%nat) as KB.
      split; split; intros X; try (symmetry; apply KA; left; split; [reflexivity|exact X]).
      * subst q. destruct (proj2 KA eq_refl) as [[_ Y]|[Y _]]; [exact Y|discriminate].
      * symmetry. apply KB. right. split; [reflexivity|exact X].
      * subst q. destruct (proj2 KB eq_refl) as [[Y _]|[_ Y]]; [discriminate|exact Y].
  - intros n L. rewrite Hn in L. rewrite <- Hd in L. fold pn in L. apply index_decompose in L. exact L.
Qed.

Lemma sumR_block A B f : sumR (A * B) f = sumR A (fun x => sumR B (fun y => f (x * B + y)%nat)).
Proof.
  induction A as [|A IH]; [reflexivity|].
  replace (S A * B)%nat with (A * B + B)%nat by lia. rewrite sumR_split, IH. reflexivity.
Qed.

Lemma sum_centre n c : sumR n (fun k => (INR k - (INR n - 1) / 2) * c) = 0.
Proof.
  assert (G : forall m a, sumR m (fun k => (INR k - a) * c) = (INR m * (INR m - 1) / 2 - INR m * a) * c).
  { intros m a. induction m as [|m IH].
    - cbn. lra.
    - change (sumR (S m) (fun k => (INR k - a) * c)) with (sumR m (fun k => (INR k - a) * c) + (INR m - a) * c).
      rewrite IH, S_INR. field. }
  rewrite G. field.
Qed.

Lemma C39_centred_l j1 p a : make_array j1 p = Ok a ->
  centred (pa_num_ant a) (pa_pos a) /\ forall n, (n < pa_num_ant a)%nat -> vx (pa_pos a n) = 0.
Proof.
  intros H. pose proof (C39_positions_l _ _ _ H) as K. cbv zeta in K.
  destruct K as (_ & Hn & K & D).
  set (pn := if pa_dual a then 2%nat else 1%nat) in *.
  set (rows := ar_rows p) in *. set (cols := ar_cols p) in *.
  set (rpp := ar_rows_pp p) in *. set (cpp := ar_cols_pp p) in *.
  set (ev := match ar_elem_v p with Some x => x | None => 0.5 end) in *.
  set (eh := match ar_elem_h p with Some x => x | None => 0.5 end) in *.
  set (pv := match ar_panel_v p with Some x => x | None => _ end) in *.
  set (ph := match ar_panel_h p with Some x => x | None => _ end) in *.
  set (lam := speed_of_light / ar_fc p) in *.
  assert (X : forall n, (n < pa_num_ant a)%nat -> vx (pa_pos a n) = 0).
  { intros n L. destruct (D n L) as (pi & pj & q & i & j & A1 & A2 & A3 & A4 & A5 & ->).
    destruct (K pi pj q i j A1 A2 A3 A4 A5) as (_ & -> & _). reflexivity. }
  split; [|exact X].
  assert (S5 : forall g : vec3 -> R, sumR (pa_num_ant a) (fun k => g (pa_pos a k)) =
     sumR cols (fun pj => sumR rows (fun pi => sumR pn (fun q => sumR cpp (fun j => sumR rpp (fun i =>
        g (documented_position rows cols rpp cpp pv ph ev eh lam pi pj i j))))))).
  { intros g. rewrite Hn. replace (rpp * cpp * rows * cols * pn)%nat with (cols * rows * (pn * (cpp * rpp)))%nat by lia.
    rewrite sumR_block, sumR_block. apply sumR_ext; intros pj Hj. apply sumR_ext; intros pi Hi.
    rewrite sumR_block. apply sumR_ext; intros q Hq. rewrite sumR_block.
    apply sumR_ext; intros j Hjj. apply sumR_ext; intros i Hii.
    destruct (K pi pj q i j Hi Hj Hq Hii Hjj) as (_ & E & _).
    rewrite <- E. f_equal. f_equal. lia. }
  split; [apply sumR_zero; exact X|]. split.
  - rewrite S5. unfold documented_position. cbn [vy].
    transitivity (sumR cols (fun pj => (INR pj - (INR cols - 1) / 2) * (INR rows * (INR pn * (INR cpp * (INR rpp * (lam * ph))))))).
    + apply sumR_ext; intros pj _. rewrite !sumR_const.
      rewrite (sumR_ext cpp _ (fun j => INR rpp * (lam * ((INR pj - (INR cols - 1) / 2) * ph)) + (INR j - (INR cpp - 1) / 2) * (INR rpp * (lam * eh)))).
      2:{ intros j _. rewrite sumR_const. ring. }
      rewrite sumR_plus, sumR_const, sum_centre. ring.
    + apply sum_centre.
  - rewrite S5. unfold documented_position. cbn [vz].
    apply sumR_zero. intros pj _.
    transitivity (sumR rows (fun pi => (INR pi - (INR rows - 1) / 2) * (- (INR pn * (INR cpp * (INR rpp * (lam * pv))))))).
    + apply sumR_ext; intros pi _. rewrite !sumR_const.
      rewrite (sumR_ext rpp _ (fun i => lam * (((INR rows - 1) / 2 - INR pi) * pv) + (INR i - (INR rpp - 1) / 2) * (- (lam * ev)))).
      2:{ intros i _. ring. }
      rewrite sumR_plus, sumR_const, sum_centre. ring.
    + apply sum_centre.
Qed.

(* grid coordinates are injective when blocks do not overlap *)
Lemma block_inj (n : nat) (big small : R) (a a' b b' : nat) : 0 < small -> (INR n - 1) * small < big ->
  (b < n)%nat -> (b' < n)%nat ->
  INR a * big + INR b * small = INR a' * big + INR b' * small -> a = a' /\ b = b'.
Proof.
  intros S B Hb Hb' E.
  assert (X : forall u u' v v' : nat, (v < n)%nat -> (v' < n)%nat -> (u < u')%nat ->
     INR u * big + INR v * small = INR u' * big + INR v' * small -> False).
  { intros u u' v v' Hv Hv' U F.
    assert (0 < big). { assert (1 <= INR n) by (apply (le_INR 1); lia). nra. }
    assert (INR u + 1 <= INR u') by (rewrite <- S_INR; apply le_INR; lia).
    assert (INR v + 1 <= INR n) by (rewrite <- S_INR; apply le_INR; lia).
    pose proof (pos_INR v').
    assert (big <= (INR u' - INR u) * big) by nra.
    assert (INR v * small <= (INR n - 1) * small) by (apply Rmult_le_compat_r; lra).
    assert (0 <= INR v' * small) by (apply Rmult_le_pos; lra). lra. }
  destruct (lt_eq_lt_dec a a') as [[L | ->]|L].
  - exfalso; exact (X _ _ _ _ Hb Hb' L E).
  - split; [reflexivity|]. apply INR_eq. nra.
  - exfalso; exact (X _ _ _ _ Hb' Hb L (eq_sym E)).
Qed.

Lemma C39_distinct_l j1 p a n m : make_array j1 p = Ok a -> 0 < ar_fc p ->
  (forall v, ar_elem_v p = Some v -> 0 < v) -> (forall v, ar_elem_h p = Some v -> 0 < v) ->
  (In n (pa_ind1 a) /\ In m (pa_ind1 a)) \/ (In n (pa_ind2 a) /\ In m (pa_ind2 a)) ->
  pa_pos a n = pa_pos a m -> n = m.
Proof.
  intros H Hf Hev Heh HP E.
  pose proof (array_partition _ _ _ H) as [(_ & _ & _ & PT) _].
  assert (Ln : (n < pa_num_ant a)%nat) by (apply PT; tauto).
  assert (Lm : (m < pa_num_ant a)%nat) by (apply PT; tauto).
  pose proof (make_array_built _ _ _ H) as B.
  pose proof (bt_h _ _ _ _ _ _ _ _ B) as Bh. pose proof (bt_v _ _ _ _ _ _ _ _ B) as Bv.
  pose proof (C39_positions_l _ _ _ H) as K. cbv zeta in K.
  destruct K as (_ & Hn & K & D).
  set (pn := if pa_dual a then 2%nat else 1%nat) in *.
  unfold default in Bh, Bv.
  assert (Pv : 0 < match ar_elem_v p with Some x => x | None => 0.5 end) by (destruct (ar_elem_v p); [auto|lra]).
  assert (Ph : 0 < match ar_elem_h p with Some x => x | None => 0.5 end) by (destruct (ar_elem_h p); [auto|lra]).
  set (ev := match ar_elem_v p with Some x => x | None => 0.5 end) in *.
  set (eh := match ar_elem_h p with Some x => x | None => 0.5 end) in *.
  set (pv := match ar_panel_v p with Some x => x | None => _ end) in *.
  set (ph := match ar_panel_h p with Some x => x | None => _ end) in *.
  assert (Hl : 0 < speed_of_light / ar_fc p) by (apply Rdiv_lt_0_compat; [unfold speed_of_light; lra|exact Hf]).
  set (lam := speed_of_light / ar_fc p) in *.
  destruct (D n Ln) as (pi & pj & q & i & j & A1 & A2 & A3 & A4 & A5 & En).
  destruct (D m Lm) as (pi' & pj' & q' & i' & j' & A1' & A2' & A3' & A4' & A5' & Em).
  destruct (K pi pj q i j A1 A2 A3 A4 A5) as (_ & P1 & I1 & I2). rewrite <- En in P1, I1, I2.
  destruct (K pi' pj' q' i' j' A1' A2' A3' A4' A5') as (_ & P1' & I1' & I2'). rewrite <- Em in P1', I1', I2'.
  assert (Q : q = q') by (destruct HP as [[X Y]|[X Y]]; [rewrite (proj1 I1 X), (proj1 I1' Y)|rewrite (proj1 I2 X), (proj1 I2' Y)]; reflexivity).
  rewrite P1, P1' in E. unfold documented_position in E. injection E as Ey Ez.
  apply Rmult_eq_reg_l in Ey; [|lra]. apply Rmult_eq_reg_l in Ez; [|lra].
  destruct (block_inj (ar_cols_pp p) ph eh pj pj' j j' Ph Bh A5 A5') as [-> ->]; [lra|].
  destruct (block_inj (ar_rows_pp p) pv ev pi pi' i i' Pv Bv A4 A4') as [-> ->]; [lra|].
  rewrite En, Em, Q. reflexivity.
Qed.

Lemma C39_pairs_l j1 p a : make_array j1 p = Ok a -> pa_dual a = true ->
  map (pa_pos a) (pa_ind1 a) = map (pa_pos a) (pa_ind2 a).
Proof.
  intros H HD. pose proof (make_array_built _ _ _ H) as B.
  pose proof (C39_positions_l _ _ _ H) as K. cbv zeta in K. destruct K as (_ & Hn & K & D).
  assert (Ed : negb (String.eqb (ar_pol p) "single") = true) by (rewrite <- (bt_dual _ _ _ _ _ _ _ _ B); exact HD).
  rewrite Ed in B. rewrite HD in *.
  pose proof (array_partition _ _ _ H) as [_ [L1 L2]]. rewrite HD in L2.
  rewrite (bt_ind1 _ _ _ _ _ _ _ _ B), (bt_ind2 _ _ _ _ _ _ _ _ B).
  set (P := (ar_cols p * ar_rows p)%nat). set (w := (ar_cols_pp p * ar_rows_pp p)%nat).
  assert (G : forall n, (n <= P)%nat -> map (pa_pos a) (strided_rows (n * 2) w 0 2) = map (pa_pos a) (strided_rows (n * 2) w 1 2)).
  { induction n as [|n IH]; intros Hle; [reflexivity|].
    assert (ST : forall s, (s < 2)%nat -> strided_rows (S n * 2) w s 2 = strided_rows (n * 2) w s 2 ++ map (fun k => ((n * 2 + s) * w + k)%nat) (seq 0 w)).
    { intros s Hs. unfold strided_rows.
      destruct (even_odd_rows (S n)) as [E1 E2]. destruct (even_odd_rows n) as [F1 F2].
      destruct s as [|[|s]]; [rewrite E1, F1|rewrite E2, F2|lia];
        rewrite seq_S, map_app, flat_map_app; cbn [Nat.add map flat_map]; rewrite app_nil_r; reflexivity. }
    rewrite !ST, !map_app by lia. f_equal; [apply IH; lia|]. rewrite !map_map. apply map_ext_in.
    intros k Hk. apply in_seq in Hk.
    assert (Z : (ar_rows p <> 0 /\ ar_rows_pp p <> 0)%nat).
    { unfold w, P in *. split; intros X; rewrite X in *; lia. }
    destruct Z as [Z1 Z2].
    assert (P1 : (n mod ar_rows p < ar_rows p)%nat) by (apply Nat.mod_upper_bound; lia).
    assert (P2 : (n / ar_rows p < ar_cols p)%nat) by (apply Nat.div_lt_upper_bound; [lia|unfold P in Hle; lia]).
    assert (P3 : (k mod ar_rows_pp p < ar_rows_pp p)%nat) by (apply Nat.mod_upper_bound; lia).
    assert (P4 : (k / ar_rows_pp p < ar_cols_pp p)%nat) by (apply Nat.div_lt_upper_bound; [lia|unfold w in Hk; lia]).
    pose proof (Nat.div_mod n (ar_rows p) ltac:(lia)) as N1. pose proof (Nat.div_mod k (ar_rows_pp p) ltac:(lia)) as N2.
    destruct (K (n mod ar_rows p) (n / ar_rows p) 0 (k mod ar_rows_pp p) (k / ar_rows_pp p) P1 P2 ltac:(lia) P3 P4)%nat as (_ & Q0 & _).
    destruct (K (n mod ar_rows p) (n / ar_rows p) 1 (k mod ar_rows_pp p) (k / ar_rows_pp p) P1 P2 ltac:(lia) P3 P4)%nat as (_ & Q1 & _).
    replace (n / ar_rows p * ar_rows p + n mod ar_rows p)%nat with n in Q0, Q1 by lia.
    replace (k / ar_rows_pp p * ar_rows_pp p + k mod ar_rows_pp p)%nat with k in Q0, Q1 by lia.
    replace (ar_rows_pp p * ar_cols_pp p)%nat with w in Q0, Q1 by (unfold w; lia).
    replace ((n * 2 + 0) * w + k)%nat with (n * (w * 2) + (0 * w + k))%nat by lia.
    replace ((n * 2 + 1) * w + k)%nat with (n * (w * 2) + (1 * w + k))%nat by lia.
    rewrite Q0, Q1. reflexivity. }
  apply G. lia.
Qed.

(* ---- slants ---- *)
Lemma C41_l j1 p a : make_array j1 p = Ok a ->
  (ar_type p = "V" -> el_slant (pa_pol1 a) = 0 /\ pa_pol2 a = None) /\
  (ar_type p = "H" -> el_slant (pa_pol1 a) = PI / 2 /\ pa_pol2 a = None) /\
  (ar_type p = "cross" -> el_slant (pa_pol1 a) = - (PI / 4) /\
     exists e, pa_pol2 a = Some e /\ el_slant e = PI / 4) /\
  (ar_type p = "V" \/ ar_type p = "H" \/ ar_type p = "VH" \/ ar_type p = "cross").
Proof.
  intros H. apply make_array_built in H.
  set (dual := negb (String.eqb (ar_pol p) "single")) in H.
  pose proof (bt_type _ _ _ _ _ _ _ _ H) as [_ T]. pose proof (bt_slant1 _ _ _ _ _ _ _ _ H) as S1.
  pose proof (bt_slant2 _ _ _ _ _ _ _ _ H) as S2.
  destruct dual.
  - split; [intros E; rewrite E in T; destruct T; discriminate|].
    split; [intros E; rewrite E in T; destruct T; discriminate|].
    split; [|tauto]. intros E. rewrite S1. split; [lra|]. destruct S2 as (e & A & B). exists e. split; [exact A|]. rewrite B. lra.
  - split; [intros E; rewrite E in S1; split; [exact S1|exact S2]|].
    split; [intros E; rewrite E in S1; split; [exact S1|exact S2]|].
    split; [intros E; rewrite E in T; destruct T; discriminate|]. tauto.
Qed.

Lemma C41_vh_l j1 p a : make_array j1 p = Ok a -> ar_type p = "VH" ->
  el_slant (pa_pol1 a) = - (PI / 4) /\ el_slant (pa_pol1 a) <> 0 /\
  exists e, pa_pol2 a = Some e /\ el_slant e = PI / 4 /\ el_slant e <> PI / 2.
Proof.
  intros H E. apply make_array_built in H.
  set (dual := negb (String.eqb (ar_pol p) "single")) in H.
  pose proof (bt_type _ _ _ _ _ _ _ _ H) as [_ T]. pose proof (bt_slant1 _ _ _ _ _ _ _ _ H) as S1.
  pose proof (bt_slant2 _ _ _ _ _ _ _ _ H) as S2. pose proof PI_RGT_0.
  destruct dual.
  - rewrite S1. split; [lra|]. split; [lra|]. destruct S2 as (e & A & B). exists e. rewrite A, B. repeat split; lra.
  - rewrite E in T. destruct T; discriminate.
Qed.

(* ---- patterns ---- *)
Lemma sq_nonneg x : 0 <= sq x.
Proof. unfold sq. nra. Qed.

Lemma sq_zero x : sq x = 0 -> x = 0.
Proof. unfold sq. intros; nra. Qed.

Lemma rmin_db x y m : 0 <= x -> 0 <= y -> 0 <= m ->
  - m <= - Rmin (- (- Rmin x m + - Rmin y m)) m <= 0 /\
  (- Rmin (- (- Rmin x m + - Rmin y m)) m = 0 -> 0 < m -> x = 0 /\ y = 0).
Proof.
  intros. unfold Rmin.
  destruct (Rle_dec x m), (Rle_dec y m);
    match goal with |- context [Rle_dec ?u m] => destruct (Rle_dec u m) end; repeat split; lra.
Qed.

Lemma db38901 theta phi : -22 <= pattern_38901_db theta phi <= 8 /\
  (pattern_38901_db theta phi = 8 <-> theta = PI / 2 /\ phi = 0).
Proof.
  unfold pattern_38901_db. cbv zeta. pose proof PI_RGT_0.
  set (x := 12 * sq ((theta - PI / 2) / (65 / 180 * PI))). set (y := 12 * sq (phi / (65 / 180 * PI))).
  assert (X : 0 <= x) by (unfold x; pose proof (sq_nonneg ((theta - PI / 2) / (65 / 180 * PI))); lra).
  assert (Y : 0 <= y) by (unfold y; pose proof (sq_nonneg (phi / (65 / 180 * PI))); lra).
  destruct (rmin_db x y 30 X Y ltac:(lra)) as [A B].
  split; [lra|]. split.
  - intros E. destruct (B ltac:(lra) ltac:(lra)) as [Ex Ey].
    assert (W : 0 < 65 / 180 * PI) by lra.
    assert (Ex' : sq ((theta - PI / 2) / (65 / 180 * PI)) = 0) by (unfold x in Ex; lra).
    assert (Ey' : sq (phi / (65 / 180 * PI)) = 0) by (unfold y in Ey; lra).
    apply sq_zero in Ex'. apply sq_zero in Ey'.
    split.
    + apply (Rmult_eq_compat_r (65 / 180 * PI)) in Ex'. unfold Rdiv in Ex' at 1. rewrite Rmult_assoc, Rinv_l in Ex' by lra. lra.
    + apply (Rmult_eq_compat_r (65 / 180 * PI)) in Ey'. unfold Rdiv in Ey' at 1. rewrite Rmult_assoc, Rinv_l in Ey' by lra. lra.
  - intros [E1 E2].
    assert (X0 : x = 0) by (unfold x; rewrite E1; unfold sq; field; lra).
    assert (Y0 : y = 0) by (unfold y; rewrite E2; unfold sq; field; lra).
    rewrite X0, Y0. rewrite (Rmin_left 0 30), Rmin_left by lra. lra.
Qed.

Lemma dbdlp theta phi : -25 <= pattern_dlp_db theta phi <= 0 /\
  (pattern_dlp_db theta phi = 0 <-> theta = PI / 2 /\ phi = 0).
Proof.
  unfold pattern_dlp_db. cbv zeta. pose proof PI_RGT_0.
  set (u := (theta * (180 / PI) - 90) / 90). set (v := phi * (180 / PI) / 90).
  assert (X : 0 <= 12 * sq u) by (pose proof (sq_nonneg u); lra).
  assert (Y : 0 <= 12 * sq v) by (pose proof (sq_nonneg v); lra).
  destruct (rmin_db _ _ 25 X Y ltac:(lra)) as [A B].
  split; [lra|]. split.
  - intros E. destruct (B E ltac:(lra)) as [Ex Ey].
    assert (Ex' : u = 0) by (apply sq_zero; lra). assert (Ey' : v = 0) by (apply sq_zero; lra).
    unfold u in Ex'. unfold v in Ey'. assert (K : 180 / PI * PI = 180) by (field; lra).
    assert (theta * (180 / PI) = 90) by lra. assert (phi * (180 / PI) = 0) by lra.
    split.
    + assert (theta * 180 = 90 * PI) by (rewrite <- K, <- Rmult_assoc; congruence). lra.
    + assert (phi * 180 = 0 * PI) by (rewrite <- K, <- Rmult_assoc; congruence). lra.
  - intros [E1 E2]. assert (U : u = 0) by (unfold u; rewrite E1; field; lra). assert (V : v = 0) by (unfold v; rewrite E2; lra).
    rewrite U, V. unfold sq. rewrite !Rmult_0_l, !Rmult_0_r.
    rewrite (Rmin_left 0 25), Rmin_left by lra. lra.
Qed.

Lemma pattern_nonneg j1 pat s e theta phi : make_element j1 pat s = Ok e -> 0 <= el_pattern e theta phi.
Proof.
  unfold make_element.
  destruct (String.eqb pat "omni"); [intros [= <-]; cbn; unfold pattern_omni; lra|].
  destruct (String.eqb pat "38.901"); [intros [= <-]; cbn; unfold pattern_38901; left; apply pow10_pos|].
  destruct (String.eqb pat "aperture").
  - intros [= <-]; cbn. unfold pattern_aperture. cbv zeta. destruct (Rltb _ _); [lra|].
    destruct (Req_EM_T _ _); [lra|].
    match goal with |- 0 <= 4 * sq ?x => pose proof (sq_nonneg x) end. lra.
  - destruct (String.eqb pat "dlp"); [intros [= <-]; cbn; unfold pattern_dlp; left; apply pow10_pos|discriminate].
Qed.

Lemma C42_field_l j1 pat s e theta phi : make_element j1 pat s = Ok e ->
  sq (fst (field e theta phi)) + sq (snd (field e theta phi)) = el_pattern e theta phi /\
  0 <= el_pattern e theta phi /\
  sin s * fst (field e theta phi) = cos s * snd (field e theta phi).
Proof.
  intros H. pose proof (pattern_nonneg _ _ _ _ theta phi H) as N. pose proof (make_element_ok _ _ _ _ H) as S.
  unfold field. cbv zeta. cbn [fst snd]. rewrite S. split; [|split; [exact N|ring]].
  unfold sq.
  replace (sqrt (el_pattern e theta phi) * cos s * (sqrt (el_pattern e theta phi) * cos s) +
    sqrt (el_pattern e theta phi) * sin s * (sqrt (el_pattern e theta phi) * sin s))
   with ((sqrt (el_pattern e theta phi) * sqrt (el_pattern e theta phi)) * (Rsqr (sin s) + Rsqr (cos s)))
   by (unfold Rsqr; ring).
  rewrite sqrt_sqrt by exact N. rewrite sin2_cos2. ring.
Qed.

Lemma C42_patterns_l j1 s : (exists e, make_element j1 "38.901" s = Ok e /\
    (forall theta phi, pow10 (-2.2) <= el_pattern e theta phi <= pow10 0.8) /\
    (forall theta phi, el_pattern e theta phi = pow10 0.8 <-> theta = PI / 2 /\ phi = 0)) /\
  (exists e, make_element j1 "omni" s = Ok e /\ forall theta phi, el_pattern e theta phi = 1) /\
  (exists e, make_element j1 "dlp" s = Ok e /\
    (forall theta phi, pow10 (-2.5) <= el_pattern e theta phi <= 1) /\
    (forall theta phi, el_pattern e theta phi = 1 <-> theta = PI / 2 /\ phi = 0)).
Proof.
  assert (I : forall x y, pow10 x = pow10 y -> x = y).
  { intros x y E. rewrite <- (log10_pow10 x), <- (log10_pow10 y), E. reflexivity. }
  split; [|split].
  - eexists. split; [reflexivity|]. cbn [el_pattern]. unfold pattern_38901. split; intros theta phi;
      destruct (db38901 theta phi) as [A B].
    + split; apply pow10_le; lra.
    + rewrite <- B. split; intros E; [apply I in E; lra|rewrite E; f_equal; lra].
  - eexists. split; [reflexivity|]. reflexivity.
  - eexists. split; [reflexivity|]. cbn [el_pattern]. unfold pattern_dlp. split; intros theta phi;
      destruct (dbdlp theta phi) as [A B]; rewrite <- pow10_0.
    + split; apply pow10_le; lra.
    + rewrite <- B. split; intros E; [apply I in E; lra|rewrite E; f_equal; lra].
Qed.

Lemma sc_bound theta phi : -1 <= sin theta * cos phi <= 1.
Proof.
  pose proof (SIN_bound theta). pose proof (COS_bound phi). nra.
Qed.

Lemma C42_aperture_l j1 s : exists e, make_element j1 "aperture" s = Ok e /\
  el_pattern e (PI / 2) 0 = 1 /\
  (forall theta phi, 0 <= el_pattern e theta phi) /\
  (forall theta phi, sin theta * cos phi < 0 -> el_pattern e theta phi = 0) /\
  (bessel_bound j1 -> forall theta phi, el_pattern e theta phi <= 1).
Proof.
  eexists. split; [reflexivity|]. cbn [el_pattern]. split; [|split; [|split]].
  - unfold pattern_aperture. cbv zeta. rewrite sin_PI2, cos_0, Rmult_1_r, acos_1.
    replace (Rltb (0.5 * PI) (Rabs 0)) with false.
    + destruct (Req_EM_T 0 0); [reflexivity|congruence].
    + symmetry. apply Rltb_false. rewrite Rabs_R0. pose proof PI_RGT_0. lra.
  - intros theta phi.
    exact (pattern_nonneg j1 "aperture" s _ theta phi eq_refl).
  - intros theta phi N. unfold pattern_aperture. cbv zeta.
    pose proof (sc_bound theta phi) as B. set (x := sin theta * cos phi) in *.
    pose proof (acos_bound x) as AB.
    replace (Rltb (0.5 * PI) (Rabs (acos x))) with true; [reflexivity|].
    symmetry. apply Rltb_true. rewrite Rabs_right by lra.
    destruct (Rlt_le_dec (0.5 * PI) (acos x)) as [L|L]; [exact L|exfalso].
    assert (0 <= cos (acos x)) by (apply cos_ge_0; lra). rewrite cos_acos in H by exact B. lra.
  - intros BB theta phi. unfold pattern_aperture. cbv zeta.
    set (x := sin theta * cos phi). pose proof (acos_bound x) as AB.
    destruct (Rltb (0.5 * PI) (Rabs (acos x))) eqn:E; [lra|]. apply Rltb_false in E.
    rewrite Rabs_right in E by lra.
    destruct (Req_EM_T 0 (acos x)) as [Z|Z]; [lra|].
    assert (Sp : 0 < sin (acos x)) by (apply sin_gt_0; lra).
    pose proof PI_RGT_0 as PP. set (y := 10 * 2 * PI * sin (acos x)).
    assert (Y : 0 < y) by (unfold y; apply Rmult_lt_0_compat; lra).
    replace (sin (acos x) * (10 * 2 * PI)) with y by (unfold y; ring).
    assert (Q : Rabs (j1 y / y) <= / 2).
    { unfold Rdiv. rewrite Rabs_mult, Rabs_inv, (Rabs_right y) by lra. pose proof (BB y) as K.
      rewrite (Rabs_right y) in K by lra.
      apply Rmult_le_reg_r with y; [exact Y|]. rewrite Rmult_assoc, Rinv_l by lra. lra. }
    unfold sq. pose proof (Rabs_pos (j1 y / y)). nra.
Qed.

(* ---- which settings the constructor accepts ---- *)
Lemma make_element_iff j1 pat s : (exists e, make_element j1 pat s = Ok e) <-> In pat ["omni"; "38.901"; "aperture"; "dlp"].
Proof.
  unfold make_element. cbn [In].
  destruct (String.eqb_spec pat "omni") as [->|A]; [split; eauto|].
  destruct (String.eqb_spec pat "38.901") as [->|B]; [split; eauto|].
  destruct (String.eqb_spec pat "aperture") as [->|C]; [split; eauto|].
  destruct (String.eqb_spec pat "dlp") as [->|D]; [split; eauto|].
  split; [intros [e E]; discriminate|]. intros [E|[E|[E|[E|[]]]]]; congruence.
Qed.

Lemma C63_l j1 p :
  let ev := match ar_elem_v p with Some x => x | None => 0.5 end in
  let eh := match ar_elem_h p with Some x => x | None => 0.5 end in
  (exists a, make_array j1 p = Ok a) <->
  In (ar_pol p, ar_type p) [("single", "V"); ("single", "H"); ("dual", "VH"); ("dual", "cross")] /\
  In (ar_pattern p) ["omni"; "38.901"; "aperture"; "dlp"] /\
  (forall v, ar_panel_v p = Some v -> (INR (ar_rows_pp p) - 1) * ev < v) /\
  (forall h, ar_panel_h p = Some h -> (INR (ar_cols_pp p) - 1) * eh < h) /\
  (1 <= ar_rows p)%nat /\ (1 <= ar_cols p)%nat.
Proof.
  intros ev eh. split.
  - intros [a H]. pose proof (make_array_built _ _ _ H) as B.
    set (dual := negb (String.eqb (ar_pol p) "single")) in B.
    pose proof (bt_pol _ _ _ _ _ _ _ _ B) as Bp. pose proof (bt_type _ _ _ _ _ _ _ _ B) as [_ Bt].
    split.
    { rewrite Bp. destruct dual; destruct Bt as [-> | ->]; cbn; auto. }
    split.
    { revert H. unfold make_array. cbv zeta.
      do 3 (match goal with |- (if ?b then _ else _) = _ -> _ => destruct b; [discriminate|] end).
      match goal with |- bind (if ?b then _ else _) _ = _ -> _ => destruct b end;
        (match goal with |- bind (if ?b then _ else _) _ = _ -> _ => destruct b; [discriminate|] end);
        (match goal with |- context [make_element j1 (ar_pattern p) ?s] =>
           destruct (make_element j1 (ar_pattern p) s) eqn:M; [|discriminate] end);
        intros _; refine (proj1 (make_element_iff j1 _ _) _); eauto. }
    split.
    { intros v Ev. pose proof (bt_v _ _ _ _ _ _ _ _ B) as Bv. rewrite Ev in Bv. exact Bv. }
    split.
    { intros v Ev. pose proof (bt_h _ _ _ _ _ _ _ _ B) as Bv. rewrite Ev in Bv. exact Bv. }
    assert (N : (ar_cols p * ar_rows p * (if dual then 2 else 1) <> 0)%nat).
    { revert H. unfold make_array. fold dual. cbv zeta.
      do 3 (match goal with |- (if ?b then _ else _) = _ -> _ => destruct b; [discriminate|] end).
      match goal with |- (bind ?x _) = _ -> _ => destruct x; cbn [bind]; [|discriminate] end.
      destruct (Nat.eqb_spec (ar_cols p * ar_rows p * (if dual then 2 else 1)) 0) as [E|E]; [discriminate|]. intros _; exact E. }
    split; destruct (ar_rows p), (ar_cols p); lia.
  - intros (T & Pt & Hv & Hh & R1 & C1).
    unfold make_array.
    change (default (ar_elem_v p) 0.5) with ev. change (default (ar_elem_h p) 0.5) with eh.
    assert (Z : Nat.eqb (ar_cols p * ar_rows p * (if negb (String.eqb (ar_pol p) "single") then 2 else 1)) 0 = false)
      by (apply Nat.eqb_neq; destruct (negb _); nia).
    assert (Sh : negb (Rltb ((INR (ar_cols_pp p) - 1) * eh) (default (ar_panel_h p) ((INR (ar_cols_pp p) - 1) * eh + 0.5))) = false).
    { apply negb_false_iff, Rltb_true. unfold default. destruct (ar_panel_h p); [apply Hh; reflexivity|lra]. }
    assert (Sv : negb (Rltb ((INR (ar_rows_pp p) - 1) * ev) (default (ar_panel_v p) ((INR (ar_rows_pp p) - 1) * ev + 0.5))) = false).
    { apply negb_false_iff, Rltb_true. unfold default. destruct (ar_panel_v p); [apply Hv; reflexivity|lra]. }
    assert (ME : forall s, exists e, make_element j1 (ar_pattern p) s = Ok e) by (intros; apply make_element_iff; exact Pt).
    rewrite Sh, Sv.
    destruct T as [T|[T|[T|[T|[]]]]]; injection T as T1 T2; rewrite <- T1, <- T2 in *; cbn [String.eqb Ascii.eqb Bool.eqb negb orb] in *.
    + destruct (ME 0) as [e ->]. cbn [bind]. rewrite Z. eauto.
    + destruct (ME (PI / 2)) as [e ->]. cbn [bind]. rewrite Z. eauto.
    + destruct (ME (- PI / 4)) as [e ->]. destruct (ME (- PI / 4 + PI / 2)) as [e' ->]. cbn [bind]. rewrite Z. eauto.
    + destruct (ME (- PI / 4)) as [e ->]. destruct (ME (- PI / 4 + PI / 2)) as [e' ->]. cbn [bind]. rewrite Z. eauto.
Qed.

(* a 3 x 2 element panel, 2 x 2 panels, with non-default spacings *)
Definition example_args (pol typ : string) : array_args :=
  {| ar_rows_pp := 3; ar_cols_pp := 2; ar_pol := pol; ar_type := typ; ar_pattern := "38.901"; ar_fc := 2e9;
     ar_rows := 2; ar_cols := 2; ar_panel_v := Some 4; ar_panel_h := None; ar_elem_v := Some 0.7; ar_elem_h := None |}.

Lemma example_array j1 pol typ : In (pol, typ) [("single", "V"); ("single", "H"); ("dual", "VH"); ("dual", "cross")] ->
  exists a, make_array j1 (example_args pol typ) = Ok a.
Proof.
  intros I. apply C63_l. cbn [example_args ar_pol ar_type ar_pattern ar_panel_v ar_panel_h ar_elem_v ar_elem_h ar_rows ar_cols ar_rows_pp ar_cols_pp].
  split; [exact I|]. split; [cbn; auto|].
  split; [intros v [= <-]; change (INR 3) with (1 + 1 + 1); lra|]. split; [discriminate|]. split; auto.
Qed.

(* ---- the two classes that are single panels ---- *)
Lemma single_panel_l j1 rows cols pol typ pattern fc v h a :
  make_antenna_array j1 rows cols pol typ pattern fc v h = Ok a ->
  let ev := match v with Some x => x | None => 0.5 end in
  let eh := match h with Some x => x | None => 0.5 end in
  let pn := if String.eqb pol "dual" then 2%nat else 1%nat in
  pa_num_ant a = (pn * (rows * cols))%nat /\
  forall q i j, (q < pn)%nat -> (i < rows)%nat -> (j < cols)%nat ->
    let n := (q * (rows * cols) + (j * rows + i))%nat in
    (n < pa_num_ant a)%nat /\ (In n (pa_ind1 a) <-> q = 0%nat) /\ (In n (pa_ind2 a) <-> q = 1%nat) /\
    pa_pos a n = V3 0 (speed_of_light / fc * eh * (INR j - (INR cols - 1) / 2))
                      (speed_of_light / fc * ev * ((INR rows - 1) / 2 - INR i)).
Proof.
  intros H. pose proof (C39_positions_l _ _ _ H) as K. cbv zeta in K.
  cbn [ar_rows_pp ar_cols_pp ar_rows ar_cols ar_pol ar_panel_v ar_panel_h ar_elem_v ar_elem_h ar_fc] in K.
  destruct K as (D & N & K & _). rewrite D in N, K. cbv zeta. split; [rewrite N; ring|].
  intros q i j Hq Hi Hj. destruct (K 0%nat 0%nat q i j) as (A & B & C1 & C2); try lia.
  cbn [Nat.mul Nat.add] in A, B, C1, C2.
  split; [exact A|]. split; [exact C1|]. split; [exact C2|]. rewrite B. unfold documented_position.
  cbn [INR]. replace ((1 - 1) / 2) with 0 by lra. replace (0 - 0) with 0 by lra.
  generalize (speed_of_light / fc). intros lam. rewrite !Rmult_0_l, !Rplus_0_l.
  f_equal; rewrite Rmult_assoc; f_equal; apply Rmult_comm.
Qed.

Lemma single_antenna_l j1 pol typ pattern fc a :
  make_antenna j1 pol typ pattern fc = Ok a ->
  pa_num_ant a = (if String.eqb pol "dual" then 2%nat else 1%nat) /\
  forall n, (n < pa_num_ant a)%nat -> pa_pos a n = V3 0 0 0 /\ (In n (pa_ind1 a) <-> n = 0%nat).
Proof.
  intros H. change (make_antenna j1 pol typ pattern fc) with (make_antenna_array j1 1 1 pol typ pattern fc None None) in H.
  destruct (single_panel_l _ _ _ _ _ _ _ _ _ _ H) as (N & K).
  split; [rewrite N; destruct (String.eqb pol "dual"); reflexivity|].
  intros n Hn. rewrite N in Hn. destruct (K n 0%nat 0%nat) as (_ & A & _ & B); [lia | lia | lia |].
  replace (n * (1 * 1) + (0 * 1 + 0))%nat with n in * by lia.
  split; [|exact A]. rewrite B. cbn [INR]. f_equal; replace ((1 - 1) / 2) with 0 by lra; rewrite Rminus_0_r; apply Rmult_0_r.
Qed.
