From Coq Require Import Reals String List Bool Arith Lia Lra ZArith QArith Qreals.
From Verif Require Import M_Base L_Base M_Json M_Params S_Config L_Params L_Config M_Geometry
  M_Pathloss M_Scenario M_Lsp S_Linear L_Linear S_Topology L_Scenario L_Fresh L_Topology S_Lsp.
Import ListNotations.
Open Scope string_scope.
Open Scope list_scope.
Open Scope R_scope.

(* ---- the column holds the documented values ---- *)
Lemma mapM_inv {A B} (f : A -> res B) l : forall r, mapM f l = Ok r ->
  Forall2 (fun a b => f a = Ok b) l r.
Proof.
  induction l as [| a l IH]; cbn; intros r H; [injection H as <-; constructor|].
  destruct (f a) as [b |] eqn:E; [| discriminate]. cbn [bind] in H.
  destruct (mapM f l) as [bs |]; [| discriminate]. cbn [bind] in H. injection H as <-.
  constructor; [exact E | apply IH; reflexivity].
Qed.

Lemma num_doc sc (los : bool) name r : accepted sc ->
  (v <- plookup (param_key name (angle_str (sc_elev sc))) (if los then sc_plos sc else sc_pnlos sc) ;;
   num_of v) = Ok r ->
  documented_value (sc_env sc) (sc_fc sc) (sc_dir sc) (sc_elev sc) los name (Fin r).
Proof.
  intros Ha H. destruct (plookup _ _) as [v |] eqn:E; [| discriminate]. cbn [bind] in H.
  assert (D := documented sc los name v Ha E). unfold num_of in H.
  destruct (pval_ext v) as [| x]; [discriminate|]. injection H as <-. exact D.
Qed.

Lemma Forall2_names {A B C D} (g : C -> D) (g' : A -> D) (P Q : D -> B -> Prop) l' l (r : list B) :
  map g l' = map g' l -> Forall2 (fun a b => P (g' a) b) l r ->
  (forall d b, P d b -> Q d b) -> Forall2 (fun c b => Q (g c) b) l' r.
Proof.
  intros E F H. revert l' E. induction F as [| a b l r Hab F IH]; intros [| c l'] E; try discriminate; [constructor|].
  cbn in E. injection E as E1 E2. constructor; [rewrite E1; apply H; exact Hab | apply IH; exact E2].
Qed.

Ltac take H :=
  match type of H with
  | bind ?x _ = Ok _ => let E := fresh "E" in destruct x as [?v |] eqn:E; [cbn [bind] in H | discriminate H]
  end.

Lemma link_column_documented sc los lp : accepted sc -> link_column sc los = Ok lp ->
  documented_column sc los lp.
Proof.
  intros Ha H. unfold link_column, table_column in H. cbv zeta in H.
  do 27 take H. injection H as <-. unfold documented_column. cbv zeta.
  cbn [lp_muDS lp_muASD lp_muASA lp_muK lp_muZSA lp_muZSD lp_sigmaDS lp_sigmaASD lp_sigmaASA lp_sigmaSF
    lp_sigmaK lp_sigmaZSA lp_sigmaZSD lp_rTau lp_zeta lp_cASD lp_cASA lp_cZSA lp_CPhi lp_CTheta lp_muXPR
    lp_sigmaXPR lp_cDS lp_numClusters lp_corr lp_corrDist].
  repeat match goal with
  | E : bind _ _ = Ok ?v |- documented_value _ _ _ _ _ _ (Fin ?v) /\ _ =>
      split; [exact (num_doc sc los _ v Ha E)|]
  | E : plookup _ _ = Ok ?v |- documented_value _ _ _ _ _ _ (pval_ext ?v) /\ _ =>
      split; [exact (documented sc los _ v Ha E)|]
  end.
  split.
  { match goal with E : int_of ?a = Ok ?b |- _ => unfold int_of in E; destruct a as [m e | z |] eqn:Ea;
      try discriminate; injection E as <- end.
    match goal with E : plookup _ _ = Ok (PInt z) |- _ => exact (documented sc los _ _ Ha E) end. }
  split.
  - assert (F := mapM_inv _ _ _ E24). 
    apply (Forall2_names (fun p => ("corr" ++ fst p ++ "vs" ++ snd p)%string) fst
      (fun nm r => (v <- plookup (param_key nm (angle_str (sc_elev sc))) (if los then sc_plos sc else sc_pnlos sc) ;;
         num_of v) = Ok r)
      (fun nm r => documented_value (sc_env sc) (sc_fc sc) (sc_dir sc) (sc_elev sc) los nm (Fin r))
      coefficient_pairs corr_names _ eq_refl F).
    intros nm r Hr. exact (num_doc sc los nm r Ha Hr).
  - assert (F := mapM_inv _ _ _ E25). 
    apply (Forall2_names (fun n => ("corrDist" ++ n)%string) (fun s => s)
      (fun nm r => (v <- plookup (param_key nm (angle_str (sc_elev sc))) (if los then sc_plos sc else sc_pnlos sc) ;;
         num_of v) = Ok r)
      (fun nm r => documented_value (sc_env sc) (sc_fc sc) (sc_dir sc) (sc_elev sc) los nm (Fin r))
      ["DS"; "ASD"; "ASA"; "SF"; "K"; "ZSA"; "ZSD"] corrdist_names _ eq_refl F).
    intros nm r Hr. exact (num_doc sc los nm r Ha Hr).
Qed.

(* ---- exact positive-definiteness check over the rationals ---- *)
Definition qmask (m n i j : nat) : Q :=
  ((if Nat.eqb i m && Nat.eqb j n then 1 else 0) + (if Nat.eqb i n && Nat.eqb j m then 1 else 0))%Q.

Fixpoint qadd (mat : nat -> nat -> Q) (names : list (string * (nat * nat))) (vals : list Q)
  : nat -> nat -> Q :=
  match names, vals with
  | (_, (m, n)) :: names', v :: vals' => qadd (fun i j => Qred (mat i j + v * qmask m n i j)%Q) names' vals'
  | _, _ => mat
  end.

Definition qeye (i j : nat) : Q := if Nat.eqb i j then 1%Q else 0%Q.

Lemma Q2R_red q : Q2R (Qred q) = Q2R q.
Proof. apply Qeq_eqR, Qred_correct. Qed.

Lemma Q2R_1 : Q2R 1 = 1. Proof. unfold Q2R; cbn; lra. Qed.
Lemma Q2R_0 : Q2R 0 = 0. Proof. unfold Q2R; cbn; lra. Qed.

Lemma qmask_R m n i j : Q2R (qmask m n i j) = scatter_mask m n i j.
Proof.
  unfold qmask, scatter_mask. rewrite Q2R_plus.
  destruct (Nat.eqb i m && Nat.eqb j n), (Nat.eqb i n && Nat.eqb j m); rewrite ?Q2R_1, ?Q2R_0; reflexivity.
Qed.

Lemma qadd_R names : forall vals mat matR i j,
  (forall i j, Q2R (mat i j) = matR i j) ->
  Q2R (qadd mat names vals i j) = add_params matR names (map Q2R vals) i j.
Proof.
  induction names as [| [nm [m n]] names IH]; intros vals mat matR i j H; [destruct vals; apply H|].
  destruct vals as [| v vals]; [apply H|]. cbn [qadd add_params map]. apply IH.
  intros i' j'. rewrite Q2R_red, Q2R_plus, Q2R_mult, qmask_R, H. reflexivity.
Qed.

Definition tab (n : nat) (f : nat -> nat -> Q) : list (list Q) :=
  map (fun i => map (f i) (seq 0 n)) (seq 0 n).
Definition get2 (rows : list (list Q)) (i j : nat) : Q := nth j (nth i rows []) 0%Q.

Lemma get_tab n f i j : (i < n)%nat -> (j < n)%nat -> get2 (tab n f) i j = f i j.
Proof.
  intros Hi Hj. unfold get2, tab.
  rewrite (nth_indep _ [] (map (f 0%nat) (seq 0 n))) by (rewrite map_length, seq_length; exact Hi).
  rewrite (map_nth (fun i => map (f i) (seq 0 n)) (seq 0 n) 0%nat i), seq_nth by exact Hi.
  rewrite (nth_indep _ 0%Q (f (0 + i)%nat 0%nat)) by (rewrite map_length, seq_length; exact Hj).
  rewrite (map_nth (f (0 + i)%nat) (seq 0 n) 0%nat j), seq_nth by exact Hj. reflexivity.
Qed.

Definition qschur (A : nat -> nat -> Q) (i j : nat) : Q :=
  Qred (A (S i) (S j) - A (S i) 0%nat * A 0%nat (S j) / A 0%nat 0%nat)%Q.

Fixpoint qpivots (n : nat) (rows : list (list Q)) : bool :=
  match n with
  | O => true
  | S m => negb (Qle_bool (get2 rows 0 0) 0) && qpivots m (tab m (qschur (get2 rows)))
  end.

Lemma pivots_ext n : forall A B, (forall i j, (i < n)%nat -> (j < n)%nat -> A i j = B i j) ->
  pivots_pos n A -> pivots_pos n B.
Proof.
  induction n as [| n IH]; intros A B H HP; [exact I|]. destruct HP as [P0 P].
  split; [rewrite <- H by lia; exact P0|]. apply (IH (schur A)); [| exact P].
  intros i j Hi Hj. unfold schur. rewrite !H by lia. reflexivity.
Qed.

Lemma qpivots_R n : forall rows, qpivots n rows = true -> pivots_pos n (fun i j => Q2R (get2 rows i j)).
Proof.
  induction n as [| n IH]; intros rows H; [exact I|].
  cbn [qpivots] in H. apply andb_true_iff in H. destruct H as [H0 H1].
  assert (P0 : 0 < Q2R (get2 rows 0 0)).
  { apply negb_true_iff in H0. rewrite <- Q2R_0. apply Qlt_Rlt, Qnot_le_lt. intros L.
    apply Qle_bool_iff in L. congruence. }
  split; [exact P0|]. apply (pivots_ext n _ _) with (2 := IH _ H1).
  intros i j Hi Hj. rewrite get_tab by assumption. unfold qschur, schur.
  assert (N : ~ (get2 rows 0 0 == 0)%Q).
  { intros E. apply Qeq_eqR in E. rewrite Q2R_0 in E. lra. }
  rewrite Q2R_red. unfold Qminus, Qdiv. rewrite Q2R_plus, Q2R_opp, !Q2R_mult, Q2R_inv by exact N.
  unfold Rdiv, Rminus. reflexivity.
Qed.

(* the check on all tables *)
Definition qlook (e : env) (ul sb los : bool) (c : Z) (name : string) : Q :=
  match plookup_opt (param_key name (string_of_Z c)) (tbl e ul sb los) with
  | Some v => match pval_Q v with Some q => q | None => 0%Q end
  | None => 0%Q
  end.

Definition qvals (e : env) (ul sb los : bool) (c : Z) : list Q :=
  map (fun nm => qlook e ul sb los c (fst nm)) corr_names.

(* the same values by position *)
Definition pos_value (l : list pval) (o : option nat) : Q :=
  match o with
  | Some i => match nth_error l i with
              | Some v => match pval_Q v with Some q => q | None => 0%Q end
              | None => 0%Q
              end
  | None => 0%Q
  end.

Lemma qvals_pos e ul sb los c : qvals e ul sb los c =
  map (pos_value (map snd (tbl e ul sb los)))
    (map (fun nm => key_pos (param_key (fst nm) (string_of_Z c)) (tbl_keys los)) corr_names).
Proof.
  unfold qvals. rewrite map_map. apply map_ext. intros nm. unfold qlook, pos_value.
  rewrite lookup_pos, tbl_keys_eq.
  destruct (key_pos (param_key (fst nm) (string_of_Z c)) (tbl_keys los)); reflexivity.
Qed.

Lemma corr_pd_fast : forallb (fun los => (fun ks vs =>
  forallb (fun c => (fun ps => forallb (fun tv =>
      qpivots 7 (tab 7 (qadd qeye corr_names (map (pos_value (snd tv)) ps)))) vs)
    (map (fun nm => key_pos (param_key (fst nm) (string_of_Z c)) ks) corr_names)) cols)
  (tbl_keys los) (table_values los)) all_bool = true.
Proof. vm_compute. reflexivity. Qed.

Lemma corr_pd_ok e ul sb los c : In c cols ->
  qpivots 7 (tab 7 (qadd qeye corr_names (qvals e ul sb los c))) = true.
Proof.
  intros Hc. assert (H := corr_pd_fast). rewrite forallb_forall in H. specialize (H los (all_bool_in los)).
  cbv beta in H. rewrite forallb_forall in H. specialize (H c Hc). cbv beta in H. rewrite forallb_forall in H.
  rewrite qvals_pos. apply (H (e, ul, sb, map snd (tbl e ul sb los))).
  unfold table_values. apply (in_map (fun t => (t, map snd (tbl (fst (fst t)) (snd (fst t)) (snd t) los)))
    all_tables (e, ul, sb)), all_tables_in.
Qed.

Lemma corr_vals e ul sb los c vals :
  Forall2 (fun nm r => corr_value e ul sb los c (fst nm) r) corr_names vals ->
  vals = map Q2R (qvals e ul sb los c).
Proof.
  unfold qvals. generalize corr_names. intros names H. induction H as [| nm r names vals Hr _ IH]; [reflexivity|].
  cbn [map]. f_equal; [| exact IH]. destruct Hr as (v & Hv & Hr). unfold qlook.
  unfold plookup in Hv. destruct (plookup_opt _ _) as [w |]; [| discriminate]. injection Hv as ->.
  rewrite pval_Q_ext in Hr. destruct (pval_Q v) as [q |]; [| discriminate]. injection Hr as <-. reflexivity.
Qed.

Lemma add_params_sym names : forall vals (mat : matrix) i j, (forall i j, mat i j = mat j i) ->
  add_params mat names vals i j = add_params mat names vals j i.
Proof.
  induction names as [| [nm [m n]] names IH]; intros vals mat i j H; [destruct vals; apply H|].
  destruct vals as [| v vals]; [apply H|]. cbn [add_params]. apply IH.
  intros i' j'. unfold add_param. rewrite H. f_equal. f_equal. unfold scatter_mask.
  rewrite (andb_comm (Nat.eqb j' m)), (andb_comm (Nat.eqb j' n)). ring.
Qed.

Lemma cross_corr_sym lp n : symmetric n (cross_corr lp).
Proof.
  intros i j _ _. apply add_params_sym. intros i' j'. unfold eye. rewrite Nat.eqb_sym. reflexivity.
Qed.

Lemma cross_corr_entries lp : length (lp_corr lp) = 21%nat ->
  (forall i, (i < 7)%nat -> cross_corr lp i i = 1) /\
  Forall2 (fun p r => forall i j, lsp_index (fst p) i -> lsp_index (snd p) j ->
             cross_corr lp i j = r /\ cross_corr lp j i = r) coefficient_pairs (lp_corr lp).
Proof.
  intros H. unfold cross_corr. destruct (lp_corr lp) as [| x0 l]; [discriminate|].
  do 20 (destruct l as [| ?x l]; [discriminate|]). destruct l; [| discriminate]. clear H. split.
  - intros i Hi. do 7 (destruct i as [| i]; [unfold add_params, corr_names, add_param, scatter_mask, eye; cbn [Nat.eqb andb]; ring |]). lia.
  - unfold coefficient_pairs.
    repeat (apply Forall2_cons; [cbn [fst snd]; intros i j Hi Hj; inversion Hi; inversion Hj; subst;
      unfold add_params, corr_names, add_param, scatter_mask, eye; cbn [Nat.eqb andb]; split; ring|]).
    constructor.
Qed.

Lemma link_corr_ok sc los lp : accepted sc -> link_column sc los = Ok lp -> pos_def 7 (cross_corr lp).
Proof.
  intros Ha H. assert (Ha' := Ha). destruct Ha' as [Hd Hb He Hl Ht Hn].
  unfold link_column, angle_str in H.
  assert (E : (if los then sc_plos sc else sc_pnlos sc)
     = tbl (sc_env sc) (dir_ul (sc_dir sc)) (is_s_band (sc_fc sc)) los) by (destruct los; assumption).
  rewrite E in H.
  destruct (table_column_ok (sc_env sc) (dir_ul (sc_dir sc)) (is_s_band (sc_fc sc)) los
     (angle_col (sc_elev sc)) (angle_col_in _ He)) as (lp' & H1 & _ & H3).
  rewrite H in H1. injection H1 as <-. apply corr_vals in H3.
  apply pivots_pos_def; [apply cross_corr_sym|].
  assert (P := corr_pd_ok (sc_env sc) (dir_ul (sc_dir sc)) (is_s_band (sc_fc sc)) los
     (angle_col (sc_elev sc)) (angle_col_in _ He)). cbv beta in P.
  apply qpivots_R in P. refine (pivots_ext 7 _ _ _ P). intros i j Hi Hj.
  rewrite get_tab by assumption. unfold cross_corr. rewrite H3. apply qadd_R.
  intros i' j'. unfold qeye, eye. destruct (Nat.eqb i' j'); [apply Q2R_1 | apply Q2R_0].
Qed.

(* off-diagonal entries of a positive definite correlation matrix *)
Lemma quad_two n A i j s : (i < n)%nat -> (j < n)%nat -> i <> j ->
  quad n A (fun k => if Nat.eqb k i then 1 else if Nat.eqb k j then s else 0)
  = A i i + s * A i j + s * A j i + s * s * A j j.
Proof.
  intros Hi Hj Hne.
  assert (S2 : forall f, sumR n (fun k => (fun k => if Nat.eqb k i then 1 else if Nat.eqb k j then s else 0) k * f k) = f i + s * f j).
  { intros f. transitivity (sumR n (fun k => (if Nat.eqb k i then f i else 0) + (if Nat.eqb k j then s * f j else 0))).
    - apply sumR_ext. intros k _. destruct (Nat.eqb_spec k i) as [E1 | N1]; destruct (Nat.eqb_spec k j) as [E2 | N2];
      [congruence | rewrite E1; ring | rewrite E2; ring | cbv beta; ring].
    - rewrite sumR_plus. rewrite (sumR_single n (fun k => if Nat.eqb k i then f i else 0) i Hi).
      + rewrite (sumR_single n (fun k => if Nat.eqb k j then s * f j else 0) j Hj).
        * rewrite !Nat.eqb_refl. reflexivity.
        * intros k _ N. apply Nat.eqb_neq in N. rewrite N. reflexivity.
      + intros k _ N. apply Nat.eqb_neq in N. rewrite N. reflexivity. }
  set (x := fun k => if Nat.eqb k i then 1 else if Nat.eqb k j then s else 0). unfold quad.
  transitivity (sumR n (fun k => x k * (A k i + s * A k j))).
  - apply sumR_ext. intros k _. transitivity (sumR n (fun l => x l * (x k * A k l))).
    + apply sumR_ext. intros; ring.
    + etransitivity; [exact (S2 (fun l => x k * A k l)) | cbv beta; ring].
  - etransitivity; [exact (S2 (fun k => A k i + s * A k j)) | cbv beta; ring].
Qed.

Lemma pos_def_entries n A : symmetric n A -> pos_def n A -> (forall i, (i < n)%nat -> A i i = 1) ->
  forall i j, (i < n)%nat -> (j < n)%nat -> i <> j -> -1 < A i j < 1.
Proof.
  intros HS HP HD i j Hi Hj Hne.
  assert (Q : forall s, 0 < A i i + s * A i j + s * A j i + s * s * A j j).
  { intros s. rewrite <- (quad_two n A i j s Hi Hj Hne). apply HP. exists i. split; [exact Hi|].
    rewrite Nat.eqb_refl. lra. }
  assert (Q1 := Q 1). assert (Q2 := Q (-1)). rewrite (HS j i) in Q1, Q2 by assumption.
  rewrite !HD in Q1, Q2 by assumption. lra.
Qed.
