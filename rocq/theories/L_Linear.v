From Coq Require Import Reals List Bool Arith Lia Lra.
From Verif Require Import M_Base L_Base M_Lsp S_Linear.
Import ListNotations.
Open Scope R_scope.

Lemma sumR_scale_r n c f : sumR n (fun k => f k * c) = sumR n f * c.
Proof. rewrite (sumR_ext n _ (fun k => c * f k)) by (intros; ring). rewrite sumR_scale. ring. Qed.

Lemma sumR_S n f : sumR (S n) f = sumR n f + f n.
Proof. reflexivity. Qed.

Lemma sumR_mult n m f g :
  sumR n f * sumR m g = sumR n (fun i => sumR m (fun j => f i * g j)).
Proof.
  rewrite <- sumR_scale_r. apply sumR_ext. intros i _. rewrite <- sumR_scale. reflexivity.
Qed.

Lemma quad_ext n A B x : (forall i j, (i < n)%nat -> (j < n)%nat -> A i j = B i j) ->
  quad n A x = quad n B x.
Proof.
  intros H. unfold quad. apply sumR_ext. intros i Hi. apply sumR_ext. intros j Hj.
  rewrite (H i j Hi Hj). reflexivity.
Qed.

Lemma quad_plus n A B x : quad n (fun i j => A i j + B i j) x = quad n A x + quad n B x.
Proof.
  unfold quad. rewrite <- sumR_plus. apply sumR_ext. intros i Hi. rewrite <- sumR_plus.
  apply sumR_ext. intros j Hj. ring.
Qed.

Lemma quad_rank1 n c v x : quad n (fun i j => c * v i * v j) x = c * (sumR n (fun i => x i * v i)) ^ 2.
Proof.
  unfold quad. replace (c * (sumR n (fun i => x i * v i)) ^ 2)
    with (c * (sumR n (fun i => x i * v i) * sumR n (fun i => x i * v i))) by ring.
  rewrite sumR_mult, <- sumR_scale. apply sumR_ext. intros i _. rewrite <- sumR_scale.
  apply sumR_ext. intros; ring.
Qed.

(* a Gram matrix *)
Lemma quad_gram n m A L x :
  (forall i j, (i < n)%nat -> (j < n)%nat -> A i j = sumR m (fun k => L i k * L j k)) ->
  quad n A x = sumR m (fun k => (sumR n (fun i => x i * L i k)) ^ 2).
Proof.
  intros H. rewrite (quad_ext n A _ x H). unfold quad.
  transitivity (sumR n (fun i => sumR n (fun j => sumR m (fun k => (x i * L i k) * (x j * L j k))))).
  - apply sumR_ext. intros i _. apply sumR_ext. intros j _.
    rewrite <- sumR_scale, <- sumR_scale_r. apply sumR_ext. intros; ring.
  - transitivity (sumR n (fun i => sumR m (fun k => sumR n (fun j => x i * L i k * (x j * L j k))))).
    + apply sumR_ext. intros i _. apply sumR_swap.
    + rewrite sumR_swap. apply sumR_ext. intros k _. rewrite <- Rsqr_pow2. unfold Rsqr.
      rewrite sumR_mult. reflexivity.
Qed.

Lemma pow2_nonneg x : 0 <= x ^ 2.
Proof. rewrite <- Rsqr_pow2. apply Rle_0_sqr. Qed.

Lemma gram_psd n m A L :
  (forall i j, (i < n)%nat -> (j < n)%nat -> A i j = sumR m (fun k => L i k * L j k)) ->
  pos_semidef n A.
Proof. intros H x. rewrite (quad_gram n m A L x H). apply sumR_nonneg. intros; apply pow2_nonneg. Qed.

(* triangular systems *)
Lemma forward_subst (L : matrix) (b : nat -> R) m :
  (forall i j, (i < j)%nat -> L i j = 0) -> (forall i, (i < m)%nat -> L i i <> 0) ->
  exists y, forall i, (i < m)%nat -> sumR m (fun k => L i k * y k) = b i.
Proof.
  intros Hl. induction m as [| m IH]; intros Hd.
  - exists (fun _ => 0). intros i Hi. lia.
  - destruct IH as [y Hy]; [intros; apply Hd; lia|].
    set (ym := (b m - sumR m (fun k => L m k * y k)) / L m m).
    exists (fun k => if Nat.eqb k m then ym else y k). intros i Hi. rewrite sumR_S, Nat.eqb_refl.
    rewrite (sumR_ext m _ (fun k => L i k * y k)).
    2:{ intros k Hk. replace (Nat.eqb k m) with false by (symmetry; apply Nat.eqb_neq; lia). reflexivity. }
    destruct (Nat.eq_dec i m) as [-> | Hne].
    + unfold ym. field. apply Hd. lia.
    + rewrite Hy by lia. rewrite (Hl i m) by lia. ring.
Qed.

Lemma backward_subst (L : matrix) m : forall (y : nat -> R),
  (forall i j, (i < j)%nat -> L i j = 0) -> (forall i, (i < m)%nat -> L i i <> 0) ->
  exists z, forall k, (k < m)%nat -> sumR m (fun i => L i k * z i) = y k.
Proof.
  induction m as [| m IH]; intros y Hl Hd.
  - exists (fun _ => 0). intros i Hi. lia.
  - set (zm := y m / L m m).
    destruct (IH (fun k => y k - L m k * zm) Hl) as [z Hz]; [intros; apply Hd; lia|].
    exists (fun k => if Nat.eqb k m then zm else z k). intros k Hk. rewrite sumR_S, Nat.eqb_refl.
    rewrite (sumR_ext m _ (fun i => L i k * z i)).
    2:{ intros i Hi. replace (Nat.eqb i m) with false by (symmetry; apply Nat.eqb_neq; lia). reflexivity. }
    destruct (Nat.eq_dec k m) as [-> | Hne].
    + rewrite sumR_zero by (intros i Hi; rewrite Hl by lia; ring). unfold zm. field. apply Hd. lia.
    + rewrite Hz by lia. ring.
Qed.

Lemma quad_S n A x :
  quad (S n) A x = quad n A x + x n * sumR n (fun i => A i n * x i) + x n * sumR n (fun j => A n j * x j)
                   + x n * A n n * x n.
Proof.
  unfold quad. rewrite sumR_S, sumR_S.
  rewrite (sumR_ext n _ (fun i => sumR n (fun j => x i * A i j * x j) + x i * A i n * x n))
    by (intros; rewrite sumR_S; reflexivity).
  rewrite sumR_plus, <- !sumR_scale.
  rewrite (sumR_ext n (fun i => x i * A i n * x n) (fun k => x n * (A k n * x k))) by (intros; ring).
  rewrite (sumR_ext n (fun j => x n * A n j * x j) (fun k => x n * (A n k * x k))) by (intros; ring).
  ring.
Qed.

Lemma pos_def_restrict n A : pos_def (S n) A -> pos_def n A.
Proof.
  intros H x (i & Hi & Hx).
  set (x' := fun k => if Nat.ltb k n then x k else 0).
  assert (E : forall k, (k < n)%nat -> x' k = x k).
  { intros k Hk. unfold x'. apply Nat.ltb_lt in Hk. rewrite Hk. reflexivity. }
  assert (E' : x' n = 0) by (unfold x'; rewrite Nat.ltb_irrefl; reflexivity).
  assert (P : 0 < quad (S n) A x').
  { apply H. exists i. split; [lia|]. rewrite E by exact Hi. exact Hx. }
  rewrite quad_S, E' in P. unfold quad in *.
  rewrite (sumR_ext n _ (fun i => sumR n (fun j => x i * A i j * x j))) in P; [lra|].
  intros k Hk. apply sumR_ext. intros j Hj. rewrite !E by assumption. reflexivity.
Qed.

Theorem cholesky_exists n : forall A, symmetric n A -> pos_def n A -> exists L, is_cholesky n A L.
Proof.
  induction n as [| n IH]; intros A HS HP.
  - exists (fun _ _ => 0). constructor; [reflexivity | intros; lia | intros; lia].
  - destruct (IH A) as [L [Hl Hd Hp]].
    { intros i j Hi Hj. apply HS; lia. }
    { apply pos_def_restrict, HP. }
    assert (Hd' : forall i, (i < n)%nat -> L i i <> 0) by (intros i Hi; specialize (Hd i Hi); lra).
    destruct (forward_subst L (fun i => A i n) n Hl Hd') as [y Hy].
    destruct (backward_subst L n y Hl Hd') as [z Hz].
    assert (Q : 0 < A n n - sumR n (fun k => y k ^ 2)).
    { set (x := fun k => if Nat.eqb k n then 1 else - z k).
      assert (P : 0 < quad (S n) A x).
      { apply HP. exists n. split; [lia|]. unfold x. rewrite Nat.eqb_refl. lra. }
      assert (Ex : forall k, (k < n)%nat -> x k = - z k).
      { intros k Hk. unfold x. replace (Nat.eqb k n) with false by (symmetry; apply Nat.eqb_neq; lia). reflexivity. }
      assert (En : x n = 1) by (unfold x; rewrite Nat.eqb_refl; reflexivity).
      rewrite quad_S, En in P.
      rewrite (quad_gram n n A L x) in P by (intros i j Hi Hj; symmetry; apply Hp; assumption).
      rewrite (sumR_ext n _ (fun k => y k ^ 2)) in P.
      2:{ intros k Hk. rewrite (sumR_ext n _ (fun i => - (L i k * z i))).
          - rewrite sumR_opp, Hz by exact Hk. ring.
          - intros i Hi. rewrite Ex by exact Hi. ring. }
      assert (C : sumR n (fun i => A i n * x i) = - sumR n (fun k => y k ^ 2)).
      { rewrite (sumR_ext n _ (fun i => - (sumR n (fun k => L i k * y k * z i)))).
        - rewrite sumR_opp. f_equal. rewrite sumR_swap. apply sumR_ext. intros k Hk.
          rewrite (sumR_ext n _ (fun i => y k * (L i k * z i))) by (intros; ring).
          rewrite sumR_scale, Hz by exact Hk. ring.
        - intros i Hi. rewrite Ex by exact Hi. rewrite <- (Hy i Hi), sumR_scale_r. ring. }
      rewrite (sumR_ext n (fun j => A n j * x j) (fun i => A i n * x i)) in P.
      2:{ intros j Hj. rewrite (HS n j) by lia. reflexivity. }
      rewrite C in P. lra. }
    set (d := sqrt (A n n - sumR n (fun k => y k ^ 2))).
    assert (Dpos : 0 < d) by (apply sqrt_lt_R0; exact Q).
    assert (Dsq : d * d = A n n - sumR n (fun k => y k ^ 2)) by (apply sqrt_sqrt; lra).
    set (L' := fun i j => if Nat.eqb i n then (if Nat.ltb j n then y j else if Nat.eqb j n then d else 0)
                          else if Nat.ltb i n then L i j else 0).
    assert (Ln : forall k, (k < n)%nat -> L' n k = y k).
    { intros k Hk. unfold L'. rewrite Nat.eqb_refl. apply Nat.ltb_lt in Hk. rewrite Hk. reflexivity. }
    assert (Lnn : L' n n = d) by (unfold L'; rewrite Nat.eqb_refl, Nat.ltb_irrefl; reflexivity).
    assert (Li : forall i k, (i < n)%nat -> L' i k = L i k).
    { intros i k Hi. unfold L'. replace (Nat.eqb i n) with false by (symmetry; apply Nat.eqb_neq; lia).
      apply Nat.ltb_lt in Hi. rewrite Hi. reflexivity. }
    exists L'. constructor.
    + intros i j Hij. destruct (lt_eq_lt_dec i n) as [[Hi | ->] | Hi].
      * rewrite Li by exact Hi. apply Hl, Hij.
      * unfold L'. rewrite Nat.eqb_refl.
        replace (Nat.ltb j n) with false by (symmetry; apply Nat.ltb_ge; lia).
        replace (Nat.eqb j n) with false by (symmetry; apply Nat.eqb_neq; lia). reflexivity.
      * unfold L'. replace (Nat.eqb i n) with false by (symmetry; apply Nat.eqb_neq; lia).
        replace (Nat.ltb i n) with false by (symmetry; apply Nat.ltb_ge; lia). reflexivity.
    + intros i Hi. destruct (Nat.eq_dec i n) as [-> | Hne]; [rewrite Lnn; exact Dpos|].
      rewrite Li by lia. apply Hd. lia.
    + assert (Row : forall i, (i < n)%nat -> sumR n (fun k => L' i k * L' n k) + L' i n * L' n n = A i n).
      { intros i Hi. rewrite (Li i n Hi), (Hl i n Hi).
        rewrite (sumR_ext n _ (fun k => L i k * y k)) by (intros k Hk; rewrite Li, Ln by assumption; reflexivity).
        rewrite (Hy i Hi). ring. }
      intros i j Hi Hj. rewrite sumR_S.
      destruct (Nat.eq_dec i n) as [-> | Hi']; destruct (Nat.eq_dec j n) as [-> | Hj'].
      * rewrite Lnn, Dsq. rewrite (sumR_ext n _ (fun k => y k ^ 2)) by (intros k Hk; rewrite Ln by exact Hk; ring).
        ring.
      * rewrite (HS n j) by lia. rewrite <- (Row j) by lia. rewrite (Rmult_comm (L' n n)). f_equal.
        apply sumR_ext. intros; ring.
      * apply Row. lia.
      * rewrite (Li i n), (Hl i n) by lia. rewrite Rmult_0_l, Rplus_0_r.
        rewrite (sumR_ext n _ (fun k => L i k * L j k)) by (intros k Hk; rewrite !Li by lia; reflexivity).
        apply Hp; lia.
Qed.

(* a matrix with a Cholesky factor is positive definite *)
Theorem cholesky_pos_def n A L : is_cholesky n A L -> pos_def n A.
Proof.
  intros [Hl Hd Hp] x (i0 & Hi0 & Hx0).
  rewrite (quad_gram n n A L x) by (intros i j Hi Hj; symmetry; apply Hp; assumption).
  (* the last index with x i <> 0 *)
  assert (M : exists m, (m < n)%nat /\ x m <> 0 /\ forall i, (m < i < n)%nat -> x i = 0).
  { clear -Hi0 Hx0. induction n as [| n IH]; [lia|].
    destruct (Req_dec (x n) 0) as [E | E].
    - destruct (Nat.eq_dec i0 n) as [-> | Hne]; [contradiction|].
      destruct IH as (m & H1 & H2 & H3); [lia|]. exists m. split; [lia|]. split; [exact H2|].
      intros i Hi. destruct (Nat.eq_dec i n) as [-> | ]; [exact E | apply H3; lia].
    - exists n. split; [lia|]. split; [exact E|]. intros; lia. }
  destruct M as (m & Hm & Hxm & Hz).
  assert (E : sumR n (fun i => x i * L i m) = x m * L m m).
  { apply (sumR_single n (fun i => x i * L i m) m Hm). intros j Hj Hne.
    destruct (lt_dec j m) as [Hlt | Hge]; [rewrite (Hl j m Hlt); ring | rewrite (Hz j) by lia; ring]. }
  apply Rlt_le_trans with ((sumR n (fun i => x i * L i m)) ^ 2).
  - rewrite E. specialize (Hd m Hm). rewrite <- Rsqr_pow2. apply Rlt_0_sqr.
    apply Rmult_integral_contrapositive. split; [exact Hxm | lra].
  - assert (G : forall N f, (forall k, 0 <= f k) -> (m < N)%nat -> f m <= sumR N f).
    { clear. intros N f Hf. induction N as [| N IH]; [lia|]. intros H. rewrite sumR_S.
      destruct (Nat.eq_dec m N) as [-> | Hne].
      - assert (0 <= sumR N f) by (apply sumR_nonneg; intros; apply Hf). lra.
      - assert (f m <= sumR N f) by (apply IH; lia). specialize (Hf N). lra. }
    apply (G n (fun k => (sumR n (fun i => x i * L i k)) ^ 2)); [intros; apply pow2_nonneg | exact Hm].
Qed.

(* ---- elimination: positive definiteness from Schur complements ---- *)
Definition schur (A : matrix) : matrix :=
  fun i j => A (S i) (S j) - A (S i) 0%nat * A 0%nat (S j) / A 0%nat 0%nat.

Fixpoint pivots_pos (n : nat) (A : matrix) : Prop :=
  match n with O => True | S m => 0 < A 0%nat 0%nat /\ pivots_pos m (schur A) end.

Lemma pivots_pos_def n : forall A, symmetric n A -> pivots_pos n A -> pos_def n A.
Proof.
  induction n as [| n IH]; intros A HS HP x (i & Hi & Hx); [lia|].
  destruct HP as [P0 HP]. set (a := A 0%nat 0%nat) in *.
  assert (HS' : symmetric n (schur A)).
  { intros k j Hk Hj. unfold schur. rewrite (HS (S k) (S j)), (HS (S k) 0%nat), (HS 0%nat (S j)) by lia.
    fold a. unfold Rdiv. ring. }
  set (y := fun k => x (S k)).
  assert (E : quad (S n) A x
     = a * (x 0%nat + sumR n (fun k => A 0%nat (S k) * y k) / a) ^ 2 + quad n (schur A) y).
  { assert (Q : quad (S n) A x = x 0%nat * a * x 0%nat + 2 * x 0%nat * sumR n (fun k => A 0%nat (S k) * y k)
        + quad n (fun i j => A (S i) (S j)) y).
    { unfold quad. rewrite sumR_shift, sumR_shift. fold a.
      rewrite (sumR_ext n (fun k => sumR (S n) _)
         (fun k => x 0%nat * (A 0%nat (S k) * y k) + sumR n (fun j => y k * A (S k) (S j) * y j))).
      2:{ intros k Hk. rewrite sumR_shift. rewrite (HS (S k) 0%nat) by lia. unfold y. ring. }
      rewrite sumR_plus, sumR_scale.
      rewrite (sumR_ext n (fun k => x 0%nat * A 0%nat (S k) * x (S k)) (fun k => x 0%nat * (A 0%nat (S k) * y k)))
        by (intros; unfold y; ring).
      rewrite sumR_scale. unfold y. ring. }
    assert (Q2 : quad n (schur A) y = quad n (fun i j => A (S i) (S j)) y
       + (- / a) * (sumR n (fun k => y k * A 0%nat (S k))) ^ 2).
    { rewrite <- (quad_rank1 n (- / a) (fun k => A 0%nat (S k)) y), <- quad_plus. apply quad_ext.
      intros k j Hk Hj. unfold schur. rewrite (HS (S k) 0%nat) by lia. fold a. unfold Rdiv. ring. }
    rewrite Q, Q2. rewrite (sumR_ext n (fun k => y k * A 0%nat (S k)) (fun k => A 0%nat (S k) * y k)) by (intros; ring).
    field. lra. }
  rewrite E.
  assert (D : (exists k, (k < n)%nat /\ y k <> 0) \/ forall k, (k < n)%nat -> y k = 0).
  { clear. induction n as [| n [IH | IH]].
    - right; intros; lia.
    - left. destruct IH as (k & H1 & H2). exists k. split; [lia | exact H2].
    - destruct (Req_dec (y n) 0) as [E | E].
      + right. intros k Hk. destruct (Nat.eq_dec k n) as [-> | ]; [exact E | apply IH; lia].
      + left. exists n. split; [lia | exact E]. }
  destruct D as [D | D].
  - assert (P := IH _ HS' HP y D). assert (S2 := pow2_nonneg (x 0%nat + sumR n (fun k => A 0%nat (S k) * y k) / a)). nra.
  - assert (Z1 : quad n (schur A) y = 0).
    { unfold quad. apply sumR_zero. intros k Hk. apply sumR_zero. intros j Hj. rewrite (D k Hk). ring. }
    assert (Z2 : sumR n (fun k => A 0%nat (S k) * y k) = 0).
    { apply sumR_zero. intros k Hk. rewrite (D k Hk). ring. }
    rewrite Z1, Z2.
    assert (X0 : x 0%nat <> 0).
    { destruct i as [| i]; [exact Hx|]. exfalso. apply Hx. apply (D i). lia. }
    replace (x 0%nat + 0 / a) with (x 0%nat) by (field; lra).
    assert (0 < (x 0%nat) ^ 2) by (rewrite <- Rsqr_pow2; apply Rlt_0_sqr, X0). nra.
Qed.
