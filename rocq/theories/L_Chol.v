(* The factorisation of M_Channel is the Cholesky factorisation. *)
From Coq Require Import Reals List Bool Arith Lia Lra.
From Verif Require Import M_Base L_Base M_Lsp S_Linear L_Linear M_Scenario M_Channel.
Import ListNotations.
Open Scope R_scope.

Lemma sumR_head n f : sumR (S n) f = f 0%nat + sumR n (fun k => f (S k)).
Proof. induction n as [|n IH]; [cbn; ring|]. rewrite sumR_S, IH. rewrite (sumR_S n). ring. Qed.

Lemma cholesky_sound n : forall A L, symmetric n A -> cholesky n A = Some L -> is_cholesky n A L.
Proof.
  induction n as [|n IH]; intros A L Sy; cbn [cholesky].
  - intros [= <-]. constructor; [reflexivity|intros; lia|intros; lia].
  - destruct (Rltb 0 (A 0%nat 0%nat)) eqn:E; [|discriminate]. apply Rltb_true in E.
    set (d := sqrt (A 0%nat 0%nat)). set (l := fun i => A (S i) 0%nat / d).
    assert (D : 0 < d) by (apply sqrt_lt_R0; exact E).
    assert (DD : d * d = A 0%nat 0%nat) by (apply sqrt_sqrt; lra).
    assert (LD : forall i, l i * d = A (S i) 0%nat) by (intros; unfold l; field; lra).
    change (match cholesky n (fun i j => A (S i) (S j) - l i * l j) with
      | None => None
      | Some L0 => Some (fun i j => match i, j with O, O => d | O, S _ => 0 | S i', O => l i' | S i', S j' => L0 i' j' end)
      end = Some L -> is_cholesky (S n) A L).
    destruct (cholesky n (fun i j => A (S i) (S j) - l i * l j)) as [L'|] eqn:EL; [|discriminate].
    intros [= <-].
    assert (SS : symmetric n (fun i j => A (S i) (S j) - l i * l j)).
    { intros i j Hi Hj. rewrite (Sy (S i) (S j)) by lia. ring. }
    destruct (IH _ _ SS EL) as [Hl Hd Hp]. constructor.
    + intros [|i] [|j] H; try lia; [reflexivity|]. apply Hl. lia.
    + intros [|i] H; [exact D|]. apply Hd. lia.
    + intros [|i] [|j] Hi Hj; rewrite sumR_head.
      * rewrite DD. rewrite sumR_zero by (intros; ring). ring.
      * rewrite sumR_zero by (intros; ring). rewrite Rmult_comm, LD, (Sy 0%nat (S j)) by lia. ring.
      * rewrite sumR_zero by (intros; ring). rewrite LD. ring.
      * rewrite Hp by lia. ring.
Qed.

Lemma cholesky_complete n : forall A L, is_cholesky n A L ->
  exists L', cholesky n A = Some L' /\ forall i j, (i < n)%nat -> (j < n)%nat -> L' i j = L i j.
Proof.
  induction n as [|n IH]; intros A L [Hl Hd Hp]; cbn [cholesky].
  - eexists. split; [reflexivity|]. intros; lia.
  - assert (P0 : forall i, (i < S n)%nat -> A i 0%nat = L i 0%nat * L 0%nat 0%nat).
    { intros i Hi. rewrite <- Hp by lia. rewrite sumR_head. rewrite sumR_zero; [ring|].
      intros k Hk. rewrite (Hl 0%nat (S k)) by lia. ring. }
    assert (D := Hd 0%nat ltac:(lia)).
    assert (A0 : A 0%nat 0%nat = L 0%nat 0%nat * L 0%nat 0%nat) by (apply P0; lia).
    assert (E : 0 < A 0%nat 0%nat) by (rewrite A0; nra).
    rewrite (proj2 (Rltb_true _ _) E).
    assert (SQ : sqrt (A 0%nat 0%nat) = L 0%nat 0%nat) by (rewrite A0; apply sqrt_square; lra).
    set (d := sqrt (A 0%nat 0%nat)) in *. set (l := fun i => A (S i) 0%nat / d).
    assert (LE : forall i, (i < n)%nat -> l i = L (S i) 0%nat).
    { intros i Hi. unfold l. rewrite SQ, P0 by lia. field. lra. }
    destruct (IH (fun i j => A (S i) (S j) - l i * l j) (fun i j => L (S i) (S j))) as (L' & EL & EQ).
    { constructor.
      - intros i j H. apply Hl. lia.
      - intros i H. apply Hd. lia.
      - intros i j Hi Hj. rewrite <- (Hp (S i) (S j)) by lia. rewrite sumR_head, !LE by lia. ring. }
    cbv zeta. change (exists L'0, match cholesky n (fun i j => A (S i) (S j) - l i * l j) with
      | None => None
      | Some L0 => Some (fun i j => match i, j with O, O => d | O, S _ => 0 | S i', O => l i' | S i', S j' => L0 i' j' end)
      end = Some L'0 /\ forall i j, (i < S n)%nat -> (j < S n)%nat -> L'0 i j = L i j).
    rewrite EL. eexists. split; [reflexivity|].
    intros [|i] [|j] Hi Hj; [exact SQ|rewrite Hl by lia; reflexivity|apply LE; lia|apply EQ; lia].
Qed.

Lemma all_below_true n p : all_below n p = true <-> forall k, (k < n)%nat -> p k = true.
Proof.
  unfold all_below. rewrite forallb_forall. split; intros H k K; apply H; [apply in_seq; lia|apply in_seq in K; lia].
Qed.

Lemma cholesky_all_ok n1 n2 n3 n A : (forall b s k, (b < n1)%nat -> (s < n2)%nat -> (k < n3)%nat -> symmetric n (A b s k)) ->
  ((forall b s k, (b < n1)%nat -> (s < n2)%nat -> (k < n3)%nat -> exists L, is_cholesky n (A b s k) L) <->
   exists L, cholesky_all n1 n2 n3 n A = Ok L) /\
  (forall L, cholesky_all n1 n2 n3 n A = Ok L -> forall b s k, (b < n1)%nat -> (s < n2)%nat -> (k < n3)%nat ->
     is_cholesky n (A b s k) (L b s k)).
Proof.
  intros Sy. unfold cholesky_all.
  assert (G : all_below n1 (fun b => all_below n2 (fun s => all_below n3 (fun k => given (cholesky n (A b s k))))) = true <->
     forall b s k, (b < n1)%nat -> (s < n2)%nat -> (k < n3)%nat -> given (cholesky n (A b s k)) = true).
  { split.
    - intros H b s k Hb Hs Hk. rewrite all_below_true in H. specialize (H b Hb). rewrite all_below_true in H.
      specialize (H s Hs). rewrite all_below_true in H. apply H, Hk.
    - intros H. apply all_below_true. intros b Hb. apply all_below_true. intros s Hs. apply all_below_true. auto. }
  split.
  - split.
    + intros H. rewrite (proj2 G); [eexists; reflexivity|]. intros b s k Hb Hs Hk. destruct (H b s k Hb Hs Hk) as [L HL].
      destruct (cholesky_complete _ _ _ HL) as (L' & E & _). rewrite E. reflexivity.
    + destruct (all_below _ _); [|intros [L H]; discriminate]. intros _ b s k Hb Hs Hk.
      destruct G as [G _]. specialize (G eq_refl b s k Hb Hs Hk). destruct (cholesky n (A b s k)) as [L|] eqn:E; [|discriminate].
      exists L. apply (cholesky_sound n); [apply Sy; assumption|exact E].
  - destruct (all_below _ _); [|discriminate]. intros L [= <-] b s k Hb Hs Hk.
    destruct G as [G _]. specialize (G eq_refl b s k Hb Hs Hk). destruct (cholesky n (A b s k)) as [L|] eqn:E; [|discriminate].
    apply (cholesky_sound n); [apply Sy; assumption|exact E].
Qed.
