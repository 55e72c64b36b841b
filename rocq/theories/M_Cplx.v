(* Complex numbers as pairs of reals: what the code's complex tensors hold, idealised. *)
From Coq Require Import Reals List Lra Ring.
From Verif Require Import M_Base.
Import ListNotations.
Open Scope R_scope.

(* tf.complex, e.g. tdl.py:470 *)
Record cplx := Cx { re : R; im : R }.

(* channel_coefficients.py:1017-1019 *)
Definition c0 := Cx 0 0.
(* channel_coefficients.py:1017-1019 *)
Definition c1 := Cx 1 0.
(* channel_coefficients.py:840 *)
Definition cadd (a b : cplx) := Cx (re a + re b) (im a + im b).
(* channel_coefficients.py:840 *)
Definition cmul (a b : cplx) := Cx (re a * re b - im a * im b) (re a * im b + im a * re b).
(* channel_coefficients.py:1018 *)
Definition copp (a : cplx) := Cx (- re a) (- im a).
(* complex subtraction; not called by the code, used in statements about utils.py:243 *)
Definition csub (a b : cplx) := Cx (re a - re b) (im a - im b).
(* utils.py:1493 *)
Definition cconj (a : cplx) := Cx (re a) (- im a).
(* tf.complex(x, 0) *)
(* tf.cast of a real to complex, e.g. tdl.py:473 *)
Definition creal (x : R) := Cx x 0.
(* tf.exp(tf.complex(0, x)) *)
(* e.g. tdl.py:470 *)
Definition cexpi (x : R) := Cx (cos x) (sin x).
(* |a|^2 *)
(* utils.py:250 *)
Definition cnorm2 (a : cplx) : R := re a * re a + im a * im a.
(* tf.reduce_sum over an axis *)
(* e.g. tdl.py:474 *)
Definition csum (l : list cplx) : cplx := fold_right cadd c0 l.
(* e.g. utils.py:243 *)
Definition csumN (n : nat) (f : nat -> cplx) : cplx := csum (map f (seq 0 n)).

(* 2 x 2 complex matrices and 2-vectors *)
(* channel_coefficients.py:511-544 *)
Record cmat := CM { m00 : cplx; m01 : cplx; m10 : cplx; m11 : cplx }.
(* channel_coefficients.py:720-845 *)
Record cvec := CV { v0 : cplx; v1 : cplx }.
(* channel_coefficients.py:878 *)
Definition cmat_mul (a b : cmat) : cmat :=
  CM (cadd (cmul (m00 a) (m00 b)) (cmul (m01 a) (m10 b))) (cadd (cmul (m00 a) (m01 b)) (cmul (m01 a) (m11 b)))
     (cadd (cmul (m10 a) (m00 b)) (cmul (m11 a) (m10 b))) (cadd (cmul (m10 a) (m01 b)) (cmul (m11 a) (m11 b))).
(* channel_coefficients.py:720-845 *)
Definition cmat_vec (a : cmat) (v : cvec) : cvec :=
  CV (cadd (cmul (m00 a) (v0 v)) (cmul (m01 a) (v1 v))) (cadd (cmul (m10 a) (v0 v)) (cmul (m11 a) (v1 v))).

Lemma cplx_eq a b : re a = re b -> im a = im b -> a = b.
Proof. destruct a, b; cbn; intros -> ->; reflexivity. Qed.

Lemma cring : ring_theory c0 c1 cadd cmul csub copp (@eq cplx).
Proof. constructor; intros; apply cplx_eq; cbn; ring. Qed.
Add Ring cplx_ring : cring.
