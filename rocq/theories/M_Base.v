(* Shared vocabulary of the model: results with Python exceptions, real-number tests,
   3-vectors, sorting, sums.  These are not models of repository functions but of the
   Python/TensorFlow primitives those functions use. *)
From Coq Require Import Reals String List Bool Arith Lia Lra ZArith.
From Coq Require Import Permutation Sorting.Sorted.
Import ListNotations.
Open Scope R_scope.

(* ---- Python exceptions as values ---- *)
(* the exceptions raised by the asserts and calls of the code, e.g. system_level_scenario.py:74, tdl.py:262 *)
Inductive exn :=
| AssertionError (msg : string)
| KeyError (key : string)
| AttributeError (attr : string)
| TypeError (msg : string)
| NameError (name : string)
| UnboundLocalError (name : string)
| ValueError (msg : string)
| ZeroDivisionError (msg : string)
| FileNotFoundError (name : string)
| InvalidArgumentError (msg : string).   (* tf.errors.InvalidArgumentError *)

(* outcome of a call that may raise, e.g. system_level_scenario.py:501-664 *)
Inductive res (A : Type) := Ok (a : A) | Err (e : exn).
Arguments Ok {A} a.
Arguments Err {A} e.

(* sequencing of statements that may raise, e.g. system_level_scenario.py:646-660 *)
Definition bind {A B} (r : res A) (f : A -> res B) : res B :=
  match r with Ok a => f a | Err e => Err e end.
Notation "x <- r ;; k" := (bind r (fun x => k))
  (at level 61, r at next level, right associativity).

(* the call returns, e.g. system_level_scenario.py:664 *)
Definition is_ok {A} (r : res A) : Prop := exists a, r = Ok a.

(* ---- comparisons on idealised floats ---- *)
(* tf.math.less / <, e.g. utils.py:534 *)
Definition Rltb (x y : R) : bool := if Rlt_dec x y then true else false.
(* tf.greater_equal / <=, e.g. system_level_scenario.py:74, channel_coefficients.py:875 *)
Definition Rleb (x y : R) : bool := if Rle_dec x y then true else false.
(* ==, e.g. system_level_scenario.py:101 *)
Definition Reqb (x y : R) : bool := if Req_EM_T x y then true else false.

(* ---- extended value: finite or -inf (float("-inf") of the tables) ---- *)
(* system_level_scenario.py:902-903 float("-inf") *)
Inductive ext := NegInf | Fin (r : R).

(* ---- vectors ---- *)
(* the last axis of the location and velocity tensors, system_level_scenario.py:186-208 *)
Record vec3 := V3 { vx : R; vy : R; vz : R }.
(* antenna.py:546 *)
Definition vadd (a b : vec3) := V3 (vx a + vx b) (vy a + vy b) (vz a + vz b).
(* system_level_scenario.py:796 *)
Definition vsub (a b : vec3) := V3 (vx a - vx b) (vy a - vy b) (vz a - vz b).
(* antenna.py:558 *)
Definition vscale (k : R) (a : vec3) := V3 (k * vx a) (k * vy a) (k * vz a).
(* channel_coefficients.py:606 reduce_sum of a product *)
Definition vdot (a b : vec3) := vx a * vx b + vy a * vy b + vz a * vz b.
(* system_level_scenario.py:799 *)
Definition vnorm (a : vec3) := sqrt (vdot a a).

(* ---- sums ---- *)
(* e.g. rays.py:379 *)
Fixpoint Rsum (l : list R) : R :=            (* tf.reduce_sum over one axis *)
  match l with [] => 0 | x :: l' => x + Rsum l' end.

(* e.g. lsp.py:134, a contraction *)
Fixpoint sumR (n : nat) (f : nat -> R) : R := (* sum_{k<n} f k *)
  match n with O => 0 | S m => sumR m f + f m end.

(* tf.reduce_max, rays.py:456 *)
Definition list_max (x : R) (l : list R) : R := fold_right Rmax x l.
(* tf.reduce_min, rays.py:308 *)
Definition list_min (x : R) (l : list R) : R := fold_right Rmin x l.

(* ---- elementary functions as used through tf.math ---- *)
(* e.g. utils.py:1771 *)
Definition log10 (x : R) : R := ln x / ln 10.        (* sionna.phy.utils.log10 *)
(* e.g. lsp.py:149 *)
Definition pow10 (x : R) : R := Rpower 10 x.         (* tf.math.pow(10., x) *)
(* e.g. rays.py:315 *)
Definition sq (x : R) : R := x * x.                  (* tf.square *)

(* tf.atan2 / tf.math.angle; result in (-pi, pi], and 0 at the origin (as in TensorFlow). *)
(* system_level_scenario.py:824, channel_coefficients.py:356 *)
Definition atan2 (y x : R) : R :=
  if Rlt_dec 0 x then atan (y / x)
  else if Rlt_dec x 0 then
         if Rle_dec 0 y then atan (y / x) + PI else atan (y / x) - PI
  else if Rlt_dec 0 y then PI / 2
  else if Rlt_dec y 0 then - (PI / 2)
  else 0.

(* Python's round(x) (round half to even) for a float argument. *)
(* system_level_scenario.py:368, utils.py:1769 *)
Definition py_round (x : R) : Z :=
  let f := Int_part x in
  let d := x - IZR f in
  if Rlt_dec d (1/2) then f
  else if Rlt_dec (1/2) d then (f + 1)%Z
  else if Z.even f then f else (f + 1)%Z.

(* Floor modulo (tf.math.mod on floats / Python % on floats), divisor m > 0. *)
(* utils.py:500 *)
Definition fmod (x m : R) : R := x - m * IZR (Int_part (x / m)).

(* ---- sorting (tf.sort, tf.argsort) ---- *)
(* [argsort] is the stable ascending arg-sort.  TensorFlow does not promise an order among
   equal keys, so the model takes the sorter as a parameter and the theorems quantify over
   every sorter satisfying [valid_argsort]; [argsort] witnesses that one exists. *)
(* rays.py:747 *)
Definition key (l : list R) (i : nat) : R := nth i l 0.

(* rays.py:747, channel_coefficients.py:977 *)
Definition valid_argsort (f : list R -> list nat) : Prop :=
  forall l, Permutation (f l) (seq 0 (length l)) /\
            StronglySorted Rle (map (key l) (f l)).

(* channel_coefficients.py:929 *)
Definition valid_argsort_desc (f : list R -> list nat) : Prop :=
  forall l, Permutation (f l) (seq 0 (length l)) /\
            StronglySorted (fun x y => y <= x) (map (key l) (f l)).

(* rays.py:747 (one possible sorter) *)
Fixpoint ins_idx (l : list R) (i : nat) (s : list nat) : list nat :=
  match s with
  | [] => [i]
  | j :: s' => if Rle_dec (key l i) (key l j) then i :: j :: s' else j :: ins_idx l i s'
  end.

(* rays.py:747 *)
Definition argsort (l : list R) : list nat :=
  fold_right (ins_idx l) [] (seq 0 (length l)).

(* channel_coefficients.py:929 *)
Definition argsort_desc (l : list R) : list nat := argsort (map Ropp l).

(* rays.py:750, channel_coefficients.py:979 *)
Definition gather {A} (d : A) (l : list A) (idx : list nat) : list A :=
  map (fun i => nth i l d) idx.

(* tf.sort along the last axis. *)
(* rays.py:310 *)
Definition rsort (l : list R) : list R := gather 0 l (argsort l).
