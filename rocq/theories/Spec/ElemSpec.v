(** What the elementary functions return at the ends and outside of their domain (C99, annex F.9), without reference
    to the code.  Each predicate speaks of a function from bit patterns to bit patterns. *)
From Verif Require Import Model.Base Spec.Ieee.

Section Unit.
Variable F : fmt.

Definition plus_inf (w : Z) : Prop := is_inf F w /\ neg F w = false.
Definition minus_inf (w : Z) : Prop := is_inf F w /\ neg F w = true.
Definition over (w n : Z) : Prop := ~ is_nan F w /\ n * one F < val F w.
Definition under (w n : Z) : Prop := ~ is_nan F w /\ val F w < n * one F.
Definition equals (w n : Z) : Prop := ~ is_nan F w /\ val F w = n * one F.

(** [w] is pi / c with the sign [s], rounded; twenty digits of pi decide it. *)
Definition pi_over (c : Z) (s : bool) (w : Z) : Prop :=
  rounds F ((if s then -1 else 1) * (31415926535897932385 * one F)) (10 ^ 19 * c) w.

(** A NaN gives a NaN. *)
Definition nan_to_nan (f : Z -> Z) : Prop := forall x, word F x -> is_nan F x -> is_nan F (f x).

(** F.9.3.7, .8, .10 *)
Definition log_ends (f : Z -> Z) : Prop := nan_to_nan f /\ forall x, word F x ->
  (is_zero F x -> minus_inf (f x)) /\ (under x 0 -> is_nan F (f x)) /\ (plus_inf x -> f x = x).
(** F.9.3.1; beyond 89 the result is above all floats, below -104 under half the smallest one. *)
Definition exp_ends (f : Z -> Z) : Prop := nan_to_nan f /\ forall x, word F x ->
  (plus_inf x -> f x = x) /\ (minus_inf x -> f x = 0) /\ (over x 89 -> plus_inf (f x)) /\ (under x (-104) -> f x = 0).
(** F.9.1.1 *)
Definition acos_ends (f : Z -> Z) : Prop := nan_to_nan f /\ forall x, word F x ->
  (over x 1 \/ under x (-1) -> is_nan F (f x)) /\ (equals x 1 -> f x = 0) /\ (equals x (-1) -> pi_over 1 false (f x)).
(** F.9.1.2 *)
Definition asin_ends (f : Z -> Z) : Prop := nan_to_nan f /\ forall x, word F x ->
  (over x 1 \/ under x (-1) -> is_nan F (f x)) /\ (is_zero F x -> f x = x) /\
  (equals x 1 \/ equals x (-1) -> pi_over 2 (neg F x) (f x)).
(** F.9.1.3 *)
Definition atan_ends (f : Z -> Z) : Prop := nan_to_nan f /\ forall x, word F x ->
  (is_zero F x -> f x = x) /\ (is_inf F x -> pi_over 2 (neg F x) (f x)).
(** F.9.2.1 *)
Definition acosh_ends (f : Z -> Z) : Prop := nan_to_nan f /\ forall x, word F x ->
  (under x 1 -> is_nan F (f x)) /\ (equals x 1 -> f x = 0) /\ (plus_inf x -> f x = x).
(** F.9.2.3 *)
Definition atanh_ends (f : Z -> Z) : Prop := nan_to_nan f /\ forall x, word F x ->
  (over x 1 \/ under x (-1) -> is_nan F (f x)) /\ (is_zero F x -> f x = x) /\
  (equals x 1 \/ equals x (-1) -> is_inf F (f x) /\ neg F (f x) = neg F x).
(** F.9.2.4; beyond 90 the result is above all floats. *)
Definition cosh_ends (f : Z -> Z) : Prop := nan_to_nan f /\ forall x, word F x ->
  (is_inf F x \/ over x 90 \/ under x (-90) -> plus_inf (f x)).
(** F.9.2.5 *)
Definition sinh_ends (f : Z -> Z) : Prop := nan_to_nan f /\ forall x, word F x ->
  (is_zero F x \/ is_inf F x -> f x = x).
(** F.9.2.6 *)
Definition tanh_ends (f : Z -> Z) : Prop := nan_to_nan f /\ forall x, word F x ->
  (is_zero F x -> f x = x) /\ (plus_inf x -> equals (f x) 1) /\ (minus_inf x -> equals (f x) (-1)).
(** F.9.4.1 *)
Definition cbrt_ends (f : Z -> Z) : Prop := nan_to_nan f /\ forall x, word F x ->
  (is_zero F x \/ is_inf F x -> f x = x).
(** F.9.1.5, .6, .7 *)
Definition trig_ends (f : Z -> Z) : Prop := nan_to_nan f /\ forall x, word F x -> is_inf F x -> is_nan F (f x).
End Unit.
