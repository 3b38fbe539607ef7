(** What pow returns for zeros, infinities, NaN and negative bases (C99, F.9.4.4), without reference to the code. *)
From Verif Require Import Model.Base Spec.Ieee Spec.ElemSpec.

Section Unit.
Variable F : fmt.

Definition odd_integer (y : Z) : Prop := exists n, val F y = n * one F /\ Z.odd n = true.
Definition integer (y : Z) : Prop := exists n, val F y = n * one F.
Definition above_zero (y : Z) : Prop := over F y 0.
Definition below_zero (y : Z) : Prop := under F y 0.

Definition gives (f : Z -> Z -> option Z) (x y : Z) (P : Z -> Prop) : Prop := exists r, f x y = Some r /\ P r.
Definition zero_of (s : bool) (r : Z) : Prop := is_zero F r /\ neg F r = s.
Definition inf_of (s : bool) (r : Z) : Prop := is_inf F r /\ neg F r = s.

(** An exponent of zero gives 1, even for NaN. *)
Definition pow_exponent_zero (f : Z -> Z -> option Z) : Prop := forall x y, word F x -> word F y ->
  is_zero F y -> gives f x y (fun r => equals F r 1).
(** The base 1 gives 1, even for NaN; the base -1 with an infinite exponent gives 1. *)
Definition pow_base_one (f : Z -> Z -> option Z) : Prop := forall x y, word F x -> word F y ->
  equals F x 1 \/ equals F x (-1) /\ is_inf F y -> gives f x y (fun r => equals F r 1).
(** All other NaN give NaN. *)
Definition pow_nan (f : Z -> Z -> option Z) : Prop := forall x y, word F x -> word F y ->
  ~ is_zero F y -> is_nan F x \/ is_nan F y /\ ~ equals F x 1 -> gives f x y (is_nan F).
(** Infinite exponents. *)
Definition pow_exponent_inf (f : Z -> Z -> option Z) : Prop := forall x y, word F x -> word F y -> is_inf F y ->
  (over F x 1 \/ under F x (-1) -> gives f x y (if neg F y then zero_of false else inf_of false)) /\
  (over F x (-1) /\ under F x 1 -> gives f x y (if neg F y then inf_of false else zero_of false)).
(** Zeros and infinities as base. *)
Definition pow_base_zero (f : Z -> Z -> option Z) : Prop := forall x y, word F x -> word F y -> finite F y -> is_zero F x ->
  (above_zero y -> odd_integer y -> gives f x y (zero_of (neg F x))) /\
  (above_zero y -> ~ odd_integer y -> gives f x y (zero_of false)) /\
  (below_zero y -> odd_integer y -> gives f x y (inf_of (neg F x))) /\
  (below_zero y -> ~ odd_integer y -> gives f x y (inf_of false)).
Definition pow_base_inf (f : Z -> Z -> option Z) : Prop := forall x y, word F x -> word F y -> finite F y -> is_inf F x ->
  (above_zero y -> odd_integer y -> gives f x y (inf_of (neg F x))) /\
  (above_zero y -> ~ odd_integer y -> gives f x y (inf_of false)) /\
  (below_zero y -> odd_integer y -> gives f x y (zero_of (neg F x))) /\
  (below_zero y -> ~ odd_integer y -> gives f x y (zero_of false)).
(** A negative number to a power that is no integer. *)
Definition pow_negative (f : Z -> Z -> option Z) : Prop := forall x y, word F x -> word F y -> finite F x -> finite F y ->
  under F x 0 -> ~ integer y -> gives f x y (is_nan F).
End Unit.
