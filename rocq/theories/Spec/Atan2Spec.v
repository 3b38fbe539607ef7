(** What atan2 and hypot return for zeros, infinities and NaN (C99, F.9.1.4 and F.9.4.3), without reference to the code. *)
From Verif Require Import Model.Base Spec.Ieee Spec.ElemSpec.

Section Unit.
Variable F : fmt.

(** pi with the sign [s]: rounded to nearest, or rounded towards zero. *)
Definition pi_nearest (s : bool) (w : Z) : Prop := pi_over F 1 s w.
Definition pi_cut (s : bool) (w : Z) : Prop := neg F w = s /\ finite F w /\
  mag F (absw F w) * 10 ^ 19 <= 31415926535897932385 * one F < mag F (absw F w + 1) * 10 ^ 19.
(** Three quarters of pi, rounded. *)
Definition pi_three_quarters (s : bool) (w : Z) : Prop :=
  rounds F ((if s then -1 else 1) * (3 * 31415926535897932385 * one F)) (10 ^ 19 * 4) w.

(** The results but for those that are pi. *)
Definition atan2_ends (f : Z -> Z -> Z) : Prop := forall y x, word F y -> word F x ->
  (is_nan F x \/ is_nan F y -> is_nan F (f y x)) /\
  (is_zero F y -> ~ is_nan F x -> neg F x = false -> f y x = y) /\
  (is_zero F x -> ~ is_nan F y -> ~ is_zero F y -> pi_over F 2 (neg F y) (f y x)) /\
  (is_inf F x -> neg F x = false -> finite F y -> is_zero F (f y x) /\ neg F (f y x) = neg F y) /\
  (is_inf F y -> finite F x -> pi_over F 2 (neg F y) (f y x)) /\
  (is_inf F y -> is_inf F x -> neg F x = false -> pi_over F 4 (neg F y) (f y x)) /\
  (is_inf F y -> is_inf F x -> neg F x = true -> pi_three_quarters (neg F y) (f y x)).
(** Those that are pi, for one reading of "pi". *)
Definition atan2_pi (pi : bool -> Z -> Prop) (f : Z -> Z -> Z) : Prop := forall y x, word F y -> word F x ->
  neg F x = true -> (is_zero F y /\ ~ is_nan F x) \/ (is_inf F x /\ finite F y) -> pi (neg F y) (f y x).

Definition hypot_ends (f : Z -> Z -> option Z) : Prop := forall x y, word F x -> word F y ->
  (is_inf F x \/ is_inf F y -> exists r, f x y = Some r /\ plus_inf F r) /\
  (is_nan F x /\ ~ is_inf F y \/ is_nan F y /\ ~ is_inf F x -> exists r, f x y = Some r /\ is_nan F r) /\
  (finite F x -> is_zero F y -> f x y = Some (absw F x)) /\
  (finite F y -> is_zero F x -> f x y = Some (absw F y)).

(** When the root of x^2 + y^2 is a number z of the format, the result is z up to a millionth of it. *)
Definition hypot_of (f : Z -> Z -> option Z) (x y : Z) : Prop := forall z, word F z -> finite F z -> neg F z = false ->
  val F z * val F z = val F x * val F x + val F y * val F y ->
  exists r, f x y = Some r /\ finite F r /\ 1000000 * Z.abs (val F r - val F z) <= val F z.
End Unit.
