(** What scalb and significand promise (IEEE 754-1985, appendix; POSIX.1-2001 scalb), without reference to the code. *)
From Verif Require Import Model.Base Spec.Ieee Spec.LibmSpec.

(** The second argument is the integer [n]. *)
Definition is_int (F : fmt) (w n : Z) : Prop := val F w = n * one F.

(** scalb of two finite numbers: x * 2^n rounded when [fn] is the integer [n], NaN when it is none; zero is returned as
    it is. *)
Definition scalb_finite (F : fmt) (x fn r : Z) : Prop :=
  (forall n, is_int F fn n -> scaled F x n r /\ (is_zero F x -> r = x)) /\
  ((forall n, ~ is_int F fn n) -> is_nan F r).

(** scalb when one argument is no finite number: NaN wherever an argument is NaN, the other one is then of no
    consequence; infinity stays infinity under an integer; an infinite [fn] makes everything infinite or zero, with the
    sign of [x], but 0 * 2^inf and inf * 2^-inf are NaN. *)
Definition scalb_other (F : fmt) (x fn r : Z) : Prop :=
  (is_nan F x \/ is_nan F fn -> is_nan F r) /\
  (is_inf F x -> finite F fn -> (forall n, is_int F fn n -> r = x) /\ ((forall n, ~ is_int F fn n) -> is_nan F r)) /\
  (~ is_nan F x -> is_inf F fn -> neg F fn = false ->
     (is_zero F x -> is_nan F r) /\ (~ is_zero F x -> is_inf F r /\ neg F r = neg F x)) /\
  (~ is_nan F x -> is_inf F fn -> neg F fn = true ->
     (is_inf F x -> is_nan F r) /\ (finite F x -> is_zero F r /\ neg F r = neg F x)).

(** [r] is at least 1 and below 2 in magnitude, with the sign of [x], and x = r * 2^e exactly for some [e]. *)
Definition significand_of (F : fmt) (x r : Z) : Prop :=
  word F r /\ finite F r /\ neg F r = neg F x /\ one F <= Z.abs (val F r) < 2 * one F /\
  exists e, if 0 <=? e then val F x = val F r * 2 ^ e else val F x * 2 ^ (- e) = val F r.
