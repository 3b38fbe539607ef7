(** What the mathematical functions of libpok/libm should return (C99, 7.12 and
    annex F), in terms of the values of Spec/Ieee.v. *)
From Verif Require Import Model.Base Spec.Ieee.

(** [r] is the greatest integer not above [w], with the sign of [w]. *)
Definition floor_of (F : fmt) (w r : Z) : Prop :=
  word F r /\ finite F r /\ neg F r = neg F w /\
  exists n, val F r = n * one F /\ n * one F <= val F w < (n + 1) * one F.

(** The least integer not below [w]. *)
Definition ceil_of (F : fmt) (w r : Z) : Prop :=
  word F r /\ finite F r /\ neg F r = neg F w /\
  exists n, val F r = n * one F /\ (n - 1) * one F < val F w <= n * one F.

(** The integer nearest to [w] but no greater in magnitude. *)
Definition trunc_of (F : fmt) (w r : Z) : Prop :=
  word F r /\ finite F r /\ neg F r = neg F w /\
  exists n, val F r = n * one F /\
    Z.abs (n * one F) <= Z.abs (val F w) < Z.abs (n * one F) + one F.

(** The nearest integer, halfway cases to the even one. *)
Definition rint_of (F : fmt) (w r : Z) : Prop :=
  word F r /\ finite F r /\ neg F r = neg F w /\
  exists n, val F r = n * one F /\ nearest_even F (val F w) n.

(** The nearest integer, halfway cases away from 0. *)
Definition round_of (F : fmt) (w r : Z) : Prop :=
  word F r /\ finite F r /\ neg F r = neg F w /\
  exists n, val F r = n * one F /\ nearest_away F (val F w) n.

(** A function that returns NaN for NaN and infinities unchanged. *)
Definition passes_special (F : fmt) (f : Z -> Z) : Prop :=
  forall w, word F w ->
    (is_nan F w -> is_nan F (f w)) /\ (is_inf F w -> f w = w).

(** [r] is the neighbour of [x] on the side of [y] (7.12.11.3); infinities are the neighbours of the greatest finite
    numbers ([val] reads their patterns as numbers beyond all finite ones).  A zero has the sign of [x]. *)
Definition next_toward (F : fmt) (x y r : Z) : Prop :=
  word F r /\ ~ is_nan F r /\
  (val F x < val F y -> val F x < val F r /\
     forall v, word F v -> ~ is_nan F v -> val F x < val F v -> val F r <= val F v) /\
  (val F y < val F x -> val F r < val F x /\
     forall v, word F v -> ~ is_nan F v -> val F v < val F x -> val F v <= val F r) /\
  (val F r = 0 -> neg F r = neg F x).

(** [r] is x * 2^n, rounded (7.12.6.6, 7.12.6.13). *)
Definition scaled (F : fmt) (x n r : Z) : Prop :=
  if 0 <=? n then rounds F (val F x * 2 ^ n) 1 r else rounds F (val F x) (2 ^ (- n)) r.

(** [f] is at least 1/2 and below 1 in magnitude, and x = f * 2^e exactly (7.12.6.4). *)
Definition frexp_of (F : fmt) (x f e : Z) : Prop :=
  word F f /\ finite F f /\ neg F f = neg F x /\
  one F <= 2 * Z.abs (val F f) < 2 * one F /\
  if 0 <=? e then val F x = val F f * 2 ^ e else val F x * 2 ^ (- e) = val F f.

(** 2^e is the greatest power of two not above |x| (7.12.6.5, 7.12.6.11); the exponent of the unit is added. *)
Definition exponent_of (F : fmt) (x e : Z) : Prop :=
  let u := bias F + mb F - 1 + e in
  0 <= u /\ 2 ^ u <= Z.abs (val F x) < 2 * 2 ^ u.

(** [i] is the integer part, [f] the rest, both with the sign of [x] (7.12.6.12). *)
Definition modf_of (F : fmt) (x f i : Z) : Prop :=
  trunc_of F x i /\ word F f /\ finite F f /\ neg F f = neg F x /\ val F f = val F x - val F i.

(** [r] is the square root of [x], rounded to nearest (7.12.7.5, F.9.4.5): the root lies on [r]'s side of the middle
    between [r] and any other number.  In units the root is sqrt (val x * one), so its double is compared with the
    sum of the two numbers, both squared.  No root of a number of the format lies on such a middle. *)
Definition sqrt_of (F : fmt) (x r : Z) : Prop :=
  word F r /\ finite F r /\ neg F r = false /\
  forall v, word F v -> finite F v -> neg F v = false ->
    (val F v < val F r -> (val F v + val F r) ^ 2 < 4 * (val F x * one F)) /\
    (val F r < val F v -> 4 * (val F x * one F) < (val F v + val F r) ^ 2).

(** [r] is what is left of [x] after subtracting a multiple of [y], smaller than [y], with the sign of [x], exactly
    (7.12.10.1). *)
Definition fmod_of (F : fmt) (x y r : Z) : Prop :=
  word F r /\ finite F r /\ neg F r = neg F x /\ Z.abs (val F r) < Z.abs (val F y) /\
  exists k, val F x = k * val F y + val F r.

(** [r] is x - n * y, exactly, for the integer n nearest to x / y, the even one of two; a zero has the sign of [x]
    (7.12.10.2). *)
Definition remainder_of (F : fmt) (x y r : Z) : Prop :=
  word F r /\ finite F r /\ (val F r = 0 -> neg F r = neg F x) /\
  exists n, val F x = n * val F y + val F r /\ 2 * Z.abs (val F r) <= Z.abs (val F y) /\
    (2 * Z.abs (val F r) = Z.abs (val F y) -> Z.Even n).
