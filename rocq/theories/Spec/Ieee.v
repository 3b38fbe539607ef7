(** Binary floating-point numbers as IEEE 754 defines them (2008, 3.4 and 4.3),
    written without reference to the code under study.

    A number is given by its bit pattern, read as an integer.  The finite
    values of a format are all multiples of its smallest positive number, so
    they are integers when counted in that unit: 2^-149 for the 32-bit
    format, 2^-1074 for the 64-bit one.  [one] is the number 1 counted so. *)
From Verif Require Import Model.Base.

(** A format: the widths of the fraction field and of the exponent field. *)
Record fmt := Fmt { mb : Z; eb : Z }.
Definition single := Fmt 23 8.
Definition double := Fmt 52 11.

(** Weight of the sign bit, pattern of infinity without sign. *)
Definition sgnw (F : fmt) : Z := 2 ^ (mb F + eb F).
Definition infw (F : fmt) : Z := (2 ^ eb F - 1) * 2 ^ mb F.

Definition word (F : fmt) (w : Z) : Prop := 0 <= w < 2 * sgnw F.
Definition neg (F : fmt) (w : Z) : bool := sgnw F <=? w.
Definition absw (F : fmt) (w : Z) : Z := w mod sgnw F.

Definition is_nan (F : fmt) (w : Z) : Prop := infw F < absw F w.
Definition is_inf (F : fmt) (w : Z) : Prop := absw F w = infw F.
Definition finite (F : fmt) (w : Z) : Prop := absw F w < infw F.
Definition is_zero (F : fmt) (w : Z) : Prop := absw F w = 0.
Definition subnormal (F : fmt) (w : Z) : Prop := 0 < absw F w < 2 ^ mb F.
Definition normal (F : fmt) (w : Z) : Prop := 2 ^ mb F <= absw F w < infw F.

(** The value of a pattern without sign: exponent field [e], fraction [m];
    fraction alone when [e] is 0, with the hidden bit otherwise. *)
Definition mag (F : fmt) (a : Z) : Z :=
  let e := a / 2 ^ mb F in
  let m := a mod 2 ^ mb F in
  if e =? 0 then m else (2 ^ mb F + m) * 2 ^ (e - 1).

(** The value of a finite pattern. *)
Definition val (F : fmt) (w : Z) : Z :=
  if neg F w then - mag F (absw F w) else mag F (absw F w).

Definition bias (F : fmt) : Z := 2 ^ (eb F - 1) - 1.
Definition one (F : fmt) : Z := 2 ^ (bias F + mb F - 1).

(** [w] is the result of rounding the exact value [n / d] to the nearest
    number of the format, to the even one of two equally near (4.3.1):
    no finite number is nearer, and one equally near is [w] or odd.  Values
    from halfway beyond the greatest finite number on become infinity. *)
Definition limit (F : fmt) : Z := (2 ^ (mb F + 2) - 1) * 2 ^ (2 ^ eb F - 4).

Definition rounds (F : fmt) (n d : Z) (w : Z) : Prop :=
  word F w /\
  (n < 0 -> neg F w = true) /\ (0 < n -> neg F w = false) /\
  (if Z.abs n <? limit F * d then
     finite F w /\
     (forall v, word F v -> finite F v ->
        Z.abs (val F w * d - n) <= Z.abs (val F v * d - n)) /\
     (forall v, word F v -> finite F v ->
        Z.abs (val F w * d - n) = Z.abs (val F v * d - n) ->
        val F v <> val F w -> Z.Even (absw F w))
   else is_inf F w).

(** The integer nearest to a value, the even one of two (5.9). *)
Definition nearest_even (F : fmt) (x n : Z) : Prop :=
  2 * Z.abs (x - n * one F) <= one F /\
  (2 * Z.abs (x - n * one F) = one F -> Z.Even n).

(** The integer nearest to a value, the one farther from 0 of two. *)
Definition nearest_away (F : fmt) (x n : Z) : Prop :=
  2 * Z.abs (x - n * one F) <= one F /\
  (2 * Z.abs (x - n * one F) = one F -> Z.abs x < Z.abs (n * one F)).
