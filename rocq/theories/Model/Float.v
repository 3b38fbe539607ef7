(** The floating-point operations libpok/libm relies on the processor for.

    Assumed here: every operation on [float] (or [double]) operands is carried
    out in that format, rounded to nearest even, as IEEE 754 prescribes.  That
    is what a processor with FLT_EVAL_METHOD 0 does (PowerPC, SPARC, x86 with
    SSE); the excess precision of the x87 unit is not modelled.  Exception
    flags are not modelled.  Proof/FloatRound.v shows that [fadd], [fsub], [fmul]
    and [fdiv] satisfy the rounding relation of Spec/Ieee.v. *)
From Verif Require Import Model.Base Spec.Ieee.

Section Unit.
Variable F : fmt.

Definition nanb (w : Z) : bool := infw F <? absw F w.
Definition infb (w : Z) : bool := absw F w =? infw F.

(** Which NaN comes out: the first NaN operand made quiet, or the default one. *)
Definition quiet (w : Z) : Z := Z.lor w (2 ^ (mb F - 1)).
Definition dnan : Z := infw F + 2 ^ (mb F - 1).

Definition sbit (s : bool) : Z := if s then sgnw F else 0.

(** The exact value [n / d] (not negative), rounded to nearest even, with sign [s]. *)
Definition rnd (s : bool) (n d : Z) : Z :=
  let k := Z.max 0 (Z.log2 (n / d) - mb F) in
  let u := d * 2 ^ k in
  let q := n / u in
  let r := n mod u in
  let q' := if (2 * r <? u) || ((2 * r =? u) && Z.even q) then q else q + 1 in
  let a := k * 2 ^ mb F + q' in
  sbit s + (if infw F <=? a then infw F else a).

(** Unary minus. *)
Definition fneg (x : Z) : Z := sbit (negb (neg F x)) + absw F x.

(** x + y *)
Definition fadd (x y : Z) : Z :=
  if nanb x then quiet x else if nanb y then quiet y else
  if infb x then
    (if infb y && negb (Bool.eqb (neg F x) (neg F y)) then dnan else x)
  else if infb y then y else
  let v := val F x + val F y in
  if v =? 0 then sbit (neg F x && neg F y)
  else rnd (v <? 0) (Z.abs v) 1.

(** x - y *)
Definition fsub (x y : Z) : Z :=
  if nanb x then quiet x else if nanb y then quiet y else fadd x (fneg y).

(** x * y *)
Definition fmul (x y : Z) : Z :=
  if nanb x then quiet x else if nanb y then quiet y else
  let s := xorb (neg F x) (neg F y) in
  if infb x || infb y then
    (if (absw F x =? 0) || (absw F y =? 0) then dnan else sbit s + infw F)
  else rnd s (mag F (absw F x) * mag F (absw F y)) (one F).

(** x / y *)
Definition fdiv (x y : Z) : Z :=
  if nanb x then quiet x else if nanb y then quiet y else
  let s := xorb (neg F x) (neg F y) in
  if infb x then (if infb y then dnan else sbit s + infw F)
  else if infb y then sbit s
  else if absw F y =? 0 then (if absw F x =? 0 then dnan else sbit s + infw F)
  else rnd s (mag F (absw F x) * one F) (mag F (absw F y)).

(** Comparisons; false when an operand is a NaN.  The key orders the patterns
    as their values, infinities included, with equal zeros. *)
Definition key (w : Z) : Z := if neg F w then - absw F w else absw F w.
Definition ordered (x y : Z) : bool := negb (nanb x) && negb (nanb y).
Definition flt (x y : Z) : bool := ordered x y && (key x <? key y).
Definition fle (x y : Z) : bool := ordered x y && (key x <=? key y).
Definition feq (x y : Z) : bool := ordered x y && (key x =? key y).

(** Conversion of an int. *)
Definition of_int (n : Z) : Z := rnd (n <? 0) (Z.abs n * one F) 1.

End Unit.
