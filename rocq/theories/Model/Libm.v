(** The bit-level functions of libpok/libm (compiled when POK_NEEDS_LIBMATH is
    defined): classification, sign, rounding to integers, scaling,
    neighbours.

    A [float] or [double] is its bit pattern.  C integers are as in
    Model/Base.v; left shifts of signed integers wrap (as GCC defines them),
    additions of signed integers that leave the range and shifts by the width
    of the operand are undefined behaviour where they can happen ([None]). *)
From Verif Require Import Model.Base Spec.Ieee Model.Float.

(** ** Access to the words (math_private.h:104-192) *)

(** GET_FLOAT_WORD into an int32_t, SET_FLOAT_WORD (math_private.h:177-192). *)
Definition get_float (w : Z) : Z := s32 w.
Definition set_float (i : Z) : Z := u32 i.

(** The union of math_private.h:90-98 has [lsw] first whatever the processor,
    because BYTE_ORDER and LITTLE_ENDIAN are defined nowhere and both read as 0.
    [be] says whether the processor stores the more significant word first
    (PowerPC and SPARC do).  [hi], [lo]: GET_HIGH_WORD, GET_LOW_WORD and the
    two halves of EXTRACT_WORDS; [ins], [set_hi]: INSERT_WORDS, SET_HIGH_WORD
    (math_private.h:104-155). *)
Definition hi (be : bool) (d : Z) : Z := if be then d mod 2 ^ 32 else d / 2 ^ 32.
Definition lo (be : bool) (d : Z) : Z := if be then d / 2 ^ 32 else d mod 2 ^ 32.
Definition ins (be : bool) (h l : Z) : Z :=
  if be then u32 l * 2 ^ 32 + u32 h else u32 h * 2 ^ 32 + u32 l.
Definition set_hi (be : bool) (d h : Z) : Z := ins be h (lo be d).

(** [not32 i] is [~i] of a uint32_t. *)
Definition not32 (i : Z) : Z := u32 (Z.lnot i).

(** Constants of the sources, as patterns. *)
Definition f_huge := 0x7149f2ca.       (* 1.0e30F  = 0x7149f2ca, floorf.c:44 *)
Definition f_tiny := 0xda24260.        (* 1.0e-30F = 0x0da24260, scalbnf.c:37 *)
Definition f_one := 0x3f800000.        (* 1.0F     = 0x3f800000 *)
Definition f_half := 0x3f000000.       (* 0.5F     = 0x3f000000 *)
Definition f_two23 := 0x4b000000.      (* 2^23     = 0x4b000000, rintf.c:36 *)
Definition f_two25 := 0x4c000000.      (* 2^25     = 0x4c000000, frexpf.c:35 *)
Definition f_twom25 := 0x33000000.      (* 2^-25    = 0x33000000, scalbnf.c:36 *)
Definition d_huge := 0x7e37e43c8800759c. (* 1.0e300  = 0x7e37e43c8800759c, floor.c:40 *)
Definition d_tiny := 0x1a56e1fc2f8f359.  (* 1.0e-300 = 0x01a56e1fc2f8f359, scalbn.c:42 *)
Definition d_one := 0x3ff0000000000000.  (* 1.0      = 0x3ff0000000000000 *)
Definition d_half := 0x3fe0000000000000. (* 0.5      = 0x3fe0000000000000 *)
Definition d_two52 := 0x4330000000000000. (* 2^52    = 0x4330000000000000, rint.c:43 *)
Definition d_two54 := 0x4350000000000000. (* 2^54    = 0x4350000000000000, scalbn.c:40 *)
Definition d_twom54 := 0x3c90000000000000. (* 2^-54  = 0x3c90000000000000, scalbn.c:41 *)

(** ** Single precision *)

(** fabsf.c:40-45 *)
Definition c_fabsf (w : Z) : Z := set_float (Z.land w 0x7fffffff).

(** copysignf.c:39-45 *)
Definition c_copysignf (x y : Z) : Z :=
  set_float (Z.lor (Z.land x 0x7fffffff) (Z.land y 0x80000000)).

(** isnanf.c:39-45 *)
Definition c_isnanf (w : Z) : Z :=
  let ix := Z.land (get_float w) 0x7fffffff in
  let ix := s32 (0x7f800000 - ix) in
  Z.shiftr (u32 ix) 31.

(** isinff.c:30-36 *)
Definition c_isinff (w : Z) : Z :=
  let ix := Z.land (get_float w) 0x7fffffff in
  if Z.lxor ix 0x7f800000 =? 0 then 1 else 0.

(** finitef.c:40-44 *)
Definition c_finitef (w : Z) : Z :=
  let ix := get_float w in
  Z.shiftr (u32 (Z.land ix 0x7fffffff - 0x7f800000)) 31.

(** __fpclassifyf, fpclassify.c:21-38; the codes are those of libm.h:30-34. *)
Definition FP_NAN := 1.
Definition FP_INFINITE := 2.
Definition FP_NORMAL := 3.
Definition FP_SUBNORMAL := 4.
Definition FP_ZERO := 5.
Definition c_fpclassifyf (w : Z) : Z :=
  if (w =? 0) || (w =? 0x80000000) then FP_ZERO
  else if ((0x800000 <=? w) && (w <=? 0x7f7fffff)) ||
          ((0x80800000 <=? w) && (w <=? 0xff7fffff)) then FP_NORMAL
  else if ((1 <=? w) && (w <=? 0x7fffff)) ||
          ((0x80000001 <=? w) && (w <=? 0x807fffff)) then FP_SUBNORMAL
  else if (w =? 0x7f800000) || (w =? 0xff800000) then FP_INFINITE
  else FP_NAN.

(** jj0, the unbiased exponent (floorf.c:50 and others). *)
Definition f_exp (i0 : Z) : Z := Z.land (Z.shiftr i0 23) 255 - 127.
(** i, the mask of the fraction bits (floorf.c:61 and others). *)
Definition f_mask (j : Z) : Z := Z.shiftr 0x7fffff j.
(** huge + x > 0.0 (floorf.c:53,64 and others). *)
Definition f_inexact (w : Z) : bool := flt single 0 (fadd single f_huge w).

(** floorf.c:46-78 *)
Definition c_floorf (w : Z) : Z :=
  let i0 := get_float w in
  let j := f_exp i0 in
  if j <? 23 then
    if j <? 0 then
      set_float
        (if f_inexact w then
           if 0 <=? i0 then 0
           else if negb (Z.land i0 0x7fffffff =? 0) then s32 0xbf800000 else i0
         else i0)
    else
      let i := f_mask j in
      if Z.land (u32 i0) i =? 0 then w
      else set_float
        (if f_inexact w then
           let i0 := if i0 <? 0 then s32 (i0 + Z.shiftr 0x800000 j) else i0 in
           s32 (Z.land (u32 i0) (not32 i))
         else i0)
  else if j =? 128 then fadd single w w else w.

(** ceilf.c:35-68 *)
Definition c_ceilf (w : Z) : Z :=
  let i0 := get_float w in
  let j := f_exp i0 in
  if j <? 23 then
    if j <? 0 then
      set_float
        (if f_inexact w then
           if i0 <? 0 then s32 0x80000000
           else if negb (i0 =? 0) then 0x3f800000 else i0
         else i0)
    else
      let i := f_mask j in
      if Z.land (u32 i0) i =? 0 then w
      else set_float
        (if f_inexact w then
           let i0 := if 0 <? i0 then s32 (i0 + Z.shiftr 0x800000 j) else i0 in
           s32 (Z.land (u32 i0) (not32 i))
         else i0)
  else if j =? 128 then fadd single w w else w.

(** truncf.c:43-67 *)
Definition c_truncf (w : Z) : Z :=
  let i0 := get_float w in
  let j := f_exp i0 in
  if j <? 23 then
    if j <? 0 then
      set_float (if f_inexact w then s32 (Z.land (u32 i0) 0x80000000) else i0)
    else
      let i := f_mask j in
      if Z.land (u32 i0) i =? 0 then w
      else set_float
        (if f_inexact w then s32 (Z.land (u32 i0) (not32 i)) else i0)
  else if j =? 128 then fadd single w w else w.

(** TWO23[sx] (rintf.c:35-38). *)
Definition f_TWO23 (sx : Z) : Z := if sx =? 0 then f_two23 else 0xcb000000.

(** rintf.c:40-81 *)
Definition c_rintf (w : Z) : Z :=
  let i0 := get_float w in
  let sx := Z.land (Z.shiftr i0 31) 1 in
  let j := f_exp i0 in
  if j <? 23 then
    if j <? 0 then
      if Z.land i0 0x7fffffff =? 0 then w else
      let i1 := u32 (Z.land i0 0x7fffff) in
      let i0 := s32 (Z.land (u32 i0) 0xfff00000) in
      let i0 := s32 (Z.lor (u32 i0)
                  (Z.land (Z.shiftr (Z.lor i1 (u32 (- i1))) 9) 0x400000)) in
      let x := set_float i0 in
      let v := fadd single (f_TWO23 sx) x in
      let t := fsub single v (f_TWO23 sx) in
      let i0 := get_float t in
      set_float (Z.lor (Z.land i0 0x7fffffff) (s32 (Z.shiftl sx 31)))
    else
      let i := f_mask j in
      if Z.land (u32 i0) i =? 0 then w
      else
        let i := Z.shiftr i 1 in
        let i0 := if negb (Z.land (u32 i0) i =? 0)
                  then s32 (Z.lor (Z.land (u32 i0) (not32 i)) (Z.shiftr 0x100000 j))
                  else i0 in
        let x := set_float i0 in
        let v := fadd single (f_TWO23 sx) x in
        fsub single v (f_TWO23 sx)
  else if j =? 128 then fadd single w w else w.

(** roundf.c:45-65; 0.5 and 1.0 are double constants, which compare and add
    exactly as the float ones do on the values that reach them. *)
Definition c_roundf (x : Z) : Z :=
  let i := c_fpclassifyf x in
  if (i =? FP_INFINITE) || (i =? FP_NAN) then x else
  if fle single 0 x then
    let t := c_floorf x in
    if fle single f_half (fsub single x t) then fadd single t f_one else t
  else
    let x := fneg single x in
    let t := c_floorf x in
    let t := if fle single f_half (fsub single x t) then fadd single t f_one else t in
    fneg single t.

(** modff.c:37-66: the result and *iptr. *)
Definition c_modff (w : Z) : Z * Z :=
  let i0 := get_float w in
  let j := f_exp i0 in
  if j <? 23 then
    if j <? 0 then (w, set_float (Z.land (u32 i0) 0x80000000))
    else
      let i := f_mask j in
      if Z.land (u32 i0) i =? 0 then (set_float (Z.land w 0x80000000), w)
      else
        let ip := set_float (Z.land (u32 i0) (not32 i)) in
        (fsub single w ip, ip)
  else (set_float (Z.land w 0x80000000), fmul single w f_one).

(** frexpf.c:37-54: the result and *eptr. *)
Definition c_frexpf (x : Z) : Z * Z :=
  let hx := get_float x in
  let ix := Z.land 0x7fffffff hx in
  if (0x7f800000 <=? ix) || (ix =? 0) then (x, 0) else
  let '(hx, ix, e) :=
    if ix <? 0x800000 then
      let x := fmul single x f_two25 in
      let hx := get_float x in
      (hx, Z.land hx 0x7fffffff, -25)
    else (hx, ix, 0) in
  let e := s32 (e + (Z.shiftr ix 23 - 126)) in
  let hx := s32 (Z.lor (Z.land (u32 hx) 0x807fffff) 0x3f000000) in
  (set_float hx, e).

(** for (ix = c, hx <<= k; hx > 0; hx <<= 1) ix -= 1 (ilogbf.c:43-44). *)
Fixpoint shift_out (n : nat) (h ix : Z) : option Z :=
  match n with
  | O => None
  | S n => if 0 <? h then shift_out n (s32 (Z.shiftl h 1)) (ix - 1) else Some ix
  end.

(** ilogbf.c:35-51; [None] would be an endless loop. *)
Definition c_ilogbf (x : Z) : option Z :=
  let hx := Z.land (get_float x) 0x7fffffff in
  if hx <? 0x800000 then
    if hx =? 0 then Some (s32 0x80000001)
    else shift_out 32 (s32 (Z.shiftl hx 8)) (-126)
  else if hx <? 0x7f800000 then Some (Z.shiftr hx 23 - 127)
  else Some 0x7fffffff.

(** logbf.c:35-47 *)
Definition c_logbf (x : Z) : Z :=
  let ix := Z.land (get_float x) 0x7fffffff in
  if ix =? 0 then fdiv single 0xbf800000 (c_fabsf x)
  else if 0x7f800000 <=? ix then fmul single x x
  else
    let ix := Z.shiftr ix 23 in
    if ix =? 0 then of_int single (-126) else of_int single (ix - 127).

(** Addition of two ints, undefined when the sum leaves the range. *)
Definition int_add (a b : Z) : option Z :=
  if (-0x80000000 <=? a + b) && (a + b <=? 0x7fffffff) then Some (a + b) else None.

(** scalbnf.c:39-71; [None]: the addition of line 54 overflows. *)
Definition c_scalbnf (x n : Z) : option Z :=
  let ix := get_float x in
  let k := Z.shiftr (Z.land ix 0x7f800000) 23 in
  if (k =? 0) && (Z.land ix 0x7fffffff =? 0) then Some x else
  let x1 := if k =? 0 then fmul single x f_two25 else x in
  let ix1 := if k =? 0 then get_float x1 else ix in
  let k1 := if k =? 0 then Z.shiftr (Z.land ix1 0x7f800000) 23 - 25 else k in
  if (k =? 0) && (n <? -50000) then Some (fmul single f_tiny x1) else
  if k1 =? 255 then Some (fadd single x1 x1) else
  match int_add k1 n with
  | None => None
  | Some k =>
    if 254 <? k then Some (fmul single f_huge (c_copysignf f_huge x1))
    else if 0 <? k then
      Some (set_float (Z.lor (Z.land (u32 ix1) 0x807fffff) (Z.shiftl k 23)))
    else if k <=? -25 then
      if 50000 <? n then Some (fmul single f_huge (c_copysignf f_huge x1))
      else Some (fmul single f_tiny (c_copysignf f_tiny x1))
    else
      let k := k + 25 in
      let x2 := set_float (Z.lor (Z.land (u32 ix1) 0x807fffff) (Z.shiftl k 23)) in
      Some (fmul single x2 f_twom25)
  end.

(** ldexpf.c:36-43 *)
Definition c_ldexpf (x n : Z) : option Z :=
  if (c_finitef x =? 0) || feq single x 0 then Some x else c_scalbnf x n.

(** nextafterf.c:35-81; lines 71-77 only raise a flag: both ways the result has
    the word hx. *)
Definition c_nextafterf (x y : Z) : Z :=
  let hx := get_float x in
  let hy := get_float y in
  let ix := Z.land hx 0x7fffffff in
  let iy := Z.land hy 0x7fffffff in
  if (0x7f800000 <? ix) || (0x7f800000 <? iy) then fadd single x y else
  if feq single x y then x else
  if ix =? 0 then
    let x := set_float (Z.lor (Z.land (u32 hy) 0x80000000) 1) in
    let y := fmul single x x in
    if feq single y x then y else x
  else
    let hx :=
      if 0 <=? hx then (if hy <? hx then hx - 1 else hx + 1)
      else (if (0 <=? hy) || (hy <? hx) then hx - 1 else hx + 1) in
    let hy := Z.land hx 0x7f800000 in
    if 0x7f800000 <=? hy then fadd single x x
    else set_float hx.

(** ** Double precision *)

(** fabs.c:35-40 *)
Definition c_fabs (be : bool) (d : Z) : Z :=
  set_hi be d (Z.land (hi be d) 0x7fffffff).

(** copysign.c:38-44 *)
Definition c_copysign (be : bool) (x y : Z) : Z :=
  set_hi be x (Z.lor (Z.land (hi be x) 0x7fffffff) (Z.land (hi be y) 0x80000000)).

(** isnan.c:36-43; the cast binds closer than the shift (line 42), so an int
    is shifted. *)
Definition c_isnan (be : bool) (d : Z) : Z :=
  let hx := s32 (hi be d) in
  let lx := s32 (lo be d) in
  let hx := Z.land hx 0x7fffffff in
  let hx := s32 (Z.lor hx (Z.shiftr (u32 (Z.lor lx (s32 (- lx)))) 31)) in
  let hx := s32 (0x7ff00000 - hx) in
  Z.shiftr (s32 (u32 hx)) 31.

(** isinf.c:30-37 *)
Definition c_isinf (be : bool) (d : Z) : Z :=
  let hx := Z.land (s32 (hi be d)) 0x7fffffff in
  let hx := Z.lxor hx 0x7ff00000 in
  let hx := Z.lor hx (s32 (lo be d)) in
  if hx =? 0 then 1 else 0.

(** finite.c:37-41 *)
Definition c_finite (be : bool) (d : Z) : Z :=
  Z.shiftr (u32 (Z.land (s32 (hi be d)) 0x7fffffff - 0x7ff00000)) 31.

(** __fpclassifyd, fpclassify.c:40-63 *)
Definition c_fpclassifyd (be : bool) (d : Z) : Z :=
  let msw := hi be d in
  let lsw := lo be d in
  if ((msw =? 0) && (lsw =? 0)) || ((msw =? 0x80000000) && (lsw =? 0)) then FP_ZERO
  else if ((0x100000 <=? msw) && (msw <=? 0x7fefffff)) ||
          ((0x80100000 <=? msw) && (msw <=? 0xffefffff)) then FP_NORMAL
  else if (msw <=? 0xfffff) ||
          ((0x80000000 <=? msw) && (msw <=? 0x800fffff)) then FP_SUBNORMAL
  else if ((msw =? 0x7ff00000) && (lsw =? 0)) ||
          ((msw =? 0xfff00000) && (lsw =? 0)) then FP_INFINITE
  else FP_NAN.

(** jj0 (floor.c:46 and others); the masks of the fraction bits in the high
    word and in the low word (floor.c:58,76 and others). *)
Definition d_exp (i0 : Z) : Z := Z.land (Z.shiftr i0 20) 2047 - 1023.
Definition d_mask_hi (j : Z) : Z := Z.shiftr 0xfffff j.
Definition d_mask_lo (j : Z) : Z := Z.shiftr 0xffffffff (j - 20).
(** huge + x > 0.0 (floor.c:49 and others). *)
Definition d_inexact (d : Z) : bool := flt double 0 (fadd double d_huge d).

(** One step up in the integer part, from the low word (floor.c:81-88, with
    [1 << (52 - jj0)] taken modulo 2^32): the new i0 and i1. *)
Definition d_carry (j i0 i1 : Z) : Z * Z :=
  if j =? 20 then (s32 (i0 + 1), i1)
  else
    let s := u32 (i1 + Z.shiftl 1 (52 - j)) in
    (if s <? u32 i1 then s32 (i0 + 1) else i0, s32 s).

(** floor.c:42-93 *)
Definition c_floor (be : bool) (d : Z) : Z :=
  let i0 := s32 (hi be d) in
  let i1 := s32 (lo be d) in
  let j := d_exp i0 in
  if j <? 20 then
    if j <? 0 then
      if d_inexact d then
        if 0 <=? i0 then ins be 0 0
        else if negb (Z.lor (Z.land i0 0x7fffffff) i1 =? 0)
             then ins be 0xbff00000 0 else ins be i0 i1
      else ins be i0 i1
    else
      let i := d_mask_hi j in
      if Z.lor (Z.land (u32 i0) i) (u32 i1) =? 0 then d
      else if d_inexact d then
        let i0 := if i0 <? 0 then s32 (i0 + Z.shiftr 0x100000 j) else i0 in
        ins be (Z.land (u32 i0) (not32 i)) 0
      else ins be i0 i1
  else if 51 <? j then (if j =? 1024 then fadd double d d else d)
  else
    let i := d_mask_lo j in
    if Z.land (u32 i1) i =? 0 then d
    else if d_inexact d then
      let '(i0, i1) := if i0 <? 0 then d_carry j i0 i1 else (i0, i1) in
      ins be i0 (Z.land (u32 i1) (not32 i))
    else ins be i0 i1.

(** ceil.c:43-95 *)
Definition c_ceil (be : bool) (d : Z) : Z :=
  let i0 := s32 (hi be d) in
  let i1 := s32 (lo be d) in
  let j := d_exp i0 in
  if j <? 20 then
    if j <? 0 then
      if d_inexact d then
        if i0 <? 0 then ins be 0x80000000 0
        else if negb (Z.lor i0 i1 =? 0) then ins be 0x3ff00000 0 else ins be i0 i1
      else ins be i0 i1
    else
      let i := d_mask_hi j in
      if Z.lor (Z.land (u32 i0) i) (u32 i1) =? 0 then d
      else if d_inexact d then
        let i0 := if 0 <? i0 then s32 (i0 + Z.shiftr 0x100000 j) else i0 in
        ins be (Z.land (u32 i0) (not32 i)) 0
      else ins be i0 i1
  else if 51 <? j then (if j =? 1024 then fadd double d d else d)
  else
    let i := d_mask_lo j in
    if Z.land (u32 i1) i =? 0 then d
    else if d_inexact d then
      let '(i0, i1) := if 0 <? i0 then d_carry j i0 i1 else (i0, i1) in
      ins be i0 (Z.land (u32 i1) (not32 i))
    else ins be i0 i1.

(** trunc.c:43-77 *)
Definition c_trunc (be : bool) (d : Z) : Z :=
  let i0 := s32 (hi be d) in
  let i1 := s32 (lo be d) in
  let j := d_exp i0 in
  if j <? 20 then
    if j <? 0 then
      if d_inexact d then ins be (Z.land (u32 i0) 0x80000000) 0 else ins be i0 i1
    else
      let i := d_mask_hi j in
      if Z.lor (Z.land (u32 i0) i) (u32 i1) =? 0 then d
      else if d_inexact d then ins be (Z.land (u32 i0) (not32 i)) 0
      else ins be i0 i1
  else if 51 <? j then (if j =? 1024 then fadd double d d else d)
  else
    let i := d_mask_lo j in
    if Z.land (u32 i1) i =? 0 then d
    else if d_inexact d then ins be i0 (Z.land (u32 i1) (not32 i))
    else ins be i0 i1.

(** TWO52[sx] (rint.c:42-45). *)
Definition d_TWO52 (sx : Z) : Z := if sx =? 0 then d_two52 else 0xc330000000000000.

(** rint.c:47-95 *)
Definition c_rint (be : bool) (d : Z) : Z :=
  let i0 := s32 (hi be d) in
  let i1 := lo be d in
  let sx := Z.land (Z.shiftr i0 31) 1 in
  let j := d_exp i0 in
  if j <? 20 then
    if j <? 0 then
      if Z.lor (u32 (Z.land i0 0x7fffffff)) i1 =? 0 then d else
      let i1 := u32 (Z.lor i1 (Z.land i0 0xfffff)) in
      let i0 := s32 (Z.land (u32 i0) 0xfffe0000) in
      let i0 := s32 (Z.lor (u32 i0)
                  (Z.land (Z.shiftr (Z.lor i1 (u32 (- i1))) 12) 0x80000)) in
      let x := set_hi be d i0 in
      let v := fadd double (d_TWO52 sx) x in
      let t := fsub double v (d_TWO52 sx) in
      let i0 := s32 (hi be t) in
      set_hi be t (Z.lor (Z.land i0 0x7fffffff) (s32 (Z.shiftl sx 31)))
    else
      let i := d_mask_hi j in
      if Z.lor (Z.land (u32 i0) i) i1 =? 0 then d
      else
        let i := Z.shiftr i 1 in
        let '(i0, i1) :=
          if negb (Z.lor (Z.land (u32 i0) i) i1 =? 0) then
            if j =? 19 then (i0, 0x40000000)
            else (s32 (Z.lor (Z.land (u32 i0) (not32 i)) (Z.shiftr 0x20000 j)), i1)
          else (i0, i1) in
        let x := ins be i0 i1 in
        let v := fadd double (d_TWO52 sx) x in
        fsub double v (d_TWO52 sx)
  else if 51 <? j then (if j =? 1024 then fadd double d d else d)
  else
    let i := d_mask_lo j in
    if Z.land i1 i =? 0 then d
    else
      let i := Z.shiftr i 1 in
      let i1 := if negb (Z.land i1 i =? 0)
                then Z.lor (Z.land i1 (not32 i)) (Z.shiftr 0x40000000 (j - 20))
                else i1 in
      let x := ins be i0 i1 in
      let v := fadd double (d_TWO52 sx) x in
      fsub double v (d_TWO52 sx).

(** round.c:45-65 *)
Definition c_round (be : bool) (x : Z) : Z :=
  let i := c_fpclassifyd be x in
  if (i =? FP_INFINITE) || (i =? FP_NAN) then x else
  if fle double 0 x then
    let t := c_floor be x in
    if fle double d_half (fsub double x t) then fadd double t d_one else t
  else
    let x := fneg double x in
    let t := c_floor be x in
    let t := if fle double d_half (fsub double x t) then fadd double t d_one else t in
    fneg double t.

(** modf.c:44-85: the result and *iptr. *)
Definition c_modf (be : bool) (d : Z) : Z * Z :=
  let i0 := s32 (hi be d) in
  let i1 := s32 (lo be d) in
  let j := s32 (Z.land (Z.shiftr (u32 i0) 20) 2047 - 1023) in
  if j <? 20 then
    if j <? 0 then (d, ins be (Z.land (u32 i0) 0x80000000) 0)
    else
      let i := d_mask_hi j in
      if Z.lor (Z.land (u32 i0) i) (u32 i1) =? 0
      then (ins be (Z.land (hi be d) 0x80000000) 0, d)
      else
        let ip := ins be (Z.land (u32 i0) (not32 i)) 0 in
        (fsub double d ip, ip)
  else if 51 <? j then
    (ins be (Z.land (hi be d) 0x80000000) 0, fmul double d d_one)
  else
    let i := d_mask_lo j in
    if Z.land (u32 i1) i =? 0
    then (ins be (Z.land (hi be d) 0x80000000) 0, d)
    else
      let ip := ins be i0 (Z.land (u32 i1) (not32 i)) in
      (fsub double d ip, ip).

(** frexp.c:45-62: the result and *eptr. *)
Definition c_frexp (be : bool) (x : Z) : Z * Z :=
  let hx := s32 (hi be x) in
  let lx := s32 (lo be x) in
  let ix := Z.land 0x7fffffff hx in
  if (0x7ff00000 <=? ix) || (Z.lor ix lx =? 0) then (x, 0) else
  let '(x, hx, ix, e) :=
    if ix <? 0x100000 then
      let x := fmul double x d_two54 in
      let hx := s32 (hi be x) in
      (x, hx, Z.land hx 0x7fffffff, -54)
    else (x, hx, ix, 0) in
  let e := s32 (u32 (u32 e + u32 (Z.shiftr (u32 ix) 20 - 1022))) in
  let hx := s32 (Z.lor (Z.land (u32 hx) 0x800fffff) 0x3fe00000) in
  (set_hi be x hx, e).

(** ilogb.c:38-60; [None] would be an endless loop. *)
Definition c_ilogb (be : bool) (x : Z) : option Z :=
  let hx := Z.land (s32 (hi be x)) 0x7fffffff in
  if hx <? 0x100000 then
    let lx := s32 (lo be x) in
    if Z.lor hx lx =? 0 then Some (s32 0x80000001)
    else if hx =? 0 then shift_out 33 lx (-1043)
    else shift_out 33 (s32 (Z.shiftl hx 11)) (-1022)
  else if hx <? 0x7ff00000 then Some (Z.shiftr hx 20 - 1023)
  else Some 0x7fffffff.

(** logb.c:38-50 *)
Definition c_logb (be : bool) (x : Z) : Z :=
  let ix := Z.land (s32 (hi be x)) 0x7fffffff in
  let lx := s32 (lo be x) in
  if Z.lor ix lx =? 0 then fdiv double 0xbff0000000000000 (c_fabs be x)
  else if 0x7ff00000 <=? ix then fmul double x x
  else
    let ix := Z.shiftr ix 20 in
    if ix =? 0 then of_int double (-1022) else of_int double (ix - 1023).

(** scalbn.c:44-76; [None]: the addition of line 59 overflows. *)
Definition c_scalbn (be : bool) (x n : Z) : option Z :=
  let hx := s32 (hi be x) in
  let lx := s32 (lo be x) in
  let k := Z.shiftr (Z.land (u32 hx) 0x7ff00000) 20 in
  if (k =? 0) && (Z.lor lx (Z.land hx 0x7fffffff) =? 0) then Some x else
  let x1 := if k =? 0 then fmul double x d_two54 else x in
  let hx1 := if k =? 0 then s32 (hi be x1) else hx in
  let k1 := if k =? 0 then Z.shiftr (Z.land (u32 hx1) 0x7ff00000) 20 - 54 else k in
  if (k =? 0) && (n <? -50000) then Some (fmul double d_tiny x1) else
  if k1 =? 2047 then Some (fadd double x1 x1) else
  match int_add k1 n with
  | None => None
  | Some k =>
    if 2046 <? k then Some (fmul double d_huge (c_copysign be d_huge x1))
    else if 0 <? k then
      Some (set_hi be x1 (Z.lor (Z.land (u32 hx1) 0x800fffff) (Z.shiftl k 20)))
    else if k <=? -54 then
      if 50000 <? n then Some (fmul double d_huge (c_copysign be d_huge x1))
      else Some (fmul double d_tiny (c_copysign be d_tiny x1))
    else
      let k := k + 54 in
      let x2 := set_hi be x1 (Z.lor (Z.land (u32 hx1) 0x800fffff) (Z.shiftl k 20)) in
      Some (fmul double x2 d_twom54)
  end.

(** ldexp.c:33-39 *)
Definition c_ldexp (be : bool) (x n : Z) : option Z :=
  if (c_finite be x =? 0) || feq double x 0 then Some x else c_scalbn be x n.

(** nextafter.c:39-94; lines 84-90 only raise a flag. *)
Definition c_nextafter (be : bool) (x y : Z) : Z :=
  let hx := s32 (hi be x) in
  let lx := lo be x in
  let hy := s32 (hi be y) in
  let ly := lo be y in
  let ix := Z.land hx 0x7fffffff in
  let iy := Z.land hy 0x7fffffff in
  if ((0x7ff00000 <=? ix) && negb (Z.lor (u32 (ix - 0x7ff00000)) lx =? 0)) ||
     ((0x7ff00000 <=? iy) && negb (Z.lor (u32 (iy - 0x7ff00000)) ly =? 0))
  then fadd double x y else
  if feq double x y then x else
  if Z.lor (u32 ix) lx =? 0 then
    let x := ins be (Z.land (u32 hy) 0x80000000) 1 in
    let y := fmul double x x in
    if feq double y x then y else x
  else
    let down := (if lx =? 0 then hx - 1 else hx, u32 (lx - 1)) in
    let up := (if u32 (lx + 1) =? 0 then hx + 1 else hx, u32 (lx + 1)) in
    let '(hx, lx) :=
      if 0 <=? hx then
        (if (hy <? hx) || ((hx =? hy) && (ly <? lx)) then down else up)
      else
        (if (0 <=? hy) || (hy <? hx) || ((hx =? hy) && (ly <? lx))
         then down else up) in
    let hy := Z.land hx 0x7ff00000 in
    if 0x7ff00000 <=? hy then fadd double x x
    else ins be hx lx.
