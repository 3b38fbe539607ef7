(** The beginning of __ieee754_powf, libpok/libm/e_powf.c: the tests for special arguments.  What follows them is the
    parameter [rest]; nothing is assumed about it. *)
From Verif Require Import Model.Base Spec.Ieee Model.Float Model.Libm Model.LibmRoot.

(** e_powf.c:99-109: 0 no integer, 1 odd, 2 even; the shifts are by 0 to 23. *)
Definition c_yisint (iy : Z) : Z :=
  if 0x4b800000 <=? iy then 2
  else if 0x3f800000 <=? iy then
    let k := Z.shiftr iy 23 - 0x7f in
    let j := Z.shiftr iy (23 - k) in
    if Z.shiftl j (23 - k) =? iy then 2 - Z.land j 1 else 0
  else 0.

(** e_powf.c:76-150 *)
Definition c_powf (rest : Z -> Z -> option Z) (x y : Z) : option Z :=
  let hx := get_float x in
  let hy := get_float y in
  let ix := Z.land hx 0x7fffffff in
  let iy := Z.land hy 0x7fffffff in
  if iy =? 0 then Some 0x3f800000
  else if (0x7f800000 <? ix) || (0x7f800000 <? iy) then Some (fadd single x y)
  else
  (* 98-109 *)
  let yisint := if hx <? 0 then c_yisint iy else 0 in
  (* 112-119 *)
  if iy =? 0x7f800000 then
    Some (if ix =? 0x3f800000 then fsub single y y
          else if 0x3f800000 <? ix then (if 0 <=? hy then y else 0)
          else if hy <? 0 then fneg single y else 0)
  else if iy =? 0x3f800000 then Some (if hy <? 0 then fdiv single 0x3f800000 x else x)
  else if hy =? 0x40000000 then Some (fmul single x x)
  else if (hy =? 0x3f000000) && (0 <=? hx) then c_sqrtf x
  else if (ix =? 0x7f800000) || (ix =? 0) || (ix =? 0x3f800000) then
    let z := c_fabsf x in
    let z := if hy <? 0 then fdiv single 0x3f800000 z else z in
    Some (if hx <? 0 then
            if Z.lor (ix - 0x3f800000) yisint =? 0 then fdiv single (fsub single z z) (fsub single z z)
            else if yisint =? 1 then fneg single z else z
          else z)
  else if Z.lor (u32 (Z.shiftr (u32 hx) 31 - 1)) yisint =? 0 then Some (fdiv single (fsub single x x) (fsub single x x))
  else rest x y.
