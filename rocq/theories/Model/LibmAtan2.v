(** __ieee754_atan2f, libpok/libm/e_atan2f.c, up to the tests for special arguments; what follows them is the parameter
    [rest], nothing is assumed about it.  __ieee754_hypotf, libpok/libm/e_hypotf.c, as a whole. *)
From Verif Require Import Model.Base Spec.Ieee Model.Float Model.Libm Model.LibmRoot Model.LibmElem.

(** 1.0e-30 (e_atan2f.c:34) *)
Definition f_tiny30 : Z := 0x0da24260.

(** e_atan2f.c:40-98; [rest_atan] is the interior of atanf. *)
Definition c_atan2f (rest_atan : Z -> Z) (rest : Z -> Z -> Z) (y x : Z) : Z :=
  let pi := 0x40490fda in
  let pi_o_2 := 0x3fc90fdb in
  let pi_o_4 := 0x3f490fdb in
  let hx := get_float x in
  let ix := Z.land hx 0x7fffffff in
  let hy := get_float y in
  let iy := Z.land hy 0x7fffffff in
  if (0x7f800000 <? ix) || (0x7f800000 <? iy) then fadd single x y
  else if hx =? 0x3f800000 then c_atanf rest_atan y
  else
  let m := Z.lor (Z.land (Z.shiftr hy 31) 1) (Z.land (Z.shiftr hx 30) 2) in
  let pis := if m =? 2 then fadd single pi f_tiny30 else fsub single (fneg single pi) f_tiny30 in
  let half := if hy <? 0 then fsub single (fneg single pi_o_2) f_tiny30 else fadd single pi_o_2 f_tiny30 in
  if iy =? 0 then (if (m =? 0) || (m =? 1) then y else pis)
  else if ix =? 0 then half
  else if ix =? 0x7f800000 then
    if iy =? 0x7f800000 then
      if m =? 0 then fadd single pi_o_4 f_tiny30
      else if m =? 1 then fsub single (fneg single pi_o_4) f_tiny30
      else if m =? 2 then fadd single (fmul single 0x40400000 pi_o_4) f_tiny30
      else fsub single (fmul single 0xc0400000 pi_o_4) f_tiny30
    else
      if m =? 0 then 0
      else if m =? 1 then fneg single 0
      else pis
  else if iy =? 0x7f800000 then half
  else rest y x.

(** e_hypotf.c:91-112: the root of a^2 + b^2 and the scaling by 2^k; [ha], [hb] are the integers kept beside a and b.
    The shift of a negative k wraps (GCC). *)
Definition hyp_root (a b ha hb k : Z) : option Z :=
  let w := fsub single a b in
  match
    (if flt single b w then
       let t1 := set_float (Z.land (u32 ha) 0xfffff000) in
       let t2 := fsub single a t1 in
       c_sqrtf (fsub single (fmul single t1 t1) (fsub single (fmul single b (fneg single b)) (fmul single t2 (fadd single a t1))))
     else
       let a := fadd single a a in
       let y1 := set_float (Z.land (u32 hb) 0xfffff000) in
       let y2 := fsub single b y1 in
       let t1 := set_float (s32 (ha + 0x00800000)) in
       let t2 := fsub single a t1 in
       c_sqrtf (fsub single (fmul single t1 y1)
         (fsub single (fmul single w (fneg single w)) (fadd single (fmul single t1 y2) (fmul single t2 b)))))
  with
  | None => None
  | Some w => Some (if k =? 0 then w else fmul single (set_float (s32 (0x3f800000 + s32 (Z.shiftl k 23)))) w)
  end.

(** e_hypotf.c:74-89: scaling up. *)
Definition hyp_small (a b ha hb k : Z) : option Z :=
  if hb <? 0x26800000 then
    if hb <=? 0x007fffff then
      if hb =? 0 then Some a
      else hyp_root (fmul single a 0x3f000000) (fmul single b 0x3f000000) ha hb (k - 126)
    else
      let ha := s32 (ha + 0x5d800000) in
      let hb := s32 (hb + 0x5d800000) in
      hyp_root (set_float ha) (set_float hb) ha hb (k - 60)
  else hyp_root a b ha hb k.

(** e_hypotf.c:34-113 *)
Definition c_hypotf (x y : Z) : option Z :=
  let ha := Z.land (get_float x) 0x7fffffff in
  let hb := Z.land (get_float y) 0x7fffffff in
  let (ha, hb) := if ha <? hb then (hb, ha) else (ha, hb) in
  let a := set_float ha in
  let b := set_float hb in
  if 0xf000000 <? ha - hb then Some (fadd single a b)
  else if 0x58800000 <? ha then
    if 0x7f800000 <=? ha then
      let w := fadd single a b in
      let w := if ha =? 0x7f800000 then a else w in
      Some (if hb =? 0x7f800000 then b else w)
    else
      let ha := s32 (ha - 0x5d800000) in
      let hb := s32 (hb - 0x5d800000) in
      hyp_small (set_float ha) (set_float hb) ha hb 60
  else hyp_small a b ha hb 0.
