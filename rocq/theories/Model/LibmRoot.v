(** Square root, remainder of division (libpok/libm: e_sqrt.c, e_sqrtf.c, e_fmod.c, e_fmodf.c, e_remainder.c,
    e_remainderf.c).  math_private.h:38 defines _IEEE_LIBM, so sqrt, fmod, remainder and drem are these functions
    (sqrt.c:33-48, fmod.c:34-48, remainder.c, drem.c:26).

    The loops have fuel; [None] when it runs out (an endless loop), or when the program shifts by the width of the
    operand. *)
From Verif Require Import Model.Base Spec.Ieee Model.Float Model.Libm.

(** ** Single precision *)

(** for (i = 0; (ix & 0x00800000) == 0; i++) ix <<= 1 (e_sqrtf.c:59-60): the new ix and i. *)
Fixpoint norm_f (n : nat) (ix i : Z) : option (Z * Z) :=
  match n with
  | O => None
  | S n => if Z.land ix 0x800000 =? 0 then norm_f n (s32 (Z.shiftl ix 1)) (i + 1) else Some (ix, i)
  end.

(** while (r != 0) (e_sqrtf.c:74-83): the new ix and q. *)
Fixpoint root_f (n : nat) (r s ix q : Z) : option (Z * Z) :=
  match n with
  | O => None
  | S n =>
    if r =? 0 then Some (ix, q) else
    let t := s32 (s + r) in
    let '(s, ix, q) := if t <=? ix then (s32 (t + r), s32 (ix - t), s32 (q + r)) else (s, ix, q) in
    root_f n (Z.shiftr r 1) s (s32 (ix + ix)) q
  end.

(** z = one - tiny; z >= one; z = one + tiny; z > one (e_sqrtf.c:86-95): q after rounding. *)
Definition round_f (ix q : Z) : Z :=
  if ix =? 0 then q else
  if fle single f_one (fsub single f_one f_tiny) then
    if flt single f_one (fadd single f_one f_tiny) then s32 (q + 2) else s32 (q + Z.land q 1)
  else q.

(** __ieee754_sqrtf, e_sqrtf.c:36-100 *)
Definition c_sqrtf (x : Z) : option Z :=
  let ix := get_float x in
  if Z.land ix 0x7f800000 =? 0x7f800000 then Some (fadd single (fmul single x x) x) else
  if (ix <=? 0) && (Z.land ix 0x7fffffff =? 0) then Some x else
  if (ix <=? 0) && (ix <? 0) then Some (fdiv single (fsub single x x) (fsub single x x)) else
  let m := Z.shiftr ix 23 in
  match (if m =? 0 then
           match norm_f 32 ix 0 with Some (ix, i) => Some (ix, m - (i - 1)) | None => None end
         else Some (ix, m)) with
  | None => None
  | Some (ix, m) =>
    let m := m - 127 in
    let ix := Z.lor (Z.land ix 0x7fffff) 0x800000 in
    let ix := if Z.land m 1 =? 0 then ix else s32 (ix + ix) in
    let m := Z.shiftr m 1 in
    match root_f 26 0x1000000 0 (s32 (ix + ix)) 0 with
    | None => None
    | Some (ix, q) =>
      let q := round_f ix q in
      let ix := s32 (Z.shiftr q 1 + 0x3f000000) in
      Some (set_float (s32 (ix + s32 (Z.shiftl m 23))))
    end
  end.

(** Zero[(uint32_t)sx >> 31] (e_fmodf.c:40-43,61). *)
Definition f_zero (sx : Z) : Z := if Z.shiftr (u32 sx) 31 =? 0 then 0 else 0x80000000.

(** for (iy = -126, i = (hy << 8); i >= 0; i <<= 1) iy -= 1 (e_fmodf.c:72-73); the loop of ilogbf.c has i > 0. *)
Fixpoint shift_out0 (n : nat) (h ix : Z) : option Z :=
  match n with
  | O => None
  | S n => if 0 <=? h then shift_out0 n (s32 (Z.shiftl h 1)) (ix - 1) else Some ix
  end.

(** while (n--) (e_fmodf.c:93-102); [None]: the return in the loop. *)
Fixpoint mod_f (n : nat) (hx hy : Z) : option Z :=
  match n with
  | O => Some hx
  | S n =>
    let hz := s32 (hx - hy) in
    if hz <? 0 then mod_f n (s32 (hx + hx)) hy
    else if hz =? 0 then None
    else mod_f n (s32 (hz + hz)) hy
  end.

(** while (hx < 0x00800000) (e_fmodf.c:111-114): the new hx and iy. *)
Fixpoint up_f (n : nat) (hx iy : Z) : option (Z * Z) :=
  match n with
  | O => None
  | S n => if hx <? 0x800000 then up_f n (s32 (hx + hx)) (iy - 1) else Some (hx, iy)
  end.

(** 0x00800000 | (0x007fffff & hx), or hx << n for a subnormal (e_fmodf.c:78-89). *)
Definition mant_f (h e : Z) : Z :=
  if -126 <=? e then Z.lor 0x800000 (Z.land 0x7fffff h) else s32 (Z.shiftl h (-126 - e)).

(** __ieee754_fmodf, e_fmodf.c:45-125 *)
Definition c_fmodf (x y : Z) : option Z :=
  let hx := get_float x in
  let hy := get_float y in
  let sx := s32 (Z.land (u32 hx) 0x80000000) in
  let hx := Z.lxor hx sx in
  let hy := Z.land hy 0x7fffffff in
  if (hy =? 0) || (0x7f800000 <=? hx) || (0x7f800000 <? hy)
  then Some (fdiv single (fmul single x y) (fmul single x y)) else
  if hx <? hy then Some x else
  if hx =? hy then Some (f_zero sx) else
  match (if hx <? 0x800000 then shift_out 32 (s32 (Z.shiftl hx 8)) (-126) else Some (Z.shiftr hx 23 - 127)),
        (if hy <? 0x800000 then shift_out0 32 (s32 (Z.shiftl hy 8)) (-126) else Some (Z.shiftr hy 23 - 127)) with
  | Some ix, Some iy =>
    let hx := mant_f hx ix in
    let hy := mant_f hy iy in
    let n := ix - iy in
    if n <? 0 then None else
    match mod_f (Z.to_nat n) hx hy with
    | None => Some (f_zero sx)
    | Some hx =>
      let hz := s32 (hx - hy) in
      let hx := if 0 <=? hz then hz else hx in
      if hx =? 0 then Some (f_zero sx) else
      match up_f 32 hx iy with
      | None => None
      | Some (hx, iy) =>
        if -126 <=? iy then
          let hx := Z.lor (s32 (hx - 0x800000)) (s32 (Z.shiftl (iy + 127) 23)) in
          Some (set_float (Z.lor hx sx))
        else
          let hx := Z.shiftr hx (-126 - iy) in
          Some (fmul single (set_float (Z.lor hx sx)) f_one)
      end
    end
  | _, _ => None
  end.

(** __ieee754_remainderf, e_remainderf.c:37-78 *)
Definition c_remainderf (x p : Z) : option Z :=
  let hx := get_float x in
  let hp := get_float p in
  let sx := Z.land (u32 hx) 0x80000000 in
  let hp := Z.land hp 0x7fffffff in
  let hx := Z.land hx 0x7fffffff in
  if hp =? 0 then Some (fdiv single (fmul single x p) (fmul single x p)) else
  if (0x7f800000 <=? hx) || (0x7f800000 <? hp) then Some (fdiv single (fmul single x p) (fmul single x p)) else
  match (if hp <=? 0x7effffff then c_fmodf x (fadd single p p) else Some x) with
  | None => None
  | Some x =>
    if s32 (hx - hp) =? 0 then Some (fmul single 0 x) else
    let x := c_fabsf x in
    let p := c_fabsf p in
    let x :=
      if hp <? 0x1000000 then
        if flt single p (fadd single x x) then
          let x := fsub single x p in
          if fle single p (fadd single x x) then fsub single x p else x
        else x
      else
        let p_half := fmul single f_half p in
        if flt single p_half x then
          let x := fsub single x p in
          if fle single p_half x then fsub single x p else x
        else x in
    Some (set_float (Z.lxor (u32 (get_float x)) sx))
  end.

(** ** Double precision *)

(** ix0 += ix0 + ((ix1 & sign) >> 31); ix1 += ix1 (e_sqrt.c:141-142 and others; e_fmod.c:121-122 and others with lx >> 31, the same). *)
Definition twice_d (h l : Z) : Z * Z := (s32 (h + h + Z.shiftr (Z.land l 0x80000000) 31), u32 (l + l)).

(** while (ix0 == 0) (e_sqrt.c:127-131): the new ix0, ix1, m. *)
Fixpoint norm_d0 (n : nat) (ix0 ix1 m : Z) : option (Z * Z * Z) :=
  match n with
  | O => None
  | S n =>
    if ix0 =? 0 then norm_d0 n (s32 (Z.lor (u32 ix0) (Z.shiftr ix1 11))) (u32 (Z.shiftl ix1 21)) (m - 21)
    else Some (ix0, ix1, m)
  end.

(** for (i = 0; (ix0 & 0x00100000) == 0; i++) ix0 <<= 1 (e_sqrt.c:132-133): the new ix0 and i. *)
Fixpoint norm_d1 (n : nat) (ix0 i : Z) : option (Z * Z) :=
  match n with
  | O => None
  | S n => if Z.land ix0 0x100000 =? 0 then norm_d1 n (s32 (Z.shiftl ix0 1)) (i + 1) else Some (ix0, i)
  end.

(** e_sqrt.c:127-136; [None] also when i = 0: line 135 then shifts a 32-bit number by 32. *)
Definition norm_d (ix0 ix1 m : Z) : option (Z * Z * Z) :=
  match norm_d0 4 ix0 ix1 m with
  | None => None
  | Some (ix0, ix1, m) =>
    match norm_d1 32 ix0 0 with
    | None => None
    | Some (ix0, i) =>
      if i =? 0 then None else
      Some (s32 (Z.lor (u32 ix0) (Z.shiftr ix1 (32 - i))), u32 (Z.shiftl ix1 i), m - (i - 1))
    end
  end.

(** The first loop (e_sqrt.c:152-162): the new s0, ix0, ix1, q. *)
Fixpoint root_d0 (n : nat) (r s0 ix0 ix1 q : Z) : option (Z * Z * Z * Z) :=
  match n with
  | O => None
  | S n =>
    if r =? 0 then Some (s0, ix0, ix1, q) else
    let t := s32 (s0 + r) in
    let '(s0, ix0, q) := if t <=? ix0 then (s32 (t + r), s32 (ix0 - t), s32 (q + r)) else (s0, ix0, q) in
    let '(ix0, ix1) := twice_d ix0 ix1 in
    root_d0 n (Z.shiftr r 1) s0 ix0 ix1 q
  end.

(** The second loop (e_sqrt.c:165-181): the new ix0, ix1, q1. *)
Fixpoint root_d1 (n : nat) (r s0 s1 ix0 ix1 q1 : Z) : option (Z * Z * Z) :=
  match n with
  | O => None
  | S n =>
    if r =? 0 then Some (ix0, ix1, q1) else
    let t1 := u32 (s1 + r) in
    let t := s0 in
    let '(s0, s1, ix0, ix1, q1) :=
      if (t <? ix0) || ((t =? ix0) && (t1 <=? ix1)) then
        let s1 := u32 (t1 + r) in
        let s0 := if (Z.land t1 0x80000000 =? 0x80000000) && (Z.land s1 0x80000000 =? 0) then s32 (s0 + 1) else s0 in
        let ix0 := s32 (ix0 - t) in
        let ix0 := if ix1 <? t1 then s32 (ix0 - 1) else ix0 in
        (s0, s1, ix0, u32 (ix1 - t1), u32 (q1 + r))
      else (s0, s1, ix0, ix1, q1) in
    let '(ix0, ix1) := twice_d ix0 ix1 in
    root_d1 n (Z.shiftr r 1) s0 s1 ix0 ix1 q1
  end.

(** e_sqrt.c:184-197: q and q1 after rounding. *)
Definition round_d (ix0 ix1 q q1 : Z) : Z * Z :=
  if Z.lor (u32 ix0) ix1 =? 0 then (q, q1) else
  if fle double d_one (fsub double d_one d_tiny) then
    if q1 =? 0xffffffff then (s32 (q + 1), 0)
    else if flt double d_one (fadd double d_one d_tiny) then
      ((if q1 =? 0xfffffffe then s32 (q + 1) else q), u32 (q1 + 2))
    else (q, u32 (q1 + Z.land q1 1))
  else (q, q1).

(** __ieee754_sqrt, e_sqrt.c:104-206 *)
Definition c_sqrt (be : bool) (x : Z) : option Z :=
  let ix0 := s32 (hi be x) in
  let ix1 := lo be x in
  if Z.land ix0 0x7ff00000 =? 0x7ff00000 then Some (fadd double (fmul double x x) x) else
  if (ix0 <=? 0) && (Z.lor (Z.land ix0 0x7fffffff) ix1 =? 0) then Some x else
  if (ix0 <=? 0) && (ix0 <? 0) then Some (fdiv double (fsub double x x) (fsub double x x)) else
  let m := Z.shiftr ix0 20 in
  match (if m =? 0 then norm_d ix0 ix1 m else Some (ix0, ix1, m)) with
  | None => None
  | Some (ix0, ix1, m) =>
    let m := m - 1023 in
    let ix0 := Z.lor (Z.land ix0 0xfffff) 0x100000 in
    let '(ix0, ix1) := if Z.land m 1 =? 0 then (ix0, ix1) else twice_d ix0 ix1 in
    let m := Z.shiftr m 1 in
    let '(ix0, ix1) := twice_d ix0 ix1 in
    match root_d0 23 0x200000 0 ix0 ix1 0 with
    | None => None
    | Some (s0, ix0, ix1, q) =>
      match root_d1 33 0x80000000 s0 0 ix0 ix1 0 with
      | None => None
      | Some (ix0, ix1, q1) =>
        let '(q, q1) := round_d ix0 ix1 q q1 in
        let ix0 := s32 (Z.shiftr q 1 + 0x3fe00000) in
        let ix1 := Z.shiftr q1 1 in
        let ix1 := if Z.land q 1 =? 1 then Z.lor ix1 0x80000000 else ix1 in
        Some (ins be (s32 (ix0 + s32 (Z.shiftl m 20))) ix1)
      end
    end
  end.

(** Zero[(uint32_t)sx >> 31] (e_fmod.c:37-40,60). *)
Definition d_zero (sx : Z) : Z := if Z.shiftr (u32 sx) 31 =? 0 then 0 else 0x8000000000000000.

(** hz = hx - hy; lz = lx - ly; if (lx < ly) hz -= 1 (e_fmod.c:116-119,130-133). *)
Definition minus_d (hx lx hy ly : Z) : Z * Z :=
  (if lx <? ly then s32 (s32 (hx - hy) - 1) else s32 (hx - hy), u32 (lx - ly)).

(** while (n--) (e_fmod.c:115-129); [None]: the return in the loop. *)
Fixpoint mod_d (n : nat) (hx lx hy ly : Z) : option (Z * Z) :=
  match n with
  | O => Some (hx, lx)
  | S n =>
    let '(hz, lz) := minus_d hx lx hy ly in
    if hz <? 0 then let '(hx, lx) := twice_d hx lx in mod_d n hx lx hy ly
    else if Z.lor (u32 hz) lz =? 0 then None
    else let '(hx, lx) := twice_d hz lz in mod_d n hx lx hy ly
  end.

(** while (hx < 0x00100000) (e_fmod.c:142-146): the new hx, lx, iy. *)
Fixpoint up_d (n : nat) (hx lx iy : Z) : option (Z * Z * Z) :=
  match n with
  | O => None
  | S n =>
    if hx <? 0x100000 then let '(hx, lx) := twice_d hx lx in up_d n hx lx (iy - 1)
    else Some (hx, lx, iy)
  end.

(** ilogb by shifting (e_fmod.c:64-73, 76-85). *)
Definition exp_d (h l : Z) : option Z :=
  if h <? 0x100000 then
    if h =? 0 then shift_out 33 (s32 l) (-1043) else shift_out 33 (s32 (Z.shiftl h 11)) (-1022)
  else Some (Z.shiftr h 20 - 1023).

(** e_fmod.c:88-99, 100-111 *)
Definition mant_d (h l e : Z) : Z * Z :=
  if -1022 <=? e then (Z.lor 0x100000 (Z.land 0xfffff h), l)
  else
    let n := -1022 - e in
    if n <=? 31 then (s32 (Z.lor (u32 (Z.shiftl h n)) (Z.shiftr l (32 - n))), u32 (Z.shiftl l n))
    else (s32 (u32 (Z.shiftl l (n - 32))), 0).

(** __ieee754_fmod, e_fmod.c:42-166 *)
Definition c_fmod (be : bool) (x y : Z) : option Z :=
  let hx := s32 (hi be x) in
  let lx := lo be x in
  let hy := s32 (hi be y) in
  let ly := lo be y in
  let sx := s32 (Z.land (u32 hx) 0x80000000) in
  let hx := Z.lxor hx sx in
  let hy := Z.land hy 0x7fffffff in
  if (Z.lor hy ly =? 0) || (0x7ff00000 <=? hx) ||
     (0x7ff00000 <? Z.lor hy (Z.shiftr (Z.lor ly (u32 (- ly))) 31))
  then Some (fdiv double (fmul double x y) (fmul double x y)) else
  if (hx <=? hy) && ((hx <? hy) || (lx <? ly)) then Some x else
  if (hx <=? hy) && (lx =? ly) then Some (d_zero sx) else
  match exp_d hx lx, exp_d hy ly with
  | Some ix, Some iy =>
    let '(hx, lx) := mant_d hx lx ix in
    let '(hy, ly) := mant_d hy ly iy in
    let n := ix - iy in
    if n <? 0 then None else
    match mod_d (Z.to_nat n) hx lx hy ly with
    | None => Some (d_zero sx)
    | Some (hx, lx) =>
      let '(hz, lz) := minus_d hx lx hy ly in
      let '(hx, lx) := if 0 <=? hz then (hz, lz) else (hx, lx) in
      if Z.lor (u32 hx) lx =? 0 then Some (d_zero sx) else
      match up_d 64 hx lx iy with
      | None => None
      | Some (hx, lx, iy) =>
        if -1022 <=? iy then
          let hx := Z.lor (s32 (hx - 0x100000)) (s32 (Z.shiftl (iy + 1023) 20)) in
          Some (ins be (Z.lor hx sx) lx)
        else
          let n := -1022 - iy in
          let '(hx, lx) :=
            if n <=? 20 then (Z.shiftr hx n, Z.lor (Z.shiftr lx n) (u32 (Z.shiftl (u32 hx) (32 - n))))
            else if n <=? 31 then (sx, Z.lor (u32 (s32 (Z.shiftl hx (32 - n)))) (Z.shiftr lx n))
            else (sx, u32 (Z.shiftr hx (n - 32))) in
          Some (fmul double (ins be (Z.lor hx sx) lx) d_one)
      end
    end
  | _, _ => None
  end.

(** __ieee754_remainder, e_remainder.c:42-84 *)
Definition c_remainder (be : bool) (x p : Z) : option Z :=
  let hx := s32 (hi be x) in
  let lx := lo be x in
  let hp := s32 (hi be p) in
  let lp := lo be p in
  let sx := Z.land (u32 hx) 0x80000000 in
  let hp := Z.land hp 0x7fffffff in
  let hx := Z.land hx 0x7fffffff in
  if Z.lor hp lp =? 0 then Some (fdiv double (fmul double x p) (fmul double x p)) else
  if (0x7ff00000 <=? hx) || ((0x7ff00000 <=? hp) && negb (Z.lor (u32 (hp - 0x7ff00000)) lp =? 0))
  then Some (fdiv double (fmul double x p) (fmul double x p)) else
  match (if hp <=? 0x7fdfffff then c_fmod be x (fadd double p p) else Some x) with
  | None => None
  | Some x =>
    if Z.lor (u32 (hx - hp)) (u32 (lx - lp)) =? 0 then Some (fmul double 0 x) else
    let x := c_fabs be x in
    let p := c_fabs be p in
    let x :=
      if hp <? 0x200000 then
        if flt double p (fadd double x x) then
          let x := fsub double x p in
          if fle double p (fadd double x x) then fsub double x p else x
        else x
      else
        let p_half := fmul double d_half p in
        if flt double p_half x then
          let x := fsub double x p in
          if fle double p_half x then fsub double x p else x
        else x in
    Some (set_hi be x (Z.lxor (hi be x) sx))
  end.

(** Spot checks: sqrt 2, sqrt of the smallest subnormal; 5.5 mod 2, 1e30 mod 3; remainder. *)
Example sqrtf_2 : c_sqrtf 0x40000000 = Some 0x3fb504f3. Proof. vm_compute. reflexivity. Qed.
Example sqrtf_sub : c_sqrtf 1 = Some 0x1a3504f3. Proof. vm_compute. reflexivity. Qed.
Example sqrt_2 : c_sqrt false 0x4000000000000000 = Some 0x3ff6a09e667f3bcd. Proof. vm_compute. reflexivity. Qed.
Example sqrt_sub : c_sqrt false 1 = Some 0x1e60000000000000. Proof. vm_compute. reflexivity. Qed.
Example fmodf_1 : c_fmodf 0x40b00000 0x40000000 = Some 0x3fc00000. Proof. vm_compute. reflexivity. Qed.
Example fmod_1 : c_fmod false 0x4016000000000000 0x4000000000000000 = Some 0x3ff8000000000000. Proof. vm_compute. reflexivity. Qed.
Example fmod_2 : c_fmod false 0xc016000000000000 0x4000000000000000 = Some 0xbff8000000000000. Proof. vm_compute. reflexivity. Qed.
Example remainder_1 : c_remainder false 0x4016000000000000 0x4000000000000000 = Some 0xbfe0000000000000. Proof. vm_compute. reflexivity. Qed.
