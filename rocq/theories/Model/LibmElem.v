(** The beginnings of the elementary functions for float, libpok/libm: the tests that decide about arguments at the ends
    and outside of the domain.  What follows them, the computation in the interior, is the parameter [rest] of each
    definition, a function of the argument; nothing is assumed about it.  The functions are the __ieee754_ ones where there
    are wrappers that report errors (k_standard.c); the wrappers are not modelled. *)
From Verif Require Import Model.Base Spec.Ieee Model.Float Model.Libm.

Notation f_one := 0x3f800000 (only parsing).
(** 1.0e30 (e_expf.c:34, e_asinf.c:35, atanf.c:64, e_atanhf.c:34, e_coshf.c:34). *)
Definition f_1e30 : Z := 0x7149f2ca.

(** The beginning common to e_logf.c:51-64, e_log2f.c:50-63 and e_log10f.c:45-58; line numbers of e_logf.c.  [rest] is
    also given k. *)
Definition log_start (rest : Z -> Z -> Z) (x : Z) : Z :=
  let ix := get_float x in
  (* 63-64 *)
  let go k x := if 0x7f800000 <=? get_float x then fadd single x x else rest k x in
  if ix <? 0x00800000 then
    if Z.land ix 0x7fffffff =? 0 then fdiv single (fneg single 0x4c000000) 0
    else if ix <? 0 then fdiv single (fsub single x x) 0
    else go (-25) (fmul single x 0x4c000000)
  else go 0 x.
(** e_logf.c:47-110 *)
Definition c_logf := log_start.
(** e_log2f.c:46-91 *)
Definition c_log2f := log_start.
(** e_log10f.c:41-66 *)
Definition c_log10f := log_start.

(** e_expf.c:70-84 *)
Definition c_expf (rest : Z -> Z) (x : Z) : Z :=
  let hx := u32 (get_float x) in
  let xsb := Z.land (Z.shiftr hx 31) 1 in
  let hx := Z.land hx 0x7fffffff in
  if 0x42b17218 <=? hx then
    if 0x7f800000 <? hx then fadd single x x
    else if hx =? 0x7f800000 then (if xsb =? 0 then x else 0)
    else if flt single 0x42b17180 x then fmul single f_1e30 f_1e30
    else if flt single x 0xc2cff1b5 then fmul single 0x0d800000 0x0d800000
    else rest x
  else rest x.

(** e_acosf.c:52-61 *)
Definition c_acosf (rest : Z -> Z) (x : Z) : Z :=
  let hx := get_float x in
  let ix := Z.land hx 0x7fffffff in
  if ix =? 0x3f800000 then
    (if 0 <? hx then 0 else fadd single 0x40490fda (fmul single 0x40000000 0x33a22168))
  else if 0x3f800000 <? ix then fdiv single (fsub single x x) (fsub single x x)
  else rest x.

(** e_asinf.c:55-65 *)
Definition c_asinf (rest : Z -> Z) (x : Z) : Z :=
  let hx := get_float x in
  let ix := Z.land hx 0x7fffffff in
  if ix =? 0x3f800000 then fadd single (fmul single x 0x3fc90fda) (fmul single x 0x33a22168)
  else if 0x3f800000 <? ix then fdiv single (fsub single x x) (fsub single x x)
  else if (ix <? 0x32000000) && flt single f_one (fadd single f_1e30 x) then x
  else rest x.

(** atanf.c:70-84 *)
Definition c_atanf (rest : Z -> Z) (x : Z) : Z :=
  let hx := get_float x in
  let ix := Z.land hx 0x7fffffff in
  if 0x50800000 <=? ix then
    if 0x7f800000 <? ix then fadd single x x
    else if 0 <? hx then fadd single 0x3fc90fda 0x33a22168
    else fsub single (fneg single 0x3fc90fda) 0x33a22168
  else if (ix <? 0x31000000) && flt single f_one (fadd single f_1e30 x) then x
  else rest x.

(** e_acoshf.c:40-49; [rest] stands for lines 47 and 50-57. *)
Definition c_acoshf (rest : Z -> Z) (x : Z) : Z :=
  let hx := get_float x in
  if hx <? 0x3f800000 then fdiv single (fsub single x x) (fsub single x x)
  else if 0x4d800000 <=? hx then (if 0x7f800000 <=? hx then fadd single x x else rest x)
  else if hx =? 0x3f800000 then 0
  else rest x.

(** e_atanhf.c:41-48 *)
Definition c_atanhf (rest : Z -> Z) (x : Z) : Z :=
  let ix := Z.land (get_float x) 0x7fffffff in
  if 0x3f800000 <? ix then fdiv single (fsub single x x) (fsub single x x)
  else if ix =? 0x3f800000 then fdiv single x 0
  else if (ix <? 0x31800000) && flt single 0 (fadd single f_1e30 x) then x
  else rest x.

(** e_coshf.c:41-75; [rest] stands for lines 48-72. *)
Definition c_coshf (rest : Z -> Z) (x : Z) : Z :=
  let ix := Z.land (get_float x) 0x7fffffff in
  if 0x7f800000 <=? ix then fmul single x x
  else if ix <=? 0x42b2d4fc then rest x
  else fmul single f_1e30 f_1e30.

(** e_sinhf.c:41-55; shuge is 1.0e37. *)
Definition c_sinhf (rest : Z -> Z) (x : Z) : Z :=
  let ix := Z.land (get_float x) 0x7fffffff in
  if 0x7f800000 <=? ix then fadd single x x
  else if (ix <? 0x31800000) && flt single f_one (fadd single 0x7cf0bdc2 x) then x
  else rest x.

(** tanhf.c:41-55 *)
Definition c_tanhf (rest : Z -> Z) (x : Z) : Z :=
  let jx := get_float x in
  let ix := Z.land jx 0x7fffffff in
  if 0x7f800000 <=? ix then
    (if 0 <=? jx then fadd single (fdiv single f_one x) f_one else fsub single (fdiv single f_one x) f_one)
  else if ix <? 0x24000000 then fmul single x (fadd single f_one x)
  else rest x.

(** cbrtf.c:54-60; the exclusive or with the sign is of unsigned numbers and comes back as an int. *)
Definition c_cbrtf (rest : Z -> Z) (x : Z) : Z :=
  let hx := get_float x in
  let sign := Z.land (u32 hx) 0x80000000 in
  let hx := s32 (Z.lxor (u32 hx) sign) in
  if 0x7f800000 <=? hx then fadd single x x
  else if hx =? 0 then x
  else rest x.

(** The beginning of sinf.c:46-55, cosf.c:49-58 and tanf.c:39-48, which differ in the first bound only. *)
Definition trig_start (b : Z) (rest : Z -> Z) (x : Z) : Z :=
  let ix := Z.land (get_float x) 0x7fffffff in
  if ix <=? b then rest x
  else if 0x7f800000 <=? ix then fsub single x x
  else rest x.
(** sinf.c:42-71 *)
Definition c_sinf := trig_start 0x3f490fd8.
(** cosf.c:45-74 *)
Definition c_cosf := trig_start 0x3f490fd8.
(** tanf.c:35-56 *)
Definition c_tanf := trig_start 0x3f490fda.
