(** libpok/libm/e_scalb.c, e_scalbf.c, significand.c and significandf.c, over the functions of Model/Libm.v and the
    operations of the processor in Model/Float.v.  _SCALB_INT is not defined anywhere, so the second argument is a
    floating-point number (e_scalb.c:38-42). *)
From Verif Require Import Model.Base Spec.Ieee Model.Float Model.Libm.

(** The conversion (int)w, toward 0; only reached between -65000 and 65000. *)
Definition to_int (F : fmt) (w : Z) : Z := Z.quot (val F w) (one F).

(** The body shared by __ieee754_scalb and __ieee754_scalbf (e_scalb.c:47-61, e_scalbf.c:44-58), which differ in the
    functions called and in the constant 65000.0 ([k]).  [None]: scalbn's undefined addition. *)
Definition ieee_scalb (F : fmt) (isnan fin rint : Z -> Z) (scalbn : Z -> Z -> option Z) (k : Z) (x fn : Z) : option Z :=
  if negb (isnan x =? 0) || negb (isnan fn =? 0) then Some (fmul F x fn) else
  if fin fn =? 0 then
    (if flt F 0 fn then Some (fmul F x fn) else Some (fdiv F x (fneg F fn)))
  else if negb (feq F (rint fn) fn) then Some (fdiv F (fsub F fn fn) (fsub F fn fn))
  else if flt F k fn then scalbn x 65000
  else if flt F k (fneg F fn) then scalbn x (-65000)
  else scalbn x (to_int F fn).

(** __ieee754_scalbf, e_scalbf.c:38-60; 65000.0f. *)
Definition c_scalbf : Z -> Z -> option Z := ieee_scalb single c_isnanf c_finitef c_rintf c_scalbnf 0x477de800.
(** __ieee754_scalb, e_scalb.c:41-63; 65000.0. *)
Definition c_scalb (be : bool) : Z -> Z -> option Z :=
  ieee_scalb double (c_isnan be) (c_finite be) (c_rint be) (c_scalbn be) 0x40efbd0000000000.

(** significandf.c:35; the int is converted to float, which rounds. *)
Definition c_significandf (x : Z) : option Z :=
  match c_ilogbf x with Some e => c_scalbf x (of_int single (- e)) | None => None end.
(** significand.c:38 *)
Definition c_significand (be : bool) (x : Z) : option Z :=
  match c_ilogb be x with Some e => c_scalb be x (of_int double (- e)) | None => None end.
