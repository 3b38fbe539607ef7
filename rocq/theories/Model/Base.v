(** Conventions shared by all model files. *)
From Coq Require Export ZArith List Lia Bool.
Export ListNotations.
Global Open Scope Z_scope.

(** Unsigned C integer types: value reduced modulo 2^n
    (kernel/include/arch/x86/types.h:18-21). *)
Definition u8  (x : Z) : Z := x mod 2^8.
Definition u16 (x : Z) : Z := x mod 2^16.
Definition u32 (x : Z) : Z := x mod 2^32.
Definition u64 (x : Z) : Z := x mod 2^64.

(** Signed types: two's complement reinterpretation
    (kernel/include/arch/x86/types.h:23-26). *)
Definition sgn (bits x : Z) : Z :=
  let m := x mod 2^bits in if m <? 2^(bits-1) then m else m - 2^bits.
Definition s8  (x : Z) : Z := sgn 8 x.
Definition s32 (x : Z) : Z := sgn 32 x.
Definition s64 (x : Z) : Z := sgn 64 x.

(** C arrays are total functions from the index; assignment of one cell. *)
Definition upd {A : Type} (f : Z -> A) (i : Z) (v : A) : Z -> A :=
  fun j => if j =? i then v else f j.

(** Result codes, kernel/include/errno.h. *)
Definition ERR_OK := 0. (* errno.h:19 *)
Definition ERR_EINVAL := 1. (* errno.h:20 *)
Definition ERR_UNAVAILABLE := 2. (* errno.h:22 *)
Definition ERR_PARAM := 3. (* errno.h:23 *)
Definition ERR_TOOMANY := 5. (* errno.h:24 *)
Definition ERR_EPERM := 6. (* errno.h:25 *)
Definition ERR_EXISTS := 7. (* errno.h:26 *)
Definition ERR_THREAD := 49. (* errno.h:34 *)
Definition ERR_THREADATTR := 50. (* errno.h:35 *)
Definition ERR_TIMEOUT := 250. (* errno.h:51 *)
Definition ERR_MODE := 251. (* errno.h:52 *)
Definition ERR_PORT := 301. (* errno.h:41 *)
Definition ERR_NOTFOUND := 302. (* errno.h:42 *)
Definition ERR_DIRECTION := 303. (* errno.h:43 *)
Definition ERR_SIZE := 304. (* errno.h:44 *)
Definition ERR_DISCIPLINE := 305. (* errno.h:45 *)
Definition ERR_PORTPART := 307. (* errno.h:46 *)
Definition ERR_EMPTY := 308. (* errno.h:47 *)
Definition ERR_KIND := 309. (* errno.h:48 *)
Definition ERR_READY := 310. (* errno.h:50 *)
Definition ERR_FULL := 311. (* errno.h:49 *)
Definition ERR_LOCKOBJ_UNAVAILABLE := 500. (* errno.h:54 *)
Definition ERR_LOCKOBJ_NOTREADY := 501. (* errno.h:55 *)
Definition ERR_LOCKOBJ_KIND := 502. (* errno.h:56 *)
Definition ERR_LOCKOBJ_POLICY := 503. (* errno.h:57 *)
Definition ERR_PARTITION_MODE := 601. (* errno.h:59 *)
