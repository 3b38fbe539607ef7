(** libpok/libc/stdlib/rand.c. *)
From Verif Require Import Model.Base.

(** RAND_MAX, libpok/include/libc/stdlib.h:20. *)
Definition RAND_MAX : Z := 256.
(** The initial value of next, rand.c:22. *)
Definition next0 : Z := 1.
(** rand, rand.c:24-27: the new value of next and the result. *)
Definition rand (next : Z) : Z * Z :=
  let next := u32 (u32 (next * 1103515245) + 12345) in (next, s32 (next mod (u32 RAND_MAX + 1))).
