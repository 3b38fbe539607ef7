(** The timers of the PowerPC and the SPARC boards: kernel/arch/ppc/timer.c and kernel/arch/sparc/leon3/timer.c. *)
From Verif Require Import Model.Base Spec.GpTimer.

(** get_ppc_tb, ppc/timer.c:31-45, one round of its loop: the upper half, the lower half and the upper half again are read when the time base is [t1], [t2], [t3]. [None]: another round. *)
Definition read_tb (t1 t2 t3 : Z) : option Z :=
  let u := t1 / 2 ^ 32 in let l := t2 mod 2 ^ 32 in let u1 := t3 / 2 ^ 32 in
  if u1 =? u then Some (u * 2 ^ 32 + l) else None.

(** time_last ([due]), time_inter (ppc/timer.c:25-28), pok_tick_counter, and the decrementer as it was last set. *)
Record decr := mkDecr { due : Z; inter : Z; ticks : Z; dec : Z }.

(** pok_arch_set_decr, ppc/timer.c:49-62, where the time base reads [now]: the difference is cut to an int. *)
Definition set_decr (now : Z) (s : decr) : bool * decr :=
  let new := u64 (due s + inter s) in
  let delta := s32 (new - now) in
  if delta <? 0 then (false, mkDecr new (inter s) (ticks s) (dec s)) else (true, mkDecr new (inter s) (ticks s) delta).

(** pok_arch_decr_int, ppc/timer.c:65-75, with the values that the time base has in the rounds of its loop; pok_sched is not part of it. [None]: the loop is not over after these. *)
Definition FREQ_DIV := 40.
Fixpoint decr_int (now : list Z) (s : decr) : option decr :=
  match now with
  | [] => None
  | t :: rest => let '(ok, s1) := set_decr t s in let s2 := mkDecr (due s1) (inter s1) (u64 (ticks s1 + FREQ_DIV)) (dec s1) in
      if ok then Some s2 else decr_int rest s2
  end.

(** pok_bsp_time_init, ppc/timer.c:77-83; the multiplication is unsigned int. *)
Definition BUS_FREQ := 100000000.
Definition TIMER_FREQUENCY := 100000.
Definition ppc_time_init (t0 t1 : Z) : decr := snd (set_decr t1 (mkDecr t0 (u32 (BUS_FREQ * FREQ_DIV) / TIMER_FREQUENCY) 0 0)).

(** pok_bsp_time_init, leon3/timer.c:49-63: the registers as they are when TIMER_CTRL_LD has loaded the counter. *)
Definition SPARC_PROC_FREQ := 50000000.
Definition sparc_time_init : gpt := mkGpt 1 1 (SPARC_PROC_FREQ / TIMER_FREQUENCY) (SPARC_PROC_FREQ / TIMER_FREQUENCY).
(** pok_tick_counter after that many timer_isr, leon3/timer.c:37-43. *)
Definition sparc_ticks (n : Z) : Z := u64 (10000 * n).
