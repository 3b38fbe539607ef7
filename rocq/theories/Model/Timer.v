(** The timer of the x86 board: kernel/arch/x86/x86-qemu/pit.c, kernel/include/core/time.h. *)
From Verif Require Import Model.Base.

(** core/time.h:24, core/time.h:30, pit.c:27, pit.c:29. *)
Definition POK_TIMER_FREQUENCY := 100000.
Definition POK_TIMER_QUANTUM := 1000.
Definition OSCILLATOR_RATE := 1193182.
Definition NS_ONE_SECOND := 1000000000.

(** The three static variables (pit.c:35-37). *)
Record pit_const := mkPit { pit_divisor : Z; pit_increment : Z; pit_quantum : Z }.

(** pok_x86_qemu_timer_init, pit.c:56-76, for the frequencies of core/time.h as parameters: integer divisions of
    long long values, stored into uint32_t. [None]: one of the assertions of lines 66-67 fails, or a frequency is
    zero. The writes to the ports of the timer chip are not modelled except for the divisor. *)
Definition timer_init (freq quant : Z) : option pit_const :=
  if (freq =? 0) || (quant =? 0) then None
  else
    let d := u32 (OSCILLATOR_RATE / freq) in
    let inc := u32 (d * NS_ONE_SECOND / OSCILLATOR_RATE) in
    let q := u32 (NS_ONE_SECOND / quant) in
    if (d <=? 65536) && (inc <=? q) then Some (mkPit d inc q) else None.

(** pok_tick_counter (uint64_t) and the static variable quantum_counter (uint32_t, pit.c:44), both zero at start. *)
Record pit_state := mkPitState { pit_ticks : Z; pit_qc : Z }.
Definition pit_start : pit_state := mkPitState 0 0.

(** pit_interrupt, pit.c:42-54; the result tells whether pok_global_sched is called. *)
Definition pit_interrupt (c : pit_const) (s : pit_state) : pit_state * bool :=
  let ticks := u64 (pit_ticks s + pit_increment c) in
  let qc := u32 (pit_qc s + pit_increment c) in
  if pit_quantum c <=? qc then (mkPitState ticks (u32 (qc - pit_quantum c)), true)
  else (mkPitState ticks qc, false).

(** [n] interrupts: the state and, for each of them, whether it called the scheduler. *)
Fixpoint pit_run (c : pit_const) (n : nat) (s : pit_state) : pit_state * list bool :=
  match n with
  | O => (s, [])
  | S k => let '(s1, b) := pit_interrupt c s in let '(s2, bs) := pit_run c k s1 in (s2, b :: bs)
  end.
