(** The other traps of the SPARC port: saving and restoring the interrupted thread, the C part, threads. *)
From Verif Require Import Model.Base Spec.SparcCpu Spec.SparcWindows Model.SparcEntry.
From Verif Require Spec.SparcThreads.

(** Addresses that the linker fixes: of the three call instructions of trap_prehandler (a call leaves its own address in %o7), the kernel
    stack, the idle thread's stack and the variable pok_arch_sp. *)
Record kern := mkKern { at_save : Z; at_handler : Z; at_restore : Z; kstack : Z; idlestack : Z; arch_sp : Z }.

(** kernel/arch/sparc/context_offset.h:49-68 (the registers of windows are in [spill] and [fill]). *)
Definition G_OFF (r : Z) : Z := 32 - 4 * r.                     (* %g1 at 0x1c, ..., %g7 at 0x04 *)
Definition I_OFF (r : Z) : Z := 0x20 + 4 * (r - 24).            (* %i0 at 0x20, ..., %i7 at 0x3c *)
Definition WIM_OFF := 0x40.  Definition PSR_OFF := 0x44.  Definition Y_OFF := 0x48.
Definition PC_OFF := 0x4c.   Definition NPC_OFF := 0x50.  Definition CNT_OFF := 0x54.

(** entry.S:9-13, trap_handle; entry.S:188-197, trap_prehandler up to the call of context_save. *)
Definition trap_handle (tt : Z) : list instr := [Rdwim 16; Rdpsr 19; Movi 20 tt].
Definition prehandler (k : kern) : list instr := [Sub 14 30 0x40; Rdpsr 22; Ori 21 22 0xFE0; Wrpsr 21; Movi 15 (at_save k)].

(** entry.S:278-308, context_save up to save_loop. *)
Definition save_head : list instr :=
  [Rdpsr 8; Andn 8 8 0x20; Wrpsr 8;
   St 1 30 (-0x1c); St 2 30 (-0x18); St 3 30 (-0x14); St 4 30 (-0x10); St 5 30 (-0x0c); St 6 30 (-0x08); St 7 30 (-0x04);
   St 24 30 (-0x20); St 25 30 (-0x24); St 26 30 (-0x28); St 27 30 (-0x2c); St 28 30 (-0x30); St 29 30 (-0x34); St 30 30 (-0x38); St 31 30 (-0x3c);
   And 3 8 31; Movi 2 1; Sllr 2 2 3; Rdwim 1; Mov 7 15; Movi 6 0].
(** entry.S:309-341: the loop over the windows in use; the processor has eight. *)
Definition zero_flag (c : sparc) : bool := Z.testbit (psr c) 22.
Fixpoint save_loop (fuel : nat) (c : sparc) : option sparc :=
  match fuel with
  | O => None
  | S f =>
      match run [Sll 4 2 1; Srl 2 2 7; Or 2 2 4; Andcc 2 1] c with
      | None => None
      | Some c1 => if zero_flag c1 then match run ([Restore; Sub 6 6 (-1)] ++ spill) c1 with None => None | Some c2 => save_loop f c2 end else Some c1
      end
  end.
(** entry.S:343-374. *)
Definition save_tail : list instr :=
  [Rdpsr 5; Andn 5 5 31; Or 5 5 3; Ori 5 5 0x20; Wrpsr 5;
   Movi 5 1; Sllr 5 5 3; Sll 1 5 1; Srl 5 5 7; Or 5 5 1; Wrwim 5;
   St 16 30 (-0x40); St 19 30 (-0x44); Rdy 11; St 11 30 (-0x48); St 17 30 (-0x4c); St 18 30 (-0x50); St 6 30 (-0x54)].
(** entry.S:200-217: the kernel stack, the arguments and the call of trap_handler. *)
Definition call_handler (k : kern) : list instr :=
  [Mov 22 30; Movi 23 (kstack k); Sub 23 23 0x40; Andn 23 23 0xf; Mov 14 23; Mov 30 23;
   Mov 8 17; Mov 9 18; Mov 10 19; Mov 11 20; Mov 12 6; Movi 15 (at_handler k); Mov 13 22].
Definition bind (x : option sparc) (f : sparc -> option sparc) : option sparc := match x with None => None | Some c => f c end.
(** From the trap to the call of the C function. *)
Definition enter (k : kern) (tt : Z) (c : sparc) : option sparc :=
  bind (run (trap_handle tt ++ prehandler k ++ save_head) (trap c)) (fun c1 =>
  bind (save_loop 8 c1) (fun c2 => run (save_tail ++ call_handler k) c2)).

(** kernel/arch/sparc/traps.c:50-78, trap_handler. [isr]: the table pok_sparc_isr; a handler is what a C function does to the processor.
    [fatal]: what POK_FATAL does; it is nothing unless POK_NEEDS_DEBUG is set (core/debug.h:28, 35). *)
Definition trap_handler (k : kern) (isr : Z -> option (sparc -> option sparc)) (fatal : sparc -> option sparc) (c : sparc) : option sparc :=
  let c1 := set_mem (upd (mem c) (arch_sp k) (reg c 13)) c in
  match isr (reg c 11) with Some h => h c1 | None => fatal c1 end.

(** entry.S:219-223, 400-425: the call of context_restore and its part before the loop. *)
Definition restore_head (k : kern) : list instr :=
  [Movi 6 (arch_sp k); Ld 6 0 2; Movi 15 (at_restore k);
   Mov 7 15; Rdpsr 16; Andn 16 16 0xf; Ori 16 16 7; Wrpsr 16; Mov 30 2;
   Ld 2 (-0x54) 1; Ld 2 (-0x4c) 3; Ld 2 (-0x50) 4; Movi 16 1; Sllr 16 16 1; Wrwim 16; Tst 1].
(** entry.S:427-444. [None] also when the counter is larger than the number of windows, which context_save never stores. *)
Fixpoint restore_loop (fuel : nat) (c : sparc) : option sparc :=
  match fuel with
  | O => None
  | S f => match run ([Restore] ++ fill ++ [Subcc 1 1 1]) c with None => None | Some c1 => if zero_flag c1 then Some c1 else restore_loop f c1 end
  end.
(** entry.S:447-480 and 232-242. *)
Definition restore_tail : list instr :=
  [Rdpsr 6; Andn 6 6 31; Ori 6 6 7; Wrpsr 6; Mov 18 2; Mov 19 3; Mov 20 4; Mov 23 7;
   Ld 18 (-0x1c) 1; Ld 18 (-0x18) 2; Ld 18 (-0x14) 3; Ld 18 (-0x10) 4; Ld 18 (-0x0c) 5; Ld 18 (-0x08) 6; Ld 18 (-0x04) 7;
   Ld 18 (-0x20) 24; Ld 18 (-0x24) 25; Ld 18 (-0x28) 26; Ld 18 (-0x2c) 27; Ld 18 (-0x30) 28; Ld 18 (-0x34) 29; Ld 18 (-0x38) 30; Ld 18 (-0x3c) 31;
   Mov 30 18; Rdpsr 16; Andn 16 16 0xF20; Wrpsr 16; JmpRett 19 20].
Definition leave (k : kern) (c : sparc) : option sparc :=
  bind (run (restore_head k) c) (fun c1 =>
  bind (if zero_flag c1 then Some c1 else restore_loop 8 c1) (fun c2 => run restore_tail c2)).

(** A trap from beginning to end. *)
Definition whole (k : kern) (isr : Z -> option (sparc -> option sparc)) (fatal : sparc -> option sparc) (tt : Z) (c : sparc) : option sparc :=
  bind (enter k tt c) (fun c1 => bind (trap_handler k isr fatal c1) (leave k)).

(** ** C functions *)
(** syscalls.c:37-73, pok_arch_sc_int; [core]: pok_core_syscall with the number and the five arguments, what it returns and what it does to
    the processor. *)
Definition arch_sc_int (k : kern) (core : Z -> list Z -> sparc -> option (Z * sparc)) (c : sparc) : option sparc :=
  let ctx := mem c (arch_sp k) in
  match core (mem c (ctx - 0x20)) (map (fun r => mem c (ctx - I_OFF r)) [25; 26; 27; 28; 29]) c with
  | None => None
  | Some (ret, c1) =>
      let m1 := upd (mem c1) (ctx - 0x20) ret in
      let m2 := upd m1 (ctx - PC_OFF) (u32 (m1 (ctx - PC_OFF) + 4)) in
      Some (set_mem (upd m2 (ctx - NPC_OFF) (u32 (m2 (ctx - NPC_OFF) + 4))) c1)
  end.
(** thread.c:61-64, pok_context_switch: the stack pointers change places; [old]: the address of the old thread's one. *)
Definition context_switch (k : kern) (old new : Z) (c : sparc) : sparc :=
  set_mem (upd (upd (mem c) old (mem c (arch_sp k))) (arch_sp k) new) c.
(** thread.c:34-48, pok_context_create, and space.c:128-146, pok_space_context_create (where the memory is reached through the physical
    address [ctx], the thread through its virtual one). *)
Definition context_create (k : kern) (id entry : Z) (m : Z -> Z) : Z * (Z -> Z) :=
  let ctx := idlestack k - 0x40 in
  (ctx, upd (upd (upd (upd m (ctx - CNT_OFF) 1) (ctx - PC_OFF) entry) (ctx - NPC_OFF) (u32 (entry + 4))) (ctx - 0x24) id).
Definition space_context_create (ctx entry arg1 arg2 : Z) (m : Z -> Z) : Z -> Z :=
  upd (upd (upd (upd (upd m (ctx - CNT_OFF) 1) (ctx - PC_OFF) entry) (ctx - NPC_OFF) (u32 (entry + 4))) (ctx - 0x20) arg1) (ctx - 0x24) arg2.
(** thread.c:66-81, pok_context_reset: both arguments are ignored. *)
Definition context_reset (k : kern) (m : Z -> Z) : Z -> Z :=
  let ctx := idlestack k - 0x40 in
  let id := m (ctx - PC_OFF) in let entry := m (ctx - 0x24) in
  upd (upd (upd (upd m (ctx - CNT_OFF) 1) (ctx - PC_OFF) entry) (ctx - NPC_OFF) (u32 (entry + 4))) (ctx - 0x24) id.

(** ** The table of traps *)
(** entry.S:27-144. *)
Inductive vector := Reset | WindowOverflow | WindowUnderflow | Handle.
Definition vector_of (tt : Z) : vector :=
  if tt =? 0x05 then WindowOverflow else if tt =? 0x06 then WindowUnderflow
  else if (0x01 <=? tt) && (tt <=? 0x0B) then Handle
  else if (0x11 <=? tt) && (tt <=? 0x1E) then Handle
  else if (0x20 <=? tt) && (tt <=? 0x2C) then Handle
  else if (tt =? 0x3C) || (tt =? 0x82) then Handle
  else Reset.
(** syscalls.c:80, leon3/timer.c:58: the handlers that are registered, SPARC_TRAP_SYSCALL_BASE + 2 and SPARC_TRAP_IRQ_BASE + TIMER_IRQ. *)
Definition registered (tick core : sparc -> option sparc) (tt : Z) : option (sparc -> option sparc) :=
  if tt =? 0x82 then Some core else if tt =? 0x18 then Some tick else None.

(** ** Threads *)
(** The processor and the number of the running thread: [Go] is the code of the program (the program counters are put where it takes them),
    [Switch j] the timer's interrupt with a handler [h i j] that goes from thread [i] to thread [j]. *)
Definition c_event (k : kern) (fatal : sparc -> option sparc) (h : nat -> nat -> sparc -> option sparc) (s : nat * sparc) (e : SparcThreads.event) : option (nat * sparc) :=
  let (i, c) := s in
  match e with
  | SparcThreads.Go l p q => match c_run c l with Some c' => Some (i, set_pcs p q c') | None => None end
  | SparcThreads.Switch j => match whole k (registered (h i j) (fun _ => None)) fatal 0x18 c with Some c' => Some (j, c') | None => None end
  end.
Fixpoint c_events (k : kern) (fatal : sparc -> option sparc) (h : nat -> nat -> sparc -> option sparc) (s : nat * sparc) (l : list SparcThreads.event) {struct l} : option (nat * sparc) :=
  match l with [] => Some s | e :: r => match c_event k fatal h s e with Some s' => c_events k fatal h s' r | None => None end end.
