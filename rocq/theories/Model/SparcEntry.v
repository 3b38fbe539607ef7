(** The trap code of the SPARC port. *)
From Verif Require Import Model.Base Spec.SparcCpu Spec.SparcWindows.

(** ** Window traps *)
(** kernel/arch/sparc/regwin.S:40-47, entry.S:331-341: the sixteen registers of a window at its stack pointer. *)
Definition spill : list instr :=
  [Std 16 14 0x00; Std 18 14 0x08; Std 20 14 0x10; Std 22 14 0x18; Std 24 14 0x20; Std 26 14 0x28; Std 28 14 0x30; Std 30 14 0x38].
(** kernel/arch/sparc/regwin.S:88-95, entry.S:432-440. *)
Definition fill : list instr :=
  [Ldd 14 0x00 16; Ldd 14 0x08 18; Ldd 14 0x10 20; Ldd 14 0x18 22; Ldd 14 0x20 24; Ldd 14 0x28 26; Ldd 14 0x30 28; Ldd 14 0x38 30].

(** kernel/arch/sparc/regwin.S:14-51, window_overflow_trap_handler; WINDOWS_NBR is 8 (leon3/sparc_conf.h:28). *)
Definition overflow : list instr :=
  [Rdwim 19; Mov 23 1; Srl 1 19 1; Sll 20 19 7; Or 1 20 1; Save; Wrwim 1] ++ spill ++ [Restore; Mov 1 23; JmpRett 17 18].
(** kernel/arch/sparc/regwin.S:63-99, window_underflow_trap_handler. *)
Definition underflow : list instr :=
  [Rdwim 19; Sll 20 19 1; Srl 21 19 7; Or 21 21 20; Wrwim 21; Restore; Restore] ++ fill ++ [Save; Save; JmpRett 17 18].

(** The instructions save %sp, -n, %sp and restore with a result [v] for register [d], with the trap of a full or an empty window file
    (manual, B.20): the value is computed in the old window. entry.S:34-35: the traps go straight to the handlers; the instruction is
    executed again afterwards. *)
Definition shift_down (n : Z) (c : sparc) : sparc :=
  set_reg 14 (u32 (reg c 14 - n)) (set_psr (set_cwp (below (cwp c)) (psr c)) c).
Definition shift_up (d v : Z) (c : sparc) : sparc := set_reg d v (set_psr (set_cwp (above (cwp c)) (psr c)) c).
Definition do_save (n : Z) (c : sparc) : option sparc :=
  if Z.testbit (wim c) (below (cwp c)) then
    match run overflow (trap c) with
    | None => None
    | Some c' => if Z.testbit (wim c') (below (cwp c')) then None else Some (shift_down n c')
    end
  else Some (shift_down n c).
Definition do_restore (d : Z) (value : sparc -> Z) (c : sparc) : option sparc :=
  if Z.testbit (wim c) (above (cwp c)) then
    match run underflow (trap c) with
    | None => None
    | Some c' => if Z.testbit (wim c') (above (cwp c')) then None else Some (shift_up d (value c') c')
    end
  else Some (shift_up d (value c) c).

(** A program on the processor. *)
Definition c_step (c : sparc) (i : op) : option sparc :=
  match i with
  | Set_ d rs f => Some (set_reg d (f (map (reg c) rs)) c)
  | Load d rs f => let a := f (map (reg c) rs) in if fine c 4 a then Some (set_reg d (mem c a) c) else None
  | Store rs f g => let a := f (map (reg c) rs) in if fine c 4 a then Some (set_mem (upd (mem c) a (g (map (reg c) rs))) c) else None
  | Call n => do_save n c
  | Ret d rs f => do_restore d (fun c => f (map (reg c) rs)) c
  end.
Fixpoint c_run (c : sparc) (l : list op) : option sparc :=
  match l with [] => Some c | i :: t => match c_step c i with Some c' => c_run c' t | None => None end end.
