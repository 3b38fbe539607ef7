(** Interrupt descriptor table of an i386 processor (Intel SDM volume 3, "IDT descriptors", "Exception and interrupt
    handler procedures", "Protection of exception and interrupt handler procedures"). *)
From Verif Require Import Model.Base Spec.X86Cpu.

Record gate := mkGate { g_offset : Z; g_sel : Z; g_type : Z; g_dpl : Z; g_present : bool }.
(** The fields of a descriptor of eight bytes: offset in bits 0-15 and 48-63, selector 16-31, type 40-44, privilege level
    45-46, present 47. *)
Definition bits (w lo n : Z) : Z := (w / 2 ^ lo) mod 2 ^ n.
Definition decode (w : Z) : gate :=
  mkGate (bits w 0 16 + bits w 48 16 * 2 ^ 16) (bits w 16 16) (bits w 40 5) (bits w 45 2) (bits w 47 1 =? 1).

(** 32-bit interrupt and trap gates. *)
Definition INT_GATE := 14.
Definition TRAP_GATE := 15.

(** What vector [n] leads to: the address of the handler and whether the gate is a trap gate; [None]: another fault is
    raised instead. [limit]: of the table; [code]: the levels of the present code segments; [level]: privilege level in
    force; [soft]: by an INT instruction, and not by an interrupt or an exception. *)
Definition vector (idt : Z -> Z) (limit : Z) (code : Z -> option Z) (level n : Z) (soft : bool) : option (Z * bool) :=
  let g := decode (idt n) in
  if limit <? 8 * n + 7 then None
  else if negb ((g_type g =? INT_GATE) || (g_type g =? TRAP_GATE)) then None
  else if soft && (g_dpl g <? level) then None
  else if negb (g_present g) then None
  else if g_sel g <? 4 then None
  else match code (g_sel g / 8) with
       | Some d => if d <=? level then Some (g_offset g, g_type g =? TRAP_GATE) else None
       | None => None
       end.
