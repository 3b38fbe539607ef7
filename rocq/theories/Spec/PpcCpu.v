(** The part of a 32-bit PowerPC processor that the exception, switch and return code of the kernel uses (Programming
    Environments Manual, 32-bit: mfspr, mtspr, mtcrf, stw, stwu, lwz, andi., sc, rfi, exception model).

    Words are at the address of their first byte; addresses are multiples of 4 and do not wrap. *)
From Verif Require Import Model.Base.

(** Special registers by their number in mtspr; CR and MSR, which have instructions of their own, get numbers that do not
    occur. *)
Definition XER := 1.    Definition LR := 8.       Definition CTR := 9.
Definition DSISR := 18. Definition DAR := 19.     Definition SRR0 := 26.   Definition SRR1 := 27.
Definition SPRG1 := 273. Definition SPRG2 := 274. Definition SPRG3 := 275.
Definition CR := 2048.  Definition MSR := 2049.

Record ppc := mkPpc { gpr : Z -> Z; spr : Z -> Z; pc : Z; mem : Z -> Z }.
Definition set_gpr (r v : Z) (c : ppc) := mkPpc (upd (gpr c) r v) (spr c) (pc c) (mem c).
Definition set_spr (r v : Z) (c : ppc) := mkPpc (gpr c) (upd (spr c) r v) (pc c) (mem c).
Definition set_pc (v : Z) (c : ppc) := mkPpc (gpr c) (spr c) v (mem c).
Definition set_word (a v : Z) (c : ppc) := mkPpc (gpr c) (spr c) (pc c) (upd (mem c) a v).

(** Bits of the MSR: external interrupts and decrementer enabled, user mode. Those that exceptions save in SRR1 and rfi restores, and
    those that exceptions leave (ME and IP). *)
Definition EE := 2 ^ 15.
Definition PR := 2 ^ 14.
Definition MSR_SAVED := 0xff73.
Definition MSR_KEPT := 0x1040.
Definition user (c : ppc) : bool := Z.testbit (spr c MSR) 14.
Definition enabled (c : ppc) : bool := Z.testbit (spr c MSR) 15.

(** [Mf r s], [Mt s r]: from and to special registers (mflr, mfsprg, mfcr, mfmsr ...). [Andi d s n]: andi., which sets the first
    field of CR. [FailEq], [FailNe]: conditional branches to the endless loop [failed]. [SkipEq n]: beq over [n]
    instructions. [Bl h]: a C function, as what it does to the processor between call and return. *)
Inductive instr :=
| Mf (r s : Z) | Mt (s r : Z) | Mr (d s : Z) | Stw (r off a : Z) | Stwu (r off a : Z) | Lwz (r off a : Z)
| Addi (d s n : Z) | Andi (d s n : Z) | Ori (d s n : Z) | Xor (d s t : Z)
| FailEq | FailNe | SkipEq (n : nat) | Bl (h : ppc -> option ppc) | Blr | Rfi.

(** The field CR0 after a result: negative, positive, zero, and the overflow bit of XER. *)
Definition cr0 (c : ppc) (v : Z) : Z :=
  (spr c CR) mod 2 ^ 28 + (if v =? 0 then 2 ^ 29 else if Z.testbit v 31 then 2 ^ 31 else 2 ^ 30) + (if Z.testbit (spr c XER) 31 then 2 ^ 28 else 0).
Definition eq_bit (c : ppc) : bool := Z.testbit (spr c CR) 29.

(** [None]: the processor stays in the loop [failed]. *)
Definition exec (i : instr) (c : ppc) : option ppc :=
  match i with
  | Mf r s => Some (set_gpr r (spr c s) c)
  | Mt s r => Some (set_spr s (gpr c r) c)
  | Mr d s => Some (set_gpr d (gpr c s) c)
  | Stw r off a => Some (set_word (gpr c a + off) (gpr c r) c)
  | Stwu r off a => Some (set_gpr a (gpr c a + off) (set_word (gpr c a + off) (gpr c r) c))
  | Lwz r off a => Some (set_gpr r (mem c (gpr c a + off)) c)
  | Addi d s n => Some (set_gpr d (gpr c s + n) c)
  | Andi d s n => let v := Z.land (gpr c s) n in Some (set_spr CR (cr0 c v) (set_gpr d v c))
  | Ori d s n => Some (set_gpr d (Z.lor (gpr c s) n) c)
  | Xor d s t => Some (set_gpr d (Z.lxor (gpr c s) (gpr c t)) c)
  | FailEq => if eq_bit c then None else Some c
  | FailNe => if eq_bit c then Some c else None
  | SkipEq _ => Some c
  | Bl h => h c
  | Blr => Some (set_pc (spr c LR) c)
  | Rfi => Some (set_pc (spr c SRR0) (set_spr MSR (Z.land (spr c SRR1) MSR_SAVED) c))
  end.
Fixpoint run_skip (skip : nat) (l : list instr) (c : ppc) : option ppc :=
  match l with
  | [] => Some c
  | i :: r =>
      match skip with
      | S k => run_skip k r c
      | O => match exec i c with
             | None => None
             | Some c' => run_skip (match i with SkipEq n => if eq_bit c then n else O | _ => O end) r c'
             end
      end
  end.
Definition run : list instr -> ppc -> option ppc := run_skip O.

(** An exception: where to go on and the MSR are saved ([cause]: bits of SRR1 that say why), the processor goes to supervisor mode
    without interrupts and translation. *)
Definition exception (resume cause : Z) (c : ppc) : ppc :=
  mkPpc (gpr c)
    (upd (upd (upd (spr c) SRR0 resume) SRR1 (Z.lor (Z.land (spr c MSR) MSR_SAVED) cause)) MSR (Z.land (spr c MSR) MSR_KEPT))
    (pc c) (mem c).
(** Bits of the cause are none of those that are saved. *)
Definition is_cause (cause : Z) : Prop := Z.land cause MSR_SAVED = 0.

(** What a C function keeps (System V ABI): the stack pointer, r2, r13 to r31, the MSR, and the [n] bytes on top of the stack but
    the word at 4, which is the callee's. *)
Definition keeps (n : Z) (c c' : ppc) : Prop :=
  gpr c' 1 = gpr c 1 /\ gpr c' 2 = gpr c 2 /\ (forall r, 13 <= r < 32 -> gpr c' r = gpr c r) /\ spr c' MSR = spr c MSR /\
  (forall a, gpr c 1 <= a < gpr c 1 + n -> a <> gpr c 1 + 4 -> mem c' a = mem c a).
Definition c_function (n : Z) (h : ppc -> option ppc) : Prop := forall c c', h c = Some c' -> keeps n c c'.

(** The program goes on at [at_] with all its registers. *)
Definition resumed (at_ : Z) (c c' : ppc) : Prop :=
  pc c' = at_ /\ (forall r, 0 <= r < 32 -> gpr c' r = gpr c r) /\
  spr c' LR = spr c LR /\ spr c' CTR = spr c CTR /\ spr c' XER = spr c XER /\ spr c' CR = spr c CR /\ spr c' MSR = spr c MSR.
(** Memory is the same outside the [n] bytes from [lo] on. *)
Definition same_but (lo n : Z) (m m' : Z -> Z) : Prop := forall a, a < lo \/ lo + n <= a -> m' a = m a.
