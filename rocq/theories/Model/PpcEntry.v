(** Exceptions and system calls of the PowerPC port: kernel/arch/ppc/entry.S. Instructions are listed one by one; branches to [failed] (entry.S:77) are
    the instructions FailEq and FailNe of Spec/PpcCpu.v. The port does not compile at this commit (space.c:62 defines pok_space_context_create with five
    parameters, include/arch.h:72 declares six). *)
From Verif Require Import Model.Base Spec.PpcCpu.

(** entry.S:4. *)
Definition FRAME_SIZE := 80.

(** SAVE_REGS, entry.S:7-34. *)
Definition save_regs : list instr :=
  [Mf 4 LR; Stw 4 (FRAME_SIZE + 4) 1; Mf 4 CTR; Stw 4 64 1; Mf 4 XER; Stw 4 68 1; Stw 3 8 1; Stw 0 12 1; Stw 2 16 1;
   Mf 0 SPRG3; Stw 0 20 1; Mf 0 SPRG2; Stw 0 24 1; Stw 5 28 1; Stw 6 32 1; Stw 7 36 1; Stw 8 40 1; Stw 9 44 1; Stw 10 48 1;
   Stw 11 52 1; Stw 12 56 1; Stw 13 60 1; Mf 3 SRR0; Stw 3 72 1; Mf 4 SRR1; Stw 4 76 1].

(** pok_arch_rfi, entry.S:44-75. *)
Definition arch_rfi : list instr :=
  [Lwz 13 60 1; Lwz 12 56 1; Lwz 11 52 1; Lwz 10 48 1; Lwz 9 44 1; Lwz 8 40 1; Lwz 7 36 1; Lwz 6 32 1; Lwz 5 28 1; Lwz 4 24 1;
   Lwz 3 20 1; Lwz 2 16 1; Lwz 0 84 1; Mt LR 0; Lwz 0 64 1; Mt CTR 0; Lwz 0 68 1; Mt XER 0; Lwz 0 72 1; Mt SRR0 0; Lwz 0 76 1; Mt SRR1 0;
   Andi 0 0 PR; SkipEq 2; Addi 0 1 FRAME_SIZE; Mt SPRG1 1; Lwz 0 8 1; Mt CR 0; Lwz 0 12 1; Lwz 1 0 1; Rfi].

(** The first five instructions of every handler, entry.S:126-130. *)
Definition prologue : list instr := [Mt SPRG3 3; Mt SPRG2 4; Mf 3 CR; Mf 4 SRR1; Andi 4 4 PR].
(** Entry from user mode, entry.S:131-136. *)
Definition from_user : list instr := [FailEq; Mr 4 1; Mf 1 SPRG1; Stwu 4 (- FRAME_SIZE) 1].

(** dsi_0300, entry.S:125-143; isi_0400, :146-161. *)
Definition dsi (h : ppc -> option ppc) : list instr :=
  prologue ++ from_user ++ save_regs ++ [Mf 3 DAR; Mf 4 DSISR; Bl h] ++ arch_rfi.
Definition isi (h : ppc -> option ppc) : list instr := prologue ++ from_user ++ save_regs ++ [Bl h] ++ arch_rfi.
(** decrementer_0900, entry.S:182-197. *)
Definition decrementer (h : ppc -> option ppc) : list instr :=
  prologue ++ [FailNe; Stwu 1 (- FRAME_SIZE) 1] ++ save_regs ++ [Bl h] ++ arch_rfi.
(** system_call_0C00, entry.S:208-237. *)
Definition system_call (h : ppc -> option ppc) : list instr :=
  prologue ++ from_user ++ save_regs ++
  [Lwz 3 20 1; Lwz 4 24 1; Lwz 5 28 1; Lwz 6 32 1; Lwz 7 36 1; Lwz 8 40 1; Mf 0 MSR; Ori 0 0 EE; Mt MSR 0; Bl h; Stw 3 20 1] ++ arch_rfi.

(** Which code runs for the exception at offset [v] of the vectors: entry.S:119-370. All offsets but these four branch to
    reserved_2F00, which branches to [failed] ([None]: the processor never leaves it). The reset vector (:81-117) is the start of the kernel
    and not modelled. *)
Definition vector (hdsi hisi hdecr hsc : ppc -> option ppc) (v : Z) : option (list instr) :=
  if v =? 0x300 then Some (dsi hdsi) else if v =? 0x400 then Some (isi hisi)
  else if v =? 0x900 then Some (decrementer hdecr) else if v =? 0xc00 then Some (system_call hsc) else None.
Definition deliver (hdsi hisi hdecr hsc : ppc -> option ppc) (v resume cause : Z) (c : ppc) : option ppc :=
  match vector hdsi hisi hdecr hsc v with None => None | Some l => run l (exception resume cause c) end.
